(** Several fragmented messages at once, and invariants of the receiver under
    arbitrary input. *)
From Coq Require Import NArith List Bool Lia Arith.
From Verif Require Import Base BaseLemmas MessageModel CodecSpec CodecProofs PendingChainModel BitCount
  PendingChainProofs FragSpec FragRun FragmentSendModel ReaderModel ReaderLoopModel ReaderSpec ReaderProofs
  ReaderRun FragSession.
Import ListNotations.
Local Open Scope N_scope.

(** What the session makes observable for a report. *)
Definition reportEvents (s : rcv) (t : N) (r : report) : list event :=
  match r with
  | Delivered m => map toEvent (route (map fst (messengers s)) (readChans s)
                                  {| wType := t; wFlags := 0; wPayload := m |})
  | _ => []
  end.

Lemma reportEvents_toRes : forall s t r, resEvents s t (toRes r) = reportEvents s t r.
Proof. intros s t []; reflexivity. Qed.

Lemma okOut_ideal : forall M all arr seen,
  Forall (fun f => 24 + len (snd f) <= len M) arr -> len M < 2^32 ->
  Forall2 okOut arr (map toRes (ideal M all seen arr)).
Proof.
  intros M all. induction arr as [|f arr IH]; intros seen HF HM; cbn [ideal map]; constructor.
  - inversion HF; subst. unfold okOut. destruct (complete all seen); [discriminate|].
    destruct (complete all (f :: seen)); [|discriminate]. cbn [toRes]. intros m E. injection E as <-. auto.
  - inversion HF; subst. apply IH; auto.
Qed.

Lemma skipn_short : forall A (l : list A) n, (length l <= n)%nat -> skipn n l = [].
Proof. intros. apply skipn_all2. auto. Qed.

Section Family.
  Variable typ : N -> N.
  Variable msg : N -> bytes.
  Variable pieces : N -> list bytes.
  Hypothesis pieces_msg : forall k, concat (pieces k) = msg k.
  Definition totOf (k : N) : N := len (msg k).

  (** All arrivals belong to messages of the window ending at [L], whose first
      fragment has been seen first. [Hrun] says that each chain by itself
      behaves ideally on its own arrivals. *)
  Lemma family_ideal : forall L s arr,
    handlersReady s -> detachOnMessagesCount s = 0 -> 0 < maxChainIDDiff s ->
    length (pendingChains s) = N.to_nat (maxChainIDDiff s) ->
    Forall bufok (pendingChains s) ->
    (exists a r, arr = a :: r /\ aId a = L) -> lastRemoteChainID s < L < 2^64 ->
    Forall (fun a => typ (aId a) < 2^32 /\ aFlags a < 2^8 /\ N.testbit (aFlags a) 1 = true /\
                     window L (maxChainIDDiff s) (aId a) /\
                     In (aFrag a) (tiles 0 (pieces (aId a)))) arr ->
    (forall k, window L (maxChainIDDiff s) k -> 0 < len (msg k) <= maxFragmentedMessageSize s /\ len (msg k) < 2^32 /\
       Forall (fun p => 24 + len p <= len (msg k)) (pieces k)) ->
    (forall k c, window L (maxChainIDDiff s) k ->
       nth_error (pendingChains s) (N.to_nat (k mod maxChainIDDiff s)) = Some c -> len (cdata c) <= len (msg k)) ->
    (forall k c, window L (maxChainIDDiff s) k -> bufok c -> proj k arr <> [] -> exists c',
       mergeAll (chainInit c (len (msg k))) (proj k arr) =
         Ret (c', map toRes (ideal (msg k ++ skipn (length (msg k)) (cdata c)) (tiles 0 (pieces k)) [] (proj k arr)))) ->
    exists s' outs, fragRun typ totOf s arr = Ret (s', outs) /\ map fst outs = map aId arr /\
      rev (out s') = rev (out s) ++ concat (map snd outs) /\ sameState s s' /\
      forall k, window L (maxChainIDDiff s) k ->
        map snd (filter (fun x => fst x =? k) outs) =
        map (reportEvents s (typ k)) (ideal (msg k) (tiles 0 (pieces k)) [] (proj k arr)).
  Proof.
    intros L s arr Hr Hdt Hd Hlen Hbuf (a & r & Ea & EL) [HL HL2] HF Hmsg Hsmall Hrun.
    assert (Hok : forall a, In a arr -> arr_ok typ totOf a).
    { intros x Hx. rewrite Forall_forall in HF. destruct (HF x Hx) as (F1 & F2 & F3 & [W1 W2] & F4).
      destruct (Hmsg (aId x) (conj W1 W2)) as ([M1 M2] & M3 & M4).
      destruct (aFrag x) as [p b] eqn:Ef. pose proof F4 as F5. apply tiles_fragOf in F4. destruct F4 as [F4 _].
      rewrite pieces_msg in F4. cbn [fst snd] in F4. unfold arr_ok, totOf. rewrite Ef. cbn [fst snd].
      apply tiles_in in F5. destruct F5 as (pa & pb & Ep & _).
      rewrite Forall_forall in M4. specialize (M4 b). rewrite Ep in M4.
      specialize (M4 ltac:(apply in_or_app; right; left; reflexivity)).
      unfold len in *. repeat split; auto; lia. }
    set (s0 := setChains s L (map chainReset (pendingChains s))).
    assert (E0 : fragRun typ totOf s arr = fragRun typ totOf s0 arr).
    { rewrite Ea in *. unfold s0. rewrite <- EL. apply fragRun_newer; auto.
      - apply Hok. left; auto.
      - rewrite EL. auto. }
    rewrite E0.
    assert (Hslot : forall k, window L (maxChainIDDiff s) k -> exists c,
       nth_error (pendingChains s) (N.to_nat (k mod maxChainIDDiff s)) = Some c).
    { intros k Hk. destruct (nth_error (pendingChains s) (N.to_nat (k mod maxChainIDDiff s))) as [c|] eqn:E; [eauto|].
      apply nth_error_None in E. rewrite Hlen in E.
      pose proof (N.mod_lt k (maxChainIDDiff s) ltac:(lia)). lia. }
    assert (Hideal : forall k c, window L (maxChainIDDiff s) k ->
       nth_error (pendingChains s) (N.to_nat (k mod maxChainIDDiff s)) = Some c ->
       exists c', slotRun (maxFragmentedMessageSize s) (totOf k) (chainReset c) (proj k arr) =
         Ret (c', map toRes (ideal (msg k) (tiles 0 (pieces k)) [] (proj k arr)))).
    { intros k c Hk Hc. destruct (Hmsg k Hk) as ([M1 M2] & M3 & M4).
      destruct (proj k arr) as [|f fs] eqn:Ep; [eexists; reflexivity|]. rewrite <- Ep.
      assert (Bc : bufok (chainReset c)).
      { apply chainReset_bufok. rewrite Forall_forall in Hbuf. apply Hbuf. eapply nth_error_In; eauto. }
      rewrite slotRun_fresh; [|reflexivity|exact M1|exact M2|rewrite Ep; discriminate].
      destruct (Hrun k (chainReset c) Hk Bc) as (c' & Hm); [rewrite Ep; discriminate|].
      rewrite skipn_short, app_nil_r in Hm by (specialize (Hsmall k c Hk Hc); unfold len in Hsmall; cbn [chainReset cdata]; lia).
      exists c'. exact Hm. }
    destruct (fragRun_slots typ totOf arr s0 L (maxChainIDDiff s)) as (s' & outs & R1 & R2 & R3 & R4 & R5 & R6); auto.
    { rewrite Forall_forall in *. intros x Hx. split; [auto|]. apply HF in Hx. tauto. }
    { intros k Hk. destruct (Hslot k Hk) as [c Hc]. destruct (Hideal k c Hk Hc) as [c' Hi].
      exists (chainReset c), c', (map toRes (ideal (msg k) (tiles 0 (pieces k)) [] (proj k arr))).
      split; [cbn [s0 setChains pendingChains]; apply map_nth_error; auto|]. split; [exact Hi|].
      destruct (Hmsg k Hk) as (_ & M3 & M4). apply okOut_ideal; auto.
      rewrite Forall_forall in *. intros [p b] Hf. unfold proj in Hf. apply in_map_iff in Hf.
      destruct Hf as (x & Ex & Hx). apply filter_In in Hx. destruct Hx as [Hx Exk]. apply N.eqb_eq in Exk.
      apply HF in Hx. destruct Hx as (_ & _ & _ & _ & Hx). rewrite Ex, Exk in Hx.
      apply tiles_in in Hx. destruct Hx as (pa & pb & Epc & _). cbn [snd]. apply M4. rewrite Epc.
      apply in_or_app; right; left; reflexivity. }
    exists s', outs. split; [exact R1|]. split; [exact R5|]. split; [exact R4|].
    split; [eapply sameState_trans; [apply setChains_same|exact R2]|].
    intros k Hk. destruct (Hslot k Hk) as [c Hc]. destruct (Hideal k c Hk Hc) as [c' Hi].
    destruct (R6 k (chainReset c) c' (map toRes (ideal (msg k) (tiles 0 (pieces k)) [] (proj k arr))) Hk) as [_ T].
    { cbn [s0 setChains pendingChains]. apply map_nth_error; auto. }
    { exact Hi. }
    rewrite T, map_map. apply map_ext. intros x. rewrite reportEvents_toRes. reflexivity.
  Qed.
End Family.

(** ** What the sender produces *)
Definition sentPieces (est : N) (m : bytes) : list bytes := cut (length m) (N.to_nat (est - 24)) m.

Lemma sub32_small : forall a b, b <= a -> a < 2^32 -> sub32 a b = a - b.
Proof.
  intros a b H1 H2. unfold sub32. replace (a + (2^32 - b)) with ((a - b) + 1 * 2^32) by lia.
  rewrite N.mod_add by lia. apply N.mod_small. lia.
Qed.

Lemma splitMessage_spec : forall est m, 24 < est < 2^32 -> len m < 2^32 ->
  splitMessage est m = SplitDone (tiles 0 (sentPieces est m)).
Proof.
  intros est m [H1 H2] Hm. unfold splitMessage, sentPieces, messageFragmentHeadersSize.
  rewrite sub32_small by lia. apply splitLoop_spec; auto; lia.
Qed.

Lemma sentPieces_facts : forall est m, 24 < est ->
  concat (sentPieces est m) = m /\ nonempty_pieces (sentPieces est m) /\
  Forall (fun p => 24 + len p <= est) (sentPieces est m) /\
  Forall (fun p => 24 + len p = est) (removelast (sentPieces est m)).
Proof.
  intros est m H. unfold sentPieces.
  pose proof (cut_sizes (length m) (N.to_nat (est - 24)) m ltac:(lia)) as S.
  pose proof (cut_full (length m) (N.to_nat (est - 24)) m ltac:(lia) (le_n _)) as F.
  split; [apply cut_concat; lia|]. rewrite Forall_forall in *. unfold nonempty_pieces. rewrite !Forall_forall.
  split; [intros p Hp; apply S; auto|]. split.
  - intros p Hp. destruct (S p Hp) as [_ Hl]. unfold len. lia.
  - intros p Hp. apply F in Hp. unfold len. lia.
Qed.

Lemma sentPieces_big : forall est m, 88 <= est -> pieces_at_least 64 (sentPieces est m).
Proof.
  intros est m H. destruct (sentPieces_facts est m ltac:(lia)) as (_ & _ & _ & F).
  unfold pieces_at_least. rewrite Forall_forall in *. intros p Hp. apply F in Hp. unfold len in Hp. lia.
Qed.

(** ** Invariants under arbitrary input *)
Record okRcv (s : rcv) : Prop := {
  ok_handlers : handlersReady s;
  ok_diff : 0 < maxChainIDDiff s;
  ok_max : maxFragmentedMessageSize s < 2^63;
  ok_len : length (pendingChains s) = N.to_nat (maxChainIDDiff s);
  ok_chains : Forall wfc (pendingChains s)
}.

Lemma wfc_reset : forall c, wfc c -> wfc (chainReset c).
Proof.
  intros c [W E R M V K]. constructor; cbn [chainReset isSet cdata expected received]; rewrite ?map_length; auto.
  - apply w64_zeros.
  - cbn. lia.
  - rewrite total_zeros. auto.
  - intros. unfold marked. cbn. apply bitAt_zeros, zeros_map.
Qed.

Lemma wfc_empty : wfc emptyChain.
Proof. constructor; cbn; auto; try lia. intros. unfold marked. cbn. apply bitAt_zeros. constructor. Qed.

Lemma Forall_setNth : forall A (P : A -> Prop) l i x, Forall P l -> P x -> Forall P (setNth l i x).
Proof. intros A P l i x H. revert i. induction H; intros [|i] Hx; cbn; auto. Qed.

Lemma chainMerge_wfc : forall c fh b, wfc c -> fStartPos fh + len b < 2^64 ->
  exists c' o, chainMerge c fh b = Ret (c', o) /\ wfc c' /\
    (forall m, o = Ok (Some m) -> m = cdata c') /\ length (cdata c') = length (cdata c).
Proof.
  intros c [id pos tt] b W Hs. cbn [fStartPos] in Hs.
  destruct (expected c <=? received c) eqn:E1.
  { apply N.leb_le in E1. rewrite merge_dup by auto. exists c, (Err ErrDuplicateChain).
    split; [auto|]. split; [auto|]. split; [discriminate|auto]. }
  apply N.leb_gt in E1.
  destruct (expected c <? pos + len b) eqn:E2.
  { exists c, (Err ErrOutOfRange). split; [|split; [auto|]; split; [discriminate|auto]].
    unfold chainMerge. cbn [fStartPos].
    replace (expected c <=? received c) with false by (symmetry; apply N.leb_gt; auto).
    replace (add64 (len b) pos) with (pos + len b) by (unfold add64; rewrite N.mod_small; lia).
    rewrite E2. reflexivity. }
  apply N.ltb_ge in E2.
  destruct (chainMerge_spec c id tt (N.to_nat pos) b W E1) as (c' & M1 & M2 & M3 & M4 & M5 & M6).
  { unfold len in E2. lia. }
  rewrite N2Nat.id in M1. exists c'. eexists. split; [exact M1|]. split; [exact M2|]. split.
  - destruct (expected c' <=? received c'); [congruence|discriminate].
  - rewrite M5. apply splice_length. pose proof (wf_exp c W). unfold len in E2. lia.
Qed.

Lemma okRcv_setChains : forall s L cs, okRcv s -> length cs = length (pendingChains s) -> Forall wfc cs ->
  okRcv (setChains s L cs).
Proof. intros s L cs [A B C D E] H1 H2. constructor; cbn; auto. congruence. Qed.

Lemma okRcv_same : forall s s', okRcv s -> sameState s s' -> pendingChains s' = pendingChains s -> okRcv s'.
Proof.
  intros s s' [A B C D E] [(S1 & S2 & S3 & S4 & S5 & S6) S7] H. constructor.
  - unfold handlersReady in *. rewrite S5. auto.
  - congruence.
  - congruence.
  - congruence.
  - rewrite H. auto.
Qed.

Lemma processIncomingMessage_ok : forall s h p, handlersReady s -> mLength h <= len p ->
  exists s', processIncomingMessage s h p = Ret s' /\ pendingChains s' = pendingChains s.
Proof.
  intros s h p H Hl. unfold processIncomingMessage. rewrite lookup_ready by exact H.
  rewrite gslice_some by lia.
  destruct (existsb (N.eqb (mType h)) (map fst (messengers s))); [eexists; split; reflexivity|].
  destruct (memN (mType h) (readChans s)); eexists; split; reflexivity.
Qed.

Lemma fragment_ok : forall s h fh p, okRcv s -> fStartPos fh + len p < 2^64 ->
  exists s' n, processIncomingMessageFragment s h fh p = Ret (s', n) /\ okRcv s'.
Proof.
  intros s h fh p Hok Hp. unfold processIncomingMessageFragment.
  set (s1 := if lastRemoteChainID s <? fChainID fh then _ else s).
  assert (Hok1 : okRcv s1).
  { unfold s1. destruct (lastRemoteChainID s <? fChainID fh); auto. apply okRcv_setChains; auto.
    - apply map_length.
    - destruct Hok as [_ _ _ _ W]. rewrite Forall_forall in *. intros c Hc. apply in_map_iff in Hc.
      destruct Hc as (c0 & <- & Hc). apply wfc_reset; auto. }
  clearbody s1. cbn zeta. pose proof Hok1 as [A B C D E].
  destruct (maxChainIDDiff s1 <? _); [eauto|].
  replace (maxChainIDDiff s1 =? 0) with false by (symmetry; apply N.eqb_neq; lia).
  destruct (nth_error (pendingChains s1) (N.to_nat (fChainID fh mod maxChainIDDiff s1))) as [c|] eqn:Ec.
  2:{ exfalso. apply nth_error_None in Ec. pose proof (N.mod_lt (fChainID fh) (maxChainIDDiff s1) ltac:(lia)). lia. }
  assert (Wc : wfc c). { rewrite Forall_forall in E. apply E. eapply nth_error_In; eauto. }
  destruct ((expected c =? 0) && (maxFragmentedMessageSize s1 <? fTotal fh)) eqn:Ez; [eauto|].
  set (c1 := if expected c =? 0 then chainInit c (fTotal fh) else c).
  assert (Wc1 : wfc c1).
  { unfold c1. destruct (expected c =? 0); auto. cbn [andb] in Ez. apply N.ltb_ge in Ez.
    apply chainInit_spec; [apply wfc_bufok; auto|lia]. }
  destruct (chainMerge_wfc c1 fh p Wc1 Hp) as (c' & o & M1 & M2 & M3 & M4). rewrite M1.
  set (s2 := setChains s1 _ _).
  assert (Hok2 : okRcv s2).
  { apply okRcv_setChains; auto; [apply setNth_length|]. apply Forall_setNth; auto. }
  destruct o as [[m|]|e]; [|eauto|eauto].
  specialize (M3 m eq_refl).
  destruct (processIncomingMessage_ok s2 {| mType := mType h; mLength := u32 (len m); mFlags := mFlags h |} m) as (s3 & P1 & P2).
  { apply Hok2. }
  { cbn [mLength]. unfold u32. apply N.mod_le. lia. }
  rewrite P1. exists s3. eexists. split; [reflexivity|].
  eapply okRcv_same; [exact Hok2|eapply processIncomingMessage_same; eauto|exact P2].
Qed.

(** A message is benign if, read as a fragment, its position does not wrap. *)
Definition noWrap (h : msgHdr) (m : bytes) : Prop :=
  isFragmented (mFlags h) = true -> forall n fh, fragRead m = Ok (n, fh) -> fStartPos fh + len m < 2^64.

Lemma handleMsg_ok : forall s h m, okRcv s -> len m = mLength h -> noWrap h m ->
  exists s' o, handleMsg s h m = Ret (s', o) /\ okRcv s'.
Proof.
  intros s h m Hok Hl Hw. unfold handleMsg, handleOne. cbn zeta.
  set (cond := (0 <? detachOnMessagesCount s) && negb (mType h =? messageTypeKeyExchange) && negb (mType h =? messageTypeNegotiation)).
  set (s1 := if cond then setCount s _ else s).
  assert (Hok1 : okRcv s1).
  { unfold s1. destruct cond; auto. eapply okRcv_same; [exact Hok|apply setCount_same|reflexivity]. }
  set (cnt := if cond then receivedMessagesCount s1 else 0).
  assert (Fin : forall s2 (nl : N), okRcv s2 -> exists s' (o : option N),
     (if (0 <? cnt) && (detachOnMessagesCount s2 <=? cnt)
      then if (sessState s2 =? SessionStateKeyExchanging) && answerAndWait s2 then Ret (s2, None)
           else Ret (setSessState (emit s2 EvClose) SessionStateClosing, None)
      else Ret (s2, Some nl)) = Ret (s', o) /\ okRcv s').
  { intros s2 nl H2. destruct ((0 <? cnt) && _).
    - destruct (_ && answerAndWait s2); eexists _, _; (split; [reflexivity|]); auto.
      destruct H2; constructor; auto.
    - eauto. }
  clearbody s1 cnt. destruct (isFragmented (mFlags h)) eqn:Ef.
  - destruct (fragRead m) as [[n fh]|e] eqn:Er.
    + assert (Hn : n = 24 /\ 24 <= len m).
      { destruct (N.lt_ge_cases (len m) 24) as [Hs|Hs].
        - rewrite fragRead_short in Er by auto. discriminate.
        - unfold fragRead, messageFragmentHeadersSize in Er.
          replace (len m <? 24) with false in Er by (symmetry; apply N.ltb_ge; auto). injection Er as <- _. auto. }
      destruct Hn as [-> Hn]. rewrite gslice_some by lia.
      set (p := firstn _ _).
      destruct (fragment_ok s1 h fh p Hok1) as (s2 & nl & P1 & P2).
      { specialize (Hw Ef _ _ Er). assert (len p <= len m); [|lia].
        unfold p, len. rewrite firstn_length, skipn_length. lia. }
      rewrite P1. apply Fin. exact P2.
    + eexists _, _. split; [reflexivity|]. eapply okRcv_same; [exact Hok1|apply emit_same|reflexivity].
  - destruct (processIncomingMessage_ok s1 h m) as (s2 & P1 & P2); [apply Hok1|lia|].
    rewrite P1. apply Fin. eapply okRcv_same; [exact Hok1|eapply processIncomingMessage_same; eauto|exact P2].
Qed.

(** ** Memory *)
Definition chainMem (s : rcv) (c : chain) : Prop :=
  len (cdata c) <= maxFragmentedMessageSize s /\
  64 * len (isSet c) <= maxFragmentedMessageSize s + 63.
Definition memOk (s : rcv) : Prop :=
  len (pendingChains s) = maxChainIDDiff s /\ Forall (chainMem s) (pendingChains s).

Lemma copyAt_length : forall d p b d', copyAt d p b = Some d' -> length d' = length d.
Proof.
  intros d p b d' H. unfold copyAt in H. destruct (len d <? p) eqn:E; [discriminate|].
  apply N.ltb_ge in E. injection H as <-. unfold len in E.
  rewrite !app_length, !firstn_length, skipn_length. lia.
Qed.
Lemma orAt_length : forall l i v l' n, orAt l i v = Some (l', n) -> length l' = length l.
Proof.
  induction l; intros [|i] v l' n H; cbn in H; try discriminate.
  - injection H as <- _. reflexivity.
  - destruct (orAt l i v) as [[r' n']|] eqn:E; [|discriminate]. injection H as <- _. cbn. f_equal. eauto.
Qed.
Lemma setWords_length : forall k l i l' n, setWords l i k = Some (l', n) -> length l' = length l.
Proof.
  induction k; intros l i l' n H; cbn [setWords] in H; [injection H as <- _; auto|].
  destruct (orAt l i (2 ^ 64 - 1)) as [[l1 n1]|] eqn:E; [|discriminate].
  destruct (setWords l1 (S i) k) as [[l2 n2]|] eqn:E2; [|discriminate]. injection H as <- _.
  apply IHk in E2. apply orAt_length in E. congruence.
Qed.
Lemma chainMerge_length : forall c h b c' o, chainMerge c h b = Ret (c', o) ->
  length (cdata c') = length (cdata c) /\ length (isSet c') = length (isSet c).
Proof.
  intros c h b c' o H. unfold chainMerge in H.
  destruct (expected c <=? received c); [injection H as <- _; auto|].
  destruct (expected c <? _); [injection H as <- _; auto|].
  destruct (copyAt _ _ _) as [d|] eqn:E1; [|discriminate].
  destruct (setWords _ _ _) as [[l1 n1]|] eqn:E2; [|discriminate].
  destruct (setTail _ _) as [[l2 n2]|] eqn:E3; [|discriminate]. cbn zeta in H.
  assert (L : length l2 = length (isSet c)).
  { apply setWords_length in E2. unfold setTail in E3. destruct (_ <? _); [apply orAt_length in E3|injection E3 as <- _]; congruence. }
  apply copyAt_length in E1.
  destruct (expected c <=? _); injection H as <- _; cbn [cdata isSet]; auto.
Qed.

Lemma chainMem_same : forall s s' c, sameState s s' -> chainMem s c -> chainMem s' c.
Proof. intros s s' c [(_ & E & _) _] H. unfold chainMem in *. rewrite E. exact H. Qed.

Lemma memOk_same : forall s s', sameState s s' -> pendingChains s' = pendingChains s -> memOk s -> memOk s'.
Proof.
  intros s s' S E [H1 H2]. split.
  - rewrite E. destruct S as [(-> & _) _]. exact H1.
  - rewrite E. eapply Forall_impl; [|exact H2]. intros c. apply chainMem_same; auto.
Qed.

Lemma chainInit_mem : forall s c n, chainMem s c -> n <= maxFragmentedMessageSize s -> chainMem s (chainInit c n).
Proof.
  intros s c n [H1 H2] Hn. unfold chainInit, chainReset. cbn [isSet cdata].
  destruct (n <=? len (cdata c)).
  - unfold chainMem. cbn [isSet cdata]. split; auto. unfold len in *. rewrite map_length. auto.
  - unfold chainMem. cbn [isSet cdata]. unfold len. rewrite !repeat_length, !N2Nat.id. split; auto.
    assert (add64 n 63 <= n + 63) by (unfold add64; apply N.mod_le; lia).
    assert (64 * (add64 n 63 / 64) <= add64 n 63) by (apply N.mul_div_le; lia). lia.
Qed.

Lemma fragment_mem : forall s h fh p s' n, memOk s ->
  processIncomingMessageFragment s h fh p = Ret (s', n) -> memOk s'.
Proof.
  intros s h fh p s' n Hm H. unfold processIncomingMessageFragment in H. cbn zeta in H.
  set (s1 := if lastRemoteChainID s <? fChainID fh then _ else s) in H.
  assert (Hm1 : memOk s1).
  { unfold s1. destruct (lastRemoteChainID s <? fChainID fh); auto. destruct Hm as [A B]. split.
    - cbn. unfold len. rewrite map_length. exact A.
    - cbn. rewrite Forall_forall in *. intros c Hc. apply in_map_iff in Hc. destruct Hc as (c0 & <- & Hc).
      specialize (B c0 Hc). unfold chainMem in *. cbn. unfold len in *. rewrite map_length. exact B. }
  clearbody s1. clear Hm. destruct Hm1 as [A B].
  destruct (maxChainIDDiff s1 <? _); [injection H as <- _; split; auto|].
  destruct (maxChainIDDiff s1 =? 0); [discriminate|].
  destruct (nth_error (pendingChains s1) _) as [c|] eqn:Ec; [|discriminate].
  assert (Mc : chainMem s1 c). { rewrite Forall_forall in B. apply B. eapply nth_error_In; eauto. }
  destruct ((expected c =? 0) && (maxFragmentedMessageSize s1 <? fTotal fh)) eqn:Ez; [injection H as <- _; split; auto|].
  destruct (chainMerge _ fh p) as [[c' o]|] eqn:Em; [|discriminate].
  apply chainMerge_length in Em. destruct Em as [L1 L2].
  assert (Mc' : chainMem s1 c').
  { assert (M1 : chainMem s1 (if expected c =? 0 then chainInit c (fTotal fh) else c)).
    { destruct (expected c =? 0); auto. cbn [andb] in Ez. apply N.ltb_ge in Ez. apply chainInit_mem; auto. }
    unfold chainMem, len in *. rewrite L1, L2. exact M1. }
  set (s2 := setChains s1 _ _) in H.
  assert (M2 : memOk s2).
  { split.
    - unfold s2. cbn. unfold len in *. rewrite setNth_length. exact A.
    - unfold s2. cbn [setChains pendingChains]. apply Forall_setNth; [|exact Mc'].
      eapply Forall_impl; [|exact B]. intros x. apply chainMem_same, setChains_same. }
  clearbody s2. destruct o as [[m|]|e]; try (injection H as <- _; exact M2).
  destruct (processIncomingMessage s2 _ m) as [s3|] eqn:E; [|discriminate]. injection H as <- _.
  eapply memOk_same; [eapply processIncomingMessage_same; eauto| |exact M2].
  unfold processIncomingMessage in E. destruct (lookup _ _) as [bo|].
  - destruct (gslice m 0 _); [|discriminate]. destruct bo; [|discriminate]. injection E as <-. reflexivity.
  - destruct (gslice m 0 _); [|discriminate]. destruct (memN _ _); injection E as <-; reflexivity.
Qed.

Lemma processIncomingMessage_chains : forall s h p s', processIncomingMessage s h p = Ret s' ->
  pendingChains s' = pendingChains s.
Proof.
  intros s h p s' E. unfold processIncomingMessage in E. destruct (lookup _ _) as [bo|].
  - destruct (gslice p 0 _); [|discriminate]. destruct bo; [|discriminate]. injection E as <-. reflexivity.
  - destruct (gslice p 0 _); [|discriminate]. destruct (memN _ _); injection E as <-; reflexivity.
Qed.

Lemma memOk_state : forall s st, memOk s -> memOk (setSessState s st).
Proof. intros s st [A B]. split; auto. Qed.

Lemma handleMsg_mem : forall s h m s' o, memOk s -> handleMsg s h m = Ret (s', o) -> memOk s'.
Proof.
  intros s h m s' o Hm H. unfold handleMsg, handleOne in H. cbn zeta in H.
  set (cond := (0 <? detachOnMessagesCount s) && _ && _) in H.
  set (s1 := if cond then setCount s _ else s) in H.
  assert (Hm1 : memOk s1).
  { unfold s1. destruct cond; exact Hm. }
  set (cnt := if cond then receivedMessagesCount s1 else 0) in H. clearbody s1 cnt.
  assert (Fin : forall s2 (nl : N), memOk s2 ->
     (if (0 <? cnt) && (detachOnMessagesCount s2 <=? cnt)
      then if (sessState s2 =? SessionStateKeyExchanging) && answerAndWait s2 then Ret (s2, None)
           else Ret (setSessState (emit s2 EvClose) SessionStateClosing, None)
      else Ret (s2, Some nl)) = Ret (s', o) -> memOk s').
  { intros s2 nl H2 E. destruct ((0 <? cnt) && _).
    - destruct (_ && answerAndWait s2); injection E as <- _; auto.
    - injection E as <- _. auto. }
  destruct (isFragmented (mFlags h)).
  - destruct (fragRead m) as [[n fh]|e].
    + destruct (gslice m n (len m)) as [p|]; [|discriminate].
      destruct (processIncomingMessageFragment s1 h fh p) as [[s2 nl]|] eqn:E; [|discriminate].
      eapply Fin; [|exact H]. eapply fragment_mem; eauto.
    + injection H as <- _. eapply memOk_same; [apply emit_same|reflexivity|exact Hm1].
  - destruct (processIncomingMessage s1 h m) as [s2|] eqn:E; [|discriminate].
    eapply Fin; [|exact H].
    eapply memOk_same; [eapply processIncomingMessage_same; eauto|eapply processIncomingMessage_chains; eauto|exact Hm1].
Qed.

(** Any invariant of message handling is one of the reader loop. *)
Definition rdrOf (e : readerEnd) : option rdr :=
  match e with RRunning r => Some r | RFinished r => Some r | _ => None end.

Lemma readerLoop_inv : forall (P : rcv -> Prop) df eo,
  (forall s e, P s -> P (emit s e)) -> (forall s st, P s -> P (setSessState s st)) ->
  (forall s h m s' o, P s -> handleMsg s h m = Ret (s', o) -> P s') ->
  forall input r r', P (rS r) -> rdrOf (readerLoop df eo r input) = Some r' -> P (rS r').
Proof.
  intros P df eo He Hs Hh. induction input as [|p rest IH]; intros r r' HP H.
  - cbn [readerLoop] in H. destruct (isDoneState (sessState (rS r))); cbn in H; injection H as <-; cbn; auto.
  - rewrite readerLoop_cons in H. destruct (isDoneState (sessState (rS r))) eqn:Ed.
    { cbn in H. injection H as <-. cbn. auto. }
    destruct p as [i h| |e| |l content].
    + unfold readerLoopReadError in H. rewrite Ed in H. destruct i; [eapply IH; eauto|].
      destruct h; (eapply IH; [|exact H]); cbn; auto.
    + eapply IH; eauto.
    + unfold readerLoopDecryptError in H. cbn zeta in H.
      set (s1 := match eo with None => _ | Some _ => _ end) in H.
      assert (P s1). { unfold s1. destruct eo; [destruct (_ <=? _)|]; auto. }
      destruct (negb _); [eapply IH; [|exact H]; auto|]. cbn in H. injection H as <-. cbn. auto.
    + eapply IH; [|exact H]. auto.
    + destruct (processIncomingMessages (rS r) l content) as [s'| |] eqn:E; try discriminate.
      eapply IH; [|exact H]. cbn [rS]. unfold processIncomingMessages, runLoop in E.
      refine (procLoop_inv _ P _ _ _ _ _ _ _ _ _ _ _ E); auto.
Qed.
