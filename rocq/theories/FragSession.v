(** Fragments through the session: from packets to reassembled messages. *)
From Coq Require Import NArith List Bool Lia Arith.
From Verif Require Import Base BaseLemmas MessageModel CodecSpec CodecProofs PendingChainModel BitCount
  PendingChainProofs FragSpec FragRun FragmentSendModel ReaderModel ReaderLoopModel ReaderSpec ReaderProofs ReaderRun.
Import ListNotations.
Local Open Scope N_scope.

Lemma firstn_exact : forall A (a b : list A), firstn (length a) (a ++ b) = a.
Proof. intros. rewrite firstn_app, firstn_all, Nat.sub_diag. apply app_nil_r. Qed.
Lemma skipn_exact : forall A (a b : list A), skipn (length a) (a ++ b) = b.
Proof. intros. rewrite skipn_app, skipn_all, Nat.sub_diag. reflexivity. Qed.

(** ** Splitting *)
Fixpoint cut (fuel k : nat) (m : bytes) : list bytes :=
  match fuel, m with
  | S f, _ :: _ => firstn k m :: cut f k (skipn k m)
  | _, _ => []
  end.

Lemma splitLoop_no_fuel : forall fuel mx pos m, (length m <= fuel)%nat -> splitLoop fuel mx pos m <> SplitFuel.
Proof.
  induction fuel; intros mx pos m H; cbn [splitLoop].
  - destruct m; [|cbn in H; lia]. cbn. discriminate.
  - destruct (0 <? len m) eqn:E; [|discriminate]. apply N.ltb_lt in E.
    set (L := if u32 (len m) <? mx then _ else _). destruct (L =? 0) eqn:E0; [discriminate|].
    apply N.eqb_neq in E0.
    specialize (IHfuel mx (add64 pos L) (skipn (N.to_nat L) m)).
    destruct (splitLoop fuel mx _ _); try discriminate.
    apply IHfuel. rewrite skipn_length. lia.
Qed.

Lemma splitLoop_spec : forall fuel mx pos m, 0 < mx < 2^32 -> (length m <= fuel)%nat -> len m < 2^32 ->
  pos + len m < 2^64 ->
  splitLoop fuel mx pos m = SplitDone (tiles pos (cut fuel (N.to_nat mx) m)).
Proof.
  induction fuel; intros mx pos m Hmx Hf Hl Hp; cbn [splitLoop cut].
  - destruct m; [|cbn in Hf; lia]. reflexivity.
  - destruct m as [|x m]; [reflexivity|]. set (w := x :: m) in *.
    assert (Lw : 0 < len w) by (unfold w, len; cbn [length]; lia).
    replace (0 <? len w) with true by (symmetry; apply N.ltb_lt; auto).
    assert (U : u32 (len w) = len w) by (apply N.mod_small; exact Hl). rewrite U.
    destruct (len w <? mx) eqn:E.
    + apply N.ltb_lt in E. replace (len w =? 0) with false by (symmetry; apply N.eqb_neq; lia).
      assert (A : N.to_nat (len w) = length w) by (unfold len; lia). rewrite A.
      rewrite firstn_all, skipn_all. rewrite (firstn_all2 w (n := N.to_nat mx)), (skipn_all2 w (n := N.to_nat mx)) by lia.
      destruct fuel; reflexivity.
    + apply N.ltb_ge in E. replace (mx =? 0) with false by (symmetry; apply N.eqb_neq; lia).
      assert (A1 : length (firstn (N.to_nat mx) w) = N.to_nat mx)
        by (rewrite firstn_length; unfold len in E; lia).
      assert (A2 : len (skipn (N.to_nat mx) w) = len w - mx)
        by (unfold len in *; rewrite skipn_length; lia).
      assert (P : add64 pos mx = pos + mx) by (apply N.mod_small; lia).
      rewrite P, IHfuel; auto; try lia.
      * cbn [tiles]. rewrite A1. rewrite N2Nat.id. reflexivity.
      * rewrite skipn_length. lia.
Qed.

Lemma cut_concat : forall fuel k m, (0 < k)%nat -> (length m <= fuel)%nat -> concat (cut fuel k m) = m.
Proof.
  induction fuel; intros k m Hk H; cbn [cut].
  - destruct m; [reflexivity|cbn in H; lia].
  - destruct m as [|x m]; [reflexivity|]. cbn [concat]. rewrite IHfuel; auto.
    + apply firstn_skipn.
    + rewrite skipn_length. cbn [length] in *. lia.
Qed.

Lemma cut_sizes : forall fuel k m, (0 < k)%nat ->
  Forall (fun p => p <> [] /\ (length p <= k)%nat) (cut fuel k m).
Proof.
  induction fuel; intros k m Hk; cbn [cut]; [constructor|].
  destruct m as [|x m]; constructor; auto. split.
  - destruct k; [lia|]. cbn. discriminate.
  - rewrite firstn_length. lia.
Qed.

Lemma cut_full : forall fuel k m, (0 < k)%nat -> (length m <= fuel)%nat ->
  Forall (fun p => length p = k) (removelast (cut fuel k m)).
Proof.
  induction fuel; intros k m Hk H; cbn [cut]; [constructor|].
  destruct m as [|x m]; [constructor|]. set (w := x :: m) in *.
  assert (I : Forall (fun p => length p = k) (removelast (cut fuel k (skipn k w)))).
  { apply IHfuel; auto. unfold w in *. rewrite skipn_length. cbn [length] in *. lia. }
  destruct (cut fuel k (skipn k w)) as [|p r] eqn:E; [cbn; constructor|].
  change (Forall (fun p => length p = k) (firstn k w :: removelast (p :: r))).
  constructor; auto. rewrite firstn_length.
  assert (skipn k w <> []). { intros Z. rewrite Z in E. destruct fuel; discriminate. }
  destruct (Nat.le_gt_cases (length w) k); [|lia].
  exfalso. apply H0. apply skipn_all2. auto.
Qed.

(** ** One fragment packet *)
Section First.
  Context {St : Type}.
  Variable onErr : St -> gerr -> St.
  Variable handle : St -> msgHdr -> bytes -> outcome (St * option N).

  Lemma procLoop_first : forall m fuel s tail l, wireMsg_ok m ->
    len (wireBytes m) <= l -> l <= len (wireBytes m ++ tail) ->
    procLoop onErr handle (S fuel) s (wireBytes m ++ tail) l 0 =
      match handle s (hdrOf m) (wPayload m) with
      | Panic => LoopPanic
      | Ret (s', None) => LoopEnd s'
      | Ret (s', Some n) => procLoop onErr handle fuel s' (wireBytes m ++ tail) l (9 + n)
      end.
  Proof.
    intros m fuel s tail l Hm H1 H2. destruct (wire_hdr m Hm) as (hb & Ew & Lh & Hr).
    pose proof (wireBytes_len m) as Lw. rewrite Ew in *. rewrite <- app_assoc in *.
    cbn [procLoop]. unfold messageHeadersSize.
    replace (0 <? l) with true by (symmetry; apply N.ltb_lt; lia).
    replace (l - 0 <? 9) with false by (symmetry; apply N.ltb_ge; lia).
    assert (G1 : gslice (hb ++ wPayload m ++ tail) 0 (0 + 9) = Some hb).
    { rewrite gslice_some; [|lia|lia]. f_equal. change (N.to_nat (0 + 9 - 0)) with 9%nat.
      change (skipn (N.to_nat 0) (hb ++ wPayload m ++ tail)) with (hb ++ wPayload m ++ tail).
      rewrite <- Lh. apply firstn_exact. }
    rewrite G1, Hr.
    change (mLength (hdrOf m)) with (len (wPayload m)).
    replace (l - 0 <? 9 + len (wPayload m)) with false by (symmetry; apply N.ltb_ge; lia).
    assert (G2 : gslice (hb ++ wPayload m ++ tail) (0 + 9) (0 + 9 + len (wPayload m)) = Some (wPayload m)).
    { rewrite gslice_some; [|lia|]. 2:{ rewrite !len_app. unfold len. rewrite Lh. lia. }
      f_equal. change (N.to_nat (0 + 9)) with 9%nat. rewrite <- Lh, skipn_exact.
      replace (N.to_nat (0 + 9 + len (wPayload m) - (0 + 9))) with (length (wPayload m)) by (unfold len; lia).
      apply firstn_exact. }
    rewrite G2. reflexivity.
  Qed.

  Lemma runLoop_single : forall m s tail s' n, wireMsg_ok m ->
    handle s (hdrOf m) (wPayload m) = Ret (s', Some n) -> len (wPayload m) <= n ->
    runLoop onErr handle s (len (wireBytes m)) (wireBytes m ++ tail) = LoopEnd s'.
  Proof.
    intros m s tail s' n Hm H Hn. unfold runLoop. pose proof (wireBytes_len m) as Lw.
    rewrite N.min_r by (rewrite len_app; lia).
    destruct (length (wireBytes m ++ tail)) as [|f] eqn:E.
    { exfalso. rewrite app_length in E. unfold len in Lw. lia. }
    rewrite procLoop_first by (auto; rewrite ?len_app; lia). rewrite H.
    destruct f; cbn [procLoop]; replace (9 + n <? len (wireBytes m)) with false by (symmetry; apply N.ltb_ge; lia); reflexivity.
  Qed.
End First.

(** A fragment as it travels. *)
Definition fragWire (flags t id total : N) (f : N * bytes) : wireMsg :=
  {| wType := t; wFlags := flags;
     wPayload := le_enc 8 id ++ le_enc 8 (fst f) ++ le_enc 8 total ++ snd f |}.

Lemma fragWire_payload_len : forall flags t id total f,
  len (wPayload (fragWire flags t id total f)) = 24 + len (snd f).
Proof. intros. cbn [fragWire wPayload]. rewrite !len_app. unfold len. rewrite !le_enc_length. lia. Qed.

Lemma fragWire_read : forall flags t id total f, id < 2^64 -> fst f < 2^64 -> total < 2^64 ->
  fragRead (wPayload (fragWire flags t id total f)) = Ok (24, {| fChainID := id; fStartPos := fst f; fTotal := total |}).
Proof.
  intros flags t id total f H1 H2 H3.
  set (h := {| fChainID := id; fStartPos := fst f; fTotal := total |}).
  assert (Hw : fragWrite h (repeat 0 24 ++ snd f) = Ok (24, wPayload (fragWire flags t id total f))).
  { unfold fragWrite, messageFragmentHeadersSize.
    replace (len (repeat 0 24 ++ snd f) <? 24) with false
      by (symmetry; apply N.ltb_ge; rewrite len_app; unfold len; rewrite repeat_length; lia).
    reflexivity. }
  eapply frag_rw; [|exact Hw]. unfold fragHdr_ok. auto.
Qed.

Lemma fragWire_rest : forall flags t id total f,
  gslice (wPayload (fragWire flags t id total f)) 24 (len (wPayload (fragWire flags t id total f))) = Some (snd f).
Proof.
  intros. pose proof (fragWire_payload_len flags t id total f) as L.
  rewrite gslice_some by lia. f_equal.
  cbn [fragWire wPayload] in *. rewrite !app_assoc in *.
  set (h := (le_enc 8 id ++ le_enc 8 (fst f)) ++ le_enc 8 total) in *.
  assert (Lh : length h = 24%nat) by (unfold h; rewrite !app_length, !le_enc_length; reflexivity).
  change (N.to_nat 24) with 24%nat. rewrite <- Lh, skipn_exact.
  apply firstn_all2. rewrite L. unfold len. lia.
Qed.

(** ** One chain, many fragments *)
(** What the session does with the chain a fragment belongs to. *)
Definition slotStep (maxFrag total : N) (c : chain) (f : N * bytes) : outcome (chain * res (option bytes)) :=
  if (expected c =? 0) && (maxFrag <? total) then Ret (c, Ok None)
  else chainMerge (if expected c =? 0 then chainInit c total else c)
         {| fChainID := 0; fStartPos := fst f; fTotal := total |} (snd f).

Fixpoint slotRun (maxFrag total : N) (c : chain) (fs : list (N * bytes)) : outcome (chain * list (res (option bytes))) :=
  match fs with
  | [] => Ret (c, [])
  | f :: r => match slotStep maxFrag total c f with
              | Panic => Panic
              | Ret (c1, o) => match slotRun maxFrag total c1 r with
                               | Panic => Panic
                               | Ret (c2, os) => Ret (c2, o :: os)
                               end
              end
  end.

Lemma chainMerge_ids : forall c id1 t1 id2 t2 s b,
  chainMerge c {| fChainID := id1; fStartPos := s; fTotal := t1 |} b =
  chainMerge c {| fChainID := id2; fStartPos := s; fTotal := t2 |} b.
Proof. reflexivity. Qed.

Lemma chainMerge_expected : forall c h b c' o, chainMerge c h b = Ret (c', o) -> expected c' = expected c.
Proof.
  intros c h b c' o H. unfold chainMerge in H.
  destruct (expected c <=? received c); [injection H as <- _; auto|].
  destruct (expected c <? _); [injection H as <- _; auto|].
  destruct (copyAt _ _ _); [|discriminate].
  destruct (setWords _ _ _) as [[l1 n1]|]; [|discriminate].
  destruct (setTail _ _) as [[l2 n2]|]; [|discriminate]. cbn zeta in H. cbn [expected] in H.
  destruct (expected c <=? _); injection H as <- _; reflexivity.
Qed.

Lemma slotRun_started : forall maxFrag total fs c, expected c <> 0 ->
  slotRun maxFrag total c fs = mergeAll c fs.
Proof.
  induction fs as [|[p b] fs IH]; intros c H; [reflexivity|].
  cbn [slotRun mergeAll]. unfold slotStep.
  replace (expected c =? 0) with false by (symmetry; apply N.eqb_neq; auto). cbn [andb fst snd].
  rewrite (chainMerge_ids c 0 total 0 0).
  destruct (chainMerge c _ b) as [[c1 o]|] eqn:E; [|reflexivity].
  rewrite IH; [reflexivity|]. apply chainMerge_expected in E. congruence.
Qed.

Lemma chainInit_expected : forall c n, expected (chainInit c n) = n.
Proof. intros. unfold chainInit. destruct (n <=? _); reflexivity. Qed.

Lemma slotRun_fresh : forall maxFrag total fs c, expected c = 0 -> 0 < total -> total <= maxFrag -> fs <> [] ->
  slotRun maxFrag total c fs = mergeAll (chainInit c total) fs.
Proof.
  intros maxFrag total fs c H0 Ht Hm Hne. destruct fs as [|[p b] fs]; [congruence|].
  cbn [slotRun mergeAll]. unfold slotStep. rewrite H0. cbn [N.eqb].
  replace (maxFrag <? total) with false by (symmetry; apply N.ltb_ge; auto). cbn [andb fst snd].
  rewrite (chainMerge_ids _ 0 total 0 0).
  destruct (chainMerge _ _ b) as [[c1 o]|] eqn:E; [|reflexivity].
  rewrite slotRun_started; [reflexivity|]. apply chainMerge_expected in E. rewrite E, chainInit_expected. lia.
Qed.

(** ** The session *)
Lemma setNth_length : forall A (l : list A) i x, length (setNth l i x) = length l.
Proof. induction l; intros [|i] x; cbn; auto. Qed.
Lemma setNth_same : forall A (l : list A) i x, (i < length l)%nat -> nth_error (setNth l i x) i = Some x.
Proof. induction l; intros [|i] x H; cbn in *; auto; try lia. apply IHl. lia. Qed.
Lemma setNth_other : forall A (l : list A) i j x, i <> j -> nth_error (setNth l i x) j = nth_error l j.
Proof. induction l; intros [|i] [|j] x H; cbn; auto; try congruence. Qed.

Definition resEvents (s : rcv) (t : N) (o : res (option bytes)) : list event :=
  match o with
  | Ok (Some m) => map toEvent (route (map fst (messengers s)) (readChans s)
                                  {| wType := t; wFlags := 0; wPayload := m |})
  | _ => []
  end.

Lemma resEvents_same : forall s s' t o, sameState s s' -> resEvents s' t o = resEvents s t o.
Proof. intros s s' t o [(_ & _ & _ & _ & A & B) _]. unfold resEvents. rewrite A, B. reflexivity. Qed.

Lemma fragment_step : forall s h fh p c c' o,
  handlersReady s -> lastRemoteChainID s < 2^64 -> 0 < maxChainIDDiff s ->
  fChainID fh <= lastRemoteChainID s -> lastRemoteChainID s < fChainID fh + maxChainIDDiff s ->
  nth_error (pendingChains s) (N.to_nat (fChainID fh mod maxChainIDDiff s)) = Some c ->
  slotStep (maxFragmentedMessageSize s) (fTotal fh) c (fStartPos fh, p) = Ret (c', o) ->
  (forall m, o = Ok (Some m) -> 24 + len p <= len m < 2^32) ->
  mLength h = 24 + len p ->
  exists s' n, processIncomingMessageFragment s h fh p = Ret (s', n) /\ mLength h <= n /\
    sameState s s' /\ lastRemoteChainID s' = lastRemoteChainID s /\
    pendingChains s' = setNth (pendingChains s) (N.to_nat (fChainID fh mod maxChainIDDiff s)) c' /\
    out s' = rev (resEvents s (mType h) o) ++ out s.
Proof.
  intros s h fh p c c' o Hr HL Hd H1 H2 Hc Hs Ho Hl.
  unfold processIncomingMessageFragment.
  replace (lastRemoteChainID s <? fChainID fh) with false by (symmetry; apply N.ltb_ge; auto).
  assert (Hdiff : sub64 (lastRemoteChainID s) (fChainID fh) = lastRemoteChainID s - fChainID fh).
  { unfold sub64. replace (lastRemoteChainID s + (2^64 - fChainID fh))
      with ((lastRemoteChainID s - fChainID fh) + 1 * 2^64) by lia.
    rewrite N.mod_add by lia. apply N.mod_small. lia. }
  cbn zeta. rewrite Hdiff.
  replace (maxChainIDDiff s <? lastRemoteChainID s - fChainID fh) with false by (symmetry; apply N.ltb_ge; lia).
  replace (maxChainIDDiff s =? 0) with false by (symmetry; apply N.eqb_neq; lia).
  rewrite Hc. unfold slotStep in Hs. cbn [fst snd] in Hs.
  destruct ((expected c =? 0) && (maxFragmentedMessageSize s <? fTotal fh)) eqn:E.
  - injection Hs as <- <-. exists s, (mLength h). split; [reflexivity|]. split; [lia|].
    split; [apply sameState_refl|]. split; [reflexivity|]. split; [|reflexivity].
    (* writing back the same chain *)
    symmetry. clear - Hc. revert Hc. generalize (N.to_nat (fChainID fh mod maxChainIDDiff s)) as i.
    generalize (pendingChains s) as l. induction l; intros [|i] H; cbn in *; try discriminate; auto.
    + congruence.
    + f_equal. auto.
  - destruct fh as [id pos tot]. cbn [fChainID fStartPos fTotal] in *.
    rewrite (chainMerge_ids _ id tot 0 tot). rewrite Hs.
    destruct o as [[m|]|e].
    + specialize (Ho m eq_refl).
      assert (U : u32 (len m) = len m) by (apply N.mod_small; lia). rewrite U.
      set (s1 := setChains s _ _).
      assert (P : processIncomingMessage s1 {| mType := mType h; mLength := len m; mFlags := mFlags h |} m =
                  Ret (upd s1 (receivedMessagesCount s1) (sessState s1)
                        (rev (evsOf s1 {| wType := mType h; wFlags := mFlags h; wPayload := m |}) ++ out s1))).
      { rewrite <- process_route by exact Hr. rewrite upd_same. reflexivity. }
      rewrite P. eexists _, _. split; [reflexivity|]. cbn [mLength].
      split; [lia|]. split; [|split; [reflexivity|split; reflexivity]].
      unfold sameState, sameConf. cbn. auto 10.
    + eexists _, _. split; [reflexivity|]. split; [lia|]. split; [apply setChains_same|]. auto.
    + eexists _, _. split; [reflexivity|]. split; [lia|]. split; [apply setChains_same|]. auto.
Qed.

(** An arriving fragment: which message, flags, position and content. *)
Record arrival := { aId : N; aFlags : N; aFrag : N * bytes }.

Section Session.
  Variable typ tot : N -> N.   (* type and announced total length of each message *)

  Definition arrMsg (a : arrival) : wireMsg :=
    fragWire (aFlags a) (typ (aId a)) (aId a) (tot (aId a)) (aFrag a).

  (** Each fragment arrives in a packet of its own (writeMessageFragment sends
      it with writeMessageSingle). The result lists, per arrival, the chain ID
      and what became observable. *)
  Fixpoint fragRun (s : rcv) (arr : list arrival) : outcome (rcv * list (N * list event)) :=
    match arr with
    | [] => Ret (s, [])
    | a :: r =>
        match processIncomingMessages s (len (wireBytes (arrMsg a))) (wireBytes (arrMsg a)) with
        | LoopEnd s1 =>
            match fragRun s1 r with
            | Panic => Panic
            | Ret (s2, outs) =>
                Ret (s2, (aId a, rev (firstn (length (out s1) - length (out s)) (out s1))) :: outs)
            end
        | _ => Panic
        end
    end.

  Definition arr_ok (a : arrival) : Prop :=
    typ (aId a) < 2^32 /\ aFlags a < 2^8 /\ N.testbit (aFlags a) 1 = true /\
    aId a < 2^64 /\ tot (aId a) < 2^64 /\ fst (aFrag a) < 2^64 /\ 24 + len (snd (aFrag a)) < 2^32.

  Lemma arr_wire_ok : forall a, arr_ok a -> wireMsg_ok (arrMsg a).
  Proof.
    intros a (H1 & H2 & H3 & H4 & H5 & H6 & H7). unfold wireMsg_ok.
    pose proof (fragWire_payload_len (aFlags a) (typ (aId a)) (aId a) (tot (aId a)) (aFrag a)) as L.
    split; [exact H1|]. split; [exact H2|]. change (len (wPayload (arrMsg a)) < 2^32). unfold arrMsg. rewrite L. exact H7.
  Qed.

  Lemma handleMsg_frag : forall s a, arr_ok a -> detachOnMessagesCount s = 0 ->
    handleMsg s (hdrOf (arrMsg a)) (wPayload (arrMsg a)) =
    match processIncomingMessageFragment s (hdrOf (arrMsg a))
       {| fChainID := aId a; fStartPos := fst (aFrag a); fTotal := tot (aId a) |} (snd (aFrag a)) with
    | Panic => Panic
    | Ret (s', n) => Ret (s', Some n)
    end.
  Proof.
    intros s a (H1 & H2 & H3 & H4 & H5 & H6 & H7) Hd. unfold handleMsg, handleOne. rewrite Hd.
    change (0 <? 0) with false. cbn [andb]. cbn zeta.
    change (mFlags (hdrOf (arrMsg a))) with (aFlags a).
    assert (F : isFragmented (aFlags a) = true).
    { unfold isFragmented. change flagFragmented with (2^1). rewrite land_pow2_testbit. exact H3. }
    rewrite F. unfold arrMsg at 1 2 3. rewrite fragWire_read by auto. rewrite fragWire_rest.
    destruct (processIncomingMessageFragment s _ _ _) as [[s' n]|]; reflexivity.
  Qed.

  Definition proj (k : N) (arr : list arrival) : list (N * bytes) :=
    map aFrag (filter (fun a => aId a =? k) arr).

  Definition window (L d k : N) : Prop := k <= L /\ L < k + d.

  Lemma window_slots : forall L d k1 k2, 0 < d -> window L d k1 -> window L d k2 ->
    k1 mod d = k2 mod d -> k1 = k2.
  Proof.
    intros L d k1 k2 Hd [A1 A2] [B1 B2] E.
    pose proof (N.div_mod k1 d ltac:(lia)) as D1. pose proof (N.div_mod k2 d ltac:(lia)) as D2.
    destruct (N.lt_trichotomy (k1 / d) (k2 / d)) as [C|[C|C]].
    - assert (d * (k1 / d + 1) <= d * (k2 / d)) by (apply N.mul_le_mono_l; lia). lia.
    - rewrite C in D1. lia.
    - assert (d * (k2 / d + 1) <= d * (k1 / d)) by (apply N.mul_le_mono_l; lia). lia.
  Qed.

  Definition okOut (f : N * bytes) (o : res (option bytes)) : Prop :=
    forall m, o = Ok (Some m) -> 24 + len (snd f) <= len m < 2^32.

  Lemma fragRun_slots : forall arr s L d,
    handlersReady s -> detachOnMessagesCount s = 0 -> 0 < d -> maxChainIDDiff s = d ->
    lastRemoteChainID s = L -> L < 2^64 ->
    Forall (fun a => arr_ok a /\ window L d (aId a)) arr ->
    (forall k, window L d k -> exists c c' os,
       nth_error (pendingChains s) (N.to_nat (k mod d)) = Some c /\
       slotRun (maxFragmentedMessageSize s) (tot k) c (proj k arr) = Ret (c', os) /\
       Forall2 okOut (proj k arr) os) ->
    exists s' outs, fragRun s arr = Ret (s', outs) /\ sameState s s' /\ lastRemoteChainID s' = L /\
      rev (out s') = rev (out s) ++ concat (map snd outs) /\ map fst outs = map aId arr /\
      forall k c c' os, window L d k ->
        nth_error (pendingChains s) (N.to_nat (k mod d)) = Some c ->
        slotRun (maxFragmentedMessageSize s) (tot k) c (proj k arr) = Ret (c', os) ->
        nth_error (pendingChains s') (N.to_nat (k mod d)) = Some c' /\
        map snd (filter (fun x => fst x =? k) outs) = map (resEvents s (typ k)) os.
  Proof.
    induction arr as [|a arr IH]; intros s L d Hr Hdt Hd Hmd HL HLb HF Hslots.
    - exists s, []. split; [reflexivity|]. split; [apply sameState_refl|]. split; [auto|].
      split; [cbn; rewrite app_nil_r; reflexivity|]. split; [reflexivity|].
      intros k c c' os Hk Hc H. cbn in H. injection H as <- <-. auto.
    - inversion HF as [|? ? [Hok Hwin] HF']; subst.
      destruct (Hslots (aId a) Hwin) as (c & c' & os & Hc & Hrun & Hout).
      unfold proj in Hrun, Hout. cbn [filter] in Hrun, Hout. rewrite N.eqb_refl in Hrun, Hout.
      cbn [map slotRun] in Hrun, Hout. fold (proj (aId a) arr) in Hrun, Hout.
      destruct (slotStep (maxFragmentedMessageSize s) (tot (aId a)) c (aFrag a)) as [[c1 o]|] eqn:Es; [|discriminate].
      destruct (slotRun (maxFragmentedMessageSize s) (tot (aId a)) c1 (proj (aId a) arr)) as [[c2 os1]|] eqn:Er; [|discriminate].
      injection Hrun as <- <-. inversion Hout as [|? ? ? ? Ho Hout']; subst.
      set (fh := {| fChainID := aId a; fStartPos := fst (aFrag a); fTotal := tot (aId a) |}).
      assert (Hstep := fragment_step s (hdrOf (arrMsg a)) fh (snd (aFrag a)) c c1 o Hr HLb Hd).
      destruct Hwin as [W1 W2].
      destruct Hstep as (s1 & n & P1 & P2 & P3 & P4 & P5 & P6); auto.
      { unfold hdrOf. cbn [mLength]. unfold arrMsg. apply fragWire_payload_len. }
      assert (PI : processIncomingMessages s (len (wireBytes (arrMsg a))) (wireBytes (arrMsg a)) = LoopEnd s1).
      { unfold processIncomingMessages. rewrite <- (app_nil_r (wireBytes (arrMsg a))) at 2.
        eapply runLoop_single; [apply arr_wire_ok; auto| |].
        - rewrite handleMsg_frag by auto. fold fh. rewrite P1. reflexivity.
        - exact P2. }
      cbn [fragRun]. rewrite PI.
      pose proof P3 as [(Q1 & Q2 & Q3 & Q4 & Q5 & Q6) Q7].
      destruct (IH s1 (lastRemoteChainID s) (maxChainIDDiff s)) as (s' & outs & R1 & R2 & R3 & R4 & R4' & R5); auto.
      { unfold handlersReady. rewrite Q5. exact Hr. }
      { congruence. }
      { intros k Hk. rewrite P5, Q2. destruct (N.eq_dec k (aId a)) as [->|Hne].
        - exists c1, c2, os1. split; [|split; auto].
          apply setNth_same. apply nth_error_Some. rewrite Hc. discriminate.
        - destruct (Hslots k Hk) as (ck & ck' & osk & K1 & K2 & K3).
          unfold proj in K2, K3. cbn [filter] in K2, K3.
          replace (aId a =? k) with false in K2, K3 by (symmetry; apply N.eqb_neq; auto).
          exists ck, ck', osk. split; [|split; auto]. rewrite setNth_other; auto.
          intros E. apply Hne. symmetry. apply (window_slots (lastRemoteChainID s) (maxChainIDDiff s));
            [auto|split; auto|auto|apply N2Nat.inj; exact E]. }
      rewrite R1. eexists _, _. split; [reflexivity|]. split; [eapply sameState_trans; eauto|]. split; [exact R3|].
      assert (Ev : rev (firstn (length (out s1) - length (out s)) (out s1)) = resEvents s (typ (aId a)) o).
      { rewrite P6. rewrite app_length. replace (_ + _ - _)%nat with (length (rev (resEvents s (mType (hdrOf (arrMsg a))) o))) by lia.
        rewrite firstn_exact, rev_involutive. reflexivity. }
      split; [|split].
      { cbn [map snd concat]. rewrite R4, Ev, P6. rewrite rev_app_distr, rev_involutive, app_assoc. reflexivity. }
      { cbn [map fst]. rewrite R4'. reflexivity. }
      intros k ck ck' osk Hk Hck Hrunk. cbn [filter fst].
      destruct (N.eq_dec k (aId a)) as [->|Hne].
      + rewrite N.eqb_refl. cbn [map snd].
        unfold proj in Hrunk. cbn [filter] in Hrunk. rewrite N.eqb_refl in Hrunk. cbn [map slotRun] in Hrunk.
        fold (proj (aId a) arr) in Hrunk.
        rewrite Hc in Hck. injection Hck as <-. rewrite Es, Er in Hrunk. injection Hrunk as <- <-.
        destruct (R5 (aId a) c1 c2 os1 Hk) as [T1 T2].
        { rewrite P5. apply setNth_same. apply nth_error_Some. rewrite Hc. discriminate. }
        { rewrite Q2. exact Er. }
        split; [exact T1|]. rewrite Ev, T2. cbn [map]. f_equal. apply map_ext. intros. apply resEvents_same; auto.
      + replace (aId a =? k) with false by (symmetry; apply N.eqb_neq; auto).
        unfold proj in Hrunk. cbn [filter] in Hrunk.
        replace (aId a =? k) with false in Hrunk by (symmetry; apply N.eqb_neq; auto). fold (proj k arr) in Hrunk.
        destruct (R5 k ck ck' osk Hk) as [T1 T2].
        { rewrite P5. rewrite setNth_other; auto. intros E. apply Hne. symmetry.
          apply (window_slots (lastRemoteChainID s) (maxChainIDDiff s));
            [auto|split; auto|auto|apply N2Nat.inj; exact E]. }
        { rewrite Q2. exact Hrunk. }
        split; [exact T1|]. rewrite T2. apply map_ext. intros. apply resEvents_same; auto.
  Qed.

  (** The first fragment of a newer message resets everything. *)
  Lemma fragRun_newer : forall a arr s, arr_ok a -> detachOnMessagesCount s = 0 -> lastRemoteChainID s < aId a ->
    fragRun s (a :: arr) = fragRun (setChains s (aId a) (map chainReset (pendingChains s))) (a :: arr).
  Proof.
    intros a arr s Hok Hd Hn. cbn [fragRun].
    set (s0 := setChains s (aId a) (map chainReset (pendingChains s))).
    assert (E : forall onErr, runLoop onErr handleMsg s (len (wireBytes (arrMsg a))) (wireBytes (arrMsg a)) =
                              runLoop onErr handleMsg s0 (len (wireBytes (arrMsg a))) (wireBytes (arrMsg a))).
    { intros onErr. unfold runLoop. pose proof (wireBytes_len (arrMsg a)) as Lw.
      destruct (length (wireBytes (arrMsg a))) as [|f] eqn:E.
      { exfalso. unfold len in Lw. lia. }
      rewrite N.min_r by lia.
      rewrite <- (app_nil_r (wireBytes (arrMsg a))).
      rewrite !procLoop_first by (try (apply arr_wire_ok; auto); rewrite ?len_app, ?len_nil; lia).
      rewrite (handleMsg_frag s) by auto. rewrite (handleMsg_frag s0) by auto.
      assert (Q : forall h p, processIncomingMessageFragment s h {| fChainID := aId a; fStartPos := fst (aFrag a); fTotal := tot (aId a) |} p =
                 processIncomingMessageFragment s0 h {| fChainID := aId a; fStartPos := fst (aFrag a); fTotal := tot (aId a) |} p).
      { intros h p. unfold processIncomingMessageFragment. cbn [fChainID].
        replace (lastRemoteChainID s <? aId a) with true by (symmetry; apply N.ltb_lt; auto).
        change (lastRemoteChainID s0) with (aId a). replace (aId a <? aId a) with false by (symmetry; apply N.ltb_irrefl).
        reflexivity. }
      rewrite Q. reflexivity. }
    unfold processIncomingMessages. rewrite E. reflexivity.
  Qed.
End Session.
