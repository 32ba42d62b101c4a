(** What the parser and the reader loop amount to on well-formed batches of
    unfragmented messages. *)
From Coq Require Import NArith List Bool Lia Arith.
From Verif Require Import Base BaseLemmas MessageModel CodecSpec CodecProofs PendingChainModel
  ReaderModel ReaderLoopModel ReaderSpec ReaderProofs.
Import ListNotations.
Open Scope N_scope.

Definition toEvent (d : delivery) : event :=
  match d with ToHandler t p => EvHandler t p | ToQueue t p => EvQueue t p end.

(** All registered messengers have a handler. *)
Definition handlersReady (s : rcv) : Prop := Forall (fun x => snd x = true) (messengers s).

(** [s] with count, state and output replaced. *)
Definition upd (s : rcv) (c st : N) (o : list event) : rcv :=
  {| maxChainIDDiff := maxChainIDDiff s; maxFragmentedMessageSize := maxFragmentedMessageSize s;
     detachOnMessagesCount := detachOnMessagesCount s; answerAndWait := answerAndWait s;
     messengers := messengers s; readChans := readChans s; sessState := st;
     lastRemoteChainID := lastRemoteChainID s; pendingChains := pendingChains s;
     receivedMessagesCount := c; out := o |}.

Lemma upd_same : forall s, upd s (receivedMessagesCount s) (sessState s) (out s) = s.
Proof. destruct s; reflexivity. Qed.

Definition evsOf (s : rcv) (m : wireMsg) : list event :=
  map toEvent (route (map fst (messengers s)) (readChans s) m).

Lemma lookup_ready : forall k (l : list (N * bool)), Forall (fun x => snd x = true) l ->
  lookup k l = if existsb (N.eqb k) (map fst l) then Some true else None.
Proof.
  induction 1 as [|[k' v] l H F IH]; cbn [lookup map existsb fst]; auto.
  cbn in H. subst v. destruct (k =? k'); cbn [orb]; auto.
Qed.

Lemma gslice_all : forall A (l : list A), gslice l 0 (len l) = Some l.
Proof.
  intros. rewrite gslice_some by lia. rewrite N.sub_0_r. cbn [N.to_nat skipn].
  unfold len. rewrite Nat2N.id. cbn. f_equal. apply firstn_all.
Qed.

Lemma process_route : forall s c st o m, handlersReady s ->
  processIncomingMessage (upd s c st o) (hdrOf m) (wPayload m) = Ret (upd s c st (rev (evsOf s m) ++ o)).
Proof.
  intros s c st o m H. unfold processIncomingMessage. cbn [hdrOf mType mLength messengers upd readChans].
  rewrite lookup_ready by exact H. rewrite gslice_all. unfold evsOf, route, memN.
  destruct (existsb (N.eqb (wType m)) (map fst (messengers s))); [reflexivity|].
  destruct (existsb (N.eqb (wType m)) (readChans s)); reflexivity.
Qed.

Lemma plain_flag : forall m, isPlain m -> isFragmented (wFlags m) = false.
Proof.
  intros m H. unfold isFragmented. change flagFragmented with (2^1).
  rewrite land_pow2_testbit. exact H.
Qed.

Lemma isControl_types : forall m,
  isControl m = (wType m =? messageTypeKeyExchange) || (wType m =? messageTypeNegotiation).
Proof. reflexivity. Qed.

(** One message. *)
Lemma handleMsg_plain : forall s c st o m, handlersReady s -> isPlain m ->
  handleMsg (upd s c st o) (hdrOf m) (wPayload m) =
    let n := detachOnMessagesCount s in
    let counted := (0 <? n) && negb (isControl m) in
    let c' := if counted then add64 c 1 else c in
    let o' := rev (evsOf s m) ++ o in
    if counted && (0 <? c') && (n <=? c')
    then if (st =? SessionStateKeyExchanging) && answerAndWait s
         then Ret (upd s c' st o', None)
         else Ret (upd s c' SessionStateClosing (EvClose :: o'), None)
    else Ret (upd s c' st o', Some (len (wPayload m))).
Proof.
  intros s c st o m H P. unfold handleMsg, handleOne.
  change (mType (hdrOf m)) with (wType m). change (mFlags (hdrOf m)) with (wFlags m).
  change (mLength (hdrOf m)) with (len (wPayload m)).
  change (detachOnMessagesCount (upd s c st o)) with (detachOnMessagesCount s).
  rewrite plain_flag by auto. rewrite isControl_types, negb_orb, <- andb_assoc. cbn zeta.
  destruct ((0 <? detachOnMessagesCount s) &&
      (negb (wType m =? messageTypeKeyExchange) && negb (wType m =? messageTypeNegotiation))) eqn:E.
  - change (setCount (upd s c st o) (add64 (receivedMessagesCount (upd s c st o)) 1)) with (upd s (add64 c 1) st o).
    rewrite process_route by auto. cbn [receivedMessagesCount upd detachOnMessagesCount sessState answerAndWait andb].
    destruct ((0 <? add64 c 1) && (detachOnMessagesCount s <=? add64 c 1)); [|reflexivity].
    destruct ((st =? SessionStateKeyExchanging) && answerAndWait s); reflexivity.
  - rewrite process_route by auto. reflexivity.
Qed.

Lemma upd_upd : forall s c st o c' st' o', upd (upd s c st o) c' st' o' = upd s c' st' o'.
Proof. reflexivity. Qed.

Definition evsAll (s : rcv) (ms : list wireMsg) : list event := flat_map (evsOf s) ms.

Lemma evsAll_cons : forall s m ms o, rev (evsAll s ms) ++ rev (evsOf s m) ++ o = rev (evsAll s (m :: ms)) ++ o.
Proof. intros. unfold evsAll. cbn [flat_map]. rewrite rev_app_distr, <- app_assoc. reflexivity. Qed.

(** No limit: every message goes where it belongs. *)
Lemma fold_nolimit : forall ms s c st o, handlersReady s -> detachOnMessagesCount s = 0 -> Forall isPlain ms ->
  foldMsgs handleMsg (upd s c st o) ms = LoopEnd (upd s c st (rev (evsAll s ms) ++ o)).
Proof.
  induction ms as [|m ms IH]; intros s c st o H Hd F; cbn [foldMsgs]; [reflexivity|].
  inversion F; subst. rewrite handleMsg_plain by auto. rewrite Hd. cbn zeta.
  change (0 <? 0) with false. cbn [andb]. rewrite IH by auto. rewrite evsAll_cons. reflexivity.
Qed.

Definition canDetach (s : rcv) (st : N) : Prop := (st =? SessionStateKeyExchanging) && answerAndWait s = false.

Lemma appCount_cons : forall m ms, appCount (m :: ms) = if isControl m then appCount ms else S (appCount ms).
Proof. intros. unfold appCount. cbn [filter]. destruct (isControl m); reflexivity. Qed.

Lemma firstApp_0 : forall ms, firstApp 0 ms = [].
Proof. destruct ms; reflexivity. Qed.

(** With a limit. *)
Lemma fold_limit : forall ms s k st o c, handlersReady s -> Forall isPlain ms -> canDetach s st ->
  detachOnMessagesCount s < 2^64 -> c + N.of_nat (S k) = detachOnMessagesCount s ->
  foldMsgs handleMsg (upd s c st o) ms = LoopEnd
   (if (appCount ms <=? k)%nat
    then upd s (c + N.of_nat (appCount ms)) st (rev (evsAll s ms) ++ o)
    else upd s (detachOnMessagesCount s) SessionStateClosing (EvClose :: rev (evsAll s (firstApp (S k) ms)) ++ o)).
Proof.
  induction ms as [|m ms IH]; intros s k st o c H F Hc Hb Hn; cbn [foldMsgs].
  - cbn. rewrite N.add_0_r. reflexivity.
  - inversion F; subst. rewrite handleMsg_plain by auto. cbn zeta.
    replace (0 <? detachOnMessagesCount s) with true by (symmetry; apply N.ltb_lt; lia).
    rewrite appCount_cons. cbn [firstApp]. destruct (isControl m) eqn:E; cbn [andb negb].
    + rewrite (IH s k) by auto. rewrite !evsAll_cons. reflexivity.
    + assert (A : add64 c 1 = c + 1) by (unfold add64; apply N.mod_small; lia).
      rewrite A. replace (0 <? c + 1) with true by (symmetry; apply N.ltb_lt; lia).
      cbn [andb]. destruct k as [|k].
      * replace (detachOnMessagesCount s <=? c + 1) with true by (symmetry; apply N.leb_le; lia).
        rewrite Hc. cbn [Nat.leb]. rewrite firstApp_0. replace (c + 1) with (detachOnMessagesCount s) by lia.
        unfold evsAll. cbn [flat_map]. rewrite app_nil_r. reflexivity.
      * replace (detachOnMessagesCount s <=? c + 1) with false by (symmetry; apply N.leb_gt; lia).
        rewrite (IH s k) by (auto; lia). cbn [Nat.leb]. rewrite !evsAll_cons.
        replace (c + 1 + N.of_nat (appCount ms)) with (c + N.of_nat (S (appCount ms))) by lia. reflexivity.
Qed.

(** From bytes to messages. *)
Lemma handleMsg_len : forall ms s m s' n, Forall isPlain ms -> In m ms ->
  handleMsg s (hdrOf m) (wPayload m) = Ret (s', Some n) -> n = len (wPayload m).
Proof.
  intros ms s m s' n F I H. rewrite Forall_forall in F. specialize (F m I).
  unfold handleMsg, handleOne in H. cbn [hdrOf mType mFlags mLength] in H. rewrite plain_flag in H by auto.
  cbn zeta in H.
  match type of H with context [processIncomingMessage ?a ?b ?c] => destruct (processIncomingMessage a b c) end; [|discriminate].
  match type of H with (if ?b then _ else _) = _ => destruct b end.
  - match type of H with (if ?b then _ else _) = _ => destruct b end; discriminate.
  - injection H as _ <-. reflexivity.
Qed.

Definition batchBytes (ms : list wireMsg) : bytes := concat (map wireBytes ms).

Lemma packet_fold : forall ms s tail, Forall wireMsg_ok ms -> Forall isPlain ms ->
  processIncomingMessages s (len (batchBytes ms)) (batchBytes ms ++ tail) = foldMsgs handleMsg s ms.
Proof.
  intros. unfold processIncomingMessages, batchBytes. apply runLoop_batch; auto.
  intros. eapply handleMsg_len; eauto.
Qed.

(** ** Sequences of accepted packets *)
Definition accepted (b : list wireMsg * bytes) : packet :=
  PktAccepted (len (batchBytes (fst b))) (batchBytes (fst b) ++ snd b).

Lemma firstApp_app : forall a b k, firstApp k (a ++ b) =
  if (k <=? appCount a)%nat then firstApp k a else a ++ firstApp (k - appCount a) b.
Proof.
  induction a as [|m a IH]; intros b k; cbn [app].
  - change (appCount []) with 0%nat. destruct k; cbn [Nat.leb app Nat.sub]; [rewrite !firstApp_0|]; reflexivity.
  - destruct k as [|k]; [reflexivity|]. rewrite appCount_cons. cbn [firstApp]. rewrite IH.
    destruct (isControl m).
    + destruct (S k <=? appCount a)%nat; reflexivity.
    + cbn [Nat.leb]. destruct (k <=? appCount a)%nat; [reflexivity|]. reflexivity.
Qed.

Lemma appCount_app : forall a b, appCount (a ++ b) = (appCount a + appCount b)%nat.
Proof. intros. unfold appCount. rewrite filter_app, app_length. reflexivity. Qed.

Lemma evsAll_app : forall s a b o, rev (evsAll s b) ++ rev (evsAll s a) ++ o = rev (evsAll s (a ++ b)) ++ o.
Proof. intros. unfold evsAll. rewrite flat_map_app, rev_app_distr, <- app_assoc. reflexivity. Qed.

Section Loops.
  Variable detachFails : N.
  Variable errorOn : option N.
  Notation loop := (readerLoop detachFails errorOn).

  Lemma done_upd : forall T s c st o f u (a b : T), isDoneState st = false ->
    (if isDoneState (sessState (rS {| rS := upd s c st o; rFails := f; rUnexpected := u |})) then a else b) = b.
  Proof. intros. cbn [rS upd sessState]. rewrite H. reflexivity. Qed.

  Lemma loop_nolimit : forall bs s c st o f u, handlersReady s -> detachOnMessagesCount s = 0 ->
    isDoneState st = false ->
    Forall (fun b => Forall wireMsg_ok (fst b) /\ Forall isPlain (fst b)) bs ->
    loop {| rS := upd s c st o; rFails := f; rUnexpected := u |} (map accepted bs) =
      RRunning {| rS := upd s c st (rev (evsAll s (concat (map fst bs))) ++ o);
                  rFails := match bs with [] => f | _ => 0 end; rUnexpected := u |}.
  Proof.
    induction bs as [|[ms tail] bs IH]; intros s c st o f u H Hd Hst F; cbn [map readerLoop concat].
    - rewrite done_upd by auto. reflexivity.
    - rewrite done_upd by auto. cbn [rS]. inversion F as [|? ? [F1 F2] F3]; subst. cbn [fst] in F1, F2.
      unfold accepted at 1. cbn [fst snd]. rewrite packet_fold by auto.
      rewrite fold_nolimit by auto. cbn [rUnexpected]. rewrite IH by auto. cbn [fst]. rewrite evsAll_app.
      destruct bs; reflexivity.
  Qed.

  Lemma loop_limit : forall bs s k st o f u c, handlersReady s -> canDetach s st ->
    isDoneState st = false -> detachOnMessagesCount s < 2^64 -> c + N.of_nat (S k) = detachOnMessagesCount s ->
    Forall (fun b => Forall wireMsg_ok (fst b) /\ Forall isPlain (fst b)) bs ->
    loop {| rS := upd s c st o; rFails := f; rUnexpected := u |} (map accepted bs) =
      let ms := concat (map fst bs) in
      let f' := match bs with [] => f | _ => 0 end in
      if (appCount ms <=? k)%nat
      then RRunning {| rS := upd s (c + N.of_nat (appCount ms)) st (rev (evsAll s ms) ++ o);
                       rFails := f'; rUnexpected := u |}
      else RFinished {| rS := upd s (detachOnMessagesCount s) SessionStateClosed
                                (EvClose :: rev (evsAll s (firstApp (S k) ms)) ++ o);
                        rFails := f'; rUnexpected := u |}.
  Proof.
    induction bs as [|[ms tail] bs IH]; intros s k st o f u c H Hcd Hst Hb Hn F; cbn [map readerLoop concat].
    - rewrite done_upd by auto. cbn. rewrite N.add_0_r. reflexivity.
    - rewrite done_upd by auto. cbn [rS]. inversion F as [|? ? [F1 F2] F3]; subst. cbn [fst] in F1, F2.
      unfold accepted at 1. cbn [fst snd]. rewrite packet_fold by auto.
      rewrite (fold_limit ms s k) by auto. cbn [rUnexpected]. cbn zeta.
      rewrite appCount_app, firstApp_app.
      destruct (appCount ms <=? k)%nat eqn:E.
      + apply Nat.leb_le in E.
        rewrite (IH s (k - appCount ms)%nat) by (auto; lia). cbn zeta.
        replace (S k <=? appCount ms)%nat with false by (symmetry; apply Nat.leb_gt; lia).
        rewrite !evsAll_app. replace (S k - appCount ms)%nat with (S (k - appCount ms)) by lia.
        destruct (appCount (concat (map fst bs)) <=? k - appCount ms)%nat eqn:E2.
        * apply Nat.leb_le in E2.
          replace (appCount ms + appCount (concat (map fst bs)) <=? k)%nat with true by (symmetry; apply Nat.leb_le; lia).
          rewrite <- N.add_assoc, <- Nat2N.inj_add. destruct bs; reflexivity.
        * apply Nat.leb_gt in E2.
          replace (appCount ms + appCount (concat (map fst bs)) <=? k)%nat with false by (symmetry; apply Nat.leb_gt; lia).
          destruct bs; reflexivity.
      + apply Nat.leb_gt in E.
        replace (appCount ms + appCount (concat (map fst bs)) <=? k)%nat with false by (symmetry; apply Nat.leb_gt; lia).
        replace (S k <=? appCount ms)%nat with true by (symmetry; apply Nat.leb_le; lia).
        destruct bs; cbn; reflexivity.
  Qed.

End Loops.

(** ** Undecryptable packets *)
Lemma procLoop_inv : forall St (P : St -> Prop) onErr (handle : St -> msgHdr -> bytes -> outcome (St * option N)),
  (forall s e, P s -> P (onErr s e)) ->
  (forall s h m s' o, P s -> handle s h m = Ret (s', o) -> P s') ->
  forall fuel s mb l i s', P s -> procLoop onErr handle fuel s mb l i = LoopEnd s' -> P s'.
Proof.
  intros St P onErr handle He Hh. induction fuel; intros s mb l i s' HP H; cbn [procLoop] in H.
  - destruct (i <? l); [discriminate|]. injection H as <-. auto.
  - destruct (i <? l); [|injection H as <-; auto].
    destruct (l - i <? messageHeadersSize); [injection H as <-; auto|].
    destruct (gslice mb i (i + messageHeadersSize)); [|discriminate].
    destruct (hdrRead l0) as [[? hdr]|]; [|injection H as <-; auto].
    destruct (l - i <? messageHeadersSize + mLength hdr); [injection H as <-; auto|].
    destruct (gslice mb _ _); [|discriminate].
    destruct (handle s hdr l1) as [[s1 [nl|]]|] eqn:E; try discriminate.
    + eapply IHfuel; [|exact H]. eauto.
    + injection H as <-. eauto.
Qed.

(** Fields of the receiver that message handling never touches. *)
Definition sameConf (s s' : rcv) : Prop :=
  maxChainIDDiff s' = maxChainIDDiff s /\ maxFragmentedMessageSize s' = maxFragmentedMessageSize s /\
  detachOnMessagesCount s' = detachOnMessagesCount s /\ answerAndWait s' = answerAndWait s /\
  messengers s' = messengers s /\ readChans s' = readChans s.

Definition sameState (s s' : rcv) : Prop := sameConf s s' /\ sessState s' = sessState s.

Lemma sameState_refl : forall s, sameState s s.
Proof. intros. unfold sameState, sameConf. auto 10. Qed.
Lemma sameState_trans : forall a b c, sameState a b -> sameState b c -> sameState a c.
Proof. unfold sameState, sameConf. intros a b c [(?&?&?&?&?&?) ?] [(?&?&?&?&?&?) ?]. repeat split; congruence. Qed.
Lemma emit_same : forall s e, sameState s (emit s e).
Proof. intros. unfold sameState, sameConf. cbn. auto 10. Qed.
Lemma setChains_same : forall s l c, sameState s (setChains s l c).
Proof. intros. unfold sameState, sameConf. cbn. auto 10. Qed.
Lemma setCount_same : forall s n, sameState s (setCount s n).
Proof. intros. unfold sameState, sameConf. cbn. auto 10. Qed.

Lemma processIncomingMessage_same : forall s h p s', processIncomingMessage s h p = Ret s' -> sameState s s'.
Proof.
  intros s h p s' H. unfold processIncomingMessage in H.
  destruct (lookup (mType h) (messengers s)) as [b|].
  - destruct (gslice p 0 (mLength h)); [|discriminate]. destruct b; [|discriminate].
    injection H as <-. apply emit_same.
  - destruct (gslice p 0 (mLength h)); [|discriminate].
    destruct (memN (mType h) (readChans s)); injection H as <-; [apply emit_same|apply sameState_refl].
Qed.

Lemma fragment_same : forall s h fh p s' n, processIncomingMessageFragment s h fh p = Ret (s', n) -> sameState s s'.
Proof.
  intros s h fh p s' n H. unfold processIncomingMessageFragment in H. cbn zeta in H.
  set (s1 := if lastRemoteChainID s <? fChainID fh then _ else s) in H.
  assert (H1 : sameState s s1).
  { unfold s1. destruct (lastRemoteChainID s <? fChainID fh); [apply setChains_same|apply sameState_refl]. }
  clearbody s1. apply (sameState_trans _ _ _ H1). clear H1.
  destruct (maxChainIDDiff s1 <? _); [injection H as <- <-; apply sameState_refl|].
  destruct (maxChainIDDiff s1 =? 0); [discriminate|].
  destruct (nth_error (pendingChains s1) _) as [c|]; [|discriminate].
  destruct ((expected c =? 0) && (maxFragmentedMessageSize s1 <? fTotal fh)); [injection H as <- <-; apply sameState_refl|].
  destruct (chainMerge _ fh p) as [[c' [[m|]|e]]|]; try discriminate.
  - match type of H with context [processIncomingMessage ?a ?b ?d] => destruct (processIncomingMessage a b d) eqn:E end; [|discriminate].
    injection H as <- <-. apply processIncomingMessage_same in E.
    eapply sameState_trans; [|exact E]. apply setChains_same.
  - injection H as <- <-. apply setChains_same.
  - injection H as <- <-. apply setChains_same.
Qed.

Lemma handleOne_same : forall s h m s' c o, handleOne s h m = Ret (s', c, o) -> sameState s s'.
Proof.
  intros s h m s' c o H. unfold handleOne in H. cbn zeta in H.
  set (s1 := if (0 <? detachOnMessagesCount s) && _ && _ then setCount s _ else s) in H.
  assert (H1 : sameState s s1).
  { unfold s1. match goal with |- context [if ?b then _ else _] => destruct b end; [apply setCount_same|apply sameState_refl]. }
  clearbody s1. apply (sameState_trans _ _ _ H1). clear H1.
  destruct (isFragmented (mFlags h)).
  - destruct (fragRead m) as [[n fh]|e]; [|injection H as <- <- <-; apply emit_same].
    destruct (gslice m n (len m)); [|discriminate].
    destruct (processIncomingMessageFragment s1 h fh l) as [[s2 n2]|] eqn:E; [|discriminate].
    injection H as <- <- <-. eapply fragment_same; eauto.
  - destruct (processIncomingMessage s1 h m) eqn:E; [|discriminate]. injection H as <- <- <-.
    eapply processIncomingMessage_same; eauto.
Qed.

(** Without a message limit the session state is never touched. *)
Lemma handleMsg_same : forall s h m s' o, detachOnMessagesCount s = 0 ->
  handleMsg s h m = Ret (s', o) -> sameState s s'.
Proof.
  intros s h m s' o Hd H. unfold handleMsg in H.
  assert (Hc : forall s1 c o1, handleOne s h m = Ret (s1, c, o1) -> c = 0).
  { unfold handleOne. rewrite Hd. change (0 <? 0) with false. cbn [andb].
    intros s1 c o1 E. destruct (isFragmented (mFlags h)).
    - destruct (fragRead m) as [[n fh]|e]; [|congruence].
      destruct (gslice m n (len m)); [|discriminate].
      destruct (processIncomingMessageFragment s h fh l) as [[s2 n2]|]; [congruence|discriminate].
    - destruct (processIncomingMessage s h m); congruence. }
  destruct (handleOne s h m) as [[[s1 c] [nl|]]|] eqn:E; [| |discriminate].
  - rewrite (Hc _ _ _ eq_refl) in H. change (0 <? 0) with false in H. cbn [andb] in H.
    injection H as <- <-. eapply handleOne_same; eauto.
  - injection H as <- <-. eapply handleOne_same; eauto.
Qed.

Lemma processIncomingMessages_same : forall s l b s', detachOnMessagesCount s = 0 ->
  processIncomingMessages s l b = LoopEnd s' -> sameState s s'.
Proof.
  intros s l b s' Hd H. unfold processIncomingMessages, runLoop in H.
  refine (procLoop_inv _ (sameState s) _ _ _ _ _ _ _ _ _ _ _ H); [| |apply sameState_refl].
  - intros. eapply sameState_trans; [eassumption|apply emit_same].
  - intros s1 h m s2 o H1 H2. eapply sameState_trans; [eassumption|]. eapply handleMsg_same; [|eassumption].
    destruct H1 as [(_ & _ & -> & _) _]. exact Hd.
Qed.

Lemma processIncomingMessages_no_fuel : forall s l b, processIncomingMessages s l b <> LoopFuel.
Proof. intros. unfold processIncomingMessages, runLoop. apply procLoop_no_fuel. unfold len. lia. Qed.

Definition verdictOf (p : packet) : verdict :=
  match p with PktUndecryptable _ => VBad | PktAccepted _ _ => VGood | _ => VOther end.
(** Everything but a read error that the user does not handle. *)
Definition benign (p : packet) : Prop := p <> RdError false false.

Fixpoint badFrom (k : nat) (vs : list verdict) : nat :=
  match vs with
  | [] => k
  | VBad :: r => badFrom (S k) r
  | VGood :: r => badFrom 0 r
  | VOther :: r => badFrom k r
  end.

Lemma badFrom_app : forall a b k, badFrom k (a ++ b) = badFrom (badFrom k a) b.
Proof. induction a as [|[] a IH]; intros; cbn; auto. Qed.

Lemma badFrom_since : forall vs, badFrom 0 vs = badSince vs.
Proof.
  induction vs as [|v vs IH] using rev_ind; [reflexivity|].
  rewrite badFrom_app, IH. unfold badSince. rewrite rev_unit. destruct v; reflexivity.
Qed.

Lemma badFrom_le : forall vs k, (badFrom k vs <= k + length vs)%nat.
Proof. induction vs as [|[] vs IH]; intros k; cbn [badFrom length]; [lia| | |]; [specialize (IH (S k))|specialize (IH 0%nat)|specialize (IH k)]; lia. Qed.

Lemma readerLoop_cons : forall df eo r p rest,
  readerLoop df eo r (p :: rest) =
   if isDoneState (sessState (rS r)) then readerLoopCleanup r else
   match p with
   | RdError i h => let (r', cont) := readerLoopReadError r i h in
          if cont then readerLoop df eo r' rest else readerLoopCleanup r'
   | RdEmpty => readerLoop df eo r rest
   | PktUndecryptable e => let (r', cont) := readerLoopDecryptError df eo r e in
          if cont then readerLoop df eo r' rest else readerLoopCleanup r'
   | PktDuplicate => readerLoop df eo {| rS := rS r; rFails := rFails r; rUnexpected := add64 (rUnexpected r) 1 |} rest
   | PktAccepted l content =>
          match processIncomingMessages (rS r) l content with
          | LoopPanic => RPanic
          | LoopFuel => RFuel
          | LoopEnd s => readerLoop df eo {| rS := s; rFails := 0; rUnexpected := rUnexpected r |} rest
          end
   end.
Proof. reflexivity. Qed.

Section Fails.
  Variable n : N.
  Variable errorOn : option N.
  Hypothesis Hn : 0 < n.
  Notation loop := (readerLoop n errorOn).

  Lemma loop_bad : forall input r k, isDoneState (sessState (rS r)) = false ->
    detachOnMessagesCount (rS r) = 0 -> Forall benign input ->
    rFails r = N.of_nat k -> N.of_nat k < n -> N.of_nat (k + length input) < 2^64 ->
    match loop r input with
    | RRunning r' =>
        (forall pre post, input = pre ++ post -> N.of_nat (badFrom k (map verdictOf pre)) < n) /\
        rFails r' = N.of_nat (badFrom k (map verdictOf input)) /\ sessState (rS r') = sessState (rS r)
    | RFinished r' => sessState (rS r') = SessionStateClosed /\
        exists pre e post, input = pre ++ PktUndecryptable e :: post /\
          N.of_nat (badFrom k (map verdictOf (pre ++ [PktUndecryptable e]))) = n /\
          (forall pre' post', pre = pre' ++ post' -> N.of_nat (badFrom k (map verdictOf pre')) < n) /\
          (forall post', loop r (pre ++ PktUndecryptable e :: post') = RFinished r')
    | RPanic => True
    | RFuel => False
    end.
  Proof.
    induction input as [|p rest IH]; intros r k Hst Hd Hb Hk Hlt Hlen.
    - cbn [readerLoop]. rewrite Hst. split; [|cbn; auto].
      intros pre post E. symmetry in E. apply app_eq_nil in E. destruct E; subst. exact Hlt.
    - inversion Hb as [|? ? Hb1 Hb2]; subst. cbn [length] in Hlen.
      (* one step to a live state *)
      assert (Step : forall r1 k1, isDoneState (sessState (rS r1)) = false ->
        detachOnMessagesCount (rS r1) = 0 -> sessState (rS r1) = sessState (rS r) ->
        rFails r1 = N.of_nat k1 -> N.of_nat k1 < n -> (k1 <= S k)%nat ->
        badFrom k (map verdictOf [p]) = k1 ->
        (forall q, loop r (p :: q) = loop r1 q) ->
        match loop r (p :: rest) with
        | RRunning r' =>
            (forall pre post, p :: rest = pre ++ post -> N.of_nat (badFrom k (map verdictOf pre)) < n) /\
            rFails r' = N.of_nat (badFrom k (map verdictOf (p :: rest))) /\ sessState (rS r') = sessState (rS r)
        | RFinished r' => sessState (rS r') = SessionStateClosed /\
            exists pre e post, p :: rest = pre ++ PktUndecryptable e :: post /\
              N.of_nat (badFrom k (map verdictOf (pre ++ [PktUndecryptable e]))) = n /\
              (forall pre' post', pre = pre' ++ post' -> N.of_nat (badFrom k (map verdictOf pre')) < n) /\
              (forall post', loop r (pre ++ PktUndecryptable e :: post') = RFinished r')
        | RPanic => True
        | RFuel => False
        end).
      { intros r1 k1 A1 A2 A2' A3 A4 A5 A6 A7. rewrite A7.
        assert (B : forall l, badFrom k (map verdictOf (p :: l)) = badFrom k1 (map verdictOf l)).
        { intros l. change (p :: l) with ([p] ++ l). rewrite map_app, badFrom_app, A6. reflexivity. }
        specialize (IH r1 k1 A1 A2 Hb2 A3 A4).
        destruct (loop r1 rest) as [r'|r'| |]; try (apply IH; lia).
        - destruct IH as (I1 & I2 & I3); [lia|]. split; [|rewrite B, I2, I3; auto].
          intros pre post E. destruct pre as [|q pre]; [exact Hlt|]. injection E as <- E. rewrite B. eauto.
        - destruct IH as (I0 & pre & e & post & I1 & I2 & I3 & I4); [lia|]. split; [exact I0|].
          exists (p :: pre), e, post. split; [cbn; congruence|]. split; [cbn [app]; rewrite B; exact I2|].
          split.
          + intros pre' post' E. destruct pre' as [|q pre']; [exact Hlt|]. injection E as <- E. rewrite B. eauto.
          + intros post'. cbn [app]. rewrite A7. apply I4. }
      destruct p as [i h| |e| |l content].
      + assert (Hr : exists r1, sessState (rS r1) = sessState (rS r) /\ detachOnMessagesCount (rS r1) = 0 /\ rFails r1 = rFails r /\
           readerLoopReadError r i h = (r1, true)).
        { unfold readerLoopReadError. rewrite Hst. destruct i; [exists r; auto|].
          destruct h; [|exfalso; apply Hb1; reflexivity]. eexists. split; [|split; [|split; [|reflexivity]]]; cbn; auto. }
        destruct Hr as (r1 & E1 & E2 & E3 & E4). apply (Step r1 k); auto; try congruence; try lia.
        intros q. rewrite readerLoop_cons, Hst, E4. reflexivity.
      + apply (Step r k); auto; try lia. intros q. rewrite readerLoop_cons, Hst. reflexivity.
      + assert (A : add64 (rFails r) 1 = N.of_nat (S k)).
        { rewrite Hk. unfold add64. rewrite N.mod_small; lia. }
        destruct (n <=? N.of_nat (S k)) eqn:Ele.
        * apply N.leb_le in Ele. rewrite readerLoop_cons, Hst. unfold readerLoopDecryptError. cbn zeta. rewrite A.
          replace (n <=? N.of_nat (S k)) with true by (symmetry; apply N.leb_le; lia). cbn [negb].
          cbn [readerLoopCleanup rS setSessState sessState]. split; [reflexivity|].
          exists [], e, rest. split; [reflexivity|]. split; [cbn; lia|]. split.
          { intros pre' post' E. symmetry in E. apply app_eq_nil in E. destruct E; subst. exact Hlt. }
          intros post'. cbn [app]. rewrite readerLoop_cons, Hst. unfold readerLoopDecryptError. cbn zeta. rewrite A.
          replace (n <=? N.of_nat (S k)) with true by (symmetry; apply N.leb_le; lia). reflexivity.
        * apply N.leb_gt in Ele.
          refine (Step {| rS := match errorOn with None => rS r | Some k0 => if k0 <=? add64 (rFails r) 1 then emit (rS r) (EvError e) else rS r end;
                          rFails := add64 (rFails r) 1; rUnexpected := rUnexpected r |} (S k) _ _ _ _ _ _ _ _); try lia.
          -- cbn [rS]. destruct errorOn; [destruct (n0 <=? _)|]; exact Hst.
          -- cbn [rS]. destruct errorOn; [destruct (n0 <=? _)|]; exact Hd.
          -- cbn [rS]. destruct errorOn; [destruct (n0 <=? _)|]; reflexivity.
          -- exact A.
          -- reflexivity.
          -- intros q. rewrite readerLoop_cons, Hst. unfold readerLoopDecryptError. cbn zeta.
             replace (n <=? add64 (rFails r) 1) with false by (rewrite A; symmetry; apply N.leb_gt; lia). reflexivity.
      + refine (Step {| rS := rS r; rFails := rFails r; rUnexpected := add64 (rUnexpected r) 1 |} k _ _ _ _ _ _ _ _); auto; try lia.
        intros q. rewrite readerLoop_cons, Hst. reflexivity.
      + destruct (processIncomingMessages (rS r) l content) as [s'| |] eqn:E.
        * pose proof (processIncomingMessages_same _ _ _ _ Hd E) as [(_ & _ & D & _) S].
          refine (Step {| rS := s'; rFails := 0; rUnexpected := rUnexpected r |} 0%nat _ _ _ _ _ _ _ _); cbn [rS rFails];
            [rewrite S; exact Hst|rewrite D; exact Hd|exact S|reflexivity|lia|lia|reflexivity|].
          intros q. rewrite readerLoop_cons, Hst, E. reflexivity.
        * rewrite readerLoop_cons, Hst, E. exact I.
        * exfalso. eapply processIncomingMessages_no_fuel; eauto.
  Qed.
End Fails.
