(** Property C158: a [Read] whose buffer is too small (session.go 2173-2175). *)
From Coq Require Import NArith List Bool Lia Arith.
From Verif Require Import Base BaseLemmas TS QueueModel QueueProofs QueueProps.
Import ListNotations.
Local Open Scope N_scope.

(** Full statement: a Read call which fails because its buffer is too small
    loses nothing: a later call with a bigger buffer can still get the message,
    and the item the message was in goes back to the pool once nobody uses it.
    Both are false. *)

(** The k-th message belongs to the call that took it from the channel, for good. *)
Lemma received_grows : forall limit capacity ls q q', exec (qstep limit capacity) q ls = Some q' ->
  exists l, qReceived q' = qReceived q ++ l.
Proof.
  intros limit capacity. induction ls as [|a ls IH]; intros q q' H; cbn [exec] in H.
  - injection H as <-. exists []. symmetry. apply app_nil_r.
  - destruct (qstep limit capacity q a) as [q1|] eqn:E; [|discriminate].
    destruct (IH _ _ H) as [l El].
    assert (K : exists l1, qReceived q1 = qReceived q ++ l1).
    { unfold qstep in E. destruct (qPanic q); [discriminate|].
      destruct a as [payload reuse| | |t size|t|t|t|i].
      - destruct (qReader q); try discriminate.
        destruct (if limit <? len payload then None else reuse) as [i|].
        + destruct (isPooled i (qPool q)); [|discriminate].
          destruct (acquireAndFill limit (qItems q i) payload); injection E as <-; exists []; symmetry; apply app_nil_r.
        + destruct (acquireAndFill limit freshItem payload); injection E as <-; exists []; symmetry; apply app_nil_r.
      - destruct (qReader q); try discriminate.
        destruct (qClosed q); [injection E as <-; exists []; symmetry; apply app_nil_r|].
        destruct (Nat.ltb _ _); [|discriminate]. injection E as <-; exists []; symmetry; apply app_nil_r.
      - destruct (qReader q); try discriminate. injection E as <-; exists []; symmetry; apply app_nil_r.
      - destruct (qReads q t); try discriminate. injection E as <-; exists []; symmetry; apply app_nil_r.
      - destruct (qReads q t); try discriminate. destruct (qChan q).
        + destruct (qClosed q); [|discriminate]. injection E as <-; exists []; symmetry; apply app_nil_r.
        + injection E as <-. exists [t]. reflexivity.
      - destruct (qReads q t); try discriminate. injection E as <-; exists []; symmetry; apply app_nil_r.
      - destruct (qReads q t); try discriminate. destruct (negb _); [injection E as <-; exists []; symmetry; apply app_nil_r|].
        destruct (iOneTime _); injection E as <-; exists []; symmetry; apply app_nil_r.
      - injection E as <-; exists []; symmetry; apply app_nil_r. }
    destruct K as [l1 E1]. exists (l1 ++ l). rewrite El, E1, app_assoc. reflexivity.
Qed.

(** A call that has returned stays as it is. *)
Lemma returned_stays : forall limit capacity ls q q' t size r, exec (qstep limit capacity) q ls = Some q' ->
  qReads q t = RRet size r -> qReads q' t = RRet size r.
Proof.
  intros limit capacity. induction ls as [|a ls IH]; intros q q' t size r H Ht; cbn [exec] in H.
  - injection H as <-. exact Ht.
  - destruct (qstep limit capacity q a) as [q1|] eqn:E; [|discriminate].
    apply (IH _ _ _ _ _ H). clear IH H.
    unfold qstep in E. destruct (qPanic q); [discriminate|].
    destruct a as [payload reuse| | |t1 size1|t1|t1|t1|i].
    + destruct (qReader q); try discriminate.
      destruct (if limit <? len payload then None else reuse) as [i|].
      * destruct (isPooled i (qPool q)); [|discriminate].
        destruct (acquireAndFill limit (qItems q i) payload); injection E as <-; exact Ht.
      * destruct (acquireAndFill limit freshItem payload); injection E as <-; exact Ht.
    + destruct (qReader q); try discriminate. destruct (qClosed q); [injection E as <-; exact Ht|].
      destruct (Nat.ltb _ _); [|discriminate]. injection E as <-; exact Ht.
    + destruct (qReader q); try discriminate. injection E as <-; exact Ht.
    + destruct (qReads q t1) eqn:E1; try discriminate. injection E as <-. cbn [qReads].
      rewrite fupd_other; [exact Ht|congruence].
    + destruct (qReads q t1) eqn:E1; try discriminate. destruct (qChan q).
      * destruct (qClosed q); [|discriminate]. injection E as <-. cbn [qReads]. rewrite fupd_other; [exact Ht|congruence].
      * injection E as <-. cbn [qReads]. rewrite fupd_other; [exact Ht|congruence].
    + destruct (qReads q t1) eqn:E1; try discriminate. injection E as <-. cbn [qReads].
      rewrite fupd_other; [exact Ht|congruence].
    + destruct (qReads q t1) eqn:E1; try discriminate. destruct (negb _); [injection E as <-; exact Ht|].
      destruct (iOneTime _); injection E as <-; cbn [qReads]; (rewrite fupd_other; [exact Ht|congruence]).
    + injection E as <-; exact Ht.
Qed.

(** The message of a failed call is lost whatever is done afterwards: every
    call that succeeds, now or later, returns another message (another one by
    its place in the order of arrival). *)
Theorem C158_message_lost_refuted : forall limit capacity q t size, reachableQ limit capacity q ->
  qReads q t = RRet size ReadTooBig ->
  exists k m, nth_error (qArrivals q) k = Some m /\ size < len m /\
    forall ls q', exec (qstep limit capacity) q ls = Some q' ->
      forall t' size' d, qReads q' t' = RRet size' (ReadOk d) ->
        exists k', k' <> k /\ nth_error (qReceived q') k' = Some t' /\ nth_error (qArrivals q') k' = Some d.
Proof.
  intros limit capacity q t size H Ht. pose proof (queue_inv _ _ _ H) as I.
  assert (Hin : In t (qReceived q)) by (apply (v_recv _ _ I); rewrite Ht; reflexivity).
  apply In_nth_error in Hin. destruct Hin as [k Hk].
  destruct (C30_in_order _ _ _ _ _ H Hk) as (m & Hm & R). rewrite Ht in R.
  exists k, m. split; [exact Hm|split; [exact R|]].
  intros ls q' Hls t' size' d Hd.
  assert (H' : reachableQ limit capacity q').
  { clear - H Hls. revert q H Hls. induction ls as [|a ls IH]; intros q H Hls; cbn [exec] in Hls.
    - injection Hls as <-. exact H.
    - destruct (qstep limit capacity q a) as [q1|] eqn:E; [|discriminate]. apply (IH q1); [|exact Hls].
      eapply reach_step; [exact H|]. exists a. exact E. }
  destruct (C30_one_message_per_call _ _ _ H') as [Nd F]. destruct (F _ _ _ Hd) as (k' & Hr & Ha).
  exists k'. split; [|split; assumption]. intros ->.
  destruct (received_grows _ _ _ _ _ Hls) as [l El]. rewrite El in Hr.
  rewrite nth_error_app1 in Hr by (apply nth_error_Some; congruence).
  assert (t' = t) by congruence. subst t'.
  pose proof (returned_stays _ _ _ _ _ _ _ _ Hls Ht) as S. congruence.
Qed.
Print Assumptions C158_message_lost_refuted.

(** Such states are reachable whatever the limits. *)
Theorem C158_failed_call_exists : forall limit capacity m, (0 < capacity)%nat -> m <> [] ->
  exists q, reachableQ limit capacity q /\ qReads q 0 = RRet 0 ReadTooBig /\ qArrivals q = [m].
Proof.
  intros limit capacity m Hc Hm. destruct capacity as [|capacity]; [lia|].
  assert (E : exists q, exec (qstep limit (S capacity)) initQueue [QArrive m None; QPut; QCall 0 0; QRecv 0; QCopy 0] = Some q /\
    qReads q 0 = RRet 0 ReadTooBig /\ qArrivals q = [m]).
  { assert (Z : (0 <? len m) = true) by (apply N.ltb_lt; destruct m; [congruence|]; unfold len; cbn [length]; lia).
    destruct (fill_spec limit freshItem m eq_refl) as [c Ec].
    cbn -[acquireAndFill N.ltb len freshItem].
    replace (if limit <? len m then None else None) with (@None nat) by (destruct (limit <? len m); reflexivity).
    rewrite Ec. cbn -[acquireAndFill N.ltb len freshItem]. rewrite Z.
    eexists. split; [reflexivity|]. split; reflexivity. }
  destruct E as (q & E & A & B). exists q. split; [|auto]. eapply exec_reachable; [|exact E]. reflexivity.
Qed.
Print Assumptions C158_failed_call_exists.

(** An item in use that neither the reader, the channel nor a running call has. *)
Definition usedBy (q : queue) (i : nat) : Prop :=
  In i (qChan q) \/ qReader q = RpSending i \/
  exists t, match qReads q t with RGot _ j | RCopied _ _ j => j = i | _ => False end.
Definition forgotten (q : queue) (i : nat) : Prop := iBusy (qItems q i) = true /\ ~ usedBy q i.

(** The failed call forgets its item: it stays marked as used and is not in the
    pool, ever. *)
Lemma forgotten_stays : forall limit capacity q l q' i, qinv capacity q -> qstep limit capacity q l = Some q' ->
  forgotten q i -> (i < qNext q)%nat -> forgotten q' i /\ (i < qNext q')%nat.
Proof.
  intros limit capacity q l q' i I E [B U] Hlt. pose proof (v_panic _ _ I) as Hp.
  assert (NP : ~ In i (qPool q)) by (intros K; apply (v_pool _ _ I) in K; destruct K; congruence).
  unfold qstep in E. rewrite Hp in E. unfold usedBy in U.
  destruct l as [payload reuse| | |t size|t|t|t|j].
  - destruct (qReader q) eqn:Er; try discriminate.
    assert (G : forall j it pool next ar, j <> i -> (qNext q <= next)%nat ->
      forgotten {| qItems := fupd (qItems q) j it; qNext := next; qPool := pool; qChan := qChan q; qClosed := qClosed q;
        qReader := RpSending j; qReads := qReads q; qArrivals := ar; qReceived := qReceived q; qPanic := false |} i /\ (i < next)%nat).
    { intros j it pool next ar Hj Hn. split; [|lia]. split; unfold usedBy; cbn [qItems qChan qReader qReads].
      - rewrite fupd_other by auto. exact B.
      - intros [K|[K|K]]; [tauto|congruence|tauto]. }
    destruct (if limit <? len payload then None else reuse) as [j|].
    + destruct (isPooled j (qPool q)) eqn:Ep; [|discriminate].
      apply existsb_exists in Ep. destruct Ep as (j' & Hj & Ej). apply Nat.eqb_eq in Ej. subst j'.
      destruct (v_pool _ _ I j Hj) as [_ Bj]. destruct (fill_spec limit (qItems q j) payload Bj) as [c Ec]. rewrite Ec in E.
      injection E as <-. apply G; cbn [qNext]; [intros ->; contradiction|lia].
    + destruct (fill_spec limit freshItem payload eq_refl) as [c Ec]. rewrite Ec in E. injection E as <-. apply G; cbn [qNext]; lia.
  - destruct (qReader q) as [|j|] eqn:Er; try discriminate. destruct (qClosed q).
    { injection E as <-. split; [split; [exact B|]|exact Hlt]. unfold usedBy, panicked. cbn [qChan qReader qReads].
      rewrite Er. exact U. }
    destruct (Nat.ltb _ _); [|discriminate]. injection E as <-. split; [split; [exact B|]|exact Hlt].
    unfold usedBy. cbn [qChan qReader qReads]. rewrite in_app_iff. cbn [In].
    intros [[K|[K|[]]]|[K|K]]; [tauto| |discriminate|tauto]. apply U. right. left. congruence.
  - destruct (qReader q) as [|j|] eqn:Er; try discriminate. injection E as <-. split; [split; [exact B|]|exact Hlt].
    unfold usedBy. cbn [qChan qReader qReads]. intros [K|[K|K]]; [tauto|discriminate|tauto].
  - destruct (qReads q t) eqn:Et; try discriminate. injection E as <-. split; [split; [exact B|]|exact Hlt].
    unfold usedBy. cbn [qChan qReader qReads]. intros [K|[K|[t1 K]]]; [tauto|tauto|].
    unfold fupd in K. destruct (Nat.eqb t1 t); [contradiction|]. apply U. right. right. exists t1. exact K.
  - destruct (qReads q t) eqn:Et; try discriminate. destruct (qChan q) as [|j r] eqn:Ec.
    + destruct (qClosed q); [|discriminate]. injection E as <-. split; [split; [exact B|]|exact Hlt].
      unfold usedBy. cbn [qChan qReader qReads]. intros [K|[K|[t1 K]]]; [tauto|tauto|].
      unfold fupd in K. destruct (Nat.eqb t1 t); [contradiction|]. apply U. right. right. exists t1. exact K.
    + injection E as <-. split; [split; [exact B|]|exact Hlt].
      unfold usedBy. cbn [qChan qReader qReads]. cbn [In] in U. intros [K|[K|[t1 K]]]; [tauto|tauto|].
      unfold fupd in K. destruct (Nat.eqb t1 t); [tauto|]. apply U. right. right. exists t1. exact K.
  - destruct (qReads q t) as [| |size j| |] eqn:Et; try discriminate. injection E as <-. split; [split; [exact B|]|exact Hlt].
    unfold usedBy. cbn [qChan qReader qReads]. intros [K|[K|[t1 K]]]; [tauto|tauto|].
    unfold fupd in K. destruct (Nat.eqb t1 t).
    + apply U. right. right. exists t. rewrite Et. destruct (size <? _); [contradiction|exact K].
    + apply U. right. right. exists t1. exact K.
  - destruct (qReads q t) as [| | |size d j|] eqn:Et; try discriminate.
    destruct (v_reads _ _ I t j ltac:(rewrite Et; auto)) as (_ & _ & C & _). rewrite C in E. cbn [negb] in E.
    rewrite (v_one _ _ I) in E. injection E as <-.
    assert (Hj : j <> i) by (intros ->; apply U; right; right; exists t; rewrite Et; reflexivity).
    split; [split|exact Hlt].
    + cbn [qItems]. rewrite fupd_other by auto. exact B.
    + unfold usedBy. cbn [qChan qReader qReads]. intros [K|[K|[t1 K]]]; [tauto|tauto|].
      unfold fupd in K. destruct (Nat.eqb t1 t); [contradiction|]. apply U. right. right. exists t1. exact K.
  - injection E as <-. split; [split; [exact B|exact U]|exact Hlt].
Qed.

Theorem C158_item_forgotten_refuted : forall limit capacity q t size i q', reachableQ limit capacity q ->
  qReads q t = RGot size i -> size < len (iData (qItems q i)) -> qstep limit capacity q (QCopy t) = Some q' ->
  qReads q' t = RRet size ReadTooBig /\
  forall ls q'', exec (qstep limit capacity) q' ls = Some q'' -> forgotten q'' i /\ ~ In i (qPool q'').
Proof.
  intros limit capacity q t size i q' H Ht Hs E. pose proof (queue_inv _ _ _ H) as I.
  destruct (v_reads _ _ I t i ltac:(rewrite Ht; reflexivity)) as (A & B & C & D).
  pose proof (step_inv _ _ _ _ _ I E) as I'.
  unfold qstep in E. rewrite (v_panic _ _ I), Ht in E. rewrite (proj2 (N.ltb_lt _ _) Hs) in E. injection E as <-.
  split; [cbn [qReads]; apply fupd_same|].
  set (q1 := {| qItems := _ |}) in *.
  assert (F : forgotten q1 i).
  { split; [exact C|]. unfold usedBy, q1. cbn [qChan qReader qReads]. unfold inFlight in A. rewrite !in_app_iff in A.
    intros [K|[K|[t1 K]]].
    - tauto.
    - apply A. right. right. rewrite K. left. reflexivity.
    - unfold fupd in K. destruct (Nat.eqb_spec t1 t); [contradiction|]. apply n. apply D.
      destruct (qReads q t1); try contradiction; subst; reflexivity. }
  assert (L : (i < qNext q1)%nat) by exact B. clearbody q1. clear - I' F L.
  intros ls. revert q1 I' F L. induction ls as [|a ls IH]; intros q1 I F L q'' H; cbn [exec] in H.
  - injection H as <-. split; [exact F|]. intros K. apply (v_pool _ _ I) in K. destruct F. destruct K. congruence.
  - destruct (qstep limit capacity q1 a) as [q2|] eqn:E; [|discriminate].
    destruct (forgotten_stays _ _ _ _ _ _ I E F L) as [F2 L2]. apply (IH q2); auto. exact (step_inv _ _ _ _ _ I E).
Qed.
Print Assumptions C158_item_forgotten_refuted.

(** What holds: only such calls forget items. As long as no call has failed
    that way, every item in use has a user; and no call fails that way if every
    buffer is as long as the messages are. *)
Theorem C158_nothing_forgotten_partial : forall limit capacity q, reachableQ limit capacity q ->
  (forall t size, qReads q t <> RRet size ReadTooBig) -> forall i, ~ forgotten q i.
Proof.
  intros limit capacity q H. induction H as [q ->|q q' H IH [l E]]; intros Hn i [B U].
  - discriminate B.
  - pose proof (queue_inv _ _ _ H) as I.
    assert (Hn0 : forall t size, qReads q t <> RRet size ReadTooBig).
    { intros t size K. apply (Hn t size). apply (returned_stays limit capacity [l] q q' t size ReadTooBig); [|exact K].
      cbn [exec]. rewrite E. reflexivity. }
    assert (IH' : forall j, iBusy (qItems q j) = true -> ~ usedBy q j -> False) by (intros j Bj Uj; apply (IH Hn0 j); split; assumption).
    clear IH. unfold usedBy in U.
    unfold qstep in E. rewrite (v_panic _ _ I) in E.
    destruct l as [payload reuse| | |t size|t|t|t|j].
    + destruct (qReader q) eqn:Er; try discriminate.
      assert (G : forall j it pool next ar, q' = {| qItems := fupd (qItems q) j it; qNext := next; qPool := pool; qChan := qChan q;
        qClosed := qClosed q; qReader := RpSending j; qReads := qReads q; qArrivals := ar; qReceived := qReceived q; qPanic := false |} -> False).
      { intros j it pool next ar ->. cbn [qItems qChan qReader qReads] in *. destruct (Nat.eq_dec i j) as [->|Hj]; [tauto|].
        rewrite fupd_other in B by auto. apply (IH' i B). unfold usedBy. rewrite Er. intros [K|[K|K]]; [tauto|discriminate|tauto]. }
      destruct (if limit <? len payload then None else reuse) as [j|].
      * destruct (isPooled j (qPool q)) eqn:Ep; [|discriminate].
        apply existsb_exists in Ep. destruct Ep as (j' & Hj & Ej). apply Nat.eqb_eq in Ej. subst j'.
        destruct (v_pool _ _ I j Hj) as [_ Bj]. destruct (fill_spec limit (qItems q j) payload Bj) as [c Ec]. rewrite Ec in E.
        injection E as E. eapply G. symmetry. exact E.
      * destruct (fill_spec limit freshItem payload eq_refl) as [c Ec]. rewrite Ec in E.
        injection E as E. eapply G. symmetry. exact E.
    + destruct (qReader q) as [|j|] eqn:Er; try discriminate. destruct (qClosed q) eqn:Ecl.
      { apply (v_closed _ _ I) in Ecl. congruence. }
      destruct (Nat.ltb _ _); [|discriminate]. injection E as <-. cbn [qItems qChan qReader qReads] in *.
      apply (IH' i B). unfold usedBy. rewrite Er. rewrite in_app_iff in U. cbn [In] in U.
      intros [K|[K|K]]; [tauto| |tauto]. injection K as <-. tauto.
    + destruct (qReader q) as [|j|] eqn:Er; try discriminate. injection E as <-. cbn [qItems qChan qReader qReads] in *.
      apply (IH' i B). unfold usedBy. rewrite Er. intros [K|[K|K]]; [tauto|discriminate|tauto].
    + destruct (qReads q t) eqn:Et; try discriminate. injection E as <-. cbn [qItems qChan qReader qReads] in *.
      apply (IH' i B). intros [K|[K|[t1 K]]]; [tauto|tauto|]. apply U. right. right. exists t1.
      rewrite fupd_other; [exact K|]. intros ->. rewrite Et in K. exact K.
    + destruct (qReads q t) eqn:Et; try discriminate. destruct (qChan q) as [|j r] eqn:Ec.
      * destruct (qClosed q); [|discriminate]. injection E as <-. cbn [qItems qChan qReader qReads] in *.
        apply (IH' i B). unfold usedBy. rewrite Ec. intros [K|[K|[t1 K]]]; [tauto|tauto|]. apply U. right. right. exists t1.
        rewrite fupd_other; [exact K|]. intros ->. rewrite Et in K. exact K.
      * injection E as <-. cbn [qItems qChan qReader qReads] in *.
        apply (IH' i B). unfold usedBy. rewrite Ec. cbn [In]. intros [[K|K]|[K|[t1 K]]]; [|tauto|tauto|].
        -- apply U. right. right. exists t. rewrite fupd_same. exact K.
        -- apply U. right. right. exists t1. rewrite fupd_other; [exact K|]. intros ->. rewrite Et in K. exact K.
    + destruct (qReads q t) as [| |size j| |] eqn:Et; try discriminate. injection E as <-. cbn [qItems qChan qReader qReads] in *.
      assert (Hs : (size <? len (iData (qItems q j))) = false).
      { destruct (size <? len (iData (qItems q j))) eqn:Es; [|reflexivity]. exfalso. apply (Hn t size). apply fupd_same. }
      rewrite Hs in *. apply (IH' i B). intros [K|[K|[t1 K]]]; [tauto|tauto|]. apply U. right. right.
      destruct (Nat.eq_dec t1 t) as [->|Hne].
      * exists t. rewrite fupd_same. rewrite Et in K. exact K.
      * exists t1. rewrite fupd_other; auto.
    + destruct (qReads q t) as [| | |size d j|] eqn:Et; try discriminate.
      destruct (v_reads _ _ I t j ltac:(rewrite Et; auto)) as (_ & _ & C & _). rewrite C in E. cbn [negb] in E.
      rewrite (v_one _ _ I) in E. injection E as <-. cbn [qItems qChan qReader qReads] in *.
      destruct (Nat.eq_dec i j) as [->|Hj]; [rewrite fupd_same in B; discriminate|]. rewrite fupd_other in B by auto.
      apply (IH' i B). intros [K|[K|[t1 K]]]; [tauto|tauto|]. apply U. right. right. exists t1.
      destruct (Nat.eq_dec t1 t) as [->|Hne]; [rewrite Et in K; congruence|]. rewrite fupd_other; auto.
    + injection E as <-. exact (IH' i B U).
Qed.
Print Assumptions C158_nothing_forgotten_partial.

(** The buffer of a call that is made. *)
Definition bufferOf (r : reading) : option N :=
  match r with RNone => None | RWait s | RGot s _ | RCopied s _ _ | RRet s _ => Some s end.

Theorem C158_big_buffers_lose_nothing_partial : forall limit capacity q, reachableQ limit capacity q ->
  (forall t s m, bufferOf (qReads q t) = Some s -> In m (qArrivals q) -> len m <= s) ->
  (forall i, ~ forgotten q i) /\
  forall k t, nth_error (qReceived q) k = Some t ->
    match qReads q t with
    | RRet _ (ReadOk d) => nth_error (qArrivals q) k = Some d
    | RRet _ _ => False
    | _ => True
    end.
Proof.
  intros limit capacity q H Hb.
  assert (Hn : forall t size, qReads q t <> RRet size ReadTooBig).
  { intros t size K. pose proof (queue_inv _ _ _ H) as I.
    assert (Hin : In t (qReceived q)) by (apply (v_recv _ _ I); rewrite K; reflexivity).
    apply In_nth_error in Hin. destruct Hin as [k Hk].
    destruct (C30_in_order _ _ _ _ _ H Hk) as (m & Hm & R). rewrite K in R.
    apply nth_error_In in Hm. specialize (Hb t size m). rewrite K in Hb. specialize (Hb eq_refl Hm). lia. }
  split; [exact (C158_nothing_forgotten_partial _ _ _ H Hn)|].
  intros k t Hk. destruct (C30_in_order _ _ _ _ _ H Hk) as (m & Hm & R).
  destruct (qReads q t) as [| | | |s [d| |]] eqn:Et; auto.
  - destruct R as [-> _]. exact Hm.
  - exact (Hn _ _ Et).
Qed.
Print Assumptions C158_big_buffers_lose_nothing_partial.

(** A call with 2 bytes fails on a message of 3; the next call, with 10 bytes,
    gets the message after it; item 0 is never used again. *)
Example C158_example :
  match exec (qstep 100 1024) initQueue
    [QArrive [1;2;3] None; QPut; QCall 0 2; QRecv 0; QCopy 0; QArrive [4] None; QPut; QCall 1 10; QRecv 1; QCopy 1; QRelease 1] with
  | Some q => map (qReads q) [0; 1]%nat = [RRet 2 ReadTooBig; RRet 10 (ReadOk [4])] /\ qPool q = [1%nat] /\ qChan q = [] /\
      iBusy (qItems q 0) = true /\ iBusy (qItems q 1) = false
  | None => False
  end.
Proof. vm_compute. auto. Qed.

(** With buffers that are big enough: two messages read and the item of the first one used again. *)
Example C158_big_example :
  match exec (qstep 100 1024) initQueue
    [QArrive [1;2;3] None; QPut; QCall 0 3; QRecv 0; QCopy 0; QRelease 0; QArrive [4] (Some 0%nat); QPut; QCall 1 3; QRecv 1; QCopy 1; QRelease 1] with
  | Some q => map (qReads q) [0; 1]%nat = [RRet 3 (ReadOk [1;2;3]); RRet 3 (ReadOk [4])] /\ qPool q = [0%nat] /\ qNext q = 1%nat
  | None => False
  end.
Proof. vm_compute. auto. Qed.
