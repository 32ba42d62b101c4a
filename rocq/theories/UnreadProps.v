(** C178: the memory held for messages nobody has read yet. The model is
    [QueueModel] (session.go 1082-1101, 2167-2185; read_item.go). *)
From Coq Require Import NArith List Bool Arith Lia.
From Verif Require Import Base BaseLemmas TS QueueModel QueueProofs QueueProps UtilProps.
Import ListNotations.
Local Open Scope N_scope.

(** The bytes of the unread messages, and the bytes their items hold. *)
Definition unread (q : queue) : N := fold_right (fun i n => len (iData (qItems q i)) + n) 0 (qChan q).
Definition held (q : queue) : N := fold_right (fun i n => iCap (qItems q i) + n) 0 (qChan q).

(** [n] messages of no bytes arrive one after another. *)
Fixpoint empties (n : nat) : list qlabel := match n with O => [] | S n => QArrive [] None :: QPut :: empties n end.

Lemma run_reachable : forall limit capacity ls s q, reachableQ limit capacity s -> exec (qstep limit capacity) s ls = Some q ->
  reachableQ limit capacity q.
Proof.
  intros limit capacity. induction ls as [|l ls IH]; intros s q R E; cbn [exec] in E; [injection E as <-; exact R|].
  destruct (qstep limit capacity s l) as [s'|] eqn:E1; [|discriminate]. apply (IH s' q); [|exact E].
  eapply reach_step; [exact R|]. exists l. exact E1.
Qed.

Lemma held_app : forall q a b, fold_right (fun i n => iCap (qItems q i) + n) 0 (a ++ b) =
  fold_right (fun i n => iCap (qItems q i) + n) 0 a + fold_right (fun i n => iCap (qItems q i) + n) 0 b.
Proof. intros q. induction a as [|x a IH]; intros b; cbn [app fold_right]; [reflexivity|]. rewrite IH. lia. Qed.

Lemma empties_run : forall limit capacity n q,
  qPanic q = false -> qReader q = RpIdle -> qClosed q = false -> (length (qChan q) + n <= capacity)%nat ->
  (forall i, In i (qChan q) -> (i < qNext q)%nat /\ iCap (qItems q i) = limit /\ iData (qItems q i) = []) ->
  exists q', exec (qstep limit capacity) q (empties n) = Some q' /\ length (qChan q') = (length (qChan q) + n)%nat /\
    forall i, In i (qChan q') -> iCap (qItems q' i) = limit /\ iData (qItems q' i) = [].
Proof.
  intros limit capacity. induction n as [|n IH]; intros q P R C L I.
  - exists q. split; [reflexivity|]. split; [lia|]. intros i Hi. apply (I i Hi).
  - cbn [empties exec]. unfold qstep at 1. rewrite P, R.
    assert (A : acquireAndFill limit freshItem [] = Some {| iBusy := true; iOneTime := false; iCap := limit; iData := [] |}).
    { unfold acquireAndFill, freshItem. cbn [iBusy iCap iOneTime]. unfold len. cbn [length]. change (N.of_nat 0) with 0. cbv zeta.
      replace (limit <? 0) with false by (symmetry; apply N.ltb_ge; lia). destruct (N.ltb_spec 0 limit).
      - replace (limit <? 0) with false by (symmetry; apply N.ltb_ge; lia). reflexivity.
      - change (0 <? 0) with false. cbv iota. replace limit with 0 by lia. reflexivity. }
    cbv zeta. match goal with |- context [if ?c then None else @None nat] => replace (if c then None else @None nat) with (@None nat) by (destruct c; reflexivity) end.
    rewrite A. unfold qstep at 1. cbn [qPanic qReader qClosed qChan]. rewrite C.
    destruct (Nat.ltb_spec (length (qChan q)) capacity); [|lia].
    match goal with |- context [exec _ ?x _] => destruct (IH x) as (q' & E & L' & I') end;
      cbn [qPanic qReader qClosed qChan qNext qItems]; auto.
    + rewrite app_length. cbn [length]. lia.
    + intros i Hi. apply in_app_or in Hi as [Hi|[<-|[]]].
      * destruct (I i Hi) as (A1 & A2 & A3). rewrite fupd_other by lia. split; [lia|auto].
      * rewrite fupd_same. cbn [iCap iData]. split; [lia|auto].
    + exists q'. split; [exact E|]. split; [|exact I']. rewrite L'. cbn [qChan]. rewrite app_length. cbn [length]. lia.
Qed.

(** Refuted, whatever factor one has in mind: messages of no bytes hold a whole
    packet each, up to the length of the queue. *)
Theorem C178_empty_messages_refuted : forall limit capacity n, (n <= capacity)%nat ->
  exists q, reachableQ limit capacity q /\ length (qChan q) = n /\ unread q = 0 /\ held q = N.of_nat n * limit.
Proof.
  intros limit capacity n Hn.
  destruct (empties_run limit capacity n initQueue) as (q & E & L & I); try reflexivity; [cbn; lia|intros i []|].
  exists q. split; [apply (run_reachable limit capacity (empties n) initQueue q); [apply reach_init; reflexivity|exact E]|].
  cbn in L. split; [exact L|]. unfold unread, held. clear E. rewrite <- L. clear Hn L.
  induction (qChan q) as [|x l IH]; [split; reflexivity|]. cbn [fold_right length].
  destruct (I x (or_introl eq_refl)) as (A & B). rewrite A, B. destruct IH as (U & H); [intros i Hi; apply I; right; exact Hi|].
  split; [rewrite U; reflexivity|]. rewrite H, Nat2N.inj_succ, N.mul_succ_l. lia.
Qed.
Print Assumptions C178_empty_messages_refuted.

(** Nothing is stored beyond the end of an item. *)
Lemma data_fits : forall limit capacity q, reachableQ limit capacity q -> forall i, len (iData (qItems q i)) <= iCap (qItems q i).
Proof.
  intros limit capacity. apply (reachable_inv _ _ (fun q => forall i, len (iData (qItems q i)) <= iCap (qItems q i))).
  - intros q -> i. cbn. lia.
  - intros q q' I [l H]. unfold qstep in H. destruct (qPanic q); [discriminate|].
    assert (F : forall it p it', acquireAndFill limit it p = Some it' -> len (iData it') <= iCap it').
    { intros it p it' A. unfold acquireAndFill in A. destruct (iBusy it); [discriminate|]. cbv zeta in A.
      destruct (N.ltb_spec (if iCap it <? (if limit <? len p then len p else limit) then (if limit <? len p then len p else limit) else iCap it) (len p)); [discriminate|].
      injection A as <-. cbn [iData iCap]. assumption. }
    destruct l as [p r| | |t sz|t|t|t|i].
    + destruct (qReader q); try discriminate. cbv zeta in H. destruct (if limit <? len p then None else r) as [i|].
      * destruct (isPooled i (qPool q)); [|discriminate]. destruct (acquireAndFill limit (qItems q i) p) eqn:A; injection H as <-; [|exact I].
        cbn [qItems]. intros j. unfold fupd. destruct (Nat.eqb j i); [eapply F; exact A|apply I].
      * destruct (acquireAndFill limit freshItem p) eqn:A; injection H as <-; [|exact I].
        cbn [qItems]. intros j. unfold fupd. destruct (Nat.eqb j (qNext q)); [eapply F; exact A|apply I].
    + destruct (qReader q); try discriminate. destruct (qClosed q); [injection H as <-; exact I|].
      destruct (Nat.ltb (length (qChan q)) capacity); [|discriminate]. injection H as <-. exact I.
    + destruct (qReader q); try discriminate. injection H as <-. exact I.
    + destruct (qReads q t); try discriminate. injection H as <-. exact I.
    + destruct (qReads q t); try discriminate. destruct (qChan q); [destruct (qClosed q); [|discriminate]|]; injection H as <-; exact I.
    + destruct (qReads q t); try discriminate. injection H as <-. exact I.
    + destruct (qReads q t); try discriminate. destruct (negb _); [injection H as <-; exact I|].
      destruct (iOneTime _); injection H as <-; [exact I|]. cbn [qItems]. intros j. unfold fupd.
      destruct (Nat.eqb j item); [cbn; lia|apply I].
    + injection H as <-. exact I.
Qed.

(** What holds: every unread message is in an item of its own, there are no more
    than the queue takes, and no item is larger than the larger of the packet size
    limit and the largest message that has arrived. *)
Theorem C178_bounded_partial : forall limit capacity q, reachableQ limit capacity q ->
  (length (qChan q) <= capacity)%nat /\ NoDup (qChan q) /\ unread q <= held q /\
  held q <= N.of_nat capacity * N.max limit (longest (qArrivals q)).
Proof.
  intros limit capacity q R. pose proof (queue_inv _ _ _ R) as Q. pose proof (v_cap _ _ Q) as Hl.
  assert (C : capsOk limit q).
  { clear Q Hl. revert q R. apply reachable_inv; [intros q -> i; cbn; lia|]. intros q q' C [l H]. eapply caps_step; eauto. }
  split; [exact Hl|]. split.
  { pose proof (v_nodup _ _ Q) as D. unfold inFlight in D.
    clear -D. induction (qPool q) as [|x l IH]; cbn [app] in D; [|inversion D; auto].
    induction (qChan q) as [|x l IH]; [constructor|]. cbn [app] in D. inversion D as [|a b Hn D2]; subst. constructor; [|apply IH; exact D2].
    intros Hx. apply Hn. apply in_or_app. left. exact Hx. }
  split.
  - unfold unread, held. pose proof (data_fits _ _ _ R) as F. induction (qChan q) as [|i l IH]; cbn [fold_right]; [lia|].
    specialize (F i). cbn [length] in Hl. specialize (IH ltac:(lia)). lia.
  - enough (B : held q <= N.of_nat (length (qChan q)) * N.max limit (longest (qArrivals q))).
    { etransitivity; [exact B|]. apply N.mul_le_mono_r. lia. }
    unfold held, capsOk in *. set (m := N.max limit (longest (qArrivals q))) in *. clearbody m. clear -C.
    induction (qChan q) as [|i l IH]; cbn [fold_right length]; [lia|]. specialize (C i). rewrite Nat2N.inj_succ, N.mul_succ_l. lia.
Qed.
Print Assumptions C178_bounded_partial.

(** With the default queue: 1024 messages of no bytes hold 64 MiB if a packet may
    have 65536 bytes. *)
Example C178_example : exists q, reachableQ 65536 messageQueueLength q /\ length (qChan q) = 1024%nat /\ unread q = 0 /\ held q = 67108864.
Proof. exact (C178_empty_messages_refuted 65536 messageQueueLength 1024 (le_n _)). Qed.
