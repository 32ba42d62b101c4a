(** Properties C30, C31, C73: Session.Read. *)
From Coq Require Import NArith List Bool Lia Arith.
From Verif Require Import Base BaseLemmas TS QueueModel QueueProofs.
Import ListNotations.
Local Open Scope N_scope.

Notation reachableQ limit capacity := (reachable (fun s => s = initQueue) (lstep (qstep limit capacity))).

(** ** C30: the k-th Read call that got something from the queue got the k-th
    message that arrived, whole, or an error if its buffer is too small; under
    every schedule of the reader, of any number of Read calls and of the pool. *)
Theorem C30_in_order : forall limit capacity q k t, reachableQ limit capacity q ->
  nth_error (qReceived q) k = Some t ->
  exists m, nth_error (qArrivals q) k = Some m /\
    match qReads q t with
    | RRet size (ReadOk d) => d = m /\ len m <= size
    | RRet size ReadTooBig => size < len m
    | RRet _ ReadClosed | RNone | RWait _ => False
    | RGot _ _ | RCopied _ _ _ => True   (* still running *)
    end.
Proof.
  intros limit capacity q k t H Hk. apply queue_inv in H. destruct (v_order _ _ H) as (old & E & L & R).
  assert (Hlt : (k < length old)%nat) by (rewrite L; apply nth_error_Some; congruence).
  destruct (nth_error old k) as [m|] eqn:Em; [|apply nth_error_None in Em; lia].
  exists m. split; [rewrite E, nth_error_app1 by auto; exact Em|].
  specialize (R k t m Hk Em). destruct (qReads q t) as [| | | |size [d| |]]; cbn [readHas] in R; auto.
Qed.
Print Assumptions C30_in_order.

(** Every successful Read is one of these, and each of them only once. *)
Theorem C30_one_message_per_call : forall limit capacity q, reachableQ limit capacity q ->
  NoDup (qReceived q) /\
  forall t size d, qReads q t = RRet size (ReadOk d) ->
    exists k, nth_error (qReceived q) k = Some t /\ nth_error (qArrivals q) k = Some d.
Proof.
  intros limit capacity q H. split; [exact (v_rnodup _ _ (queue_inv _ _ _ H))|]. intros t size d Ht.
  assert (Hin : In t (qReceived q)) by (apply (v_recv _ _ (queue_inv _ _ _ H)); rewrite Ht; reflexivity).
  apply In_nth_error in Hin. destruct Hin as [k Hk]. exists k. split; [exact Hk|].
  destruct (C30_in_order _ _ _ _ _ H Hk) as (m & Hm & R). rewrite Ht in R. destruct R as [-> _]. exact Hm.
Qed.
Print Assumptions C30_one_message_per_call.

(** The pool's sanity checks never fire, nothing is sent on a closed channel. *)
Theorem C30_no_panic : forall limit capacity q, reachableQ limit capacity q -> qPanic q = false.
Proof. intros limit capacity q H. exact (v_panic _ _ (queue_inv _ _ _ H)). Qed.
Print Assumptions C30_no_panic.

(** Two messages, two concurrent reads, a reused item, a message too big. *)
Definition exLabels : list qlabel :=
  [QCall 0 10; QArrive [1;2] None; QPut; QRecv 0; QArrive [3;4;5] None; QCall 1 10; QCall 2 2; QPut; QRecv 2; QCopy 0;
   QRelease 0; QArrive [6] (Some 0%nat); QPut; QRecv 1; QCopy 2; QCopy 1; QRelease 1].
Example C30_example :
  match exec (qstep 100 1024) initQueue exLabels with
  | Some q => qReceived q = [0; 2; 1]%nat /\ qArrivals q = [[1;2]; [3;4;5]; [6]] /\
      map (qReads q) [0; 1; 2]%nat = [RRet 10 (ReadOk [1;2]); RRet 10 (ReadOk [6]); RRet 2 ReadTooBig]
  | None => False
  end.
Proof. vm_compute. auto. Qed.

(** ** C31 *)

(** Once the queue is closed no Read call is blocked. *)
Theorem C31_never_blocks : forall limit capacity q t size, reachableQ limit capacity q ->
  qClosed q = true -> qReads q t = RWait size -> exists q', qstep limit capacity q (QRecv t) = Some q'.
Proof.
  intros limit capacity q t size H Hc Ht. unfold qstep. rewrite (C30_no_panic _ _ _ H), Ht, Hc.
  destruct (qChan q); eauto.
Qed.
Print Assumptions C31_never_blocks.

(** What a Read call gets then: the next message not received yet as long as
    there is one, the error otherwise. *)
Theorem C31_drains_then_error : forall limit capacity q t size q', reachableQ limit capacity q ->
  qClosed q = true -> qReads q t = RWait size -> qstep limit capacity q (QRecv t) = Some q' ->
  if (length (qReceived q) <? length (qArrivals q))%nat
  then exists i, qReads q' t = RGot size i /\ qReceived q' = qReceived q ++ [t]
  else qReads q' t = RRet size ReadClosed.
Proof.
  intros limit capacity q t size q' H Hc Ht Hs. pose proof (queue_inv _ _ _ H) as I.
  destruct (v_order _ _ I) as (old & E & L & _).
  assert (Er : qReader q = RpDone) by (apply (v_closed _ _ I); exact Hc).
  assert (Len : length (qArrivals q) = (length (qReceived q) + length (qChan q))%nat).
  { rewrite E, app_length, L. unfold dataOf, inFlight. rewrite map_length, Er. cbn [readerItem]. rewrite app_nil_r. reflexivity. }
  unfold qstep in Hs. rewrite (v_panic _ _ I), Ht in Hs. destruct (qChan q) as [|i r] eqn:Ec.
  - rewrite Hc in Hs. injection Hs as <-. cbn [length] in Len. rewrite Len, Nat.add_0_r, Nat.ltb_irrefl.
    cbn [qReads]. apply fupd_same.
  - injection Hs as <-. cbn [length] in Len. replace (length (qReceived q) <? length (qArrivals q))%nat with true
      by (symmetry; apply Nat.ltb_lt; lia).
    exists i. cbn [qReads qReceived]. rewrite fupd_same. auto.
Qed.
Print Assumptions C31_drains_then_error.

(** A Read call never reports closure while a message is still queued or on
    its way into the queue. *)
Theorem C31_no_early_error : forall limit capacity q t size, reachableQ limit capacity q ->
  qReads q t = RRet size ReadClosed -> qClosed q = true /\ length (qReceived q) = length (qArrivals q).
Proof.
  intros limit capacity q t size H Ht. pose proof (queue_inv _ _ _ H) as I.
  destruct (v_end _ _ I t size Ht) as [Hc He]. split; [exact Hc|].
  destruct (v_order _ _ I) as (old & E & L & _).
  assert (Er : qReader q = RpDone) by (apply (v_closed _ _ I); exact Hc).
  rewrite E, app_length, L. unfold dataOf, inFlight. rewrite He, Er. cbn. lia.
Qed.
Print Assumptions C31_no_early_error.

Example C31_example :
  match exec (qstep 100 1024) initQueue
     [QArrive [1;2] None; QPut; QArrive [3] None; QPut; QFinish; QCall 0 10; QRecv 0; QCall 1 10; QCall 2 10; QRecv 1; QRecv 2;
      QCopy 0; QCopy 1; QRelease 0; QRelease 1; QCall 3 10; QRecv 3] with
  | Some q => map (qReads q) [0; 1; 2; 3]%nat =
      [RRet 10 (ReadOk [1;2]); RRet 10 (ReadOk [3]); RRet 10 ReadClosed; RRet 10 ReadClosed]
  | None => False
  end.
Proof. vm_compute. auto. Qed.

(** ** C73.  Full statement: the reader goroutine can always get to its end
    after Close, whether or not anybody calls Read. False: with a full queue it
    waits inside the send, which nothing but a Read ends. *)
Definition fill (n : nat) : list qlabel := concat (repeat [QArrive [7] None; QPut] n) ++ [QArrive [7] None].

Lemma fill_runs : forall limit capacity n q, (length (qChan q) + n = capacity)%nat ->
  qReader q = RpIdle -> qClosed q = false -> qPanic q = false ->
  exists q' i, exec (qstep limit capacity) q (fill n) = Some q' /\ qReader q' = RpSending i /\ qClosed q' = false /\
    length (qChan q') = capacity /\ qPanic q' = false.
Proof.
  intros limit capacity. induction n as [|n IH]; intros q Hl Hr Hc Hp.
  - unfold fill. cbn [repeat concat app exec]. unfold qstep at 1. rewrite Hp, Hr.
    destruct (fill_spec limit freshItem [7] eq_refl) as [c Ec].
    replace (if limit <? len [7] then None else None) with (@None nat) by (destruct (limit <? len [7]); reflexivity).
    rewrite Ec. eexists _, _. split; [reflexivity|]. cbn [qReader qClosed qChan qPanic]. repeat split; auto. lia.
  - unfold fill. cbn [repeat concat app exec]. unfold qstep at 1. rewrite Hp, Hr.
    destruct (fill_spec limit freshItem [7] eq_refl) as [c Ec].
    replace (if limit <? len [7] then None else None) with (@None nat) by (destruct (limit <? len [7]); reflexivity).
    rewrite Ec. unfold qstep at 1. cbn [qPanic qReader qClosed qChan]. rewrite Hc.
    replace (Nat.ltb (length (qChan q)) capacity) with true by (symmetry; apply Nat.ltb_lt; lia).
    fold (fill n). apply IH; cbn [qReader qClosed qChan qPanic]; auto. rewrite app_length. cbn. lia.
Qed.

Theorem C73_reader_stuck_refuted : forall limit,
  exists q, reachableQ limit messageQueueLength q /\
    forall ls q', Forall (fun l => match l with QRecv _ => False | _ => True end) ls ->
      exec (qstep limit messageQueueLength) q ls = Some q' ->
      qReader q' = qReader q /\ qReader q' <> RpDone /\ qClosed q' = false.
Proof.
  intros limit.
  destruct (fill_runs limit messageQueueLength messageQueueLength initQueue) as (q & i & E & Hr & Hc & Hl & Hp); try reflexivity.
  exists q. split; [eapply exec_reachable; [|exact E]; reflexivity|].
  assert (G : forall ls q1 q', qReader q1 = RpSending i -> qClosed q1 = false -> length (qChan q1) = messageQueueLength ->
     Forall (fun l => match l with QRecv _ => False | _ => True end) ls ->
     exec (qstep limit messageQueueLength) q1 ls = Some q' -> qReader q' = RpSending i /\ qClosed q' = false).
  { clear. induction ls as [|l ls IH]; intros q1 q' Hr Hc Hl HF H; cbn [exec] in H; [injection H as <-; auto|].
    inversion HF as [|? ? Hl1 HF']; subst.
    destruct (qstep limit messageQueueLength q1 l) as [q2|] eqn:E; [|discriminate].
    assert (K : qReader q2 = RpSending i /\ qClosed q2 = false /\ length (qChan q2) = messageQueueLength).
    { unfold qstep in E. destruct (qPanic q1); [discriminate|]. destruct l; try contradiction; rewrite ?Hr in E; try discriminate.
      - rewrite Hc, Hl, Nat.ltb_irrefl in E. discriminate.
      - destruct (qReads q1 t); try discriminate. injection E as <-. cbn. auto.
      - destruct (qReads q1 t); try discriminate. injection E as <-. cbn. auto.
      - destruct (qReads q1 t); try discriminate. destruct (negb _); [injection E as <-; cbn; auto|].
        destruct (iOneTime _); injection E as <-; cbn; auto.
      - injection E as <-. cbn. auto. }
    destruct K as (K1 & K2 & K3). eapply IH; eauto. }
  intros ls q' HF H. destruct (G ls q q' Hr Hc Hl HF H) as [G1 G2]. rewrite G1, Hr. repeat split; auto. discriminate.
Qed.
Print Assumptions C73_reader_stuck_refuted.

(** What holds: with room in the queue the reader finishes its send and can
    then get to its end without help; and one Read call is enough to make room. *)
Theorem C73_reader_finishes_partial : forall limit capacity q, reachableQ limit capacity q ->
  (length (qChan q) < capacity)%nat ->
  exists ls q', exec (qstep limit capacity) q ls = Some q' /\ qReader q' = RpDone /\ qClosed q' = true /\
    Forall (fun l => match l with QPut | QFinish => True | _ => False end) ls.
Proof.
  intros limit capacity q H Hl. pose proof (queue_inv _ _ _ H) as I.
  destruct (qReader q) as [|i|] eqn:Er.
  - exists [QFinish]. eexists. cbn [exec]. unfold qstep at 1. rewrite (v_panic _ _ I), Er. repeat split; auto.
  - assert (Hc : qClosed q = false) by (destruct (qClosed q) eqn:E; auto; apply (v_closed _ _ I) in E; congruence).
    exists [QPut; QFinish]. eexists. cbn [exec]. unfold qstep at 1. rewrite (v_panic _ _ I), Er, Hc.
    replace (Nat.ltb (length (qChan q)) capacity) with true by (symmetry; apply Nat.ltb_lt; lia).
    unfold qstep at 1. cbn [qPanic qReader]. repeat split; auto.
  - exists [], q. cbn [exec]. repeat split; auto. apply (v_closed _ _ I). exact Er.
Qed.
Print Assumptions C73_reader_finishes_partial.

Example C73_example : (* a queue of capacity 2 filled by three arrivals; a Read unblocks the reader *)
  match exec (qstep 100 2) initQueue (fill 2) with
  | Some q => qstep 100 2 q QPut = None /\ qstep 100 2 q QFinish = None /\
      match exec (qstep 100 2) q [QCall 0 5; QRecv 0; QPut; QFinish] with Some q' => qClosed q' = true | None => False end
  | None => False
  end.
Proof. vm_compute. auto. Qed.
