(** C174: writing to a session that has not been started is refused or waits. *)
From Coq Require Import NArith List Bool Lia.
From Verif Require Import UnstartedModel.
Import ListNotations.
Local Open Scope N_scope.

(** ** What should hold *)
Definition harmless (s : ws) : Prop := forall size,
  writeMessage s size <> Crashed /\ writeSingle s size <> Crashed /\ writeAsync s size <> Crashed /\
  waitHandle s true <> Crashed /\ releaseHandle s <> Crashed.

(** ** What does not hold *)
(** A new session crashes the process at every attempt to write something,
    synchronously or as a single message, whatever the options and the size. An
    asynchronous write crashes, too, or gives (a message that is too big) a handle
    on which neither [Wait] nor [Release] can be called. *)
Theorem C174_write_refuted : forall delay frag limit size, let s := created delay frag limit in
  writeMessage s size = Crashed /\ writeSingle s size = Crashed /\
  (writeAsync s size = Crashed <-> size <= limit \/ frag = true) /\
  (writeAsync s size <> Crashed -> writeAsync s size = Replied (Some WTooBig) /\ waitHandle s true = Crashed /\ releaseHandle s = Crashed).
Proof.
  intros delay frag limit size s. subst s. unfold writeMessage, writeAsync, writeSingle, untilEstablished, created.
  cbn [wEstablished wCtx wSize wFrag wDelay waitHandle releaseHandle].
  destruct (N.ltb_spec limit size) as [H|H]; destruct frag, delay; repeat split; auto; try congruence; intros; try discriminate;
    match goal with H : _ \/ _ |- _ => destruct H; [lia|discriminate] | _ => idtac end.
Qed.
Print Assumptions C174_write_refuted.
Theorem C174_ask_refuted : forall delay frag limit,
  getEstablishedSize (created delay frag limit) = Crashed /\ getKeysWait (created delay frag limit) = Crashed /\
  ~ harmless (created delay frag limit).
Proof. intros delay frag limit. split; [reflexivity|]. split; [reflexivity|]. intros H. destruct (H 0) as (_ & H1 & _). apply H1. reflexivity. Qed.
Print Assumptions C174_ask_refuted.

(** ** What holds *)
(** Once the session is started nothing of this crashes, cancelled or not. *)
Theorem C174_started_partial : forall s, wCtx s <> None -> harmless s.
Proof.
  intros s H size. unfold writeMessage, writeAsync, writeSingle, untilEstablished, waitHandle, releaseHandle.
  destruct (wCtx s) as [[]|]; [| |contradiction]; destruct (wEstablished s), (wSize s <? size), (wFrag s), (wDelay s); cbn; repeat split; discriminate.
Qed.
Print Assumptions C174_started_partial.

(** And a message that was refused is refused for a reason: it is bigger than the
    limit, or the session is cancelled. *)
Theorem C174_refused : forall s size e, wCtx s <> None -> writeMessage s size = Replied (Some e) ->
  e = WTooBig /\ wSize s < size /\ (wFrag s = false) \/ e = WClosed /\ wCtx s = Some true /\ wEstablished s = false.
Proof.
  intros s size e H E. unfold writeMessage, writeAsync, writeSingle, untilEstablished, waitHandle, releaseHandle in E.
  destruct (wCtx s) as [c|]; [|contradiction]. destruct (N.ltb_spec (wSize s) size) as [L|L];
    destruct c, (wEstablished s), (wFrag s), (wDelay s); cbn in E; try discriminate; injection E as <-; auto.
Qed.
Print Assumptions C174_refused.

(** The verdict on a message is that of its size (in fragments every size is
    fine), of the context and of the establishment, in this order; a single message
    cannot be fragmented, and its size is looked at last. *)
Theorem C174_verdict : forall s c size, wCtx s = Some c ->
  let fits := (size <=? wSize s) || wFrag s in
  writeMessage s size = writeAsync s size /\
  (writeAsync s size = Replied (Some WTooBig) <-> fits = false) /\
  (writeAsync s size = Replied (Some WClosed) <-> fits = true /\ wEstablished s = false /\ c = true) /\
  (writeAsync s size = Waiting <-> fits = true /\ wEstablished s = false /\ c = false) /\
  (writeAsync s size = OnItsWay <-> fits = true /\ wEstablished s = true) /\
  (writeSingle s size = Replied (Some WTooBig) <-> wEstablished s = true /\ wSize s < size) /\
  (writeSingle s size = OnItsWay <-> wEstablished s = true /\ size <= wSize s) /\
  (writeSingle s size = Waiting <-> wEstablished s = false /\ c = false).
Proof.
  intros s c size H. cbv zeta. unfold writeMessage, writeAsync, writeSingle, untilEstablished, waitHandle, releaseHandle.
  rewrite H. destruct (N.ltb_spec (wSize s) size) as [L|L]; destruct (N.leb_spec size (wSize s)) as [M|M]; try lia;
    destruct c, (wEstablished s), (wFrag s), (wDelay s); cbn;
    repeat split; intros; try reflexivity; try discriminate; try lia; intuition (try discriminate; try lia).
Qed.
Print Assumptions C174_verdict.

(** [Start] gives a context that is not cancelled: the first message waits. *)
Theorem C174_start_waits : forall delay frag limit size, size <= limit ->
  writeMessage (started (created delay frag limit)) size = Waiting /\
  writeSingle (started (created delay frag limit)) size = Waiting.
Proof.
  intros delay frag limit size H. unfold writeMessage, writeAsync, writeSingle, untilEstablished, started, created.
  cbn [wEstablished wCtx wSize wFrag wDelay]. destruct (N.ltb_spec limit size); [lia|]. destruct delay; auto.
Qed.
Print Assumptions C174_start_waits.

Example C174_example :
  let s := created true false 1000 in
  writeMessage s 10 = Crashed /\ writeAsync s 2000 = Replied (Some WTooBig) /\ releaseHandle s = Crashed /\
  writeMessage (started s) 10 = Waiting /\ writeMessage (started s) 2000 = Replied (Some WTooBig) /\
  writeMessage {| wCtx := Some true; wEstablished := false; wDelay := true; wFrag := false; wSize := 1000 |} 10 = Replied (Some WClosed) /\
  writeMessage {| wCtx := Some false; wEstablished := true; wDelay := true; wFrag := false; wSize := 1000 |} 10 = OnItsWay.
Proof. vm_compute. repeat split; reflexivity. Qed.
