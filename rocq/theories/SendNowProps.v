(** Property C141: [SendNowAndWait] returns. *)
From Coq Require Import List Bool Arith Lia.
From Verif Require Import Base TS IntegProofs SendNowModel.
Import ListNotations.

Ltac snCases H := repeat (match type of H with context [match ?x with _ => _ end] => destruct x eqn:? end; cbn in H; try discriminate).
Ltac snBool := repeat match goal with
  | H : _ && _ = true |- _ => apply andb_true_iff in H; destruct H
  | H : _ || _ = false |- _ => apply orb_false_iff in H; destruct H
  | H : _ || _ = true |- _ => apply orb_true_iff in H
  end.

(** Nobody receives from the channel and nobody will. *)
Definition deaf (s : snState) : Prop := snSender s = SnNone /\ (snDelay s = false \/ (snEst s = false /\ snCtx s = true)).

Lemma deaf_step : forall s l s', deaf s -> snCaller s = SnAtSend -> snStep s l = Some s' -> deaf s' /\ snCaller s' = SnAtSend.
Proof.
  intros s l s' [N D] C H. unfold deaf. destruct l; cbn [snStep] in H; rewrite ?N, ?C in H; try discriminate.
  - destruct (snEst s) eqn:E; [discriminate|]. destruct (snCtx s) eqn:X; [discriminate|]. cbn in H. injection H as <-. cbn.
    destruct D as [D|[_ D]]; [|discriminate]. auto.
  - destruct D as [D|[D _]]; rewrite D in H; [rewrite andb_false_r in H|]; discriminate.
  - injection H as <-. cbn. tauto.
Qed.

Lemma deaf_forever : forall ls s s', deaf s -> snCaller s = SnAtSend -> exec snStep s ls = Some s' -> snCaller s' = SnAtSend.
Proof.
  induction ls as [|l ls IH]; intros s s' D C E; cbn [exec] in E.
  - injection E as <-. exact C.
  - destruct (snStep s l) as [s1|] eqn:H; [|discriminate]. destruct (deaf_step _ _ _ D C H) as [D1 C1]. eapply IH; eauto.
Qed.

(** Full statement: whoever has called [SendNowAndWait] on a handle that
    [WriteMessageAsync] returned gets back. False in every session without a send
    delay: the call never returns, whatever happens later, even if the session is
    closed and although the message has been sent already. *)
Lemma no_delay_deaf : forall ls s, exec snStep (snInit false) ls = Some s -> snSender s = SnNone /\ snDelay s = false.
Proof.
  apply (exec_snoc_inv _ _ snStep (fun _ s => snSender s = SnNone /\ snDelay s = false)); [auto|].
  intros ls s l s' _ [A B] H. destruct l; cbn [snStep] in H; rewrite ?A, ?B in H; try discriminate.
  - destruct (_ || _); [discriminate|]. injection H as <-. auto.
  - rewrite andb_false_r in H. discriminate.
  - injection H as <-. auto.
  - destruct (snCaller s); try discriminate. destruct (_ || _); [|discriminate]. injection H as <-. auto.
  - destruct (snCaller s); try discriminate. injection H as <-. auto.
  - destruct (snCaller s); try discriminate. destruct (snHandle s); try (destruct (snCtx s); [|discriminate]); injection H as <-; cbn; auto.
Qed.

Theorem C141_no_delay_refuted : forall ls s ls' s', exec snStep (snInit false) ls = Some s -> snCaller s = SnAtSend ->
  exec snStep s ls' = Some s' -> snCaller s' = SnAtSend.
Proof.
  intros ls s ls' s' E C E'. destruct (no_delay_deaf _ _ E) as [N D]. eapply deaf_forever; eauto. unfold deaf. auto.
Qed.
Print Assumptions C141_no_delay_refuted.

Theorem C141_no_delay_happens_refuted : exists s, exec snStep (snInit false) [SnEstablish; SnGet; SnCall; SnCancel] = Some s /\
  snCaller s = SnAtSend /\ snHandle s = SnDone /\ snCtx s = true.
Proof. eexists. split; [vm_compute; reflexivity|]. vm_compute. auto. Qed.
Print Assumptions C141_no_delay_happens_refuted.

(** With a send delay it is false of a session that is closed before it is
    established. *)
Theorem C141_closed_early_refuted : forall ls s ls' s', exec snStep (snInit true) ls = Some s -> snEst s = false -> snCaller s = SnAtSend ->
  exec snStep s ls' = Some s' -> snCaller s' = SnAtSend.
Proof.
  intros ls s ls' s' E F C E'.
  assert (A : snEst s = false -> snSender s = SnNone /\ (snCaller s = SnFresh \/ snCtx s = true)).
  { revert E. clear. revert ls s. apply (exec_snoc_inv _ _ snStep (fun _ s => snEst s = false -> snSender s = SnNone /\ (snCaller s = SnFresh \/ snCtx s = true))); [cbn; auto|].
    intros ls s l s' _ A H F. destruct l; cbn [snStep] in H; unfold batchSwap, batchSent in H; snCases H; injection H as <-; snBool; cbn in *;
      try discriminate; intuition congruence. }
  destruct (A F) as [N [B|B]]; [congruence|]. eapply deaf_forever; eauto. unfold deaf. auto.
Qed.
Print Assumptions C141_closed_early_refuted.

(** What holds: in an established session with a send delay the caller gets hold of
    the sender whenever that is at its [select]; having met it, the caller is served
    by the sending that is under way at the latest, and nothing takes that back. *)
Definition served (s : snState) : Prop := snCaller s = SnAtWait -> snHandle s = SnDone \/ (snHandle s = SnSwapped /\ snSender s = SnSending).

Theorem C141_served_partial : forall delay ls s, exec snStep (snInit delay) ls = Some s -> snCaller s = SnAtWait ->
  (exists s', snStep s SnWake = Some s' /\ snCaller s' = SnReturned) \/
  (snSender s = SnSending /\ exists s1 s2, snStep s SnSent = Some s1 /\ snStep s1 SnWake = Some s2 /\ snCaller s2 = SnReturned).
Proof.
  intros delay ls s E C.
  assert (A : served s /\ (snHandle s = SnSwapped -> snSender s = SnSending)).
  { revert E. clear. revert ls s. apply (exec_snoc_inv _ _ snStep (fun _ s => served s /\ (snHandle s = SnSwapped -> snSender s = SnSending))).
    - unfold served. cbn. split; intros; discriminate.
    - intros ls s l s' _ [A B] H. unfold served in *. destruct l; cbn [snStep] in H; unfold batchSwap, batchSent in H; snCases H; injection H as <-; snBool; cbn in *;
        intuition congruence. }
  destruct A as [A _]. destruct (A C) as [D|[D1 D2]].
  - left. cbn [snStep]. rewrite C, D. eauto.
  - right. split; [exact D2|]. cbn [snStep]. rewrite D2. eexists _, _. split; [reflexivity|]. cbn [snStep setSnS snCaller snHandle]. rewrite C, D1. split; reflexivity.
Qed.
Print Assumptions C141_served_partial.

Theorem C141_met_partial : forall s, snSender s = SnSelect -> snCaller s = SnAtSend ->
  exists s', snStep s (SnMeet false) = Some s' /\ snCaller s' = SnAtWait.
Proof. intros s A B. cbn [snStep]. rewrite A, B. destruct (snHandle s); eauto. Qed.
Print Assumptions C141_met_partial.

(** A handle of the batch that is being filled is served by the timer as well. *)
Theorem C141_timer_partial : forall s, snSender s = SnSelect -> snHandle s = SnBatch -> snCaller s <> SnFresh ->
  exists s1 s2, snStep s SnKick = Some s1 /\ snStep s1 SnSent = Some s2 /\ snHandle s2 = SnDone /\ snCaller s2 = snCaller s.
Proof.
  intros s A B C. cbn [snStep]. rewrite A. eexists _, _. split; [reflexivity|]. cbn [snStep setSnS snSender snCaller snHandle]. split; [reflexivity|].
  cbn. rewrite B. destruct (snCaller s); auto. destruct C; reflexivity.
Qed.
Print Assumptions C141_timer_partial.

(** Closing the session makes waiting callers panic: the channel they want to send
    to is closed. *)
Theorem C141_panic_refuted : exists s, exec snStep (snInit true) [SnEstablish; SnStart; SnGet; SnCall; SnCancel; SnLeave; SnOnClosed] = Some s /\ snCaller s = SnPanicked.
Proof. eexists. split; [vm_compute; reflexivity|]. reflexivity. Qed.
Print Assumptions C141_panic_refuted.

(** The call panics only in a session whose context is cancelled. *)
Theorem C141_panic_partial : forall delay ls s, exec snStep (snInit delay) ls = Some s -> snCaller s = SnPanicked -> snCtx s = true.
Proof.
  intros delay ls s E.
  assert (A : (snSender s = SnEnd -> snCtx s = true) /\ (snCaller s = SnPanicked -> snCtx s = true)).
  { revert E. revert ls s. apply (exec_snoc_inv _ _ snStep (fun _ s => (snSender s = SnEnd -> snCtx s = true) /\ (snCaller s = SnPanicked -> snCtx s = true))).
    - cbn. split; intros; discriminate.
    - intros ls s l s' _ [A B] H. destruct l; cbn [snStep] in H; unfold batchSwap, batchSent in H; snCases H; injection H as <-; snBool; cbn in *;
        intuition congruence. }
  tauto.
Qed.
Print Assumptions C141_panic_partial.

(** The ordinary case: the batch leaves because of the call. *)
Example C141_example :
  match exec snStep (snInit true) [SnEstablish; SnStart; SnKick; SnSent; SnGet; SnCall; SnMeet false; SnSent; SnWake] with
  | Some s => snCaller s = SnReturned /\ snHandle s = SnDone
  | None => False
  end.
Proof. vm_compute. auto. Qed.
Example C141_early_example :
  match exec snStep (snInit true) [SnCancel; SnGet; SnCall] with
  | Some s => snCaller s = SnAtSend /\ snEst s = false
  | None => False
  end.
Proof. vm_compute. auto. Qed.
