(** Property C138: what ends an exchanger. *)
From Coq Require Import NArith List Bool Lia.
From Verif Require Import Base TS IntegProofs KxRetryModel KxRetryProps.
Import ListNotations.
Local Open Scope N_scope.

(** Full statement: a write that fails does not end the exchanger; the message is
    sent again with the next tick, until the time-out.
    False of every update: one failing write ends the exchanger for good, and with it
    the session (session.go 2097-2101), although ticks and time are left; no message
    received afterwards counts as success. *)
Definition pendingSuccess (s : rt) : nat := match tHd s with HdIdle => 0 | _ => 1 end.

Lemma over : forall ls s s', tCtx s = true -> exec rtStep s ls = Some s' ->
  tCtx s' = true /\ (tSuccess s' + pendingSuccess s' <= tSuccess s + pendingSuccess s)%nat.
Proof.
  induction ls as [|l ls IH]; intros s s' C E; cbn [exec] in E.
  - injection E as <-. split; [exact C|lia].
  - destruct (rtStep s l) as [x|] eqn:Ex; [|discriminate].
    enough (H : tCtx x = true /\ (tSuccess x + pendingSuccess x <= tSuccess s + pendingSuccess s)%nat).
    { destruct H as [H1 H2]. destruct (IH _ _ H1 E). split; [assumption|lia]. }
    clear IH E. unfold pendingSuccess. destruct l; cbn [rtStep] in Ex.
    + destruct (tUp s); try discriminate. injection Ex as <-. cbn. split; [exact C|lia].
    + destruct (tUp s); try discriminate. destruct (tChan s); [|destruct (_ || _); [discriminate|]]; injection Ex as <-; cbn; (split; [exact C|lia]).
    + destruct (tUp s); try discriminate. destruct (_ || _); [|discriminate]. injection Ex as <-. cbn. split; [exact C|lia].
    + destruct (tUp s); try discriminate. destruct (lockFree s); [|discriminate]. injection Ex as <-. cbn. split; [exact C|lia].
    + destruct (tUp s); try discriminate. injection Ex as <-. destruct ok; cbn; (split; [auto|lia]).
    + destruct (tUp s); try discriminate. destruct (tChan s); [|destruct (tChanClosed s); [|discriminate]]; injection Ex as <-; cbn; (split; [exact C|lia]).
    + destruct (tUp s); try discriminate. rewrite C in Ex. injection Ex as <-. cbn. split; [exact C|lia].
    + destruct (tUp s); try discriminate. unfold checkChan in Ex. destruct (tChan s); [destruct (k <=? n)|destruct (tChanClosed s)]; injection Ex as <-;
        try destruct ok; cbn; (split; [auto|lia]).
    + destruct (tUp s); try discriminate. unfold checkChan in Ex. destruct (tChan s); [destruct (k <=? n)|destruct (tChanClosed s)]; injection Ex as <-;
        cbn; (split; [auto|lia]).
    + destruct (tHd s); try discriminate. rewrite C in Ex. discriminate.
    + destruct (tHd s) eqn:Hh; try discriminate. injection Ex as <-. cbn. split; [exact C|lia].
    + destruct (tHd s) eqn:Hh; try discriminate. destruct c.
      * destruct (tChanClosed s); [discriminate|]. destruct (tChan s); [discriminate|]. injection Ex as <-. cbn. split; [exact C|lia].
      * destruct (_ || _); [|discriminate]. injection Ex as <-. cbn. split; [exact C|lia].
      * destruct (tChanClosed s); [|discriminate]. injection Ex as <-. cbn. split; [exact C|lia].
    + destruct (tHd s) eqn:Hh; try discriminate. injection Ex as <-. cbn. split; [exact C|lia].
    + rewrite C in Ex. injection Ex as <-. cbn. split; [exact C|lia].
    + injection Ex as <-. cbn. split; [reflexivity|lia].
Qed.

Theorem C138_no_retry_refuted : forall s k s1,
  (tUp s = UpSend k /\ rtStep s (TlSend false) = Some s1) \/
  (tUp s = UpWait k /\ tChan s = None /\ tChanClosed s = false /\ rtStep s (TlTick false) = Some s1) ->
  tCtx s1 = true /\ tTimeouts s1 = tTimeouts s /\
  forall ls s2, exec rtStep s1 ls = Some s2 ->
    tCtx s2 = true /\ (tSuccess s2 <= tSuccess s + pendingSuccess s)%nat.
Proof.
  intros s k s1 H.
  assert (A : tCtx s1 = true /\ tTimeouts s1 = tTimeouts s /\ tSuccess s1 = tSuccess s /\ tHd s1 = tHd s).
  { destruct H as [[U E]|(U & N1 & N2 & E)]; cbn [rtStep] in E; rewrite U in E.
    - injection E as <-. cbn. auto.
    - unfold checkChan in E. rewrite N1, N2 in E. injection E as <-. cbn. auto. }
  destruct A as (A1 & A2 & A3 & A4). split; [exact A1|]. split; [exact A2|]. intros ls s2 E.
  destruct (over ls s1 s2 A1 E) as [O1 O2]. split; [exact O1|].
  unfold pendingSuccess at 2 in O2. rewrite A4, A3 in O2. fold (pendingSuccess s) in O2. lia.
Qed.
Print Assumptions C138_no_retry_refuted.

(** The first write of a session fails once; the peer's answer to it would have come. *)
Example C138_witness :
  match exec rtStep rtInit [TlStart; TlEmpty; TlKey 5; TlSend false] with
  | Some s => tUp s = UpWait 5 /\ tCtx s = true /\ tSendErrors s = 1%nat /\ rtStep s TlHandle = None /\
              match rtStep s (TlTick true) with Some s' => tSent s' = 1%nat /\ rtStep s' TlHandle = None | None => False end
  | None => False
  end.
Proof. vm_compute. auto 10. Qed.

(** What ends an exchanger: the end of the session, a time-out, or a failing write;
    nothing else, and in particular no message. *)
Definition endedBy (ls : list rtlabel) (s : rt) : Prop :=
  tCtx s = true -> In TlCancel ls \/ (0 < tTimeouts s)%nat \/ (0 < tSendErrors s)%nat.
Lemma ended_step : forall ls s l s', endedBy ls s -> rtStep s l = Some s' -> endedBy (ls ++ [l]) s'.
Proof.
  intros ls s l s' A H. unfold endedBy in *.
  assert (K : tCtx s' = tCtx s -> tTimeouts s' = tTimeouts s -> tSendErrors s' = tSendErrors s ->
              tCtx s' = true -> In TlCancel (ls ++ [l]) \/ (0 < tTimeouts s')%nat \/ (0 < tSendErrors s')%nat).
  { intros -> -> -> C. destruct (A C) as [B|B]; [left; apply in_or_app; auto|right; exact B]. }
  destruct l; cbn [rtStep] in H.
  - destruct (tUp s); try discriminate. injection H as <-. apply K; reflexivity.
  - destruct (tUp s); try discriminate. destruct (tChan s); [|destruct (_ || _); [discriminate|]]; injection H as <-; apply K; reflexivity.
  - destruct (tUp s); try discriminate. destruct (_ || _); [|discriminate]. injection H as <-. apply K; reflexivity.
  - destruct (tUp s); try discriminate. destruct (lockFree s); [|discriminate]. injection H as <-. apply K; reflexivity.
  - destruct (tUp s); try discriminate. injection H as <-. destruct ok; [apply K; reflexivity|]. intros _. right. right. cbn. lia.
  - destruct (tUp s); try discriminate. destruct (tChan s); [|destruct (tChanClosed s); [|discriminate]]; injection H as <-; apply K; reflexivity.
  - destruct (tUp s); try discriminate. destruct (tCtx s) eqn:X; [|discriminate]. injection H as <-. apply K; cbn; auto.
  - destruct (tUp s); try discriminate. unfold checkChan in H. destruct (tChan s); [destruct (k <=? n)|destruct (tChanClosed s)]; injection H as <-;
      try destruct ok; try (apply K; reflexivity); intros _; right; right; cbn; lia.
  - destruct (tUp s); try discriminate. unfold checkChan in H. destruct (tChan s); [destruct (k <=? n)|destruct (tChanClosed s)]; injection H as <-;
      try (apply K; reflexivity); intros _; right; left; cbn; lia.
  - destruct (tHd s); try discriminate. destruct (_ || _); [discriminate|]. injection H as <-. apply K; reflexivity.
  - destruct (tHd s); try discriminate. injection H as <-. apply K; reflexivity.
  - destruct (tHd s); try discriminate. destruct c.
    + destruct (tChanClosed s); [discriminate|]. destruct (tChan s); [discriminate|]. injection H as <-. apply K; reflexivity.
    + destruct (_ || _); [|discriminate]. injection H as <-. apply K; reflexivity.
    + destruct (tChanClosed s); [|discriminate]. injection H as <-. apply K; reflexivity.
  - destruct (tHd s); try discriminate. injection H as <-. apply K; reflexivity.
  - destruct (tCtx s) eqn:X; [|discriminate]. injection H as <-. apply K; cbn; auto.
  - intros _. left. apply in_or_app. right. left. reflexivity.
Qed.
Theorem C138_ends_only_by_partial : forall ls s, exec rtStep rtInit ls = Some s -> tCtx s = true ->
  In TlCancel ls \/ (0 < tTimeouts s)%nat \/ (0 < tSendErrors s)%nat.
Proof.
  intros ls s E. change (endedBy ls s). revert ls s E. apply exec_snoc_inv.
  - intros C. discriminate.
  - intros ls s l s' _ A H. eapply ended_step; eauto.
Qed.
Print Assumptions C138_ends_only_by_partial.

(** With a backend that never fails nothing but the time-out and the end of the
    session is left. *)
Definition writeOk (l : rtlabel) : Prop := match l with TlSend ok | TlTick ok => ok = true | _ => True end.
Theorem C138_working_backend : forall ls s, exec rtStep rtInit ls = Some s -> Forall writeOk ls ->
  tSendErrors s = 0%nat /\ (tCtx s = true -> In TlCancel ls \/ (0 < tTimeouts s)%nat).
Proof.
  intros ls s E F. assert (Z : tSendErrors s = 0%nat).
  { revert ls s E F. apply (exec_snoc_inv _ _ rtStep (fun ls s => Forall writeOk ls -> tSendErrors s = 0%nat)); [reflexivity|].
    intros ls s l s' _ IH H F. apply Forall_app in F. destruct F as [F Fl]. apply Forall_inv in Fl. specialize (IH F).
    destruct l; cbn [rtStep] in H; cbn [writeOk] in Fl; subst; unfold checkChan in H; destruct (tChan s), (tUp s), (tHd s), (tChanClosed s); try discriminate;
      repeat match type of H with
      | match ?x with _ => _ end = _ => destruct x; try discriminate
      | (if ?c then _ else _) = _ => destruct c; try discriminate
      | Some (if ?c then _ else _) = _ => destruct c
      end;
      injection H as <-; cbn; repeat match goal with |- context [if ?c then _ else _] => destruct c; cbn end; exact IH. }
  split; [exact Z|]. intros C. destruct (C138_ends_only_by_partial ls s E C) as [H|[H|H]]; [auto|auto|lia].
Qed.
Print Assumptions C138_working_backend.

Example C138_example :
  match exec rtStep rtInit (firstUpdate ++ [TlStart; TlEmpty; TlKey 9; TlSend true; TlTick true; TlTimer]) with
  | Some s => tCtx s = true /\ tTimeouts s = 1%nat /\ tSendErrors s = 0%nat /\ tSent s = 4%nat
  | None => False
  end.
Proof. vm_compute. auto. Qed.
