(** Properties C123 and C124: how a key update ends. *)
From Coq Require Import NArith List Bool Lia.
From Verif Require Import Base TS KxRetryModel.
Import ListNotations.
Local Open Scope N_scope.

Definition reachableT := reachable (fun s => s = rtInit) (lstep rtStep).

(** ** C123.  Full statement: if, after a key update has made or taken up a key, a
    message that means success is handled before the timer fires, this update is not
    reported as timed out.
    False: a late answer to the previous update, announced after the channel was
    emptied and before the new key was made, fills the channel; the
    announcement of the real answer is dropped. *)
Definition firstUpdate : list rtlabel :=
  [TlStart; TlEmpty; TlKey 5; TlSend true; TlTick true; TlHandle; TlHandleSet; TlNotify NcSend; TlHandleEnd; TlRecv].
Definition handled : list rtlabel := [TlHandle; TlHandleSet; TlNotify NcSkip; TlHandleEnd].
Theorem C123_dropped_refuted : exists s1 s2 s3,
  exec rtStep rtInit (firstUpdate ++ [TlStart; TlEmpty; TlHandle; TlHandleSet; TlNotify NcSend; TlHandleEnd; TlKey 9; TlSend true]) = Some s1 /\
  tUp s1 = UpWait 9 /\ tLocal s1 < 9 /\
  exec rtStep s1 handled = Some s2 /\ tUp s2 = UpWait 9 /\ tLocal s2 = 9 /\ tSuccess s2 = S (tSuccess s1) /\
  exec rtStep s2 [TlRecv; TlTimer] = Some s3 /\ tTimeouts s3 = 1%nat /\ tSendErrors s3 = 0%nat /\ tCtx s3 = true.
Proof.
  do 3 eexists. split; [vm_compute; reflexivity|]. split; [reflexivity|]. split; [reflexivity|].
  split; [vm_compute; reflexivity|]. split; [reflexivity|]. split; [reflexivity|]. split; [reflexivity|].
  split; [vm_compute; reflexivity|]. auto.
Qed.
Print Assumptions C123_dropped_refuted.

(** If the channel is empty when the success is announced, no continuation reports
    a time-out of this update: whatever messages, retries, failing writes, and the
    end of the session come in between, and whichever ready case the selects take. *)
Definition inUpdate (s : rt) (k : N) : Prop := tUp s = UpSend k \/ tUp s = UpWait k.

Record stampInv (s : rt) : Prop := {
  st_le : tLocal s <= tNext s;
  st_up : forall k, inUpdate s k -> tNext s = k;
  st_hd : forall v, tHd s = HdNotify v -> v = tNext s;
  st_lock : forall v, tHd s = HdNotify v -> tLocal s = tNext s
}.

Lemma next_stamp_gt : forall s now, tLocal s <= tNext s -> tLocal s < nextStamp s now.
Proof.
  intros s now H. unfold nextStamp. destruct (N.ltb_spec (tLocal s) (tNext s)); [assumption|]. destruct (N.leb_spec now (tLocal s)); lia.
Qed.

Lemma stamp_step : forall s l s', stampInv s -> rtStep s l = Some s' -> stampInv s'.
Proof.
  intros s l s' [I1 I2 I3 I4] H. unfold inUpdate in I2. destruct l; cbn [rtStep] in H.
  - destruct (tUp s) eqn:U; try discriminate. injection H as <-. constructor; unfold inUpdate; cbn; auto. intros k [K|K]; discriminate.
  - destruct (tUp s) eqn:U; try discriminate. destruct (tChan s); [injection H as <-|destruct (_ || _); [discriminate|injection H as <-]];
      constructor; unfold inUpdate; cbn; auto; rewrite ?U; intros k [K|K]; discriminate.
  - destruct (tUp s) eqn:U; try discriminate. destruct (_ || _); [|discriminate]. injection H as <-.
    constructor; unfold inUpdate; cbn; auto. intros k [K|K]; discriminate.
  - destruct (tUp s) eqn:U; try discriminate. unfold lockFree in H. destruct (tHd s) eqn:Hh; try discriminate. injection H as <-.
    pose proof (next_stamp_gt s now I1) as G. constructor; unfold inUpdate; cbn; rewrite ?Hh; try discriminate; try lia.
    intros k [K|K]; [injection K; auto|discriminate].
  - destruct (tUp s) eqn:U; try discriminate. injection H as <-. destruct ok; constructor; unfold inUpdate; cbn; auto;
      intros k' [K|K]; try discriminate; injection K as <-; auto.
  - destruct (tUp s) eqn:U; try discriminate. destruct (tChan s); [injection H as <-; destruct (k <=? n)|destruct (tChanClosed s); [injection H as <-|discriminate]];
      constructor; unfold inUpdate; cbn; auto; intros k' [K|K]; try discriminate; injection K as <-; auto.
  - destruct (tUp s) eqn:U; try discriminate. destruct (tCtx s); [|discriminate]. injection H as <-.
    constructor; unfold inUpdate; cbn; auto. intros k' [K|K]; discriminate.
  - destruct (tUp s) eqn:U; try discriminate. unfold checkChan in H. destruct (tChan s); [destruct (k <=? n)|destruct (tChanClosed s)];
      injection H as <-; try (destruct ok); constructor; unfold inUpdate; cbn; auto; intros k' [K|K]; try discriminate;
      rewrite U in K; try discriminate; injection K as <-; auto.
  - destruct (tUp s) eqn:U; try discriminate. unfold checkChan in H. destruct (tChan s); [destruct (k <=? n)|destruct (tChanClosed s)];
      injection H as <-; constructor; unfold inUpdate; cbn; auto; intros k' [K|K]; discriminate.
  - destruct (tHd s) eqn:Hh; try discriminate. destruct (_ || _); [discriminate|]. injection H as <-. constructor; unfold inUpdate; cbn; auto; discriminate.
  - destruct (tHd s) eqn:Hh; try discriminate. injection H as <-. constructor; unfold inUpdate; cbn; auto; try lia. intros v K. injection K; auto.
  - destruct (tHd s) eqn:Hh; try discriminate. destruct c.
    + destruct (tChanClosed s); [discriminate|]. destruct (tChan s); [discriminate|]. injection H as <-. constructor; unfold inUpdate; cbn; auto; discriminate.
    + destruct (_ || _); [|discriminate]. injection H as <-. constructor; unfold inUpdate; cbn; auto; discriminate.
    + destruct (tChanClosed s); [|discriminate]. injection H as <-. constructor; unfold inUpdate; cbn; auto; discriminate.
  - destruct (tHd s) eqn:Hh; try discriminate. injection H as <-. constructor; unfold inUpdate; cbn; auto; discriminate.
  - destruct (tCtx s); [|discriminate]. injection H as <-. constructor; unfold inUpdate; cbn; auto.
  - injection H as <-. constructor; unfold inUpdate; cbn; auto.
Qed.

Lemma stamp_inv : forall s, reachableT s -> stampInv s.
Proof.
  apply reachable_inv.
  - intros s ->. constructor; unfold inUpdate; cbn; try lia; try discriminate. intros k [K|K]; discriminate.
  - intros s s' I (l & H). exact (stamp_step s l s' I H).
Qed.

(** [n]: the number of the update; [t]: time-outs reported before. *)
Definition announced (k : N) (n t : nat) (s : rt) : Prop :=
  (n < tUpdates s)%nat \/
  (tUpdates s = n /\ tTimeouts s = t /\
    ((inUpdate s k /\ exists v, tChan s = Some v /\ k <= v) \/ tUp s = UpIdle \/ tUp s = UpEmpty \/ tUp s = UpKey)).

Lemma announced_step : forall k n t s l s', announced k n t s -> rtStep s l = Some s' -> announced k n t s'.
Proof.
  intros k n t s l s' A H.
  assert (M : (tUpdates s <= tUpdates s')%nat).
  { destruct l; cbn [rtStep] in H; unfold mustSend, checkChan in H.
    all: repeat match type of H with
    | context [match ?x with _ => _ end] => lazymatch x with context [match _ with _ => _ end] => fail | _ => destruct x; try discriminate end
    end; try (injection H as <-); cbn; lia. }
  destruct A as [A|(A1 & A2 & A3)]; [left; lia|].
  destruct A3 as [(U & v & C & L)|Q].
  - destruct l; cbn [rtStep] in H; unfold inUpdate in U; unfold announced, inUpdate.
    + destruct U as [U|U]; rewrite U in H; discriminate.
    + destruct U as [U|U]; rewrite U in H; discriminate.
    + destruct U as [U|U]; rewrite U in H; discriminate.
    + destruct U as [U|U]; rewrite U in H; discriminate.
    + destruct U as [U|U]; rewrite U in H; [|discriminate]. injection H as <-. right. destruct ok; cbn; repeat split; auto; left; eauto.
    + destruct U as [U|U]; rewrite U in H; [discriminate|]. rewrite C in H. injection H as <-.
      destruct (N.leb_spec k v); [|lia]. right. cbn. auto.
    + destruct U as [U|U]; rewrite U in H; [discriminate|]. destruct (tCtx s); [|discriminate]. injection H as <-. right. cbn. auto.
    + destruct U as [U|U]; rewrite U in H; [discriminate|]. unfold checkChan in H. rewrite C in H. destruct (N.leb_spec k v); [|lia].
      injection H as <-. right. cbn. auto.
    + destruct U as [U|U]; rewrite U in H; [discriminate|]. unfold checkChan in H. rewrite C in H. destruct (N.leb_spec k v); [|lia].
      injection H as <-. right. cbn. auto.
    + destruct (tHd s); try discriminate. destruct (_ || _); [discriminate|]. injection H as <-. right. cbn. repeat split; auto. left. eauto.
    + destruct (tHd s); try discriminate. injection H as <-. right. cbn. repeat split; auto. left. eauto.
    + destruct (tHd s); try discriminate. destruct c; rewrite ?C in H.
      * destruct (tChanClosed s); discriminate.
      * destruct (_ || _); [|discriminate]. injection H as <-. right. cbn. repeat split; auto. left. eauto.
      * destruct (tChanClosed s); [|discriminate]. injection H as <-. right. cbn. repeat split; auto. left. eauto.
    + destruct (tHd s); try discriminate. injection H as <-. right. cbn. repeat split; auto. left. eauto.
    + destruct (tCtx s); [|discriminate]. injection H as <-. right. cbn. repeat split; auto. left. eauto.
    + injection H as <-. right. cbn. repeat split; auto. left. eauto.
  - destruct l; cbn [rtStep] in H; unfold announced.
    + destruct (tUp s) eqn:U; try discriminate. injection H as <-. right. cbn. auto 10.
    + destruct (tUp s) eqn:U; try discriminate. destruct (tChan s); [|destruct (_ || _); [discriminate|]]; injection H as <-; right; cbn; auto 10.
    + destruct (tUp s) eqn:U; try discriminate. destruct (_ || _); [|discriminate]. injection H as <-; right; cbn; auto 10.
    + destruct (tUp s) eqn:U; try discriminate. destruct (lockFree s); [|discriminate]. injection H as <-. left. cbn. lia.
    + destruct Q as [U|[U|U]]; rewrite U in H; discriminate.
    + destruct Q as [U|[U|U]]; rewrite U in H; discriminate.
    + destruct Q as [U|[U|U]]; rewrite U in H; discriminate.
    + destruct Q as [U|[U|U]]; rewrite U in H; discriminate.
    + destruct Q as [U|[U|U]]; rewrite U in H; discriminate.
    + destruct (tHd s); try discriminate. destruct (_ || _); [discriminate|]. injection H as <-. right. cbn. auto.
    + destruct (tHd s); try discriminate. injection H as <-. right. cbn. auto.
    + destruct (tHd s); try discriminate. destruct c.
      * destruct (tChanClosed s); [discriminate|]. destruct (tChan s); [discriminate|]. injection H as <-. right. cbn. auto.
      * destruct (_ || _); [|discriminate]. injection H as <-. right. cbn. auto.
      * destruct (tChanClosed s); [|discriminate]. injection H as <-. right. cbn. auto.
    + destruct (tHd s); try discriminate. injection H as <-. right. cbn. auto.
    + destruct (tCtx s); [|discriminate]. injection H as <-. right. cbn. auto.
    + injection H as <-. right. cbn. auto.
Qed.

Theorem C123_answered_partial : forall s k v s1 ls s2,
  reachableT s -> inUpdate s k -> tHd s = HdNotify v -> tChan s = None -> rtStep s (TlNotify NcSend) = Some s1 ->
  exec rtStep s1 ls = Some s2 -> tUpdates s2 = tUpdates s -> tTimeouts s2 = tTimeouts s.
Proof.
  intros s k v s1 ls s2 R U Hh C E1 E2 N. pose proof (stamp_inv s R) as [I1 I2 I3 I4].
  cbn [rtStep] in E1. rewrite Hh, C in E1. destruct (tChanClosed s); [discriminate|]. injection E1 as <-.
  assert (A : announced k (tUpdates s) (tTimeouts s) s2).
  { assert (A0 : announced k (tUpdates s) (tTimeouts s) (setHd (setChanT s (Some v)) HdDone)).
    { right. cbn. repeat split; auto. left. split; [exact U|]. exists v. split; [reflexivity|]. rewrite (I3 v Hh), (I2 k U). lia. }
    revert A0 E2. generalize (setHd (setChanT s (Some v)) HdDone) as x. induction ls as [|l ls IH]; intros x A0 E2; cbn [exec] in E2.
    - injection E2 as <-. exact A0.
    - destruct (rtStep x l) as [y|] eqn:Ey; [|discriminate]. exact (IH y (announced_step _ _ _ _ _ _ A0 Ey) E2). }
  destruct A as [A|(_ & A & _)]; [lia|exact A].
Qed.
Print Assumptions C123_answered_partial.

(** An instance: two retries, a failing write, and the timer before the loop
    receives. *)
Example C123_example :
  match exec rtStep rtInit (firstUpdate ++ [TlStart; TlEmpty; TlKey 3; TlSend true; TlTick true; TlHandle; TlHandleSet]) with
  | Some s => inUpdate s 6 /\ tHd s = HdNotify 6 /\ tChan s = None /\ tUpdates s = 2%nat /\
      match exec rtStep s [TlNotify NcSend; TlHandleEnd; TlHandle; TlHandleSet; TlNotify NcSkip; TlTimer] with
      | Some s => tUp s = UpIdle /\ tUpdates s = 2%nat /\ tTimeouts s = 0%nat
      | None => False
      end
  | None => False
  end.
Proof. vm_compute. repeat split. right. reflexivity. Qed.

(** ** C124.  Full statement: an exchanger reports at most one error for all its
    key updates, because the first one ends it.
    False: the loop goes on until a select takes the case of the context, and
    ticker and timer may be ready as well. *)
Theorem C124_errors_refuted : exists s,
  exec rtStep rtInit [TlStart; TlEmpty; TlKey 5; TlSend false; TlTick false; TlTimer] = Some s /\
  tSendErrors s = 2%nat /\ tTimeouts s = 1%nat.
Proof. eexists. split; [vm_compute; reflexivity|]. auto. Qed.
Print Assumptions C124_errors_refuted.

(** True if neither ticker nor timer win against a context that is done. *)
Fixpoint prefersCtx (s : rt) (ls : list rtlabel) : Prop :=
  match ls with
  | [] => True
  | l :: rest =>
      (tCtx s = true -> match l with TlTick _ | TlTimer => False | _ => True end) /\
      match rtStep s l with Some s' => prefersCtx s' rest | None => True end
  end.

Definition oneError (s : rt) : Prop :=
  (tTimeouts s + tSendErrors s = 0)%nat \/
  ((tTimeouts s + tSendErrors s = 1)%nat /\ tCtx s = true /\ match tUp s with UpKey | UpSend _ => False | _ => True end).

Lemma oneError_step : forall s l s', oneError s -> rtStep s l = Some s' ->
  (tCtx s = true -> match l with TlTick _ | TlTimer => False | _ => True end) -> oneError s'.
Proof.
  intros s l s' A H P. unfold oneError in *. destruct l; cbn [rtStep] in H.
  - destruct (tUp s) eqn:U; try discriminate. injection H as <-. cbn. tauto.
  - destruct (tUp s) eqn:U; try discriminate. destruct (tChan s); [injection H as <-; cbn; rewrite U; tauto|].
    destruct (tCtx s) eqn:X; [discriminate|]. destruct (tChanClosed s); [discriminate|]. injection H as <-. cbn. destruct A as [A|(_ & A & _)]; [tauto|discriminate].
  - destruct (tUp s) eqn:U; try discriminate. destruct (_ || _); [|discriminate]. injection H as <-. cbn. tauto.
  - destruct (tUp s) eqn:U; try discriminate. destruct (lockFree s); [|discriminate]. injection H as <-. cbn. tauto.
  - destruct (tUp s) eqn:U; try discriminate. injection H as <-. destruct A as [A|(_ & _ & A)]; [|contradiction]. destruct ok; cbn; [tauto|right; repeat split; auto; lia].
  - destruct (tUp s) eqn:U; try discriminate. destruct (tChan s); [injection H as <-; destruct (k <=? n); cbn; tauto|].
    destruct (tChanClosed s); [|discriminate]. injection H as <-. cbn. tauto.
  - destruct (tUp s) eqn:U; try discriminate. destruct (tCtx s) eqn:X; [|discriminate]. injection H as <-. cbn. rewrite X. tauto.
  - destruct (tUp s) eqn:U; try discriminate. destruct (tCtx s) eqn:X; [destruct (P eq_refl)|].
    destruct A as [A|(_ & A & _)]; [|discriminate]. unfold checkChan in H.
    destruct (tChan s); [destruct (k <=? n)|destruct (tChanClosed s)]; injection H as <-; try (destruct ok); cbn; rewrite ?U; auto; right; repeat split; auto; lia.
  - destruct (tUp s) eqn:U; try discriminate. destruct (tCtx s) eqn:X; [destruct (P eq_refl)|].
    destruct A as [A|(_ & A & _)]; [|discriminate]. unfold checkChan in H.
    destruct (tChan s); [destruct (k <=? n)|destruct (tChanClosed s)]; injection H as <-; cbn; rewrite ?U; auto; right; repeat split; auto; lia.
  - destruct (tHd s); try discriminate. destruct (_ || _); [discriminate|]. injection H as <-. exact A.
  - destruct (tHd s); try discriminate. injection H as <-. exact A.
  - destruct (tHd s); try discriminate. destruct c.
    + destruct (tChanClosed s); [discriminate|]. destruct (tChan s); [discriminate|]. injection H as <-. exact A.
    + destruct (_ || _); [|discriminate]. injection H as <-. exact A.
    + destruct (tChanClosed s); [|discriminate]. injection H as <-. exact A.
  - destruct (tHd s); try discriminate. injection H as <-. exact A.
  - destruct (tCtx s) eqn:X; [|discriminate]. injection H as <-. cbn. rewrite X. exact A.
  - injection H as <-. cbn. tauto.
Qed.

Theorem C124_one_error_partial : forall ls s,
  exec rtStep rtInit ls = Some s -> prefersCtx rtInit ls -> (tTimeouts s + tSendErrors s <= 1)%nat.
Proof.
  intros ls s E P. enough (A : oneError s) by (destruct A as [A|[A _]]; lia).
  assert (A0 : oneError rtInit) by (left; reflexivity). revert A0 P E. generalize rtInit as x.
  induction ls as [|l ls IH]; intros x A0 P E; cbn [exec prefersCtx] in *.
  - injection E as <-. exact A0.
  - destruct P as [P1 P2]. destruct (rtStep x l) as [y|] eqn:Ey; [|discriminate]. exact (IH y (oneError_step _ _ _ A0 Ey P1) P2 E).
Qed.
Print Assumptions C124_one_error_partial.

Example C124_example :
  match exec rtStep rtInit (firstUpdate ++ [TlStart; TlEmpty; TlKey 7; TlSend true; TlTick false; TlClosed; TlRecv; TlStart; TlEmptyEnd]) with
  | Some s => tSendErrors s = 1%nat /\ tTimeouts s = 0%nat /\ tSent s = 3%nat
  | None => False
  end /\ prefersCtx rtInit (firstUpdate ++ [TlStart; TlEmpty; TlKey 7; TlSend true; TlTick false; TlClosed; TlRecv; TlStart; TlEmptyEnd]).
Proof. vm_compute. repeat split; discriminate. Qed.
