(** C166: a failing random source is reported and does not crash the process. *)
From Coq Require Import NArith List Bool Lia.
From Verif Require Import Base BaseLemmas TS MessageModel KxModel KxSpec KxProofs KxRunProofs KxProps KxRunProps KxRandModel.
Import ListNotations.
Local Open Scope N_scope.

(** ** Refutation *)
(** For all primitives and options with answers, and every request that a fresh
    session accepts: if it comes before the session's own first key was made, and
    the random source fails when the answer needs one, then the goroutine that
    answers goes on and dereferences the key that is not there. *)
Theorem C166_answer_refuted : forall verify dh blake3 sha3 c remote b k,
  handleKx verify dh blake3 sha3 c (newKx remote) b = Ret (k, HDone true) ->
  exists s, exec (rkstep verify dh blake3 sha3 c) (rksInit remote)
    [RkStep (KHandle b); RkStep (KAnswer 0 0); RkStep (KAnswer 0 0); RkAnswerFails 0; RkStep (KAnswer 0 0); RkStep (KAnswer 0 0)] = Some s /\
    xPanic (rkX s) = true /\ rkErrs s = 1.
Proof.
  intros verify dh blake3 sha3 c remote b k H.
  destruct (handle_local _ _ _ _ _ _ _ _ _ H) as (_ & _ & F1 & F2 & F3). cbn [newKx kNextLocalPub kNextAt kLocalAt] in F1, F2, F3.
  assert (F4 : kLocalAt k = 0) by (destruct F3 as [F3|F3]; rewrite F3; reflexivity || exact F2).
  destruct k as [f1 f2 f3 f4 f5 f6 f7 f8 f9 f10 f11 f12 f13 f14 f15]. cbn [kNextLocalPub kNextAt kLocalAt] in F1, F2, F4. subst f7 f8 f9.
  eexists. cbn [exec rkstep rksInit rkX kstep kxsInit xPanic locked xLoop xKx]. rewrite H. cbn. split; [reflexivity|]. split; reflexivity.
Qed.
Print Assumptions C166_answer_refuted.

(** ** What holds *)
(** The exchanger does not crash if the source does not fail in an answer that
    has no key yet, for all other failures. *)
Definition failsSafely (s : rks) (l : rklabel) : Prop :=
  match l with RkAnswerFails _ => kNextLocalPub (xKx (rkX s)) <> None | _ => True end.
Theorem C166_no_crash_partial : forall verify dh blake3 sha3 c remote s,
  (forall x y, length (dh x y) = 32%nat) -> (forall x, length (sha3 x) = 32%nat) -> (forall x y, dh x y <> repeat 0 32) ->
  reachable (fun s => s = rksInit remote) (fun s s' => exists l, failsSafely s l /\ rkstep verify dh blake3 sha3 c s l = Some s') s ->
  xPanic (rkX s) = false.
Proof.
  intros verify dh blake3 sha3 c remote s Hl Hs Hz R.
  assert (I : hasKey (rkX s)).
  { revert s R. apply reachable_inv.
    - intros s ->. unfold hasKey, sending. cbn. split; [reflexivity|]. split; [|auto]. intros [[[]|[]]|[t [H|H]]]; discriminate.
    - intros s s' I (l & Sf & H). destruct l as [l| |i]; cbn [rkstep failsSafely] in *.
      + destruct (kstep _ _ _ _ _ _ _) as [x|] eqn:E; [|discriminate]. injection H as <-. cbn [rkX].
        apply (hasKey_step verify dh blake3 sha3 c Hl Hs Hz (rkX s)); [exact I|]. exists l. exact E.
      + destruct (xPanic (rkX s)) eqn:P; [discriminate|]. destruct (xLoop (rkX s)) eqn:L; try discriminate. injection H as <-.
        destruct I as (_ & I2 & I3). unfold hasKey, sending. cbn [rkX setLoop setX xPanic xAnswers xLoop xKx setCtx kNextLocalPub kNextAt kLocalAt].
        split; [exact P|]. split; [|exact I3]. intros [S|[t [S|S]]]; try discriminate. apply I2. left. exact S.
      + destruct (xPanic (rkX s)) eqn:P; [discriminate|]. destruct (nth_error _ i) as [[]|] eqn:E; try discriminate. injection H as <-.
        destruct I as (_ & I2 & I3). unfold hasKey. cbn [rkX setAnswer setX xPanic xKx setCtx kNextLocalPub kNextAt kLocalAt].
        split; [exact P|]. split; [intros _; exact Sf|exact I3]. }
  exact (proj1 I).
Qed.
Print Assumptions C166_no_crash_partial.

(** A failure in the loop is reported once, leaves all keys as they are and ends
    the exchanger: from then on no key is made by the loop and no message has any
    effect on the keys. *)
Definition quietAfter (x x' : kxs) : Prop :=
  kKeys (xKx x') = kKeys (xKx x) /\ kNextRemote (xKx x') = kNextRemote (xKx x) /\ kRemoteIdentity (xKx x') = kRemoteIdentity (xKx x).
Theorem C166_loop_failure_partial : forall verify dh blake3 sha3 c s s',
  rkstep verify dh blake3 sha3 c s RkLoopFails = Some s' ->
  rkErrs s' = rkErrs s + 1 /\ quietAfter (rkX s) (rkX s') /\ xLog (rkX s') = xLog (rkX s) /\ xSent (rkX s') = xSent (rkX s) /\
  (forall now, kstep verify dh blake3 sha3 c (rkX s') (KLoopGo now) = None) /\
  (forall b k h, handleKx verify dh blake3 sha3 c (xKx (rkX s')) b = Ret (k, h) -> h <> HDone true /\ h <> HDone false /\ kKeys k = kKeys (xKx (rkX s'))).
Proof.
  intros verify dh blake3 sha3 c s s' H. cbn [rkstep] in H. destruct (xPanic (rkX s)) eqn:P; [discriminate|].
  destruct (xLoop (rkX s)) eqn:L; try discriminate. injection H as <-. cbn [rkErrs rkX]. split; [reflexivity|].
  split; [repeat split|]. split; [reflexivity|]. split; [reflexivity|]. split.
  - intros now. unfold kstep. cbn [setLoop setX xPanic xLoop xKx setCtx kCtxDone]. rewrite P. reflexivity.
  - intros b k h H. unfold handleKx in H. cbn [setLoop setX xKx] in *.
    destruct (parseAndCheck verify c (setCtx (xKx (rkX s))) b) as [k0 r] eqn:E.
    assert (Q : kCtxDone k0 = true /\ kKeys k0 = kKeys (xKx (rkX s))).
    { unfold parseAndCheck in E. repeat match type of E with
        | context [if ?b then _ else _] => destruct b
        | context [match kxDecode ?x with _ => _ end] => destruct (kxDecode x)
        end; injection E as <- <-; split; reflexivity. }
    destruct Q as [Q1 Q2]. destruct r as [e|m].
    + injection H as <- <-. repeat split; try discriminate. exact Q2.
    + rewrite Q1 in H. injection H as <- <-. repeat split; try discriminate. exact Q2.
Qed.
Print Assumptions C166_loop_failure_partial.

(** The request of the toy peer arrives first, and the source fails. *)
Example C166_example : exists s,
  exec (rkstep toyVerify toyDh toyHash toyHash (toyConf None 1)) (rksInit (Some (key32 2)))
    [RkStep (KHandle (toyWire 2 (toyMsg 2 7 11 1 false))); RkStep (KAnswer 0 0); RkStep (KAnswer 0 0); RkAnswerFails 0;
     RkStep (KAnswer 0 0); RkStep (KAnswer 0 0)] = Some s /\ xPanic (rkX s) = true /\ kCtxDone (xKx (rkX s)) = true.
Proof. eexists. split; [vm_compute; reflexivity|]. split; reflexivity. Qed.
Example C166_loop_example : exists s,
  exec (rkstep toyVerify toyDh toyHash toyHash (toyConf None 1)) (rksInit (Some (key32 2)))
    [RkStep (KLoopGo 5); RkStep KLoopCheck; RkLoopFails; RkStep (KHandle (toyWire 2 (toyMsg 2 7 11 1 false)))] = Some s /\
  xPanic (rkX s) = false /\ rkErrs s = 1 /\ xAnswers (rkX s) = [] /\ kNextRemote (xKx (rkX s)) = None.
Proof. eexists. split; [vm_compute; reflexivity|]. repeat split; reflexivity. Qed.
