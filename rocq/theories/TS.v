(** Transition systems: one step is one atomic action of one goroutine; a run
    is any sequence of steps, i.e. any schedule. *)
From Coq Require Import List Arith Wf_nat.

Section TS.
  Context {St : Type}.
  Variable init : St -> Prop.
  Variable step : St -> St -> Prop.

  Inductive reachable : St -> Prop :=
  | reach_init : forall s, init s -> reachable s
  | reach_step : forall s s', reachable s -> step s s' -> reachable s'.

  Inductive steps : St -> St -> Prop :=
  | steps_refl : forall s, steps s s
  | steps_cons : forall s s' s'', step s s' -> steps s' s'' -> steps s s''.

  (** Nothing can happen any more. *)
  Definition terminal (s : St) : Prop := forall s', ~ step s s'.

  (** Every run from [s] is finite and ends well, under every schedule. *)
  Inductive always_ends (good : St -> Prop) : St -> Prop :=
  | ends_now : forall s, terminal s -> good s -> always_ends good s
  | ends_later : forall s, (exists s', step s s') -> (forall s', step s s' -> always_ends good s') -> always_ends good s.

  Lemma reachable_inv : forall (I : St -> Prop),
    (forall s, init s -> I s) -> (forall s s', I s -> step s s' -> I s') ->
    forall s, reachable s -> I s.
  Proof. intros I H0 H1 s H. induction H; eauto. Qed.

  Lemma steps_trans : forall a b c, steps a b -> steps b c -> steps a c.
  Proof. intros a b c H. induction H; auto. intros. eapply steps_cons; eauto. Qed.

  Lemma steps_inv : forall (I : St -> Prop), (forall s s', I s -> step s s' -> I s') ->
    forall s s', steps s s' -> I s -> I s'.
  Proof. intros I H s s' Hs. induction Hs; eauto. Qed.

  Lemma reachable_steps : forall s s', reachable s -> steps s s' -> reachable s'.
  Proof. intros s s' H Hs. induction Hs; auto. apply IHHs. eapply reach_step; eauto. Qed.

  (** A measure that every step decreases. *)
  Lemma ends_by_measure : forall (I good : St -> Prop) (m : St -> nat),
    (forall s s', I s -> step s s' -> I s' /\ m s' < m s) ->
    (forall s, I s -> (exists s', step s s') \/ (terminal s /\ good s)) ->
    forall s, I s -> always_ends good s.
  Proof.
    intros I good m Hstep Hprog s. remember (m s) as n eqn:E. revert s E.
    induction n as [n IH] using (well_founded_induction lt_wf). intros s -> Hi.
    destruct (Hprog s Hi) as [Hs|[Ht Hg]].
    - apply ends_later; auto. intros s' H. destruct (Hstep s s' Hi H) as [Hi' Hm]. eapply IH; eauto.
    - apply ends_now; auto.
  Qed.

  (** The same when some steps ([any] minus [own]) depend on the environment:
      whatever happens, [good] is reached as long as the own goroutines that can
      go on do go on. Nothing is required of the environment. *)
  Variable own : St -> St -> Prop.
  Inductive surely (good : St -> Prop) : St -> Prop :=
  | surely_now : forall s, good s -> surely good s
  | surely_later : forall s, (exists s', own s s') -> (forall s', step s s' -> surely good s') -> surely good s.

  Lemma surely_by_measure : forall (I good : St -> Prop) (m : St -> nat),
    (forall s s', I s -> step s s' -> I s' /\ m s' < m s) ->
    (forall s, I s -> good s \/ exists s', own s s') ->
    forall s, I s -> surely good s.
  Proof.
    intros I good m Hstep Hprog s. remember (m s) as n eqn:E. revert s E.
    induction n as [n IH] using (well_founded_induction lt_wf). intros s -> Hi.
    destruct (Hprog s Hi) as [Hg|Hs]; [apply surely_now; auto|].
    apply surely_later; auto. intros s' H. destruct (Hstep s s' Hi H) as [Hi' Hm]. eapply IH; eauto.
  Qed.
End TS.

(** Labelled systems with a computable step function; [None]: not enabled. *)
Section Labelled.
  Context {St L : Type}.
  Variable stepf : St -> L -> option St.

  Definition lstep (s s' : St) : Prop := exists l, stepf s l = Some s'.

  Fixpoint exec (s : St) (ls : list L) : option St :=
    match ls with
    | nil => Some s
    | l :: r => match stepf s l with Some s' => exec s' r | None => None end
    end.

  Lemma exec_steps : forall ls s s', exec s ls = Some s' -> steps lstep s s'.
  Proof.
    induction ls as [|l ls IH]; intros s s' H; cbn [exec] in H.
    - injection H as <-. constructor.
    - destruct (stepf s l) as [s1|] eqn:E; [|discriminate]. eapply steps_cons; [exists l; exact E|auto].
  Qed.

  Lemma exec_reachable : forall (init : St -> Prop) s ls s', init s -> exec s ls = Some s' -> reachable init lstep s'.
  Proof. intros. eapply reachable_steps; [apply reach_init; eauto|eapply exec_steps; eauto]. Qed.

  Lemma exec_app : forall a b s s', exec s a = Some s' -> exec s (a ++ b) = exec s' b.
  Proof.
    induction a as [|l a IH]; intros b s s' H; cbn [exec app] in *.
    - injection H as ->. reflexivity.
    - destruct (stepf s l); [auto|discriminate].
  Qed.
End Labelled.

(** Pointwise update of a map. *)
Definition fupd {A} (f : nat -> A) (i : nat) (v : A) : nat -> A := fun j => if Nat.eqb j i then v else f j.
Lemma fupd_same : forall A (f : nat -> A) i v, fupd f i v i = v.
Proof. intros. unfold fupd. rewrite Nat.eqb_refl. reflexivity. Qed.
Lemma fupd_other : forall A (f : nat -> A) i j v, j <> i -> fupd f i v j = f j.
Proof. intros. unfold fupd. destruct (Nat.eqb_spec j i); [contradiction|reflexivity]. Qed.
