(** Property C140: callbacks may use their session. *)
From Coq Require Import List Bool Arith Lia.
From Verif Require Import Base TS CallbackModel.
Import ListNotations.

Notation cbReach c := (reachable (fun s => s = cbInit) (lstep (cbStep c))).
Definition everybodyDone (s : cb) : Prop := bReg s = GEnd /\ bOther s = OEnd /\ bLock s = false.

(** Which callback runs. *)
Definition calls (c : callbacks) : list method :=
  match cbClose c with
  | Some l => l ++ if cbFails c then cbError c else []
  | None => []
  end.

(** The methods that lock [sess.locker]: session.go 610, 728, 1379-1383 with 2113,
    2013. *)
Definition locking : list method := [MGetRemoteIdentity; MNewMessenger; MSetHandlerFuncs; MSetPause; MStart].

Lemma locking_takes : forall l, (exists m, In m l /\ In m locking) <-> existsb takesLock l = true.
Proof.
  intros l. rewrite existsb_exists. split; intros (m & I & J); exists m; split; auto; destruct m; cbn in *; auto 10; intuition discriminate.
Qed.

Lemma locking_none : forall l, (forall m, In m l -> ~ In m locking) -> existsb takesLock l = false.
Proof.
  intros l H. destruct (existsb takesLock l) eqn:E; [|reflexivity]. apply locking_takes in E. destruct E as (m & I & J). destruct (H m I J).
Qed.

Definition ahead (c : callbacks) (g : gpc) : list method :=
  match g with
  | GCall => calls c
  | GClosing l => l ++ if cbFails c then cbError c else []
  | GError l => l
  | _ => []
  end.
Definition holds (g : gpc) : bool := match g with GCall | GEnd => false | _ => true end.

Definition inside (o : opc) : bool := match o with OIn => true | _ => false end.
Definition locksOk (s : cb) : Prop := bLock s = holds (bReg s) || inside (bOther s) /\ (holds (bReg s) && inside (bOther s) = false).

Ltac cbcases H s := cbn [cbStep] in H; destruct s as [lk rg ot]; cbn [bLock bReg bOther] in *;
  repeat match type of H with
  | match ?x with _ => _ end = _ => destruct x eqn:?; try discriminate
  end.

Lemma locks_step : forall c s l s', locksOk s -> cbStep c s l = Some s' -> locksOk s'.
Proof.
  intros c s l s' [I1 I2] H. unfold locksOk. destruct l; cbcases H s; subst; cbn [holds inside andb orb] in *; injection H as <-; cbn [bLock bReg bOther];
    repeat match goal with
    | |- context [match ?x with Some _ => _ | None => _ end] => destruct x
    | |- context [if ?x then GError _ else GStore] => destruct x
    end; cbn [holds inside andb orb]; auto;
    try (destruct ot; cbn in *; auto; discriminate); try (destruct rg; cbn in *; auto; discriminate).
Qed.

(** ** Full statement: when an application registers a handler and its callbacks use
    the session, the registration returns and nobody waits for the lock for ever.
    False of every callback that calls a method that takes the lock. *)
Lemma ahead_step : forall c s l s', cbStep c s l = Some s' -> existsb takesLock (ahead c (bReg s)) = true ->
  existsb takesLock (ahead c (bReg s')) = true.
Proof.
  intros c s l s' H A. destruct l; cbcases H s; subst; injection H as <-; cbn [bReg ahead] in *; auto.
  all: cbn [app existsb] in A.
  all: repeat match goal with E : takesLock _ = false |- _ => rewrite E in A; clear E end.
  all: try discriminate; try exact A.
  - unfold calls in A. destruct (cbClose c); cbn [ahead]; auto.
  - destruct (cbFails c); cbn [ahead]; auto.
Qed.

Theorem C140_never_returns_refuted : forall c m, In m (calls c) -> In m locking -> forall s, cbReach c s -> bReg s <> GEnd.
Proof.
  intros c m0 I0 J0. assert (A : existsb takesLock (calls c) = true) by (apply locking_takes; eauto). clear m0 I0 J0. enough (H : forall s, cbReach c s -> existsb takesLock (ahead c (bReg s)) = true).
  { intros s R E. specialize (H s R). rewrite E in H. discriminate. }
  apply reachable_inv; [intros s ->; exact A|]. intros s s' I [l H]. eapply ahead_step; eauto.
Qed.
Print Assumptions C140_never_returns_refuted.

(** And with it the goroutine that handles key-exchange messages stops, if it comes
    second: the state reached is dead. *)
Lemma run_to_lock : forall c l g, existsb takesLock (ahead c g) = true -> holds g = true ->
  (length (ahead c g) <= l)%nat ->
  exists ls g', exec (cbStep c) {| bLock := true; bReg := g; bOther := OWait |} ls = Some {| bLock := true; bReg := g'; bOther := OWait |} /\
    (exists m r, takesLock m = true /\ (g' = GClosing (m :: r) \/ g' = GError (m :: r))).
Proof.
  intros c. induction l as [|l IH]; intros g A Hd L.
  - destruct (ahead c g); [discriminate|cbn in L; lia].
  - destruct g as [|[|m r]|[|m r]| |]; try discriminate.
    + cbn [ahead app] in A, L. destruct (cbFails c) eqn:F; [|discriminate].
      (* into Error: one more step, same calls *)
      destruct (cbError c) as [|m r] eqn:Er; [discriminate|]. destruct (takesLock m) eqn:T.
      * exists [BReg], (GError (m :: r)). split; [cbn; rewrite F, Er; reflexivity|]. exists m, r. auto.
      * destruct (IH (GError r)) as (ls & g' & E & W); [cbn [ahead existsb] in *; rewrite T in A; exact A|reflexivity|cbn [ahead length] in *; lia|].
        exists (BReg :: BReg :: ls), g'. split; [|exact W]. cbn [exec cbStep bReg bOther bLock]. rewrite F, Er. cbn [exec cbStep bReg bOther bLock]. rewrite T. exact E.
    + destruct (takesLock m) eqn:T.
      * exists [], (GClosing (m :: r)). split; [reflexivity|]. exists m, r. auto.
      * destruct (IH (GClosing r)) as (ls & g' & E & W); [cbn [ahead app existsb] in *; rewrite T in A; exact A|reflexivity|cbn [ahead app length] in *; lia|].
        exists (BReg :: ls), g'. split; [|exact W]. cbn [exec cbStep bReg bOther bLock]. rewrite T. exact E.
    + destruct (takesLock m) eqn:T.
      * exists [], (GError (m :: r)). split; [reflexivity|]. exists m, r. auto.
      * destruct (IH (GError r)) as (ls & g' & E & W); [cbn [ahead existsb] in *; rewrite T in A; exact A|reflexivity|cbn [ahead length] in *; lia|].
        exists (BReg :: ls), g'. split; [|exact W]. cbn [exec cbStep bReg bOther bLock]. rewrite T. exact E.
Qed.

Theorem C140_deadlock_refuted : forall c m, In m (calls c) -> In m locking ->
  exists ls s, exec (cbStep c) cbInit ls = Some s /\ terminal (lstep (cbStep c)) s /\ bLock s = true /\ bOther s = OWait.
Proof.
  intros c m0 I0 J0. assert (A : existsb takesLock (calls c) = true) by (apply locking_takes; eauto). clear m0 I0 J0.
  assert (exists g, cbClose c = Some g) as [g Eg] by (unfold calls in A; destruct (cbClose c); [eauto|discriminate]).
  destruct (run_to_lock c (length (ahead c (GClosing g))) (GClosing g)) as (ls & g' & E & m & r & T & W);
    [unfold calls in A; rewrite Eg in A; exact A|reflexivity|lia|].
  exists (BReg :: ls), {| bLock := true; bReg := g'; bOther := OWait |}. split.
  - cbn [exec cbStep cbInit bReg bOther bLock]. rewrite Eg. exact E.
  - split; [|auto]. intros s' [l H]. destruct l; cbn [cbStep bReg bOther bLock] in H; [|discriminate].
    destruct W as [-> | ->]; rewrite T in H; discriminate.
Qed.
Print Assumptions C140_deadlock_refuted.

(** An application whose old handler asks for the peer's identity when it is closed. *)
Example C140_witness :
  exec (cbStep {| cbClose := Some [MGetState; MGetRemoteIdentity]; cbFails := false; cbError := [] |}) cbInit [BReg; BReg]
    = Some {| bLock := true; bReg := GClosing [MGetRemoteIdentity]; bOther := OWait |}.
Proof. reflexivity. Qed.

(** ** True of callbacks that call none of them, under every schedule. *)
Definition pcMeasure (c : callbacks) (g : gpc) : nat :=
  match g with
  | GCall => length (calls c) + 5
  | GClosing l => length l + (if cbFails c then length (cbError c) else 0) + 4
  | GError l => length l + 3
  | GStore => 2
  | GEnd => 0
  end.
Definition oMeasure (o : opc) : nat := match o with OWait => 2 | OIn => 1 | OEnd => 0 end.

Lemma harmless_step : forall c s l s', cbStep c s l = Some s' -> existsb takesLock (ahead c (bReg s)) = false ->
  existsb takesLock (ahead c (bReg s')) = false.
Proof.
  intros c s l s' H A. destruct l; cbcases H s; subst; injection H as <-; cbn [bReg ahead] in *; auto.
  - unfold calls in A. destruct (cbClose c); cbn [ahead]; auto.
  - cbn [app] in A. destruct (cbFails c); cbn [ahead]; auto.
  - cbn [app existsb] in A. apply orb_false_iff in A. apply A.
  - cbn [existsb] in A. apply orb_false_iff in A. apply A.
Qed.

Theorem C140_returns_partial : forall c, (forall m, In m (calls c) -> ~ In m locking) ->
  always_ends (lstep (cbStep c)) everybodyDone cbInit.
Proof.
  intros c H0. assert (A := locking_none _ H0). clear H0. apply (ends_by_measure _ (fun s => locksOk s /\ existsb takesLock (ahead c (bReg s)) = false) everybodyDone
    (fun s => pcMeasure c (bReg s) + oMeasure (bOther s))).
  - intros s s' [I1 I2] [l H]. split; [split; [eapply locks_step; eauto|eapply harmless_step; eauto]|].
    clear I1 I2 A. destruct l; cbcases H s; subst; injection H as <-; cbn [bReg bOther pcMeasure oMeasure length]; try lia.
    + unfold calls. destruct (cbClose c); cbn [pcMeasure]; [|lia]. rewrite app_length. destruct (cbFails c); cbn [length]; lia.
    + destruct (cbFails c); cbn [pcMeasure length]; lia.
  - intros s [[L1 L2] Hm]. destruct s as [lk rg ot]. cbn [bLock bReg bOther] in *.
    destruct ot.
    + destruct rg as [|[|m r]|[|m r]| |]; cbn in L1; subst lk.
      * left. eexists. exists BOther. reflexivity.
      * left. eexists. exists BReg. reflexivity.
      * left. cbn [ahead app existsb] in Hm. apply orb_false_iff in Hm. destruct Hm as [Hm _]. eexists. exists BReg. cbn. rewrite Hm. reflexivity.
      * left. eexists. exists BReg. reflexivity.
      * left. cbn [ahead existsb] in Hm. apply orb_false_iff in Hm. destruct Hm as [Hm _]. eexists. exists BReg. cbn. rewrite Hm. reflexivity.
      * left. eexists. exists BReg. reflexivity.
      * left. eexists. exists BOther. reflexivity.
    + left. eexists. exists BOther. reflexivity.
    + destruct rg as [|[|m r]|[|m r]| |]; cbn in L1; subst lk.
      * left. eexists. exists BReg. reflexivity.
      * left. eexists. exists BReg. reflexivity.
      * left. cbn [ahead app existsb] in Hm. apply orb_false_iff in Hm. destruct Hm as [Hm _]. eexists. exists BReg. cbn. rewrite Hm. reflexivity.
      * left. eexists. exists BReg. reflexivity.
      * left. cbn [ahead existsb] in Hm. apply orb_false_iff in Hm. destruct Hm as [Hm _]. eexists. exists BReg. cbn. rewrite Hm. reflexivity.
      * left. eexists. exists BReg. reflexivity.
      * right. split; [|repeat split]. intros s' [l H]. destruct l; discriminate.
  - split; [split; reflexivity|exact A].
Qed.
Print Assumptions C140_returns_partial.

(** A handler that fails to close, with an event handler that closes the session. *)
Example C140_example :
  let c := {| cbClose := Some [MGetState]; cbFails := true; cbError := [MID; MClose] |} in
  exec (cbStep c) cbInit [BReg; BReg; BReg; BReg; BReg; BReg; BReg; BOther; BOther] = Some {| bLock := false; bReg := GEnd; bOther := OEnd |}.
Proof. reflexivity. Qed.
