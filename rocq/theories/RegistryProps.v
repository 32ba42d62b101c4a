(** C95-C98: registering handlers in a running session. *)
From Coq Require Import List Bool Arith Lia.
From Verif Require Import TS RegistryModel.
Import ListNotations.
Local Open Scope nat_scope.

Section Registry.
Variable capacity : nat.
Notation step := (regStep capacity).
Definition regReach (rw : bool) : reg -> Prop := reachable (fun s => s = regInit rw) (lstep step).

(** ** C95: registering a handler is safe at any time *)

(** A message that arrives between 2122 and 1357 of session.go finds a messenger
    without a handler. *)
Theorem C95_message_before_handler_refuted : exists s, regReach false s /\ gCrash s = Some NilHandler.
Proof.
  eexists. split.
  - refine (exec_reachable step _ (regInit false) [GStart; GReg 0; GLock 0; GWrite 0; GWritten 0; GMsg 7 false] _ eq_refl _).
    reflexivity.
  - reflexivity.
Qed.

(** The reader looks into the map without the lock. *)
Theorem C95_map_race_refuted : exists s, regReach false s /\ gCrash s = Some MapRace.
Proof.
  eexists. split.
  - refine (exec_reachable step _ (regInit false) [GStart; GReg 0; GLock 0; GWrite 0; GMsg 7 false] _ eq_refl _).
    reflexivity.
  - reflexivity.
Qed.

(** On a closed session every call ends the process. *)
Theorem C95_closed_session_refuted : forall s r, gCtx s = true -> gCrash s = None -> gRegs s r = RgIdle ->
  exists s', step s (GReg r) = Some s' /\ gCrash s' = Some NilMessenger.
Proof.
  intros s r Hc Hn Hr. exists (crashed s NilMessenger). split; [|reflexivity].
  unfold regStep. rewrite Hn, Hr. unfold doReg. rewrite Hc. reflexivity.
Qed.

Definition idleOrDone (p : regpc) : Prop := p = RgIdle \/ p = RgDone.

(** What holds: an application that registers everything (and calls [Read])
    outside the time the session runs is safe: all registrations are over before
    the reader starts, none begins later, and [Read] is not called earlier. *)
Definition earlyStep (s s' : reg) : Prop := exists l, step s l = Some s' /\
  match l with
  | GReg _ => gReader s = RdOff /\ gCtx s = false
  | GStart => forall r, idleOrDone (gRegs s r)
  | GRead _ => gReader s <> RdOff
  | _ => True
  end.
Definition earlyReach (rw : bool) : reg -> Prop := reachable (fun s => s = regInit rw) earlyStep.

Record EI (s : reg) : Prop := {
  ei_crash : gCrash s = None;
  ei_writing : gWriting s = true -> exists r m, gRegs s r = RgWriting m;
  ei_table : forall m, gTable s = Some m -> gHandler s m = true \/ exists r, gRegs s r = RgStored m;
  ei_started : gReader s <> RdOff -> forall r, idleOrDone (gRegs s r)
}.

Lemma EI_writing_started : forall s, EI s -> gReader s <> RdOff -> gWriting s = false.
Proof.
  intros s [_ W _ ST] H. destruct (gWriting s); [|reflexivity].
  destruct (W eq_refl) as [r [m E]]. destruct (ST H r) as [E'|E']; congruence.
Qed.
Lemma EI_table_started : forall s m, EI s -> gReader s <> RdOff -> gTable s = Some m -> gHandler s m = true.
Proof.
  intros s m [_ _ T ST] H E. destruct (T m E) as [G|[r G]]; [exact G|].
  destruct (ST H r) as [E'|E']; congruence.
Qed.

Ltac regstep H := unfold regStep in H.

(** Writers are mutually exclusive. *)
Record LI (s : reg) : Prop := {
  li_lock : forall r m, gRegs s r = RgLocked m \/ gRegs s r = RgWriting m -> gLock s = Some r;
  li_writing : gWriting s = true -> exists r m, gRegs s r = RgWriting m
}.

Lemma LI_step : forall s l s', LI s -> step s l = Some s' -> LI s'.
Proof.
  intros s l s' [LK LW] H. regstep H. destruct (gCrash s) eqn:Ec; [discriminate|].
  destruct l as [r|r|r|r|r| |x err| | |m|a|a].
  - destruct (gRegs s r) eqn:Er; try discriminate. injection H as <-. unfold doReg. destruct (gCtx s).
    + constructor; cbn; auto.
    + constructor; cbn.
      * intros q m. unfold fupd. destruct (Nat.eqb_spec q r) as [->|n]; [intros [E|E]; discriminate|]. apply LK.
      * intros W. destruct (LW W) as [q [m E]]. exists q, m. rewrite fupd_other; [exact E|]. intros ->. congruence.
  - destruct (gRegs s r) eqn:Er; try discriminate. destruct (gLock s) eqn:El; [discriminate|]. injection H as <-.
    constructor; cbn.
    + intros q k. unfold fupd. destruct (Nat.eqb_spec q r) as [->|n]; [reflexivity|]. intros G.
      specialize (LK q k G). congruence.
    + intros W. destruct (LW W) as [q [k E]]. exists q, k. rewrite fupd_other; [exact E|]. intros ->. congruence.
  - destruct (gRegs s r) eqn:Er; try discriminate. injection H as <-. constructor; cbn.
    + intros q k. unfold fupd. destruct (Nat.eqb_spec q r) as [->|n]; [intros _; eapply LK; eauto|]. apply LK.
    + intros _. exists r, m. apply fupd_same.
  - destruct (gRegs s r) eqn:Er; try discriminate. injection H as <-. constructor; cbn; [|discriminate].
    intros q k. unfold fupd. destruct (Nat.eqb_spec q r) as [->|n]; [intros [E|E]; discriminate|]. intros G.
    pose proof (LK q k G) as L1. pose proof (LK r m (or_intror Er)) as L2. congruence.
  - destruct (gRegs s r) eqn:Er; try discriminate. injection H as <-. constructor; cbn.
    + intros q k. unfold fupd. destruct (Nat.eqb_spec q r) as [->|n]; [intros [E|E]; discriminate|]. apply LK.
    + intros W. destruct (LW W) as [q [k E]]. exists q, k. rewrite fupd_other; [exact E|]. intros ->. congruence.
  - destruct (gReader s); try discriminate. injection H as <-. constructor; cbn; auto.
  - destruct (gReader s); try discriminate. destruct (gWriting s) eqn:Ew.
    + injection H as <-. constructor; cbn; rewrite ?Ew; auto.
    + destruct (gTable s) as [m|].
      * destruct (gHandler s m); injection H as <-; constructor; cbn; rewrite ?Ew; auto.
      * destruct (gLock s) eqn:El; [discriminate|]. destruct (gChan s) as [c|].
        -- destruct (_ <? _); [|discriminate]. injection H as <-. constructor; cbn; rewrite ?Ew, ?El; auto.
        -- injection H as <-. constructor; rewrite ?Ew, ?El; auto.
  - injection H as <-. constructor; cbn; auto.
  - destruct (gReader s); try discriminate. destruct (gCtx s); [|discriminate].
    destruct (gWriting s) eqn:Ew; injection H as <-; constructor; cbn; rewrite ?Ew; auto.
  - destruct (_ && _); [|discriminate]. injection H as <-. constructor; cbn; auto.
  - destruct (gReads s a); try discriminate. destruct (gWriting s) eqn:Ew.
    + injection H as <-. constructor; cbn; rewrite ?Ew; auto.
    + destruct (gChan s); [|discriminate]. injection H as <-. constructor; cbn; rewrite ?Ew; auto.
  - destruct (gReads s a); try discriminate. destruct (gQueue s c).
    + destruct (gShut s c); [|discriminate]. injection H as <-. constructor; cbn; auto.
    + injection H as <-. constructor; cbn; auto.
Qed.

Lemma EI_step : forall s s', EI s -> LI s -> earlyStep s s' -> EI s'.
Proof.
  intros s s' I L [l [H Hg]]. pose proof I as [IC IW IT IS]. regstep H. rewrite IC in H.
  destruct l as [r|r|r|r|r| |x err| | |m|a|a].
  - destruct (gRegs s r) eqn:Er; try discriminate. injection H as <-. destruct Hg as [Hoff Hctx].
    unfold doReg. rewrite Hctx. constructor; cbn; auto.
    + intros W. destruct (IW W) as [q [m E]]. exists q, m. rewrite fupd_other; [exact E|]. intros ->. congruence.
    + intros m E. destruct (IT m E) as [G|[q G]]; [left; exact G|right]. exists q. rewrite fupd_other; [exact G|].
      intros ->. congruence.
    + intros G. contradiction.
  - destruct (gRegs s r) eqn:Er; try discriminate. destruct (gLock s) eqn:El; [discriminate|]. injection H as <-.
    constructor; cbn; auto.
    + intros W. destruct (IW W) as [q [k E]]. exists q, k. rewrite fupd_other; [exact E|]. intros ->. congruence.
    + intros k E. destruct (IT k E) as [G|[q G]]; [left; exact G|right]. exists q. rewrite fupd_other; [exact G|].
      intros ->. congruence.
    + intros G. destruct (IS G r) as [E|E]; congruence.
  - destruct (gRegs s r) eqn:Er; try discriminate. injection H as <-. constructor; cbn; auto.
    + intros _. exists r, m. apply fupd_same.
    + intros k E. destruct (IT k E) as [G|[q G]]; [left; exact G|right]. exists q. rewrite fupd_other; [exact G|].
      intros ->. congruence.
    + intros G. destruct (IS G r) as [E|E]; congruence.
  - destruct (gRegs s r) eqn:Er; try discriminate. injection H as <-. constructor; cbn; auto; try discriminate.
    + intros k E. injection E as <-. right. exists r. apply fupd_same.
    + intros G. destruct (IS G r) as [E|E]; congruence.
  - destruct (gRegs s r) eqn:Er; try discriminate. injection H as <-. constructor; cbn; auto.
    + intros W. destruct (IW W) as [q [k E]]. exists q, k. rewrite fupd_other; [exact E|]. intros ->. congruence.
    + intros k E. unfold fupd at 1. destruct (Nat.eqb_spec k m) as [->|n]; [left; reflexivity|].
      destruct (IT k E) as [G|[q G]]; [left; exact G|right]. exists q. rewrite fupd_other; [exact G|].
      intros ->. congruence.
    + intros G q. unfold fupd. destruct (Nat.eqb_spec q r) as [->|n]; [right; reflexivity|]. exact (IS G q).
  - destruct (gReader s); try discriminate. injection H as <-. constructor; cbn; auto.
  - destruct (gReader s) eqn:Erd; try discriminate.
    assert (ST : gReader s <> RdOff) by congruence.
    rewrite (EI_writing_started s I ST) in H. destruct (gTable s) as [m|] eqn:Et.
    + rewrite (EI_table_started s m I ST Et) in H. injection H as <-. constructor; cbn; rewrite ?Et, ?Erd; auto.
    + destruct (gLock s); [discriminate|]. destruct (gChan s) as [c|].
      * destruct (_ <? _); [|discriminate]. injection H as <-. constructor; cbn; rewrite ?Et, ?Erd; auto.
      * injection H as <-. exact I.
  - injection H as <-. constructor; cbn; auto.
  - destruct (gReader s) eqn:Erd; try discriminate. destruct (gCtx s); [|discriminate].
    assert (ST : gReader s <> RdOff) by congruence.
    rewrite (EI_writing_started s I ST) in H. injection H as <-. constructor; cbn; auto.
    intros _. apply IS. congruence.
  - destruct (_ && _); [|discriminate]. injection H as <-. constructor; cbn; auto.
  - destruct (gReads s a); try discriminate. rewrite (EI_writing_started s I Hg) in H.
    destruct (gChan s); [|discriminate]. injection H as <-. constructor; cbn; auto.
  - destruct (gReads s a); try discriminate. destruct (gQueue s c).
    + destruct (gShut s c); [|discriminate]. injection H as <-. constructor; cbn; auto.
    + injection H as <-. constructor; cbn; auto.
Qed.

Theorem C95_registered_before_start_partial : forall rw s, earlyReach rw s ->
  gCrash s = None /\ (gReader s = RdIdle -> forall m, gTable s = Some m -> gHandler s m = true).
Proof.
  intros rw s H.
  assert (G : EI s /\ LI s).
  { refine (reachable_inv _ _ (fun s => EI s /\ LI s) _ _ s H).
    - intros x ->. split; constructor; cbn; try discriminate; try contradiction; auto.
      intros r m [E|E]; discriminate.
    - intros a b [Ha Hl] Hs. split; [exact (EI_step a b Ha Hl Hs)|].
      destruct Hs as [l [Hs _]]. exact (LI_step a l b Hl Hs). }
  destruct G as [G _]. split; [apply G|]. intros E m Em. apply (EI_table_started s m G); [congruence|exact Em].
Qed.

(** ** C96: every messenger gets closed *)

(** All goroutines of [NewMessenger] have returned: what [WaitForClosure] of the
    session needs (session.go 1313-1317, 2274-2276). *)
Definition allReleased (s : reg) : Prop := forall m, m < gMade s -> gReleased s m = true.

(** A registration that overlaps with closing: its messenger is stored after the
    cleanup went through the map, so nobody closes it and [WaitForClosure] waits
    for ever, whatever happens afterwards. *)
Theorem C96_registration_while_closing_refuted : exists s, regReach false s /\ gReader s = RdEnd /\
  forall s', steps (lstep step) s s' -> ~ allReleased s'.
Proof.
  set (J := fun s => gCtx s = true /\ gReader s = RdEnd /\ gMade s = 1 /\ gClosed s 0 = false /\
                     gReleased s 0 = false /\ (forall r, idleOrDone (gRegs s r))).
  set (ls := [GStart; GReg 0; GCancel; GClean; GLock 0; GWrite 0; GWritten 0; GSet 0]).
  assert (Hx : exists s, exec step (regInit false) ls = Some s /\ J s).
  { eexists. split; [vm_compute; reflexivity|]. unfold J. cbn [gCtx gReader gMade gClosed gReleased gRegs].
    repeat split. intros r. destruct (Nat.eqb r 0) eqn:E; destruct r; try discriminate; [right|left]; reflexivity. }
  destruct Hx as (s0 & Hx & HJ). exists s0.
  split; [exact (exec_reachable step _ (regInit false) ls s0 eq_refl Hx)|]. split; [apply HJ|].
  - intros s' Hs. clear Hx ls.
    assert (G : J s').
    { refine (steps_inv _ J _ s0 s' Hs _).
      - intros a b (Hc & Hr & Hm & Hcl & Hrl & Hq) [l Hl]. unfold regStep in Hl.
        destruct (gCrash a); [discriminate|].
        assert (NQ : forall r, match gRegs a r with RgMade _ | RgLocked _ | RgWriting _ | RgStored _ => False | _ => True end).
        { intros r. destruct (Hq r) as [E|E]; rewrite E; exact I. }
        destruct l as [r|r|r|r|r| |x err| | |m|c|c]; try (specialize (NQ r)).
        + destruct (gRegs a r); try discriminate. injection Hl as <-. unfold doReg. rewrite Hc.
          repeat split; cbn; auto.
        + destruct (gRegs a r); try discriminate; contradiction.
        + destruct (gRegs a r); try discriminate; contradiction.
        + destruct (gRegs a r); try discriminate; contradiction.
        + destruct (gRegs a r); try discriminate; contradiction.
        + rewrite Hr in Hl. discriminate.
        + rewrite Hr in Hl. discriminate.
        + injection Hl as <-. repeat split; cbn; auto.
        + rewrite Hr in Hl. discriminate.
        + destruct (_ && _) eqn:E; [|discriminate]. injection Hl as <-.
          apply andb_true_iff in E. destruct E as [E _]. apply andb_true_iff in E. destruct E as [E1 E2].
          apply Nat.ltb_lt in E1. assert (m = 0) by lia. subst m. congruence.
        + destruct (gReads a c); try discriminate. destruct (gWriting a).
          * injection Hl as <-. repeat split; cbn; auto.
          * destruct (gChan a); [|discriminate]. injection Hl as <-. repeat split; cbn; auto.
        + destruct (gReads a c) as [|c0| |]; try discriminate. destruct (gQueue a c0).
          * destruct (gShut a c0); [|discriminate]. injection Hl as <-. repeat split; cbn; auto.
          * injection Hl as <-. repeat split; cbn; auto.
      - exact HJ. }
    intros A. destruct G as (_ & _ & Hm & _ & Hrl & _). specialize (A 0). rewrite Hm in A. specialize (A Nat.lt_0_1). congruence.
Qed.

(** A messenger is closed, or the current one, or still in the hands of its
    registrar - in every run. *)
Record WI (s : reg) : Prop := {
  wi_kept : forall m, m < gMade s -> gClosed s m = true \/ gTable s = Some m \/
    exists r, gRegs s r = RgMade m \/ gRegs s r = RgLocked m \/ gRegs s r = RgWriting m;
  wi_old : forall r m k, gRegs s r = RgWriting m -> gTable s = Some k -> gClosed s k = true
}.

Lemma WI_step : forall s l s', WI s -> LI s -> step s l = Some s' -> WI s'.
Proof.
  intros s l s' [K KO] [LK _] H. regstep H. destruct (gCrash s) eqn:Ec; [discriminate|].
  assert (Keep : forall r m0 pc, gRegs s r = pc -> pc <> RgMade m0 -> pc <> RgLocked m0 -> pc <> RgWriting m0 ->
    forall new, (exists q, gRegs s q = RgMade m0 \/ gRegs s q = RgLocked m0 \/ gRegs s q = RgWriting m0) ->
    exists q, fupd (gRegs s) r new q = RgMade m0 \/ fupd (gRegs s) r new q = RgLocked m0 \/
              fupd (gRegs s) r new q = RgWriting m0).
  { intros r m0 pc E N1 N2 N3 new [q G]. exists q.
    assert (q <> r) by (intros ->; rewrite E in G; destruct G as [G|[G|G]]; contradiction).
    rewrite !fupd_other by assumption. exact G. }
  destruct l as [r|r|r|r|r| |x err| | |m|a|a].
  - destruct (gRegs s r) eqn:Er; try discriminate. injection H as <-. unfold doReg. destruct (gCtx s).
    + constructor; cbn; auto.
    + constructor; cbn.
      * intros m Hm. destruct (Nat.eq_dec m (gMade s)) as [->|n].
        -- right. right. exists r. left. apply fupd_same.
        -- destruct (K m ltac:(lia)) as [G|[G|G]]; auto. right. right.
           eapply (Keep r m RgIdle Er); try discriminate. exact G.
      * intros q m k. unfold fupd. destruct (Nat.eqb q r); [discriminate|]. apply KO.
  - destruct (gRegs s r) eqn:Er; try discriminate. destruct (gLock s); [discriminate|]. injection H as <-.
    constructor; cbn.
    + intros k Hk. destruct (K k Hk) as [G|[G|G]]; auto. right. right.
      destruct (Nat.eq_dec k m) as [->|n].
      * exists r. right. left. apply fupd_same.
      * eapply (Keep r k (RgMade m) Er); try congruence; exact G.
    + intros q m' k. unfold fupd. destruct (Nat.eqb q r); [discriminate|]. apply KO.
  - destruct (gRegs s r) eqn:Er; try discriminate. injection H as <-.
    constructor; cbn.
    + intros k Hk. destruct (K k Hk) as [G|[G|G]].
      * left. destruct (gTable s) as [old|]; [|exact G]. unfold fupd. destruct (Nat.eqb k old); auto.
      * left. rewrite G; try reflexivity; apply fupd_same.
      * right. right. destruct (Nat.eq_dec k m) as [->|n].
        -- exists r. right. right. apply fupd_same.
        -- eapply (Keep r k (RgLocked m) Er); try congruence; exact G.
    + intros q m' k _ E. rewrite E. apply fupd_same.
  - destruct (gRegs s r) eqn:Er; try discriminate. injection H as <-.
    constructor; cbn.
    + intros k Hk. destruct (Nat.eq_dec k m) as [->|n]; [right; left; reflexivity|].
      destruct (K k Hk) as [G|[G|G]]; auto.
      * left. exact (KO r m k Er G).
      * right. right. eapply (Keep r k (RgWriting m) Er); try congruence; exact G.
    + intros q m' k. unfold fupd. destruct (Nat.eqb_spec q r) as [->|n]; [discriminate|]. intros E _.
      pose proof (LK q m' (or_intror E)). pose proof (LK r m (or_intror Er)). congruence.
  - destruct (gRegs s r) eqn:Er; try discriminate. injection H as <-.
    constructor; cbn.
    + intros k Hk. destruct (K k Hk) as [G|[G|G]]; auto. right. right.
      eapply (Keep r k (RgStored m) Er); try congruence; exact G.
    + intros q m' k. unfold fupd. destruct (Nat.eqb q r); [discriminate|]. apply KO.
  - destruct (gReader s); try discriminate. injection H as <-. constructor; cbn; auto.
  - destruct (gReader s); try discriminate. destruct (gWriting s).
    + injection H as <-. constructor; cbn; auto.
    + destruct (gTable s) as [m|] eqn:Et.
      * destruct (gHandler s m); injection H as <-; constructor; cbn; rewrite ?Et; auto.
      * destruct (gLock s); [discriminate|]. destruct (gChan s) as [c|].
        -- destruct (_ <? _); [|discriminate]. injection H as <-. constructor; cbn; rewrite ?Et; auto.
        -- injection H as <-. constructor; rewrite ?Et; auto.
  - injection H as <-. constructor; cbn; auto.
  - destruct (gReader s); try discriminate. destruct (gCtx s); [|discriminate].
    destruct (gWriting s); injection H as <-; constructor; cbn; auto.
    + intros k Hk. destruct (K k Hk) as [G|G]; auto. left.
      destruct (gTable s) as [old|]; [|exact G]. unfold fupd. destruct (Nat.eqb k old); auto.
    + intros q m' k _ E. rewrite E. apply fupd_same.
  - destruct (_ && _); [|discriminate]. injection H as <-. constructor; cbn; auto.
  - destruct (gReads s a); try discriminate. destruct (gWriting s).
    + injection H as <-. constructor; cbn; auto.
    + destruct (gChan s); [|discriminate]. injection H as <-. constructor; cbn; auto.
  - destruct (gReads s a); try discriminate. destruct (gQueue s c).
    + destruct (gShut s c); [|discriminate]. injection H as <-. constructor; cbn; auto.
    + injection H as <-. constructor; cbn; auto.
Qed.

(** If no registration is under way when the context ends and none starts later,
    the cleanup leaves no messenger open, and each waiting goroutine can return. *)
Definition calmStep (s s' : reg) : Prop := exists l, step s l = Some s' /\
  match l with
  | GReg _ => gCtx s = false
  | GCancel => forall r, idleOrDone (gRegs s r)
  | _ => True
  end.
Definition calmReach (rw : bool) : reg -> Prop := reachable (fun s => s = regInit rw) calmStep.

Record CI (s : reg) : Prop := {
  ci_calm : gCtx s = true -> forall r, idleOrDone (gRegs s r);
  ci_end : gReader s = RdEnd -> gCtx s = true /\ forall m, gTable s = Some m -> gClosed s m = true
}.

Lemma CI_step : forall s s', CI s -> calmStep s s' -> CI s'.
Proof.
  intros s s' [CC CE] [l [H Hg]]. regstep H. destruct (gCrash s) eqn:Ec; [discriminate|].
  assert (NC : forall r pc, gRegs s r = pc -> pc <> RgIdle -> pc <> RgDone -> gCtx s = false).
  { intros r pc E N1 N2. destruct (gCtx s); [|reflexivity]. destruct (CC eq_refl r) as [E'|E']; congruence. }
  destruct l as [r|r|r|r|r| |x err| | |m|a|a].
  - destruct (gRegs s r) eqn:Er; try discriminate. injection H as <-. unfold doReg. rewrite Hg.
    constructor; cbn; [congruence|]. intros E. destruct (CE E). congruence.
  - destruct (gRegs s r) eqn:Er; try discriminate. destruct (gLock s); [discriminate|]. injection H as <-.
    pose proof (NC r _ Er ltac:(discriminate) ltac:(discriminate)). constructor; cbn; [congruence|]. exact CE.
  - destruct (gRegs s r) eqn:Er; try discriminate. injection H as <-.
    pose proof (NC r _ Er ltac:(discriminate) ltac:(discriminate)). constructor; cbn; [congruence|].
    intros E. destruct (CE E). congruence.
  - destruct (gRegs s r) eqn:Er; try discriminate. injection H as <-.
    pose proof (NC r _ Er ltac:(discriminate) ltac:(discriminate)). constructor; cbn; [congruence|].
    intros E. destruct (CE E). congruence.
  - destruct (gRegs s r) eqn:Er; try discriminate. injection H as <-.
    pose proof (NC r _ Er ltac:(discriminate) ltac:(discriminate)). constructor; cbn; [congruence|]. exact CE.
  - destruct (gReader s); try discriminate. injection H as <-. constructor; cbn; auto. discriminate.
  - destruct (gReader s) eqn:Erd; try discriminate. destruct (gWriting s).
    + injection H as <-. constructor; cbn; rewrite ?Erd; auto.
    + destruct (gTable s) as [m|] eqn:Et.
      * destruct (gHandler s m); injection H as <-; constructor; cbn; rewrite ?Et, ?Erd; auto.
      * destruct (gLock s); [discriminate|]. destruct (gChan s) as [c|].
        -- destruct (_ <? _); [|discriminate]. injection H as <-. constructor; cbn; rewrite ?Et, ?Erd; auto.
        -- injection H as <-. constructor; rewrite ?Et, ?Erd; auto.
  - injection H as <-. constructor; cbn; auto. intros E. split; [reflexivity|]. apply CE. exact E.
  - destruct (gReader s) eqn:Erd; try discriminate. destruct (gCtx s) eqn:Ex; [|discriminate].
    destruct (gWriting s); injection H as <-; constructor; cbn; rewrite ?Ex, ?Erd; auto; try discriminate.
    intros _. split; [reflexivity|]. intros m E. rewrite E. apply fupd_same.
  - destruct (_ && _); [|discriminate]. injection H as <-. constructor; cbn; auto.
  - destruct (gReads s a); try discriminate. destruct (gWriting s).
    + injection H as <-. constructor; cbn; auto.
    + destruct (gChan s); [|discriminate]. injection H as <-. constructor; cbn; auto.
  - destruct (gReads s a); try discriminate. destruct (gQueue s c).
    + destruct (gShut s c); [|discriminate]. injection H as <-. constructor; cbn; auto.
    + injection H as <-. constructor; cbn; auto.
Qed.

Lemma LI_init : forall rw, LI (regInit rw).
Proof. intros rw. constructor; cbn; [intros r m [E|E]; discriminate|discriminate]. Qed.
Lemma WI_init : forall rw, WI (regInit rw).
Proof. intros rw. constructor; cbn; [intros m Hm; lia|discriminate]. Qed.

Theorem C96_calm_partial : forall rw s m, calmReach rw s -> gReader s = RdEnd -> m < gMade s ->
  gClosed s m = true /\
  (gCrash s = None -> gReleased s m = true \/ exists s', step s (GRelease m) = Some s' /\ gReleased s' m = true).
Proof.
  intros rw s m H E Hm.
  assert (G : CI s /\ LI s /\ WI s).
  { refine (reachable_inv _ _ (fun s => CI s /\ LI s /\ WI s) _ _ s H).
    - intros x ->. split; [constructor; cbn; discriminate|]. split; [apply LI_init|apply WI_init].
    - intros a b [Ha [Hl Hw]] Hs. split; [exact (CI_step a b Ha Hs)|]. destruct Hs as [l [Hs _]].
      split; [exact (LI_step a l b Hl Hs)|exact (WI_step a l b Hw Hl Hs)]. }
  destruct G as [[CC CE] [_ [K _]]]. destruct (CE E) as [Ex ET].
  assert (C : gClosed s m = true).
  { destruct (K m Hm) as [G|[G|[r G]]]; [exact G|exact (ET m G)|].
    destruct (CC Ex r) as [E'|E']; rewrite E' in G; destruct G as [G|[G|G]]; discriminate. }
  split; [exact C|]. intros Hc. destruct (gReleased s m) eqn:R; [left; reflexivity|right].
  unfold regStep. rewrite Hc, C, R. destruct (Nat.ltb_spec m (gMade s)); [|lia]. cbn [andb negb].
  eexists. split; [reflexivity|]. cbn. apply fupd_same.
Qed.

(** ** C97: Read and replaced channels *)

(** A [Read] that waits while a handler for its type is registered keeps waiting
    on the channel that was replaced: it does not even notice the end of the
    session. *)
Theorem C97_read_never_returns_refuted : exists s, regReach true s /\ gReader s = RdEnd /\
  forall s', steps (lstep step) s s' -> gReads s' 0 = ReWaits 0.
Proof.
  set (J := fun s => gReads s 0 = ReWaits 0 /\ gReader s = RdEnd /\ gCtx s = true /\ gShut s 0 = false /\ gQueue s 0 = [] /\
                     (forall r, idleOrDone (gRegs s r))).
  set (ls := [GStart; GRead 0; GReg 0; GLock 0; GWrite 0; GWritten 0; GSet 0; GCancel; GClean; GRelease 0]).
  assert (Hx : exists s, exec step (regInit true) ls = Some s /\ J s).
  { eexists. split; [vm_compute; reflexivity|]. unfold J. cbn [gReads gReader gCtx gShut gQueue gRegs].
    repeat split. intros r. destruct (Nat.eqb r 0) eqn:E; destruct r; try discriminate; [right|left]; reflexivity. }
  destruct Hx as (s0 & Hx & HJ). exists s0.
  split; [exact (exec_reachable step _ (regInit true) ls s0 eq_refl Hx)|]. split; [apply HJ|].
  - intros s' Hs. clear Hx ls.
    assert (G : J s').
    { refine (steps_inv _ J _ s0 s' Hs _).
      - intros a b (Hrd & Hr & Hc & Hsh & Hqu & Hq) [l Hl]. unfold regStep in Hl.
        destruct (gCrash a); [discriminate|].
        assert (NQ : forall r, match gRegs a r with RgMade _ | RgLocked _ | RgWriting _ | RgStored _ => False | _ => True end).
        { intros r. destruct (Hq r) as [E|E]; rewrite E; exact I. }
        destruct l as [r|r|r|r|r| |x err| | |m|c|c]; try (specialize (NQ r)).
        + destruct (gRegs a r); try discriminate. injection Hl as <-. unfold doReg. rewrite Hc.
          repeat split; cbn; auto.
        + destruct (gRegs a r); try discriminate; contradiction.
        + destruct (gRegs a r); try discriminate; contradiction.
        + destruct (gRegs a r); try discriminate; contradiction.
        + destruct (gRegs a r); try discriminate; contradiction.
        + rewrite Hr in Hl. discriminate.
        + rewrite Hr in Hl. discriminate.
        + injection Hl as <-. repeat split; cbn; auto.
        + rewrite Hr in Hl. discriminate.
        + destruct (_ && _); [|discriminate]. injection Hl as <-. repeat split; cbn; auto.
        + destruct (gReads a c) eqn:Er; try discriminate. destruct (gWriting a).
          * injection Hl as <-. repeat split; cbn; auto.
          * destruct (gChan a); [|discriminate]. injection Hl as <-. repeat split; cbn; auto.
            rewrite fupd_other; [exact Hrd|]. intros <-. congruence.
        + destruct (gReads a c) as [|c0| |] eqn:Er; try discriminate. destruct (gQueue a c0) eqn:Eq.
          * destruct (gShut a c0) eqn:Es; [|discriminate]. injection Hl as <-. repeat split; cbn; auto.
            rewrite fupd_other; [exact Hrd|]. intros <-. congruence.
          * injection Hl as <-.
            assert (c0 <> 0) by (intros ->; congruence).
            assert (c <> 0) by (intros ->; congruence).
            repeat split; cbn; auto.
            -- rewrite fupd_other; [exact Hrd|]. auto.
            -- rewrite fupd_other; [exact Hqu|]. auto.
      - exact HJ. }
    apply G.
Qed.

(** Messages that wait in the replaced channel reach nobody: the message is there
    and no later [Read] gets it. *)
Theorem C97_queued_message_lost_refuted : 0 < capacity -> exists s x, regReach true s /\ In x (gQueue s 0) /\
  gDelivered s = [] /\ forall s', steps (lstep step) s s' -> In x (gQueue s' 0).
Proof.
  intros Hcap.
  set (ls := [GStart; GMsg 5 false; GReg 0; GLock 0; GWrite 0; GWritten 0; GSet 0]).
  assert (Hx : exists s, exec step (regInit true) ls = Some s /\ gQueue s 0 = [5] /\ gDelivered s = [] /\
                         gChan s = Some 1 /\ gChans s = 2 /\ (forall a, gReads s a = ReIdle) /\
                         gTable s = Some 0).
  { unfold ls. cbn [exec]. unfold regStep at 1. cbn. destruct capacity as [|n]; [lia|]. cbn.
    eexists. repeat split. }
  destruct Hx as (s & Hx & Hq & Hd & Hc & Hcs & Hr & Ht). exists s, 5.
  split; [exact (exec_reachable step _ (regInit true) ls s eq_refl Hx)|].
  split; [rewrite Hq; left; reflexivity|]. split; [exact Hd|].
  intros s' Hs.
  set (J := fun s => (exists q, gQueue s 0 = 5 :: q) /\ (exists c, gChan s = Some c /\ 0 < c) /\ 0 < gChans s /\
                     (forall a, gReads s a <> ReWaits 0)).
  assert (G : J s').
  { refine (steps_inv _ J _ s s' Hs _).
    - intros a b ((q & Jq) & (c & Jc & Jp) & Jn & Jr) [l Hl]. unfold regStep in Hl.
      destruct (gCrash a); [discriminate|].
      assert (KeepJ : forall b0, gQueue b0 0 = gQueue a 0 -> gChan b0 = gChan a -> gChans b0 = gChans a -> gReads b0 = gReads a -> J b0).
      { intros b0 E1 E2 E3 E4. unfold J. rewrite E1, E2, E3, E4. repeat split; eauto. }
      destruct l as [r|r|r|r|r| |x err| | |m|t|t].
      + destruct (gRegs a r); try discriminate. injection Hl as <-. unfold doReg. destruct (gCtx a); apply KeepJ; reflexivity.
      + destruct (gRegs a r); try discriminate. destruct (gLock a); [discriminate|]. injection Hl as <-. apply KeepJ; reflexivity.
      + destruct (gRegs a r); try discriminate. injection Hl as <-. apply KeepJ; reflexivity.
      + destruct (gRegs a r); try discriminate. injection Hl as <-. unfold J. cbn. repeat split; eauto.
      + destruct (gRegs a r); try discriminate. injection Hl as <-. apply KeepJ; reflexivity.
      + destruct (gReader a); try discriminate. injection Hl as <-. apply KeepJ; reflexivity.
      + destruct (gReader a); try discriminate. destruct (gWriting a); [injection Hl as <-; apply KeepJ; reflexivity|].
        destruct (gTable a) as [m|].
        * destruct (gHandler a m); injection Hl as <-; apply KeepJ; reflexivity.
        * destruct (gLock a); [discriminate|]. rewrite Jc in Hl. destruct (_ <? _); [|discriminate].
          injection Hl as <-. apply KeepJ; try reflexivity. cbn. apply fupd_other. lia.
      + injection Hl as <-. apply KeepJ; reflexivity.
      + destruct (gReader a); try discriminate. destruct (gCtx a); [|discriminate].
        destruct (gWriting a); injection Hl as <-; apply KeepJ; reflexivity.
      + destruct (_ && _); [|discriminate]. injection Hl as <-. apply KeepJ; reflexivity.
      + destruct (gReads a t) eqn:Er; try discriminate. destruct (gWriting a); [injection Hl as <-; apply KeepJ; reflexivity|].
        rewrite Jc in Hl. injection Hl as <-. unfold J. cbn. repeat split; eauto.
        intros t'. unfold fupd. destruct (Nat.eqb t' t); [|apply Jr]. intros E. injection E as E. lia.
      + destruct (gReads a t) as [|c0| |] eqn:Er; try discriminate.
        assert (c0 <> 0) by (intros ->; apply (Jr t); exact Er).
        assert (Jr' : forall pc, pc <> ReWaits 0 -> forall t', fupd (gReads a) t pc t' <> ReWaits 0).
        { intros pc Hpc t'. unfold fupd. destruct (Nat.eqb t' t); [exact Hpc|apply Jr]. }
        destruct (gQueue a c0).
        * destruct (gShut a c0); [|discriminate]. injection Hl as <-. unfold J. cbn. repeat split; eauto.
          apply Jr'. discriminate.
        * injection Hl as <-. unfold J. cbn. repeat split; eauto.
          -- exists q. rewrite fupd_other; [exact Jq|]. auto.
          -- apply Jr'. discriminate.
    - unfold J. rewrite Hq, Hc, Hcs. repeat split; eauto; try lia. intros t. rewrite Hr. discriminate. }
  destruct G as ((q & G) & _). rewrite G. left. reflexivity.
Qed.

(** Without registrations for the type, a [Read] that still waits when the session
    has been cleaned up can always return. *)
Definition plainStep (s s' : reg) : Prop := exists l, step s l = Some s' /\ match l with GReg _ => False | _ => True end.
Definition plainReach (rw : bool) : reg -> Prop := reachable (fun s => s = regInit rw) plainStep.

Theorem C97_no_registration_partial : forall s a c, plainReach true s -> gReader s = RdEnd -> gReads s a = ReWaits c ->
  exists s', step s (GRecv a) = Some s' /\ (gReads s' a = ReClosed \/ exists x, gReads s' a = ReGot x).
Proof.
  intros s a c H E Ea.
  assert (G : gCrash s = None /\ (forall r, gRegs s r = RgIdle) /\ gTable s = None /\ gWriting s = false /\ gLock s = None /\
              gChan s = Some 0 /\ (forall a c, gReads s a = ReWaits c -> c = 0) /\ (gReader s = RdEnd -> gShut s 0 = true)).
  { refine (reachable_inv _ _ (fun s => gCrash s = None /\ (forall r, gRegs s r = RgIdle) /\ gTable s = None /\
              gWriting s = false /\ gLock s = None /\ gChan s = Some 0 /\ (forall a c, gReads s a = ReWaits c -> c = 0) /\
              (gReader s = RdEnd -> gShut s 0 = true)) _ _ s H).
    - intros x ->. cbn. repeat split; auto; discriminate.
    - clear. intros s s' (Gc & Gr & Gt & Gw & Gl & Gch & Gre & Ge) [l [Hl Hg]]. unfold regStep in Hl. rewrite Gc in Hl.
      destruct l as [r|r|r|r|r| |x err| | |m|t|t]; try rewrite Gr in Hl; try discriminate; try contradiction.
      + destruct (gReader s); try discriminate. injection Hl as <-. cbn. repeat split; auto. discriminate.
      + destruct (gReader s) eqn:Erd; try discriminate. rewrite Gw, Gt, Gl, Gch in Hl. destruct (_ <? _); [|discriminate].
        injection Hl as <-. cbn. rewrite Erd. repeat split; auto.
      + injection Hl as <-. cbn. repeat split; auto.
      + destruct (gReader s); try discriminate. destruct (gCtx s); [|discriminate]. rewrite Gw in Hl. injection Hl as <-. cbn.
        rewrite Gch. repeat split; auto.
      + destruct (_ && _); [|discriminate]. injection Hl as <-. cbn. repeat split; auto.
      + destruct (gReads s t); try discriminate. rewrite Gw, Gch in Hl. injection Hl as <-. cbn. repeat split; auto.
        intros a c. unfold fupd. destruct (Nat.eqb a t); [intros E; injection E as <-; reflexivity|apply Gre].
      + destruct (gReads s t) as [|c0| |] eqn:Et; try discriminate. destruct (gQueue s c0).
        * destruct (gShut s c0); [|discriminate]. injection Hl as <-. cbn. repeat split; auto.
          intros a c. unfold fupd. destruct (Nat.eqb a t); [discriminate|apply Gre].
        * injection Hl as <-. cbn. repeat split; auto.
          intros a c. unfold fupd. destruct (Nat.eqb a t); [discriminate|apply Gre]. }
  destruct G as (Gc & _ & _ & _ & _ & _ & Gre & Ge). assert (c = 0) by (eapply Gre; eauto). subst c.
  unfold regStep. rewrite Gc, Ea. destruct (gQueue s 0) as [|x q].
  - rewrite (Ge E). eexists. split; [reflexivity|]. left. cbn. apply fupd_same.
  - eexists. split; [reflexivity|]. right. exists x. cbn. apply fupd_same.
Qed.

(** ** C98: the onError function *)

(** "[onError] handles errors" (session.go 1350): it is never called, whatever
    the handler returns ... *)
Theorem C98_on_error_never_called_refuted : forall rw s, regReach rw s -> gOnError s = 0.
Proof.
  intros rw s H. refine (reachable_inv _ _ (fun s => gOnError s = 0) _ _ s H).
  - intros x ->. reflexivity.
  - clear. intros s s' E [l Hl]. unfold regStep in Hl. destruct (gCrash s); [discriminate|].
    destruct l as [r|r|r|r|r| |x err| | |m|t|t].
    + destruct (gRegs s r); try discriminate. injection Hl as <-. unfold doReg. destruct (gCtx s); exact E.
    + destruct (gRegs s r); try discriminate. destruct (gLock s); [discriminate|]. injection Hl as <-. exact E.
    + destruct (gRegs s r); try discriminate. injection Hl as <-. exact E.
    + destruct (gRegs s r); try discriminate. injection Hl as <-. exact E.
    + destruct (gRegs s r); try discriminate. injection Hl as <-. exact E.
    + destruct (gReader s); try discriminate. injection Hl as <-. exact E.
    + destruct (gReader s); try discriminate. destruct (gWriting s); [injection Hl as <-; exact E|].
      destruct (gTable s) as [m|].
      * destruct (gHandler s m); injection Hl as <-; exact E.
      * destruct (gLock s); [discriminate|]. destruct (gChan s) as [c|]; [|injection Hl as <-; exact E].
        destruct (_ <? _); [|discriminate]. injection Hl as <-. exact E.
    + injection Hl as <-. exact E.
    + destruct (gReader s); try discriminate. destruct (gCtx s); [|discriminate].
      destruct (gWriting s); injection Hl as <-; exact E.
    + destruct (_ && _); [|discriminate]. injection Hl as <-. exact E.
    + destruct (gReads s t); try discriminate. destruct (gWriting s); [injection Hl as <-; exact E|].
      destruct (gChan s); [|discriminate]. injection Hl as <-. exact E.
    + destruct (gReads s t); try discriminate. destruct (gQueue s c).
      * destruct (gShut s c); [|discriminate]. injection Hl as <-. exact E.
      * injection Hl as <-. exact E.
Qed.

(** ... although handlers do return errors; these go to the session's event
    handler, each exactly once. *)
Theorem C98_event_handler_partial : forall s m x err s', gReader s = RdIdle -> gCrash s = None -> gWriting s = false ->
  gTable s = Some m -> gHandler s m = true -> step s (GMsg x err) = Some s' ->
  gDelivered s' = gDelivered s ++ [(m, x)] /\ gEventErr s' = gEventErr s + (if err then 1 else 0).
Proof.
  intros s m x err s' Hr Hc Hw Ht Hh H. unfold regStep in H. rewrite Hc, Hr, Hw, Ht, Hh in H. injection H as <-. cbn.
  split; [reflexivity|]. destruct err; lia.
Qed.
End Registry.
Print Assumptions C95_message_before_handler_refuted.
Print Assumptions C95_map_race_refuted.
Print Assumptions C95_closed_session_refuted.
Print Assumptions C95_registered_before_start_partial.
Print Assumptions C96_registration_while_closing_refuted.
Print Assumptions C96_calm_partial.
Print Assumptions C97_read_never_returns_refuted.
Print Assumptions C97_queued_message_lost_refuted.
Print Assumptions C97_no_registration_partial.
Print Assumptions C98_on_error_never_called_refuted.
Print Assumptions C98_event_handler_partial.

(** Two registrations before the start: messages go to the second handler, the
    first messenger is closed, and so is the second one in the end. *)
Example registry_example :
  match exec (regStep 1024) (regInit false)
    [GReg 0; GLock 0; GWrite 0; GWritten 0; GSet 0; GReg 1; GLock 1; GWrite 1; GWritten 1; GSet 1;
     GStart; GMsg 7 false; GMsg 8 true; GRelease 0; GCancel; GClean; GRelease 1] with
  | Some s => gDelivered s = [(1, 7); (1, 8)] /\ gEventErr s = 1 /\ gOnError s = 0 /\ gClosed s 0 = true /\
              gReleased s 1 = true /\ gCrash s = None
  | None => False
  end.
Proof. vm_compute. repeat split. Qed.
