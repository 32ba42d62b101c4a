(** C168: goroutines may be added while others wait for the end. *)
From Coq Require Import List Bool Arith Lia.
From Verif Require Import Base TS WgModel.
Import ListNotations.

(** ** Refutations *)
(** All three have the same beginning: somebody waits ([session.go] 2106 always
    does), the exchanger is closed after [Handle] has looked at the context, and
    the loop ends before [Handle] adds the goroutine for its answer. *)
Definition closedMeanwhile : list wglabel := [LgWaiter; LgWait 0; LgCheck; LgCancel; LgWork 0].
(** Added after the waiter was woken, before it runs: the waiter panics. *)
Theorem C168_reused_refuted : exists s,
  exec wgStep wgs0 (closedMeanwhile ++ [LgWork 0; LgWork 0; LgWork 0; LgWait 0; LgAdd; LgWait 0]) = Some s /\ gPanic s = Some PReused.
Proof. eexists. split; [vm_compute; reflexivity|]. reflexivity. Qed.
Print Assumptions C168_reused_refuted.
(** Added at once: the goroutine that handles the message panics. *)
Theorem C168_concurrent_refuted : exists s,
  exec wgStep wgs0 (closedMeanwhile ++ [LgAdd]) = Some s /\ gPanic s = Some PConcurrent.
Proof. eexists. split; [vm_compute; reflexivity|]. reflexivity. Qed.
Print Assumptions C168_concurrent_refuted.
(** The waiter may also return while a worker still runs: nothing panics then,
    but it has not waited. *)
Theorem C168_not_waited_refuted : exists s,
  exec wgStep wgs0 (closedMeanwhile ++ [LgWork 0; LgWork 0; LgWork 0; LgWait 0; LgWait 0; LgAdd]) = Some s /\
  gPanic s = None /\ gWaiters s = [WtRet] /\ nth_error (gWorkers s) 1 = Some DRun.
Proof. eexists. split; [vm_compute; reflexivity|]. repeat split. Qed.
Print Assumptions C168_not_waited_refuted.

(** ** What holds *)
(** The runs in which the context does not end between check and [Add]. *)
Definition orderly (s s' : wgs) : Prop := exists l, (l = LgCancel -> gAdding s = false) /\ wgStep s l = Some s'.

Fixpoint running (l : list dpc) : nat := match l with [] => 0 | DRun :: l => S (running l) | _ :: l => running l end.
Fixpoint asleep (l : list wtpc) : nat := match l with [] => 0 | WtSleep :: l => S (asleep l) | _ :: l => asleep l end.
(** Waiters the workers still have to wake. *)
Fixpoint toWake (l : list dpc) : nat :=
  match l with [] => 0 | DLoad w :: l => w + toWake l | DStore w :: l => w + toWake l | DRelease n :: l => n + toWake l | _ :: l => toWake l end.
Definition settled (d : dpc) : Prop := d = DRun \/ d = DEnd.
Definition over (d : dpc) : Prop := d = DEnd \/ exists n, d = DRelease n.

(** How far the end has come. *)
Definition phase (s : wgs) : Prop :=
  (0 < gV s /\ Forall settled (gWorkers s) /\ gSem s = 0 /\ ~ In WtCheck (gWaiters s) /\ ~ In WtRet (gWaiters s) /\ asleep (gWaiters s) = gW s) \/
  (gV s = 0 /\ gCtx s = true /\ gSem s = 0 /\ ~ In WtCheck (gWaiters s) /\ asleep (gWaiters s) = gW s /\
   exists a b d, gWorkers s = a ++ d :: b /\ Forall (eq DEnd) a /\ Forall (eq DEnd) b /\ (d = DLoad (gW s) \/ d = DStore (gW s))) \/
  (gV s = 0 /\ gCtx s = true /\ gW s = 0 /\ Forall over (gWorkers s) /\ asleep (gWaiters s) = gSem s + toWake (gWorkers s)).
Definition inv (s : wgs) : Prop :=
  gPanic s = None /\ gV s = running (gWorkers s) /\ (gCtx s = false -> nth_error (gWorkers s) 0 = Some DRun) /\
  (gAdding s = true -> gCtx s = false) /\ phase s.

Lemma gset_split : forall A (l : list A) i x y, nth_error l i = Some x ->
  exists a b, l = a ++ x :: b /\ length a = i /\ gset l i y = a ++ y :: b.
Proof.
  intros A l. induction l as [|z l IH]; intros i x y H; destruct i; try discriminate.
  - injection H as ->. exists [], l. repeat split.
  - destruct (IH i x y H) as (a & b & E1 & E2 & E3). exists (z :: a), b. split; [rewrite E1 at 1; reflexivity|].
    split; [cbn; rewrite E2; reflexivity|]. change (gset (z :: l) (S i) y) with (z :: gset l i y). rewrite E3. reflexivity.
Qed.
Lemma running_app : forall a b, running (a ++ b) = running a + running b.
Proof. induction a as [|[] a IH]; intros b; cbn; rewrite ?IH; reflexivity. Qed.
Lemma toWake_app : forall a b, toWake (a ++ b) = toWake a + toWake b.
Proof. induction a as [|[] a IH]; intros b; cbn; rewrite ?IH; try lia. Qed.
Lemma asleep_app : forall a b, asleep (a ++ b) = asleep a + asleep b.
Proof. induction a as [|[] a IH]; intros b; cbn; rewrite ?IH; reflexivity. Qed.
Lemma running_pos : forall l i, nth_error l i = Some DRun -> 0 < running l.
Proof. induction l as [|d l IH]; intros [|i] H; try discriminate; cbn. injection H as ->. lia. specialize (IH i H). destruct d; cbn; lia. Qed.
Lemma settled_end : forall l, Forall settled l -> running l = 0 -> Forall (eq DEnd) l.
Proof. induction l as [|d l IH]; intros H R; constructor; inversion H as [|? ? [->| ->] H']; subst; cbn in R; try lia; auto. Qed.
Lemma settled_toWake : forall l, Forall settled l -> toWake l = 0.
Proof. induction l as [|d l IH]; intros H; [reflexivity|]. inversion H as [|? ? [->| ->] H']; subst; cbn; auto. Qed.
Lemma end_facts : forall l, Forall (eq DEnd) l -> running l = 0 /\ toWake l = 0 /\ Forall over l /\ forall i d, nth_error l i = Some d -> d = DEnd.
Proof.
  induction l as [|d l IH]; intros H; [repeat split; auto; intros [|?] ?; discriminate|].
  inversion H as [|? ? E H']; subst. destruct (IH H') as (A & B & C & D). cbn. repeat split; auto.
  - constructor; [left; reflexivity|exact C].
  - intros [|i] d K; cbn in K; [congruence|eauto].
Qed.
Lemma over_running : forall l, Forall over l -> running l = 0.
Proof. induction l as [|d l IH]; intros H; [reflexivity|]. inversion H as [|? ? [->|[n ->]] H']; subst; cbn; auto. Qed.
Lemma notin_mid : forall (x y z : wtpc) a b, x <> z -> ~ In x (a ++ y :: b) -> ~ In x (a ++ z :: b).
Proof. intros x y z a b N H I. apply H. apply in_app_iff in I. apply in_app_iff. destruct I as [I|[I|I]]; auto; [congruence|right; right; auto]. Qed.
Lemma notin_add : forall (x : wtpc) l, x <> WtNew -> ~ In x l -> ~ In x (l ++ [WtNew]).
Proof. intros x l N H I. apply in_app_iff in I. destruct I as [I|[I|[]]]; auto. Qed.
Lemma nth0_mid : forall (a b : list dpc) x y, nth_error (a ++ x :: b) 0 = Some DRun -> (a = [] -> x = DRun -> y = DRun) -> x = DRun \/ a <> [] ->
  nth_error (a ++ y :: b) 0 = Some DRun.
Proof. intros [|z a] b x y H K _; cbn in *; [injection H as ->; rewrite K; auto|exact H]. Qed.

Lemma inv_init : inv wgs0.
Proof.
  refine (conj eq_refl (conj eq_refl (conj (fun _ => eq_refl) (conj _ _)))); [discriminate|].
  left. cbn. repeat split; auto; try lia. constructor; [left; reflexivity|constructor].
Qed.

Lemma inv_step : forall s s', inv s -> orderly s s' -> inv s'.
Proof.
  intros s s' (P & V & W0 & A & Ph) (l & Ord & H). unfold wgStep in H. rewrite P in H.
  destruct l as [| | |i| |i].
  - (* cancel *)
    injection H as <-. specialize (Ord eq_refl). refine (conj eq_refl (conj V (conj _ (conj _ _)))); cbn; try congruence.
    destruct Ph as [Ph|[Ph|Ph]]; [left; exact Ph|right; left|right; right].
    + destruct Ph as (B1 & B2 & B). refine (conj B1 (conj eq_refl B)).
    + destruct Ph as (B1 & B2 & B). refine (conj B1 (conj eq_refl B)).
  - (* check *)
    destruct (gCtx s) eqn:C; [discriminate|]. destruct (gAdding s); [discriminate|]. cbn in H. injection H as <-.
    refine (conj eq_refl (conj V (conj _ (conj _ _)))); cbn; auto.
    destruct Ph as [Ph|[Ph|Ph]]; [left; exact Ph| |]; destruct Ph as (_ & B & _); congruence.
  - (* Add *)
    destruct (gAdding s) eqn:Ad; [|discriminate]. specialize (A eq_refl). specialize (W0 A).
    pose proof (running_pos _ _ W0) as R. rewrite <- V in R.
    destruct (gV s) as [|v] eqn:Ev; [lia|]. cbn [Nat.eqb] in H. rewrite andb_false_r in H. injection H as <-.
    unfold inv, phase. cbn. refine (conj eq_refl (conj _ (conj _ (conj _ _)))).
    + rewrite running_app, <- V. cbn. lia.
    + intros _. destruct (gWorkers s); [discriminate|exact W0].
    + discriminate.
    + destruct Ph as [Ph|[Ph|Ph]]; [|destruct Ph as (_ & B & _); congruence|destruct Ph as (_ & B & _); congruence].
      left. destruct Ph as (B1 & B2 & B3). refine (conj _ (conj _ B3)); [lia|]. apply Forall_app. split; [exact B2|].
      constructor; [left; reflexivity|constructor].
  - (* a worker *)
    destruct (nth_error (gWorkers s) i) as [d|] eqn:E; [|discriminate].
    destruct d as [|w|w|n|]; try discriminate.
    + (* Done *)
      destruct ((i =? 0) && negb (gCtx s)) eqn:G; [discriminate|].
      pose proof (running_pos _ _ E) as R. rewrite <- V in R. destruct (gV s) as [|v] eqn:Ev; [lia|].
      injection H as <-.
      set (d' := if negb (v =? 0) || (gW s =? 0) then DEnd else DLoad (gW s)).
      destruct (gset_split _ _ _ _ d' E) as (a & b & E1 & E2 & E3).
      assert (D' : d' = DEnd \/ d' = DLoad (gW s)) by (unfold d'; destruct (_ || _); auto).
      assert (Rn : running (a ++ d' :: b) = v).
      { rewrite E1, running_app in V. cbn in V. rewrite running_app. destruct D' as [->| ->]; cbn; lia. }
      assert (W0' : gCtx s = false -> nth_error (a ++ d' :: b) 0 = Some DRun).
      { intros C. specialize (W0 C). rewrite C, andb_true_r in G. apply Nat.eqb_neq in G. rewrite E1 in W0.
        destruct a as [|z a]; [cbn in E2; lia|exact W0]. }
      unfold inv. cbn [gPanic gV gWorkers gCtx gAdding gWorker gWg]. rewrite E3.
      refine (conj P (conj (eq_sym Rn) (conj W0' (conj A _)))).
      destruct Ph as [Ph|[Ph|Ph]]; [|destruct Ph as (B & _); congruence|destruct Ph as (B & _); congruence].
      destruct Ph as (B1 & B2 & B3 & B4 & B5 & B6). unfold phase. cbn [gV gWorkers gCtx gW gSem gWaiters gWorker gWg]. rewrite E3.
      rewrite E1 in B2. apply Forall_app in B2. destruct B2 as [B2a B2b]. inversion B2b as [|? ? _ B2c]; subst x l.
      destruct v as [|v].
      * assert (C : gCtx s = true).
        { destruct (gCtx s); auto. specialize (W0' eq_refl). apply running_pos in W0'. lia. }
        rewrite running_app in Rn.
        assert (Fa : Forall (eq DEnd) a) by (apply settled_end; [exact B2a|lia]).
        assert (Fb : Forall (eq DEnd) b) by (apply settled_end; [exact B2c|destruct D' as [Q|Q]; rewrite Q in Rn; cbn in Rn; lia]).
        destruct (gW s) as [|w] eqn:Ew.
        -- right. right. assert (Q : d' = DEnd) by (unfold d'; reflexivity). rewrite Q. clear E3 Rn W0'. 
           refine (conj eq_refl (conj C (conj eq_refl (conj _ _)))).
           ++ apply Forall_app. split; [apply end_facts, Fa|]. constructor; [left; reflexivity|apply end_facts, Fb].
           ++ rewrite toWake_app. cbn. rewrite (proj1 (proj2 (end_facts _ Fa))), (proj1 (proj2 (end_facts _ Fb))), B3, B6. reflexivity.
        -- right. left. assert (Q : d' = DLoad (S w)) by (unfold d'; reflexivity). rewrite Q.
           refine (conj eq_refl (conj C (conj B3 (conj B4 (conj B6 _))))). exists a, b, (DLoad (S w)).
           refine (conj eq_refl (conj Fa (conj Fb (or_introl eq_refl)))).
      * left. assert (Q : d' = DEnd) by (unfold d'; reflexivity). rewrite Q. refine (conj _ (conj _ (conj B3 (conj B4 (conj B5 B6))))); [lia|].
        apply Forall_app. split; [exact B2a|]. constructor; [right; reflexivity|exact B2c].
    + (* DLoad *)
      destruct Ph as [Ph|[Ph|Ph]].
      * destruct Ph as (_ & B & _). rewrite Forall_forall in B. apply nth_error_In in E. destruct (B _ E) as [X|X]; discriminate.
      * destruct Ph as (B1 & B2 & B3 & B4 & B5 & a & b & d & B6 & B7 & B8 & B9).
        destruct (gset_split _ _ _ _ (DStore w) E) as (a' & b' & E1 & E2 & E3).
        assert (Q : a' = a /\ b' = b /\ d = DLoad w).
        { rewrite B6 in E1. clear - E1 B7 B8 B9.
          destruct (end_facts _ B7) as (_ & _ & _ & Na). destruct (end_facts _ B8) as (_ & _ & _ & Nb).
          destruct (app_eq_app _ _ _ _ E1) as (m & [[X Y]|[X Y]]).
          - destruct m as [|z m]; cbn in Y; [injection Y as -> ->; rewrite app_nil_r in X; auto|].
            injection Y as <- _. assert (K : nth_error a (length a') = Some (DLoad w)) by (rewrite X, nth_error_app2, Nat.sub_diag; auto).
            apply Na in K. discriminate.
          - destruct m as [|z m]; cbn in Y; [injection Y as -> ->; rewrite app_nil_r in X; auto|].
            injection Y as _ Y. assert (K : nth_error b (length m) = Some (DLoad w)) by (rewrite Y, nth_error_app2, Nat.sub_diag; auto).
            apply Nb in K. discriminate. }
        destruct Q as (-> & -> & ->). destruct B9 as [B9|B9]; [|discriminate]. injection B9 as ->.
        rewrite B1, !Nat.eqb_refl in H. cbn [andb] in H. injection H as <-.
        unfold inv. cbn [gPanic gV gWorkers gCtx gAdding gWorker]. rewrite E3.
        refine (conj P (conj _ (conj _ (conj A _)))).
        -- rewrite B1, running_app. cbn. rewrite (proj1 (end_facts _ B7)), (proj1 (end_facts _ B8)). reflexivity.
        -- congruence.
        -- right. left. unfold phase. cbn [gV gWorkers gCtx gW gSem gWaiters gWorker]. rewrite E3.
           refine (conj B1 (conj B2 (conj B3 (conj B4 (conj B5 _))))). exists a, b, (DStore (gW s)).
           refine (conj eq_refl (conj B7 (conj B8 (or_intror eq_refl)))).
      * destruct Ph as (_ & _ & _ & B & _). rewrite Forall_forall in B. apply nth_error_In in E. destruct (B _ E) as [X|[? X]]; discriminate.
    + (* DStore *)
      destruct Ph as [Ph|[Ph|Ph]].
      * destruct Ph as (_ & B & _). rewrite Forall_forall in B. apply nth_error_In in E. destruct (B _ E) as [X|X]; discriminate.
      * destruct Ph as (B1 & B2 & B3 & B4 & B5 & a & b & d & B6 & B7 & B8 & B9).
        destruct (gset_split _ _ _ _ (DRelease w) E) as (a' & b' & E1 & E2 & E3).
        assert (Q : a' = a /\ b' = b /\ d = DStore w).
        { rewrite B6 in E1. clear - E1 B7 B8 B9.
          destruct (end_facts _ B7) as (_ & _ & _ & Na). destruct (end_facts _ B8) as (_ & _ & _ & Nb).
          destruct (app_eq_app _ _ _ _ E1) as (m & [[X Y]|[X Y]]).
          - destruct m as [|z m]; cbn in Y; [injection Y as -> ->; rewrite app_nil_r in X; auto|].
            injection Y as <- _. assert (K : nth_error a (length a') = Some (DStore w)) by (rewrite X, nth_error_app2, Nat.sub_diag; auto).
            apply Na in K. discriminate.
          - destruct m as [|z m]; cbn in Y; [injection Y as -> ->; rewrite app_nil_r in X; auto|].
            injection Y as _ Y. assert (K : nth_error b (length m) = Some (DStore w)) by (rewrite Y, nth_error_app2, Nat.sub_diag; auto).
            apply Nb in K. discriminate. }
        destruct Q as (-> & -> & ->). destruct B9 as [B9|B9]; [discriminate|]. injection B9 as ->.
        injection H as <-. destruct (end_facts _ B7) as (Ra & Ta & Oa & _). destruct (end_facts _ B8) as (Rb & Tb & Ob & _).
        unfold inv. cbn [gPanic gV gWorkers gCtx gAdding gWorker gWg]. rewrite E3.
        refine (conj P (conj _ (conj _ (conj A _)))).
        -- rewrite running_app. cbn. rewrite Ra, Rb. reflexivity.
        -- congruence.
        -- right. right. unfold phase. cbn [gV gWorkers gCtx gW gSem gWaiters gWorker gWg]. rewrite E3.
           refine (conj eq_refl (conj B2 (conj eq_refl (conj _ _)))).
           ++ apply Forall_app. split; [exact Oa|]. constructor; [right; eauto|exact Ob].
           ++ rewrite toWake_app. cbn. rewrite Ta, Tb, B3, B5. lia.
      * destruct Ph as (_ & _ & _ & B & _). rewrite Forall_forall in B. apply nth_error_In in E. destruct (B _ E) as [X|[? X]]; discriminate.
    + (* DRelease *)
      destruct Ph as [Ph|[Ph|Ph]].
      * destruct Ph as (_ & B & _). rewrite Forall_forall in B. apply nth_error_In in E. destruct (B _ E) as [X|X]; discriminate.
      * destruct Ph as (B1 & B2 & B3 & B4 & B5 & a & b & d & B6 & B7 & B8 & B9). exfalso. apply nth_error_In in E. rewrite B6 in E.
        rewrite Forall_forall in B7, B8. apply in_app_iff in E. destruct E as [E|[E|E]]; [apply B7 in E; discriminate| |apply B8 in E; discriminate].
        destruct B9 as [B9|B9]; congruence.
      * destruct Ph as (B1 & B2 & B3 & B4 & B5).
        destruct n as [|n]; injection H as <-.
        -- destruct (gset_split _ _ _ _ DEnd E) as (a & b & E1 & E2 & E3). rewrite E1 in B4, B5, V.
           apply Forall_app in B4. destruct B4 as [B4a B4b]. inversion B4b as [|? ? _ B4c]; subst x l.
           unfold inv, phase. cbn [gPanic gV gWorkers gCtx gW gSem gWaiters gAdding gWorker]. rewrite E3.
           refine (conj P (conj _ (conj _ (conj A _)))); [|congruence|].
           ++ rewrite V, !running_app. reflexivity.
           ++ right. right. refine (conj B1 (conj B2 (conj B3 (conj _ _)))).
              ** apply Forall_app. split; [exact B4a|]. constructor; [left; reflexivity|exact B4c].
              ** rewrite B5, !toWake_app. reflexivity.
        -- destruct (gset_split _ _ _ _ (DRelease n) E) as (a & b & E1 & E2 & E3). rewrite E1 in B4, B5, V.
           apply Forall_app in B4. destruct B4 as [B4a B4b]. inversion B4b as [|? ? _ B4c]; subst x l.
           unfold inv, phase. cbn [gPanic gV gWorkers gCtx gW gSem gWaiters gAdding gWorker gWg]. rewrite E3.
           refine (conj P (conj _ (conj _ (conj A _)))); [|congruence|].
           ++ rewrite V, !running_app. reflexivity.
           ++ right. right. refine (conj B1 (conj B2 (conj B3 (conj _ _)))).
              ** apply Forall_app. split; [exact B4a|]. constructor; [right; eauto|exact B4c].
              ** rewrite B5, !toWake_app. cbn. lia.
  - (* a new waiter *)
    injection H as <-. refine (conj eq_refl (conj V (conj W0 (conj A _)))). unfold phase. cbn.
    rewrite asleep_app. cbn. rewrite Nat.add_0_r.
    destruct Ph as [(B1 & B2 & B3 & B4 & B5 & B6)|[(B1 & B2 & B3 & B4 & B5)|(B1 & B2 & B3 & B4 & B5)]].
    + left. refine (conj B1 (conj B2 (conj B3 (conj _ (conj _ B6))))); apply notin_add; auto; discriminate.
    + right. left. refine (conj B1 (conj B2 (conj B3 (conj _ B5)))). apply notin_add; auto; discriminate.
    + right. right. refine (conj B1 (conj B2 (conj B3 (conj B4 B5)))).
  - (* a waiter *)
    destruct (nth_error (gWaiters s) i) as [p|] eqn:E; [|discriminate]. destruct p; try discriminate.
    + destruct (gV s) as [|v] eqn:Ev; injection H as <-.
      * destruct (gset_split _ _ _ _ WtRet E) as (a & b & E1 & E2 & E3).
        unfold inv, phase. cbn [gPanic gV gWorkers gCtx gW gSem gWaiters gAdding gWaiterTo]. rewrite E3, Ev.
        refine (conj P (conj V (conj W0 (conj A _)))). rewrite asleep_app. cbn [asleep].
        destruct Ph as [(B1 & _)|[(B1 & B2 & B3 & B4 & B5)|(B1 & B2 & B3 & B4 & B5)]]; [lia| |].
        -- right. left. rewrite E1, asleep_app in B5. cbn [asleep] in B5. refine (conj eq_refl (conj B2 (conj B3 (conj _ B5)))).
           rewrite E1 in B4. eapply notin_mid; [|exact B4]. discriminate.
        -- right. right. rewrite E1, asleep_app in B5. cbn [asleep] in B5. refine (conj eq_refl (conj B2 (conj B3 (conj B4 B5)))).
      * destruct (gset_split _ _ _ _ WtSleep E) as (a & b & E1 & E2 & E3).
        unfold inv, phase. cbn [gPanic gV gWorkers gCtx gW gSem gWaiters gAdding gWaiterTo gWg]. rewrite E3.
        refine (conj P (conj V (conj W0 (conj A _)))).
        destruct Ph as [(B1 & B2 & B3 & B4 & B5 & B6)|[(B1 & _)|(B1 & _)]]; [|congruence|congruence].
        left. rewrite E1 in B4, B5, B6. rewrite asleep_app in *. cbn [asleep] in *.
        refine (conj _ (conj B2 (conj B3 (conj _ (conj _ _))))); [lia| | |lia]; eapply notin_mid; try eassumption; discriminate.
    + destruct (gSem s) as [|n] eqn:Es; [discriminate|]. injection H as <-.
      destruct (gset_split _ _ _ _ WtCheck E) as (a & b & E1 & E2 & E3).
      unfold inv, phase. cbn [gPanic gV gWorkers gCtx gW gSem gWaiters gAdding gWaiterTo gWg]. rewrite E3.
      refine (conj P (conj V (conj W0 (conj A _)))).
      destruct Ph as [(_ & _ & B & _)|[(_ & _ & B & _)|(B1 & B2 & B3 & B4 & B5)]]; [congruence|congruence|].
      right. right. rewrite E1 in B5. rewrite asleep_app in *. cbn [asleep] in *.
      refine (conj B1 (conj B2 (conj B3 (conj B4 _)))). lia.
    + pose proof (nth_error_In _ _ E) as In1.
      destruct Ph as [(_ & _ & _ & B & _)|[(_ & _ & _ & B & _)|(B1 & B2 & B3 & B4 & B5)]]; [contradiction|contradiction|].
      rewrite B1, B3 in H. cbn [Nat.eqb andb] in H. injection H as <-.
      destruct (gset_split _ _ _ _ WtRet E) as (a & b & E1 & E2 & E3).
      unfold inv, phase. cbn [gPanic gV gWorkers gCtx gW gSem gWaiters gAdding gWaiterTo]. rewrite E3.
      refine (conj P (conj V (conj W0 (conj A _)))). right. right. rewrite E1 in B5. rewrite asleep_app in *. cbn [asleep] in *.
      refine (conj B1 (conj B2 (conj B3 (conj B4 B5)))).
Qed.

Lemma inv_reachable : forall s, reachable (fun s => s = wgs0) orderly s -> inv s.
Proof. apply reachable_inv; [intros s ->; exact inv_init|exact inv_step]. Qed.

(** As long as the context does not end between a check and the following [Add],
    nothing panics, for any number of workers and waiters. *)
Theorem C168_no_panic_partial : forall s, reachable (fun s => s = wgs0) orderly s -> gPanic s = None.
Proof. intros s R. exact (proj1 (inv_reachable s R)). Qed.
Print Assumptions C168_no_panic_partial.

(** Then a waiter that has returned did wait: no worker runs. *)
Theorem C168_waited_partial : forall s, reachable (fun s => s = wgs0) orderly s ->
  In WtRet (gWaiters s) -> ~ In DRun (gWorkers s).
Proof.
  intros s R I J. destruct (inv_reachable s R) as (_ & V & _ & _ & Ph). apply In_nth_error in J. destruct J as [i J]. apply running_pos in J.
  destruct Ph as [(_ & _ & _ & _ & B & _)|[(B & _)|(B & _)]]; [contradiction|lia|lia].
Qed.
Print Assumptions C168_waited_partial.

(** And nobody waits for ever: when all workers have ended, every waiter that
    still sleeps has its wake-up call. *)
Theorem C168_woken_partial : forall s, reachable (fun s => s = wgs0) orderly s ->
  (forall d, In d (gWorkers s) -> d = DEnd) -> asleep (gWaiters s) <= gSem s.
Proof.
  intros s R F. destruct (inv_reachable s R) as (_ & V & _ & _ & Ph).
  assert (F' : Forall (eq DEnd) (gWorkers s)) by (apply Forall_forall; intros d H; symmetry; auto).
  destruct (end_facts _ F') as (Rn & T & _ & _).
  destruct Ph as [(B & _)|[(_ & _ & _ & _ & _ & a & b & d & B6 & _ & _ & B9)|(_ & _ & _ & _ & B)]]; [lia| |lia].
  rewrite B6 in F. assert (D : d = DEnd) by (apply F, in_app_iff; right; left; reflexivity). destruct B9 as [B9|B9]; congruence.
Qed.
Print Assumptions C168_woken_partial.

(** Two answers and two waiters, one of them late. *)
Example C168_example : exists s,
  exec wgStep wgs0 [LgWaiter; LgWait 0; LgCheck; LgAdd; LgCheck; LgAdd; LgWork 1; LgWaiter; LgCancel; LgWork 0; LgWait 1; LgWork 2;
                    LgWork 2; LgWork 2; LgWork 2; LgWait 0; LgWork 2; LgWork 2; LgWait 1; LgWait 0; LgWait 1] = Some s /\
  gPanic s = None /\ gWaiters s = [WtRet; WtRet] /\ gWorkers s = [DEnd; DEnd; DEnd].
Proof. eexists. split; [vm_compute; reflexivity|]. repeat split. Qed.
