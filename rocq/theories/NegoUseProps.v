(** C91, continued: the size two honest peers establish is usable. *)
From Coq Require Import NArith ZArith List Bool Lia.
From Verif Require Import Base TS NegoModel NegoProps.
Import ListNotations.
Local Open Scope N_scope.

(** What honest peers send each other, beyond what [mayDo] demands: an answer has
    the size of a probe (at least 147, line 276), and a control message without
    the end flag is sent when an answer was counted (482), so it reports at least
    the smallest probe. Such messages may be lost, late and out of order. *)
Definition honestLab (l : glab2) : bool :=
  match l with
  | GA (GMsg (MPong size _)) | GB (GMsg (MPong size _)) => 147 <=? size
  | GA (GMsg (MCtl rtt false)) | GB (GMsg (MCtl rtt false)) => 147 <=? rtt
  | _ => true
  end.

Definition honestStep (path limitA limitB maxIter : N) (s : gp) (l : glab2) : option gp :=
  if honestLab l then gstep2 path limitA limitB maxIter s l else None.

(** ** A finished search has heard an echo *)
Lemma fold_max_ge : forall l a, a <= fold_left N.max l a.
Proof. induction l as [|x l IH]; intros a; cbn [fold_left]; [lia|]. specialize (IH (N.max a x)). lia. Qed.

Lemma best_in : forall l x, In x l -> x <= bestOf l.
Proof.
  unfold bestOf. intros l. generalize 0. induction l as [|y l IH]; intros a x H; [destruct H|].
  cbn [fold_left]. destruct H as [->|H]; [|exact (IH _ _ H)]. pose proof (fold_max_ge l (N.max a x)). lia.
Qed.

Lemma loop_rtt_ge : forall fuel path limit maxIter iter mn mx rtt e r,
  pathLoop fuel path limit maxIter iter mn mx rtt = Some (e, r) -> rtt <= r.
Proof.
  induction fuel as [|fuel IH]; intros path limit maxIter iter mn mx rtt e r H; cbn [pathLoop] in H;
    (destruct (probeSizes mn mx) as [ps|]; [|injection H as <- <-; lia]);
    destruct (echoes path ps) as [|z zs] eqn:Ee; try discriminate;
    destruct (afterCollect _ _ _ _ _ _) as [| |mn' mx']; try discriminate; try (injection H as <- <-; lia).
  apply IH in H. lia.
Qed.

Lemma search_rtt : forall path limit maxIter e r, 151 <= limit -> limit < 2^32 ->
  pathSearch path limit maxIter = Some (e, r) -> 147 <= r.
Proof.
  intros path limit maxIter e r H1 H2 H. unfold pathSearch in H.
  assert (E : sub32 limit negoMin = limit - 147).
  { unfold sub32, negoMin. replace (limit + (2 ^ 32 - 147)) with ((limit - 147) + 1 * 2 ^ 32) by lia.
    rewrite N.mod_add by lia. rewrite N.mod_small; lia. }
  destruct (probeSizes negoMin limit) as [ps|] eqn:Ep.
  2:{ unfold probeSizes in Ep. rewrite E in Ep. destruct (N.leb_spec (limit - 147) 3); [lia|discriminate]. }
  pose proof (sizes_bounds negoMin limit ps ltac:(unfold negoMin; lia) H2 Ep) as F.
  assert (B : forall z zs, echoes path ps = z :: zs -> 147 <= bestOf (z :: zs)).
  { intros z zs Ez. assert (I : In z ps) by (apply (proj1 (filter_In (fun s => s <=? path) z ps)); fold (echoes path ps); rewrite Ez; left; reflexivity).
    rewrite Forall_forall in F. specialize (F z I). unfold negoMin in F. pose proof (best_in (z :: zs) z ltac:(left; reflexivity)). lia. }
  destruct (N.to_nat maxIter) as [|fuel]; cbn [pathLoop] in H; rewrite Ep in H;
    destruct (echoes path ps) as [|z zs] eqn:Ee; try discriminate; specialize (B z zs eq_refl);
    destruct (afterCollect _ _ _ _ _ _) as [| |mn' mx']; try discriminate; try (injection H as <- <-; lia).
  apply loop_rtt_ge in H. lia.
Qed.

(** ** The invariant of one side *)
Definition UI (path limit limitO : N) (s : ng) : Prop :=
  g_local s <= path /\ g_local s <= limit /\ g_remote s <= limitO /\
  (g_kx s = 0 -> g_fin s = FNone) /\
  (g_loop s = LStage \/ g_loop s = LDone -> 147 <= g_local s) /\
  (g_end s = true -> 147 <= g_local s) /\
  (g_once s = true -> 147 <= g_remote s) /\
  (g_rd s = RdStage -> g_once s = true) /\
  match g_fin s with
  | FNone => g_once s = true -> g_rd s = RdStage
  | FWait 0 => g_loop s <> LDone /\ (g_once s = true -> g_rd s = RdStage)
  | FWait 1 => (g_loop s = LDone /\ (g_once s = true -> g_rd s = RdStage)) \/
               (g_loop s <> LDone /\ g_once s = true /\ g_rd s <> RdStage)
  | FWait _ => False
  | FFinal => g_loop s = LDone /\ g_once s = true
  | FDone => True
  end /\
  (forall v, g_est s = Some v -> 147 <= v /\ v <= path /\ v <= limit /\ v <= limitO).

Lemma u32_le : forall x, u32 x <= x.
Proof. intros x. unfold u32. apply N.mod_le. lia. Qed.

Lemma UI_step : forall path limit limitO maxIter me other l me', 151 <= limit -> limit < 2^32 ->
  UI path limit limitO me -> UI path limitO limit other ->
  match l with GMsg (MPong size _) => 147 <= size | GMsg (MCtl rtt false) => 147 <= rtt | _ => True end ->
  mayDo path maxIter limit me other l = true -> gstep me l = Some me' -> UI path limit limitO me'.
Proof.
  intros path limit limitO maxIter me other l me' L1 L2 I (O1 & O2 & _ & _ & _ & O5 & _ & _) HL HM H.
  assert (HP : forall size good, l = GMsg (MPong size good) -> size <= path /\ size <= limit).
  { intros size good ->. cbn [mayDo] in HM. apply andb_prop in HM as [HM _]. apply andb_prop in HM as [HM B].
    apply andb_prop in HM as [_ A]. split; apply N.leb_le; assumption. }
  assert (HC : forall rtt fin, l = GMsg (MCtl rtt fin) -> rtt <= limitO /\ 147 <= rtt).
  { intros rtt fin ->. cbn [mayDo] in HM. destruct fin.
    - apply andb_prop in HM as [A B]. apply N.eqb_eq in B. subst rtt. split; [lia|]. apply O5. exact A.
    - apply N.leb_le in HM. split; [lia|exact HL]. }
  assert (HE : forall ctl, l = GLoopEnd ctl -> 147 <= g_local me).
  { intros ctl ->. cbn [mayDo] in HM. destruct (pathSearch path limit maxIter) as [[e r]|] eqn:P; [|discriminate].
    apply andb_prop in HM as [_ B]. apply N.eqb_eq in B. rewrite B. exact (search_rtt _ _ _ _ _ L1 L2 P). }
  assert (HN : match l with GKx false | GLoopFail | GSessClose => False | _ => True end).
  { destruct l as [[|]| | | | | | | | | | | | | | | |]; cbn [mayDo] in HM; auto; discriminate. }
  clear HM HL O1 O2 O5.
  destruct I as (A1 & A2 & A3 & A4 & A5 & A6 & A7 & AS & A8 & A9). unfold UI.
  gcases H; try contradiction; cbn [negb orb andb] in *.
  all: try (destruct (HP _ _ eq_refl) as [P1 P2]; pose proof (u32_le size)).
  all: try (destruct (HC _ _ eq_refl) as [C1 C2]).
  all: try (pose proof (HE _ eq_refl) as E1).
  all: clear HP HC HE HN.
  all: refine (conj _ (conj _ (conj _ (conj _ (conj _ (conj _ (conj _ (conj _ (conj _ _))))))))); try assumption; try lia; try discriminate.
  all: try (intros [X|X]; discriminate X).
  all: try (intros; lia).
  all: try (intros Q; specialize (A5 Q) || specialize (A6 Q) || specialize (A7 Q); lia).
  all: try (intros ->; discriminate).
  all: try (intros v E; apply A9; exact E).
  all: try (intros Q; specialize (A4 Q); discriminate A4).
  all: try (rewrite (A4 eq_refl) in A8; split; [discriminate|exact A8]).
  all: try (intros _; apply A5; auto; fail).
  all: try (intros v E; injection E as <-; destruct A8 as [-> ->]; specialize (A5 (or_intror eq_refl)); specialize (A7 eq_refl); lia).
  all: repeat match goal with
       | H : _ && _ = true |- _ => apply andb_prop in H as [? ?]
       | H : _ && _ = false |- _ => apply andb_false_iff in H
       | H : Nat.eqb _ _ = true |- _ => apply PeanoNat.Nat.eqb_eq in H; subst
       | H : Nat.eqb _ _ = false |- _ => apply PeanoNat.Nat.eqb_neq in H
       | H : negb _ = true |- _ => apply negb_true_iff in H; subst
       | H : negb _ = false |- _ => apply negb_false_iff in H; subst
       end; subst.
  all: try (destruct fi as [|[|[|k]]| |]); try (destruct k as [|[|k]]); cbn [andb] in *; try exact A8; try contradiction.
  all: intuition (auto; try congruence; try discriminate).
Qed.

Lemma UI_init : forall path limit limitO, UI path limit limitO ng0.
Proof.
  intros. unfold UI, ng0. cbn [g_kx g_fin g_loop g_end g_once g_rd g_local g_remote g_est].
  repeat split; intros; try lia; try discriminate. destruct H as [H|H]; discriminate.
Qed.

(** Two honest peers with limits from 151 on, over a path that carries exactly the
    messages of at most [path] bytes, every schedule, any loss, delay and
    reordering of probes, answers and control messages: what a side establishes
    is at least the smallest probe, and no more than the path and both limits
    allow. *)
Theorem C91_usable_partial : forall path limitA limitB maxIter s,
  151 <= limitA -> limitA < 2^32 -> 151 <= limitB -> limitB < 2^32 ->
  reachable gpinit (lstep (honestStep path limitA limitB maxIter)) s ->
  forall v, g_est (gp_a s) = Some v \/ g_est (gp_b s) = Some v ->
  147 <= v /\ v <= path /\ v <= limitA /\ v <= limitB.
Proof.
  intros path limitA limitB maxIter s A1 A2 B1 B2 R.
  assert (I : UI path limitA limitB (gp_a s) /\ UI path limitB limitA (gp_b s)).
  { revert s R. apply reachable_inv.
    - intros s ->. split; apply UI_init.
    - intros s s' [Ia Ib] [l Hl]. unfold honestStep in Hl. destruct (honestLab l) eqn:Eh; [|discriminate].
      destruct l as [l|l]; cbn [gstep2] in Hl;
        (destruct (mayDo _ _ _ _ _ l) eqn:M; [|discriminate]);
        (destruct (gstep _ l) as [n|] eqn:G; [|discriminate]); injection Hl as <-; cbn [gp_a gp_b].
      + split; [|exact Ib]. refine (UI_step path limitA limitB maxIter _ _ l _ A1 A2 Ia Ib _ M G).
        destruct l as [|[? [|]| |]| | | | | | | | | | | | | | |]; auto; apply N.leb_le; exact Eh.
      + split; [exact Ia|]. refine (UI_step path limitB limitA maxIter _ _ l _ B1 B2 Ib Ia _ M G).
        destruct l as [|[? [|]| |]| | | | | | | | | | | | | | |]; auto; apply N.leb_le; exact Eh. }
  destruct I as [(_ & _ & _ & _ & _ & _ & _ & _ & _ & Ea) (_ & _ & _ & _ & _ & _ & _ & _ & _ & Eb)].
  intros v [E|E]; [apply (Ea v E)|destruct (Eb v E) as (? & ? & ? & ?); auto].
Qed.
Print Assumptions C91_usable_partial.

(** A path of 1000 bytes and limits of 1000: the searches end with 1000;
    a control message that was sent early and comes late lowers the size of one
    side, which stays usable. *)
Definition runUse : list glab2 :=
  let side x := [x (GKx true); x (GMsg (MPong 1000 true)); x GPut; x GTake] in
  side GA ++ side GB.
Example C91_use_example : exists s,
  exec (honestStep 1000 1000 1000 4) gp0
    (runUse ++ [GA (GLoopEnd true); GB (GLoopEnd true); GA (GMsg (MCtl 1000 true)); GB (GMsg (MCtl 1000 true));
                GA GStageReader; GA GStageLoop; GB GStageLoop; GB GStageReader;
                GA (GMsg (MCtl 500 false)); GA GFinalize; GB GFinalize]) = Some s /\
  g_est (gp_a s) = Some 500 /\ g_est (gp_b s) = Some 1000.
Proof. eexists. split; [vm_compute; reflexivity|]. split; reflexivity. Qed.
