(** Simulation of calm runs (C115). *)
From Coq Require Import NArith List Bool Lia Arith.
From Verif Require Import Base BaseLemmas TS MessageModel KxModel KxProofs KxRunProofs KxFineModel KxFineSpec KxFineProofs IntegProofs.
Import ListNotations.
Local Open Scope N_scope.

Lemma coarse_snoc : forall ls l, coarse (ls ++ [l]) = coarse ls ++ match l with FStep l => [l] | _ => [] end.
Proof. intros ls l. unfold coarse. rewrite flat_map_app. cbn [flat_map]. rewrite app_nil_r. reflexivity. Qed.

Lemma sameSteps_nil : sameSteps [] [].
Proof. split; reflexivity. Qed.
Lemma sameSteps_snoc : forall a b l, sameSteps a b -> sameSteps (a ++ [l]) (b ++ [l]).
Proof. intros a b l [H1 H2]. split; rewrite !filter_app; congruence. Qed.
(** A step that is not the handling of a message goes before one that is. *)
Lemma sameSteps_late : forall a b l m, isMsg l = false -> isMsg m = true -> sameSteps (a ++ [m]) b -> sameSteps ((a ++ [l]) ++ [m]) (b ++ [l]).
Proof.
  intros a b l m Hl Hm [H1 H2]. split; rewrite !filter_app in *; cbn [filter] in *; rewrite Hl, Hm in *; cbn [negb] in *.
  - rewrite !app_nil_r. exact H1.
  - rewrite app_nil_r in *. congruence.
Qed.

Lemma exec_snoc1 : forall S L (step : S -> L -> option S) s ls x l x',
  exec step s ls = Some x -> step x l = Some x' -> exec step s (ls ++ [l]) = Some x'.
Proof. intros S L step s ls x l x' E E'. rewrite (exec_app _ ls _ _ _ E). cbn [exec]. rewrite E'. reflexivity. Qed.

Lemma calm_snoc : forall step ls s l s1, calmRun step s (ls ++ [l]) -> exec step s ls = Some s1 -> calmRun step s ls /\ calmStep s1 l.
Proof.
  induction ls as [|a ls IH]; intros s l s1 H E; cbn [app calmRun exec] in *.
  - injection E as <-. tauto.
  - destruct H as [H1 H2]. destruct (step s a) as [s2|]; [|discriminate]. destruct (IH _ _ _ H2 E). auto.
Qed.

Lemma fx_eta : forall s, {| fX := fX s; fHandle := fHandle s; fLoop := fLoop s; fAns := fAns s |} = s.
Proof. intros []. reflexivity. Qed.

Section Sim.
  Variable verify : bytes -> bytes -> bytes -> bool.
  Variable dh : bytes -> bytes -> bytes.
  Variables blake3 sha3 : bytes -> bytes.
  Variable c : kxConf.
  Variable remote : option bytes.
  Notation step := (kstep verify dh blake3 sha3 c).
  Notation fstep := (fstep verify dh blake3 sha3 c).
  Notation update := (updateSecrets dh blake3 sha3 c).
  Notation upd := (updStep dh blake3 sha3 c).
  Notation bHandle := (beginHandle verify c).
  Notation consistent := (consistent dh blake3 sha3 c).
  Notation run := (exec step (kxsInit remote)).

  (** Exactly one goroutine other than [Handle] is updating. *)
  Definition updating (s : fxs) (acc : partSecrets) : Prop :=
    fHandle s = None /\
    ((fLoop s = Some acc /\ forall i, fAns s i = None) \/
     (fLoop s = None /\ exists i, fAns s i = Some acc /\ forall j, j <> i -> fAns s j = None)).
  Definition handling (s : fxs) : Prop := fLoop s = None /\ forall i, fAns s i = None.

  Inductive sim (s : fxs) (ls : list flabel) : Prop :=
  | SimPanic : xPanic (fX s) = true -> sim s ls
  | SimSettled : forall ls', settled s -> run ls' = Some (fX s) -> sameSteps ls' (coarse ls) -> sim s ls
  | SimHandle : forall ls' x b m kb acc, handling s -> fHandle s = Some (m, Some acc) ->
      run ls' = Some x -> sameSteps (ls' ++ [KHandle b]) (coarse ls) -> locked x = false ->
      bHandle (xKx x) b = (kb, inr m) -> fX s = setX x kb -> consistent kb acc -> sim s ls
  | SimHandled : forall ls' x b m kb k2, handling s -> fHandle s = Some (m, None) ->
      run ls' = Some x -> sameSteps (ls' ++ [KHandle b]) (coarse ls) -> locked x = false ->
      bHandle (xKx x) b = (kb, inr m) -> update kb = Ret k2 -> fX s = setX x k2 -> sim s ls
  | SimUpdate : forall ls' acc k', updating s acc -> update (xKx (fX s)) = Ret k' ->
      run ls' = Some (setX (fX s) k') -> sameSteps ls' (coarse ls) -> consistent (xKx (fX s)) acc -> sim s ls
  | SimDoomed : forall acc, updating s acc -> update (xKx (fX s)) = Panic -> consistent (xKx (fX s)) acc -> sim s ls.

  Lemma sim_coarse : forall s ls ls', coarse ls = coarse ls' -> sim s ls -> sim s ls'.
  Proof.
    intros s ls ls' E H. destruct H; try rewrite E in *.
    - apply SimPanic; assumption.
    - eapply SimSettled; eauto.
    - eapply SimHandle; eauto.
    - eapply SimHandled; eauto.
    - eapply SimUpdate; eauto.
    - eapply SimDoomed; eauto.
  Qed.

  (** Steps without an update. *)
  Lemma sim_quiet : forall s ls l x', sim s ls -> isUpd l = false -> step (fX s) l = Some x' ->
    (isStop l = true -> fHandle s = None) -> (l = KLoopCheck -> fHandle s = None) ->
    sim (setFx s x') (ls ++ [FStep l]).
  Proof.
    intros s ls l x' H Hl E Hs Hc.
    assert (Hm : isMsg l = false) by (destruct l; try reflexivity; discriminate).
    destruct H as [P|ls' St R Ss|ls' x b m kb acc Hd Eh R Ss Lk Eb Ex Co|ls' x b m kb k2 Hd Eh R Ss Lk Eb Eu Ex|ls' acc k' U Eu R Ss Co|acc U Eu Co].
    - exfalso. unfold kstep in E. rewrite P in E. discriminate.
    - apply (SimSettled _ _ (ls' ++ [l])); [exact St| |].
      + eapply exec_snoc1; eauto.
      + rewrite coarse_snoc. apply sameSteps_snoc. exact Ss.
    - (* handling a message *)
      assert (A := begin_agree verify c _ _ _ _ Eb).
      assert (A' : agree kb (xKx x)) by (unfold agree in *; intuition congruence).
      rewrite Ex in E. destruct (quiet_sim verify dh blake3 sha3 c (setX x kb) l x' (xKx x) Hl E A') as (Q1 & Q2 & Q3 & Q4).
      cbn [setX xKx] in Q1. replace (setX (setX x kb) (xKx x)) with x in Q2 by (destruct x; reflexivity).
      assert (Ns : isStop l = false) by (destruct (isStop l); [rewrite (Hs eq_refl) in Eh; discriminate|reflexivity]).
      assert (Nc : l <> KLoopCheck) by (intros ->; rewrite (Hc eq_refl) in Eh; discriminate).
      destruct (Q3 Ns) as [D1 D2]. cbn [setX xKx] in D1, D2.
      eapply (SimHandle _ _ (ls' ++ [l]) _ b m (xKx x') acc); [exact Hd|exact Eh|eapply exec_snoc1; eauto| | | | |].
      + rewrite coarse_snoc. apply sameSteps_late; auto.
      + specialize (Q4 Lk Nc). unfold locked in *. cbn. exact Q4.
      + cbn [setX xKx]. rewrite Q1 at 2. apply begin_adj; [|exact Eb]. destruct A as (_ & _ & _ & _ & _ & A6 & _). congruence.
      + cbn [fX setFx]. destruct x'. reflexivity.
      + rewrite Q1. apply consistent_adj. exact Co.
    - (* the message has been handled but for the end *)
      assert (A := begin_agree verify c _ _ _ _ Eb). assert (Au := update_agree dh blake3 sha3 c _ _ Eu).
      assert (A' : agree k2 (xKx x)) by (unfold agree in *; intuition congruence).
      rewrite Ex in E. destruct (quiet_sim verify dh blake3 sha3 c (setX x k2) l x' (xKx x) Hl E A') as (Q1 & Q2 & Q3 & Q4).
      cbn [setX xKx] in Q1. replace (setX (setX x k2) (xKx x)) with x in Q2 by (destruct x; reflexivity).
      assert (Ns : isStop l = false) by (destruct (isStop l); [rewrite (Hs eq_refl) in Eh; discriminate|reflexivity]).
      assert (Nc : l <> KLoopCheck) by (intros ->; rewrite (Hc eq_refl) in Eh; discriminate).
      destruct (Q3 Ns) as [D1 D2]. cbn [setX xKx] in D1, D2.
      eapply (SimHandled _ _ (ls' ++ [l]) _ b m (adjTo kb (xKx x')) (xKx x')); [exact Hd|exact Eh|eapply exec_snoc1; eauto| | | | |].
      + rewrite coarse_snoc. apply sameSteps_late; auto.
      + specialize (Q4 Lk Nc). unfold locked in *. cbn. exact Q4.
      + cbn [setX xKx]. apply begin_adj; [|exact Eb]. unfold agree in A, Au. intuition congruence.
      + rewrite update_adj, Eu. f_equal. symmetry. exact Q1.
      + cbn [fX setFx]. destruct x'. reflexivity.
    - (* an own key is being installed *)
      assert (A := update_agree dh blake3 sha3 c _ _ Eu).
      destruct (quiet_sim verify dh blake3 sha3 c (fX s) l x' k' Hl E A) as (Q1 & Q2 & _).
      eapply (SimUpdate _ _ (ls' ++ [l]) acc (adjTo k' (xKx x'))); [exact U| | | |].
      + cbn [fX setFx]. rewrite Q1 at 1. rewrite update_adj, Eu. reflexivity.
      + cbn [fX setFx]. eapply exec_snoc1; eauto.
      + rewrite coarse_snoc. apply sameSteps_snoc. exact Ss.
      + cbn [fX setFx]. rewrite Q1. apply consistent_adj. exact Co.
    - destruct (quiet_sim verify dh blake3 sha3 c (fX s) l x' (xKx (fX s)) Hl E (agree_refl _)) as (Q1 & _).
      apply (SimDoomed _ _ acc); [exact U| |]; cbn [fX setFx]; rewrite Q1.
      + rewrite update_adj, Eu. reflexivity.
      + apply consistent_adj. exact Co.
  Qed.

  (** Steps of an update by the loop or an answer; [s' acc]: with the new state
      of the goroutine. *)
  Lemma sim_update : forall s ls acc l (s' : option partSecrets -> fxs -> fxs),
    sim s ls -> xPanic (fX s) = false -> updating s acc -> coarse (ls ++ [l]) = coarse ls ->
    (forall a t, fX (s' a t) = fX t) -> (forall acc' x, updating (s' (Some acc') (setFx s x)) acc') ->
    (forall x, settled (s' None (setFx s x))) ->
    sim (match upd (xKx (fX s)) acc with
         | Panic => setFx s (crash (fX s))
         | Ret (k, a) => s' a (setFx s (setX (fX s) k))
         end) (ls ++ [l]).
  Proof.
    intros s ls acc l s' H Np U Ec F1 F2 F3. apply (sim_coarse _ ls); [auto|].
    assert (Uu : forall a, updating s a -> a = acc).
    { intros a (_ & Ua). destruct U as (_ & U). destruct Ua as [[Ua Va]|[Ua (i & Va & Wa)]], U as [[U V]|[U (j & V & W)]]; try congruence.
      destruct (Nat.eq_dec i j) as [-> |Ne]; [congruence|]. rewrite (W i Ne) in Va. discriminate. }
    assert (Ns : ~ settled s).
    { intros (_ & S2 & S3). destruct U as (_ & [[U _]|[_ (i & U & _)]]); [congruence|]. rewrite S3 in U. discriminate. }
    assert (Nh : fHandle s = None) by apply U.
    destruct H as [P|ls' St R Ss|ls' x b m kb acc' Hd Eh R Ss Lk Eb Ex Co|ls' x b m kb k2 Hd Eh R Ss Lk Eb Eu Ex|ls' acc' k' U' Eu R Ss Co|acc' U' Eu Co]; try congruence; try contradiction.
    - apply Uu in U'. subst acc'. assert (D := upd_sound dh blake3 sha3 c _ _ Co). destruct (upd (xKx (fX s)) acc) as [[k [acc'|]]|].
      + destruct D as [-> D]. rewrite setX_same. apply (SimUpdate _ _ ls' acc' k'); rewrite ?F1; auto.
      + apply (SimSettled _ _ ls'); rewrite ?F1; auto. cbn [fX setFx]. rewrite R. congruence.
      + congruence.
    - apply Uu in U'. subst acc'. assert (D := upd_sound dh blake3 sha3 c _ _ Co). destruct (upd (xKx (fX s)) acc) as [[k [acc'|]]|].
      + destruct D as [-> D]. rewrite setX_same. apply (SimDoomed _ _ acc'); rewrite ?F1; auto.
      + congruence.
      + apply SimPanic. reflexivity.
  Qed.

  Lemma settled_sim : forall s ls, sim s ls -> settled s -> xPanic (fX s) = false ->
    exists ls', run ls' = Some (fX s) /\ sameSteps ls' (coarse ls).
  Proof.
    intros s ls H (S1 & S2 & S3) Np.
    destruct H as [P|ls' St R Ss|ls' x b m kb acc' Hd Eh R Ss Lk Eb Ex Co|ls' x b m kb k2 Hd Eh R Ss Lk Eb Eu Ex|ls' acc' k' U' Eu R Ss Co|acc' U' Eu Co]; try congruence; [eauto| |];
      exfalso; destruct U' as (_ & [[U _]|[_ (i & U & _)]]); [congruence| |congruence|]; rewrite S3 in U; discriminate.
  Qed.

  Lemma sim_step : forall s ls l s', sim s ls -> fstep s l = Some s' -> calmStep s l -> sim s' (ls ++ [l]).
  Proof.
    intros s ls l s' H E [Cs Cp]. unfold KxFineModel.fstep in E. destruct (xPanic (fX s)) eqn:Np; [discriminate|].
    assert (Qu : forall k, isUpd k = false -> (isStop k = true -> fHandle s = None) -> (k = KLoopCheck -> fHandle s = None) ->
      l = FStep k -> quiet verify dh blake3 sha3 c s k = Some s' -> sim s' (ls ++ [l])).
    { intros k Hk H1 H2 -> Eq. unfold quiet in Eq. destruct (step (fX s) k) as [x'|] eqn:Ek; [|discriminate]. injection Eq as <-.
      apply sim_quiet; auto. }
    assert (In : forall x k1 priv pub now mk, settled s -> l = FStep mk -> isMsg mk = false ->
      k1 = beginInstall (xKx (fX s)) priv pub now -> fX s' = setX x k1 ->
      (forall k', update k1 = Ret k' -> step (fX s) mk = Some (setX x k')) -> updating s' [] -> sim s' (ls ++ [l])).
    { intros x k1 priv pub now mk St -> Hm Ek Ex Hstep U.
      destruct (settled_sim _ _ H St Np) as (ls' & R & Ss). destruct (update k1) as [k'|] eqn:Eu.
      - apply (SimUpdate _ _ (ls' ++ [mk]) [] k'); [exact U| | | |].
        + rewrite Ex. exact Eu.
        + rewrite Ex. eapply exec_snoc1; [exact R|]. rewrite (Hstep k' eq_refl). reflexivity.
        + rewrite coarse_snoc. apply sameSteps_snoc. exact Ss.
        + apply consistent_nil.
      - apply (SimDoomed _ _ []); [exact U|rewrite Ex; exact Eu|apply consistent_nil]. }
    destruct l as [k| | | |i].
    - destruct k.
      + (* a message *)
        assert (St := Cs I). destruct (flocked s) eqn:Lk; [discriminate|]. unfold flocked in Lk. apply orb_false_iff in Lk. destruct Lk as [Lk _].
        apply orb_false_iff in Lk. destruct Lk as [Lk _].
        destruct (bHandle (xKx (fX s)) b) as [k [h|m]] eqn:Eb; injection E as <-; destruct (settled_sim _ _ H St Np) as (ls' & R & Ss).
        * apply (SimSettled _ _ (ls' ++ [KHandle b])); [exact St| |rewrite coarse_snoc; apply sameSteps_snoc; exact Ss].
          cbn [fX setFx]. eapply exec_snoc1; [exact R|]. unfold kstep. rewrite Np, Lk, handle_split, Eb.
          destruct h as [| |[]]; try reflexivity. exfalso.
          unfold beginHandle in Eb. destruct (parseAndCheck verify c (xKx (fX s)) b) as [s0 [e|m]]; [discriminate|].
          destruct (kCtxDone s0); [discriminate|]. destruct (match kRemoteIdentity s0 with Some _ => _ | None => _ end); discriminate.
        * apply (SimHandle _ _ ls' (fX s) b m k []); [|reflexivity|exact R| |exact Lk|exact Eb|reflexivity|apply consistent_nil].
          -- destruct St as (_ & S2 & S3). split; auto.
          -- rewrite coarse_snoc. apply sameSteps_snoc. exact Ss.
      + destruct (isNone (fLoop s)); [|discriminate]. apply (Qu (KLoopGo now)); [reflexivity|discriminate|discriminate|reflexivity|exact E].
      + destruct (isNone (fHandle s)) eqn:Eh; [|discriminate]. destruct (isNone (fLoop s)); [|discriminate].
        apply (Qu KLoopCheck); [reflexivity|discriminate|intros _; destruct (fHandle s); [discriminate|reflexivity]|reflexivity|exact E].
      + assert (St := Cs I). destruct (xLoop (fX s)) eqn:El; try discriminate. destruct (fLoop s) eqn:Ef; [discriminate|]. injection E as <-.
        set (k1 := beginInstall (xKx (fX s)) priv pub now).
        apply (In (setLoop (addLog (fX s) (kNextAt k1)) (if kNextAt k1 =? 0 then LpIdle else LpSend (kNextAt k1))) k1 priv pub now (KLoopGen priv pub now)); auto.
        * intros k' Eu. unfold kstep. rewrite Np, El. unfold installLocalKey. fold (beginInstall (xKx (fX s)) priv pub now). fold k1. rewrite Eu.
          apply update_keys in Eu. rewrite Eu. reflexivity.
        * split; [apply St|]. left. split; [reflexivity|apply St].
      + destruct (isNone (fLoop s)); [|discriminate]. apply (Qu KLoopSend); [reflexivity|discriminate|discriminate|reflexivity|exact E].
      + destruct (isNone (fLoop s)); [|discriminate]. apply (Qu KLoopRetry); [reflexivity|discriminate|discriminate|reflexivity|exact E].
      + destruct (isNone (fLoop s)); [|discriminate]. apply (Qu KLoopNotified); [reflexivity|discriminate|discriminate|reflexivity|exact E].
      + destruct (isNone (fLoop s)); [|discriminate]. apply (Qu KLoopTimeout); [reflexivity|intros _; exact (Cp I)|discriminate|reflexivity|exact E].
      + destruct (isNone (fAns s i)); [|discriminate]. apply (Qu (KAnswer i now)); [reflexivity|discriminate|discriminate|reflexivity|exact E].
      + assert (St := Cs I). destruct (nth_error (xAnswers (fX s)) i) as [[]|] eqn:En; try discriminate. destruct (fAns s i) eqn:Ef; [discriminate|]. injection E as <-.
        set (k1 := beginInstall (xKx (fX s)) priv pub now).
        apply (In (setAnswer (addLog (fX s) (kNextAt k1)) i ApSkip) k1 priv pub now (KAnswerGen i priv pub now)); auto.
        * intros k' Eu. unfold kstep. rewrite Np, En. unfold installLocalKey. fold (beginInstall (xKx (fX s)) priv pub now). fold k1. rewrite Eu.
          apply update_keys in Eu. rewrite Eu. reflexivity.
        * destruct St as (S1 & S2 & S3). split; [exact S1|]. right. split; [exact S2|]. exists i. cbn [setFAns fAns setFx]. rewrite fupd_same. split; [reflexivity|].
          intros j Hj. rewrite fupd_other by exact Hj. apply S3.
      + apply (Qu KCancel); [reflexivity|intros _; exact (Cp I)|discriminate|reflexivity|exact E].
    - (* [updateSecrets] of [Handle] *)
      destruct (fHandle s) as [[m [acc|]]|] eqn:Eh; try discriminate. apply (sim_coarse _ ls); [rewrite coarse_snoc, app_nil_r; reflexivity|].
      destruct H as [P|ls' St R Ss|ls' x b m' kb acc' Hd Eh' R Ss Lk Eb Ex Co|ls' x b m' kb k2 Hd Eh' R Ss Lk Eb Eu Ex|ls' acc' k' U' Eu R Ss Co|acc' U' Eu Co];
        try congruence; try (destruct St as [St _]; congruence); try (destruct U' as [U' _]; congruence).
      assert (acc' = acc) by congruence. subst acc'. assert (m' = m) by congruence. subst m'.
      assert (D := upd_sound dh blake3 sha3 c _ _ Co). rewrite Ex in E. cbn [setX xKx] in E. destruct (upd kb acc) as [[k [acc'|]]|]; injection E as <-.
      + destruct D as [-> D]. eapply (SimHandle _ _ ls' x b m kb acc'); eauto.
      + eapply (SimHandled _ _ ls' x b m kb k); eauto.
      + apply SimPanic. reflexivity.
    - (* the end of [Handle] *)
      destruct (fHandle s) as [[m [acc|]]|] eqn:Eh; try discriminate. apply (sim_coarse _ ls); [rewrite coarse_snoc, app_nil_r; reflexivity|].
      destruct H as [P|ls' St R Ss|ls' x b m' kb acc' Hd Eh' R Ss Lk Eb Ex Co|ls' x b m' kb k2 Hd Eh' R Ss Lk Eb Eu Ex|ls' acc' k' U' Eu R Ss Co|acc' U' Eu Co];
        try congruence; try (destruct St as [St _]; congruence); try (destruct U' as [U' _]; congruence).
      assert (m' = m) by congruence. subst m'. rewrite Ex in E. cbn [setX xKx] in E.
      apply (SimSettled _ _ (ls' ++ [KHandle b])).
      + destruct Hd as [H1 H2]. destruct (endHandle c k2 m). injection E as <-. split; [reflexivity|]. split; [exact H1|exact H2].
      + eapply exec_snoc1; [exact R|]. unfold kstep. assert (Npx : xPanic x = false) by (rewrite Ex in Np; exact Np).
        rewrite Npx, Lk, handle_split, Eb, Eu. destruct (endHandle c k2 m) as [k h] eqn:Ee. injection E as <-. cbn [fX setFHandle setFx].
        destruct h as [| |[]]; destruct x; reflexivity.
      + exact Ss.
    - destruct (fLoop s) as [acc|] eqn:Ef; [|discriminate].
      assert (U : updating s acc).
      { destruct H as [P|ls' St R Ss|ls' x b m' kb acc' Hd Eh' R Ss Lk Eb Ex Co|ls' x b m' kb k2 Hd Eh' R Ss Lk Eb Eu Ex|ls' acc' k' U' Eu R Ss Co|acc' U' Eu Co];
          try congruence; try (destruct St as (_ & St & _); congruence); try (destruct Hd as [Hd _]; congruence);
          (destruct U' as (U1 & [[U2 U3]|[U2 _]]); [|congruence]; split; [exact U1|]; left; split; [exact Ef|exact U3]). }
      assert (G := sim_update s ls acc FLoopUpd (fun a t => setFLoop t a) H Np U).
      destruct (upd (xKx (fX s)) acc) as [[k a]|]; injection E as <-; apply G; auto; try (rewrite coarse_snoc, app_nil_r; reflexivity);
        destruct U as (U1 & [[U2 U3]|[U2 _]]); try congruence.
      + intros acc' x. split; [exact U1|]. left. auto.
      + intros x. split; [exact U1|]. auto.
      + intros acc' x. split; [exact U1|]. left. auto.
      + intros x. split; [exact U1|]. auto.
    - destruct (fAns s i) as [acc|] eqn:Ef; [|discriminate].
      assert (U : updating s acc /\ fLoop s = None /\ forall j, j <> i -> fAns s j = None).
      { destruct H as [P|ls' St R Ss|ls' x b m' kb acc' Hd Eh' R Ss Lk Eb Ex Co|ls' x b m' kb k2 Hd Eh' R Ss Lk Eb Eu Ex|ls' acc' k' U' Eu R Ss Co|acc' U' Eu Co];
          try congruence; try (destruct St as (_ & _ & St); rewrite St in Ef; congruence); try (destruct Hd as [_ Hd]; rewrite Hd in Ef; congruence);
          (destruct U' as (U1 & [[_ U3]|[U2 (j & U3 & U4)]]); [rewrite U3 in Ef; discriminate|];
           destruct (Nat.eq_dec i j) as [<- |Ne]; [|rewrite (U4 i Ne) in Ef; discriminate];
           split; [split; [exact U1|]; right; split; [exact U2|]; exists i; auto|auto]). }
      destruct U as (U & U2 & U3). assert (U1 : fHandle s = None) by apply U.
      assert (G := sim_update s ls acc (FAnswerUpd i) (fun a t => setFAns t i a) H Np U).
      assert (G1 : forall acc' x, updating (setFAns (setFx s x) i (Some acc')) acc').
      { intros acc' x. split; [exact U1|]. right. split; [exact U2|]. exists i. cbn [setFAns fAns setFx]. rewrite fupd_same. split; [reflexivity|].
        intros j Hj. rewrite fupd_other by exact Hj. auto. }
      assert (G2 : forall x, settled (setFAns (setFx s x) i None)).
      { intros x. split; [exact U1|]. split; [exact U2|]. intros j. cbn [setFAns fAns setFx]. destruct (Nat.eq_dec j i) as [-> |Hj]; [apply fupd_same|]. rewrite fupd_other by exact Hj. auto. }
      destruct (upd (xKx (fX s)) acc) as [[k a]|]; injection E as <-; apply G; auto; rewrite coarse_snoc, app_nil_r; reflexivity.
  Qed.

  Lemma sim_run : forall ls s, exec fstep (fxsInit remote) ls = Some s -> calmRun fstep (fxsInit remote) ls -> sim s ls.
  Proof.
    apply (exec_snoc_inv _ _ fstep (fun ls s => calmRun fstep (fxsInit remote) ls -> sim s ls)).
    - intros _. apply (SimSettled _ _ []); [split; [reflexivity|]; split; [reflexivity|]; intros i; reflexivity|reflexivity|apply sameSteps_nil].
    - intros ls s l s' E IH E' Cr. destruct (calm_snoc _ _ _ _ _ Cr E) as [C1 C2]. eapply sim_step; eauto.
  Qed.
End Sim.
