(** Invariants of the pause protocol. *)
From Coq Require Import NArith List Bool Lia Arith.
From Verif Require Import Base BaseLemmas TS ReaderModel ReaderLoopModel StateModel PauseModel.
Import ListNotations.
Local Open Scope N_scope.

Definition inCS (c : pcall) : bool :=
  match c with PIn _ | PWaitLock _ | PUnl | PIntr _ | PDl _ => true | _ => false end.
Definition pausing (c : pcall) : bool :=
  match c with PWaitLock _ | PIntr _ | PDl _ => true | _ => false end.

Record pinv (s : pst) : Prop := {
  i_lock : forall t, p_lock s = Some (OwnCall t) <-> inCS (p_calls s t) = true;
  i_lockrd : p_lock s = Some OwnReader <-> p_reader s = RPC;
  i_wrd : p_wait s = WReader <-> p_reader s = RPU;
  i_unl : forall t, p_calls s t = PUnl -> p_wait s = WPaused /\ p_state s <> 5;
  i_wl : forall t c, p_calls s t = PWaitLock c -> p_wait s <> WPaused;
  i_psg : forall t, pausing (p_calls s t) = true -> p_state s <> 4;
  i_paused : p_state s = 5 -> p_wait s = WPaused \/ exists t c, p_calls s t = PWaitLock c;
  i_est : p_state s = 4 -> p_wait s = WPaused -> exists t, p_calls s t = PUnl;
  i_state : p_state s = 1 \/ p_state s = 4 \/ p_state s = 5 \/ p_state s = 6;
  i_chan : forall c, p_chan s = Some c -> (c < p_next s)%nat /\ p_closed s c = false;
  i_fresh : forall c, (p_next s <= c)%nat -> p_closed s c = false;
  i_panic : p_panic s = false
}.

Lemma init_pinv : pinv initPause.
Proof. constructor; cbn; intros; try discriminate; auto; split; discriminate. Qed.

Lemma only_cs : forall s t t', pinv s -> inCS (p_calls s t) = true -> inCS (p_calls s t') = true -> t' = t.
Proof. intros s t t' I H H'. apply (i_lock _ I) in H. apply (i_lock _ I) in H'. congruence. Qed.
Lemma no_cs : forall s, pinv s -> p_lock s = None -> forall t, inCS (p_calls s t) = false.
Proof. intros s I H t. destruct (inCS (p_calls s t)) eqn:E; auto. apply (i_lock _ I) in E. congruence. Qed.
Lemma rd_cs : forall s, pinv s -> p_reader s = RPC -> forall t, inCS (p_calls s t) = false.
Proof. intros s I H t. destruct (inCS (p_calls s t)) eqn:E; auto. apply (i_lock _ I) in E. apply (i_lockrd _ I) in H. congruence. Qed.

Ltac pcbn := cbn [p_state p_chan p_next p_closed p_lock p_wait p_reading p_req p_hap p_dl p_ctx p_closer p_bclosed p_reader p_calls p_errors p_panic
  up_state up_chan up_lock up_wait up_reading up_intr up_closer up_reader up_call up_errors up_panic setDeadline closeState inCS pausing fst snd] in *.

(** Steps that leave everything the invariant speaks about alone. *)
Lemma pinv_frame : forall s s', pinv s ->
  p_lock s' = p_lock s -> p_calls s' = p_calls s -> p_wait s' = p_wait s -> p_chan s' = p_chan s -> p_next s' = p_next s ->
  p_closed s' = p_closed s -> p_panic s' = p_panic s ->
  (p_reader s' = RPC <-> p_reader s = RPC) -> (p_reader s' = RPU <-> p_reader s = RPU) ->
  (p_state s' = p_state s \/ p_state s' = 1 \/ p_state s' = 6) -> pinv s'.
Proof.
  intros s s' I E1 E2 E3 E4 E5 E6 E7 R1 R2 S. constructor; rewrite ?E1, ?E2, ?E3, ?E4, ?E5, ?E6, ?E7.
  - exact (i_lock _ I).
  - rewrite R1. exact (i_lockrd _ I).
  - rewrite R2. exact (i_wrd _ I).
  - intros t H. destruct (i_unl _ I t H). split; auto. destruct S as [->|[->| ->]]; auto; discriminate.
  - exact (i_wl _ I).
  - intros t H. pose proof (i_psg _ I t H). destruct S as [->|[->| ->]]; auto; discriminate.
  - intros H. destruct S as [S|[S|S]]; rewrite S in H; try discriminate. exact (i_paused _ I H).
  - intros H. destruct S as [S|[S|S]]; rewrite S in H; try discriminate. exact (i_est _ I H).
  - pose proof (i_state _ I). destruct S as [->|[->| ->]]; auto.
  - exact (i_chan _ I).
  - exact (i_fresh _ I).
  - exact (i_panic _ I).
Qed.

(** A call moves outside the critical section. *)
Lemma pinv_call : forall s t v, pinv s -> inCS (p_calls s t) = false -> inCS v = false -> pinv (up_call s t v).
Proof.
  intros s t v I H1 H2.
  assert (E : forall t' c, inCS c = true -> (fupd (p_calls s) t v t' = c <-> p_calls s t' = c)).
  { intros t' c Hc. unfold fupd. destruct (Nat.eqb_spec t' t); [subst|tauto]. split; intros; subst; congruence. }
  constructor; pcbn.
  - intros t'. rewrite (i_lock _ I). unfold fupd. destruct (Nat.eqb_spec t' t); [subst|tauto]. rewrite H1, H2. tauto.
  - exact (i_lockrd _ I).
  - exact (i_wrd _ I).
  - intros t' K. apply E in K; [|reflexivity]. exact (i_unl _ I t' K).
  - intros t' c K. apply E in K; [|reflexivity]. exact (i_wl _ I t' c K).
  - intros t' K. unfold fupd in K. destruct (Nat.eqb_spec t' t); [|exact (i_psg _ I t' K)]. destruct v; discriminate.
  - intros K. destruct (i_paused _ I K) as [W|(t' & c & K')]; auto. right. exists t', c. apply E; auto.
  - intros K W. destruct (i_est _ I K W) as (t' & K'). exists t'. apply E; auto.
  - exact (i_state _ I).
  - exact (i_chan _ I).
  - exact (i_fresh _ I).
  - exact (i_panic _ I).
Qed.

(** Inside the critical section of call [t] nobody else is in one. *)
Lemma pinv_in_cs : forall s s' t v,
  pinv s -> inCS (p_calls s t) = true ->
  p_calls s' = fupd (p_calls s) t v -> p_lock s' = (if inCS v then Some (OwnCall t) else None) ->
  p_reader s' = p_reader s -> p_panic s' = false ->
  (p_wait s' = WReader <-> p_reader s = RPU) ->
  (v = PUnl -> p_wait s' = WPaused /\ p_state s' <> 5) -> (forall k, v = PWaitLock k -> p_wait s' <> WPaused) ->
  (pausing v = true -> p_state s' <> 4) ->
  (p_state s' = 5 -> p_wait s' = WPaused \/ exists k, v = PWaitLock k) -> (p_state s' = 4 -> p_wait s' = WPaused -> v = PUnl) ->
  (p_state s' = 1 \/ p_state s' = 4 \/ p_state s' = 5 \/ p_state s' = 6) ->
  (forall k, p_chan s' = Some k -> (k < p_next s')%nat /\ p_closed s' k = false) ->
  (forall k, (p_next s' <= k)%nat -> p_closed s' k = false) -> pinv s'.
Proof.
  intros s s' t v I Hin E2 E1 E8 E9 Hr V1 V2 V3 S1 S2 S3 Hch Hfr.
  assert (Ho : forall t', t' <> t -> inCS (p_calls s t') = false).
  { intros t' Hne. destruct (inCS (p_calls s t')) eqn:E; auto. exfalso. apply Hne. eapply only_cs; eauto. }
  constructor; rewrite ?E1, ?E2, ?E8.
  - intros t'. unfold fupd. destruct (Nat.eqb_spec t' t) as [->|Hne]; [destruct (inCS v); split; congruence|].
    rewrite (Ho _ Hne). split; [|discriminate]. destruct (inCS v); congruence.
  - apply (i_lock _ I) in Hin. split; [destruct (inCS v); discriminate|]. intros K. apply (i_lockrd _ I) in K. congruence.
  - exact Hr.
  - intros t' K. unfold fupd in K. destruct (Nat.eqb_spec t' t) as [Heq|Hne]; [apply (V1 K)|].
    specialize (Ho _ Hne). rewrite K in Ho. discriminate.
  - intros t' k K. unfold fupd in K. destruct (Nat.eqb_spec t' t) as [Heq|Hne]; [apply (V2 _ K)|].
    specialize (Ho _ Hne). rewrite K in Ho. discriminate.
  - intros t' K. unfold fupd in K. destruct (Nat.eqb_spec t' t) as [Heq|Hne]; [apply (V3 K)|].
    specialize (Ho _ Hne). destruct (p_calls s t'); discriminate.
  - intros K. destruct (S1 K) as [W|(k & W)]; auto. right. exists t, k. subst v. apply fupd_same.
  - intros K W. exists t. rewrite (S2 K W). apply fupd_same.
  - exact S3.
  - exact Hch.
  - exact Hfr.
  - exact E9.
Qed.

Lemma closing_state : forall x, fst (setState x SessionStateClosing [SessionStateClosed]) = x \/
  fst (setState x SessionStateClosing [SessionStateClosed]) = 1 \/ fst (setState x SessionStateClosing [SessionStateClosed]) = 6.
Proof. intros x. unfold setState. destruct (memN _ _); auto. Qed.

Ltac frame I := apply (pinv_frame _ _ I); pcbn; auto; try tauto; try (split; congruence).

Ltac incs s I Hin :=
  match goal with |- pinv ?x => match x with context[up_call _ ?t0 ?v] => apply (pinv_in_cs s x t0 v I Hin) end end; pcbn; auto.

Lemma pause_step : forall can s l s', pinv s -> pstep can s l = Some s' -> pinv s'.
Proof.
  intros can s l s' I H. unfold pstep, resetDeadline in H. rewrite (i_panic _ I) in H. pose proof (i_state _ I) as St.
  destruct l.
  - destruct (p_calls s t) eqn:Ec; try discriminate. injection H as <-. apply pinv_call; auto. rewrite Ec. reflexivity.
  - (* PLock *) destruct (p_calls s t) eqn:Ec; try discriminate. destruct (p_lock s) eqn:El; [discriminate|]. injection H as <-.
    assert (Hn := no_cs s I El).
    assert (E : forall t' v, inCS v = true -> v <> PIn b -> fupd (p_calls s) t (PIn b) t' <> v).
    { intros t' v Hv Hb. unfold fupd. destruct (Nat.eqb_spec t' t); [congruence|]. intros K. specialize (Hn t'). congruence. }
    constructor; pcbn.
    + intros t'. unfold fupd. destruct (Nat.eqb_spec t' t) as [->|]; [split; auto|]. rewrite (Hn t'). split; [congruence|discriminate].
    + split; [discriminate|]. intros K. apply (i_lockrd _ I) in K. congruence.
    + exact (i_wrd _ I).
    + intros t' K. exfalso. revert K. apply E; [reflexivity|discriminate].
    + intros t' c K. exfalso. revert K. apply E; [reflexivity|discriminate].
    + intros t' K. unfold fupd in K. destruct (Nat.eqb_spec t' t); [discriminate|]. exact (i_psg _ I t' K).
    + intros K. destruct (i_paused _ I K) as [W|(t' & c & K')]; auto. specialize (Hn t'). rewrite K' in Hn. discriminate.
    + intros K W. destruct (i_est _ I K W) as (t' & K'). specialize (Hn t'). rewrite K' in Hn. discriminate.
    + exact St.
    + exact (i_chan _ I).
    + exact (i_fresh _ I).
    + exact (i_panic _ I).
  - (* PSet *) destruct (p_calls s t) as [|?|b| | | | | |] eqn:Ec; try discriminate.
    assert (Hnu : forall t', p_calls s t' <> PUnl).
    { intros t' K. assert (t' = t) by (eapply only_cs; [exact I|rewrite Ec; reflexivity|rewrite K; reflexivity]). congruence. }
    assert (Hnw : forall t' c, p_calls s t' <> PWaitLock c).
    { intros t' c K. assert (t' = t) by (eapply only_cs; [exact I|rewrite Ec; reflexivity|rewrite K; reflexivity]). congruence. }
    assert (W4 : p_state s = 4 -> p_wait s <> WPaused).
    { intros K W. destruct (i_est _ I K W) as (t' & K'). exact (Hnu t' K'). }
    assert (W5 : p_state s = 5 -> p_wait s = WPaused).
    { intros K. destruct (i_paused _ I K) as [W|(t' & c & K')]; auto. exfalso. exact (Hnw t' c K'). }
    pose proof (i_chan _ I) as Ch. pose proof (i_wrd _ I) as Wr. pose proof (i_panic _ I) as Pn.
    destruct b; destruct St as [S|[S|[S|S]]]; rewrite S in H; vm_compute (setState _ _ _) in H; vm_compute (_ =? _) in H; cbv iota in H;
      injection H as <-.
    all: assert (Hin : inCS (p_calls s t) = true) by (rewrite Ec; reflexivity).
    all: pose proof (proj2 (i_lock _ I t) Hin) as Hl.
    all: incs s I Hin; try rewrite S; intros; try discriminate; try congruence; auto 6.
    all: try (right; eexists; reflexivity).
    all: try (match goal with K : Some _ = Some _ |- _ => injection K as <- end; split; [lia|]; apply (i_fresh _ I); lia).
    all: try (apply (i_fresh _ I); lia).
    + exfalso. exact (W4 S H0).
    + split; [auto|discriminate].
  - (* PWLock *) destruct (p_calls s t) eqn:Ec; try discriminate. destruct (p_wait s) eqn:Ew; try discriminate. injection H as <-.
    assert (Hin : inCS (p_calls s t) = true) by (rewrite Ec; reflexivity).
    pose proof (proj2 (i_lock _ I t) Hin) as Hl. pose proof (i_wrd _ I) as Wr. rewrite Ew in Wr.
    assert (N4 : p_state s <> 4) by (apply (i_psg _ I t); rewrite Ec; reflexivity).
    incs s I Hin; intros; try discriminate; try contradiction; auto.
    + exact (i_panic _ I).
    + split; [discriminate|]. intros K. apply Wr in K. discriminate.
    + exact (i_chan _ I k H).
    + exact (i_fresh _ I k H).
  - (* PUnlock *) destruct (p_calls s t) eqn:Ec; try discriminate.
    destruct (i_unl _ I t Ec) as [Ew N5]. rewrite Ew in H. cbn [isFree] in H. injection H as <-.
    assert (Hin : inCS (p_calls s t) = true) by (rewrite Ec; reflexivity).
    pose proof (i_wrd _ I) as Wr. rewrite Ew in Wr.
    incs s I Hin; intros; try discriminate; try contradiction; auto.
    + exact (i_panic _ I).
    + split; [discriminate|]. intros K. apply Wr in K. discriminate.
    + exact (i_chan _ I k H).
    + exact (i_fresh _ I k H).
  - (* PInterrupt *) destruct (p_calls s t) eqn:Ec; try discriminate.
    assert (Hin : inCS (p_calls s t) = true) by (rewrite Ec; reflexivity).
    pose proof (proj2 (i_lock _ I t) Hin) as Hl.
    assert (N4 : p_state s <> 4) by (apply (i_psg _ I t); rewrite Ec; reflexivity).
    assert (W5 : p_state s = 5 -> p_wait s = WPaused).
    { intros K. destruct (i_paused _ I K) as [W|(t' & k & K')]; auto. exfalso.
      assert (t' = t) by (eapply only_cs; [exact I|exact Hin|rewrite K'; reflexivity]). congruence. }
    destruct (p_reading s); injection H as <-; incs s I Hin; intros; try discriminate; try contradiction; auto.
    all: try exact (i_panic _ I). all: try exact (i_wrd _ I). all: try exact (i_chan _ I k H). all: exact (i_fresh _ I k H).
  - (* PDeadline *) destruct (p_calls s t) eqn:Ec; try discriminate.
    assert (Hin : inCS (p_calls s t) = true) by (rewrite Ec; reflexivity).
    assert (N4 : p_state s <> 4) by (apply (i_psg _ I t); rewrite Ec; reflexivity).
    assert (W5 : p_state s = 5 -> p_wait s = WPaused).
    { intros K. destruct (i_paused _ I K) as [W|(t' & k & K')]; auto. exfalso.
      assert (t' = t) by (eapply only_cs; [exact I|exact Hin|rewrite K'; reflexivity]). congruence. }
    injection H as <-. destruct can; incs s I Hin; intros; try discriminate; try contradiction; auto.
    all: try exact (i_panic _ I). all: try exact (i_wrd _ I). all: try exact (i_chan _ I k H). all: exact (i_fresh _ I k H).
  - (* PReturn *) destruct (p_calls s t) eqn:Ec; try discriminate. destruct (p_closed s c); [|discriminate]. injection H as <-.
    apply pinv_call; auto. rewrite Ec. reflexivity.
  - (* RStep *) destruct (p_reader s) eqn:Er; try discriminate.
    + injection H as <-. frame I; rewrite Er; destruct (isDoneState _); split; discriminate.
    + injection H as <-. frame I; rewrite Er; split; discriminate.
    + injection H as <-. frame I; rewrite Er; destruct (_ =? _); split; discriminate.
    + (* RPL *) destruct (p_lock s) eqn:El; [discriminate|]. injection H as <-. pose proof (no_cs s I El) as Hn.
      destruct I; constructor; pcbn; auto.
      * intros t. rewrite (Hn t). split; discriminate.
      * split; auto.
      * rewrite i_wrd0, Er. split; discriminate.
    + (* RPC *) pose proof (rd_cs s I Er) as Hn.
      destruct (p_chan s) as [c|] eqn:Ech.
      * destruct (i_chan _ I c Ech) as [Hc1 Hc2]. rewrite Hc2 in H. injection H as <-.
        destruct I; constructor; pcbn; auto.
        -- intros t. rewrite (Hn t). split; discriminate.
        -- split; discriminate.
        -- rewrite i_wrd0, Er. split; discriminate.
        -- intros; discriminate.
        -- intros k Hk. unfold fupd. destruct (Nat.eqb_spec k c); [lia|auto].
      * injection H as <-. destruct I; constructor; pcbn; auto.
        -- intros t. rewrite (Hn t). split; discriminate.
        -- split; discriminate.
        -- rewrite i_wrd0, Er. split; discriminate.
    + injection H as <-. destruct (_ <=? _), can; frame I; rewrite Er; split; discriminate.
    + (* RPW *) destruct (p_wait s) eqn:Ew; try discriminate. injection H as <-.
      destruct I; constructor; pcbn; auto.
      * rewrite i_lockrd0, Er. split; discriminate.
      * split; auto.
      * intros t K. destruct (i_unl0 t K). congruence.
      * intros; congruence.
      * intros K. destruct (i_paused0 K) as [W|W]; [congruence|auto].
      * intros; congruence.
    + (* RPU *) injection H as <-. assert (Ew : p_wait s = WReader) by (apply (i_wrd _ I); exact Er).
      destruct I; constructor; pcbn; auto.
      * rewrite i_lockrd0, Er. split; discriminate.
      * split; discriminate.
      * intros t K. destruct (i_unl0 t K). congruence.
      * intros; congruence.
      * intros K. destruct (i_paused0 K) as [W|W]; [congruence|auto].
      * intros; congruence.
    + injection H as <-. frame I; rewrite Er; split; discriminate.
    + injection H as <-. frame I; rewrite Er; split; discriminate.
    + injection H as <-. frame I; rewrite Er; split; discriminate.
    + injection H as <-. frame I; rewrite Er; split; discriminate.
    + injection H as <-. destruct (_ <=? _), can; frame I; rewrite Er; split; discriminate.
  - destruct (p_reader s) eqn:Er; try discriminate. destruct (p_bclosed s); [discriminate|]. injection H as <-.
    frame I; rewrite Er; split; discriminate.
  - destruct (p_reader s) eqn:Er; try discriminate. destruct (p_dl s); [|discriminate]. injection H as <-.
    frame I; rewrite Er; split; discriminate.
  - destruct (p_reader s) eqn:Er; try discriminate. injection H as <-. frame I; rewrite Er; split; discriminate.
  - destruct (p_reader s) eqn:Er; try discriminate. destruct (p_bclosed s); [|discriminate]. injection H as <-.
    frame I; rewrite Er; split; discriminate.
  - (* RHandle *) destruct (p_reader s) eqn:Er; try discriminate.
    destruct (isDoneState _); [injection H as <-; frame I; rewrite Er; split; discriminate|].
    cbn zeta in H. destruct (timeout && _), can, handled; cbn [andb] in H; injection H as <-;
      frame I; try apply closing_state; rewrite Er; split; discriminate.
  - injection H as <-. frame I. apply closing_state.
  - injection H as <-. frame I.
  - (* CStep *) destruct (p_closer s) as [|[?|[?|?|]|]] eqn:Ecl; try discriminate.
    + destruct (p_ctx s); [|discriminate]. injection H as <-. frame I. apply closing_state.
    + cbn zeta in H. injection H as <-. destruct can; frame I.
    + destruct (p_reading s); injection H as <-; frame I.
Qed.

Notation reachableP can := (reachable (fun s => s = initPause) (lstep (pstep can))).
Lemma pause_inv : forall can s, reachableP can s -> pinv s.
Proof.
  intros can. apply reachable_inv.
  - intros s ->. exact init_pinv.
  - intros s s' I (l & H). exact (pause_step can s l s' I H).
Qed.
