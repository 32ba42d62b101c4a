(** Properties C109-C110: the end of a session. *)
From Coq Require Import NArith List Bool Arith Lia.
From Verif Require Import Base BaseLemmas TS IntegProofs ClosureModel.
Import ListNotations.
Local Open Scope nat_scope.

(** ** C109.  Full statement: in every run, [cLate = 0]: once [WaitForClosure]
    (or [CloseAndWait]) has returned, the session writes nothing to the backend. *)

(** The application writes a message in two fragments, later closes and waits.
    One fragment was checked before and is written after. *)
Definition lateFragment : list cllabel :=
  [ClAsync 2; ClFrag 0 true; ClFrag 0 true; ClFrag 1 true; ClClose; ClCancel; ClCloser; ClReader; ClReader; ClLoopEnd; ClKxWait;
   ClSenderEnd; ClReturn; ClFrag 1 true].
Theorem C109_fragment_after_close_refuted : exists s,
  exec clStep clInit lateFragment = Some s /\ cReturned s = true /\ cLate s = 1 /\ cErrors s = 0.
Proof. eexists. split; [vm_compute; reflexivity|]. auto. Qed.
Print Assumptions C109_fragment_after_close_refuted.

(** The context given to [Start] ends while a request of the peer is handled. The
    exchanger has already been waited for when the answer is started. *)
Definition lateAnswer : list cllabel :=
  [ClReceive; ClReader; ClParent; ClLoopEnd; ClKxWait; ClReader; ClAnswer 0 true; ClCloser; ClReader; ClReader; ClSenderEnd; ClReturn;
   ClAnswer 0 true].
Theorem C109_answer_after_close_refuted : exists s,
  exec clStep clInit lateAnswer = Some s /\ cReturned s = true /\ cLate s = 1 /\ ~ In ClClose lateAnswer /\
  (forall n, ~ In (ClAsync n) lateAnswer).
Proof.
  eexists. split; [vm_compute; reflexivity|]. split; [reflexivity|]. split; [reflexivity|].
  split; [|intros n]; intros H; repeat (destruct H as [H|H]; [discriminate|]); exact H.
Qed.
Print Assumptions C109_answer_after_close_refuted.

(** If the session ends by [Close], by itself or by an error, not by its context, and
    nothing is being written in fragments, it holds under all schedules. *)
Definition lateInv (s : cl) : Prop :=
  (cReturned s = false -> cLate s = 0) /\ (cReturned s = true -> cDone s = true) /\
  (cCtx s = true -> cDone s = true) /\ (cFlush s = true -> cDone s = true) /\
  (cReader s = RdCleanup \/ cReader s = RdEnd -> cDone s = true) /\
  (cKxCtx s = true -> cDone s = true \/ cLoop s = LwAt WFail \/ In WFail (cAnswers s)) /\
  (cLoop s = LwEnd -> cDone s = true \/ In WFail (cAnswers s)) /\
  (cKxWait s = true -> cDone s = true /\ cLoop s = LwEnd /\ ~ In WWrite (cAnswers s)) /\
  (cReturned s = true -> cKxWait s = true /\ cSender s = SdEnd).

Lemma in_setNthW : forall l i p q, In q (setNthW l i p) -> q = p \/ In q l.
Proof.
  intros l i p q H. unfold setNthW in H. apply in_app_or in H. destruct H as [H|[H|H]]; auto.
  - right. rewrite <- (firstn_skipn i l). apply in_or_app. auto.
  - right. rewrite <- (firstn_skipn (S i) l). apply in_or_app. auto.
Qed.
Lemma in_setNthW_new : forall l i p p0, nth_error l i = Some p0 -> In p (setNthW l i p).
Proof. intros l i p p0 _. unfold setNthW. apply in_or_app. right. left. reflexivity. Qed.
Lemma in_setNthW_other : forall l i p p0 q, nth_error l i = Some p0 -> In q l -> q <> p0 -> In q (setNthW l i p).
Proof.
  intros l i p p0 q E H N. unfold setNthW. rewrite <- (firstn_skipn i l) in H. apply in_app_or in H. apply in_or_app.
  destruct H as [H|H]; [auto|]. right. right.
  assert (X : skipn i l = p0 :: skipn (S i) l).
  { clear - E. revert i E. induction l as [|a l IH]; intros [|i] E; try discriminate.
    - injection E as ->. reflexivity.
    - cbn [nth_error] in E. cbn [skipn]. rewrite (IH i E). destruct l; reflexivity. }
  rewrite X in H. destruct H as [H|H]; [congruence|exact H].
Qed.

Ltac keep I8 I9 := repeat split; auto; try (apply I8; assumption); try (apply I9; assumption); try discriminate; try tauto.

Lemma late_step : forall s l s', clStep s l = Some s' -> l <> ClParent -> lateInv s -> lateInv s'.
Proof.
  intros s l s' E Np (I1 & I2 & I3 & I4 & I5 & I6 & I7 & I8 & I9).
  destruct l; cbn [clStep] in E.
  - destruct (cClosed s); [discriminate|]. injection E as <-. destruct (cDone s) eqn:D; unfold lateInv; cbn; rewrite ?D; keep I8 I9.
  - destruct (cFlush s) eqn:F; [|discriminate]. injection E as <-. unfold lateInv; cbn. specialize (I4 eq_refl). rewrite I4 in *. keep I8 I9.
  - congruence.
  - destruct (cCtx s && negb (cCloser s)); [|discriminate]. injection E as <-. unfold lateInv; cbn. keep I8 I9.
  - destruct (cReader s) eqn:R; try discriminate. destruct (cDone s) eqn:D; [discriminate|]. injection E as <-. unfold lateInv; cbn. rewrite D in *.
    keep I8 I9. intros [H|H]; discriminate.
  - destruct (cReader s) eqn:R; try discriminate.
    + destruct (cDone s) eqn:D; [|discriminate]. injection E as <-. unfold lateInv; cbn. rewrite D. keep I8 I9.
    + injection E as <-. unfold lateInv; cbn. keep I8 I9. destruct (_ || _); intros [H|H]; discriminate.
    + injection E as <-. unfold lateInv; cbn. repeat split; auto.
      * intros [H|H]; discriminate.
      * intros H. destruct (I6 H) as [|[|]]; auto. right. right. apply in_or_app. auto.
      * intros H. destruct (I7 H); auto. right. apply in_or_app. auto.
      * apply (I8 H).
      * apply (I8 H).
      * intros K. apply in_app_or in K. destruct K as [K|[K|[]]]; [|discriminate]. apply (I8 H). exact K.
      * apply (I9 H).
      * apply (I9 H).
    + injection E as <-. unfold lateInv; cbn. rewrite (I5 (or_introl eq_refl)) in *. keep I8 I9.
  - destruct (cReader s) eqn:R; try discriminate. injection E as <-. unfold lateInv; cbn. keep I8 I9.
  - destruct (cLoop s) eqn:L; try discriminate. injection E as <-. unfold lateInv; cbn. repeat split; auto.
    + intros H. destruct (I6 H) as [|[|]]; auto. discriminate.
    + discriminate.
    + apply (I8 H).
    + destruct (I8 H) as (_ & K & _). discriminate.
    + destruct (I8 H) as (_ & K & _). discriminate.
    + apply (I9 H).
    + apply (I9 H).
  - destruct (cLoop s) as [|p|] eqn:L; try discriminate.
    assert (Nw : cKxWait s = false) by (destruct (cKxWait s); [destruct (I8 eq_refl) as (_ & K & _); discriminate|reflexivity]).
    assert (Nr : cReturned s = false) by (destruct (cReturned s); [destruct (I9 eq_refl) as (K & _); congruence|reflexivity]).
    destruct p; cbn [kxSend] in E; try discriminate.
    + destruct (cDone s) eqn:D; injection E as <-; unfold lateInv; cbn; rewrite ?D, Nw, Nr; repeat split; auto; try discriminate.
      intros H. destruct (I6 H) as [|[|]]; auto. congruence.
    + destruct ok; injection E as <-; unfold lateInv; cbn; rewrite Nw, Nr; repeat split; auto; try discriminate.
      intros H. destruct (I6 H) as [|[|]]; auto. congruence.
    + injection E as <-. destruct (cDone s) eqn:D; unfold lateInv; cbn; rewrite ?D, Nw, Nr; repeat split; auto; discriminate.
  - destruct (cLoop s) eqn:L; try discriminate. destruct (cCtx s || cKxCtx s) eqn:C; [|discriminate]. injection E as <-. unfold lateInv; cbn.
    assert (Nw : cKxWait s = false) by (destruct (cKxWait s); [destruct (I8 eq_refl) as (_ & K & _); discriminate|reflexivity]).
    rewrite Nw in *. repeat split; auto; try discriminate.
    + intros H. destruct (I6 H) as [|[|]]; auto. discriminate.
    + intros _. apply orb_true_iff in C. destruct C as [C|C]; [auto|]. destruct (I6 C) as [|[|]]; auto. discriminate.
    + apply (I9 H).
    + apply (I9 H).
  - destruct (nth_error (cAnswers s) i) as [p|] eqn:A; [|discriminate]. assert (Hp := nth_error_In _ _ A).
    assert (O : forall q, p <> WFail -> In WFail (cAnswers s) -> In WFail (setNthW (cAnswers s) i q)).
    { intros q N H. apply (in_setNthW_other _ _ _ p); auto. }
    assert (Nw : forall q, q <> WWrite -> cKxWait s = true -> ~ In WWrite (setNthW (cAnswers s) i q)).
    { intros q N H K. apply in_setNthW in K. destruct K as [K|K]; [congruence|]. apply (I8 H). exact K. }
    destruct p; cbn [kxSend] in E; try discriminate.
    + destruct (cDone s) eqn:D; injection E as <-; unfold lateInv; cbn; rewrite ?D in *; repeat split; auto; try discriminate.
      * apply (I8 H).
      * apply Nw; [discriminate|exact H].
      * apply (I9 H).
      * apply (I9 H).
      * intros H. destruct (I6 H) as [|[|]]; auto. right. right. apply O; [discriminate|exact H0].
      * intros H. destruct (I7 H) as [|]; auto. right. apply O; [discriminate|exact H0].
      * apply (I8 H).
      * apply (I8 H).
      * destruct (I8 H) as [K _]. discriminate.
      * apply (I9 H).
      * apply (I9 H).
    + assert (Nk : cKxWait s = false) by (destruct (cKxWait s); [destruct (I8 eq_refl) as (_ & _ & K); tauto|reflexivity]).
      assert (Nr : cReturned s = false) by (destruct (cReturned s); [destruct (I9 eq_refl) as (K & _); congruence|reflexivity]).
      destruct ok; injection E as <-; unfold lateInv; cbn; rewrite Nk, Nr; repeat split; auto; try discriminate.
      * intros H. destruct (I6 H) as [|[|]]; auto. right. right. apply O; [discriminate|exact H0].
      * intros H. destruct (I7 H) as [|]; auto. right. apply O; [discriminate|exact H0].
      * intros H. right. right. eapply in_setNthW_new; eauto.
      * intros H. right. eapply in_setNthW_new; eauto.
    + injection E as <-. destruct (cDone s) eqn:D; unfold lateInv; cbn; rewrite ?D; repeat split; auto; try (apply (I8 H)); try (apply (I9 H)); apply Nw; discriminate || exact H.
  - destruct (cClosed s); [discriminate|]. injection E as <-. unfold lateInv; cbn. keep I8 I9.
  - destruct (nth_error (cFrags s) i) as [p|]; [|discriminate]. destruct p; cbn [dataSend] in E; try discriminate; injection E as <-; unfold lateInv; cbn.
    + keep I8 I9.
    + destruct (cReturned s) eqn:Q; keep I8 I9.
  - destruct (cSender s) eqn:R; try discriminate. injection E as <-. unfold lateInv; cbn. repeat split; auto; try (apply (I8 H)).
    + apply (I9 H).
    + destruct (I9 H) as [_ K]. discriminate.
  - destruct (cSender s) as [|p|] eqn:R; try discriminate.
    assert (Nr : cReturned s = false) by (destruct (cReturned s); [destruct (I9 eq_refl) as (_ & K); congruence|reflexivity]).
    destruct p; cbn [dataSend] in E; try discriminate; injection E as <-; unfold lateInv; cbn; rewrite Nr; repeat split; auto; try (apply (I8 H)); discriminate.
  - destruct (cSender s) eqn:R; try discriminate. destruct (cCtx s) eqn:C; [|discriminate]. injection E as <-. unfold lateInv; cbn. rewrite C. keep I8 I9.
  - destruct (cLoop s) eqn:L; try discriminate. destruct (forallb isWEnd (cAnswers s) && negb (cKxWait s)) eqn:F; [|discriminate]. injection E as <-.
    apply andb_true_iff in F. destruct F as [F _]. rewrite forallb_forall in F. unfold lateInv; cbn. rewrite L. repeat split; auto.
    + destruct (I7 eq_refl) as [|K]; [auto|]. apply F in K. discriminate.
    + intros K. apply F in K. discriminate.
    + apply (I9 H).
  - destruct (cReader s) eqn:R; try discriminate. destruct (cSender s) eqn:Q; try discriminate.
    destruct (cCloser s && cKxWait s && negb (cReturned s)) eqn:F; [|discriminate]. injection E as <-.
    apply andb_true_iff in F. destruct F as [F _]. apply andb_true_iff in F. destruct F as [_ F].
    unfold lateInv; cbn. rewrite R, Q. destruct (I8 F) as (J1 & J2 & J3). repeat split; auto; discriminate.
Qed.

Lemma late_run : forall ls s, exec clStep clInit ls = Some s -> ~ In ClParent ls -> lateInv s.
Proof.
  apply (exec_snoc_inv _ _ clStep (fun ls s => ~ In ClParent ls -> lateInv s)).
  - intros _. unfold lateInv. cbn. repeat split; auto; try discriminate. intros [H|H]; discriminate.
  - intros ls s l s' _ IH E Np. apply (late_step s l s' E).
    + intros ->. apply Np. apply in_or_app. right. left. reflexivity.
    + apply IH. intros H. apply Np. apply in_or_app. auto.
Qed.

(** Fragments whose goroutine has found the session not done. *)
Definition isPassed (p : wPc) : bool := match p with WWrite => true | _ => false end.
Definition passed (l : list wPc) : nat := length (filter isPassed l).

Lemma passed_set : forall l i p p0, nth_error l i = Some p0 ->
  passed (setNthW l i p) + (if isPassed p0 then 1 else 0) = passed l + (if isPassed p then 1 else 0).
Proof.
  unfold passed, setNthW. induction l as [|a l IH]; intros [|i] p p0 E; try discriminate.
  - injection E as ->. cbn. destruct (isPassed p), (isPassed p0); cbn; lia.
  - cbn [nth_error] in E. specialize (IH i p p0 E). cbn. destruct (isPassed a); cbn in *; lia.
Qed.

(** Once the session is done nothing else is written late. *)
Lemma passed_step : forall s l s', clStep s l = Some s' -> lateInv s -> cDone s = true ->
  cDone s' = true /\ cLate s' + passed (cFrags s') <= cLate s + passed (cFrags s).
Proof.
  intros s l s' E (I1 & I2 & I3 & I4 & I5 & I6 & I7 & I8 & I9) D.
  destruct l; cbn [clStep] in E.
  - destruct (cClosed s); [discriminate|]. injection E as <-. rewrite D. cbn. auto.
  - destruct (cFlush s); [|discriminate]. injection E as <-. cbn. auto.
  - injection E as <-. cbn. auto.
  - destruct (_ && _); [|discriminate]. injection E as <-. cbn. auto.
  - rewrite D in E. destruct (cReader s); discriminate.
  - rewrite D in E. destruct (cReader s); try discriminate; injection E as <-; cbn; auto.
  - destruct (cReader s); try discriminate. injection E as <-. cbn. auto.
  - destruct (cLoop s); try discriminate. injection E as <-. cbn. auto.
  - destruct (cLoop s) as [|p|] eqn:L; try discriminate.
    assert (Nr : cReturned s = false).
    { destruct (cReturned s); [|reflexivity]. destruct (I9 eq_refl) as [K _]. destruct (I8 K) as (_ & K' & _). discriminate. }
    destruct p; cbn [kxSend] in E; try discriminate; rewrite ?D in E; try (destruct ok); injection E as <-; cbn; rewrite ?Nr; auto.
  - destruct (cLoop s); try discriminate. destruct (_ || _); [|discriminate]. injection E as <-. cbn. auto.
  - destruct (nth_error (cAnswers s) i) as [p|] eqn:A; [|discriminate]. assert (Hp := nth_error_In _ _ A).
    destruct p; cbn [kxSend] in E; try discriminate; rewrite ?D in E.
    + injection E as <-. cbn. auto.
    + assert (Nr : cReturned s = false).
      { destruct (cReturned s); [|reflexivity]. destruct (I9 eq_refl) as [K _]. destruct (I8 K) as (_ & _ & K'). contradiction. }
      destruct ok; injection E as <-; cbn; rewrite Nr; auto.
    + injection E as <-. cbn. auto.
  - destruct (cClosed s); [discriminate|]. injection E as <-. cbn. split; [exact D|]. unfold passed. rewrite filter_app, app_length.
    assert (Z : length (filter isPassed (repeat WCheck n)) = 0) by (induction n; auto). lia.
  - destruct (nth_error (cFrags s) i) as [p|] eqn:F; [|discriminate]. pose proof (fun q => passed_set _ _ q _ F) as Q.
    destruct p; cbn [dataSend] in E; try discriminate; rewrite ?D in E; injection E as <-; cbn [cDone cLate cFrags setFrags addWrite isPassed] in *;
      specialize (Q WEnd); cbn [isPassed] in Q; (split; [exact D|]).
    + lia.
    + destruct (cReturned s); lia.
  - destruct (cSender s); try discriminate. injection E as <-. cbn. auto.
  - destruct (cSender s) as [|p|] eqn:Sd; try discriminate.
    assert (Nr : cReturned s = false).
    { destruct (cReturned s); [|reflexivity]. destruct (I9 eq_refl) as [_ K]. discriminate. }
    destruct p; cbn [dataSend] in E; try discriminate; injection E as <-; cbn; rewrite ?Nr; auto.
  - destruct (cSender s); try discriminate. destruct (cCtx s); [|discriminate]. injection E as <-. cbn. auto.
  - destruct (cLoop s); try discriminate. destruct (_ && _); [|discriminate]. injection E as <-. cbn. auto.
  - destruct (cReader s); try discriminate. destruct (cSender s); try discriminate. destruct (_ && _); [|discriminate]. injection E as <-. cbn. auto.
Qed.

(** With fragments: only those are written late that were about to be written at
    the moment the session became done; none that is started or checks the state
    after it. *)
Theorem C109_late_fragments_partial : forall ls1 s1 ls2 s2,
  exec clStep clInit ls1 = Some s1 -> cDone s1 = true -> cReturned s1 = false -> exec clStep s1 ls2 = Some s2 ->
  ~ In ClParent (ls1 ++ ls2) -> cLate s2 <= passed (cFrags s1).
Proof.
  intros ls1 s1 ls2 s2 E1 D R E2 Np.
  assert (I : lateInv s1) by (apply (late_run ls1 s1 E1); intros H; apply Np, in_or_app; auto).
  assert (Z : cLate s1 = 0) by (apply I; exact R).
  enough (H : lateInv s2 /\ cDone s2 = true /\ cLate s2 + passed (cFrags s2) <= passed (cFrags s1)) by lia.
  assert (Np2 : ~ In ClParent ls2) by (intros H; apply Np, in_or_app; auto). clear Np. revert ls2 s2 E2 Np2.
  apply (exec_snoc_inv _ _ clStep (fun ls s => ~ In ClParent ls -> lateInv s /\ cDone s = true /\ cLate s + passed (cFrags s) <= passed (cFrags s1))).
  - intros _. rewrite Z. auto.
  - intros ls s l s' _ IH E Np.
    destruct IH as (J1 & J2 & J3); [intros H; apply Np, in_or_app; auto|].
    destruct (passed_step s l s' E J1 J2) as [K1 K2]. split; [|split; [exact K1|lia]].
    apply (late_step s l s' E); [|exact J1]. intros ->. apply Np, in_or_app. right. left. reflexivity.
Qed.
Print Assumptions C109_late_fragments_partial.

(** Two fragments about to be written, a third about to check, a fourth started
    after: two late writes. *)
Example C109_late_example :
  match exec clStep clInit [ClAsync 3; ClFrag 0 true; ClFrag 1 true; ClReader] with None => True | Some _ => False end /\
  match exec clStep clInit [ClAsync 3; ClFrag 0 true; ClFrag 1 true; ClReceive; ClDetach] with None => True | Some _ => False end /\
  match exec clStep clInit [ClAsync 3; ClFrag 0 true; ClFrag 1 true; ClDetach] with
  | Some s1 => cDone s1 = true /\ cReturned s1 = false /\ passed (cFrags s1) = 2 /\
      match exec clStep s1 [ClAsync 1; ClReader; ClCloser; ClSenderEnd; ClLoopEnd; ClKxWait; ClReturn; ClFrag 0 true; ClFrag 1 true; ClFrag 2 true; ClFrag 3 true] with
      | Some s2 => cReturned s2 = true /\ cLate s2 = 2 /\ cFrags s2 = [WEnd; WEnd; WEnd; WEnd]
      | None => False
      end
  | None => False
  end.
Proof. vm_compute. repeat split. Qed.

Lemma kxSend_keeps : forall s p ok s' p', kxSend s p ok = Some (s', p') -> cFrags s' = cFrags s /\ cReturned s' = cReturned s.
Proof. intros s p ok s' p' E. destruct p; cbn [kxSend] in E; try discriminate; destruct (cDone s), ok; injection E as <- _; auto. Qed.
Lemma dataSend_keeps : forall s p s' p', dataSend s p = Some (s', p') -> cFrags s' = cFrags s /\ cReturned s' = cReturned s.
Proof. intros s p s' p' E. destruct p; cbn [dataSend] in E; try discriminate; injection E as <- _; auto. Qed.

Ltac cases E := repeat match type of E with
  | match ?x with _ => _ end = Some _ => destruct x eqn:?; try discriminate
  end; injection E as <-.
Ltac sends := repeat match goal with
  | H : kxSend _ _ _ = Some _ |- _ => apply kxSend_keeps in H
  | H : dataSend _ _ = Some _ |- _ => apply dataSend_keeps in H
  end.
Ltac ifs := repeat match goal with |- context [if ?x then _ else _] => destruct x end.

Lemma no_frags : forall ls s, exec clStep clInit ls = Some s -> (forall n, ~ In (ClAsync n) ls) -> cFrags s = [].
Proof.
  apply (exec_snoc_inv _ _ clStep (fun ls s => (forall n, ~ In (ClAsync n) ls) -> cFrags s = [])); [reflexivity|].
  intros ls s l s' _ IH E Na.
  assert (F : cFrags s = []) by (apply IH; intros n H; apply (Na n), in_or_app; auto). clear IH.
  destruct l; cbn [clStep] in E.
  all: try (exfalso; apply (Na n), in_or_app; right; left; reflexivity).
  all: try (rewrite F in E; destruct i; discriminate).
  all: cases E; sends; ifs; cbn; intuition congruence.
Qed.

Lemma return_only : forall s l s', clStep s l = Some s' -> cReturned s' = true -> cReturned s = true \/ l = ClReturn.
Proof.
  intros s l s' E R. destruct l; cbn [clStep] in E; auto; left.
  all: cases E; sends; repeat match type of R with context [if ?x then _ else _] => destruct x end; cbn in R; intuition congruence.
Qed.

Theorem C109_no_late_write_partial : forall ls s,
  exec clStep clInit ls = Some s -> ~ In ClParent ls -> (forall n, ~ In (ClAsync n) ls) -> cLate s = 0.
Proof.
  intros ls s E Np Na. revert ls s E Np Na.
  apply (exec_snoc_inv _ _ clStep (fun ls s => ~ In ClParent ls -> (forall n, ~ In (ClAsync n) ls) -> cLate s = 0)); [reflexivity|].
  intros ls s l s' Ex IH E Np Na.
  assert (Np' : ~ In ClParent ls) by (intros H; apply Np, in_or_app; auto).
  assert (Na' : forall n, ~ In (ClAsync n) ls) by (intros n H; apply (Na n), in_or_app; auto).
  specialize (IH Np' Na'). pose proof (late_run _ _ Ex Np') as I.
  destruct (cReturned s) eqn:R.
  - destruct (passed_step s l s' E I) as [_ K]; [destruct I as (_ & J & _); exact (J R)|]. rewrite (no_frags _ _ Ex Na') in K. cbn in K. lia.
  - assert (I' : lateInv s').
    { apply (late_step s l s' E); [|exact I]. intros ->. apply Np, in_or_app. right. left. reflexivity. }
    destruct (cReturned s') eqn:R'; [|apply I'; exact R'].
    destruct (return_only s l s' E R') as [K| ->]; [congruence|]. cbn [clStep] in E. cases E. cbn. exact IH.
Qed.
Print Assumptions C109_no_late_write_partial.

(** An answer started when nobody waits for it any more: it finds the session
    done. *)
Example C109_example :
  match exec clStep clInit [ClReceive; ClReader; ClClose; ClCancel; ClLoopEnd; ClKxWait; ClReader; ClCloser; ClReader; ClReader;
    ClSenderEnd; ClReturn; ClAnswer 0 true; ClAnswer 0 true] with
  | Some s => cReturned s = true /\ cAnswers s = [WEnd] /\ cLate s = 0
  | None => False
  end.
Proof. vm_compute. auto. Qed.

(** ** C110.  Full statement: in every run in which no write fails, [cErrors = 0]:
    closing reports no errors to the application. *)
Definition noFailure (l : cllabel) : Prop := match l with ClLoop ok | ClAnswer _ ok | ClFrag _ ok | ClSender ok => ok = true | _ => True end.

(** A request is answered (or repeated) while the session is being closed. *)
Theorem C110_spurious_error_refuted :
  (exists s ls, exec clStep clInit ls = Some s /\ Forall noFailure ls /\ cClosed s = true /\ cErrors s = 1 /\
     ls = [ClReceive; ClReader; ClReader; ClClose; ClAnswer 0 true; ClAnswer 0 true]) /\
  (exists s ls, exec clStep clInit ls = Some s /\ Forall noFailure ls /\ cClosed s = true /\ cErrors s = 1 /\
     ls = [ClClose; ClTick; ClLoop true; ClLoop true]).
Proof.
  split; eexists; eexists; (split; [|split; [|split; [|split; [|reflexivity]]]]); try (vm_compute; reflexivity); repeat constructor.
Qed.
Print Assumptions C110_spurious_error_refuted.

Lemma done_stays : forall s l s', clStep s l = Some s' -> cDone s = true -> cDone s' = true.
Proof.
  assert (K : forall s p ok s' p', kxSend s p ok = Some (s', p') -> cDone s = true -> cDone s' = true).
  { intros s p ok s' p' E D. destruct p; cbn [kxSend] in E; try discriminate; rewrite ?D in E; try (destruct ok); injection E as <- _; auto. }
  assert (K' : forall s p s' p', dataSend s p = Some (s', p') -> cDone s = true -> cDone s' = true).
  { intros s p s' p' E D. destruct p; cbn [dataSend] in E; try discriminate; injection E as <- _; auto. }
  intros s l s' E D. destruct l; cbn [clStep] in E; rewrite ?D in E; cases E; cbn; eauto.
Qed.

(** As long as no write fails and the session is not done, no error is reported. *)
Definition noFail (s : cl) : Prop :=
  cDone s = false -> cErrors s = 0 /\ cLoop s <> LwAt WFail /\ ~ In WFail (cAnswers s).

Theorem C110_no_failure_partial : forall ls s, exec clStep clInit ls = Some s -> Forall noFailure ls -> cDone s = false -> cErrors s = 0.
Proof.
  intros ls s E F. enough (H : noFail s) by (intros D; apply (H D)). revert ls s E F.
  apply (exec_snoc_inv _ _ clStep (fun ls s => Forall noFailure ls -> noFail s)).
  - intros _ _. cbn. repeat split; auto. discriminate.
  - intros ls s l s' _ IH E F. apply Forall_app in F. destruct F as [F Fl]. apply Forall_inv in Fl. specialize (IH F). clear F.
    unfold noFail in *. intros D'.
    assert (D : cDone s = false).
    { destruct (cDone s) eqn:D; [|reflexivity]. rewrite <- D'. symmetry. exact (done_stays s l s' E D). }
    destruct (IH D) as (I1 & I2 & I3). destruct l; cbn [clStep noFailure] in E, Fl; rewrite ?D in E.
    + cases E; cbn in *; auto.
    + cases E; cbn in *; auto.
    + cases E; cbn in *; auto.
    + cases E; cbn in *; auto.
    + cases E; cbn in *; auto.
    + cases E; cbn in *; auto. repeat split; auto. intros H. apply in_app_or in H. destruct H as [H|[H|[]]]; [auto|discriminate].
    + cases E; cbn in *; auto.
    + cases E; cbn in *; repeat split; auto; discriminate.
    + subst ok. destruct (cLoop s) as [|p|]; try discriminate. destruct p; cbn [kxSend] in E; rewrite ?D in E; try discriminate; try congruence;
        injection E as <-; cbn; repeat split; auto; discriminate.
    + cases E; cbn in *; repeat split; auto; discriminate.
    + subst ok. destruct (nth_error (cAnswers s) i) as [p|] eqn:A; [|discriminate]. assert (Hp := nth_error_In _ _ A).
      destruct p; cbn [kxSend] in E; rewrite ?D in E; try discriminate; try contradiction;
        injection E as <-; cbn; repeat split; auto; intros H; apply in_setNthW in H; destruct H; auto; discriminate.
    + cases E; cbn in *; auto.
    + cases E. destruct w; cbn [dataSend] in *; try discriminate; match goal with H : Some (_, _) = Some (_, _) |- _ => injection H as <- <- end; cbn in *; auto.
    + cases E; cbn in *; auto.
    + cases E. destruct p; cbn [dataSend] in *; try discriminate; match goal with H : Some (_, _) = Some (_, _) |- _ => injection H as <- <- end; cbn in *; auto.
    + cases E; cbn in *; auto.
    + cases E; cbn in *; repeat split; auto; congruence.
    + cases E; cbn in *; auto.
Qed.
Print Assumptions C110_no_failure_partial.

(** Every error reported without a failing write is reported by a goroutine that
    found the session done while sending an exchange message. If there is no such
    message on its way when [Close] is called and no key update begins after, no error is
    reported. *)
Definition quiet (s : cl) : Prop := cLoop s = LwIdle /\ forallb isWEnd (cAnswers s) = true /\ cReader s = RdLoop.
Definition hushed (s : cl) (n : nat) : Prop :=
  cDone s = true /\ (cLoop s = LwIdle \/ cLoop s = LwEnd) /\ forallb isWEnd (cAnswers s) = true /\ cErrors s = n /\
  cReader s <> RdHandle /\ cReader s <> RdAdd.

Lemma hushed_step : forall s l s' n, clStep s l = Some s' -> l <> ClTick -> hushed s n -> hushed s' n.
Proof.
  intros s l s' n E Nt (D & L & A & En & R1 & R2). destruct l; cbn [clStep] in E; try congruence.
  - destruct (cClosed s); [discriminate|]. rewrite D in E. injection E as <-. repeat split; auto.
  - destruct (cFlush s); [|discriminate]. injection E as <-. repeat split; auto.
  - injection E as <-. repeat split; auto.
  - destruct (_ && _); [|discriminate]. injection E as <-. repeat split; auto.
  - rewrite D in E. destruct (cReader s); discriminate.
  - rewrite D in E. destruct (cReader s); try congruence; injection E as <-; repeat split; auto; discriminate.
  - destruct (cReader s); try congruence; injection E as <-; repeat split; auto; discriminate.
  - destruct L as [L|L]; rewrite L in E; discriminate.
  - destruct L as [L|L]; rewrite L in E; [|discriminate]. destruct (_ || _); [|discriminate]. injection E as <-. repeat split; auto.
  - destruct (nth_error (cAnswers s) i) as [p|] eqn:Ea; [|discriminate]. rewrite forallb_forall in A. specialize (A _ (nth_error_In _ _ Ea)).
    destruct p; discriminate.
  - destruct (cClosed s); [discriminate|]. injection E as <-. repeat split; auto.
  - destruct (nth_error (cFrags s) i) as [p|]; [|discriminate]. destruct p; cbn [dataSend] in E; try discriminate; injection E as <-; repeat split; auto.
  - destruct (cSender s); try discriminate. injection E as <-. repeat split; auto.
  - destruct (cSender s) as [|p|]; try discriminate. destruct p; cbn [dataSend] in E; try discriminate; injection E as <-; repeat split; auto.
  - destruct (cSender s); try discriminate. destruct (cCtx s); [|discriminate]. injection E as <-. repeat split; auto.
  - destruct (cLoop s) eqn:El; try discriminate. destruct (_ && _); [|discriminate]. injection E as <-. unfold hushed; cbn. rewrite El. repeat split; auto.
  - destruct (cReader s) eqn:Er; try discriminate. destruct (cSender s); try discriminate. destruct (_ && _); [|discriminate]. injection E as <-.
    unfold hushed; cbn. rewrite Er. repeat split; auto; discriminate.
Qed.

Theorem C110_quiet_close_partial : forall s s1 ls s2,
  quiet s -> cDone s = false -> clStep s ClClose = Some s1 -> ~ In ClTick ls -> exec clStep s1 ls = Some s2 -> cErrors s2 = cErrors s.
Proof.
  intros s s1 ls s2 (Q1 & Q2 & Q3) D E Nt R. cbn [clStep] in E. destruct (cClosed s); [discriminate|]. rewrite D in E. injection E as <-.
  enough (H : hushed s2 (cErrors s)) by (apply H). revert ls s2 R Nt.
  apply (exec_snoc_inv _ _ clStep (fun ls s2 => ~ In ClTick ls -> hushed s2 (cErrors s))).
  - intros _. unfold hushed; cbn. rewrite Q3. repeat split; auto; discriminate.
  - intros ls x l x' _ IH Ex N. apply (hushed_step x l x'); auto.
    + intros ->. apply N. apply in_or_app. right. left. reflexivity.
    + apply IH. intros H. apply N. apply in_or_app. auto.
Qed.
Print Assumptions C110_quiet_close_partial.

Example C110_example :
  match exec clStep clInit [ClTick; ClLoop true; ClLoop true; ClReceive; ClReader; ClReader; ClAnswer 0 true; ClAnswer 0 true; ClAsync 1] with
  | Some s => quiet s /\ cWrites s = 2 /\
      match exec clStep s [ClClose; ClFrag 0 true; ClCancel; ClReader; ClReader; ClCloser; ClLoopEnd; ClKxWait; ClSenderEnd; ClReturn] with
      | Some s => cReturned s = true /\ cErrors s = 0
      | None => False
      end
  | None => False
  end.
Proof. vm_compute. repeat split. Qed.
