(** Invariant of the read queue. *)
From Coq Require Import NArith List Bool Lia Arith.
From Verif Require Import Base BaseLemmas TS QueueModel.
Import ListNotations.
Local Open Scope N_scope.

Definition readItemOf (r : reading) : option nat :=
  match r with RGot _ i | RCopied _ _ i => Some i | _ => None end.
Definition readerItem (p : readerPhase) : list nat := match p with RpSending i => [i] | _ => [] end.
Definition inFlight (q : queue) : list nat := qChan q ++ readerItem (qReader q).
Definition dataOf (items : nat -> ritem) (l : list nat) : list bytes := map (fun i => iData (items i)) l.

(** What a Read call that received message [m] may look like. *)
Definition readHas (items : nat -> ritem) (r : reading) (m : bytes) : Prop :=
  match r with
  | RGot _ i => iData (items i) = m
  | RCopied size d _ => d = m /\ len m <= size
  | RRet size (ReadOk d) => d = m /\ len m <= size
  | RRet size ReadTooBig => size < len m
  | _ => False
  end.
Definition hasReceived (r : reading) : bool :=
  match r with RNone | RWait _ | RRet _ ReadClosed => false | _ => true end.

Record qinv (capacity : nat) (q : queue) : Prop := {
  v_nodup : NoDup (qPool q ++ inFlight q);
  v_reads : forall t i, readItemOf (qReads q t) = Some i ->
              ~ In i (qPool q ++ inFlight q) /\ (i < qNext q)%nat /\ iBusy (qItems q i) = true /\
              (forall t', readItemOf (qReads q t') = Some i -> t' = t);
  v_pool : forall i, In i (qPool q) -> (i < qNext q)%nat /\ iBusy (qItems q i) = false;
  v_fly : forall i, In i (inFlight q) -> (i < qNext q)%nat /\ iBusy (qItems q i) = true;
  v_one : forall i, iOneTime (qItems q i) = false;
  v_order : exists old, qArrivals q = old ++ dataOf (qItems q) (inFlight q) /\ length old = length (qReceived q) /\
              forall k t m, nth_error (qReceived q) k = Some t -> nth_error old k = Some m ->
                readHas (qItems q) (qReads q t) m;
  v_rnodup : NoDup (qReceived q);
  v_recv : forall t, In t (qReceived q) <-> hasReceived (qReads q t) = true;
  v_closed : qClosed q = true <-> qReader q = RpDone;
  v_end : forall t size, qReads q t = RRet size ReadClosed -> qClosed q = true /\ qChan q = [];
  v_cap : (length (qChan q) <= capacity)%nat;
  v_panic : qPanic q = false
}.

Lemma init_inv : forall c, qinv c initQueue.
Proof.
  intros c. constructor; cbn.
  - constructor.
  - discriminate.
  - tauto.
  - tauto.
  - reflexivity.
  - exists []. cbn. repeat split; auto. intros [|k] t m H; discriminate.
  - constructor.
  - intros t. split; [tauto|discriminate].
  - split; discriminate.
  - discriminate.
  - lia.
  - reflexivity.
Qed.

Lemma in_remove : forall i j l, In j (removeItem i l) <-> In j l /\ j <> i.
Proof.
  intros i j l. unfold removeItem. rewrite filter_In. rewrite negb_true_iff, Nat.eqb_neq. tauto.
Qed.

Lemma nodup_remove : forall i a b, NoDup (a ++ b) -> NoDup (removeItem i a ++ b).
Proof.
  intros i a b. induction a as [|x a IH]; cbn; intros H; auto. inversion H; subst.
  destruct (Nat.eqb x i); cbn; auto. constructor; auto.
  rewrite in_app_iff in *. fold (removeItem i a). rewrite in_remove. tauto.
Qed.

Lemma nodup_move : forall (i : nat) a b c, NoDup ((i :: a) ++ b ++ c) -> NoDup (a ++ b ++ i :: c).
Proof.
  intros i a b c H. rewrite app_assoc. apply (NoDup_Add (a := i) (l := (a ++ b) ++ c)).
  - apply Add_app.
  - cbn in H. inversion H; subst. rewrite <- app_assoc. auto.
Qed.

Lemma dataOf_upd : forall items i it l, ~ In i l -> dataOf (fupd items i it) l = dataOf items l.
Proof.
  intros items i it l H. unfold dataOf. apply map_ext_in. intros j Hj.
  rewrite fupd_other; auto. intros ->. contradiction.
Qed.

Lemma readHas_upd : forall items i it r m, readItemOf r <> Some i -> readHas items r m -> readHas (fupd items i it) r m.
Proof.
  intros items i it r m H R. destruct r; cbn [readHas readItemOf] in *; auto.
  rewrite fupd_other; [auto|congruence].
Qed.

Section Inv.
  Variable packetSizeLimit : N.
  Variable capacity : nat.
  Notation step1 := (qstep packetSizeLimit capacity).

  Lemma fill_spec : forall it payload, iBusy it = false ->
    exists c, acquireAndFill packetSizeLimit it payload =
      Some {| iBusy := true; iOneTime := iOneTime it; iCap := c; iData := payload |}.
  Proof.
    intros it payload H. unfold acquireAndFill. rewrite H.
    set (mx := if packetSizeLimit <? len payload then len payload else packetSizeLimit).
    set (c := if iCap it <? mx then mx else iCap it).
    assert (Hc : len payload <= c).
    { unfold c, mx. destruct (N.ltb_spec packetSizeLimit (len payload));
      destruct (N.ltb_spec (iCap it) (len payload)) as [?|?];
      try destruct (N.ltb_spec (iCap it) packetSizeLimit); lia. }
    assert (E : (c <? len payload) = false) by (apply N.ltb_ge; exact Hc). rewrite E. eauto.
  Qed.

  Lemma step_inv : forall q l q', qinv capacity q -> step1 q l = Some q' -> qinv capacity q'.
  Proof.
    intros q l q' I H. unfold qstep in H. rewrite (v_panic _ _ I) in H. destruct l as [payload reuse| | |t size|t|t|t|i].
    - (* QArrive *)
      destruct (qReader q) eqn:Er; try discriminate.
      assert (Hcl : qClosed q = false).
      { destruct (qClosed q) eqn:E; auto. apply (v_closed _ _ I) in E. congruence. }
      assert (Hfl : inFlight q = qChan q) by (unfold inFlight; rewrite Er; apply app_nil_r).
      assert (G : forall i it pool next, iBusy it = true -> iOneTime it = false -> iData it = payload ->
         ~ In i (inFlight q) -> (forall t, readItemOf (qReads q t) <> Some i) ->
         (forall j, In j pool -> In j (qPool q) /\ j <> i) -> NoDup (pool ++ qChan q) -> ~ In i pool ->
         (i < next)%nat -> (qNext q <= next)%nat ->
         qinv capacity {| qItems := fupd (qItems q) i it; qNext := next; qPool := pool;
                          qChan := qChan q; qClosed := qClosed q; qReader := RpSending i; qReads := qReads q;
                          qArrivals := qArrivals q ++ [payload]; qReceived := qReceived q; qPanic := false |}).
      { intros i it pool next Hb Ho Hd Hni Hnr Hp Hnd Hnp Hlt Hle.
        assert (Hne : forall j, In j (inFlight q) -> j <> i) by (intros j Hj ->; contradiction).
        constructor; unfold inFlight; cbn [qItems qNext qPool qChan qClosed qReader qReads qArrivals qReceived qPanic readerItem].
        - rewrite <- (app_nil_r (qChan q)) in Hnd. apply (nodup_move i pool (qChan q) []). cbn. constructor; auto.
          rewrite app_nil_r, in_app_iff. rewrite Hfl in Hni. tauto.
        - intros t j Hj. destruct (v_reads _ _ I t j Hj) as (A & B & C & D).
          assert (j <> i) by (intros ->; apply (Hnr t); auto).
          repeat split; auto.
          + rewrite !in_app_iff in *. cbn. rewrite Hfl in A. intros [K|[K|[K|[]]]]; try congruence.
            * apply A. left. apply Hp. auto.
            * apply A. auto.
          + lia.
          + rewrite fupd_other; auto.
        - intros j Hj. destruct (Hp j Hj) as [Hj1 Hj2]. destruct (v_pool _ _ I j Hj1). split; [lia|]. rewrite fupd_other; auto.
        - intros j Hj. apply in_app_iff in Hj. destruct Hj as [Hj|[<-|[]]].
          + rewrite <- Hfl in Hj. destruct (v_fly _ _ I j Hj). rewrite fupd_other by auto. split; [lia|auto].
          + rewrite fupd_same. auto.
        - intros j. unfold fupd. destruct (Nat.eqb j i); auto. apply (v_one _ _ I).
        - destruct (v_order _ _ I) as (old & E & L & R). exists old. split; [|split; auto].
          + rewrite Hfl in E. rewrite E, <- app_assoc. f_equal. unfold dataOf at 2. rewrite map_app. cbn [map].
            rewrite fupd_same, Hd. f_equal. symmetry. apply dataOf_upd. rewrite Hfl in Hni. exact Hni.
          + intros k t m Hk Hm. apply readHas_upd; [apply Hnr|]. eapply R; eauto.
        - apply (v_rnodup _ _ I).
        - apply (v_recv _ _ I).
        - rewrite Hcl. split; discriminate.
        - intros t size Ht. apply (v_end _ _ I) in Ht. exact Ht.
        - apply (v_cap _ _ I).
        - reflexivity. }
      pose proof (v_nodup _ _ I) as Hnd. rewrite Hfl in Hnd.
      destruct (if packetSizeLimit <? len payload then None else reuse) as [i|] eqn:Eru.
      + destruct (isPooled i (qPool q)) eqn:Ep; [|discriminate].
        apply existsb_exists in Ep. destruct Ep as (i' & Hi & E). apply Nat.eqb_eq in E. subst i'.
        destruct (v_pool _ _ I i Hi) as [Hlt Hb].
        destruct (fill_spec (qItems q i) payload Hb) as [c Ec]. rewrite Ec in H. injection H as <-.
        apply G; cbn [iBusy iOneTime iData]; auto.
        * apply (v_one _ _ I).
        * rewrite Hfl. intros Hin. clear - Hnd Hi Hin. induction (qPool q) as [|x p IH]; [contradiction|].
          cbn in Hnd. inversion Hnd; subst. destruct Hi as [->|Hi]; [|auto]. apply H1. rewrite in_app_iff. auto.
        * intros t Ht. apply (v_reads _ _ I) in Ht. destruct Ht as [A _]. apply A. rewrite in_app_iff. auto.
        * intros j Hj. apply in_remove in Hj. tauto.
        * apply nodup_remove. exact Hnd.
        * rewrite in_remove. tauto.
      + destruct (fill_spec freshItem payload eq_refl) as [c Ec]. rewrite Ec in H. injection H as <-.
        apply G; cbn [iBusy iOneTime iData freshItem]; auto.
        * intros Hin. apply (v_fly _ _ I) in Hin. lia.
        * intros t Ht. apply (v_reads _ _ I) in Ht. destruct Ht as (_ & A & _). lia.
        * intros j Hj. split; auto. apply (v_pool _ _ I) in Hj. lia.
        * intros Hin. apply (v_pool _ _ I) in Hin. lia.
    - (* QPut *)
      destruct (qReader q) as [|i|] eqn:Er; try discriminate.
      destruct (qClosed q) eqn:Ec. { apply (v_closed _ _ I) in Ec. congruence. }
      destruct (Nat.ltb_spec (length (qChan q)) capacity) as [Hlt|]; [|discriminate]. injection H as <-.
      assert (E : forall q', qPool q' = qPool q -> qChan q' = qChan q ++ [i] -> qReader q' = RpIdle -> inFlight q' = inFlight q).
      { intros q' _ E1 E2. unfold inFlight. rewrite E1, E2, Er. cbn. rewrite app_nil_r. reflexivity. }
      destruct I. constructor; try rewrite E by reflexivity;
        cbn [qItems qNext qPool qChan qClosed qReader qReads qArrivals qReceived qPanic]; auto.
      + split; discriminate.
      + intros t size Ht. apply v_end0 in Ht. destruct Ht. congruence.
      + rewrite app_length. cbn. lia.
    - (* QFinish *)
      destruct (qReader q) as [|i|] eqn:Er; try discriminate. injection H as <-.
      assert (E : forall q', qChan q' = qChan q -> qReader q' = RpDone -> inFlight q' = inFlight q).
      { intros q' E1 E2. unfold inFlight. rewrite E1, E2, Er. reflexivity. }
      destruct I. constructor; try rewrite E by reflexivity;
        cbn [qItems qNext qPool qChan qClosed qReader qReads qArrivals qReceived qPanic]; auto.
      + tauto.
      + intros t size Ht. apply v_end0 in Ht. destruct Ht as [Hc _].
        apply v_closed0 in Hc. congruence.
    - (* QCall *)
      destruct (qReads q t) eqn:Et; try discriminate. injection H as <-.
      assert (E : forall q', qChan q' = qChan q -> qReader q' = qReader q -> inFlight q' = inFlight q).
      { intros q' E1 E2. unfold inFlight. rewrite E1, E2. reflexivity. }
      destruct I. constructor; try rewrite E by reflexivity;
        cbn [qItems qNext qPool qChan qClosed qReader qReads qArrivals qReceived qPanic]; auto.
      + intros t1 i. unfold fupd at 1. destruct (Nat.eqb_spec t1 t); [discriminate|]. intros Hi.
        destruct (v_reads0 t1 i Hi) as (A & B & C & D). repeat split; auto.
        intros t2. unfold fupd. destruct (Nat.eqb t2 t); [discriminate|]. apply D.
      + destruct v_order0 as (old & E1 & L & R). exists old. repeat split; auto. intros k t1 m Hk Hm.
        unfold fupd. destruct (Nat.eqb_spec t1 t) as [->|]; [|eauto].
        specialize (R k t m Hk Hm). rewrite Et in R. destruct R.
      + intros t1. unfold fupd. destruct (Nat.eqb_spec t1 t) as [->|]; [|auto]. rewrite v_recv0, Et. cbn. tauto.
      + intros t1 sz. unfold fupd. destruct (Nat.eqb_spec t1 t) as [->|]; [discriminate|]. apply v_end0.
    - (* QRecv *)
      destruct (qReads q t) as [|size| | |] eqn:Et; try discriminate.
      assert (Hnr : ~ In t (qReceived q)) by (rewrite (v_recv _ _ I), Et; discriminate).
      destruct (qChan q) as [|i r] eqn:Ec.
      + destruct (qClosed q) eqn:Ecl; [|discriminate]. injection H as <-.
        assert (E : forall q', qChan q' = [] -> qReader q' = qReader q -> inFlight q' = inFlight q).
        { intros q' E1 E2. unfold inFlight. rewrite E1, E2, Ec. reflexivity. }
        destruct I. constructor; try rewrite E by reflexivity;
          cbn [qItems qNext qPool qChan qClosed qReader qReads qArrivals qReceived qPanic]; auto.
        * intros t1 i. unfold fupd at 1. destruct (Nat.eqb_spec t1 t); [discriminate|]. intros Hi.
          destruct (v_reads0 t1 i Hi) as (A & B & C & D). repeat split; auto.
          intros t2. unfold fupd. destruct (Nat.eqb t2 t); [discriminate|]. apply D.
        * destruct v_order0 as (old & E1 & L & R). exists old. repeat split; auto. intros k t1 m Hk Hm.
          unfold fupd. destruct (Nat.eqb_spec t1 t) as [->|]; [|eauto].
          exfalso. apply Hnr. eapply nth_error_In; eauto.
        * intros t1. unfold fupd. destruct (Nat.eqb_spec t1 t) as [->|]; [|auto]. rewrite v_recv0, Et. cbn. tauto.
        * rewrite Ecl in v_closed0. exact v_closed0.
        * cbn. lia.
      + injection H as <-.
        assert (Hfl : inFlight q = i :: r ++ readerItem (qReader q)) by (unfold inFlight; rewrite Ec; reflexivity).
        pose proof (v_nodup _ _ I) as Hnd. pose proof (v_reads _ _ I) as Hrd. pose proof (v_fly _ _ I) as Hfly.
        rewrite Hfl in Hnd, Hfly.
        assert (Hnd2 := NoDup_remove_1 _ _ _ Hnd). assert (Hnd3 := NoDup_remove_2 _ _ _ Hnd).
        destruct (v_order _ _ I) as (old & E1 & L & R). rewrite Hfl in E1.
        constructor; unfold inFlight; cbn [qItems qNext qPool qChan qClosed qReader qReads qArrivals qReceived qPanic].
        * exact Hnd2.
        * intros t1 i1. unfold fupd at 1. destruct (Nat.eqb_spec t1 t) as [->|Hne].
          -- cbn [readItemOf]. intros Hi. injection Hi as <-. split; [exact Hnd3|].
             destruct (Hfly i ltac:(left; auto)) as [B C]. repeat split; auto.
             intros t2. unfold fupd. destruct (Nat.eqb_spec t2 t); auto. intros H2.
             destruct (Hrd t2 i H2) as [A _]. exfalso. apply A. rewrite Hfl, in_app_iff. right. left. auto.
          -- intros Hi. destruct (Hrd t1 i1 Hi) as (A & B & C & D).
             assert (i1 <> i) by (intros ->; apply A; rewrite Hfl, in_app_iff; right; left; auto).
             repeat split; auto.
             ++ intros K. apply A. rewrite Hfl, in_app_iff. rewrite in_app_iff in K. destruct K; auto. right. right. auto.
             ++ intros t2. unfold fupd. destruct (Nat.eqb_spec t2 t); [cbn; congruence|]. apply D.
        * apply (v_pool _ _ I).
        * intros j Hj. apply Hfly. right. exact Hj.
        * apply (v_one _ _ I).
        * exists (old ++ [iData (qItems q i)]). split; [|split].
          -- rewrite E1. cbn [dataOf map]. rewrite <- app_assoc. reflexivity.
          -- rewrite !app_length, L. reflexivity.
          -- intros k t1 m Hk Hm. destruct (Nat.lt_ge_cases k (length old)) as [Hlt|Hge].
             ++ rewrite nth_error_app1 in Hk by lia. rewrite nth_error_app1 in Hm by lia.
                unfold fupd. destruct (Nat.eqb_spec t1 t) as [->|]; [|eauto].
                exfalso. apply Hnr. eapply nth_error_In; eauto.
             ++ rewrite nth_error_app2 in Hk by lia. rewrite nth_error_app2 in Hm by lia. rewrite <- L in Hk.
                destruct (k - length old)%nat as [|n]; [|destruct n; discriminate].
                cbn in Hk, Hm. injection Hk as <-. injection Hm as <-. rewrite fupd_same. reflexivity.
        * rewrite <- (app_nil_r (qReceived q)) in Hnr. pose proof (v_rnodup _ _ I) as Hr.
          apply (NoDup_Add (a := t) (l := qReceived q ++ [])); [apply Add_app|]. rewrite app_nil_r in *. auto.
        * intros t1. rewrite in_app_iff, (v_recv _ _ I). unfold fupd. destruct (Nat.eqb_spec t1 t) as [->|Hne]; cbn.
          -- rewrite Et. cbn. tauto.
          -- split; [intros [K|[K|[]]]; congruence|auto].
        * apply (v_closed _ _ I).
        * intros t1 sz. unfold fupd. destruct (Nat.eqb_spec t1 t) as [->|]; [discriminate|]. intros Ht.
          apply (v_end _ _ I) in Ht. destruct Ht. congruence.
        * pose proof (v_cap _ _ I) as K. rewrite Ec in K. cbn in K. lia.
        * reflexivity.
    - (* QCopy *)
      destruct (qReads q t) as [| |size i| |] eqn:Et; try discriminate. injection H as <-.
      set (r' := if size <? len (iData (qItems q i)) then RRet size ReadTooBig else RCopied size (iData (qItems q i)) i).
      assert (Hr1 : forall j, readItemOf r' = Some j -> j = i).
      { intros j. unfold r'. destruct (size <? _); cbn; congruence. }
      assert (Hr2 : forall m, iData (qItems q i) = m -> readHas (qItems q) r' m).
      { intros m Hm. unfold r'. destruct (N.ltb_spec size (len (iData (qItems q i)))); cbn; rewrite <- Hm; auto. }
      assert (Hr3 : hasReceived r' = true) by (unfold r'; destruct (size <? _); reflexivity).
      assert (Hr4 : forall z, r' <> RRet z ReadClosed) by (intros z; unfold r'; destruct (size <? _); discriminate).
      clearbody r'.
      assert (E : forall q', qChan q' = qChan q -> qReader q' = qReader q -> inFlight q' = inFlight q).
      { intros q' E1 E2. unfold inFlight. rewrite E1, E2. reflexivity. }
      destruct I. constructor; try rewrite E by reflexivity;
        cbn [qItems qNext qPool qChan qClosed qReader qReads qArrivals qReceived qPanic]; auto.
      + intros t1 j. unfold fupd at 1. destruct (Nat.eqb_spec t1 t) as [->|].
        * intros Hj. apply Hr1 in Hj. subst j. destruct (v_reads0 t i ltac:(rewrite Et; auto)) as (A & B & C & D).
          repeat split; auto. intros t2. unfold fupd. destruct (Nat.eqb_spec t2 t); auto.
        * intros Hj. destruct (v_reads0 t1 j Hj) as (A & B & C & D). repeat split; auto.
          intros t2. unfold fupd. destruct (Nat.eqb_spec t2 t); [|apply D]. intros H2. apply Hr1 in H2. subst j t2.
          symmetry. destruct (v_reads0 t i ltac:(rewrite Et; auto)) as (_ & _ & _ & D2). symmetry. apply D. rewrite Et. auto.
      + destruct v_order0 as (old & E1 & L & R). exists old. repeat split; auto. intros k t1 m Hk Hm.
        unfold fupd. destruct (Nat.eqb_spec t1 t) as [->|]; [|eauto].
        specialize (R k t m Hk Hm). rewrite Et in R. apply Hr2. exact R.
      + intros t1. unfold fupd. destruct (Nat.eqb_spec t1 t) as [->|]; [|auto]. rewrite v_recv0, Et, Hr3. cbn. tauto.
      + intros t1 sz. unfold fupd. destruct (Nat.eqb_spec t1 t) as [->|]; [intros K; exfalso; eapply Hr4; eauto|]. apply v_end0.
    - (* QRelease *)
      destruct (qReads q t) as [| | |size d i|] eqn:Et; try discriminate.
      destruct (v_reads _ _ I t i ltac:(rewrite Et; auto)) as (A & B & C & D). rewrite C in H. cbn [negb] in H.
      rewrite (v_one _ _ I) in H. injection H as <-.
      assert (E : forall q', qChan q' = qChan q -> qReader q' = qReader q -> inFlight q' = inFlight q).
      { intros q' E1 E2. unfold inFlight. rewrite E1, E2. reflexivity. }
      assert (A1 : ~ In i (qPool q)) by (rewrite in_app_iff in A; tauto).
      assert (A2 : ~ In i (inFlight q)) by (rewrite in_app_iff in A; tauto).
      assert (Hother : forall t1, t1 <> t -> readItemOf (qReads q t1) <> Some i) by (intros t1 Hne K; apply D in K; contradiction).
      destruct I. constructor; try rewrite E by reflexivity;
        cbn [qItems qNext qPool qChan qClosed qReader qReads qArrivals qReceived qPanic]; auto.
      + cbn [app]. constructor; auto.
      + intros t1 j. unfold fupd at 1. destruct (Nat.eqb_spec t1 t) as [->|Hne]; [discriminate|]. intros Hj.
        destruct (v_reads0 t1 j Hj) as (A' & B' & C' & D').
        assert (j <> i) by (intros ->; apply (Hother t1 Hne); auto). repeat split; auto.
        * cbn [app]. intros [K|K]; [congruence|contradiction].
        * rewrite fupd_other; auto.
        * intros t2. unfold fupd. destruct (Nat.eqb_spec t2 t); [discriminate|]. apply D'.
      + intros j [<-|Hj].
        * rewrite fupd_same. auto.
        * rewrite fupd_other by (intros ->; contradiction). auto.
      + intros j Hj. rewrite fupd_other by (intros ->; contradiction). auto.
      + intros j. unfold fupd. destruct (Nat.eqb j i); auto.
      + destruct v_order0 as (old & E1 & L & R). exists old. rewrite dataOf_upd by auto. repeat split; auto. intros k t1 m Hk Hm.
        unfold fupd at 2. destruct (Nat.eqb_spec t1 t) as [->|].
        * specialize (R k t m Hk Hm). rewrite Et in R. exact R.
        * apply readHas_upd; eauto.
      + intros t1. unfold fupd. destruct (Nat.eqb_spec t1 t) as [->|]; [|auto]. rewrite v_recv0, Et. cbn. tauto.
      + intros t1 sz. unfold fupd. destruct (Nat.eqb_spec t1 t) as [->|]; [discriminate|]. apply v_end0.
    - (* QDrop *)
      injection H as <-.
      assert (E : forall q', qChan q' = qChan q -> qReader q' = qReader q -> inFlight q' = inFlight q).
      { intros q' E1 E2. unfold inFlight. rewrite E1, E2. reflexivity. }
      destruct I. constructor; try rewrite E by reflexivity;
        cbn [qItems qNext qPool qChan qClosed qReader qReads qArrivals qReceived qPanic]; auto.
      + apply nodup_remove. auto.
      + intros t1 j Hj. destruct (v_reads0 t1 j Hj) as (A' & B' & C' & D'). repeat split; auto.
        rewrite in_app_iff in *. rewrite in_remove. tauto.
      + intros j Hj. apply in_remove in Hj. apply v_pool0. tauto.
  Qed.

  Lemma queue_inv : forall q, reachable (fun s => s = initQueue) (lstep step1) q -> qinv capacity q.
  Proof.
    apply reachable_inv.
    - intros s ->. apply init_inv.
    - intros s s' I (l & H). eapply step_inv; eauto.
  Qed.
End Inv.
