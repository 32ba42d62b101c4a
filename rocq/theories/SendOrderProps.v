(** C112, C113: concurrent senders and the receiver's checks. *)
From Coq Require Import NArith List Bool Arith Lia.
From Verif Require Import Base TS PacketIDModel PacketIDSpec PacketIDRun SendOrderModel.
Import ListNotations.
Local Open Scope N_scope.

(** ** What is claimed *)

(** A receiver with option [n] gets exactly these packets in this order and
    takes all of them. *)
Definition allAccepted (n : N) (ids : list N) : Prop :=
  exists st vs, offer (sessionStorage (Size n)) ids = Ret (st, vs) /\ accepted ids vs = ids.

(** Besides the key of the last rotation the peer keeps the one before
    (C50_current_key_survives_partial, C107). *)
Definition kept (now e : N) : Prop := e = now \/ e + 1 = now.

Definition wireIds (s : osend) : list N := map wId (oWire s).

(** No ID is behind the largest one before it ([m]) by a whole window. *)
Fixpoint withinWindow (w m : N) (ids : list N) : Prop :=
  match ids with
  | [] => True
  | i :: r => (m < i \/ m - i < w) /\ withinWindow w (N.max m i) r
  end.

(** ** Sequences of fresh IDs *)

Inductive fresh (n : N) : list N -> Prop :=
| fresh_nil : fresh n []
| fresh_snoc : forall ids id, fresh n ids -> ~ In id ids -> id <> 0 -> id < 2^64 ->
    (maxl ids < id \/ maxl ids - id < window n) -> fresh n (ids ++ [id]).

Lemma offer_snoc : forall ids st st' vs id, offer st ids = Ret (st', vs) ->
  offer st (ids ++ [id]) =
    match checkAndRemember st' id with Ret (st'', b) => Ret (st'', vs ++ [b]) | Panic => Panic end.
Proof.
  induction ids as [|i ids IH]; intros st st' vs id H; cbn [offer app] in *.
  - injection H as <- <-. destruct (checkAndRemember st id) as [[st2 b]|]; reflexivity.
  - destruct (checkAndRemember st i) as [[st1 b]|]; [|discriminate].
    destruct (offer st1 ids) as [[st2 bs]|] eqn:E; [|discriminate]. injection H as <- <-.
    rewrite (IH _ _ _ id E). destruct (checkAndRemember st2 id) as [[st3 b3]|]; reflexivity.
Qed.

Lemma accepted_snoc : forall ids vs id b, length vs = length ids ->
  accepted (ids ++ [id]) (vs ++ [b]) = accepted ids vs ++ (if b then [id] else []).
Proof.
  induction ids as [|i ids IH]; intros [|v vs] id b H; try discriminate H; cbn [accepted app].
  - destruct b; reflexivity.
  - injection H as H. destruct v; cbn [app]; rewrite IH by exact H; reflexivity.
Qed.

Lemma fresh_ids64 : forall n ids, fresh n ids -> ids64 ids.
Proof.
  intros n ids H. induction H; [constructor|]. unfold ids64 in *. apply Forall_app. split; auto.
Qed.

Lemma fresh_all : forall n ids, fresh n ids ->
  exists st vs, offer (sessionStorage (Size n)) ids = Ret (st, vs) /\ accepted ids vs = ids /\ length vs = length ids.
Proof.
  intros n ids H. induction H as [|ids id Hf (st & vs & E & A & L) Hin H0 H64 Hw].
  - eexists _, _. split; [reflexivity|]. split; reflexivity.
  - destruct (fresh_accepted n ids id st vs (fresh_ids64 _ _ Hf) H64 E Hin H0) as (st' & E').
    { rewrite A. exact Hw. }
    exists st', (vs ++ [true]). rewrite (offer_snoc _ _ _ _ _ E), E'. split; [reflexivity|].
    rewrite accepted_snoc by exact L. rewrite A. split; [reflexivity|]. rewrite !app_length, L. reflexivity.
Qed.

Lemma maxl_bound : forall l m, Forall (fun x => x <= m) l -> maxl l <= m.
Proof. induction l as [|x l IH]; intros m H; cbn [maxl]; [lia|]. inversion H; subst. specialize (IH m). lia || (apply N.max_lub; auto). Qed.

Lemma maxl_in : forall l, maxl l = 0 \/ In (maxl l) l.
Proof.
  induction l as [|x l IH]; cbn [maxl]; [auto|]. right.
  destruct (N.max_spec x (maxl l)) as [[H ->]|[H ->]]; [|left; reflexivity].
  destruct IH as [E|Hi]; [lia|right; exact Hi].
Qed.

(** ** The machine *)

Definition flightId (p : oPc) : option N :=
  match p with OHdr _ _ id => Some id | OGo _ id => Some id | _ => None end.
Definition flightKey (p : oPc) : option N :=
  match p with OKey _ k => k | OHdr _ k _ => k | OGo k _ => k | _ => None end.

Record sane (s : osend) : Prop := {
  saneWire : Forall (fun w => 1 <= wId w <= wLast w /\ wLast w <= oLast s) (oWire s);
  saneNoDup : NoDup (wireIds s);
  saneFlight : forall i id, flightId (oPcs s i) = Some id -> 1 <= id <= oLast s /\ ~ In id (wireIds s);
  saneApart : forall i j id, flightId (oPcs s i) = Some id -> flightId (oPcs s j) = Some id -> i = j;
  saneFresh : forall n, oLast s < 2^64 ->
    Forall (fun w => wLast w - wId w < N.max 1 (window n)) (oWire s) -> fresh n (wireIds s)
}.

Lemma sane_init : sane oInit.
Proof. split; cbn; try constructor; intros; discriminate || constructor. Qed.

(** A step that only takes a sender's packet away or changes its stage. *)
Lemma sane_pc : forall s i p, sane s -> flightId p = None \/ flightId p = flightId (oPcs s i) -> sane (setPc s i p).
Proof.
  intros s i p [A B C D E] Hp.
  assert (X : forall j id, flightId (fupd (oPcs s) i p j) = Some id -> flightId (oPcs s j) = Some id).
  { intros j id H. destruct (Nat.eq_dec j i) as [->|N]; [|rewrite fupd_other in H by exact N; exact H].
    rewrite fupd_same in H. destruct Hp as [Hp|Hp]; rewrite Hp in H; [discriminate|exact H]. }
  split; cbn [setPc oWire oLast oPcs]; auto.
  - intros j id H. exact (C j id (X j id H)).
  - intros j k id H1 H2. exact (D j k id (X _ _ H1) (X _ _ H2)).
Qed.

Lemma sane_step : forall s l s', sane s -> oStep s l = Some s' -> sane s'.
Proof.
  intros s l s' Hs E. destruct l as [i conf internal|i|i|i|i|i| | | | |]; cbn [oStep] in E.
  - destruct (oPcs s i) eqn:P; try discriminate.
    destruct conf; [destruct (oEpoch s =? 0); [discriminate|]|]; injection E as <-; apply sane_pc; auto.
  - destruct (oPcs s i) as [|b k|b k id|k id] eqn:P; try discriminate. injection E as <-. destruct Hs as [A B C D F].
    assert (X : forall j id, flightId (fupd (oPcs s) i (OHdr b k (oLast s + 1)) j) = Some id ->
              (j = i /\ id = oLast s + 1) \/ (j <> i /\ flightId (oPcs s j) = Some id)).
    { intros j id H. destruct (Nat.eq_dec j i) as [->|N].
      - rewrite fupd_same in H. cbn in H. injection H as <-. left. auto.
      - rewrite fupd_other in H by exact N. right. auto. }
    assert (Y : forall id, In id (wireIds s) -> 1 <= id <= oLast s).
    { intros id H. unfold wireIds in H. apply in_map_iff in H. destruct H as (w & <- & H).
      rewrite Forall_forall in A. specialize (A w H). lia. }
    split; cbn [setPc nextId oWire oLast oPcs]; auto.
    + eapply Forall_impl; [|exact A]. cbn. intros w H. lia.
    + intros j id H. destruct (X j id H) as [[-> ->]|[N H']].
      * split; [lia|]. intro Hi. specialize (Y _ Hi). lia.
      * destruct (C j id H') as [H1 H2]. split; [lia|exact H2].
    + intros j j' id H1 H2. destruct (X _ _ H1) as [[-> ->]|[N1 H1']], (X _ _ H2) as [[-> E2]|[N2 H2']]; auto.
      * destruct (C _ _ H2') as [H _]. lia.
      * destruct (C _ _ H1') as [H _]. lia.
      * exact (D _ _ _ H1' H2').
    + intros n Hn Hf. apply F; [lia|exact Hf].
  - destruct (oPcs s i) as [|b k|b k id|k id] eqn:P; try discriminate.
    destruct (b || oEst s); [|discriminate]. injection E as <-. apply sane_pc; auto. right. rewrite P. reflexivity.
  - destruct (oPcs s i) as [|b k|b k id|k id] eqn:P; try discriminate.
    destruct (negb b && oCtx s); [|discriminate]. injection E as <-. apply sane_pc; auto.
  - destruct (oPcs s i) as [|b k|b k id|k id] eqn:P; try discriminate. injection E as <-. apply sane_pc; auto.
  - destruct (oPcs s i) as [|b k|b k id|k id] eqn:P; try discriminate.
    destruct (oDone s); injection E as <-; [apply sane_pc; auto|]. destruct Hs as [A B C D F].
    assert (Pi : flightId (oPcs s i) = Some id) by (rewrite P; reflexivity).
    destruct (C i id Pi) as [Hid Hnew].
    assert (W : forall x, wireIds (setPc (putWire s x) i OIdle) = wireIds s ++ [wId x]).
    { intros x. unfold wireIds. cbn [setPc putWire oWire]. rewrite map_app. reflexivity. }
    assert (X : forall j x, flightId (fupd (oPcs s) i OIdle j) = Some x -> j <> i /\ flightId (oPcs s j) = Some x).
    { intros j x H. destruct (Nat.eq_dec j i) as [->|N]; [rewrite fupd_same in H; discriminate H|].
      rewrite fupd_other in H by exact N. auto. }
    split.
    + cbn [setPc putWire oWire oLast]. apply Forall_app. split; [exact A|]. constructor; [|constructor]. cbn. lia.
    + rewrite W. cbn [wId]. apply NoDup_rev in B. rewrite <- (rev_involutive (_ ++ _)), rev_app_distr. apply NoDup_rev.
      cbn [rev app]. constructor; [|exact B]. intro Hi. apply Hnew. apply in_rev. exact Hi.
    + intros j x H. cbn [setPc putWire oPcs] in H. destruct (X _ _ H) as [N H']. destruct (C j x H') as [H1 H2].
      split; [exact H1|]. rewrite W. cbn [wId]. intro Hi. apply in_app_iff in Hi. destruct Hi as [Hi|[Hi|[]]]; [exact (H2 Hi)|].
      subst x. apply N. exact (D _ _ _ H' Pi).
    + intros j j' x H1 H2. cbn [setPc putWire oPcs] in H1, H2. destruct (X _ _ H1) as [_ H1'], (X _ _ H2) as [_ H2'].
      exact (D _ _ _ H1' H2').
    + intros n Hn Hf. cbn [setPc putWire oLast oWire] in Hn, Hf. apply Forall_app in Hf. destruct Hf as [Hf Hl].
      inversion Hl as [|? ? Hw _]; subst. cbn [wLast wId] in Hw. rewrite W. cbn [wId].
      assert (Hb : Forall (fun y => y <= oLast s) (wireIds s)).
      { unfold wireIds. apply Forall_map. eapply Forall_impl; [|exact A]. cbn. intros w H. lia. }
      pose proof (maxl_bound _ _ Hb) as Hm.
      constructor; [apply F; assumption|exact Hnew|lia|lia|].
      destruct (N.eq_dec (window n) 0) as [Z|Z].
      * left. destruct (maxl_in (wireIds s)) as [M|M]; [lia|].
        assert (maxl (wireIds s) <> id) by (intro Q; apply Hnew; rewrite <- Q; exact M). rewrite Z in Hw. lia.
      * right. lia.
  - injection E as <-. destruct Hs as [A B C D F]. split; cbn [nextId oWire oLast oPcs]; auto.
    + eapply Forall_impl; [|exact A]. cbn. intros w H. lia.
    + intros i id H. destruct (C i id H) as [H1 H2]. split; [lia|exact H2].
    + intros n Hn Hf. apply F; [lia|exact Hf].
  - injection E as <-. destruct Hs as [A B C D F]. split; auto.
  - destruct ((oEpoch s =? 0) || oEst s); [discriminate|]. injection E as <-. destruct Hs as [A B C D F]. split; auto.
  - injection E as <-. destruct Hs as [A B C D F]. split; auto.
  - injection E as <-. destruct Hs as [A B C D F]. split; auto.
Qed.

Lemma exec_sane : forall ls s s', sane s -> exec oStep s ls = Some s' -> sane s'.
Proof.
  induction ls as [|l ls IH]; intros s s' Hs E; cbn [exec] in E; [injection E as <-; exact Hs|].
  destruct (oStep s l) as [s1|] eqn:E1; [|discriminate]. exact (IH _ _ (sane_step _ _ _ Hs E1) E).
Qed.

(** ** C112 *)

(** It holds when no packet is overtaken by as many IDs as the window holds:
    then a receiver that gets everything in the order of the writes accepts
    everything.  Full statement: without the condition, see below. *)
Theorem C112_all_accepted_partial : forall ls s n, exec oStep oInit ls = Some s -> oLast s < 2^64 ->
  Forall (fun w => wLast w - wId w < N.max 1 (window n)) (oWire s) -> allAccepted n (wireIds s).
Proof.
  intros ls s n E H64 Hf. destruct (fresh_all _ _ (saneFresh _ (exec_sane _ _ _ sane_init E) n H64 Hf)) as (st & vs & H & A & _).
  exists st, vs. auto.
Qed.
Print Assumptions C112_all_accepted_partial.

(** Exactly when everything is accepted. *)
Lemma within_snoc : forall w ids m id, withinWindow w m (ids ++ [id]) <->
  withinWindow w m ids /\ (N.max m (maxl ids) < id \/ N.max m (maxl ids) - id < w).
Proof.
  induction ids as [|i ids IH]; intros m id; cbn [withinWindow app maxl].
  - replace (N.max m 0) with m by lia. tauto.
  - rewrite IH. replace (N.max m (N.max i (maxl ids))) with (N.max (N.max m i) (maxl ids)) by lia. tauto.
Qed.

Lemma accepted_length : forall ids vs, (length (accepted ids vs) <= length ids)%nat.
Proof.
  induction ids as [|i ids IH]; intros vs; cbn [accepted]; [lia|].
  destruct vs as [|v vs]; [cbn; lia|]. specialize (IH vs). destruct v; cbn [length]; lia.
Qed.

Lemma offer_length : forall ids st st' vs, offer st ids = Ret (st', vs) -> length vs = length ids.
Proof.
  induction ids as [|i ids IH]; intros st st' vs H; cbn [offer] in H; [injection H as _ <-; reflexivity|].
  destruct (checkAndRemember st i) as [[st1 b]|]; [|discriminate].
  destruct (offer st1 ids) as [[st2 bs]|] eqn:E; [|discriminate]. injection H as _ <-. cbn [length]. f_equal. exact (IH _ _ _ E).
Qed.

Lemma offer_prefix : forall ids st id st' vs, offer st (ids ++ [id]) = Ret (st', vs) ->
  exists st1 vs1, offer st ids = Ret (st1, vs1).
Proof.
  induction ids as [|i ids IH]; intros st id st' vs H; cbn [offer app] in *; [eauto|].
  destruct (checkAndRemember st i) as [[st1 b]|]; [|discriminate].
  destruct (offer st1 (ids ++ [id])) as [[st2 bs]|] eqn:E; [|discriminate].
  destruct (IH _ _ _ _ E) as (st3 & vs3 & ->). eauto.
Qed.

Lemma accepted_iff : forall n ids, ids64 ids -> NoDup ids -> Forall (fun i => i <> 0) ids ->
  (allAccepted n ids <-> withinWindow (window n) 0 ids).
Proof.
  intros n ids. induction ids as [|id ids IH] using rev_ind; intros H64 Hd H0.
  - split; [intros _; exact I|]. intros _. eexists _, _. split; reflexivity.
  - unfold ids64 in *. apply Forall_app in H64. destruct H64 as [H64 Hl64]. inversion Hl64 as [|? ? Hi64 _]; subst.
    apply Forall_app in H0. destruct H0 as [H0 Hl0]. inversion Hl0 as [|? ? Hi0 _]; subst.
    apply NoDup_remove in Hd. rewrite app_nil_r in Hd. destruct Hd as [Hd Hnew].
    specialize (IH H64 Hd H0). rewrite within_snoc, <- IH. replace (N.max 0 (maxl ids)) with (maxl ids) by lia.
    split.
    + intros (st & vs & E & A). destruct (offer_prefix _ _ _ _ _ E) as (st1 & vs1 & E1).
      pose proof (offer_length _ _ _ _ E1) as L1. rewrite (offer_snoc _ _ _ _ _ E1) in E.
      destruct (checkAndRemember st1 id) as [[st2 b]|] eqn:Ec; [|discriminate]. injection E as <- <-.
      rewrite accepted_snoc in A by exact L1. destruct b.
      * apply app_inj_tail in A. destruct A as [A _]. split; [exists st1, vs1; auto|].
        destruct (N.lt_ge_cases (maxl ids) id) as [|G]; [auto|]. right.
        destruct (N.lt_ge_cases (maxl ids - id) (window n)) as [|W]; [assumption|exfalso].
        assert (maxl ids <> id).
        { intro Q. destruct (maxl_in ids) as [M|M]; [congruence|]. apply Hnew. rewrite <- Q. exact M. }
        rewrite (stale_rejected n ids id st1 vs1 H64 E1) in Ec; [discriminate| |]; rewrite A; lia.
      * exfalso. rewrite app_nil_r in A. apply (f_equal (@length N)) in A. pose proof (accepted_length ids vs1) as B.
        rewrite A, app_length in B. cbn [length] in B. lia.
    + intros ((st & vs & E & A) & W). pose proof (offer_length _ _ _ _ E) as L.
      destruct (fresh_accepted n ids id st vs H64 Hi64 E Hnew Hi0) as (st' & E'); [rewrite A; exact W|].
      exists st', (vs ++ [true]). rewrite (offer_snoc _ _ _ _ _ E), E'. split; [reflexivity|].
      rewrite accepted_snoc by exact L. rewrite A. reflexivity.
Qed.

Theorem C112_exactly_partial : forall ls s n, exec oStep oInit ls = Some s -> oLast s < 2^64 ->
  (allAccepted n (wireIds s) <-> withinWindow (window n) 0 (wireIds s)).
Proof.
  intros ls s n E H64. destruct (exec_sane _ _ _ sane_init E) as [A B _ _ _].
  apply accepted_iff; [|exact B|]; unfold ids64, wireIds; apply Forall_map; (eapply Forall_impl; [|exact A]); cbn beta; intros w H; lia.
Qed.
Print Assumptions C112_exactly_partial.

(** Three senders that overtake each other; all packets are taken. *)
Example C112_example : exists s,
  exec oStep oInit [OlKey 0%nat false true; OlRotate; OlKey 1%nat true true; OlId 0%nat; OlId 1%nat; OlKey 2%nat false true; OlId 2%nat;
                    OlPass 2%nat; OlWrite 2%nat; OlPass 1%nat; OlWrite 1%nat; OlPass 0%nat; OlWrite 0%nat] = Some s /\
  wireIds s = [3; 2; 1] /\
  Forall (fun w => wLast w - wId w < N.max 1 (window 0)) (oWire s) /\
  ~ Forall (fun w => wLast w - wId w < N.max 1 (window 1)) (oWire s).
Proof.
  eexists. split; [vm_compute; reflexivity|]. split; [reflexivity|]. split.
  - repeat constructor.
  - intro H. inversion H as [|? ? _ H2]; subst. inversion H2 as [|? ? H3 _]; subst. vm_compute in H3. discriminate H3.
Qed.

Definition oRound : list oLabel := [OlKey 1%nat false true; OlId 1%nat; OlPass 1%nat; OlWrite 1%nat].
Fixpoint rounds (k : nat) : list oLabel := match k with O => [] | S k => rounds k ++ oRound end.
Fixpoint idsAfter (m : N) (k : nat) : list N := match k with O => [] | S k => idsAfter m k ++ [m + N.of_nat (S k)] end.

Lemma round_step : forall s, oPcs s 1%nat = OIdle -> oDone s = false -> exists s',
  exec oStep s oRound = Some s' /\ oLast s' = oLast s + 1 /\ wireIds s' = wireIds s ++ [oLast s + 1] /\
  oPcs s' 0%nat = oPcs s 0%nat /\ oPcs s' 1%nat = OIdle /\ oDone s' = false /\ oEst s' = oEst s /\ oEpoch s' = oEpoch s.
Proof.
  intros s P Q. unfold oRound. cbn [exec oStep]. rewrite P.
  cbn [oStep setPc oPcs]. rewrite fupd_same. cbn [oStep setPc nextId oPcs]. rewrite fupd_same.
  cbn [orb oStep setPc nextId oPcs oDone]. rewrite fupd_same. rewrite Q.
  eexists. split; [reflexivity|]. unfold wireIds. cbn. rewrite map_app. cbn. auto 10.
Qed.

Lemma rounds_steps : forall k s, oPcs s 1%nat = OIdle -> oDone s = false -> exists s',
  exec oStep s (rounds k) = Some s' /\ oLast s' = oLast s + N.of_nat k /\ wireIds s' = wireIds s ++ idsAfter (oLast s) k /\
  oPcs s' 0%nat = oPcs s 0%nat /\ oPcs s' 1%nat = OIdle /\ oDone s' = false /\ oEst s' = oEst s /\ oEpoch s' = oEpoch s.
Proof.
  induction k as [|k IH]; intros s P Q.
  - exists s. cbn [rounds exec idsAfter]. rewrite app_nil_r. repeat split; auto. cbn. lia.
  - destruct (IH s P Q) as (s1 & E1 & L1 & W1 & A1 & B1 & C1 & D1 & F1).
    destruct (round_step s1 B1 C1) as (s2 & E2 & L2 & W2 & A2 & B2 & C2 & D2 & F2).
    exists s2. cbn [rounds idsAfter]. rewrite (exec_app oStep _ _ _ _ E1).
    repeat split; try congruence.
    + rewrite L2, L1. lia.
    + rewrite W2, W1, <- app_assoc, L1. f_equal. f_equal. f_equal. lia.
Qed.

Lemma idsAfter_bound : forall k m, Forall (fun x => m < x <= m + N.of_nat k) (idsAfter m k).
Proof.
  induction k as [|k IH]; intros m; cbn [idsAfter]; [constructor|]. apply Forall_app. split.
  - eapply Forall_impl; [|exact (IH m)]. cbn beta. intros x H. lia.
  - constructor; [lia|constructor].
Qed.

Lemma idsAfter_max : forall k m, maxl (idsAfter m (S k)) = m + N.of_nat (S k).
Proof.
  intros k m. assert (A : maxl (idsAfter m (S k)) <= m + N.of_nat (S k)).
  { apply maxl_bound. eapply Forall_impl; [|exact (idsAfter_bound (S k) m)]. cbn beta. intros x H. lia. }
  assert (B : forall l x, In x l -> x <= maxl l).
  { induction l as [|y l IH]; intros x H; [destruct H|]. destruct H as [->|H]; cbn [maxl]; [lia|]. specialize (IH x H). lia. }
  specialize (B (idsAfter m (S k)) (m + N.of_nat (S k))). cbn [idsAfter] in *.
  assert (In (m + N.of_nat (S k)) (idsAfter m k ++ [m + N.of_nat (S k)])) by (apply in_app_iff; right; left; reflexivity).
  specialize (B H). lia.
Qed.

Lemma idsAfter_fresh : forall n k m, m + N.of_nat k < 2^64 -> fresh n (idsAfter m k).
Proof.
  intros n. induction k as [|k IH]; intros m H; [constructor|]. cbn [idsAfter].
  pose proof (idsAfter_bound k m) as B. constructor.
  - apply IH. lia.
  - intro Hi. rewrite Forall_forall in B. specialize (B _ Hi). lia.
  - lia.
  - lia.
  - left. apply N.le_lt_trans with (m + N.of_nat k); [|lia]. apply maxl_bound.
    eapply Forall_impl; [|exact B]. cbn beta. intros x Hx. lia.
Qed.

(** The packet ID is taken before the wait for the end of the negotiation
    (1875 and 1896): a [Write] made during the negotiation is sent with an old
    ID.  For every value of PacketIDStorageSize there is a run in which the
    receiver gets every packet, in the order of the writes, and drops the
    application's. *)
Theorem C112_overtaken_refuted : forall n, n < 2^63 -> exists ls s,
  exec oStep oInit ls = Some s /\ oLast s < 2^64 /\ In 1 (wireIds s) /\ NoDup (wireIds s) /\
  exists st vs, offer (sessionStorage (Size n)) (wireIds s) = Ret (st, vs) /\ ~ In 1 (accepted (wireIds s) vs).
Proof.
  intros n Hn. set (k := S (N.to_nat (window n))).
  assert (Hw : window n <= 2^63 + 64).
  { unfold window. destruct (n =? 0); [lia|]. destruct (n =? 1); [lia|].
    pose proof (N.mul_div_le (n + 63) 64). set (q := (n + 63) / 64) in *. clearbody q. lia. }
  assert (E0 : exists s0, exec oStep oInit [OlRotate; OlKey 0%nat true false; OlId 0%nat] = Some s0 /\ oLast s0 = 1 /\
            oPcs s0 0%nat = OHdr false (Some 1) 1 /\ oPcs s0 1%nat = OIdle /\ oDone s0 = false /\ oEst s0 = false /\
            oEpoch s0 = 1 /\ wireIds s0 = []).
  { eexists. split; [reflexivity|]. repeat split. }
  destruct E0 as (s0 & E0 & L0 & P0 & Q0 & D0 & T0 & H0 & W0).
  destruct (rounds_steps k s0 Q0 D0) as (s1 & E1 & L1 & W1 & P1 & Q1 & D1 & T1 & H1).
  assert (E2 : exists s2, exec oStep s1 [OlEstablish; OlPass 0%nat; OlWrite 0%nat] = Some s2 /\ oLast s2 = oLast s1 /\
            wireIds s2 = wireIds s1 ++ [1]).
  { cbn [exec oStep]. rewrite H1, H0, T1, T0. cbn [N.eqb Pos.eqb orb].
    cbn [oPcs]. rewrite P1, P0. cbn [orb oEst]. cbn [setPc oPcs]. rewrite fupd_same.
    cbn [oDone]. rewrite D1. eexists. split; [reflexivity|]. unfold wireIds. cbn. rewrite map_app. auto. }
  destruct E2 as (s2 & E2 & L2 & W2).
  exists ([OlRotate; OlKey 0%nat true false; OlId 0%nat] ++ rounds k ++ [OlEstablish; OlPass 0%nat; OlWrite 0%nat]), s2.
  assert (E : exec oStep oInit ([OlRotate; OlKey 0%nat true false; OlId 0%nat] ++ rounds k ++ [OlEstablish; OlPass 0%nat; OlWrite 0%nat]) = Some s2).
  { rewrite (exec_app oStep _ _ _ _ E0), (exec_app oStep _ _ _ _ E1). exact E2. }
  split; [exact E|]. rewrite L2, L1, L0. subst k. split; [lia|].
  rewrite W2, W1, W0, L0. cbn [app]. split; [apply in_app_iff; right; left; reflexivity|].
  split.
  { pose proof (saneNoDup _ (exec_sane _ _ _ sane_init E)) as H. rewrite W2, W1, W0, L0 in H. exact H. }
  assert (F : fresh n (idsAfter 1 (S (N.to_nat (window n))))) by (apply idsAfter_fresh; lia).
  destruct (fresh_all _ _ F) as (st & vs & Eo & A & Ln).
  exists st, (vs ++ [false]). rewrite (offer_snoc _ _ _ _ _ Eo).
  rewrite (stale_rejected n (idsAfter 1 (S (N.to_nat (window n)))) 1 st vs (fresh_ids64 _ _ F) Eo).
  - split; [reflexivity|]. rewrite accepted_snoc by exact Ln. rewrite A, app_nil_r. intro Hi.
    pose proof (idsAfter_bound (S (N.to_nat (window n))) 1) as B. rewrite Forall_forall in B. specialize (B _ Hi). lia.
  - rewrite A, idsAfter_max. lia.
  - rewrite A, idsAfter_max. lia.
Qed.
Print Assumptions C112_overtaken_refuted.

(** ** C113 *)

(** The key is taken before that wait, too (1863): after two rotations the
    packet is sealed with a key the peer has dropped. *)
Theorem C113_stale_key_refuted : exists ls s w e,
  exec oStep oInit ls = Some s /\ oWire s = [w] /\ wKey w = Some e /\ ~ kept (wEpoch w) e.
Proof.
  exists [OlRotate; OlKey 0%nat true false; OlId 0%nat; OlRotate; OlRotate; OlEstablish; OlPass 0%nat; OlWrite 0%nat].
  eexists _, _, _. split; [vm_compute; reflexivity|]. split; [reflexivity|]. split; [reflexivity|].
  unfold kept. cbn. lia.
Qed.
Print Assumptions C113_stale_key_refuted.

(** No key is rotated away while a packet waits with the key before. *)
Fixpoint unhurried (s : osend) (ls : list oLabel) : Prop :=
  match ls with
  | [] => True
  | l :: r =>
      (l = OlRotate -> forall i e, flightKey (oPcs s i) = Some e -> e = oEpoch s) /\
      match oStep s l with Some s' => unhurried s' r | None => True end
  end.

Definition recent (s : osend) : Prop :=
  Forall (fun w => forall e, wKey w = Some e -> 1 <= e /\ kept (wEpoch w) e) (oWire s) /\
  forall i e, flightKey (oPcs s i) = Some e -> 1 <= e /\ kept (oEpoch s) e.

Lemma recent_pc : forall s i p, recent s -> flightKey p = None \/ flightKey p = flightKey (oPcs s i) -> recent (setPc s i p).
Proof.
  intros s i p [A B] Hp. split; [exact A|]. cbn [setPc oPcs oEpoch]. intros j e H.
  destruct (Nat.eq_dec j i) as [->|N]; [rewrite fupd_same in H|rewrite fupd_other in H by exact N; exact (B j e H)].
  destruct Hp as [Hp|Hp]; rewrite Hp in H; [discriminate|exact (B i e H)].
Qed.

Lemma recent_step : forall s l s', recent s -> oStep s l = Some s' ->
  (l = OlRotate -> forall i e, flightKey (oPcs s i) = Some e -> e = oEpoch s) -> recent s'.
Proof.
  intros s l s' Hs E Hr. destruct l as [i conf internal|i|i|i|i|i| | | | |]; cbn [oStep] in E.
  - destruct (oPcs s i) eqn:P; try discriminate. destruct conf.
    + destruct (N.eqb_spec (oEpoch s) 0) as [Z|Z]; [discriminate|]. injection E as <-. destruct Hs as [A B].
      split; [exact A|]. cbn [setPc oPcs oEpoch]. intros j e H.
      destruct (Nat.eq_dec j i) as [->|N]; [rewrite fupd_same in H|rewrite fupd_other in H by exact N; exact (B j e H)].
      cbn in H. injection H as <-. split; [lia|left; reflexivity].
    + injection E as <-. apply recent_pc; auto.
  - destruct (oPcs s i) as [|b k|b k id|k id] eqn:P; try discriminate. injection E as <-.
    apply (recent_pc (nextId s)); [exact Hs|]. right. cbn [nextId oPcs]. rewrite P. reflexivity.
  - destruct (oPcs s i) as [|b k|b k id|k id] eqn:P; try discriminate.
    destruct (b || oEst s); [|discriminate]. injection E as <-. apply recent_pc; auto. right. rewrite P. reflexivity.
  - destruct (oPcs s i) as [|b k|b k id|k id] eqn:P; try discriminate.
    destruct (negb b && oCtx s); [|discriminate]. injection E as <-. apply recent_pc; auto.
  - destruct (oPcs s i) as [|b k|b k id|k id] eqn:P; try discriminate. injection E as <-. apply recent_pc; auto.
  - destruct (oPcs s i) as [|b k|b k id|k id] eqn:P; try discriminate.
    destruct (oDone s); injection E as <-; [apply recent_pc; auto|]. apply recent_pc; [|left; reflexivity].
    destruct Hs as [A B]. split; [|exact B]. cbn [putWire oWire]. apply Forall_app. split; [exact A|].
    constructor; [|constructor]. cbn [wKey wEpoch]. intros e ->. apply (B i e). rewrite P. reflexivity.
  - injection E as <-. exact Hs.
  - injection E as <-. destruct Hs as [A B]. split; [exact A|]. cbn [oPcs oEpoch]. intros i e H.
    rewrite (Hr eq_refl i e H). destruct (B i e H) as [B1 _]. rewrite (Hr eq_refl i e H) in B1. split; [exact B1|right; reflexivity].
  - destruct ((oEpoch s =? 0) || oEst s); [discriminate|]. injection E as <-. exact Hs.
  - injection E as <-. exact Hs.
  - injection E as <-. exact Hs.
Qed.

(** It holds in all runs in which no rotation finds a packet waiting with a key
    that is already out of date. *)
Theorem C113_recent_key_partial : forall ls s, exec oStep oInit ls = Some s -> unhurried oInit ls ->
  Forall (fun w => forall e, wKey w = Some e -> 1 <= e /\ kept (wEpoch w) e) (oWire s).
Proof.
  intros ls s E U. assert (H0 : recent oInit) by (split; [constructor|intros i e H; discriminate H]).
  revert E U H0. generalize oInit as x. induction ls as [|l ls IH]; intros x E U H0; cbn [exec unhurried] in E, U.
  - injection E as <-. exact (proj1 H0).
  - destruct U as [U1 U2]. destruct (oStep x l) as [x'|] eqn:El; [|discriminate].
    exact (IH x' E U2 (recent_step _ _ _ H0 El U1)).
Qed.
Print Assumptions C113_recent_key_partial.

(** A packet that waits during one rotation. *)
Example C113_example :
  let ls := [OlRotate; OlKey 0%nat true false; OlId 0%nat; OlRotate; OlEstablish; OlPass 0%nat; OlWrite 0%nat; OlRotate] in
  unhurried oInit ls /\ exists s, exec oStep oInit ls = Some s /\
    oWire s = [{| wKey := Some 1; wId := 1; wLast := 1; wEpoch := 2 |}].
Proof.
  cbv zeta. split; [|eexists; split; vm_compute; reflexivity].
  cbn [unhurried oStep oPcs oInit setPc nextId oEpoch N.eqb Pos.eqb oEst orb negb oDone oCtx putWire oWire oLast N.add Pos.add Pos.succ].
  repeat (split; [intro X; try discriminate X; intros [|i] e H; cbn in H; try discriminate H; injection H as <-; reflexivity|]).
  repeat (cbn; split; [intro X; try discriminate X; intros [|i] e H; cbn in H; try discriminate H; injection H as <-; reflexivity|]).
  cbn. try exact I.
Qed.
