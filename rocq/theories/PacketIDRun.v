(** Histories of the replay window. *)
From Coq Require Import NArith List Bool Lia Arith.
From Verif Require Import Base BaseLemmas PacketIDModel PacketIDSpec PacketIDProofs.
Import ListNotations.
Open Scope N_scope.

Lemma offer_sound : forall ids w st acc, Sound w st acc -> ids64 ids ->
  exists st' vs, offer (Some st) ids = Ret (Some st', vs) /\
    length vs = length ids /\
    Sound w st' (rev (accepted ids vs) ++ acc) /\
    latest st' = N.max (latest st) (maxl (accepted ids vs)).
Proof.
  induction ids; intros w st acc S Hids.
  - exists st, []. simpl. split; [auto|]. split; [auto|]. split; [auto|lia].
  - inversion Hids; subst. destruct (push_sound w st acc a S H1) as (st1 & b & E & S1 & L1).
    destruct (IHids w st1 _ S1 H2) as (st2 & vs & E2 & Lv & S2 & L2).
    exists st2, (b :: vs). cbn [offer checkAndRemember]. rewrite E, E2. split; auto.
    split; [simpl; congruence|].
    destruct b; cbn [accepted].
    + cbn [rev]. rewrite <- app_assoc. split; auto. cbn [maxl]. lia.
    + split; auto. lia.
Qed.

Lemma session_storage_some : forall n, exists st, sessionStorage (Size n) = Some st /\
  Sound (length (table st)) st [] /\ Complete st [] /\ latest st = 0 /\ win st = window n.
Proof.
  intros. unfold sessionStorage, window.
  set (d := if (if n =? 0 then 256 else n) =? 1 then 0 else if n =? 0 then 256 else n).
  exists (newStorage d). split; auto. split; [apply new_sound|].
  split; [intros i []|]. split; auto.
  unfold win, newStorage, len; cbn [table]. subst d.
  destruct (N.eqb_spec n 0).
  { subst. reflexivity. }
  destruct (N.eqb_spec n 1).
  { reflexivity. }
  destruct (N.ltb_spec 0 n); [|lia]. rewrite repeat_length, N2Nat.id. auto.
Qed.

Lemma offer_nodup : forall ids w st acc, Sound w st acc -> Complete st acc -> ids64 ids ->
  gaps_ok (win st) (latest st) ids -> NoDup acc ->
  exists st' vs, offer (Some st) ids = Ret (Some st', vs) /\
    NoDup (rev (accepted ids vs) ++ acc).
Proof.
  induction ids; intros w st acc S C Hids G ND.
  - exists st, []. simpl. auto.
  - inversion Hids; subst. cbn [gaps_ok] in G. destruct G as [G1 G2].
    pose proof (win_eq _ _ _ S) as Hw.
    destruct (push_sound w st acc a S H1) as (st1 & b & E & S1 & L1).
    destruct (push_complete w st acc a S C H1) as (st1' & b' & E' & C1 & NI).
    { unfold jump_ok. rewrite <- Hw. auto. }
    rewrite E in E'. inversion E'; subst st1' b'.
    assert (Hl : latest st1 = N.max (latest st) a).
    { destruct (N.ltb_spec (latest st) a).
      - destruct (push_newer st a (s_ok _ _ _ S)) as (t' & En & _); auto.
        rewrite E in En. inversion En; subst. cbn [latest] in *. lia.
      - rewrite L1. destruct b; lia. }
    assert (Hw1 : win st1 = win st). { rewrite Hw. apply (win_eq _ _ _ S1). }
    destruct (IHids w st1 _ S1 C1 H2) as (st2 & vs & E2 & ND2).
    + rewrite Hw1, Hl. auto.
    + destruct b; auto. constructor; auto.
    + exists st2, (b :: vs). cbn [offer checkAndRemember]. rewrite E, E2. split; auto.
      destruct b; cbn [accepted]; auto. cbn [rev]. rewrite <- app_assoc. auto.
Qed.

Lemma gaps_ok_small : forall ids w m, w <= 65 -> gaps_ok w m ids.
Proof.
  induction ids; intros; cbn [gaps_ok]; auto. split; auto.
  destruct (N.le_gt_cases a m); auto. right.
  destruct (N.le_gt_cases (a - m) 64); auto. right; lia.
Qed.

Lemma NoDup_rev_app_nil : forall (l : list N), NoDup (rev l ++ []) -> NoDup l.
Proof.
  intros. rewrite app_nil_r in H. apply NoDup_rev in H. rewrite rev_involutive in H. auto.
Qed.

Lemma replay_partial : forall n ids, ids64 ids -> gaps_ok (window n) 0 ids ->
  exists st vs, offer (sessionStorage (Size n)) ids = Ret (st, vs) /\ NoDup (accepted ids vs).
Proof.
  intros n ids H64 G. destruct (session_storage_some n) as (st & E & S & C & L & Wn).
  rewrite E. destruct (offer_nodup ids _ st [] S C H64) as (st' & vs & E2 & ND).
  - rewrite Wn, L. auto.
  - constructor.
  - exists (Some st'), vs. split; auto. apply NoDup_rev_app_nil; auto.
Qed.

Lemma window_small : forall n, 1 <= n <= 64 -> window n <= 64.
Proof.
  intros. unfold window. destruct (N.eqb_spec n 0); [lia|]. destruct (N.eqb_spec n 1); [lia|].
  assert ((n + 63) / 64 = 1). { symmetry. apply N.div_unique with (r := n - 1); lia. } lia.
Qed.

Lemma window_big : forall n, n = 0 \/ 64 < n -> 128 <= window n.
Proof.
  intros. unfold window. destruct (N.eqb_spec n 0); [lia|]. destruct (N.eqb_spec n 1); [lia|].
  assert (2 <= (n + 63) / 64). { apply N.div_le_lower_bound; lia. } lia.
Qed.

Lemma replay_refuted : forall n, n = 0 \/ 64 < n ->
  exists st, offer (sessionStorage (Size n)) [1; 66; 1] = Ret (st, [true; true; true]).
Proof.
  intros n Hn. destruct (session_storage_some n) as (st & E & S & C & L & Wn).
  pose proof (window_big n Hn). rewrite E. cbn [offer checkAndRemember].
  destruct (push_newer st 1 (s_ok _ _ _ S)) as (t1 & E1 & L1 & W1 & G1); [rewrite L; lia|].
  rewrite E1. cbn [offer checkAndRemember].
  destruct (push_newer {| latest := 1; table := t1 |} 66) as (t2 & E2 & L2 & W2 & G2);
    [auto|cbn [latest]; lia|].
  rewrite E2. cbn [offer checkAndRemember].
  assert (Hwin : win {| latest := 66; table := t2 |} = window n).
  { rewrite <- Wn. unfold win, len; cbn [table] in *. rewrite L2, L1. auto. }
  assert (Hwin1 : win {| latest := 1; table := t1 |} = window n).
  { rewrite <- Wn. unfold win, len; cbn [table] in *. rewrite L1. auto. }
  pose proof (push_older {| latest := 66; table := t2 |} 1 W2) as P.
  cbn [latest table] in P. specialize (P ltac:(lia)). rewrite Hwin in P. specialize (P ltac:(lia)).
  rewrite G2 in P by (rewrite Hwin1; lia). cbn [latest] in P.
  change ((66 - 1 =? 0) || (66 - 1 <=? 64) && (66 - 1 <=? 66 - 1) && getbit (table {| latest := 1; table := t1 |}) (66 - 1 - (66 - 1))) with false in P.
  destruct P as (t3 & E3 & _). rewrite E3. eexists; reflexivity.
Qed.

Lemma fresh_accepted : forall n ids id st vs, ids64 ids -> id < 2^64 ->
  offer (sessionStorage (Size n)) ids = Ret (st, vs) ->
  ~ In id ids -> id <> 0 ->
  (maxl (accepted ids vs) < id \/ maxl (accepted ids vs) - id < window n) ->
  exists st', checkAndRemember st id = Ret (st', true).
Proof.
  intros n ids id st vs H64 Hid E NI N0 Hc.
  destruct (session_storage_some n) as (st0 & E0 & S & C & L & Wn). rewrite E0 in E.
  destruct (offer_sound ids _ st0 [] S H64) as (st1 & vs1 & E1 & Lv & S1 & L1).
  rewrite E in E1. inversion E1; subst st vs1. clear E1. rewrite L, N.max_0_l in L1.
  cbn [checkAndRemember]. pose proof (win_eq _ _ _ S1) as Hw1. pose proof (win_eq _ _ _ S) as Hw.
  assert (NA : ~ In id (accepted ids vs)).
  { intro HI. apply NI. clear - HI. revert vs HI. induction ids; simpl; intros; auto.
    destruct vs as [|[] vs]; simpl in HI; auto.
    - contradiction.
    - destruct HI; eauto.
    - eauto. }
  destruct (N.lt_trichotomy (latest st1) id) as [H|[H|H]].
  - destruct (push_newer st1 id (s_ok _ _ _ S1)) as (t' & E2 & _); auto. rewrite E2. eauto.
  - destruct (s_lat _ _ _ S1) as [H0|H0]; [lia|]. rewrite app_nil_r in H0. apply in_rev in H0. congruence.
  - destruct Hc; [lia|].
    pose proof (push_older st1 id (s_ok _ _ _ S1) H) as P.
    specialize (P ltac:(lia)). destruct (getbit (table st1) (latest st1 - id)) eqn:Eb.
    + destruct (s_bits _ _ _ S1 (latest st1 - id)) as [A B]; auto; [lia|].
      rewrite app_nil_r in B. apply in_rev in B. replace (latest st1 - (latest st1 - id)) with id in B by lia.
      contradiction.
    + destruct P as (t' & E2 & _). rewrite E2. eauto.
Qed.

Lemma stale_rejected : forall n ids id st vs, ids64 ids ->
  offer (sessionStorage (Size n)) ids = Ret (st, vs) ->
  id < maxl (accepted ids vs) -> window n <= maxl (accepted ids vs) - id ->
  checkAndRemember st id = Ret (st, false).
Proof.
  intros n ids id st vs H64 E Hlt Hc.
  destruct (session_storage_some n) as (st0 & E0 & S & C & L & Wn). rewrite E0 in E.
  destruct (offer_sound ids _ st0 [] S H64) as (st1 & vs1 & E1 & Lv & S1 & L1).
  rewrite E in E1. inversion E1; subst st vs1. clear E1. rewrite L, N.max_0_l in L1.
  cbn [checkAndRemember]. pose proof (win_eq _ _ _ S1) as Hw1. pose proof (win_eq _ _ _ S) as Hw.
  rewrite push_stale by lia. auto.
Qed.

Lemma newer_accepted : forall n ids id st vs, ids64 ids -> id < 2^64 ->
  offer (sessionStorage (Size n)) ids = Ret (st, vs) ->
  maxl (accepted ids vs) < id ->
  exists st', checkAndRemember st id = Ret (st', true).
Proof.
  intros n ids id st vs H64 Hid E Hlt.
  destruct (session_storage_some n) as (st0 & E0 & S & C & L & Wn). rewrite E0 in E.
  destruct (offer_sound ids _ st0 [] S H64) as (st1 & vs1 & E1 & Lv & S1 & L1).
  rewrite E in E1. inversion E1; subst st vs1. clear E1. rewrite L, N.max_0_l in L1.
  cbn [checkAndRemember].
  destruct (push_newer st1 id (s_ok _ _ _ S1)) as (t' & E2 & _); [lia|]. rewrite E2. eauto.
Qed.

Lemma offer_total : forall n ids, ids64 ids ->
  exists st vs, offer (sessionStorage (Size n)) ids = Ret (st, vs) /\ length vs = length ids.
Proof.
  intros. destruct (session_storage_some n) as (st & E & S & C & L & Wn). rewrite E.
  destruct (offer_sound ids _ st [] S H) as (st1 & vs & E1 & Lv & _). eauto.
Qed.

Lemma grow_only : forall ids m, ids64 ids ->
  exists st' vs, offer (Some {| latest := m; table := [] |}) ids = Ret (st', vs) /\
    increasing_from m (accepted ids vs).
Proof.
  induction ids; intros m H.
  - exists (Some {| latest := m; table := [] |}), []. simpl; auto.
  - inversion H; subst. cbn [offer checkAndRemember].
    destruct (N.ltb_spec m a).
    + destruct (IHids a H3) as (st' & vs & E & I).
      assert (E1 : push {| latest := m; table := [] |} a = Ret ({| latest := a; table := [] |}, true)).
      { unfold push. cbn [latest table]. destruct (N.ltb_spec m a); [auto|lia]. }
      rewrite E1, E. exists st', (true :: vs). split; auto. cbn [accepted increasing_from]. auto.
    + destruct (IHids m H3) as (st' & vs & E & I).
      rewrite push_stale by (unfold win, len; cbn [latest table]; simpl length; lia).
      rewrite E. exists st', (false :: vs). split; auto.
Qed.

Lemma disabled_accepts_all : forall ids, offer (sessionStorage NegSize) ids = Ret (None, map (fun _ => true) ids).
Proof. induction ids; simpl; auto. cbn in IHids. rewrite IHids. auto. Qed.
