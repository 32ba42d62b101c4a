(** The public key 1 (a point of order 4) gives the all-zero secret with every
    private key. *)
From Coq Require Import ZArith NArith List Bool Lia.
From Verif Require Import Base BaseLemmas X25519Model.
Import ListNotations.
Local Open Scope Z_scope.

Lemma p_pos : p25519 <> 0.
Proof. unfold p25519. lia. Qed.

Definition reduced (a : Z) : Prop := 0 <= a < p25519.
Lemma mod_reduced : forall a, reduced (a mod p25519).
Proof. intros a. unfold reduced. apply Z.mod_pos_bound. unfold p25519. lia. Qed.

Lemma fmul_0_l : forall a, fmul 0 a = 0.
Proof. intros. unfold fmul. rewrite Z.mul_0_l. apply Z.mod_0_l, p_pos. Qed.
Lemma fmul_0_r : forall a, fmul a 0 = 0.
Proof. intros. unfold fmul. rewrite Z.mul_0_r. apply Z.mod_0_l, p_pos. Qed.
Lemma fsub_same : forall a, fsub a a = 0.
Proof. intros. unfold fsub. rewrite Z.sub_diag. apply Z.mod_0_l, p_pos. Qed.
Lemma fsub_0_r : forall a, fsub a 0 = a mod p25519.
Proof. intros. unfold fsub. rewrite Z.sub_0_r. reflexivity. Qed.
Lemma fadd_0_r : forall a, fadd a 0 = a mod p25519.
Proof. intros. unfold fadd. rewrite Z.add_0_r. reflexivity. Qed.
Lemma fadd_0_l : forall a, fadd 0 a = a mod p25519.
Proof. intros. reflexivity. Qed.

Lemma fsub_square : forall a, fmul (fsub 0 a) (fsub 0 a) = fmul (a mod p25519) (a mod p25519).
Proof.
  intros a. unfold fmul, fsub. rewrite <- !Z.mul_mod by apply p_pos. f_equal. lia.
Qed.
Lemma fmul_1 : forall a, reduced a -> fmul 1 a = a.
Proof. intros a H. unfold fmul. rewrite Z.mul_1_l. apply Z.mod_small. exact H. Qed.

(** Multiples of the point: 0 and 2 (even), 1 and 3 (odd). *)
Definition at0 (q : Z * Z) : Prop := snd q = 0.
Definition at2 (q : Z * Z) : Prop := fst q = 0.
Definition atOdd (q : Z * Z) : Prop := fst q = snd q.

Lemma op_even : forall q r, at0 q \/ at2 q -> atOdd r ->
  at0 (fst (ladderOp 1 (q, r))) /\ atOdd (snd (ladderOp 1 (q, r))).
Proof.
  intros [x2 z2] [x3 z3] Hq Hr. unfold atOdd, at0, at2 in *. cbn [fst snd] in Hq, Hr. subst x3.
  unfold ladderOp. cbn [fst snd]. rewrite fsub_same, fmul_0_l, fadd_0_l.
  assert (E : fmul (fadd x2 z2) (fadd x2 z2) = fmul (fsub x2 z2) (fsub x2 z2)).
  { destruct Hq as [-> | ->].
    - rewrite fadd_0_r, fsub_0_r. reflexivity.
    - rewrite fsub_square, fadd_0_l. reflexivity. }
  rewrite E, fsub_same, fmul_0_l. split; [reflexivity|].
  rewrite fsub_square. rewrite fmul_1 by apply mod_reduced. reflexivity.
Qed.

Lemma op_odd : forall q r, atOdd q ->
  at2 (fst (ladderOp 1 (q, r))) /\ atOdd (snd (ladderOp 1 (q, r))).
Proof.
  intros [x2 z2] [x3 z3] Hq. unfold atOdd, at2 in *. cbn [fst snd] in Hq. subst x2.
  unfold ladderOp. cbn [fst snd]. rewrite fsub_same, !fmul_0_r, fadd_0_r, fsub_0_r. split; [reflexivity|].
  rewrite fmul_1 by apply mod_reduced. reflexivity.
Qed.

Definition inv1 (s : (Z * Z) * (Z * Z)) : Prop :=
  ((at0 (fst s) \/ at2 (fst s)) /\ atOdd (snd s)) \/ (atOdd (fst s) /\ (at0 (snd s) \/ at2 (snd s))).

Lemma step_even : forall s, inv1 s -> (at0 (fst (ladderStep 1 false s)) \/ at2 (fst (ladderStep 1 false s))) /\ atOdd (snd (ladderStep 1 false s)).
Proof.
  intros [q r] [[H1 H2]|[H1 H2]]; cbn [fst snd] in *; unfold ladderStep.
  - destruct (op_even q r H1 H2). auto.
  - destruct (op_odd q r H1). auto.
Qed.

Lemma step_inv : forall b s, inv1 s -> inv1 (ladderStep 1 b s).
Proof.
  intros b s I. destruct b; [|left; apply step_even; exact I].
  destruct s as [q r]. unfold ladderStep, swap2. cbn [fst snd]. right. cbn [fst snd].
  destruct I as [[H1 H2]|[H1 H2]]; cbn [fst snd] in *.
  - destruct (op_odd r q H2). auto.
  - destruct (op_even r q H2 H1). auto.
Qed.

Lemma fold_inv : forall bits s, inv1 s -> inv1 (fold_left (fun s b => ladderStep 1 b s) bits s).
Proof. induction bits as [|b bits IH]; intros s I; [exact I|]. cbn [fold_left]. apply IH, step_inv, I. Qed.

Lemma ladder_low : forall bits, at0 (fst (ladder 1 (bits ++ [false; false]))).
Proof.
  intros bits. unfold ladder. rewrite fold_left_app. cbn [fold_left].
  set (s := fold_left _ bits _). assert (I : inv1 s).
  { unfold s. apply fold_inv. left. cbn. split; [left|]; reflexivity. }
  pose proof (step_even s I) as [H1 H2]. set (t := ladderStep 1 false s) in *. destruct t as [q r]. cbn [fst snd] in *.
  unfold ladderStep. apply op_even; auto.
Qed.

Lemma bits_low : forall k n, exists bits,
  bitsDown k (n + 2) = bits ++ [N.testbit k 1; N.testbit k 0].
Proof.
  intros k. induction n as [|n [bits IH]].
  - exists []. reflexivity.
  - exists (N.testbit k (N.of_nat (n + 2)) :: bits). cbn [Nat.add bitsDown app]. rewrite IH. reflexivity.
Qed.

Lemma clamp_low : forall k i, (i < 3)%N -> N.testbit (clamp k) i = false.
Proof.
  intros k i Hi. unfold clamp. rewrite N.lor_spec, N.land_spec.
  assert (H : i = 0%N \/ i = 1%N \/ i = 2%N) by lia.
  destruct H as [-> |[-> | ->]]; rewrite andb_false_r || rewrite (andb_comm _ (N.testbit _ _)); vm_compute; reflexivity.
Qed.

Lemma fpow_0 : forall n, fpow 0 n = 0.
Proof. induction n; cbn [fpow]; try (rewrite IHn, ?fmul_0_l; reflexivity). apply Z.mod_0_l, p_pos. Qed.

Lemma le_enc_0 : forall n, le_enc n 0 = repeat 0%N n.
Proof. induction n as [|n IH]; [reflexivity|]. cbn [le_enc repeat]. rewrite N.div_0_l by lia. rewrite IH. reflexivity. Qed.

(** Every public key that encodes 1, whatever its unused top bit. *)
Theorem x25519_order4 : forall priv pub, N.land (le_dec pub) (2^255 - 1) = 1%N -> x25519 priv pub = repeat 0%N 32.
Proof.
  intros priv pub Hp. unfold x25519. rewrite Hp.
  assert (U : Z.of_N 1 mod p25519 = 1) by (vm_compute; reflexivity). rewrite U.
  destruct (bits_low (clamp (le_dec priv)) 253) as [bits E]. change (253 + 2)%nat with 255%nat in E. rewrite E.
  rewrite !clamp_low by lia. pose proof (ladder_low bits) as L. unfold at0 in L.
  destruct (ladder 1 (bits ++ [false; false])) as [[x2 z2] r]. cbn [fst snd] in L. subst z2.
  unfold finv. rewrite fpow_0, fmul_0_r. apply le_enc_0.
Qed.
