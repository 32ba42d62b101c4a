(** Lemmas about [Base]. *)
From Coq Require Import NArith List Lia Bool Arith.
From Verif Require Import Base.
Import ListNotations.
Open Scope N_scope.

Lemma le_enc_length : forall k n, length (le_enc k n) = k.
Proof. induction k; simpl; intros; congruence. Qed.

Lemma le_enc_ok : forall k n, bytes_ok (le_enc k n).
Proof.
  induction k; simpl; intros; constructor.
  - unfold byte_ok. apply N.mod_lt. lia.
  - apply IHk.
Qed.

Lemma le_dec_enc : forall k n, n < 2 ^ (8 * N.of_nat k) -> le_dec (le_enc k n) = n.
Proof.
  induction k; intros n H.
  - simpl in H. simpl. change (2^0) with 1 in H. lia.
  - cbn [le_enc le_dec]. rewrite IHk.
    + pose proof (N.div_mod n 256 ltac:(lia)). lia.
    + apply N.div_lt_upper_bound; [lia|].
      replace (8 * N.of_nat (S k)) with (8 + 8 * N.of_nat k) in H by lia.
      rewrite N.pow_add_r in H. change (2^8) with 256 in H. lia.
Qed.

Lemma le_dec_bound : forall bs, bytes_ok bs -> le_dec bs < 2 ^ (8 * N.of_nat (length bs)).
Proof.
  induction bs; intros H.
  - simpl. lia.
  - inversion H; subst. specialize (IHbs H3).
    simpl length. replace (8 * N.of_nat (S (length bs))) with (8 + 8 * N.of_nat (length bs)) by lia.
    rewrite N.pow_add_r. change (2^8) with 256. cbn [le_dec]. unfold byte_ok in H2.
    assert (le_dec bs + 1 <= 2 ^ (8 * N.of_nat (length bs))) by lia. nia.
Qed.

Lemma le_enc_dec : forall bs, bytes_ok bs -> le_enc (length bs) (le_dec bs) = bs.
Proof.
  induction bs; intros H; cbn [length le_enc le_dec]; auto.
  inversion H; subst. unfold byte_ok in H2.
  f_equal.
  - rewrite N.mul_comm, N.mod_add by lia. apply N.mod_small; auto.
  - replace (a + 256 * le_dec bs) with (le_dec bs * 256 + a) by lia.
    rewrite N.div_add_l by lia. rewrite N.div_small by auto. rewrite N.add_0_r. auto.
Qed.

Lemma le_enc_inj : forall k a b, a < 2 ^ (8 * N.of_nat k) -> b < 2 ^ (8 * N.of_nat k) ->
  le_enc k a = le_enc k b -> a = b.
Proof.
  intros. rewrite <- (le_dec_enc k a), <- (le_dec_enc k b) by auto. congruence.
Qed.

Lemma bytes_eqb_eq : forall a b, bytes_eqb a b = true <-> a = b.
Proof.
  induction a; destruct b; simpl; split; intros; try congruence.
  - apply andb_true_iff in H. destruct H. apply N.eqb_eq in H. apply IHa in H0. congruence.
  - inversion H; subst. rewrite N.eqb_refl. simpl. apply IHa; auto.
Qed.

Lemma bytes_eqb_refl : forall a, bytes_eqb a a = true.
Proof. intros; apply bytes_eqb_eq; auto. Qed.

Lemma bytes_eqb_neq : forall a b, bytes_eqb a b = false <-> a <> b.
Proof.
  intros. split; intros.
  - intro E. apply bytes_eqb_eq in E. congruence.
  - destruct (bytes_eqb a b) eqn:E; auto. apply bytes_eqb_eq in E. congruence.
Qed.

Lemma len_app : forall A (a b : list A), len (a ++ b) = len a + len b.
Proof. intros. unfold len. rewrite app_length. lia. Qed.

Lemma len_cons : forall A (a : A) b, len (a :: b) = 1 + len b.
Proof. intros. unfold len. simpl length. lia. Qed.

Lemma len_nil : forall A, len (@nil A) = 0.
Proof. reflexivity. Qed.

Lemma firstn_app_l : forall A (a b : list A) n, n = length a -> firstn n (a ++ b) = a.
Proof. intros; subst. rewrite firstn_app, Nat.sub_diag, firstn_all. simpl. apply app_nil_r. Qed.

Lemma skipn_app_l : forall A (a b : list A) n, n = length a -> skipn n (a ++ b) = b.
Proof. intros; subst. rewrite skipn_app, Nat.sub_diag, skipn_all. reflexivity. Qed.

Lemma xorb_bytes_length : forall a b, length (xorb_bytes a b) = Nat.min (length a) (length b).
Proof. induction a; destruct b; simpl; auto. Qed.

Lemma xorb_bytes_invol : forall a k, (length a <= length k)%nat ->
  xorb_bytes (xorb_bytes a k) k = a.
Proof.
  induction a; destruct k; simpl; intros; auto; try lia.
  f_equal.
  - rewrite N.lxor_assoc, N.lxor_nilpotent, N.lxor_0_r. auto.
  - apply IHa; lia.
Qed.

Lemma xorb_bytes_cancel : forall a b k, (length a <= length k)%nat -> length a = length b ->
  xorb_bytes (xorb_bytes a k) (xorb_bytes b k) = xorb_bytes a b.
Proof.
  induction a; destruct b, k; simpl; intros; auto; try lia.
  f_equal.
  - rewrite (N.lxor_comm n n0), N.lxor_assoc, <- (N.lxor_assoc n0 n0 n).
    rewrite N.lxor_nilpotent, N.lxor_0_l. auto.
  - apply IHa; lia.
Qed.

Lemma Forall_firstn : forall A (P : A -> Prop) n l, Forall P l -> Forall P (firstn n l).
Proof. induction n; destruct l; simpl; intros; auto. inversion H; subst; auto. Qed.
Lemma Forall_skipn : forall A (P : A -> Prop) n l, Forall P l -> Forall P (skipn n l).
Proof. induction n; destruct l; simpl; intros; auto. inversion H; subst; auto. Qed.

Lemma testbit_high : forall v n k, v < 2^n -> n <= k -> N.testbit v k = false.
Proof.
  intros. destruct (N.eq_dec v 0) as [->|]; [apply N.bits_0|].
  apply N.bits_above_log2. apply N.log2_lt_pow2 in H; lia.
Qed.

Lemma nth_error_ext' : forall A (a b : list A), (forall k, nth_error a k = nth_error b k) -> a = b.
Proof.
  induction a; destruct b; intros H; auto.
  - specialize (H 0%nat). discriminate.
  - specialize (H 0%nat). discriminate.
  - pose proof (H 0%nat) as H0. cbn in H0. injection H0 as ->. f_equal. apply IHa. intros k. apply (H (S k)).
Qed.
