(** Counting: boolean predicates on an initial segment of nat, and population
    counts of words. *)
From Coq Require Import NArith List Bool Lia Arith.
From Verif Require Import Base BaseLemmas PendingChainModel.
Import ListNotations.
Local Open Scope nat_scope.

Definition b2n (b : bool) : nat := if b then 1 else 0.
Fixpoint cnt (f : nat -> bool) (n : nat) : nat :=
  match n with O => 0 | S m => cnt f m + b2n (f m) end.

Lemma cnt_ext : forall f g n, (forall i, i < n -> f i = g i) -> cnt f n = cnt g n.
Proof. induction n; simpl; intros; auto. rewrite IHn by auto. rewrite H by lia. auto. Qed.

Lemma cnt_le : forall f n, cnt f n <= n.
Proof. induction n; simpl; auto. destruct (f n); simpl; lia. Qed.

Lemma cnt_all : forall f n, cnt f n = n <-> forall i, i < n -> f i = true.
Proof.
  induction n; simpl; split; intros; try lia.
  - pose proof (cnt_le f n). destruct (f n) eqn:E; simpl in H; [|lia].
    destruct (Nat.eq_dec i n); subst; auto. apply IHn; lia.
  - rewrite H by lia. simpl. assert (cnt f n = n) by (apply IHn; intros; apply H; lia). lia.
Qed.

Lemma cnt_none : forall f n, (forall i, i < n -> f i = false) -> cnt f n = 0.
Proof. induction n; simpl; intros; auto. rewrite IHn, H by auto. auto. Qed.

Lemma cnt_shift : forall f n m, cnt f (n + m) = cnt f n + cnt (fun i => f (n + i)) m.
Proof.
  induction m; simpl; [rewrite Nat.add_0_r; lia|].
  rewrite Nat.add_succ_r. simpl. lia.
Qed.

Lemma cnt_rev : forall n f, cnt f n = cnt (fun i => f (n - 1 - i)) n.
Proof.
  induction n; intros; auto.
  replace (S n) with (1 + n) at 2 by lia. rewrite cnt_shift. cbn [cnt].
  replace (S n - 1 - 0) with n by lia.
  rewrite (IHn f). rewrite Nat.add_comm. f_equal.
  apply cnt_ext. intros. f_equal. lia.
Qed.

Lemma cnt_orb : forall f g n, cnt (fun i => f i || g i) n = cnt f n + cnt (fun i => g i && negb (f i)) n.
Proof. induction n; cbn [cnt]; auto. rewrite IHn. destruct (f n), (g n); cbn [b2n orb andb negb]; lia. Qed.

(** support: a predicate false from [m] on *)
Lemma cnt_support : forall f m n, m <= n -> (forall i, m <= i < n -> f i = false) -> cnt f n = cnt f m.
Proof.
  intros. replace n with (m + (n - m)) by lia. rewrite cnt_shift.
  rewrite (cnt_none (fun i => f (m + i))); [lia|].
  intros. apply H0. lia.
Qed.

Lemma onesCount_double : forall v, onesCount v = (N.of_nat (b2n (N.odd v)) + onesCount (N.div2 v))%N.
Proof. destruct v as [|[p|p|]]; cbn; reflexivity. Qed.

Lemma onesCount_cnt : forall n v, (v < 2 ^ N.of_nat n)%N ->
  onesCount v = N.of_nat (cnt (fun i => N.testbit v (N.of_nat i)) n).
Proof.
  induction n; intros.
  - change (2 ^ N.of_nat 0)%N with 1%N in H. replace v with 0%N by lia. reflexivity.
  - rewrite onesCount_double. change (S n) with (1 + n) at 1. rewrite cnt_shift. cbn [cnt].
    change (N.of_nat 0) with 0%N. rewrite N.bit0_odd.
    rewrite (IHn (N.div2 v)).
    + rewrite Nat2N.inj_add. simpl (0 + _). f_equal. f_equal. apply cnt_ext. intros.
      rewrite N.div2_spec, N.shiftr_spec by lia. f_equal. lia.
    + rewrite N.div2_div. apply N.div_lt_upper_bound; [lia|].
      rewrite <- N.pow_succ_r', <- Nat2N.inj_succ. auto.
Qed.

Definition w64 (v : N) : Prop := (v < 2 ^ 64)%N.

Lemma lor_w64 : forall a b, w64 a -> w64 b -> w64 (N.lor a b).
Proof.
  unfold w64; intros. destruct (N.eq_dec (N.lor a b) 0) as [->|Hz]; [lia|].
  apply N.log2_lt_pow2; [lia|]. rewrite N.log2_lor.
  destruct (N.eq_dec a 0), (N.eq_dec b 0); subst; try (rewrite N.lor_0_l in Hz; congruence).
  - simpl. apply N.max_lub_lt; [reflexivity|apply N.log2_lt_pow2; lia].
  - simpl. apply N.max_lub_lt; [apply N.log2_lt_pow2; lia|reflexivity].
  - apply N.max_lub_lt; apply N.log2_lt_pow2; lia.
Qed.

Lemma isSetSet_spec : forall a b nv n, w64 a -> w64 b ->
  pendingChainIsSetSet a b = (nv, n) ->
  nv = N.lor a b /\ w64 nv /\ (onesCount nv = onesCount a + n)%N.
Proof.
  unfold pendingChainIsSetSet. intros a b nv n Ha Hb H. injection H as <- <-.
  pose proof (lor_w64 a b Ha Hb) as Hl.
  split; auto. split; auto.
  assert (Hd : w64 (N.lxor (N.lor a b) a)).
  { unfold w64. destruct (N.eq_dec (N.lxor (N.lor a b) a) 0) as [->|Hz]; [lia|].
    destruct (N.lt_ge_cases (N.log2 (N.lxor (N.lor a b) a)) 64); [apply N.log2_lt_pow2; lia|].
    pose proof (N.bit_log2 _ Hz) as B. rewrite N.lxor_spec in B.
    rewrite (testbit_high (N.lor a b) 64), (testbit_high a 64) in B by auto. discriminate. }
  rewrite !(onesCount_cnt 64) by assumption.
  rewrite <- Nat2N.inj_add. f_equal.
  rewrite (cnt_ext _ (fun i => N.testbit a (N.of_nat i) || N.testbit b (N.of_nat i)))
    by (intros; apply N.lor_spec).
  rewrite cnt_orb. f_equal. apply cnt_ext. intros. rewrite N.lxor_spec, N.lor_spec.
  destruct (N.testbit a (N.of_nat i)), (N.testbit b (N.of_nat i)); auto.
Qed.

(** ** Bitmaps: byte position [k] is bit [63 - k mod 64] of word [k / 64]. *)
Definition bitAt (l : list N) (k : nat) : bool :=
  N.testbit (nth (k / 64) l 0%N) (N.of_nat (63 - k mod 64)).
Definition total (l : list N) : N := fold_right (fun w s => (onesCount w + s)%N) 0%N l.

Lemma bitAt_cons_lo : forall w l k, k < 64 -> bitAt (w :: l) k = N.testbit w (N.of_nat (63 - k)).
Proof. intros. unfold bitAt. rewrite Nat.div_small, Nat.mod_small by auto. auto. Qed.
Lemma bitAt_cons_hi : forall w l k, bitAt (w :: l) (64 + k) = bitAt l k.
Proof.
  intros. unfold bitAt.
  replace (64 + k) with (k + 1 * 64) by lia. rewrite Nat.div_add, Nat.mod_add by lia.
  rewrite Nat.add_1_r. reflexivity.
Qed.

Lemma total_cnt : forall l, Forall w64 l -> total l = N.of_nat (cnt (bitAt l) (64 * length l)).
Proof.
  induction l; intros H; auto. inversion H; subst.
  change (length (a :: l)) with (S (length l)). replace (64 * S (length l)) with (64 + 64 * length l) by lia.
  rewrite cnt_shift. change (total (a :: l)) with (onesCount a + total l)%N. rewrite IHl by auto. rewrite Nat2N.inj_add. f_equal.
  - rewrite (onesCount_cnt 64) by auto. f_equal. rewrite cnt_rev. apply cnt_ext. intros.
    rewrite bitAt_cons_lo by auto. f_equal.
  - f_equal. apply cnt_ext. intros. symmetry. apply bitAt_cons_hi.
Qed.

Lemma orAt_spec : forall l i v, Forall w64 l -> w64 v -> i < length l ->
  exists l' n, orAt l i v = Some (l', n) /\ Forall w64 l' /\ length l' = length l /\
    total l' = (total l + n)%N /\
    forall k, bitAt l' k = bitAt l k || ((k / 64 =? i) && N.testbit v (N.of_nat (63 - k mod 64))).
Proof.
  induction l; intros i v Hl Hv Hi; [simpl in Hi; lia|].
  inversion Hl; subst. destruct i.
  - cbn [orAt]. destruct (pendingChainIsSetSet a v) as [nv n] eqn:E.
    apply isSetSet_spec in E; auto. destruct E as (-> & Hw & Ho).
    exists (N.lor a v :: l), n. split; auto. split; [constructor; auto|]. split; auto.
    split; [unfold total in *; simpl; lia|].
    intros k. unfold bitAt. destruct (k / 64) as [|q]; cbn [nth Nat.eqb].
    + rewrite N.lor_spec. auto.
    + simpl. rewrite orb_false_r. auto.
  - cbn [orAt]. destruct (IHl i v) as (l' & n & E & F & L & T & B); auto; [simpl in Hi; lia|].
    rewrite E. exists (a :: l'), n. split; auto. split; [constructor; auto|].
    split; [simpl; lia|]. split; [unfold total in *; simpl; lia|].
    intros k. destruct (Nat.lt_ge_cases k 64).
    + rewrite !bitAt_cons_lo by auto. rewrite (Nat.div_small k 64) by auto. simpl. rewrite orb_false_r. auto.
    + replace k with (64 + (k - 64)) by lia. rewrite !bitAt_cons_hi.
      rewrite B. f_equal.
      replace (64 + (k - 64)) with ((k - 64) + 1 * 64) by lia.
      rewrite Nat.div_add, Nat.mod_add by lia. rewrite Nat.add_1_r. auto.
Qed.

Lemma testbit_ones64 : forall i, (i < 64)%N -> N.testbit (2 ^ 64 - 1) i = true.
Proof. intros. change (2^64 - 1)%N with (N.ones 64). apply N.ones_spec_low. auto. Qed.

Lemma setWords_spec : forall k l i, Forall w64 l -> i + k <= length l ->
  exists l' n, setWords l i k = Some (l', n) /\ Forall w64 l' /\ length l' = length l /\
    total l' = (total l + n)%N /\
    forall p, bitAt l' p = bitAt l p || ((64 * i <=? p) && (p <? 64 * (i + k))).
Proof.
  induction k; intros l i Hl Hi.
  - exists l, 0%N. split; [reflexivity|]. split; [auto|]. split; [auto|]. split; [lia|]. intros.
    destruct (Nat.leb_spec (64 * i) p), (Nat.ltb_spec p (64 * (i + 0))); cbn; try (rewrite orb_false_r; auto). lia.
  - cbn [setWords]. destruct (orAt_spec l i (2^64 - 1)) as (l1 & n1 & E1 & F1 & L1 & T1 & B1);
      auto; [reflexivity | lia|].
    rewrite E1.
    destruct (IHk l1 (S i)) as (l2 & n2 & E2 & F2 & L2 & T2 & B2); auto; [lia|].
    rewrite E2. exists l2, (n1 + n2)%N. split; auto. split; auto. split; [lia|].
    split; [lia|]. intros p. rewrite B2, B1. rewrite <- orb_assoc. f_equal.
    assert (Hm : (N.of_nat (63 - p mod 64) < 64)%N) by lia.
    rewrite (testbit_ones64 _ Hm), andb_true_r. clear Hm.
    destruct (Nat.eqb_spec (p / 64) i).
    + assert (64 * i <= p < 64 * S i).
      { pose proof (Nat.div_mod p 64 ltac:(lia)). pose proof (Nat.mod_upper_bound p 64 ltac:(lia)). nia. }
      destruct (Nat.leb_spec (64 * i) p), (Nat.ltb_spec p (64 * (i + S k))); cbn; auto; lia.
    + assert (~ (64 * i <= p < 64 * S i)).
      { pose proof (Nat.div_mod p 64 ltac:(lia)). pose proof (Nat.mod_upper_bound p 64 ltac:(lia)). nia. }
      cbn [orb].
      destruct (Nat.leb_spec (64 * i) p), (Nat.ltb_spec p (64 * (i + S k))),
        (Nat.leb_spec (64 * S i) p), (Nat.ltb_spec p (64 * (S i + k))); cbn; auto; lia.
Qed.

Lemma setLeadingOnes64_spec : forall v, (v < 64)%N ->
  setLeadingOnes64 v = (2^64 - 2^(64 - v))%N.
Proof.
  intros v H. assert (forallb (fun i => setLeadingOnes64 (N.of_nat i) =? 2^64 - 2^(64 - N.of_nat i))%N (seq 0 64) = true)
    by (vm_compute; reflexivity).
  rewrite forallb_forall in H0. specialize (H0 (N.to_nat v)).
  rewrite N2Nat.id in H0. apply N.eqb_eq, H0. apply in_seq. lia.
Qed.

Lemma leadingOnes_bit : forall v j, v < 64 -> j < 64 ->
  N.testbit (setLeadingOnes64 (N.of_nat v)) (N.of_nat (63 - j)) = (j <? v).
Proof.
  intros v j Hv Hj.
  assert (forallb (fun v => forallb (fun j => Bool.eqb (N.testbit (setLeadingOnes64 (N.of_nat v)) (N.of_nat (63 - j))) (j <? v)) (seq 0 64)) (seq 0 64) = true)
    by (vm_compute; reflexivity).
  rewrite forallb_forall in H. specialize (H v). rewrite forallb_forall in H.
  apply eqb_prop, H; apply in_seq; lia.
Qed.

Lemma leadingOnes_w64 : forall v, v < 64 -> w64 (setLeadingOnes64 (N.of_nat v)).
Proof.
  intros. rewrite setLeadingOnes64_spec by lia. unfold w64.
  assert (0 < 2 ^ (64 - N.of_nat v))%N by (apply N.neq_0_lt_0, N.pow_nonzero; lia).
  assert (2 ^ (64 - N.of_nat v) <= 2^64)%N by (apply N.pow_le_mono_r; lia). lia.
Qed.

Lemma land_hi : forall e, (e < 2^64)%N -> N.land e (2^64 - 64) = (64 * (e / 64))%N.
Proof.
  intros. apply N.bits_inj. intros i.
  replace (64 * (e / 64))%N with (N.shiftl (N.shiftr e 6) 6).
  2:{ rewrite N.shiftl_mul_pow2, N.shiftr_div_pow2. change (2^6)%N with 64%N. lia. }
  replace (2^64 - 64)%N with (N.shiftl (N.ones 58) 6) by reflexivity.
  rewrite N.land_spec. destruct (N.lt_ge_cases i 6).
  - rewrite !N.shiftl_spec_low by auto. apply andb_false_r.
  - rewrite !N.shiftl_spec_high' by auto. rewrite N.shiftr_spec by lia.
    replace (i - 6 + 6)%N with i by lia.
    destruct (N.lt_ge_cases (i - 6) 58).
    + rewrite N.ones_spec_low by auto. apply andb_true_r.
    + rewrite (testbit_high e 64) by (auto; lia). auto.
Qed.

Lemma setTail_spec : forall l e, Forall w64 l -> (N.of_nat e < 2^64)%N -> e <= 64 * length l ->
  exists l' n, setTail l (N.of_nat e) = Some (l', n) /\ Forall w64 l' /\ length l' = length l /\
    total l' = (total l + n)%N /\
    forall p, bitAt l' p = bitAt l p || ((64 * (e / 64) <=? p) && (p <? e)).
Proof.
  intros l e Hl He Hb. unfold setTail. rewrite land_hi by auto.
  pose proof (Nat.div_mod e 64 ltac:(lia)) as D. pose proof (Nat.mod_upper_bound e 64 ltac:(lia)) as M.
  replace (64 * (N.of_nat e / 64))%N with (N.of_nat (64 * (e / 64))).
  2:{ rewrite Nat2N.inj_mul, Nat2N.inj_div. reflexivity. }
  destruct (N.ltb_spec (N.of_nat (64 * (e / 64))) (N.of_nat e)).
  - rewrite <- Nat2N.inj_sub. replace (e - 64 * (e / 64)) with (e mod 64) by lia.
    replace (N.to_nat (N.shiftr (N.of_nat e) 6)) with (e / 64).
    2:{ rewrite N.shiftr_div_pow2. change (2^6)%N with (N.of_nat 64). rewrite <- Nat2N.inj_div, Nat2N.id. auto. }
    destruct (orAt_spec l (e / 64) (setLeadingOnes64 (N.of_nat (e mod 64)))) as (l' & n & E & F & L & T & B); auto.
    + apply leadingOnes_w64; auto.
    + lia.
    + exists l', n. split; auto. split; auto. split; auto. split; auto.
      intros p. rewrite B. f_equal.
      pose proof (Nat.div_mod p 64 ltac:(lia)) as Dp. pose proof (Nat.mod_upper_bound p 64 ltac:(lia)) as Mp.
      rewrite leadingOnes_bit by auto.
      destruct (Nat.eqb_spec (p / 64) (e / 64)); cbn [andb].
      * destruct (Nat.ltb_spec (p mod 64) (e mod 64)), (Nat.leb_spec (64 * (e / 64)) p), (Nat.ltb_spec p e); auto; lia.
      * destruct (Nat.leb_spec (64 * (e / 64)) p), (Nat.ltb_spec p e); auto.
        exfalso. nia.
  - exists l, 0%N. split; auto. split; auto. split; auto. split; [lia|].
    intros p. destruct (Nat.leb_spec (64 * (e / 64)) p), (Nat.ltb_spec p e); cbn; try (rewrite orb_false_r; auto). lia.
Qed.
