From Coq Require Import NArith List Bool Lia Arith.
From Verif Require Import Base BaseLemmas MessageModel PendingChainModel BitCount.
Import ListNotations.
Local Open Scope nat_scope.

Definition marked (c : chain) (k : nat) : bool := bitAt (isSet c) k.

Record wfc (c : chain) : Prop := {
  wf_words : Forall w64 (isSet c);
  wf_exp : N.to_nat (expected c) <= length (cdata c);
  wf_room : length (cdata c) <= 64 * length (isSet c);
  wf_mem : (N.of_nat (64 * length (isSet c)) < 2^64)%N;
  wf_recv : received c = total (isSet c);
  wf_marks : forall k, N.to_nat (expected c) <= k -> marked c k = false
}.

Lemma wf_recv_cnt : forall c, wfc c -> received c = N.of_nat (cnt (marked c) (N.to_nat (expected c))).
Proof.
  intros c [W E R M V K]. rewrite V, total_cnt by auto. f_equal.
  apply cnt_support; [lia|]. intros. apply K. lia.
Qed.

Lemma recv_full : forall c, wfc c ->
  ((expected c <= received c)%N <-> forall k, k < N.to_nat (expected c) -> marked c k = true).
Proof.
  intros c H. rewrite wf_recv_cnt by auto. rewrite <- cnt_all.
  pose proof (cnt_le (marked c) (N.to_nat (expected c))). lia.
Qed.

(** the buffer after copying [b] to position [s] *)
Definition splice (d : bytes) (s : nat) (b : bytes) : bytes :=
  firstn s d ++ b ++ skipn (s + length b) d.

Lemma splice_length : forall d s b, s + length b <= length d -> length (splice d s b) = length d.
Proof. intros. unfold splice. rewrite !app_length, firstn_length, skipn_length. lia. Qed.

Lemma splice_nth : forall d s b k, s + length b <= length d ->
  nth_error (splice d s b) k =
    if (s <=? k) && (k <? s + length b) then nth_error b (k - s) else nth_error d k.
Proof.
  intros. unfold splice.
  destruct (Nat.leb_spec s k); cbn [andb].
  - rewrite nth_error_app2 by (rewrite firstn_length; lia). rewrite firstn_length.
    replace (Nat.min s (length d)) with s by lia.
    destruct (Nat.ltb_spec k (s + length b)).
    + apply nth_error_app1. lia.
    + rewrite nth_error_app2 by lia.
      rewrite <- (firstn_skipn (s + length b) d) at 2.
      rewrite (nth_error_app2 (firstn _ _)) by (rewrite firstn_length; lia). f_equal.
      rewrite firstn_length. lia.
  - rewrite nth_error_app1 by (rewrite firstn_length; lia).
    rewrite <- (firstn_skipn s d) at 2. rewrite nth_error_app1; auto. rewrite firstn_length; lia.
Qed.

Lemma copyAt_splice : forall d s b, s + length b <= length d ->
  copyAt d (N.of_nat s) b = Some (splice d s b).
Proof.
  intros. unfold copyAt. destruct (N.ltb_spec (len d) (N.of_nat s)); [unfold len in *; lia|].
  rewrite Nat2N.id. replace (Nat.min (length d - s) (length b)) with (length b) by lia.
  rewrite firstn_all. reflexivity.
Qed.

Lemma chainMerge_spec : forall c hid htot s b, wfc c ->
  (received c < expected c)%N -> s + length b <= N.to_nat (expected c) ->
  exists c', chainMerge c {| fChainID := hid; fStartPos := N.of_nat s; fTotal := htot |} b
     = Ret (c', if (expected c' <=? received c')%N then Ok (Some (cdata c')) else Ok None) /\
    wfc c' /\ expected c' = expected c /\ length (isSet c') = length (isSet c) /\
    cdata c' = splice (cdata c) s b /\
    forall k, marked c' k = marked c k || ((64 * (s / 64) <=? k) && (k <? s + length b)).
Proof.
  intros c hid htot s b Hw Hlive Hr. destruct Hw as [W E R M V K] eqn:Hwe.
  unfold chainMerge. cbn [fStartPos].
  assert (Hend : (add64 (len b) (N.of_nat s) = N.of_nat (s + length b))%N).
  { unfold add64, len. rewrite N.mod_small by lia. lia. }
  assert (Hend2 : (add64 (N.of_nat s) (len b) = N.of_nat (s + length b))%N).
  { unfold add64, len. rewrite N.mod_small by lia. lia. }
  rewrite Hend, Hend2.
  destruct (N.leb_spec (expected c) (received c)); [lia|].
  destruct (N.ltb_spec (expected c) (N.of_nat (s + length b))); [lia|].
  rewrite copyAt_splice by lia.
  assert (Sh : forall n, N.to_nat (N.shiftr (N.of_nat n) 6) = n / 64).
  { intros. rewrite N.shiftr_div_pow2. change (2^6)%N with (N.of_nat 64). rewrite <- Nat2N.inj_div, Nat2N.id. auto. }
  rewrite N2Nat.inj_sub, !Sh.
  assert (Hdiv : s / 64 <= (s + length b) / 64) by (apply Nat.div_le_mono; lia).
  assert (Hdiv2 : 64 * ((s + length b) / 64) <= s + length b) by (apply Nat.mul_div_le; lia).
  destruct (setWords_spec ((s + length b) / 64 - s / 64) (isSet c) (s / 64)) as (l1 & n1 & E1 & F1 & L1 & T1 & B1); auto; [lia|].
  rewrite E1.
  destruct (setTail_spec l1 (s + length b)) as (l2 & n2 & E2 & F2 & L2 & T2 & B2); auto; [lia | lia |].
  rewrite E2.
  set (c' := {| isSet := l2; cdata := splice (cdata c) s b; expected := expected c; received := add64 (received c) (n1 + n2) |}).
  assert (Hmk : forall k, marked c' k = marked c k || ((64 * (s / 64) <=? k) && (k <? s + length b))).
  { intros k. unfold marked, c'. cbn [isSet]. rewrite B2, B1. rewrite <- orb_assoc. f_equal.
    replace (s / 64 + ((s + length b) / 64 - s / 64)) with ((s + length b) / 64) by lia.
    destruct (Nat.leb_spec (64 * (s / 64)) k), (Nat.ltb_spec k (64 * ((s + length b) / 64))),
      (Nat.leb_spec (64 * ((s + length b) / 64)) k), (Nat.ltb_spec k (s + length b)); cbn; auto; lia. }
  assert (Htot : (total l2 <= N.of_nat (64 * length l2))%N).
  { rewrite total_cnt by auto. pose proof (cnt_le (bitAt l2) (64 * length l2)). lia. }
  assert (Hrec : add64 (received c) (n1 + n2) = total l2).
  { unfold add64. rewrite N.mod_small; [lia|]. rewrite V.
    replace (total (isSet c) + (n1 + n2))%N with (total l2) by lia.
    rewrite L2, L1 in Htot. lia. }
  exists c'.
  split.
  { unfold c'. cbn [expected received cdata].
    destruct (expected c <=? add64 (received c) (n1 + n2))%N; reflexivity. }
  split.
  { constructor; unfold c'; cbn [isSet cdata expected received]; auto.
    - rewrite splice_length by lia. lia.
    - rewrite splice_length by lia. lia.
    - rewrite L2, L1. lia.
    - intros k Hk. rewrite Hmk, K by auto. cbn [orb].
      destruct (Nat.ltb_spec k (s + length b)); [lia|]. apply andb_false_r. }
  split; auto. split; [unfold c'; cbn [isSet]; lia|]. split; auto.
Qed.

(** ** Init *)
Lemma total_zeros : forall A (l : list A), total (map (fun _ => 0%N) l) = 0%N.
Proof. induction l; auto. Qed.
Lemma total_repeat : forall n, total (repeat 0%N n) = 0%N.
Proof. induction n; auto. Qed.
Lemma w64_zeros : forall A (l : list A), Forall w64 (map (fun _ => 0%N) l).
Proof. intros. apply Forall_forall. intros x H. apply in_map_iff in H. destruct H as (_ & <- & _). reflexivity. Qed.
Lemma w64_repeat : forall n, Forall w64 (repeat 0%N n).
Proof. intros. apply Forall_forall. intros x H. apply repeat_spec in H. subst. reflexivity. Qed.
Lemma bitAt_zeros : forall l k, Forall (fun w => w = 0%N) l -> bitAt l k = false.
Proof.
  intros. unfold bitAt. destruct (Nat.lt_ge_cases (k / 64) (length l)).
  - rewrite Forall_forall in H. rewrite (H (nth (k / 64) l 0%N)); [apply N.bits_0|]. apply nth_In; auto.
  - rewrite nth_overflow by auto. apply N.bits_0.
Qed.
Lemma zeros_map : forall A (l : list A), Forall (fun w => w = 0%N) (map (fun _ => 0%N) l).
Proof. intros. apply Forall_forall. intros x H. apply in_map_iff in H. destruct H as (_ & <- & _). reflexivity. Qed.
Lemma zeros_repeat : forall n, Forall (fun w => w = 0%N) (repeat 0%N n).
Proof. intros. apply Forall_forall. intros x H. apply repeat_spec in H. auto. Qed.

(** Buffers that agree in size: what every chain satisfies between messages. *)
Definition bufok (c : chain) : Prop :=
  length (cdata c) <= 64 * length (isSet c) /\ (N.of_nat (64 * length (isSet c)) < 2^64)%N.

Lemma emptyChain_bufok : bufok emptyChain.
Proof. split; simpl; lia. Qed.
Lemma wfc_bufok : forall c, wfc c -> bufok c.
Proof. intros c [ ]. split; auto. Qed.

Lemma chainInit_spec : forall c n, bufok c -> (n < 2^63)%N ->
  let c' := chainInit c n in
  wfc c' /\ expected c' = n /\ received c' = 0%N /\ (forall k, marked c' k = false) /\
  (length (cdata c') = Nat.max (length (cdata c)) (N.to_nat n)) /\
  ((n <= len (cdata c))%N -> cdata c' = cdata c).
Proof.
  intros c n [B1 B2] Hn. unfold chainInit, chainReset. cbn [isSet cdata].
  destruct (N.leb_spec n (len (cdata c))) as [H|H]; unfold len in H; cbv zeta.
  - split; [|split; [|split; [|split; [|split]]]]; cbn [isSet cdata expected received]; auto.
    + constructor; cbn [isSet cdata expected received]; auto; try (rewrite map_length; auto).
      * apply w64_zeros.
      * lia.
      * rewrite total_zeros; auto.
      * intros. unfold marked. cbn. apply bitAt_zeros, zeros_map.
    + intros. unfold marked. cbn. apply bitAt_zeros, zeros_map.
    + lia.
  - assert (Ha : (add64 n 63 = n + 63)%N) by (unfold add64; rewrite N.mod_small; lia).
    assert (Hd : (64 * ((n + 63) / 64) <= n + 63)%N) by (apply N.mul_div_le; lia).
    assert (Hd2 : (n <= 64 * ((n + 63) / 64))%N).
    { pose proof (N.div_mod (n + 63) 64 ltac:(lia)). pose proof (N.mod_lt (n + 63) 64 ltac:(lia)). lia. }
    rewrite Ha.
    split; [|split; [|split; [|split; [|split]]]]; cbn [isSet cdata expected received]; auto.
    + constructor; cbn [isSet cdata expected received]; auto; rewrite ?repeat_length; auto.
      * apply w64_repeat.
      * lia.
      * lia.
      * rewrite total_repeat; auto.
      * intros. unfold marked. cbn. apply bitAt_zeros, zeros_repeat.
    + intros. unfold marked. cbn. apply bitAt_zeros, zeros_repeat.
    + rewrite repeat_length. lia.
    + unfold len. lia.
Qed.

Lemma chainReset_bufok : forall c, bufok c -> bufok (chainReset c).
Proof. intros c [H1 H2]. split; cbn; rewrite map_length; auto. Qed.
