From Coq Require Import NArith List Bool Lia Arith.
From Verif Require Import Base BaseLemmas MessageModel PendingChainModel BitCount PendingChainProofs FragSpec.
Import ListNotations.
Local Open Scope nat_scope.

Definition cover64 (k : nat) (f : frag) : bool :=
  (64 * (N.to_nat (fst f) / 64) <=? k) && (k <? N.to_nat (fst f) + length (snd f)).
Definition cover (k : nat) (f : frag) : bool :=
  (N.to_nat (fst f) <=? k) && (k <? N.to_nat (fst f) + length (snd f)).
Definition full64 (n : nat) (seen : list frag) : bool :=
  forallb (fun k => existsb (cover64 k) seen) (seq 0 n).

Lemma full64_spec : forall n seen, full64 n seen = true <-> forall k, k < n -> existsb (cover64 k) seen = true.
Proof.
  intros. unfold full64. rewrite forallb_forall. split; intros.
  - apply H, in_seq. lia.
  - apply in_seq in H0. apply H. lia.
Qed.

Definition fragOf (m : bytes) (f : frag) : Prop :=
  N.to_nat (fst f) + length (snd f) <= length m /\
  forall i, i < length (snd f) -> nth_error (snd f) i = nth_error m (N.to_nat (fst f) + i).

Record Inv (m d0 : bytes) (c : chain) (seen : list frag) : Prop := {
  i_wf : wfc c;
  i_exp : expected c = len m;
  i_len : length (cdata c) = Nat.max (length d0) (length m);
  i_marks : forall k, marked c k = existsb (cover64 k) seen;
  i_data : forall k, existsb (cover k) seen = true -> nth_error (cdata c) k = nth_error m k;
  i_tail : forall k, length m <= k -> nth_error (cdata c) k = nth_error d0 k
}.

Lemma Inv_full : forall m d0 c seen, Inv m d0 c seen ->
  (expected c <=? received c)%N = full64 (length m) seen.
Proof.
  intros m d0 c seen [W E L M D T]. pose proof (recv_full c W) as F.
  destruct (full64 (length m) seen) eqn:Q.
  - apply N.leb_le, F. intros. rewrite M. rewrite full64_spec in Q. apply Q.
    rewrite E in H. unfold len in H. lia.
  - apply N.leb_gt. destruct (N.lt_ge_cases (received c) (expected c)); auto.
    pose proof (proj1 F H) as F'. assert (full64 (length m) seen = true); [|congruence].
    apply full64_spec. intros. rewrite <- M. apply F'. rewrite E. unfold len. lia.
Qed.

Lemma Inv_step : forall m d0 c seen s b hid htot, Inv m d0 c seen ->
  full64 (length m) seen = false -> fragOf m (s, b) ->
  exists c', chainMerge c {| fChainID := hid; fStartPos := s; fTotal := htot |} b =
      Ret (c', if full64 (length m) ((s, b) :: seen) then Ok (Some (cdata c')) else Ok None) /\
    Inv m d0 c' ((s, b) :: seen).
Proof.
  intros m d0 c seen s b hid htot HI Hf [Hr Hb]. cbn [fst snd] in Hr, Hb.
  pose proof (Inv_full _ _ _ _ HI) as HF. rewrite Hf in HF. apply N.leb_gt in HF.
  destruct HI as [W E L M D T].
  destruct (chainMerge_spec c hid htot (N.to_nat s) b W HF) as (c' & E1 & W' & E' & L' & D' & M').
  { rewrite E. unfold len. lia. }
  rewrite N2Nat.id in E1.
  assert (HI' : Inv m d0 c' ((s, b) :: seen)).
  { assert (Hroom : N.to_nat s + length b <= length (cdata c)) by lia.
    constructor; auto.
    - congruence.
    - rewrite D', splice_length; auto.
    - intros k. rewrite M', M. cbn [existsb]. rewrite orb_comm. reflexivity.
    - intros k Hk. rewrite D', splice_nth by auto. cbn [existsb] in Hk.
      destruct ((N.to_nat s <=? k) && (k <? N.to_nat s + length b)) eqn:Q.
      + apply andb_true_iff in Q. destruct Q as [Q1 Q2]. apply Nat.leb_le in Q1. apply Nat.ltb_lt in Q2.
        rewrite Hb by lia. f_equal. lia.
      + apply D. unfold cover at 1 in Hk. cbn [fst snd] in Hk. rewrite Q in Hk. auto.
    - intros k Hk. rewrite D', splice_nth by auto.
      destruct (Nat.leb_spec (N.to_nat s) k), (Nat.ltb_spec k (N.to_nat s + length b)); cbn [andb]; auto. lia. }
  exists c'. split; auto. rewrite E1. rewrite (Inv_full _ _ _ _ HI'). auto.
Qed.

(** ** Facts about tiles *)
Lemma tiles_app : forall a b off, tiles off (a ++ b) = tiles off a ++ tiles (off + len (concat a)) b.
Proof.
  induction a; intros; cbn [app tiles concat].
  - rewrite len_nil, N.add_0_r. auto.
  - rewrite IHa. rewrite len_app. unfold len. rewrite N.add_assoc. auto.
Qed.

Lemma tiles_in : forall pieces off s p, In (s, p) (tiles off pieces) ->
  exists a b, pieces = a ++ p :: b /\ s = (off + len (concat a))%N.
Proof.
  induction pieces; intros off s p H; [destruct H|].
  cbn [tiles] in H. destruct H as [H|H].
  - injection H as <- <-. exists [], pieces. split; auto. rewrite len_nil. lia.
  - apply IHpieces in H. destruct H as (x & y & -> & ->).
    exists (a :: x), y. split; auto. cbn [concat]. rewrite len_app. unfold len. lia.
Qed.

Lemma tiles_fragOf : forall pieces s p, In (s, p) (tiles 0 pieces) -> fragOf (concat pieces) (s, p).
Proof.
  intros pieces s p H. apply tiles_in in H. destruct H as (a & b & -> & ->).
  rewrite concat_app. cbn [concat]. split; cbn [fst snd].
  - rewrite !app_length. unfold len. lia.
  - intros i Hi. rewrite nth_error_app2 by (unfold len; lia).
    replace (N.to_nat (0 + len (concat a)) + i - length (concat a)) with i by (unfold len; lia).
    rewrite nth_error_app1 by auto. auto.
Qed.

Lemma tiles_order : forall pieces off s p s' p', In (s, p) (tiles off pieces) ->
  In (s', p') (tiles off pieces) -> (s < s')%N ->
  (s + len p <= s')%N /\ In p (removelast pieces).
Proof.
  assert (lower : forall pieces off s p, In (s, p) (tiles off pieces) -> (off <= s)%N).
  { intros. apply tiles_in in H. destruct H as (a & b & _ & ->). lia. }
  induction pieces; intros off s p s' p' H H' Hlt; [destruct H|].
  cbn [tiles] in H, H'. destruct H as [H|H], H' as [H'|H'].
  - injection H as <- <-. injection H' as <- <-. lia.
  - injection H as <- <-. split.
    + apply lower in H'. unfold len. lia.
    + destruct pieces; [destruct H'|]. cbn [removelast]. left; auto.
  - injection H' as <- <-. apply lower in H. lia.
  - destruct (IHpieces _ _ _ _ _ H H' Hlt) as [Q1 Q2]. split; auto.
    destruct pieces; [destruct H|]. change (In p (a :: removelast (l :: pieces))). right; auto.
Qed.

Lemma tiles_cover : forall pieces k, k < length (concat pieces) ->
  exists f, In f (tiles 0 pieces) /\ cover k f = true.
Proof.
  intros pieces. induction pieces using rev_ind; intros k Hk; [simpl in Hk; lia|].
  rewrite concat_app, app_length in Hk. cbn [concat] in Hk. rewrite app_nil_r in Hk.
  rewrite tiles_app. destruct (Nat.lt_ge_cases k (length (concat pieces))).
  - destruct (IHpieces k H) as (f & I & C). exists f. split; auto. apply in_or_app; auto.
  - eexists. split; [apply in_or_app; right; left; reflexivity|].
    unfold cover. cbn [fst snd]. unfold len. apply andb_true_iff. split; [apply Nat.leb_le|apply Nat.ltb_lt]; lia.
Qed.

Lemma tiles_same_start : forall pieces off s p p', nonempty_pieces pieces ->
  In (s, p) (tiles off pieces) -> In (s, p') (tiles off pieces) -> p = p'.
Proof.
  intros pieces off s p p' Hn H H'.
  revert off H H'. induction pieces; intros; [destruct H|].
  inversion Hn; subst. cbn [tiles] in H, H'.
  assert (Ha : 0 < length a) by (destruct a; [congruence|simpl; lia]).
  destruct H as [H|H], H' as [H'|H'].
  - congruence.
  - injection H as <- <-. apply tiles_in in H'. destruct H' as (x & y & _ & E). lia.
  - injection H' as <- <-. apply tiles_in in H. destruct H as (x & y & _ & E). lia.
  - eauto.
Qed.

(** ** complete and full64 *)
Lemma arrived_in : forall seen s, arrived seen s = true <-> exists p, In (s, p) seen.
Proof.
  intros. unfold arrived. rewrite existsb_exists. split.
  - intros ([s' p] & H & E). apply N.eqb_eq in E. cbn in E. subst. eauto.
  - intros (p & H). exists (s, p). split; auto. apply N.eqb_refl.
Qed.

Lemma complete_in : forall pieces seen, nonempty_pieces pieces ->
  (forall f, In f seen -> In f (tiles 0 pieces)) ->
  (complete (tiles 0 pieces) seen = true <-> forall f, In f (tiles 0 pieces) -> In f seen).
Proof.
  intros pieces seen Hn Hs. unfold complete. rewrite forallb_forall. split.
  - intros H [s p] Hf. pose proof (H _ Hf) as A. apply arrived_in in A. destruct A as (p' & A).
    cbn in A. rewrite (tiles_same_start pieces 0 s p p'); auto.
  - intros H [s p] Hf. apply arrived_in. exists p. auto.
Qed.

Lemma complete_cover : forall pieces seen, nonempty_pieces pieces ->
  (forall f, In f seen -> In f (tiles 0 pieces)) ->
  complete (tiles 0 pieces) seen = true ->
  forall k, k < length (concat pieces) -> existsb (cover k) seen = true.
Proof.
  intros. destruct (tiles_cover pieces k H2) as (f & I & C). apply existsb_exists.
  exists f. split; auto. rewrite complete_in in H1 by auto. auto.
Qed.

Lemma cover_cover64 : forall k f, cover k f = true -> cover64 k f = true.
Proof.
  unfold cover, cover64. intros k f H. apply andb_true_iff in H. destruct H as [A B].
  apply Nat.leb_le in A. apply andb_true_iff. split; auto. apply Nat.leb_le.
  pose proof (Nat.mul_div_le (N.to_nat (fst f)) 64 ltac:(lia)). lia.
Qed.

Lemma complete_full64 : forall pieces seen, nonempty_pieces pieces ->
  (forall f, In f seen -> In f (tiles 0 pieces)) ->
  complete (tiles 0 pieces) seen = true -> full64 (length (concat pieces)) seen = true.
Proof.
  intros. apply full64_spec. intros. pose proof (complete_cover _ _ H H0 H1 k H2) as C.
  apply existsb_exists in C. destruct C as (f & I & C). apply existsb_exists. exists f.
  split; auto. apply cover_cover64; auto.
Qed.

(** pieces of at least 64 bytes: nothing else marks the first byte of a
    missing fragment *)
Lemma full64_complete_big : forall pieces seen, nonempty_pieces pieces -> pieces_at_least 64 pieces ->
  (forall f, In f seen -> In f (tiles 0 pieces)) ->
  full64 (length (concat pieces)) seen = complete (tiles 0 pieces) seen.
Proof.
  intros pieces seen Hn Hb Hs. destruct (complete (tiles 0 pieces) seen) eqn:C.
  - apply complete_full64; auto.
  - destruct (full64 (length (concat pieces)) seen) eqn:F; auto. exfalso.
    assert (complete (tiles 0 pieces) seen = true); [|congruence].
    apply complete_in; auto. intros [s p] Hf.
    assert (Hp : 0 < length p).
    { apply tiles_in in Hf. destruct Hf as (a & b & -> & _). unfold nonempty_pieces in Hn.
      rewrite Forall_app in Hn. destruct Hn as [_ Hn]. inversion Hn; subst. destruct p; [congruence|simpl; lia]. }
    pose proof (tiles_fragOf _ _ _ Hf) as [Hr _]. cbn [fst snd] in Hr.
    rewrite full64_spec in F. specialize (F (N.to_nat s) ltac:(lia)).
    apply existsb_exists in F. destruct F as ([s' p'] & I & K).
    unfold cover64 in K. cbn [fst snd] in K. apply andb_true_iff in K. destruct K as [K1 K2].
    apply Nat.leb_le in K1. apply Nat.ltb_lt in K2.
    pose proof (Hs _ I) as I'.
    destruct (N.lt_trichotomy s s') as [L|[->|L]].
    + destruct (tiles_order _ _ _ _ _ _ Hf I' L) as [O1 O2].
      unfold pieces_at_least in Hb. rewrite Forall_forall in Hb. apply Hb in O2.
      pose proof (Nat.div_mod (N.to_nat s') 64 ltac:(lia)).
      pose proof (Nat.mod_upper_bound (N.to_nat s') 64 ltac:(lia)). unfold len in O1. lia.
    + rewrite (tiles_same_start pieces 0 s' p p') by auto. auto.
    + destruct (tiles_order _ _ _ _ _ _ I' Hf L) as [O1 _]. unfold len in O1. lia.
Qed.

(** in-order arrival of any non-empty pieces *)
Lemma full64_complete_inorder : forall a b, nonempty_pieces (a ++ b) ->
  full64 (length (concat (a ++ b))) (rev (tiles 0 a)) = complete (tiles 0 (a ++ b)) (rev (tiles 0 a)).
Proof.
  intros a b Hn.
  assert (Hs : forall f, In f (rev (tiles 0 a)) -> In f (tiles 0 (a ++ b))).
  { intros f Hf. apply in_rev in Hf. rewrite tiles_app. apply in_or_app; auto. }
  destruct b as [|p b].
  - rewrite app_nil_r in *. assert (C : complete (tiles 0 a) (rev (tiles 0 a)) = true).
    { apply complete_in; auto. intros f Hf. apply in_rev. rewrite rev_involutive. auto. }
    rewrite C. apply complete_full64; auto.
  - destruct (complete (tiles 0 (a ++ p :: b)) (rev (tiles 0 a))) eqn:C.
    + apply complete_full64; auto.
    + destruct (full64 (length (concat (a ++ p :: b))) (rev (tiles 0 a))) eqn:F; auto. exfalso.
      assert (Hp : 0 < length p).
      { unfold nonempty_pieces in Hn. rewrite Forall_app in Hn. destruct Hn as [_ Hn]. inversion Hn; subst.
        destruct p; [congruence|simpl; lia]. }
      rewrite full64_spec in F. specialize (F (length (concat a))).
      rewrite concat_app, app_length in F. cbn [concat] in F. rewrite app_length in F. specialize (F ltac:(lia)).
      apply existsb_exists in F. destruct F as ([s' p'] & I & K). apply in_rev in I.
      apply tiles_fragOf in I. destruct I as [I _]. cbn [fst snd] in I.
      unfold cover64 in K. cbn [fst snd] in K. apply andb_true_iff in K. destruct K as [K1 K2].
      apply Nat.ltb_lt in K2. lia.
Qed.

(** ** Running a chain *)
Definition toRes (r : report) : res (option bytes) :=
  match r with
  | Delivered m => Ok (Some m)
  | Waiting => Ok None
  | Duplicate => Err ErrDuplicateChain
  end.

Lemma complete_mono : forall all seen x, complete all seen = true -> complete all (x :: seen) = true.
Proof.
  unfold complete. intros. rewrite forallb_forall in *. intros f Hf. specialize (H f Hf).
  unfold arrived in *. cbn [existsb]. rewrite H. apply orb_true_r.
Qed.

Lemma Inv_deliver : forall m d0 c seen, Inv m d0 c seen ->
  (forall k, k < length m -> existsb (cover k) seen = true) -> cdata c = m ++ skipn (length m) d0.
Proof.
  intros m d0 c seen [W E L M D T] H. apply nth_error_ext'. intros k.
  destruct (Nat.lt_ge_cases k (length m)).
  - rewrite D by auto. rewrite nth_error_app1; auto.
  - rewrite T by auto. rewrite nth_error_app2 by auto.
    destruct (Nat.lt_ge_cases k (length d0)).
    + rewrite <- (firstn_skipn (length m) d0) at 1.
      rewrite nth_error_app2 by (rewrite firstn_length; lia). f_equal. rewrite firstn_length. lia.
    + rewrite (proj2 (nth_error_None d0 k)) by auto. symmetry. apply nth_error_None. rewrite skipn_length. lia.
Qed.

Lemma merge_dup : forall c h b, (expected c <= received c)%N ->
  chainMerge c h b = Ret (c, Err ErrDuplicateChain).
Proof.
  intros. unfold chainMerge. replace (expected c <=? received c)%N with true by (symmetry; apply N.leb_le; auto). auto.
Qed.

Lemma mergeAll_ideal : forall pieces d0 arr seen c, nonempty_pieces pieces ->
  (forall f, In f seen -> In f (tiles 0 pieces)) ->
  (forall f, In f arr -> In f (tiles 0 pieces)) ->
  (forall pre suf, arr = pre ++ suf ->
     full64 (length (concat pieces)) (rev pre ++ seen) = complete (tiles 0 pieces) (rev pre ++ seen)) ->
  (Inv (concat pieces) d0 c seen \/
   (complete (tiles 0 pieces) seen = true /\ (expected c <= received c)%N)) ->
  exists c', mergeAll c arr =
    Ret (c', map toRes (ideal (concat pieces ++ skipn (length (concat pieces)) d0) (tiles 0 pieces) seen arr)).
Proof.
  intros pieces d0. induction arr as [|[s b] arr IH]; intros seen c Hn Hs Ha Hq HI.
  - exists c. reflexivity.
  - pose proof (Hq [] _ eq_refl) as Q0. cbn [rev app] in Q0.
    pose proof (Hq [(s, b)] arr eq_refl) as Q1. cbn [rev app] in Q1.
    assert (Hq' : forall pre suf, arr = pre ++ suf ->
      full64 (length (concat pieces)) (rev pre ++ (s, b) :: seen) = complete (tiles 0 pieces) (rev pre ++ (s, b) :: seen)).
    { intros pre suf ->. pose proof (Hq ((s, b) :: pre) suf eq_refl) as Q. cbn [rev] in Q.
      rewrite <- app_assoc in Q. cbn [app] in Q. auto. }
    assert (Hs' : forall f, In f ((s, b) :: seen) -> In f (tiles 0 pieces)).
    { intros f [<-|Hf]; auto. apply Ha. left; auto. }
    assert (Ha' : forall f, In f arr -> In f (tiles 0 pieces)) by (intros; apply Ha; right; auto).
    cbn [mergeAll ideal map].
    destruct (complete (tiles 0 pieces) seen) eqn:C.
    + assert (Hdup : (expected c <= received c)%N).
      { destruct HI as [HI|[_ HI]]; auto. apply N.leb_le. rewrite (Inv_full _ _ _ _ HI). auto. }
      rewrite merge_dup by auto.
      destruct (IH ((s, b) :: seen) c) as (c' & E); auto.
      { right. split; auto. apply complete_mono; auto. }
      rewrite E. exists c'. reflexivity.
    + destruct HI as [HI|[HI _]]; [|discriminate].
      destruct (Inv_step _ _ _ _ s b 0%N 0%N HI Q0) as (c1 & E1 & HI1).
      { apply tiles_fragOf, Ha. left; auto. }
      rewrite E1, Q1. destruct (IH ((s, b) :: seen) c1) as (c' & E); auto.
      rewrite E. exists c'. f_equal. f_equal. f_equal.
      destruct (complete (tiles 0 pieces) ((s, b) :: seen)) eqn:C1; auto.
      cbn [toRes]. do 2 f_equal. apply (Inv_deliver _ _ _ _ HI1).
      apply complete_cover; auto.
Qed.

Lemma Inv_init : forall m c, bufok c -> (len m < 2^63)%N ->
  Inv m (cdata c) (chainInit c (len m)) [].
Proof.
  intros m c Hb Hm. destruct (chainInit_spec c (len m) Hb Hm) as (W & E & R & M & L & D).
  constructor; auto.
  - rewrite L. unfold len. lia.
  - intros k H. discriminate.
  - intros k Hk. destruct (N.le_gt_cases (len m) (len (cdata c))).
    + rewrite D; auto.
    + unfold len in *. rewrite (proj2 (nth_error_None (cdata c) k)) by lia.
      apply nth_error_None. rewrite L. lia.
Qed.

Lemma run_any_order : forall pieces arr c, bufok c -> (len (concat pieces) < 2^63)%N ->
  nonempty_pieces pieces -> pieces_at_least 64 pieces ->
  (forall f, In f arr -> In f (tiles 0 pieces)) ->
  exists c', mergeAll (chainInit c (len (concat pieces))) arr =
    Ret (c', map toRes (ideal (concat pieces ++ skipn (length (concat pieces)) (cdata c)) (tiles 0 pieces) [] arr)).
Proof.
  intros. apply mergeAll_ideal; auto.
  - intros f [].
  - intros pre suf ->. apply full64_complete_big; auto. intros f Hf. rewrite app_nil_r in Hf.
    apply in_rev in Hf. apply H3. apply in_or_app; auto.
  - left. apply Inv_init; auto.
Qed.

Lemma tiles_prefix : forall pieces off pre suf, tiles off pieces = pre ++ suf ->
  exists a b, pieces = a ++ b /\ pre = tiles off a.
Proof.
  induction pieces; intros off pre suf H.
  - destruct pre; [|discriminate]. exists [], []. auto.
  - destruct pre as [|f pre].
    + exists [], (a :: pieces). auto.
    + cbn [tiles app] in H. injection H as <- H. apply IHpieces in H.
      destruct H as (x & y & -> & ->). exists (a :: x), y. auto.
Qed.

Lemma run_in_order : forall pieces c, bufok c -> (len (concat pieces) < 2^63)%N ->
  nonempty_pieces pieces ->
  exists c', mergeAll (chainInit c (len (concat pieces))) (tiles 0 pieces) =
    Ret (c', map toRes (ideal (concat pieces ++ skipn (length (concat pieces)) (cdata c)) (tiles 0 pieces) [] (tiles 0 pieces))).
Proof.
  intros. apply mergeAll_ideal; auto.
  - intros f [].
  - intros pre suf E. rewrite app_nil_r. apply tiles_prefix in E. destruct E as (a & b & -> & ->).
    apply full64_complete_inorder; auto.
  - left. apply Inv_init; auto.
Qed.

(** The ideal outcome of an in-order arrival, spelled out. *)
Lemma ideal_inorder : forall m a b, b <> [] -> nonempty_pieces (a ++ b) ->
  ideal m (tiles 0 (a ++ b)) (rev (tiles 0 a)) (tiles (len (concat a)) b) =
    repeat Waiting (length b - 1) ++ [Delivered m].
Proof.
  intros m a b. revert a. induction b as [|p b IH]; intros a Hb Hn; [congruence|].
  cbn [tiles ideal].
  assert (Hs : forall f, In f (rev (tiles 0 a)) -> In f (tiles 0 (a ++ p :: b))).
  { intros f Hf. apply in_rev in Hf. rewrite tiles_app. apply in_or_app; auto. }
  assert (Hp : 0 < length p).
  { unfold nonempty_pieces in Hn. rewrite Forall_app in Hn. destruct Hn as [_ Hn']. inversion Hn'; subst.
    destruct p; [congruence|simpl; lia]. }
  assert (C0 : complete (tiles 0 (a ++ p :: b)) (rev (tiles 0 a)) = false).
  { destruct (complete (tiles 0 (a ++ p :: b)) (rev (tiles 0 a))) eqn:C; auto. exfalso.
    rewrite complete_in in C by auto. specialize (C (len (concat a), p)).
    rewrite tiles_app in C. specialize (C ltac:(apply in_or_app; right; left; reflexivity)).
    apply in_rev in C. apply tiles_fragOf in C. destruct C as [C _]. cbn [fst snd] in C. unfold len in C. lia. }
  rewrite C0.
  assert (R : (len (concat a), p) :: rev (tiles 0 a) = rev (tiles 0 (a ++ [p]))).
  { rewrite tiles_app. cbn [tiles]. rewrite rev_app_distr. reflexivity. }
  rewrite R. replace (a ++ p :: b) with ((a ++ [p]) ++ b) in * by (rewrite <- app_assoc; auto).
  destruct b as [|q b].
  - rewrite app_nil_r in *.
    assert (C1 : complete (tiles 0 (a ++ [p])) (rev (tiles 0 (a ++ [p]))) = true).
    { apply complete_in; auto.
      - intros f Hf. apply in_rev in Hf. auto.
      - intros f Hf. apply in_rev. rewrite rev_involutive. auto. }
    rewrite C1. reflexivity.
  - assert (C1 : complete (tiles 0 ((a ++ [p]) ++ q :: b)) (rev (tiles 0 (a ++ [p]))) = false).
    { destruct (complete (tiles 0 ((a ++ [p]) ++ q :: b)) (rev (tiles 0 (a ++ [p])))) eqn:C; auto. exfalso.
      rewrite complete_in in C; auto.
      2:{ intros f Hf. apply in_rev in Hf. rewrite tiles_app. apply in_or_app; auto. }
      specialize (C (len (concat (a ++ [p])), q)).
      rewrite tiles_app in C. specialize (C ltac:(apply in_or_app; right; left; reflexivity)).
      apply in_rev in C. apply tiles_fragOf in C. destruct C as [C _]. cbn [fst snd] in C.
      assert (0 < length q).
      { unfold nonempty_pieces in Hn. rewrite Forall_app in Hn. destruct Hn as [_ Hn']. inversion Hn'; subst.
        destruct q; [congruence|simpl; lia]. }
      unfold len in C. lia. }
    rewrite C1.
    replace (len (concat a) + N.of_nat (length p))%N with (len (concat (a ++ [p]))).
    2:{ rewrite concat_app, len_app. cbn [concat]. rewrite app_nil_r. reflexivity. }
    rewrite IH; auto; [|congruence].
    cbn [length]. replace (S (S (length b)) - 1) with (S (S (length b) - 1)) by lia. reflexivity.
Qed.
