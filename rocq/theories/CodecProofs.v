From Coq Require Import NArith List Bool Lia Arith.
From Verif Require Import Base BaseLemmas MessageModel CodecSpec.
Import ListNotations.
Open Scope N_scope.

Lemma le_enc_nth : forall k v i, (i < k)%nat -> nth_error (le_enc k v) i = Some (le_byte v i).
Proof.
  induction k; intros v i H; [lia|].
  destruct i; cbn [le_enc nth_error].
  - unfold le_byte. change (256 ^ N.of_nat 0) with 1. rewrite N.div_1_r. reflexivity.
  - rewrite IHk by lia. f_equal. unfold le_byte.
    replace (256 ^ N.of_nat (S i)) with (256 * 256 ^ N.of_nat i).
    + rewrite N.div_div; [reflexivity | lia | apply N.pow_nonzero; lia].
    + rewrite Nat2N.inj_succ, N.pow_succ_r'. reflexivity.
Qed.

Lemma nth_error_pre : forall A (a b : list A) off i, off = length a ->
  nth_error (a ++ b) (off + i) = nth_error b i.
Proof. intros; subst. rewrite nth_error_app2 by lia. f_equal. lia. Qed.

Lemma field_at_app : forall a k v c off, off = length a -> field_at (a ++ le_enc k v ++ c) off k v.
Proof.
  intros a k v c off H i Hi. rewrite nth_error_pre by auto.
  rewrite nth_error_app1 by (rewrite le_enc_length; auto). apply le_enc_nth; auto.
Qed.

Lemma raw_at_app : forall a x c off, off = length a -> raw_at (a ++ x ++ c) off x.
Proof.
  intros a x c off H i Hi. rewrite nth_error_pre by auto. apply nth_error_app1; auto.
Qed.

Lemma same_from_skipn : forall a b n, length a = n -> (n <= length b)%nat ->
  same_from n b (a ++ skipn n b).
Proof.
  intros a b n H L. split.
  - rewrite app_length, skipn_length. lia.
  - intros i Hi. replace i with (n + (i - n))%nat at 2 by lia.
    rewrite nth_error_pre by auto.
    rewrite <- (firstn_skipn n b) at 1.
    replace i with (n + (i - n))%nat at 1 by lia.
    apply nth_error_pre. rewrite firstn_length. lia.
Qed.

Lemma len_lt_false : forall A (b : list A) n, (N.of_nat n <= len b) -> (len b <? N.of_nat n) = false.
Proof. intros. apply N.ltb_ge. auto. Qed.

Lemma len_nat : forall A (b : list A) n, N.of_nat n <= len b <-> (n <= length b)%nat.
Proof. unfold len; intros; lia. Qed.

Lemma Ok_inj : forall A B (a a' : A) (b b' : B), Ok (a, b) = Ok (a', b') -> a = a' /\ b = b'.
Proof. intros. inversion H. auto. Qed.

(** ** Message header *)
Lemma hdrWrite_ok : forall h b, 9 <= len b ->
  exists b', hdrWrite h b = Ok (9, b') /\ length b' = length b /\
    field_at b' 0 4 (mType h) /\ field_at b' 4 4 (mLength h) /\
    (mFlags h < 256 -> field_at b' 8 1 (mFlags h)) /\ same_from 9 b b'.
Proof.
  intros h b H. unfold hdrWrite, messageHeadersSize.
  replace (len b <? 9) with false by (symmetry; apply N.ltb_ge; auto).
  eexists; split; [reflexivity|].
  assert (L : (9 <= length b)%nat) by (unfold len in H; lia).
  split; [rewrite !app_length, !le_enc_length, skipn_length; simpl; lia|].
  split; [apply (field_at_app [] 4 (mType h)); reflexivity|].
  split; [apply (field_at_app (le_enc 4 (mType h)) 4 (mLength h)); rewrite le_enc_length; auto|].
  split.
  - intros Hf i Hi. assert (i = O) by lia; subst i.
    rewrite !app_assoc. rewrite <- !app_assoc with (m := [mFlags h]).
    rewrite nth_error_pre by (rewrite app_length, !le_enc_length; auto).
    cbn [app nth_error]. unfold le_byte. change (256 ^ N.of_nat 0) with 1.
    rewrite N.div_1_r, N.mod_small; auto.
  - rewrite !app_assoc. apply same_from_skipn; [|auto].
    rewrite !app_length, !le_enc_length; reflexivity.
Qed.

Lemma hdr_rw : forall h b n b', msgHdr_ok h -> hdrWrite h b = Ok (n, b') ->
  hdrRead b' = Ok (9, h).
Proof.
  intros h b n b' (Ht & Hl & Hf) H. unfold hdrWrite, messageHeadersSize in H.
  destruct (len b <? 9) eqn:E; [discriminate|]. apply Ok_inj in H; destruct H as [<- <-].
  apply N.ltb_ge in E.
  unfold hdrRead, messageHeadersSize.
  rewrite len_lt_false with (n := 9%nat).
  2:{ rewrite !len_app. unfold len in *. rewrite !le_enc_length, skipn_length. simpl length. lia. }
  repeat (rewrite ?firstn_app_l, ?skipn_app_l by (rewrite le_enc_length; auto)).
  try rewrite firstn_app_l by (rewrite le_enc_length; auto).
  rewrite !le_dec_enc by auto. simpl. destruct h; auto.
Qed.

Lemma hdrRead_total : forall b, 9 <= len b -> exists h, hdrRead b = Ok (9, h).
Proof.
  intros. unfold hdrRead, messageHeadersSize.
  replace (len b <? 9) with false by (symmetry; apply N.ltb_ge; auto). eauto.
Qed.

Lemma firstn_eq_of_app : forall A (a a' c c' : list A), length a = length a' ->
  a ++ c = a' ++ c' -> a = a' /\ c = c'.
Proof.
  induction a; destruct a'; simpl; intros; try discriminate; auto.
  injection H0 as -> H0. apply IHa in H0; [destruct H0; subst; auto | congruence].
Qed.

Lemma hdr_wr : forall b n h, bytes_ok b -> hdrRead b = Ok (n, h) ->
  msgHdr_ok h /\ hdrWrite h b = Ok (9, b).
Proof.
  intros b n h Hb H. unfold hdrRead, messageHeadersSize in H.
  destruct (len b <? 9) eqn:E; [discriminate|]. apply Ok_inj in H; destruct H as [<- <-].
  unfold hdrWrite, messageHeadersSize. rewrite E. apply N.ltb_ge in E.
  cbn [mType mLength mFlags].
  assert (L : (9 <= length b)%nat) by (unfold len in E; lia).
  do 9 (destruct b as [|? b]; [simpl in L; lia|]). clear E L.
  repeat match goal with H : bytes_ok (_ :: _) |- _ => inversion H; clear H; subst
    | H : Forall _ (_ :: _) |- _ => inversion H; clear H; subst end.
  unfold byte_ok in *. cbn [firstn skipn hd app].
  split.
  - unfold msgHdr_ok; cbn [mType mLength mFlags]. 
    split; [|split].
    + match goal with |- le_dec ?l < _ => apply (le_dec_bound l) end. repeat constructor; auto.
    + match goal with |- le_dec ?l < _ => apply (le_dec_bound l) end. repeat constructor; auto.
    + auto.
  - do 2 f_equal.
    match goal with |- le_enc 4 (le_dec ?l) ++ le_enc 4 (le_dec ?l2) ++ _ = _ =>
      change 4%nat with (length l) at 1; rewrite (le_enc_dec l);
      [change 4%nat with (length l2) at 1; rewrite (le_enc_dec l2)|] end.
    + reflexivity.
    + repeat constructor; auto.
    + repeat constructor; auto.
Qed.

(** flags *)
Lemma bits_cases8 : forall f, f < 256 -> f = N.land f 255.
Proof.
  intros. change 255 with (N.ones 8). rewrite N.land_ones, N.mod_small; auto.
Qed.

Lemma land_pow2_testbit : forall f i, negb (N.land f (2^i) =? 0) = N.testbit f i.
Proof.
  intros. destruct (N.testbit f i) eqn:E.
  - apply negb_true_iff, N.eqb_neq. intro H.
    assert (N.testbit (N.land f (2^i)) i = false) by (rewrite H; apply N.bits_0).
    rewrite N.land_spec, E, N.pow2_bits_true in H0. discriminate.
  - apply negb_false_iff, N.eqb_eq. apply N.bits_inj. intro j.
    rewrite N.land_spec, N.bits_0. destruct (N.eq_dec i j) as [->|Hn].
    + rewrite E; auto.
    + rewrite N.pow2_bits_false by auto. apply andb_false_r.
Qed.

Lemma setFlag_bit : forall f i v j, (i < 8) -> j < 8 ->
  N.testbit (setFlag f (2^i) v) j = if i =? j then v else N.testbit f j.
Proof.
  intros. unfold setFlag. destruct v.
  - rewrite N.lor_spec. destruct (N.eqb_spec i j).
    + subst. rewrite N.pow2_bits_true. apply orb_true_r.
    + rewrite N.pow2_bits_false by auto. apply orb_false_r.
  - change 255 with (N.ones 8). rewrite N.land_spec, N.lxor_spec, N.ones_spec_low by auto.
    destruct (N.eqb_spec i j).
    + subst. rewrite N.pow2_bits_true. simpl. apply andb_false_r.
    + rewrite N.pow2_bits_false by auto. apply andb_true_r.
Qed.

Lemma setFlag_bound : forall f i v, f < 256 -> i < 8 -> setFlag f (2^i) v < 256.
Proof.
  intros. destruct (N.eq_dec (setFlag f (2^i) v) 0) as [->|Hnz]; [lia|].
  change 256 with (2^8). apply N.log2_lt_pow2; [lia|].
  destruct (N.lt_ge_cases (N.log2 (setFlag f (2^i) v)) 8) as [Hl|Hl]; [auto|exfalso].
  assert (B := N.bit_log2 _ Hnz).
  set (k := N.log2 (setFlag f (2^i) v)) in *.
  assert (Hfk : N.testbit f k = false) by (apply testbit_high with 8; auto).
  unfold setFlag in B. destruct v.
  - rewrite N.lor_spec, Hfk, N.pow2_bits_false in B by lia. discriminate.
  - rewrite N.land_spec, Hfk in B. discriminate.
Qed.

(** ** Container header *)
Lemma contWrite_ok : forall h b, contHdr_ok h -> 44 <= len b ->
  exists b', contWrite h b = Ok (44, b') /\ length b' = length b /\
    raw_at b' 0 (cPacketID h) /\ raw_at b' 8 (cHdrSum h) /\ raw_at b' 24 (cMsgSum h) /\
    field_at b' 40 4 (cLength h) /\ same_from 44 b b'.
Proof.
  intros h b (H1 & _ & H2 & H3 & H4) H. unfold contWrite, messagesContainerHeadersSize.
  replace (len b <? 44) with false by (symmetry; apply N.ltb_ge; auto).
  eexists; split; [reflexivity|].
  assert (L : (44 <= length b)%nat) by (unfold len in H; lia).
  split; [rewrite !app_length, !le_enc_length, skipn_length; lia|].
  split; [apply (raw_at_app []); reflexivity|].
  split; [apply raw_at_app; auto|].
  split; [rewrite app_assoc; apply raw_at_app; rewrite app_length, H1, H2; auto|].
  split; [rewrite !app_assoc; rewrite <- app_assoc; apply field_at_app; rewrite !app_length, H1, H2, H3; auto|].
  rewrite !app_assoc. apply same_from_skipn; [|auto].
  rewrite !app_length, !le_enc_length, H1, H2, H3; reflexivity.
Qed.

Lemma cont_rw : forall h b n b', contHdr_ok h -> contWrite h b = Ok (n, b') ->
  contRead b' = Ret (Ok (44, h)).
Proof.
  intros h b n b' (H1 & _ & H2 & H3 & H4) H. unfold contWrite, messagesContainerHeadersSize in H.
  destruct (len b <? 44) eqn:E; [discriminate|]. apply Ok_inj in H; destruct H as [<- <-].
  apply N.ltb_ge in E.
  unfold contRead, messagesContainerHeadersSize, contReadAfterIV.
  rewrite len_lt_false with (n := 44%nat).
  2:{ rewrite !len_app. unfold len in *. rewrite !le_enc_length, skipn_length, H1, H2, H3. lia. }
  rewrite (skipn_app_l _ (cPacketID h)) by auto. rewrite (firstn_app_l _ (cPacketID h)) by auto.
  rewrite len_lt_false with (n := 36%nat).
  2:{ rewrite !len_app. unfold len in *. rewrite !le_enc_length, skipn_length, H2, H3. lia. }
  rewrite (skipn_app_l _ (cHdrSum h)) by auto. rewrite (firstn_app_l _ (cHdrSum h)) by auto.
  rewrite (skipn_app_l _ (cMsgSum h)) by auto. rewrite (firstn_app_l _ (cMsgSum h)) by auto.
  rewrite firstn_app_l by (rewrite le_enc_length; auto).
  rewrite le_dec_enc by auto. cbn. destruct h; auto.
Qed.

Lemma contRead_short : forall b, len b < 44 -> contRead b = Ret (Err (ErrTooShort 44 (len b))).
Proof.
  intros. unfold contRead, messagesContainerHeadersSize.
  replace (len b <? 44) with true by (symmetry; apply N.ltb_lt; auto). auto.
Qed.
Lemma contRead_long : forall b, 44 <= len b -> exists h, contRead b = Ret (Ok (44, h)).
Proof.
  intros. unfold contRead, messagesContainerHeadersSize, contReadAfterIV.
  replace (len b <? 44) with false by (symmetry; apply N.ltb_ge; auto).
  replace (len (skipn 8 b) <? 36) with false.
  - eexists. reflexivity.
  - symmetry; apply N.ltb_ge. unfold len in *. rewrite skipn_length. lia.
Qed.

(** ** Fragment header *)
Lemma fragWrite_ok : forall h b, 24 <= len b ->
  exists b', fragWrite h b = Ok (24, b') /\ length b' = length b /\
    field_at b' 0 8 (fChainID h) /\ field_at b' 8 8 (fStartPos h) /\
    field_at b' 16 8 (fTotal h) /\ same_from 24 b b'.
Proof.
  intros h b H. unfold fragWrite, messageFragmentHeadersSize.
  replace (len b <? 24) with false by (symmetry; apply N.ltb_ge; auto).
  eexists; split; [reflexivity|].
  assert (L : (24 <= length b)%nat) by (unfold len in H; lia).
  split; [rewrite !app_length, !le_enc_length, skipn_length; lia|].
  split; [apply (field_at_app []); reflexivity|].
  split; [apply field_at_app; rewrite le_enc_length; auto|].
  split; [rewrite app_assoc; apply field_at_app; rewrite app_length, !le_enc_length; auto|].
  rewrite !app_assoc. apply same_from_skipn; [|auto].
  rewrite !app_length, !le_enc_length; reflexivity.
Qed.

Lemma frag_rw : forall h b n b', fragHdr_ok h -> fragWrite h b = Ok (n, b') ->
  fragRead b' = Ok (24, h).
Proof.
  intros h b n b' (H1 & H2 & H3) H. unfold fragWrite, messageFragmentHeadersSize in H.
  destruct (len b <? 24) eqn:E; [discriminate|]. apply Ok_inj in H; destruct H as [<- <-].
  apply N.ltb_ge in E.
  unfold fragRead, messageFragmentHeadersSize.
  rewrite len_lt_false with (n := 24%nat).
  2:{ rewrite !len_app. unfold len in *. rewrite !le_enc_length, skipn_length. lia. }
  repeat (rewrite ?firstn_app_l, ?skipn_app_l by (rewrite le_enc_length; auto)).
  rewrite !le_dec_enc by auto. destruct h; auto.
Qed.

Lemma fragRead_short : forall b, len b < 24 -> fragRead b = Err (ErrTooShort 24 (len b)).
Proof.
  intros. unfold fragRead, messageFragmentHeadersSize.
  replace (len b <? 24) with true by (symmetry; apply N.ltb_lt; auto). auto.
Qed.
Lemma fragRead_long : forall b, 24 <= len b -> exists h, fragRead b = Ok (24, h).
Proof.
  intros. unfold fragRead, messageFragmentHeadersSize.
  replace (len b <? 24) with false by (symmetry; apply N.ltb_ge; auto). eauto.
Qed.

(** ** Session ID *)
Lemma sess_rt : forall s, sessID_ok s -> sessFill (sessBytes s) = Ret s.
Proof.
  intros s (H1 & H2). unfold sessFill, sessBytes.
  rewrite len_lt_false with (n := 16%nat).
  2:{ rewrite len_app. unfold len. rewrite !le_enc_length. lia. }
  rewrite firstn_app_l, skipn_app_l by (rewrite le_enc_length; auto).
  rewrite <- (app_nil_r (le_enc 8 (sRandom s))), firstn_app_l by (rewrite le_enc_length; auto).
  rewrite !le_dec_enc by auto. destruct s; auto.
Qed.
Lemma sess_len : forall s, length (sessBytes s) = 16%nat.
Proof. intros. unfold sessBytes. rewrite app_length, !le_enc_length. auto. Qed.

(** ** Key exchange message *)
Lemma kx_rt : forall m tail, kxMsg_ok m -> kxDecode (kxEncode m ++ tail) = Some m.
Proof.
  intros m tail (H1 & H2 & H3 & H4 & H5). destruct H1 as [S1 S2]. unfold kxDecode, kxEncode, kxMsgSize.
  rewrite len_lt_false with (n := 82%nat).
  2:{ rewrite !len_app. unfold len. rewrite sess_len, H2, H3. simpl length. lia. }
  rewrite <- !app_assoc.
  rewrite !(fun b => skipn_app_l _ (sessBytes (kSess m)) b 16) by (rewrite sess_len; auto).
  rewrite (skipn_app_l _ (kIdentity m)) by auto. rewrite (firstn_app_l _ (kIdentity m)) by auto.
  rewrite (skipn_app_l _ (kPub m)) by auto. rewrite (firstn_app_l _ (kPub m)) by auto.
  unfold sessBytes. rewrite <- !app_assoc.
  repeat (rewrite ?firstn_app_l, ?skipn_app_l by (rewrite le_enc_length; auto)).
  rewrite ?firstn_app_l by (rewrite le_enc_length; auto).
  rewrite !le_dec_enc by auto.
  destruct m as [[] ? ? ? ?]; auto.
Qed.
Lemma kx_len : forall m, kxMsg_ok m -> length (kxEncode m) = 82%nat.
Proof.
  intros m (H1 & H2 & H3 & H4 & H5). unfold kxEncode.
  rewrite !app_length, sess_len, H2, H3. auto.
Qed.

(** ** Negotiation control message *)
Lemma neg_rt : forall m tail, negCtl_ok m -> negDecode (negEncode m ++ tail) = Ok m.
Proof.
  intros m tail (H1 & H2 & H3). unfold negDecode, negEncode, negCtlSize.
  rewrite len_lt_false with (n := 6%nat).
  2:{ rewrite !len_app. unfold len. rewrite le_enc_length. simpl length. lia. }
  rewrite <- !app_assoc.
  rewrite (skipn_app_l _ [nSub m]) by auto.
  rewrite firstn_app_l by (rewrite le_enc_length; auto). rewrite le_dec_enc by auto.
  destruct m; auto.
Qed.
Lemma neg_len : forall m, length (negEncode m) = 6%nat.
Proof. intros. unfold negEncode. rewrite !app_length, le_enc_length. auto. Qed.

(** ** Injectivity: the readers only look at the header's own bytes *)
Lemma firstn_firstn_le : forall A (l : list A) i j, (i <= j)%nat -> firstn i (firstn j l) = firstn i l.
Proof. intros. rewrite firstn_firstn. f_equal. lia. Qed.

Lemma hdrRead_prefix : forall a b, firstn 9 a = firstn 9 b -> 9 <= len a -> 9 <= len b ->
  hdrRead a = hdrRead b.
Proof.
  intros a b H La Lb.
  assert (L1 : (9 <= length a)%nat) by (unfold len in La; lia).
  assert (L2 : (9 <= length b)%nat) by (unfold len in Lb; lia).
  unfold hdrRead, messageHeadersSize.
  replace (len a <? 9) with false by (symmetry; apply N.ltb_ge; auto).
  replace (len b <? 9) with false by (symmetry; apply N.ltb_ge; auto).
  do 9 (destruct a as [|? a]; [simpl in L1; lia|]).
  do 9 (destruct b as [|? b]; [simpl in L2; lia|]).
  cbn [firstn] in H. inversion H. subst. reflexivity.
Qed.

Lemma fragRead_prefix : forall a b, firstn 24 a = firstn 24 b -> 24 <= len a -> 24 <= len b ->
  fragRead a = fragRead b.
Proof.
  intros a b H La Lb.
  assert (L1 : (24 <= length a)%nat) by (unfold len in La; lia).
  assert (L2 : (24 <= length b)%nat) by (unfold len in Lb; lia).
  unfold fragRead, messageFragmentHeadersSize.
  replace (len a <? 24) with false by (symmetry; apply N.ltb_ge; auto).
  replace (len b <? 24) with false by (symmetry; apply N.ltb_ge; auto).
  do 24 (destruct a as [|? a]; [simpl in L1; lia|]).
  do 24 (destruct b as [|? b]; [simpl in L2; lia|]).
  cbn [firstn] in H. inversion H. subst. reflexivity.
Qed.

Lemma contRead_prefix : forall a b, firstn 44 a = firstn 44 b -> 44 <= len a -> 44 <= len b ->
  contRead a = contRead b.
Proof.
  intros a b H La Lb.
  assert (L1 : (44 <= length a)%nat) by (unfold len in La; lia).
  assert (L2 : (44 <= length b)%nat) by (unfold len in Lb; lia).
  unfold contRead, messagesContainerHeadersSize, contReadAfterIV.
  replace (len a <? 44) with false by (symmetry; apply N.ltb_ge; auto).
  replace (len b <? 44) with false by (symmetry; apply N.ltb_ge; auto).
  assert (E1 : (len (skipn 8 a) <? 36) = false) by (apply (len_lt_false _ _ 36); unfold len in *; rewrite skipn_length; lia).
  assert (E2 : (len (skipn 8 b) <? 36) = false) by (apply (len_lt_false _ _ 36); unfold len in *; rewrite skipn_length; lia).
  rewrite E1, E2.
  do 44 (destruct a as [|? a]; [simpl in L1; lia|]).
  do 44 (destruct b as [|? b]; [simpl in L2; lia|]).
  clear - H.
  cbn [firstn] in H. inversion H. subst. reflexivity.
Qed.

Lemma hdrWrite_len : forall h b n b', hdrWrite h b = Ok (n, b') -> n = 9 /\ 9 <= len b' /\ 9 <= len b.
Proof.
  intros. assert (9 <= len b).
  { unfold hdrWrite, messageHeadersSize in H. destruct (len b <? 9) eqn:E; [discriminate|]. apply N.ltb_ge in E; auto. }
  destruct (hdrWrite_ok h b H0) as (b2 & E & L & _). rewrite E in H. apply Ok_inj in H. destruct H; subst.
  unfold len in *. rewrite L. auto.
Qed.
Lemma fragWrite_len : forall h b n b', fragWrite h b = Ok (n, b') -> n = 24 /\ 24 <= len b' /\ 24 <= len b.
Proof.
  intros. assert (24 <= len b).
  { unfold fragWrite, messageFragmentHeadersSize in H. destruct (len b <? 24) eqn:E; [discriminate|]. apply N.ltb_ge in E; auto. }
  destruct (fragWrite_ok h b H0) as (b2 & E & L & _). rewrite E in H. apply Ok_inj in H. destruct H; subst.
  unfold len in *. rewrite L. auto.
Qed.
Lemma contWrite_len : forall h b n b', contHdr_ok h -> contWrite h b = Ok (n, b') -> n = 44 /\ 44 <= len b' /\ 44 <= len b.
Proof.
  intros h b n b' Hh H. assert (44 <= len b).
  { unfold contWrite, messagesContainerHeadersSize in H. destruct (len b <? 44) eqn:E; [discriminate|]. apply N.ltb_ge in E; auto. }
  destruct (contWrite_ok h b Hh H0) as (b2 & E & L & _). rewrite E in H. apply Ok_inj in H. destruct H; subst.
  unfold len in *. rewrite L. auto.
Qed.

Lemma hdr_inj : forall h1 h2 b1 b2 n1 n2 c1 c2, msgHdr_ok h1 -> msgHdr_ok h2 ->
  hdrWrite h1 b1 = Ok (n1, c1) -> hdrWrite h2 b2 = Ok (n2, c2) ->
  firstn 9 c1 = firstn 9 c2 -> h1 = h2.
Proof.
  intros. pose proof (hdr_rw _ _ _ _ H H1). pose proof (hdr_rw _ _ _ _ H0 H2).
  apply hdrWrite_len in H1. apply hdrWrite_len in H2.
  rewrite (hdrRead_prefix c1 c2) in H4 by intuition. congruence.
Qed.
Lemma frag_inj : forall h1 h2 b1 b2 n1 n2 c1 c2, fragHdr_ok h1 -> fragHdr_ok h2 ->
  fragWrite h1 b1 = Ok (n1, c1) -> fragWrite h2 b2 = Ok (n2, c2) ->
  firstn 24 c1 = firstn 24 c2 -> h1 = h2.
Proof.
  intros. pose proof (frag_rw _ _ _ _ H H1). pose proof (frag_rw _ _ _ _ H0 H2).
  apply fragWrite_len in H1. apply fragWrite_len in H2.
  rewrite (fragRead_prefix c1 c2) in H4 by intuition. congruence.
Qed.
Lemma cont_inj : forall h1 h2 b1 b2 n1 n2 c1 c2, contHdr_ok h1 -> contHdr_ok h2 ->
  contWrite h1 b1 = Ok (n1, c1) -> contWrite h2 b2 = Ok (n2, c2) ->
  firstn 44 c1 = firstn 44 c2 -> h1 = h2.
Proof.
  intros. pose proof (cont_rw _ _ _ _ H H1). pose proof (cont_rw _ _ _ _ H0 H2).
  apply contWrite_len in H1; auto. apply contWrite_len in H2; auto.
  rewrite (contRead_prefix c1 c2) in H4 by intuition. congruence.
Qed.
