(** C156: probes of the negotiation come back as they were sent. *)
From Coq Require Import NArith Arith List Bool Lia.
From Verif Require Import Base BaseLemmas MessageModel CodecProofs NegoModel NegoWireModel.
Import ListNotations.
Local Open Scope N_scope.

Section Wire.
  Variable sha512 : bytes -> bytes.
  Hypothesis sha512_len : forall b, length (sha512 b) = 64%nat.

  Lemma fill_length : forall n, length (pingFill n) = n.
  Proof. intros n. unfold pingFill. rewrite map_length, seq_length. reflexivity. Qed.

  Lemma skip65 : forall t (sum rest : bytes), length sum = 64%nat -> skipn 65 (t :: sum ++ rest) = rest /\ firstn 64 (skipn 1 (t :: sum ++ rest)) = sum.
  Proof.
    intros t sum rest L. split.
    - change (skipn 65 (t :: sum ++ rest)) with (skipn 64 (sum ++ rest)). apply skipn_app_l. auto.
    - cbn [skipn]. apply firstn_app_l. auto.
  Qed.

  (** A message of type 2 with a checksum of its own. *)
  Lemma pong_handled : forall rest, 4 <= len rest -> len rest + 65 < 2^32 ->
    negoHandle sha512 (2 :: sha512 rest ++ rest) = Ret (NCount (len rest + 65) (le_dec (firstn 4 rest))).
  Proof.
    intros rest L1 L2. cbn [negoHandle]. change (2 =? 0) with false. change (2 =? 1) with false. change (2 =? 2) with true. cbv iota.
    assert (L : len (2 :: sha512 rest ++ rest) = len rest + 65) by (unfold len in *; cbn [length]; rewrite app_length, sha512_len; lia).
    destruct (skip65 2 (sha512 rest) rest (sha512_len rest)) as [E1 E2]. unfold pongDecode. rewrite L, E1, E2.
    replace (len rest + 65 <? pingPongSize) with false by (symmetry; apply N.ltb_ge; unfold pingPongSize; lia).
    replace (len rest + 65 <? 65) with false by (symmetry; apply N.ltb_ge; lia).
    rewrite bytes_eqb_refl. unfold u32. rewrite N.mod_small by exact L2. reflexivity.
  Qed.

  Lemma count_inv : forall b n it, negoHandle sha512 b = Ret (NCount n it) ->
    exists rest, b = 2 :: sha512 rest ++ rest /\ 4 <= len rest /\ n = (len rest + 65) mod 2^32 /\ it = le_dec (firstn 4 rest).
  Proof.
    intros b n it E. destruct b as [|t r]; [discriminate|]. cbn [negoHandle] in E.
    destruct (t =? 0); [destruct (negDecode (t :: r)); discriminate|]. destruct (t =? 1); [discriminate|]. destruct (t =? 2) eqn:Et; [|discriminate].
    apply N.eqb_eq in Et. subst t. unfold pongDecode in E. destruct (len (2 :: r) <? pingPongSize) eqn:L; [discriminate|]. apply N.ltb_ge in L.
    destruct (len (2 :: r) <? 65); [discriminate|]. destruct (bytes_eqb _ _) eqn:B; [|discriminate]. apply bytes_eqb_eq in B. injection E as <- <-.
    change (skipn 65 (2 :: r)) with (skipn 64 r) in *. change (skipn 1 (2 :: r)) with r in *. exists (skipn 64 r).
    unfold len, pingPongSize in L. cbn [length] in L.
    split; [rewrite <- B, firstn_skipn; reflexivity|].
    assert (Lk : len (skipn 64 r) + 65 = len (2 :: r)) by (unfold len; rewrite skipn_length; cbn [length]; lia).
    split; [unfold len; rewrite skipn_length; lia|]. split; [rewrite Lk; reflexivity|reflexivity].
  Qed.
End Wire.

(** Whatever size (69 or more) and iteration a ping has: it has that size, the
    peer sends the same number of bytes back, and what comes back is counted for
    that size and iteration. *)
Theorem C156_probe_comes_back : forall sha512 iter size, (forall b, length (sha512 b) = 64%nat) -> iter < 2^32 -> 69 <= size -> size < 2^32 ->
  exists ping echo, pingBytes sha512 iter size = Ret ping /\ len ping = size /\
    negoHandle sha512 ping = Ret (NEcho echo) /\ len echo = size /\ negoHandle sha512 echo = Ret (NCount size iter).
Proof.
  intros sha512 iter size HL Hi H1 H2. unfold pingBytes. replace (size <? pingPongSize) with false by (symmetry; apply N.ltb_ge; exact H1). cbv zeta.
  set (rest := le_enc 4 iter ++ pingFill (N.to_nat (size - pingPongSize))).
  assert (Lr : len rest + 65 = size).
  { unfold rest, len. rewrite app_length, le_enc_length, fill_length. unfold pingPongSize. lia. }
  exists (1 :: sha512 rest ++ rest), (2 :: sha512 rest ++ rest). rewrite (firstn_all2 (sha512 rest)) by (rewrite HL; lia).
  assert (Lb : forall t : N, len (t :: sha512 rest ++ rest) = size) by (intros t; rewrite <- Lr; unfold len; cbn [length]; rewrite app_length, HL; lia).
  split; [reflexivity|]. split; [apply Lb|]. split; [reflexivity|]. split; [apply Lb|].
  rewrite pong_handled; [|exact HL|unfold len in *; lia|lia].
  unfold rest at 2. rewrite firstn_app_l by (rewrite le_enc_length; reflexivity). rewrite le_dec_enc by exact Hi. rewrite Lr. reflexivity.
Qed.
Print Assumptions C156_probe_comes_back.

(** Byte by byte: the type, the checksum of all that follows it, the iteration,
    and then the numbers of the places, counted from 0 and reduced to a byte. *)
Theorem C156_ping_layout : forall sha512 iter size ping, (forall b, length (sha512 b) = 64%nat) ->
  pingBytes sha512 iter size = Ret ping ->
  nth_error ping 0 = Some 1 /\ firstn 64 (skipn 1 ping) = sha512 (skipn 65 ping) /\ firstn 4 (skipn 65 ping) = le_enc 4 iter /\
  forall i, 69 + N.of_nat i < size -> nth_error ping (69 + i) = Some (N.of_nat i mod 256).
Proof.
  intros sha512 iter size ping HL E. unfold pingBytes in E. destruct (size <? pingPongSize) eqn:Hs; [discriminate|]. cbv zeta in E.
  apply N.ltb_ge in Hs. unfold pingPongSize in *.
  set (rest := le_enc 4 iter ++ pingFill (N.to_nat (size - 69))) in E.
  assert (P : [1] ++ firstn 64 (sha512 rest) ++ rest = ping) by congruence. clear E.
  rewrite (firstn_all2 (sha512 rest)) in P by (rewrite HL; lia). subst ping.
  destruct (skip65 1 (sha512 rest) rest (HL rest)) as [E1 E2]. cbn [app]. rewrite E1, E2.
  split; [reflexivity|]. split; [reflexivity|]. split; [unfold rest; apply firstn_app_l; rewrite le_enc_length; reflexivity|].
  intros i Hi. change (nth_error (1 :: sha512 rest ++ rest) (69 + i)) with (nth_error (sha512 rest ++ rest) (68 + i)).
  rewrite nth_error_app2 by (rewrite HL; lia). rewrite HL. unfold rest. rewrite nth_error_app2 by (rewrite le_enc_length; lia).
  rewrite le_enc_length. replace (68 + i - 64 - 4)%nat with i by lia. unfold pingFill.
  rewrite nth_error_map, nth_error_nth' with (d := 0%nat) by (rewrite seq_length; lia).
  rewrite seq_nth by lia. reflexivity.
Qed.
Print Assumptions C156_ping_layout.

(** Nothing else is counted: a message counts only if it carries the hash of
    what follows the hash, and then its size is what is counted. So if the part
    after the hash of an answer is replaced, the answer counts no more, unless the hash collides. *)
Theorem C156_only_whole_answers : forall sha512 b n it, (forall b, length (sha512 b) = 64%nat) -> len b < 2^32 ->
  negoHandle sha512 b = Ret (NCount n it) ->
  exists rest, b = [2] ++ sha512 rest ++ rest /\ n = len b /\ 69 <= n /\ it = le_dec (firstn 4 rest).
Proof.
  intros sha512 b n it HL Hb E. destruct (count_inv sha512 b n it E) as (rest & -> & L & -> & ->). exists rest. split; [reflexivity|].
  assert (Lb : len (2 :: sha512 rest ++ rest) = len rest + 65) by (unfold len; cbn [length]; rewrite app_length, HL; lia).
  rewrite Lb in *. rewrite N.mod_small by exact Hb. split; [reflexivity|]. split; [lia|reflexivity].
Qed.
Print Assumptions C156_only_whole_answers.

Theorem C156_changed_answer : forall sha512 rest rest' n it, (forall b, length (sha512 b) = 64%nat) ->
  negoHandle sha512 ([2] ++ sha512 rest ++ rest') = Ret (NCount n it) -> sha512 rest' = sha512 rest.
Proof.
  intros sha512 rest rest' n it HL E. destruct (count_inv sha512 _ n it E) as (r & Eb & _). cbn [app] in Eb. injection Eb as Eb.
  assert (A : sha512 rest = sha512 r /\ rest' = r) by (split; [apply (f_equal (firstn 64)) in Eb|apply (f_equal (skipn 64)) in Eb]; rewrite ?firstn_app_l, ?skipn_app_l in Eb by (symmetry; apply HL); exact Eb). destruct A as [A ->]. symmetry; exact A.
Qed.
Print Assumptions C156_changed_answer.

(** The reports of the largest size arrive as they were sent; and no message at
    all makes the handler panic. *)
Theorem C156_report_arrives : forall sha512 largest fin, largest < 2^32 -> negoHandle sha512 (ctlBytes largest fin) = Ret (NControl largest fin).
Proof.
  intros sha512 largest fin H. unfold ctlBytes, negEncode. cbn [nSub nLargest nFlags app negoHandle]. change (0 =? 0) with true. cbv iota. unfold negDecode.
  assert (L : len (0 :: le_enc 4 largest ++ [if fin then 1 else 0]) = 6) by (unfold len; cbn [length]; rewrite app_length, le_enc_length; reflexivity).
  rewrite L. change (6 <? negCtlSize) with false. cbv iota. cbn [nLargest nFlags].
  change (skipn 1 (0 :: le_enc 4 largest ++ [if fin then 1 else 0])) with (le_enc 4 largest ++ [if fin then 1 else 0]).
  rewrite firstn_app_l by (rewrite le_enc_length; reflexivity). rewrite le_dec_enc by exact H.
  replace (nth 5 (0 :: le_enc 4 largest ++ [if fin then 1 else 0]) 0) with (if fin then 1 else 0); [destruct fin; reflexivity|].
  cbn [nth]. rewrite app_nth2, le_enc_length by (rewrite le_enc_length; lia). reflexivity.
Qed.
Print Assumptions C156_report_arrives.

Theorem C156_no_panic : forall sha512 b, negoHandle sha512 b <> Panic.
Proof.
  intros sha512 [|t r]; [discriminate|]. cbn [negoHandle]. destruct (t =? 0); [destruct (negDecode (t :: r)); discriminate|]. destruct (t =? 1); [discriminate|].
  destruct (t =? 2); [|discriminate]. unfold pongDecode. destruct (len (t :: r) <? pingPongSize) eqn:L; [discriminate|].
  replace (len (t :: r) <? 65) with false by (symmetry; apply N.ltb_ge; apply N.ltb_ge in L; unfold pingPongSize in L; lia).
  destruct (bytes_eqb _ _); discriminate.
Qed.
Print Assumptions C156_no_panic.

(** A toy hash; a probe of 75 bytes in iteration 258, its echo, the same echo with
    one byte changed, shortened, and with another type. *)
Definition toy512 (b : bytes) : bytes := le_enc 64 (fold_left (fun a x => (a * 257 + x + 1) mod 2^500) b 7).
Definition ping75 : bytes := Eval vm_compute in match pingBytes toy512 258 75 with Ret b => b | Panic => [] end.
Example C156_example :
  (forall b, length (toy512 b) = 64%nat) /\ pingBytes toy512 258 75 = Ret ping75 /\ skipn 65 ping75 = [2; 1; 0; 0; 0; 1; 2; 3; 4; 5] /\
  negoHandle toy512 ping75 = Ret (NEcho (2 :: skipn 1 ping75)) /\ negoHandle toy512 (2 :: skipn 1 ping75) = Ret (NCount 75 258) /\
  negoHandle toy512 (2 :: firstn 73 (skipn 1 ping75) ++ [6]) = Ret (NError NeChecksum) /\
  negoHandle toy512 (2 :: firstn 67 (skipn 1 ping75)) = Ret (NError (NeShort 6 68)) /\ negoHandle toy512 (3 :: skipn 1 ping75) = Ret (NError (NeSubType 3)) /\
  negoHandle toy512 [] = Ret (NError (NeShort 1 0)) /\ negoHandle toy512 [1] = Ret (NEcho [2]) /\
  pingBytes toy512 258 68 = Panic /\ ctlBytes 1300 true = [0; 20; 5; 0; 0; 1] /\ negoHandle toy512 [0; 20; 5; 0; 0; 3; 9] = Ret (NControl 1300 true) /\
  negoHandle toy512 [0; 20; 5; 0; 0] = Ret (NError (NeShort 6 5)).
Proof. split; [intros b; apply le_enc_length|]. vm_compute. repeat split. Qed.
