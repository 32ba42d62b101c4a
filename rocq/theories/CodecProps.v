(** Properties C01-C04: wire formats. *)
From Coq Require Import NArith List Bool Lia.
From Verif Require Import Base BaseLemmas MessageModel CodecSpec CodecProofs.
Import ListNotations.
Open Scope N_scope.

(** ** C01 *)

(** Writing into any buffer of at least 9 bytes: the fields stand where the
    format says, the rest of the buffer is untouched, and reading the buffer
    gives the header back. *)
Theorem C01_header_roundtrip : forall h b, msgHdr_ok h -> 9 <= len b ->
  exists b', hdrWrite h b = Ok (9, b') /\ length b' = length b /\
    field_at b' 0 4 (mType h) /\ field_at b' 4 4 (mLength h) /\ field_at b' 8 1 (mFlags h) /\
    same_from 9 b b' /\ hdrRead b' = Ok (9, h).
Proof.
  intros h b Hh Hb. destruct (hdrWrite_ok h b Hb) as (b' & E & L & F1 & F2 & F3 & S).
  exists b'. pose proof (hdr_rw h b 9 b' Hh E). destruct Hh as (_ & _ & Hf). auto 10.
Qed.
Print Assumptions C01_header_roundtrip.

Theorem C01_header_injective : forall h1 h2 b1 b2 n1 n2 c1 c2,
  msgHdr_ok h1 -> msgHdr_ok h2 ->
  hdrWrite h1 b1 = Ok (n1, c1) -> hdrWrite h2 b2 = Ok (n2, c2) ->
  firstn 9 c1 = firstn 9 c2 -> h1 = h2.
Proof. exact hdr_inj. Qed.
Print Assumptions C01_header_injective.

(** The reader accepts every input of 9 or more bytes and nothing shorter;
    what it returns re-encodes to the very same bytes. *)
Theorem C01_reader_total : forall b, bytes_ok b ->
  (9 <= len b -> exists h, hdrRead b = Ok (9, h) /\ msgHdr_ok h /\ hdrWrite h b = Ok (9, b)) /\
  (len b < 9 -> hdrRead b = Err (ErrTooShort 9 (len b))).
Proof.
  intros b Hb. split; intros H.
  - destruct (hdrRead_total b H) as [h E]. exists h. split; auto. eapply hdr_wr; eauto.
  - unfold hdrRead, messageHeadersSize.
    replace (len b <? 9) with true by (symmetry; apply N.ltb_lt; auto). auto.
Qed.
Print Assumptions C01_reader_total.

(** The two flag bits are independent of each other and of the other bits. *)
Theorem C01_flags_independent : forall f c g, f < 2^8 ->
  let f' := setIsFragmented (setIsConfidential f c) g in
  f' < 2^8 /\ isConfidential f' = c /\ isFragmented f' = g /\
  forall i, 2 <= i < 8 -> N.testbit f' i = N.testbit f i.
Proof.
  intros f c g Hf f'.
  assert (E : f' = setFlag (setFlag f (2^0) c) (2^1) g) by reflexivity. clearbody f'. subst f'.
  split; [|split; [|split]].
  - apply setFlag_bound; [|lia]. apply setFlag_bound; [auto|lia].
  - unfold isConfidential. change flagConfidential with (2^0).
    rewrite land_pow2_testbit, !setFlag_bit by lia. reflexivity.
  - unfold isFragmented. change flagFragmented with (2^1).
    rewrite land_pow2_testbit, setFlag_bit by lia. reflexivity.
  - intros i Hi. rewrite !setFlag_bit by lia.
    replace (1 =? i) with false by (symmetry; apply N.eqb_neq; lia).
    replace (0 =? i) with false by (symmetry; apply N.eqb_neq; lia). reflexivity.
Qed.
Print Assumptions C01_flags_independent.

Example C01_example :
  hdrWrite {| mType := MessageTypeReadWrite; mLength := 258; mFlags := 3 |} (repeat 7 11)
    = Ok (9, [252; 255; 255; 255; 2; 1; 0; 0; 3; 7; 7]) /\
  hdrRead [252; 255; 255; 255; 2; 1; 0; 0; 3; 7; 7]
    = Ok (9, {| mType := MessageTypeReadWrite; mLength := 258; mFlags := 3 |}).
Proof. split; vm_compute; reflexivity. Qed.

(** ** C02 *)
Theorem C02_packet_header_roundtrip : forall h b, contHdr_ok h -> 44 <= len b ->
  exists b', contWrite h b = Ok (44, b') /\ length b' = length b /\
    raw_at b' 0 (cPacketID h) /\ raw_at b' 8 (cHdrSum h) /\ raw_at b' 24 (cMsgSum h) /\
    field_at b' 40 4 (cLength h) /\ same_from 44 b b' /\
    contRead b' = Ret (Ok (44, h)).
Proof.
  intros h b Hh Hb. destruct (contWrite_ok h b Hh Hb) as (b' & E & R).
  exists b'. pose proof (cont_rw h b 44 b' Hh E). intuition.
Qed.
Print Assumptions C02_packet_header_roundtrip.

(** Reading never panics; it is an error exactly on input shorter than 44
    bytes. *)
Theorem C02_short_is_error : forall b,
  (len b < 44 -> contRead b = Ret (Err (ErrTooShort 44 (len b)))) /\
  (44 <= len b -> exists h, contRead b = Ret (Ok (44, h))).
Proof. intros b. split; [apply contRead_short | apply contRead_long]. Qed.
Print Assumptions C02_short_is_error.

Theorem C02_packet_header_injective : forall h1 h2 b1 b2 n1 n2 c1 c2,
  contHdr_ok h1 -> contHdr_ok h2 ->
  contWrite h1 b1 = Ok (n1, c1) -> contWrite h2 b2 = Ok (n2, c2) ->
  firstn 44 c1 = firstn 44 c2 -> h1 = h2.
Proof. exact cont_inj. Qed.
Print Assumptions C02_packet_header_injective.

(** The packet ID value survives its 8-byte form. *)
Theorem C02_packet_id_roundtrip : forall v, v < 2^64 ->
  packetIDValue (packetIDBytes v) = v /\ length (packetIDBytes v) = 8%nat.
Proof. intros. split; [apply le_dec_enc; auto | apply le_enc_length]. Qed.
Print Assumptions C02_packet_id_roundtrip.

Example C02_example :
  let h := {| cPacketID := packetIDBytes 513; cHdrSum := repeat 9 16; cMsgSum := repeat 8 16; cLength := 300 |} in
  contHdr_ok h /\
  match contWrite h (repeat 1 46) with
  | Ok (_, b) => contRead b = Ret (Ok (44, h)) /\ skipn 40 b = [44; 1; 0; 0; 1; 1]
  | _ => False
  end.
Proof. split; [unfold contHdr_ok; cbn; repeat split; auto; try (repeat constructor; vm_compute; auto); vm_compute; auto | split; vm_compute; reflexivity]. Qed.

(** ** C03 *)
Theorem C03_fragment_header_roundtrip : forall h b, fragHdr_ok h -> 24 <= len b ->
  exists b', fragWrite h b = Ok (24, b') /\ length b' = length b /\
    field_at b' 0 8 (fChainID h) /\ field_at b' 8 8 (fStartPos h) /\ field_at b' 16 8 (fTotal h) /\
    same_from 24 b b' /\ fragRead b' = Ok (24, h).
Proof.
  intros h b Hh Hb. destruct (fragWrite_ok h b Hb) as (b' & E & R).
  exists b'. pose proof (frag_rw h b 24 b' Hh E). intuition.
Qed.
Print Assumptions C03_fragment_header_roundtrip.

Theorem C03_short_is_error : forall b,
  (len b < 24 -> fragRead b = Err (ErrTooShort 24 (len b))) /\
  (24 <= len b -> exists h, fragRead b = Ok (24, h)) /\
  (forall h, len b < 24 -> fragWrite h b = Err (ErrTooShort 24 (len b))).
Proof.
  intros b. split; [apply fragRead_short | split; [apply fragRead_long|]].
  intros h H. unfold fragWrite, messageFragmentHeadersSize.
  replace (len b <? 24) with true by (symmetry; apply N.ltb_lt; auto). auto.
Qed.
Print Assumptions C03_short_is_error.

Theorem C03_fragment_header_injective : forall h1 h2 b1 b2 n1 n2 c1 c2,
  fragHdr_ok h1 -> fragHdr_ok h2 ->
  fragWrite h1 b1 = Ok (n1, c1) -> fragWrite h2 b2 = Ok (n2, c2) ->
  firstn 24 c1 = firstn 24 c2 -> h1 = h2.
Proof. exact frag_inj. Qed.
Print Assumptions C03_fragment_header_injective.

Example C03_example :
  let h := {| fChainID := 7; fStartPos := 1000; fTotal := 70000 |} in
  match fragWrite h (repeat 0 24) with
  | Ok (_, b) => fragRead b = Ok (24, h) /\ b <> repeat 0 24
  | _ => False
  end.
Proof. split; vm_compute; [reflexivity | discriminate]. Qed.

(** ** C04 *)
Theorem C04_session_id_roundtrip : forall s, sessID_ok s ->
  length (sessBytes s) = 16%nat /\ sessFill (sessBytes s) = Ret s /\
  field_at (sessBytes s) 0 8 (sCreatedAt s) /\ field_at (sessBytes s) 8 8 (sRandom s).
Proof.
  intros s H. split; [apply sess_len | split; [apply sess_rt; auto|split]].
  - apply (field_at_app []); reflexivity.
  - unfold sessBytes. rewrite <- (app_nil_r (le_enc 8 (sRandom s))).
    apply field_at_app. rewrite le_enc_length; auto.
Qed.
Print Assumptions C04_session_id_roundtrip.

Theorem C04_session_id_injective : forall a b, sessID_ok a -> sessID_ok b ->
  sessBytes a = sessBytes b -> a = b.
Proof.
  intros a b Ha Hb H. apply sess_rt in Ha. apply sess_rt in Hb. rewrite H in Ha. congruence.
Qed.
Print Assumptions C04_session_id_injective.

(** A key-exchange message, possibly followed by further bytes, decodes to
    itself; the encoding has 82 bytes (146 with the signature in front). *)
Theorem C04_kx_message_roundtrip : forall m sig tail, kxMsg_ok m -> length sig = 64%nat ->
  length (kxEncode m) = 82%nat /\ len (sig ++ kxEncode m) = kxSignedSize /\
  kxDecode (kxEncode m ++ tail) = Some m /\
  kxDecode (skipn 64 (sig ++ kxEncode m ++ tail)) = Some m.
Proof.
  intros m sig tail Hm Hs. pose proof (kx_len m Hm). pose proof (kx_rt m tail Hm).
  split; [auto | split; [|split; auto]].
  - rewrite len_app. unfold len. rewrite Hs, H. reflexivity.
  - rewrite skipn_app_l by auto. auto.
Qed.
Print Assumptions C04_kx_message_roundtrip.

Theorem C04_negotiation_message_roundtrip : forall m tail, negCtl_ok m ->
  length (negEncode m) = 6%nat /\ negDecode (negEncode m ++ tail) = Ok m.
Proof. intros. split; [apply neg_len | apply neg_rt; auto]. Qed.
Print Assumptions C04_negotiation_message_roundtrip.

Theorem C04_short_is_error : forall b,
  (len b < 6 -> exists e, negDecode b = Err e) /\ (len b < 82 -> kxDecode b = None).
Proof.
  intros b. split; intros H.
  - unfold negDecode, negCtlSize. replace (len b <? 6) with true by (symmetry; apply N.ltb_lt; auto). eauto.
  - unfold kxDecode, kxMsgSize. replace (len b <? 82) with true by (symmetry; apply N.ltb_lt; auto). auto.
Qed.
Print Assumptions C04_short_is_error.

Example C04_example :
  let m := {| kSess := {| sCreatedAt := 5; sRandom := 2^63 |}; kIdentity := repeat 3 32;
              kPub := repeat 4 32; kMode := 1; kFlags := 1 |} in
  kxMsg_ok m /\ kxDecode (kxEncode m) = Some m /\
  negDecode (negEncode {| nSub := 0; nLargest := 1392; nFlags := 1 |}) =
    Ok {| nSub := 0; nLargest := 1392; nFlags := 1 |}.
Proof. split; [unfold kxMsg_ok, sessID_ok; cbn; repeat split; vm_compute; auto | split; vm_compute; reflexivity]. Qed.
