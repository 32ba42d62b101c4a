(** C145, C146: the buffer a session reads packets into (session.go 904, 912) has
    the size its own limit says (551-556); what another session sends may be larger.
    C145: the messages of the key exchange. C146: the application's messages. *)
From Coq Require Import NArith ZArith List Bool Arith Lia.
From Verif Require Import Base BaseLemmas MessageModel CodecProofs PacketIDModel ReaderModel ReaderLoopModel PacketModel PacketSpec PacketProofs
  PacketProps MiscModel StreamProps.
Import ListNotations.
Local Open Scope N_scope.

(** [backend.Read] of one datagram into a buffer of [size] bytes: the rest of a
    larger datagram is lost. *)
Definition readInto (size : N) (datagram : bytes) : bytes := firstn (N.to_nat size) datagram.

(** A message of the key exchange, before sealing: the nine header bytes and the
    signed body (key_exchanger.go 730-747, session.go 1451-1465, 1546-1572). *)
Definition kxContent (sig : bytes) (m : kxMsg) : bytes := encodeMsg messageTypeKeyExchange 0 (sig ++ kxEncode m).

Lemma encodeMsg_len : forall t f p, len (encodeMsg t f p) = 9 + len p.
Proof.
  intros. unfold encodeMsg. destruct (hdrWrite _ _) as [[n h]|e] eqn:E; [|discriminate].
  rewrite len_app. f_equal. vm_compute in E. injection E as _ <-. reflexivity.
Qed.
Lemma kxContent_len : forall sig m, length sig = 64%nat -> kxMsg_ok m -> len (kxContent sig m) = 155.
Proof.
  intros sig m Ls Hm. unfold kxContent. rewrite encodeMsg_len, len_app. unfold len. rewrite Ls, (kx_len m Hm). reflexivity.
Qed.

(** Which limits leave room for how much. *)
Lemma room : forall lim lossyLim bk o n, n < 2^32 - 53 -> lim < 2^32 -> lossyLim < 2^32 ->
  match o with Some x => oPayloadLimit x < 2^32 | None => True end ->
  let r := initSession lim lossyLim bk o in
  (n + 53 <= sPacketLimit r <-> n <= sPayloadLimit r /\ sPayloadLimit r < 2^32 - 53).
Proof.
  intros lim lossyLim bk o n Hn H1 H2 Ho r. unfold r. clear r. unfold initSession. cbn [sPacketLimit sPayloadLimit].
  set (l := if oPayloadLimit _ =? 0 then _ else _).
  assert (L : l < 2^32).
  { unfold l. destruct (N.eqb_spec (oPayloadLimit (match o with Some x => x | None => zeroOptions end)) 0) as [_|_].
    - destruct (isLossyWriter bk); assumption.
    - destruct o; [assumption|reflexivity]. }
  clearbody l. unfold add32, containerHeadersSize, msgHeadersSize.
  change (2^32) with 4294967296 in *. rewrite N.add_mod_idemp_l by lia.
  destruct (N.ltb_spec l (4294967296 - 53)) as [A|A].
  - rewrite N.mod_small by lia. lia.
  - replace (l + 44 + 9) with (l - 4294967243 + 1 * 4294967296) by lia. rewrite N.mod_add by lia. rewrite N.mod_small by lia. lia.
Qed.

Lemma readInto_all : forall n d, len d <= n -> readInto n d = d.
Proof. intros n d H. unfold readInto. apply firstn_all2. unfold len in H. lia. Qed.

Section Size.
  Variable stream : bytes -> bytes -> nat -> N.
  Variable blake3 : bytes -> bytes.
  Variable poly1305 : bytes -> bytes -> bytes.
  Hypothesis prim : primitives_ok stream poly1305.

  Lemma packet_len : forall a c pid msgs raw, peer_ok a -> length pid = 8%nat -> len msgs + 44 < 2^32 ->
    (c = true -> sealKey a c <> None) -> sealPacket stream blake3 poly1305 a c pid msgs = Ret (Ok raw) -> len raw = 44 + len msgs.
  Proof.
    intros a c pid msgs raw Ha Lp Hl Hc S. destruct (seal_spec stream blake3 poly1305 prim a c pid msgs Ha Lp Hl Hc) as (body & E1 & T & _).
    rewrite E1 in S. injection S as <-. apply sealed_length in T; [|exact prim]. rewrite len_app. unfold len. rewrite idOnWire_length, Lp, T. lia.
  Qed.

  (** Part of a packet that was not encrypted with a session key. *)
  Lemma cut_unconfidential : forall a b pid msgs raw n, peer_ok a -> peer_ok b -> length pid = 8%nat -> len msgs + 44 < 2^32 -> pAux b = pAux a ->
    sealPacket stream blake3 poly1305 a false pid msgs = Ret (Ok raw) -> bytes_ok raw ->
    Forall (fun k => k = None \/ ~ firstTagFits stream blake3 poly1305 k (remoteIV b pid) pid (skipn 8 raw)) (pKeys b) ->
    (n < length raw)%nat ->
    (exists e, decryptPacket stream blake3 poly1305 b (firstn n raw) = Ret (Err e)) \/
    exists m', len m' < len msgs /\
      poly1305 (calculatePoly1305Key blake3 pid (pAux a)) m' = poly1305 (calculatePoly1305Key blake3 pid (pAux a)) msgs.
  Proof.
    intros a b pid msgs raw n Ha Hb Lp Hl Hx S B HF Hn.
    assert (LR := packet_len a false pid msgs raw Ha Lp Hl ltac:(discriminate) S).
    destruct (seal_spec stream blake3 poly1305 prim a false pid msgs Ha Lp Hl) as (body & E1 & T & U); [discriminate|].
    rewrite E1 in S. injection S as S. unfold sealKey, sealIV in T, U.
    destruct (Nat.ltb_spec n 44) as [N|N].
    { left. eexists. unfold decryptPacket. change messagesContainerHeadersSize with 44.
      destruct (N.ltb_spec (len (firstn n raw)) 44) as [_|A]; [reflexivity|]. unfold len in A. rewrite firstn_length in A. lia. }
    pose proof (idOnWire_length stream (pAux a) pid) as LI. rewrite Lp in LI.
    set (body' := firstn (n - 8) body).
    assert (ER : firstn n raw = idOnWire stream (pAux b) pid ++ body').
    { rewrite Hx, <- S, firstn_app, LI. rewrite firstn_all2 by lia. reflexivity. }
    assert (LB : length body = (36 + length msgs)%nat) by (apply sealed_length in T; [exact T|exact prim]).
    assert (L' : (length body' < length body)%nat) by (unfold body'; rewrite firstn_length; unfold len in LR; lia).
    assert (G' : (36 <= length body')%nat) by (unfold body'; rewrite firstn_length; lia).
    assert (BB : bytes_ok body).
    { rewrite <- S in B. apply Forall_app in B. apply B. }
    assert (BB' : bytes_ok body') by (apply Forall_firstn; exact BB).
    assert (EB : firstn 36 body' = firstn 36 body) by (unfold body'; rewrite firstn_firstn; f_equal; lia).
    rewrite ER. rewrite decrypt_split by auto. rewrite <- (app_nil_r (pKeys b)), tryKeys_skip; [|exact prim|exact G'|exact BB'|].
    2:{ pose proof (peer_keys_usable b pid Hb Lp) as HU. rewrite Forall_forall in *. intros k Hin. destruct (HF k Hin) as [?|Hne]; [auto|].
        destruct (HU k Hin) as [?|?]; [auto|]. right. split; [auto|]. intros F. apply Hne. eapply fits_prefix; [|exact F].
        rewrite <- S, skipn_app_l by (symmetry; exact LI). exact EB. }
    cbn [tryKeys]. rewrite Hx.
    destruct (recut_body stream blake3 poly1305 prim (pAux a) pid pid body (len msgs) msgs body' U ltac:(lia) T BB' EB G') as [Z|Z].
    - left. rewrite Z. eauto.
    - right. eexists. split; [|exact Z]. unfold len. rewrite skipn_length, plainOf_length. lia.
  Qed.
End Size.

(** ** C145 *)

(** Full statement: with every limit [NewSession] accepts, the messages of the key
    exchange can be read. *)
Definition reads_key_exchange (lim lossyLim : N) (bk : backendKind) (o : option sessOptions) (stream : bytes -> bytes -> nat -> N)
  (blake3 : bytes -> bytes) (poly1305 : bytes -> bytes -> bytes) (b : peer) : Prop :=
  forall a pid sig m raw, peer_ok a -> length pid = 8%nat -> length sig = 64%nat -> kxMsg_ok m -> pAux b = pAux a ->
  sealPacket stream blake3 poly1305 a false pid (kxContent sig m) = Ret (Ok raw) -> bytes_ok raw ->
  Forall (fun k => k = None \/ ~ firstTagFits stream blake3 poly1305 k (remoteIV b pid) pid (skipn 8 raw)) (pKeys b) ->
  decryptPacket stream blake3 poly1305 b (readInto (sPacketLimit (initSession lim lossyLim bk o)) raw) = Ret (Ok (pid, 155, kxContent sig m)).

(** From 146 on, short of the largest 53 limits. *)
Theorem C145_large_enough_partial : forall lim lossyLim bk o stream blake3 poly1305 b,
  primitives_ok stream poly1305 -> peer_ok b -> lim < 2^32 -> lossyLim < 2^32 ->
  match o with Some x => oPayloadLimit x < 2^32 | None => True end ->
  146 <= sPayloadLimit (initSession lim lossyLim bk o) -> sPayloadLimit (initSession lim lossyLim bk o) < 2^32 - 53 ->
  reads_key_exchange lim lossyLim bk o stream blake3 poly1305 b.
Proof.
  intros lim lossyLim bk o stream blake3 poly1305 b prim Hb H1 H2 Ho L U a pid sig m raw Ha Lp Ls Hm Hx S B HF.
  assert (LC := kxContent_len sig m Ls Hm).
  assert (LR := packet_len stream blake3 poly1305 prim a false pid (kxContent sig m) raw Ha Lp ltac:(rewrite LC; lia) ltac:(discriminate) S).
  assert (R : 146 + 53 <= sPacketLimit (initSession lim lossyLim bk o)) by (apply room; auto; lia).
  rewrite readInto_all by lia. rewrite <- LC. eapply C13_open_unconfidential; eauto. rewrite LC. lia.
Qed.
Print Assumptions C145_large_enough_partial.

(** With every other limit no message of the key exchange is understood, whoever
    sends it, unless a shorter message has the same Poly1305 tag under the same
    key. The options are accepted without a word. *)
Theorem C145_small_limit_refuted : forall lim lossyLim bk o stream blake3 poly1305 a b pid sig m raw,
  primitives_ok stream poly1305 -> peer_ok a -> peer_ok b -> lim < 2^32 -> lossyLim < 2^32 ->
  match o with Some x => oPayloadLimit x < 2^32 | None => True end ->
  sPayloadLimit (initSession lim lossyLim bk o) < 146 \/ 2^32 - 53 <= sPayloadLimit (initSession lim lossyLim bk o) ->
  length pid = 8%nat -> length sig = 64%nat -> kxMsg_ok m -> pAux b = pAux a ->
  sealPacket stream blake3 poly1305 a false pid (kxContent sig m) = Ret (Ok raw) -> bytes_ok raw ->
  Forall (fun k => k = None \/ ~ firstTagFits stream blake3 poly1305 k (remoteIV b pid) pid (skipn 8 raw)) (pKeys b) ->
  (exists e, decryptPacket stream blake3 poly1305 b (readInto (sPacketLimit (initSession lim lossyLim bk o)) raw) = Ret (Err e)) \/
  exists m', len m' < 155 /\
    poly1305 (calculatePoly1305Key blake3 pid (pAux a)) m' = poly1305 (calculatePoly1305Key blake3 pid (pAux a)) (kxContent sig m).
Proof.
  intros lim lossyLim bk o stream blake3 poly1305 a b pid sig m raw prim Ha Hb H1 H2 Ho L Lp Ls Hm Hx S B HF.
  assert (LC := kxContent_len sig m Ls Hm).
  assert (LR := packet_len stream blake3 poly1305 prim a false pid (kxContent sig m) raw Ha Lp ltac:(rewrite LC; lia) ltac:(discriminate) S).
  assert (R : ~ 146 + 53 <= sPacketLimit (initSession lim lossyLim bk o)) by (rewrite room; auto; lia).
  rewrite <- LC. apply (cut_unconfidential stream blake3 poly1305 prim a b pid (kxContent sig m) raw); auto; [rewrite LC; lia|].
  unfold len in LR. fold (len (kxContent sig m)) in LR. lia.
Qed.
Print Assumptions C145_small_limit_refuted.

(** ** C146 *)

(** Full statement: what a session with one set of options may send to a session
    with another set, neither of them negotiating (the established size is then the
    sender's own limit, session.go 489), can be read there. *)
Definition limits_interoperate (lim lossyLim : N) (bka bkb : backendKind) (oa ob : option sessOptions) (stream : bytes -> bytes -> nat -> N)
  (blake3 : bytes -> bytes) (poly1305 : bytes -> bytes -> bytes) (a b : peer) : Prop :=
  forall pid t f payload raw, len payload <= sEstablished (initSession lim lossyLim bka oa) -> length pid = 8%nat ->
  sealPacket stream blake3 poly1305 a true pid (encodeMsg t f payload) = Ret (Ok raw) -> bytes_ok raw ->
  decryptPacket stream blake3 poly1305 b (readInto (sPacketLimit (initSession lim lossyLim bkb ob)) raw) =
    Ret (Ok (pid, 9 + len payload, encodeMsg t f payload)).

Theorem C146_not_larger_partial : forall lim lossyLim bka bkb oa ob stream blake3 poly1305 a b key post,
  primitives_ok stream poly1305 -> peer_ok a -> peer_ok b -> lim < 2^32 -> lossyLim < 2^32 ->
  match ob with Some x => oPayloadLimit x < 2^32 | None => True end ->
  sPayloadLimit (initSession lim lossyLim bka oa) <= sPayloadLimit (initSession lim lossyLim bkb ob) ->
  sPayloadLimit (initSession lim lossyLim bkb ob) < 2^32 - 53 ->
  pAux b = pAux a -> pRemoteID b = Some (pOwnID a) -> nth 0 (pKeys a) None = Some key -> pKeys b = Some key :: post ->
  limits_interoperate lim lossyLim bka bkb oa ob stream blake3 poly1305 a b.
Proof.
  intros lim lossyLim bka bkb oa ob stream blake3 poly1305 a b key post prim Ha Hb H1 H2 Ho L U Hx Hr Hk Hks pid t f payload raw Hp Lp S B.
  change (sEstablished (initSession lim lossyLim bka oa)) with (sPayloadLimit (initSession lim lossyLim bka oa)) in Hp.
  assert (LM := encodeMsg_len t f payload).
  assert (LR : len raw = 44 + (9 + len payload)).
  { rewrite <- LM. eapply (packet_len stream blake3 poly1305 prim a true); eauto; [rewrite LM; lia|].
    intros _. unfold sealKey, secretIDRecentBoth. rewrite Hk. discriminate. }
  assert (R : len payload + 53 <= sPacketLimit (initSession lim lossyLim bkb ob)) by (apply room; auto; lia).
  rewrite readInto_all by lia. rewrite <- LM.
  eapply (C13_open_confidential stream blake3 poly1305 a b pid _ key [] post); eauto. rewrite LM. lia.
Qed.
Print Assumptions C146_not_larger_partial.

(** Every message above the receiver's limit is lost though the sender may send it;
    same exception as above. *)
Theorem C146_larger_lost_refuted : forall lim lossyLim bkb ob stream blake3 poly1305 a b key pre post pid t f payload raw win,
  primitives_ok stream poly1305 -> peer_ok a -> peer_ok b -> lim < 2^32 -> lossyLim < 2^32 ->
  match ob with Some x => oPayloadLimit x < 2^32 | None => True end ->
  sPayloadLimit (initSession lim lossyLim bkb ob) < len payload -> len payload < 2^32 - 53 ->
  pAux b = pAux a -> pRemoteID b = Some (pOwnID a) -> nth 0 (pKeys a) None = Some key -> pKeys b = pre ++ Some key :: post ->
  length pid = 8%nat -> sealPacket stream blake3 poly1305 a true pid (encodeMsg t f payload) = Ret (Ok raw) -> bytes_ok raw ->
  Forall (fun k => k = None \/ ~ firstTagFits stream blake3 poly1305 k (pOwnID a ++ pid) pid (skipn 8 raw)) pre ->
  (exists b' pk, receivePacket stream blake3 poly1305 b win (readInto (sPacketLimit (initSession lim lossyLim bkb ob)) raw) = Ret (b', win, pk) /\
     forall l c, pk <> PktAccepted l c) \/
  exists m', len m' < 9 + len payload /\
    poly1305 (calculatePoly1305Key blake3 pid (Some key)) m' = poly1305 (calculatePoly1305Key blake3 pid (Some key)) (encodeMsg t f payload).
Proof.
  intros lim lossyLim bkb ob stream blake3 poly1305 a b key pre post pid t f payload raw win prim Ha Hb H1 H2 Ho L U Hx Hr Hk Hks Lp S B HF.
  assert (LM := encodeMsg_len t f payload).
  assert (LR : len raw = 44 + (9 + len payload)).
  { rewrite <- LM. eapply (packet_len stream blake3 poly1305 prim a true); eauto; [rewrite LM; lia|].
    intros _. unfold sealKey, secretIDRecentBoth. rewrite Hk. discriminate. }
  assert (R : ~ len payload + 53 <= sPacketLimit (initSession lim lossyLim bkb ob)) by (rewrite room; auto; lia).
  set (n := sPacketLimit (initSession lim lossyLim bkb ob)) in *. clearbody n.
  destruct (readInto n raw) as [|x rd] eqn:E.
  { left. exists b, RdEmpty. split; [reflexivity|discriminate]. }
  rewrite <- E.
  destruct (C144_cut_refuted stream blake3 poly1305 a b pid (encodeMsg t f payload) key pre post raw (readInto n raw) (skipn (N.to_nat n) raw) win)
    as [(b' & e & Z)|(m' & Lm & Z)]; auto.
  - rewrite LM. lia.
  - symmetry. apply firstn_skipn.
  - rewrite E. discriminate.
  - intros C. apply (f_equal (@length N)) in C. rewrite skipn_length in C. unfold len in LR, R. cbn [length] in C. lia.
  - left. exists b', (PktUndecryptable e). split; [exact Z|discriminate].
  - right. exists m'. split; [|exact Z]. rewrite LM in Lm.
    assert (0 < len (skipn (N.to_nat n) raw)) by (unfold len in *; rewrite skipn_length; lia). lia.
Qed.
Print Assumptions C146_larger_lost_refuted.

(** Limits 145 and 146 beside each other, with and without a pre-shared key; a
    200-byte message from a session with the default limit to one with the limit
    150, and to one with the limit 200. *)
Definition optLimit (l : N) : option sessOptions :=
  Some {| oErrorOn := None; oSendDelay := None; oStorageSize := 0%Z; oPayloadLimit := l; oMaxChainDiff := 0;
          oMaxFragmented := 0; oPSK := None; oKx := zeroKx |}.
Definition bufferOf (l : N) : N := sPacketLimit (initSession initialLimit initialLossyLimit BackendOther (optLimit l)).
Definition exKx : kxMsg := {| kSess := {| sCreatedAt := 5; sRandom := 6 |}; kIdentity := repeat 7 32; kPub := repeat 8 32; kMode := 0; kFlags := 0 |}.
Definition exSig : bytes := repeat 9 64.
Definition fresh (p : peer) : peer := {| pAux := pAux p; pKeys := []; pRemoteID := None; pOwnID := pOwnID p; pNext := pNext p |}.
Definition okBytes (o : outcome (res bytes)) : bytes := match o with Ret (Ok r) => r | _ => [] end.
Definition kxPacket (psk : bool) : bytes := okBytes (sealPacket toyStream toyHash toyPoly (fresh (exA psk)) false (packetIDBytes 1) (kxContent exSig exKx)).
Example C145_example : forallb (fun psk =>
    match decryptPacket toyStream toyHash toyPoly (fresh (exB psk)) (readInto (bufferOf 146) (kxPacket psk)),
          decryptPacket toyStream toyHash toyPoly (fresh (exB psk)) (readInto (bufferOf 145) (kxPacket psk)),
          decryptPacket toyStream toyHash toyPoly (fresh (exB psk)) (readInto (bufferOf (2^32 - 50)) (kxPacket psk)) with
    | Ret (Ok (_, l, c)), Ret (Err ErrInvalidChecksum), Ret (Err (ErrTooShort 44 3)) => (l =? 155) && bytes_eqb c (kxContent exSig exKx)
    | _, _, _ => false
    end) [true; false] = true.
Proof. vm_compute. reflexivity. Qed.

Definition exMsg : bytes := Eval vm_compute in encodeMsg MessageTypeReadWrite 1 (repeat 77 200).
Definition exData : bytes := Eval vm_compute in okBytes (sealPacket toyStream toyHash toyPoly (exA true) true (packetIDBytes 1) exMsg).
Lemma exData_sealed : sealPacket toyStream toyHash toyPoly (exA true) true (packetIDBytes 1) (encodeMsg MessageTypeReadWrite 1 (repeat 77 200)) = Ret (Ok exData).
Proof. vm_compute. reflexivity. Qed.
Lemma exData_cut : decryptPacket toyStream toyHash toyPoly (exB true) (readInto (bufferOf 150) exData) = Ret (Err ErrInvalidChecksum).
Proof. vm_compute. reflexivity. Qed.
Lemma exData_ok : bytes_ok exData.
Proof. apply Forall_forall. intros x H. assert (A : forallb (fun x => x <? 256) exData = true) by (vm_compute; reflexivity).
  rewrite forallb_forall in A. apply N.ltb_lt, A, H. Qed.
Example C146_example :
  decryptPacket toyStream toyHash toyPoly (exB true) (readInto (bufferOf 200) exData) = Ret (Ok (packetIDBytes 1, 209, exMsg)) /\
  decryptPacket toyStream toyHash toyPoly (exB true) (readInto (bufferOf 199) exData) = Ret (Err ErrInvalidChecksum).
Proof. split; vm_compute; reflexivity. Qed.

Theorem C146_different_limits_refuted :
  ~ limits_interoperate initialLimit initialLossyLimit BackendOther BackendOther None (optLimit 150) toyStream toyHash toyPoly (exA true) (exB true).
Proof.
  intros H. specialize (H (packetIDBytes 1) MessageTypeReadWrite 1 (repeat 77 200) exData).
  change (sPacketLimit _) with (bufferOf 150) in H. rewrite exData_cut in H.
  assert (F : Ret (Err ErrInvalidChecksum) = Ret (Ok (packetIDBytes 1, 9 + len (repeat 77 200), encodeMsg MessageTypeReadWrite 1 (repeat 77 200))) -> False) by discriminate.
  apply F, H; [vm_compute; discriminate|reflexivity|exact exData_sealed|exact exData_ok].
Qed.
Print Assumptions C146_different_limits_refuted.
