(** What does hold of C12 and C71. *)
From Coq Require Import NArith List Bool Arith Lia.
From Verif Require Import Base BaseLemmas MessageModel ReaderModel PacketModel PacketSpec PacketProofs PacketProps.
Import ListNotations.
Local Open Scope N_scope.

(** What a sealed body is: tags, length and messages under the key stream of
    the nonce. *)
Lemma seal_body : forall stream blake3 poly1305 p (conf : bool) pid msgs key raw,
  primitives_ok stream poly1305 -> peer_ok p -> length pid = 8%nat -> len msgs + 44 < 2^32 ->
  (if conf then nth 0 (pKeys p) None else pAux p) = Some key ->
  sealPacket stream blake3 poly1305 p conf pid msgs = Ret (Ok raw) ->
  firstn 8 (raw : bytes) = idOnWire stream (pAux p) pid /\
  exists t, length t = 36%nat /\
    skipn 8 raw = xorStream stream key (if conf then pOwnID p ++ pid else pid) (t ++ msgs).
Proof.
  intros stream blake3 poly1305 p conf pid msgs key raw Hprim Hok Lp Hl Hk S.
  destruct (seal_spec stream blake3 poly1305 Hprim p conf pid msgs Hok Lp Hl) as (body & E & T & _).
  { intros ->. unfold sealKey, secretIDRecentBoth. rewrite Hk. discriminate. }
  rewrite E in S. injection S as <-.
  split; [apply firstn_app_l; rewrite idOnWire_length; auto|].
  rewrite skipn_app_l by (rewrite idOnWire_length; auto).
  assert (K : sealKey p conf = Some key) by exact Hk. rewrite K in T. unfold sealed in T. cbn [plainOf] in T. unfold sealIV in T.
  exists (tags blake3 poly1305 (Some key) pid (len msgs) msgs ++ le_enc 4 (len msgs)). split.
  - unfold tags. rewrite !app_length, le_enc_length. destruct Hprim as [_ P]. rewrite !P. reflexivity.
  - rewrite <- app_assoc, <- T. rewrite xorStream_invol. reflexivity.
Qed.

(** C12: the key stream spent on the packet IDs (that of [emptyIV]) is never
    spent on the body of a packet: whatever is learnt about it reveals nothing
    about content.  Full statement (refuted): each ID gets its own key stream. *)
Theorem C12_body_apart_partial : forall stream blake3 poly1305 p (conf : bool) pid msgs key raw,
  primitives_ok stream poly1305 -> peer_ok p -> length pid = 8%nat -> len msgs + 44 < 2^32 ->
  packetIDValue pid <> 0 ->
  (if conf then nth 0 (pKeys p) None else pAux p) = Some key ->
  sealPacket stream blake3 poly1305 p conf pid msgs = Ret (Ok raw) ->
  exists t iv, length t = 36%nat /\ skipn 8 raw = xorStream stream key iv (t ++ msgs) /\ iv <> emptyIV.
Proof.
  intros stream blake3 poly1305 p conf pid msgs key raw Hprim Hok Lp Hl H0 Hk S.
  destruct (seal_body _ _ _ _ _ _ _ _ _ Hprim Hok Lp Hl Hk S) as (_ & t & Lt & E).
  exists t, (if conf then pOwnID p ++ pid else pid). split; [exact Lt|]. split; [exact E|].
  unfold emptyIV. destruct conf; intro X.
  - apply H0. apply (f_equal (skipn 16)) in X. destruct Hok as (_ & _ & Lo & _). rewrite skipn_app_l in X by (symmetry; exact Lo). rewrite X. reflexivity.
  - apply (f_equal (@length N)) in X. rewrite Lp, repeat_length in X. discriminate X.
Qed.
Print Assumptions C12_body_apart_partial.

Example C12_body_example :
  let r := rawOf (sealPacket toyStream toyHash toyPoly (exA true) true (packetIDBytes 5) [1;2;3]) in
  packetIDValue (packetIDBytes 5) <> 0 /\ length r = 47%nat.
Proof. vm_compute. split; [discriminate|reflexivity]. Qed.

(** C71: two packets sealed with the session key use the same nonce only if
    they are the same packet of the same session.  Full statement (refuted):
    also for packets protected by the pre-shared key only. *)
Theorem C71_session_key_partial : forall stream blake3 poly1305 p q id1 id2 m1 m2 key raw1 raw2,
  primitives_ok stream poly1305 -> peer_ok p -> peer_ok q -> length id1 = 8%nat -> length id2 = 8%nat ->
  len m1 + 44 < 2^32 -> len m2 + 44 < 2^32 ->
  nth 0 (pKeys p) None = Some key -> nth 0 (pKeys q) None = Some key ->
  sealPacket stream blake3 poly1305 p true id1 m1 = Ret (Ok raw1) ->
  sealPacket stream blake3 poly1305 q true id2 m2 = Ret (Ok raw2) ->
  exists t1 t2 iv1 iv2, length t1 = 36%nat /\ length t2 = 36%nat /\
    skipn 8 raw1 = xorStream stream key iv1 (t1 ++ m1) /\ skipn 8 raw2 = xorStream stream key iv2 (t2 ++ m2) /\
    (iv1 = iv2 -> pOwnID p = pOwnID q /\ id1 = id2).
Proof.
  intros stream blake3 poly1305 p q id1 id2 m1 m2 key raw1 raw2 Hprim Hp Hq L1 L2 B1 B2 K1 K2 S1 S2.
  destruct (seal_body _ _ _ p true _ _ _ _ Hprim Hp L1 B1 K1 S1) as (_ & t1 & T1 & E1).
  destruct (seal_body _ _ _ q true _ _ _ _ Hprim Hq L2 B2 K2 S2) as (_ & t2 & T2 & E2).
  exists t1, t2, (pOwnID p ++ id1), (pOwnID q ++ id2). do 4 (split; [assumption|]). intro X.
  destruct Hp as (_ & _ & Lp & _), Hq as (_ & _ & Lq & _). split.
  - apply (f_equal (firstn 16)) in X. rewrite !firstn_app_l in X by (symmetry; assumption). exact X.
  - apply (f_equal (skipn 16)) in X. rewrite !skipn_app_l in X by (symmetry; assumption). exact X.
Qed.
Print Assumptions C71_session_key_partial.

(** The first packets of two peers that share a session key. *)
Definition exC : peer :=
  {| pAux := pAux (exB true); pKeys := pKeys (exA true); pRemoteID := pRemoteID (exB true);
     pOwnID := pOwnID (exB true); pNext := 0 |}.
Example C71_session_key_example :
  nth 0 (pKeys exC) None = nth 0 (pKeys (exA true)) None /\ nth 0 (pKeys exC) None <> None /\
  pOwnID (exA true) <> pOwnID exC /\
  let r1 := rawOf (sealPacket toyStream toyHash toyPoly (exA true) true (packetIDBytes 1) [10;20;30]) in
  let r2 := rawOf (sealPacket toyStream toyHash toyPoly exC true (packetIDBytes 1) [1;2;3]) in
  length r1 = 47%nat /\ length r2 = 47%nat /\ xorb_bytes (skipn 44 r1) (skipn 44 r2) <> [11; 22; 29].
Proof. vm_compute. repeat split; discriminate. Qed.
