(** Properties C11-C16, C18, C71: packet IDs, nonces, sealing and opening. *)
From Coq Require Import NArith List Bool Lia Arith.
From Verif Require Import Base BaseLemmas MessageModel CodecProofs PacketIDModel PacketIDSpec PacketIDRun
  ReaderModel ReaderLoopModel ReaderSpec ReaderProofs ReaderRun ReaderProps PacketModel PacketSpec PacketProofs.
Import ListNotations.
Local Open Scope N_scope.

(** Toy primitives for the examples: they have the right sizes, depend on all
    their inputs and can be computed. *)
Definition mix (l : bytes) : N := fold_left (fun a b => (a * 31 + b + 7) mod 65521) l 1.
Definition toyStream (k iv : bytes) (n : nat) : N := (mix (k ++ iv) * (N.of_nat n + 3) + 11 * N.of_nat n) mod 251.
Definition toyHash (m : bytes) : bytes := map (fun i => (mix (N.of_nat i :: m)) mod 256) (seq 0 32).
Definition toyPoly (k m : bytes) : bytes := map (fun i => (mix (N.of_nat i :: k ++ m)) mod 256) (seq 0 16).

Lemma toy_ok : primitives_ok toyStream toyPoly.
Proof.
  split; intros.
  - unfold toyStream. pose proof (N.mod_lt (mix (k ++ iv) * (N.of_nat n + 3) + 11 * N.of_nat n) 251 ltac:(lia)). lia.
  - unfold toyPoly. rewrite map_length, seq_length. reflexivity.
Qed.

Definition keyOf (n : N) : bytes := map (fun i => (n + N.of_nat i) mod 256) (seq 0 32).
Definition idOf (n : N) : bytes := map (fun i => (n + N.of_nat i) mod 256) (seq 0 16).
(** Two peers sharing key 40 (newest) and 80; A's session ID is 1, B's is 2. *)
Definition exA (psk : bool) : peer :=
  {| pAux := if psk then Some (keyOf 200) else None; pKeys := [Some (keyOf 40); None; Some (keyOf 80); None];
     pRemoteID := Some (idOf 2); pOwnID := idOf 1; pNext := 0 |}.
Definition exB (psk : bool) : peer :=
  {| pAux := if psk then Some (keyOf 200) else None; pKeys := [Some (keyOf 80); Some (keyOf 40); None; None];
     pRemoteID := Some (idOf 1); pOwnID := idOf 2; pNext := 0 |}.

(** ** C11 *)

Section C11.
  Variable stream : bytes -> bytes -> nat -> N.
  Variable blake3 : bytes -> bytes.
  Variable poly1305 : bytes -> bytes -> bytes.

  Lemma traffic_next : forall acts p win p' sent, pNext p + len acts < 2^64 ->
    traffic stream blake3 poly1305 p win acts = Ret (p', sent) ->
    pOwnID p' = pOwnID p /\ increasing_from (pNext p) (map (fun x => packetIDValue (snd x)) sent) /\
    Forall (fun x => length (snd x) = 8%nat) sent.
  Proof.
    induction acts as [|a acts IH]; intros p win p' sent Hn H; cbn [traffic] in H.
    - injection H as <- <-. cbn. auto.
    - rewrite len_cons in Hn. destruct a as [c msgs|raw].
      + unfold sendPacket, takePacketID in H. cbn zeta in H.
        set (p1 := {| pAux := pAux p; pKeys := pKeys p; pRemoteID := pRemoteID p; pOwnID := pOwnID p;
                      pNext := add64 (pNext p) 1 |}) in H.
        destruct (sealPacket stream blake3 poly1305 p1 c (packetIDBytes (add64 (pNext p) 1)) msgs); [|discriminate].
        destruct (traffic stream blake3 poly1305 p1 win acts) as [[p2 o]|] eqn:E; [|discriminate].
        injection H as <- <-.
        assert (E1 : pNext p1 = pNext p + 1) by (unfold p1, add64; cbn [pNext]; apply N.mod_small; lia).
        apply IH in E; [|rewrite E1; lia]. destruct E as (I1 & I2 & I3). split; [exact I1|].
        cbn [map snd increasing_from].
        assert (E0 : add64 (pNext p) 1 = pNext p + 1) by exact E1. rewrite E1 in I2. rewrite E0.
        assert (Ev : packetIDValue (packetIDBytes (pNext p + 1)) = pNext p + 1)
          by (apply le_dec_enc; change (2 ^ (8 * N.of_nat 8)) with (2^64); lia).
        rewrite Ev.
        split; [split; [lia|exact I2]|]. constructor; [apply le_enc_length|exact I3].
      + destruct (receivePacket stream blake3 poly1305 p win raw) as [[[p1 w] pk]|] eqn:E; [|discriminate].
        assert (E1 : (pNext p1 = pNext p \/ pNext p1 = pNext p + 1) /\ pOwnID p1 = pOwnID p).
        { unfold receivePacket in E. destruct raw as [|x raw]; [injection E as <- _ _; auto|].
          assert (T : pNext (fst (takePacketID p)) = pNext p + 1) by (unfold takePacketID, add64; cbn; apply N.mod_small; lia).
          destruct (decryptPacket stream blake3 poly1305 p (x :: raw)) as [[[[q l] ct]|e]|]; [| |discriminate].
          - destruct (checkAndRemember win (packetIDValue q)) as [[w' []]|]; [| |discriminate]; injection E as <- _ _;
              destruct (len (x :: raw) <? messagesContainerHeadersSize); auto.
          - injection E as <- _ _. destruct (len (x :: raw) <? messagesContainerHeadersSize); auto. }
        destruct E1 as [E1 E2]. apply IH in H; [|destruct E1 as [-> | ->]; lia].
        destruct H as (I1 & I2 & I3). split; [congruence|]. split; [|exact I3].
        destruct E1 as [E1|E1]; rewrite E1 in I2; [exact I2|].
        destruct sent as [|y sent]; cbn [map increasing_from] in *; [auto|]. split; [lia|tauto].
  Qed.

  Lemma increasing_gt : forall l m, increasing_from m l -> forall x, In x l -> m < x.
  Proof.
    induction l as [|y l IH]; intros m H x Hx; cbn in *; [contradiction|]. destruct H as [H1 H2].
    destruct Hx as [->|Hx]; [auto|]. specialize (IH y H2 x Hx). lia.
  Qed.

  Lemma increasing_nodup : forall l m, increasing_from m l -> NoDup l.
  Proof.
    induction l as [|y l IH]; intros m H; constructor; cbn in H; destruct H as [H1 H2].
    - intros Hin. apply (increasing_gt l y H2) in Hin. lia.
    - eapply IH; eauto.
  Qed.

  Lemma nodup_app : forall A (l1 l2 : list A), NoDup l1 -> NoDup l2 -> (forall x, In x l1 -> ~ In x l2) -> NoDup (l1 ++ l2).
  Proof.
    intros A l1 l2 H1 H2 D. induction l1 as [|x l IH]; cbn [app]; [exact H2|].
    inversion H1; subst. constructor.
    - intros Hin. apply in_app_or in Hin. destruct Hin as [Hin|Hin]; [contradiction|]. apply (D x); [left; auto|auto].
    - apply IH; auto. intros y Hy. apply D. right. exact Hy.
  Qed.

  (** In any history of fewer than 2^64 sends and receptions every packet sent
      has its own packet ID (and they increase). *)
  Theorem C11_packet_ids_unique : forall acts p win p' sent, pNext p + len acts < 2^64 ->
    traffic stream blake3 poly1305 p win acts = Ret (p', sent) ->
    increasing_from (pNext p) (map (fun x => packetIDValue (snd x)) sent) /\ NoDup (map snd sent).
  Proof.
    intros acts p win p' sent Hn H. destruct (traffic_next acts p win p' sent Hn H) as (_ & I & _).
    split; [exact I|]. apply increasing_nodup in I. rewrite <- map_map in I.
    apply NoDup_map_inv in I. exact I.
  Qed.

  (** The nonces of confidential packets of both directions, made of the
      sender's session ID and the packet ID, are pairwise distinct if the two
      session IDs differ; so the two peers never use key stream twice although
      they share one key. *)
  Theorem C11_nonces_unique : forall actsA actsB a wa a' sentA b wb b' sentB,
    pNext a + len actsA < 2^64 -> pNext b + len actsB < 2^64 ->
    length (pOwnID a) = length (pOwnID b) -> pOwnID a <> pOwnID b ->
    traffic stream blake3 poly1305 a wa actsA = Ret (a', sentA) ->
    traffic stream blake3 poly1305 b wb actsB = Ret (b', sentB) ->
    NoDup (map (fun x => pOwnID a ++ snd x) sentA ++ map (fun x => pOwnID b ++ snd x) sentB).
  Proof.
    intros actsA actsB a wa a' sentA b wb b' sentB Ha Hb Hl Hne TA TB.
    destruct (C11_packet_ids_unique _ _ _ _ _ Ha TA) as [_ NA]. destruct (C11_packet_ids_unique _ _ _ _ _ Hb TB) as [_ NB].
    assert (G : forall (pre : bytes) l, NoDup (map snd l) -> NoDup (map (fun x : bool * bytes => pre ++ snd x) l)).
    { intros pre l. induction l as [|x l IH]; cbn; intros H; constructor; inversion H; subst.
      - intros Hin. apply in_map_iff in Hin. destruct Hin as (y & E & Hy). apply app_inv_head in E.
        apply H2. rewrite <- E. apply in_map. exact Hy.
      - apply IH. auto. }
    assert (D : forall x, In x (map (fun x : bool * bytes => pOwnID a ++ snd x) sentA) ->
                ~ In x (map (fun x : bool * bytes => pOwnID b ++ snd x) sentB)).
    { intros x H1 H2. apply in_map_iff in H1. apply in_map_iff in H2. destruct H1 as (y & E1 & _). destruct H2 as (z & E2 & _).
      apply Hne. rewrite <- E2 in E1. apply (f_equal (firstn (length (pOwnID a)))) in E1.
      rewrite firstn_app_l in E1 by reflexivity. rewrite firstn_app_l in E1 by auto. exact E1. }
    apply (G (pOwnID a)) in NA. apply (G (pOwnID b)) in NB. exact (nodup_app _ _ _ NA NB D).
  Qed.
End C11.
Print Assumptions C11_packet_ids_unique.
Print Assumptions C11_nonces_unique.

(** The nonce a confidential packet is really encrypted with. *)
Theorem C11_nonce_used : forall stream blake3 poly1305 p pid msgs key ks, primitives_ok stream poly1305 -> peer_ok p ->
  length pid = 8%nat -> len msgs + 44 < 2^32 -> pKeys p = Some key :: ks ->
  exists plain, sealPacket stream blake3 poly1305 p true pid msgs =
    Ret (Ok (idOnWire stream (pAux p) pid ++ xorStream stream key (pOwnID p ++ pid) plain)).
Proof.
  intros stream blake3 poly1305 p pid msgs key ks Hprim Hok Lp Hl Hk.
  destruct (seal_spec stream blake3 poly1305 Hprim p true pid msgs Hok Lp Hl) as (body & E & S & _).
  { intros _. unfold sealKey. rewrite Hk. discriminate. }
  exists (plainOf stream (Some key) (pOwnID p ++ pid) body).
  rewrite E. unfold sealKey in S. rewrite Hk in S. cbn [plainOf].
  rewrite xorStream_invol. reflexivity.
Qed.
Print Assumptions C11_nonce_used.

Example C11_example :
  match traffic toyStream toyHash toyPoly (exA true) None
     [ActSend true [1]; ActReceive (repeat 0 50); ActReceive [1]; ActSend false [2]; ActSend true [3]] with
  | Ret (_, sent) => map (fun x => packetIDValue (snd x)) sent = [1; 3; 4]
  | Panic => False
  end.
Proof. vm_compute. reflexivity. Qed.

(** ** C12.  Full statement: with a pre-shared key the packet IDs on the wire
    reveal nothing about each other. False: the same 8 bytes of key stream are
    used for every packet, so the XOR of two encrypted IDs is the XOR of the
    IDs, for every key, every cipher and every pair of packets. *)
Lemma xorFrom_xor : forall stream k iv a b n,
  xorb_bytes (xorFrom stream k iv n a) (xorFrom stream k iv n b) = xorb_bytes a b.
Proof.
  intros stream k iv. induction a as [|x a IH]; intros [|y b] n; cbn [xorFrom xorb_bytes]; auto.
  rewrite IH. f_equal. rewrite (N.lxor_comm y), N.lxor_assoc, <- (N.lxor_assoc (stream k iv n)), N.lxor_nilpotent, N.lxor_0_l. reflexivity.
Qed.

Theorem C12_xor_of_ids_leaks_refuted : forall stream blake3 poly1305 p q c1 c2 id1 id2 m1 m2 raw1 raw2,
  primitives_ok stream poly1305 -> peer_ok p -> peer_ok q -> pAux p <> None -> pAux q = pAux p ->
  length id1 = 8%nat -> length id2 = 8%nat -> len m1 + 44 < 2^32 -> len m2 + 44 < 2^32 ->
  (c1 = true -> nth 0 (pKeys p) None <> None) -> (c2 = true -> nth 0 (pKeys q) None <> None) ->
  sealPacket stream blake3 poly1305 p c1 id1 m1 = Ret (Ok raw1) ->
  sealPacket stream blake3 poly1305 q c2 id2 m2 = Ret (Ok raw2) ->
  xorb_bytes (firstn 8 raw1) (firstn 8 raw2) = xorb_bytes id1 id2.
Proof.
  intros stream blake3 poly1305 p q c1 c2 id1 id2 m1 m2 raw1 raw2 Hprim Hp Hq Ha Hqa L1 L2 B1 B2 K1 K2 S1 S2.
  destruct (seal_spec stream blake3 poly1305 Hprim p c1 id1 m1 Hp L1 B1) as (b1 & E1 & _).
  { intros ->. apply K1; auto. }
  destruct (seal_spec stream blake3 poly1305 Hprim q c2 id2 m2 Hq L2 B2) as (b2 & E2 & _).
  { intros ->. apply K2; auto. }
  rewrite E1 in S1. rewrite E2 in S2. injection S1 as <-. injection S2 as <-.
  rewrite !firstn_app_l by (rewrite idOnWire_length; auto). rewrite Hqa.
  destruct (pAux p) as [a|]; [|congruence]. apply xorFrom_xor.
Qed.
Print Assumptions C12_xor_of_ids_leaks_refuted.

Definition rawOf (r : outcome (res bytes)) : bytes := match r with Ret (Ok b) => b | _ => [] end.
Example C12_example :
  let r1 := rawOf (sealPacket toyStream toyHash toyPoly (exA true) true (packetIDBytes 5) [1;2;3]) in
  let r2 := rawOf (sealPacket toyStream toyHash toyPoly (exB true) true (packetIDBytes 9) [4]) in
  firstn 8 r1 <> packetIDBytes 5 /\ xorb_bytes (firstn 8 r1) (firstn 8 r2) = [12; 0; 0; 0; 0; 0; 0; 0].
Proof. vm_compute. split; [discriminate|reflexivity]. Qed.

(** ** C71.  Full statement: no two different packets are ever encrypted with
    the same key stream. False for packets protected by the pre-shared key only
    (key exchange, fragments): their nonce is the packet ID alone, and both
    peers (and every later session with the same pre-shared key) count from 1.
    The XOR of the two bodies is then the XOR of the two plaintexts. *)
Theorem C71_keystream_reuse_refuted : forall stream blake3 poly1305 p q m1 m2 raw1 raw2 p' q',
  primitives_ok stream poly1305 -> peer_ok p -> peer_ok q -> pAux p <> None -> pAux q = pAux p -> pNext p = pNext q ->
  len m1 + 44 < 2^32 -> len m2 + 44 < 2^32 ->
  sendPacket stream blake3 poly1305 p false m1 = (p', Ret (Ok raw1)) ->
  sendPacket stream blake3 poly1305 q false m2 = (q', Ret (Ok raw2)) ->
  exists t1 t2, length t1 = 36%nat /\ length t2 = 36%nat /\
    xorb_bytes (skipn 8 raw1) (skipn 8 raw2) = xorb_bytes (t1 ++ m1) (t2 ++ m2) /\
    firstn 8 raw1 = firstn 8 raw2.
Proof.
  intros stream blake3 poly1305 p q m1 m2 raw1 raw2 p' q' Hprim Hp Hq Ha Hqa Hn B1 B2 S1 S2.
  unfold sendPacket in S1, S2. destruct (takePacketID p) as [p1 pid] eqn:E1. destruct (takePacketID q) as [q1 qid] eqn:E2.
  assert (Epq : qid = pid) by (unfold takePacketID in *; congruence). subst qid.
  assert (Lp : length pid = 8%nat) by (unfold takePacketID in E1; injection E1 as _ <-; apply le_enc_length).
  assert (Ap : pAux p1 = pAux p /\ peer_ok p1) by (unfold takePacketID in E1; injection E1 as <- _; split; [reflexivity|exact Hp]).
  assert (Aq : pAux q1 = pAux q /\ peer_ok q1) by (unfold takePacketID in E2; injection E2 as <- _; split; [reflexivity|exact Hq]).
  destruct Ap as [Ap Op]. destruct Aq as [Aq Oq]. injection S1 as _ S1. injection S2 as _ S2.
  destruct (seal_spec stream blake3 poly1305 Hprim p1 false pid m1 Op Lp B1 ltac:(discriminate)) as (b1 & F1 & T1 & _).
  destruct (seal_spec stream blake3 poly1305 Hprim q1 false pid m2 Oq Lp B2 ltac:(discriminate)) as (b2 & F2 & T2 & _).
  rewrite F1 in S1. rewrite F2 in S2. injection S1 as <-. injection S2 as <-.
  unfold sealed, sealKey, sealIV in T1, T2. rewrite Aq, Hqa in *. rewrite Ap in *.
  destruct (pAux p) as [a|]; [|congruence]. cbn [plainOf] in T1, T2.
  exists (tags blake3 poly1305 (Some a) pid (len m1) m1 ++ le_enc 4 (len m1)),
         (tags blake3 poly1305 (Some a) pid (len m2) m2 ++ le_enc 4 (len m2)).
  assert (LT : forall l m, length (tags blake3 poly1305 (Some a) pid l m ++ le_enc 4 l) = 36%nat).
  { intros. unfold tags. rewrite !app_length, le_enc_length. destruct Hprim as [_ P]. rewrite !P. reflexivity. }
  split; [apply LT|]. split; [apply LT|].
  rewrite !skipn_app_l by (rewrite idOnWire_length; auto). split.
  - rewrite <- !app_assoc, <- T1, <- T2. unfold xorStream. rewrite xorFrom_xor. reflexivity.
  - rewrite !firstn_app_l by (rewrite idOnWire_length; auto). reflexivity.
Qed.
Print Assumptions C71_keystream_reuse_refuted.

Example C71_example : (* the first packet of each peer *)
  let r1 := rawOf (snd (sendPacket toyStream toyHash toyPoly (exA true) false [10;20;30])) in
  let r2 := rawOf (snd (sendPacket toyStream toyHash toyPoly (exB true) false [1;2;3])) in
  xorb_bytes (skipn 44 r1) (skipn 44 r2) = [11; 22; 29].
Proof. vm_compute. reflexivity. Qed.

(** ** C13 *)

(** The receiver knows the sender's session ID, shares its pre-shared key and
    holds the sender's key in any slot; no key in an earlier slot has an
    accidentally fitting 128-bit tag. *)
Theorem C13_open_confidential : forall stream blake3 poly1305 a b pid msgs key pre post raw,
  primitives_ok stream poly1305 -> peer_ok a -> peer_ok b ->
  length pid = 8%nat -> len msgs + 44 < 2^32 ->
  pAux b = pAux a -> pRemoteID b = Some (pOwnID a) ->
  nth 0 (pKeys a) None = Some key -> pKeys b = pre ++ Some key :: post ->
  sealPacket stream blake3 poly1305 a true pid msgs = Ret (Ok raw) -> bytes_ok raw ->
  Forall (fun k => k = None \/ ~ firstTagFits stream blake3 poly1305 k (pOwnID a ++ pid) pid (skipn 8 raw)) pre ->
  decryptPacket stream blake3 poly1305 b raw = Ret (Ok (pid, len msgs, msgs)).
Proof.
  intros stream blake3 poly1305 a b pid msgs key pre post raw Hprim Ha Hb Lp Hl Hx Hr Hk Hks S Hraw HF.
  destruct (seal_spec stream blake3 poly1305 Hprim a true pid msgs Ha Lp Hl) as (body & E & T & _).
  { intros _. unfold sealKey, secretIDRecentBoth. rewrite Hk. discriminate. }
  rewrite E in S. injection S as <-. unfold sealKey, sealIV, secretIDRecentBoth in T. rewrite Hk in T.
  rewrite skipn_app_l in HF by (rewrite idOnWire_length; auto). rewrite <- Hx.
  apply Forall_app in Hraw. destruct Hraw as [_ Hbody].
  assert (R : remoteIV b pid = pOwnID a ++ pid) by (unfold remoteIV; rewrite Hr; reflexivity).
  eapply decryptPacket_key; eauto; try lia; rewrite R; auto.
Qed.
Print Assumptions C13_open_confidential.

(** Packets under the auxiliary key (or, without a pre-shared key, in clear). *)
Theorem C13_open_unconfidential : forall stream blake3 poly1305 a b pid msgs raw,
  primitives_ok stream poly1305 -> peer_ok a -> peer_ok b ->
  length pid = 8%nat -> len msgs + 44 < 2^32 -> pAux b = pAux a ->
  sealPacket stream blake3 poly1305 a false pid msgs = Ret (Ok raw) -> bytes_ok raw ->
  Forall (fun k => k = None \/ ~ firstTagFits stream blake3 poly1305 k (remoteIV b pid) pid (skipn 8 raw)) (pKeys b) ->
  decryptPacket stream blake3 poly1305 b raw = Ret (Ok (pid, len msgs, msgs)).
Proof.
  intros stream blake3 poly1305 a b pid msgs raw Hprim Ha Hb Lp Hl Hx S Hraw HF.
  destruct (seal_spec stream blake3 poly1305 Hprim a false pid msgs Ha Lp Hl) as (body & E & T & _); [discriminate|].
  rewrite E in S. injection S as <-. unfold sealKey, sealIV in T. rewrite <- Hx in *.
  rewrite skipn_app_l in HF by (rewrite idOnWire_length; auto).
  apply Forall_app in Hraw. destruct Hraw as [_ Hbody].
  eapply decryptPacket_aux; eauto. lia.
Qed.
Print Assumptions C13_open_unconfidential.

Example C13_example : (* A's key is B's second; with and without a pre-shared key *)
  forall psk, decryptPacket toyStream toyHash toyPoly (exB psk)
    (rawOf (sealPacket toyStream toyHash toyPoly (exA psk) true (packetIDBytes 7) [1;2;3]))
    = Ret (Ok (packetIDBytes 7, 3, [1;2;3])) /\
  decryptPacket toyStream toyHash toyPoly (exB psk)
    (rawOf (sealPacket toyStream toyHash toyPoly (exA psk) false (packetIDBytes 8) [9]))
    = Ret (Ok (packetIDBytes 8, 1, [9])).
Proof. intros [|]; vm_compute; auto. Qed.

(** From the sender's batch to the receiver's handlers: sealed, sent, opened,
    not a duplicate, parsed, dispatched. *)
Theorem C13_end_to_end : forall stream blake3 poly1305 a b ms key pre post raw a' win s,
  primitives_ok stream poly1305 -> peer_ok a -> peer_ok b -> pAux b = pAux a -> pRemoteID b = Some (pOwnID a) ->
  nth 0 (pKeys a) None = Some key -> pKeys b = pre ++ Some key :: post -> pNext a + 1 < 2^64 ->
  Forall wireMsg_ok ms -> Forall isPlain ms -> len (senderContent ms) + 44 < 2^32 ->
  sendPacket stream blake3 poly1305 a true (senderContent ms) = (a', Ret (Ok raw)) -> bytes_ok raw ->
  Forall (fun k => k = None \/ ~ firstTagFits stream blake3 poly1305 k (pOwnID a ++ packetIDBytes (pNext a + 1))
                                   (packetIDBytes (pNext a + 1)) (skipn 8 raw)) pre ->
  (exists win', checkAndRemember win (pNext a + 1) = Ret (win', true)) ->
  handlersReady s -> detachOnMessagesCount s = 0 ->
  exists b' win' content s', receivePacket stream blake3 poly1305 b win raw =
      Ret (b', win', PktAccepted (len content) content) /\
    processIncomingMessages s (len content) content = LoopEnd s' /\
    rev (out s') = rev (out s) ++ map toEvent (flat_map (route (map fst (messengers s)) (readChans s)) ms).
Proof.
  intros stream blake3 poly1305 a b ms key pre post raw a' win s Hprim Ha Hb Hx Hr Hk Hks Hn Hok Hpl Hl S Hraw HF [win' Hw] Hh Hd.
  unfold sendPacket, takePacketID in S. cbn zeta in S. injection S as _ S.
  assert (En : add64 (pNext a) 1 = pNext a + 1) by (apply N.mod_small; lia). rewrite En in S.
  set (a1 := {| pAux := pAux a; pKeys := pKeys a; pRemoteID := pRemoteID a; pOwnID := pOwnID a; pNext := pNext a + 1 |}) in S.
  assert (D : decryptPacket stream blake3 poly1305 b raw = Ret (Ok (packetIDBytes (pNext a + 1), len (senderContent ms), senderContent ms))).
  { eapply (C13_open_confidential stream blake3 poly1305 a1 b); eauto. }
  destruct (C05_batch_delivered s ms [] Hh Hd Hok Hpl) as (s' & P & O & _). rewrite app_nil_r in P.
  unfold receivePacket.
  destruct raw as [|x raw].
  { cbn in D. discriminate. }
  rewrite D. assert (V : packetIDValue (packetIDBytes (pNext a + 1)) = pNext a + 1)
    by (apply le_dec_enc; change (2 ^ (8 * N.of_nat 8)) with (2^64); lia).
  rewrite V, Hw. eexists _, _, _, _. split; [reflexivity|]. split; [exact P|exact O].
Qed.
Print Assumptions C13_end_to_end.

Example C13_end_to_end_example :
  let ms := [{| wType := 7; wFlags := 0; wPayload := [1;2;3] |}; {| wType := 9; wFlags := 0; wPayload := [4] |}] in
  match receivePacket toyStream toyHash toyPoly (exB true) (sessionStorage (Size 0))
          (rawOf (snd (sendPacket toyStream toyHash toyPoly (exA true) true (senderContent ms)))) with
  | Ret (_, _, PktAccepted l content) =>
      match processIncomingMessages (freshRcv 8 65536 0 [(7, true)] [9]) l content with
      | LoopEnd s => rev (out s) = [EvHandler 7 [1;2;3]; EvQueue 9 [4]]
      | _ => False
      end
  | _ => False
  end.
Proof. vm_compute. reflexivity. Qed.

(** ** C14 *)

(** Acceptance means: both tags are right for exactly the packet ID, length
    field and content that are handed over, under a session key with the nonce
    of the remote session, or under the auxiliary key. *)
Theorem C14_accepted_is_tagged : forall stream blake3 poly1305 p raw pid l m,
  primitives_ok stream poly1305 -> peer_ok p -> bytes_ok raw ->
  decryptPacket stream blake3 poly1305 p raw = Ret (Ok (pid, l, m)) ->
  idOnWire stream (pAux p) pid = firstn 8 raw /\
  exists k iv, ((exists key, k = Some key /\ In k (pKeys p) /\ iv = remoteIV p pid) \/ (k = pAux p /\ iv = pid)) /\
    plainOf stream k iv (skipn 8 raw) =
      poly1305 (calculatePoly1305Key blake3 pid k) (le_enc 4 l) ++
      poly1305 (calculatePoly1305Key blake3 pid k) m ++ le_enc 4 l ++ m.
Proof.
  intros stream blake3 poly1305 p raw pid l m Hprim Hok Hb H.
  destruct (decryptPacket_sound stream blake3 poly1305 Hprim p raw pid l m Hok Hb H) as (_ & Hid & D).
  split; [exact Hid|]. destruct D as [(k & I & S)|[S _]].
  - exists (Some k), (remoteIV p pid). split; [left; eauto|]. rewrite S. unfold tags. rewrite <- app_assoc. reflexivity.
  - exists (pAux p), pid. split; [auto|]. rewrite S. unfold tags. rewrite <- app_assoc. reflexivity.
Qed.
Print Assumptions C14_accepted_is_tagged.

(** The tags determine the packet: an accepted packet that was not sent
    verbatim carries valid tags for a combination of packet ID, length and
    content that nobody sealed, i.e. it is a forgery of the tag function.
    [known]: the (packet ID, content) pairs sealed under key [k]. *)
Theorem C14_unsent_is_forgery : forall stream blake3 poly1305 p raw pid l m k iv known,
  primitives_ok stream poly1305 -> sealed stream blake3 poly1305 k iv pid (skipn 8 raw) l m ->
  idOnWire stream (pAux p) pid = firstn 8 raw -> (8 <= length raw)%nat ->
  (forall pid' m' body, In (pid', m') known -> sealed stream blake3 poly1305 k iv pid' body (len m') m' ->
     raw <> idOnWire stream (pAux p) pid' ++ body) ->
  ~ (l = len m /\ In (pid, m) known).
Proof.
  intros stream blake3 poly1305 p raw pid l m k iv known Hprim S Hid Hl Hnew [-> Hin].
  apply (Hnew pid m (skipn 8 raw) Hin S). rewrite Hid. symmetry. apply firstn_skipn.
Qed.
Print Assumptions C14_unsent_is_forgery.

(** Changing any bytes after the tags of a sealed packet, tags left alone: not
    accepted under the same key, if no other string has the same tag. *)
Theorem C14_changed_content_rejected : forall stream blake3 poly1305 k iv pid body l m body' l' m',
  primitives_ok stream poly1305 ->
  sealed stream blake3 poly1305 k iv pid body l m -> l < 2^32 -> l' < 2^32 ->
  (forall x, poly1305 (calculatePoly1305Key blake3 pid k) x = poly1305 (calculatePoly1305Key blake3 pid k) m -> x = m) ->
  (forall x, poly1305 (calculatePoly1305Key blake3 pid k) x = poly1305 (calculatePoly1305Key blake3 pid k) (le_enc 4 l) -> x = le_enc 4 l) ->
  firstn 32 body' = firstn 32 body -> body' <> body ->
  ~ sealed stream blake3 poly1305 k iv pid body' l' m'.
Proof.
  intros stream blake3 poly1305 k iv pid body l m body' l' m' Hprim S Hl Hl' I1 I2 Hf Hne S'.
  apply Hne. apply (plainOf_inj stream k iv). rewrite S, S'.
  assert (P : firstn 32 (plainOf stream k iv body') = firstn 32 (plainOf stream k iv body)).
  { assert (G : forall b n, firstn n (plainOf stream k iv b) = plainOf stream k iv (firstn n b)).
    { intros b n. destruct k as [key|]; cbn [plainOf]; [|reflexivity]. unfold xorStream. generalize 0%nat as i.
      revert n. induction b as [|x b IH]; intros [|n] i; cbn [firstn xorFrom]; auto. rewrite IH. reflexivity. }
    rewrite !G, Hf. reflexivity. }
  rewrite S, S' in P. unfold tags in P. destruct Hprim as [_ Hp].
  rewrite !firstn_app_l in P by (rewrite app_length, !Hp; reflexivity).
  assert (P1 := P). apply (f_equal (firstn 16)) in P1. rewrite !firstn_app_l in P1 by (rewrite Hp; reflexivity).
  apply (f_equal (skipn 16)) in P. rewrite !skipn_app_l in P by (rewrite Hp; reflexivity).
  apply I2 in P1. apply I1 in P. apply le_enc_inj in P1; auto. subst. reflexivity.
Qed.
Print Assumptions C14_changed_content_rejected.

(** Changing any bytes of the tags, the rest left alone: not accepted. *)
Theorem C14_changed_tag_rejected : forall stream blake3 poly1305 k iv pid body l m body' l' m',
  primitives_ok stream poly1305 ->
  sealed stream blake3 poly1305 k iv pid body l m -> l < 2^32 -> l' < 2^32 ->
  length body' = length body -> skipn 32 body' = skipn 32 body -> body' <> body ->
  ~ sealed stream blake3 poly1305 k iv pid body' l' m'.
Proof.
  intros stream blake3 poly1305 k iv pid body l m body' l' m' Hprim S Hl Hl' HL Hf Hne S'.
  destruct (sealed_parts stream blake3 poly1305 Hprim _ _ _ _ _ _ Hl S) as [E1 E2].
  destruct (sealed_parts stream blake3 poly1305 Hprim _ _ _ _ _ _ Hl' S') as [E3 E4].
  assert (P : skipn 32 (plainOf stream k iv body') = skipn 32 (plainOf stream k iv body)).
  { assert (G : forall b n, exists i, skipn n (plainOf stream k iv b) =
        match k with Some key => xorFrom stream key iv i (skipn n b) | None => skipn n b end /\ (n <= length b -> i = n)%nat).
    { intros b n. destruct k as [key|]; cbn [plainOf]; [|exists n; auto]. unfold xorStream.
      assert (G : forall b n j, (n <= length b)%nat -> skipn n (xorFrom stream key iv j b) = xorFrom stream key iv (j + n) (skipn n b)).
      { induction b0 as [|x b0 IH]; intros [|n0] j H; cbn [length] in H; cbn [skipn xorFrom]; try rewrite Nat.add_0_r; auto; try lia.
        rewrite IH by lia. f_equal. lia. }
      destruct (le_lt_dec n (length b)) as [H|H].
      - exists n. split; [apply (G b n 0%nat H)|auto].
      - exists 0%nat. split; [|lia]. rewrite !skipn_all2; auto; [lia|rewrite xorFrom_length; lia]. }
    pose proof (sealed_length stream blake3 poly1305 Hprim _ _ _ _ _ _ S) as LB.
    destruct (G body' 32%nat) as (i & -> & Hi). destruct (G body 32%nat) as (j & -> & Hj).
    rewrite Hi, Hj, Hf by lia. reflexivity. }
  apply Hne. apply (plainOf_inj stream k iv). rewrite S, S'.
  assert (El : l' = l) by (rewrite <- E1, <- E3, P; reflexivity).
  assert (Em : m' = m).
  { rewrite <- E2, <- E4. replace 36%nat with (4 + 32)%nat by reflexivity. rewrite <- !skipn_skipn, P. reflexivity. }
  rewrite El, Em. reflexivity.
Qed.
Print Assumptions C14_changed_tag_rejected.

(** No input makes the opening panic. *)
Theorem C14_no_panic : forall stream blake3 poly1305 p raw, primitives_ok stream poly1305 -> peer_ok p -> bytes_ok raw ->
  exists r, decryptPacket stream blake3 poly1305 p raw = Ret r.
Proof. intros stream blake3 poly1305 p raw Hprim. apply decryptPacket_total. exact Hprim. Qed.
Print Assumptions C14_no_panic.

Definition flipBit (b : bytes) (i : nat) : bytes := firstn i b ++ map (N.lxor 1) (firstn 1 (skipn i b)) ++ skipn (S i) b.
Example C14_example : (* flipping the lowest bit of any byte of a 47 byte packet *)
  let raw := rawOf (sealPacket toyStream toyHash toyPoly (exA true) true (packetIDBytes 7) [1;2;3]) in
  length raw = 47%nat /\
  forallb (fun i => match decryptPacket toyStream toyHash toyPoly (exB true) (flipBit raw i) with
                    | Ret (Err _) => true | _ => false end) (seq 0 47) = true.
Proof. vm_compute. auto. Qed.

(** ** C15.  Full statement: after key exchange every accepted packet with
    application data was sealed under a session key. False: a packet in clear
    (no pre-shared key) or under the auxiliary key is accepted at any time, for
    any content. The packet below is made by a peer that knows no session key
    at all. *)
Theorem C15_injection_refuted : forall stream blake3 poly1305 victim aid pid msgs raw attacker,
  primitives_ok stream poly1305 -> peer_ok victim -> length aid = 16%nat ->
  attacker = {| pAux := pAux victim; pKeys := []; pRemoteID := None; pOwnID := aid; pNext := 0 |} ->
  length pid = 8%nat -> len msgs + 44 < 2^32 ->
  sealPacket stream blake3 poly1305 attacker false pid msgs = Ret (Ok raw) -> bytes_ok raw ->
  Forall (fun k => k = None \/ ~ firstTagFits stream blake3 poly1305 k (remoteIV victim pid) pid (skipn 8 raw)) (pKeys victim) ->
  decryptPacket stream blake3 poly1305 victim raw = Ret (Ok (pid, len msgs, msgs)).
Proof.
  intros stream blake3 poly1305 victim aid pid msgs raw attacker Hprim Hv La -> Lp Hl S Hraw HF.
  eapply C13_open_unconfidential; [exact Hprim| |exact Hv|exact Lp|exact Hl| |exact S|exact Hraw|exact HF]; [|reflexivity].
  destruct Hv as (Hv & _). unfold peer_ok. cbn. repeat split; auto.
Qed.
Print Assumptions C15_injection_refuted.

(** Without a pre-shared key: bytes anybody can compute reach the handler. *)
Theorem C15_plaintext_delivered_refuted :
  let attacker := {| pAux := None; pKeys := []; pRemoteID := None; pOwnID := idOf 9; pNext := 0 |} in
  let raw := rawOf (sealPacket toyStream toyHash toyPoly attacker false (packetIDBytes 1000) (encodeMsg 7 0 [66;67])) in
  match receivePacket toyStream toyHash toyPoly (exB false) (sessionStorage (Size 0)) raw with
  | Ret (_, _, PktAccepted l content) =>
      match processIncomingMessages (freshRcv 8 65536 0 [(7, true)] []) l content with
      | LoopEnd s => out s = [EvHandler 7 [66;67]]
      | _ => False
      end
  | _ => False
  end.
Proof. vm_compute. reflexivity. Qed.
Print Assumptions C15_plaintext_delivered_refuted.

(** What remains: if the packet's first tag does not fit the auxiliary key, it
    was sealed under a session key. *)
Theorem C15_session_key_partial : forall stream blake3 poly1305 p raw pid l m,
  primitives_ok stream poly1305 -> peer_ok p -> bytes_ok raw ->
  decryptPacket stream blake3 poly1305 p raw = Ret (Ok (pid, l, m)) ->
  ~ firstTagFits stream blake3 poly1305 (pAux p) pid pid (skipn 8 raw) ->
  exists k, In (Some k) (pKeys p) /\ sealed stream blake3 poly1305 (Some k) (remoteIV p pid) pid (skipn 8 raw) l m.
Proof.
  intros stream blake3 poly1305 p raw pid l m Hprim Hok Hb H Hn.
  destruct (decryptPacket_sound stream blake3 poly1305 Hprim p raw pid l m Hok Hb H) as (_ & _ & [D|[S _]]); [exact D|].
  exfalso. apply Hn. eapply sealed_fits; eauto.
Qed.
Print Assumptions C15_session_key_partial.

(** ** C16.  Full statement: a packet made without any key never changes how
    later genuine packets are judged. Proved for packets that are rejected;
    false in general since packets in clear are accepted (without a pre-shared
    key), see below. *)
Theorem C16_rejected_is_harmless_partial : forall stream blake3 poly1305 p win raw p' win' e,
  receivePacket stream blake3 poly1305 p win raw = Ret (p', win', PktUndecryptable e) ->
  win' = win /\ pKeys p' = pKeys p /\ pAux p' = pAux p /\ pRemoteID p' = pRemoteID p.
Proof.
  intros stream blake3 poly1305 p win raw p' win' e H. unfold receivePacket in H.
  destruct raw as [|x raw]; [discriminate|].
  destruct (decryptPacket stream blake3 poly1305 p (x :: raw)) as [[[[q l] ct]|e']|]; [| |discriminate].
  - destruct (checkAndRemember win (packetIDValue q)) as [[w []]|]; discriminate.
  - injection H as <- <- _. destruct (len (x :: raw) <? messagesContainerHeadersSize); auto.
Qed.
Print Assumptions C16_rejected_is_harmless_partial.

(** One packet with the largest ID, made without any key: from then on every
    packet whose ID is at least the window below it is dropped, for ever. *)
Theorem C16_window_poisoned_refuted : forall stream blake3 poly1305 n victim raw msgs aid ids st vs,
  primitives_ok stream poly1305 -> peer_ok victim -> pAux victim = None -> length aid = 16%nat -> len msgs + 44 < 2^32 ->
  let attacker := {| pAux := None; pKeys := []; pRemoteID := None; pOwnID := aid; pNext := 0 |} in
  let pid := packetIDBytes (2^64 - 1) in
  sealPacket stream blake3 poly1305 attacker false pid msgs = Ret (Ok raw) -> bytes_ok raw ->
  Forall (fun k => k = None \/ ~ firstTagFits stream blake3 poly1305 k (remoteIV victim pid) pid (skipn 8 raw)) (pKeys victim) ->
  ids64 ids -> offer (sessionStorage (Size n)) ids = Ret (st, vs) -> maxl (PacketIDSpec.accepted ids vs) < 2^64 - 1 ->
  exists v' st', receivePacket stream blake3 poly1305 victim st raw = Ret (v', st', PktAccepted (len msgs) msgs) /\
    forall id, id < 2^64 - 1 -> id + window n < 2^64 -> checkAndRemember st' id = Ret (st', false).
Proof.
  intros stream blake3 poly1305 n victim raw msgs aid ids st vs Hprim Hv Hx La Hl attacker pid S Hraw HF Hids Hoff Hmax.
  assert (D : decryptPacket stream blake3 poly1305 victim raw = Ret (Ok (pid, len msgs, msgs))).
  { refine (C15_injection_refuted stream blake3 poly1305 victim aid pid msgs raw attacker Hprim Hv La _ _ Hl S Hraw HF); [unfold attacker; rewrite Hx; reflexivity|apply le_enc_length]. }
  assert (V : packetIDValue pid = 2^64 - 1) by reflexivity.
  destruct (newer_accepted n ids (2^64 - 1) st vs Hids ltac:(reflexivity) Hoff Hmax) as [st' Hst].
  exists (if len raw <? messagesContainerHeadersSize then victim else fst (takePacketID victim)), st'. split.
  - unfold receivePacket. destruct raw as [|x raw]; [discriminate|]. rewrite D, V, Hst. reflexivity.
  - intros id Hid0 Hid.
    assert (O' : exists vs', offer (sessionStorage (Size n)) (ids ++ [2^64 - 1]) = Ret (st', vs') /\
                 maxl (PacketIDSpec.accepted (ids ++ [2^64 - 1]) vs') = 2^64 - 1).
    { clear - Hoff Hst Hmax. revert Hoff Hst. generalize (sessionStorage (Size n)) as s0. revert vs Hmax.
      induction ids as [|i ids IH]; intros vs Hmax s0 Hoff Hst.
      - cbn [offer] in Hoff. injection Hoff as <- <-. exists [true]. cbn [app offer]. rewrite Hst. split; reflexivity.
      - cbn [offer app] in *. destruct (checkAndRemember s0 i) as [[s1 b]|]; [|discriminate].
        destruct (offer s1 ids) as [[s2 bs]|] eqn:E; [|discriminate]. injection Hoff as <- <-.
        destruct (IH bs) with (s0 := s1) as (vs' & O & M); auto.
        { cbn [PacketIDSpec.accepted] in Hmax. destruct b; cbn [maxl] in Hmax; lia. }
        exists (b :: vs'). rewrite O. split; [reflexivity|]. cbn [PacketIDSpec.accepted]. destruct b; cbn [maxl]; [|exact M].
        rewrite M. cbn [PacketIDSpec.accepted] in Hmax. cbn [maxl] in Hmax. lia. }
    destruct O' as (vs' & O & M).
    eapply stale_rejected; [|exact O| |].
    + apply Forall_app. split; [exact Hids|]. constructor; [reflexivity|constructor].
    + rewrite M. lia.
    + rewrite M. lia.
Qed.
Print Assumptions C16_window_poisoned_refuted.

Theorem C16_poisoned_session_refuted :
  let attacker := {| pAux := None; pKeys := []; pRemoteID := None; pOwnID := idOf 9; pNext := 0 |} in
  let bad := rawOf (sealPacket toyStream toyHash toyPoly attacker false (packetIDBytes (2^64 - 1)) []) in
  let good i := rawOf (sealPacket toyStream toyHash toyPoly (exA false) true (packetIDBytes i) [5;5]) in
  match receivePackets toyStream toyHash toyPoly (exB false) (sessionStorage (Size 0)) [good 1; bad; good 2; good 3] with
  | Ret (_, _, pks) => pks = [PktAccepted 2 [5;5]; PktAccepted 0 []; PktDuplicate; PktDuplicate]
  | Panic => False
  end.
Proof. vm_compute. reflexivity. Qed.
Print Assumptions C16_poisoned_session_refuted.

(** ** C18 *)

(** A packet is not opened by a receiver none of whose keys fits its first tag
    (in particular, barring accidental tags, none of whose keys sealed it), and
    keys that do not fit never change the result, wherever they stand. *)
Theorem C18_wrong_keys_never_open : forall stream blake3 poly1305 p pid body,
  primitives_ok stream poly1305 -> peer_ok p -> length pid = 8%nat -> bytes_ok body -> (36 <= length body)%nat ->
  Forall (fun k => k = None \/ ~ firstTagFits stream blake3 poly1305 k (remoteIV p pid) pid body) (pKeys p) ->
  ~ firstTagFits stream blake3 poly1305 (pAux p) pid pid body ->
  decryptPacket stream blake3 poly1305 p (idOnWire stream (pAux p) pid ++ body) = Ret (Err ErrCannotDecrypt).
Proof. intros stream blake3 poly1305 p pid body Hprim. apply decryptPacket_none. exact Hprim. Qed.
Print Assumptions C18_wrong_keys_never_open.

Theorem C18_wrong_keys_do_not_matter : forall stream blake3 poly1305 p pid body p',
  primitives_ok stream poly1305 -> peer_ok p -> peer_ok p' -> length pid = 8%nat -> bytes_ok body -> (36 <= length body)%nat ->
  pAux p' = pAux p -> pRemoteID p' = pRemoteID p ->
  (exists pre wrong post, pKeys p = pre ++ post /\ pKeys p' = pre ++ wrong ++ post /\
     Forall (fun k => k = None \/ ~ firstTagFits stream blake3 poly1305 k (remoteIV p pid) pid body) wrong) ->
  decryptPacket stream blake3 poly1305 p' (idOnWire stream (pAux p) pid ++ body) =
  decryptPacket stream blake3 poly1305 p (idOnWire stream (pAux p) pid ++ body).
Proof.
  intros stream blake3 poly1305 p pid body p' Hprim Hp Hp' Lp Hb Hl Ha Hr (pre & wrong & post & E & E' & HF).
  rewrite <- Ha at 1. rewrite !decrypt_split by auto. rewrite Ha.
  assert (R : remoteIV p' pid = remoteIV p pid) by (unfold remoteIV; rewrite Hr; reflexivity). rewrite R.
  pose proof (peer_keys_usable p' pid Hp' Lp) as HU. rewrite E' in HU.
  apply Forall_app in HU. destruct HU as [_ HU]. apply Forall_app in HU. destruct HU as [HU _]. rewrite R in HU.
  assert (K : tryKeys stream blake3 poly1305 pid body (remoteIV p pid) (pKeys p') =
              tryKeys stream blake3 poly1305 pid body (remoteIV p pid) (pKeys p)).
  { rewrite E, E'. clear E E'. induction pre as [|k pre IH]; cbn [app].
    - apply tryKeys_skip; auto. rewrite Forall_forall in *. intros k Hk. destruct (HF k Hk) as [?|?]; [auto|].
      destruct (HU k Hk); auto.
    - destruct k as [k|]; cbn [tryKeys]; rewrite IH; reflexivity. }
  rewrite K. reflexivity.
Qed.
Print Assumptions C18_wrong_keys_do_not_matter.

Example C18_example :
  let raw := rawOf (sealPacket toyStream toyHash toyPoly (exA true) true (packetIDBytes 7) [1;2;3]) in
  let stranger := {| pAux := Some (keyOf 200); pKeys := [Some (keyOf 3); None; None; Some (keyOf 5)];
                     pRemoteID := Some (idOf 1); pOwnID := idOf 4; pNext := 0 |} in
  decryptPacket toyStream toyHash toyPoly stranger raw = Ret (Err ErrCannotDecrypt).
Proof. vm_compute. reflexivity. Qed.

(** ** C72.  Full statement: a derived Poly1305 key is used for one message and
    depends on the whole session key. False in three ways, for every hash: one
    packet uses it for two messages, the two directions use the same key for
    equal packet IDs, and the last 8 bytes of the session key do not matter. *)
Theorem C72_one_time_key_reused_refuted : forall stream blake3 poly1305 a b pid m1 m2 key raw1 raw2,
  primitives_ok stream poly1305 -> peer_ok a -> peer_ok b -> length pid = 8%nat ->
  len m1 + 44 < 2^32 -> len m2 + 44 < 2^32 ->
  nth 0 (pKeys a) None = Some key -> nth 0 (pKeys b) None = Some key ->
  sealPacket stream blake3 poly1305 a true pid m1 = Ret (Ok raw1) ->
  sealPacket stream blake3 poly1305 b true pid m2 = Ret (Ok raw2) ->
  exists otk, firstn 32 (plainOf stream (Some key) (pOwnID a ++ pid) (skipn 8 raw1)) =
                poly1305 otk (le_enc 4 (len m1)) ++ poly1305 otk m1 /\
              firstn 32 (plainOf stream (Some key) (pOwnID b ++ pid) (skipn 8 raw2)) =
                poly1305 otk (le_enc 4 (len m2)) ++ poly1305 otk m2.
Proof.
  intros stream blake3 poly1305 a b pid m1 m2 key raw1 raw2 Hprim Ha Hb Lp B1 B2 K1 K2 S1 S2.
  exists (calculatePoly1305Key blake3 pid (Some key)).
  destruct (seal_spec stream blake3 poly1305 Hprim a true pid m1 Ha Lp B1) as (b1 & F1 & T1 & _).
  { intros _. unfold sealKey, secretIDRecentBoth. rewrite K1. discriminate. }
  destruct (seal_spec stream blake3 poly1305 Hprim b true pid m2 Hb Lp B2) as (b2 & F2 & T2 & _).
  { intros _. unfold sealKey, secretIDRecentBoth. rewrite K2. discriminate. }
  rewrite F1 in S1. rewrite F2 in S2. injection S1 as <-. injection S2 as <-.
  unfold sealed, sealKey, sealIV, secretIDRecentBoth in T1, T2. rewrite K1 in T1. rewrite K2 in T2.
  rewrite !skipn_app_l by (rewrite idOnWire_length; auto). rewrite T1, T2. unfold tags. destruct Hprim as [_ P].
  rewrite !firstn_app_l by (rewrite app_length, !P; reflexivity). auto.
Qed.
Print Assumptions C72_one_time_key_reused_refuted.

Theorem C72_tail_of_key_ignored_refuted : forall blake3 pid k1 k2, length pid = 8%nat ->
  firstn 24 k1 = firstn 24 k2 ->
  calculatePoly1305Key blake3 pid (Some k1) = calculatePoly1305Key blake3 pid (Some k2).
Proof. intros blake3 pid k1 k2 _ H. unfold calculatePoly1305Key, keyBytes. rewrite H. reflexivity. Qed.
Print Assumptions C72_tail_of_key_ignored_refuted.

(** What holds: the 32 bytes that are hashed determine the packet ID and the
    first 24 bytes of the key. *)
Definition hashedForKey (pid key : bytes) : bytes := xorb_bytes (firstn 32 (pid ++ firstn 24 key ++ repeat 0 24)) poly1305KeyXORer.
Theorem C72_hash_input_partial : forall pid1 k1 pid2 k2,
  length pid1 = 8%nat -> length pid2 = 8%nat -> length k1 = 32%nat -> length k2 = 32%nat ->
  (forall blake3, calculatePoly1305Key blake3 pid1 (Some k1) = blake3 (hashedForKey pid1 k1)) /\
  (hashedForKey pid1 k1 = hashedForKey pid2 k2 -> pid1 = pid2 /\ firstn 24 k1 = firstn 24 k2).
Proof.
  intros pid1 k1 pid2 k2 L1 L2 L3 L4. split; [reflexivity|]. intros H. unfold hashedForKey in H.
  assert (G : forall (c a b : bytes), length a = length c -> length b = length c -> xorb_bytes a c = xorb_bytes b c -> a = b).
  { induction c as [|z c IH]; intros [|x a] [|y b] La Lb; cbn [length] in La, Lb; try discriminate; auto.
    cbn [xorb_bytes]. intros E. injection E as E1 E2. f_equal; [|apply IH; auto].
    apply (f_equal (fun v => N.lxor v z)) in E1. rewrite !N.lxor_assoc, N.lxor_nilpotent, !N.lxor_0_r in E1. exact E1. }
  assert (R : forall pid k, length pid = 8%nat -> length k = 32%nat ->
     firstn 32 (pid ++ firstn 24 k ++ repeat 0 24) = pid ++ firstn 24 k).
  { intros pid k La Lb. rewrite app_assoc. apply firstn_app_l. rewrite app_length, firstn_length. lia. }
  rewrite !R in H by auto.
  apply G in H; [|rewrite app_length, firstn_length; cbn [length poly1305KeyXORer]; lia
                 |rewrite app_length, firstn_length; cbn [length poly1305KeyXORer]; lia].
  split.
  - apply (f_equal (firstn 8)) in H. rewrite !firstn_app_l in H by auto. exact H.
  - apply (f_equal (skipn 8)) in H. rewrite !skipn_app_l in H by auto. exact H.
Qed.
Print Assumptions C72_hash_input_partial.

Example C72_example : (* two different keys, one derived key *)
  let k1 := keyOf 40 in let k2 := firstn 24 (keyOf 40) ++ repeat 0 8 in
  k1 <> k2 /\ calculatePoly1305Key toyHash (packetIDBytes 3) (Some k1) = calculatePoly1305Key toyHash (packetIDBytes 3) (Some k2) /\
  calculatePoly1305Key toyHash (packetIDBytes 3) (Some k1) <> calculatePoly1305Key toyHash (packetIDBytes 3) (Some (keyOf 41)).
Proof. split; [discriminate|]. split; [vm_compute; reflexivity|]. vm_compute. discriminate. Qed.
