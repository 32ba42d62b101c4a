(** Properties C17, C42, C43 (packets sent right away) and C82: which key a
    written message leaves the host under, how big its packets are. *)
From Coq Require Import NArith List Bool Lia Arith.
From Verif Require Import Base BaseLemmas MessageModel CodecProofs PacketIDModel PacketIDSpec PacketIDProps ReaderModel ReaderLoopModel ReaderSpec
  ReaderProofs ReaderRun ReaderProps FragRun PacketModel PacketSpec PacketProofs PacketProps FragmentSendModel FragSpec FragSession FragFamily FragProps
  BatchModel BatchProofs BatchProps SendModel.
Import ListNotations.
Local Open Scope N_scope.

(** The packet holds [msgs] encrypted under the newest session key, with the
    nonce of C11, and nothing else of it. *)
Definition underSessionKey (stream : bytes -> bytes -> nat -> N) (p : peer) (pid msgs raw : bytes) : Prop :=
  exists key rest, nth secretIDRecentBoth (pKeys p) None = Some key /\ length rest = 36%nat /\
    raw = idOnWire stream (pAux p) pid ++ xorStream stream key (pOwnID p ++ pid) (rest ++ msgs).

Lemma isConf_single : forall t, isConfidential (singleFlags t) = negb (t =? messageTypeKeyExchange).
Proof. intros t. unfold singleFlags. destruct (t =? messageTypeKeyExchange); reflexivity. Qed.

Lemma sealPacket_ext : forall stream blake3 poly1305 p q conf pid msgs,
  pAux p = pAux q -> pOwnID p = pOwnID q -> (conf = true -> pKeys p = pKeys q) ->
  sealPacket stream blake3 poly1305 p conf pid msgs = sealPacket stream blake3 poly1305 q conf pid msgs.
Proof.
  intros stream blake3 poly1305 p q conf pid msgs H1 H2 H3. unfold sealPacket. rewrite H1, H2.
  destruct conf; [rewrite H3 by reflexivity|]; reflexivity.
Qed.

Section Send.
  Variable stream : bytes -> bytes -> nat -> N.
  Variable blake3 : bytes -> bytes.
  Variable poly1305 : bytes -> bytes -> bytes.
  Hypothesis prim : primitives_ok stream poly1305.
  Notation sendUnit := (sendUnit stream blake3 poly1305).
  Notation sendUnits := (sendUnits stream blake3 poly1305).

  Definition ownNext (p : peer) : bytes := packetIDBytes (add64 (pNext p) 1).

  Lemma sendPacket_spec : forall p conf msgs, peer_ok p -> len msgs + 44 < 2^32 ->
    (conf = true -> nth secretIDRecentBoth (pKeys p) None <> None) ->
    exists body, snd (sendPacket stream blake3 poly1305 p conf msgs) =
        Ret (Ok (idOnWire stream (pAux p) (ownNext p) ++ body)) /\
      sealed stream blake3 poly1305 (sealKey p conf) (sealIV p conf (ownNext p)) (ownNext p) body (len msgs) msgs.
  Proof.
    intros p conf msgs Hp Hl Hk. unfold sendPacket, takePacketID. cbn zeta. cbn [snd].
    set (p1 := {| pAux := pAux p; pKeys := pKeys p; pRemoteID := pRemoteID p; pOwnID := pOwnID p; pNext := add64 (pNext p) 1 |}).
    destruct (seal_spec stream blake3 poly1305 prim p1 conf (ownNext p) msgs) as (body & E & S & _).
    - exact Hp.
    - apply le_enc_length.
    - exact Hl.
    - intros ->. unfold sealKey. apply Hk. reflexivity.
    - exists body. split; [exact E|exact S].
  Qed.

  Lemma sealed_len : forall k iv pid body l m, sealed stream blake3 poly1305 k iv pid body l m ->
    length body = (36 + length m)%nat.
  Proof.
    intros k iv pid body l m H. unfold sealed, tags in H. apply (f_equal (@length N)) in H.
    rewrite plainOf_length in H. rewrite !app_length, le_enc_length in H. destruct prim as [_ P]. rewrite !P in H. lia.
  Qed.

  Lemma idOnWire_len : forall aux pid, length pid = 8%nat -> length (idOnWire stream aux pid) = 8%nat.
  Proof. intros [a|] pid H; cbn [idOnWire]; [rewrite xorStream_length|]; auto. Qed.

  Lemma fst_sendUnit : forall est p u, fst (sendUnit est p u) = fst (takePacketID p).
  Proof. intros est p u. unfold SendModel.sendUnit. destruct (_ && _); reflexivity. Qed.

  (** A unit that passes the size check is exactly 44 bytes longer than its messages. *)
  Lemma sendUnit_ok : forall est p u, peer_ok p -> est + 53 < 2^32 ->
    len (uMsgs u) <= est + 9 ->
    (uConfidential u = true -> nth secretIDRecentBoth (pKeys p) None <> None) ->
    exists body, snd (sendUnit est p u) = Ret (Ok (idOnWire stream (pAux p) (ownNext p) ++ body)) /\
      sealed stream blake3 poly1305 (sealKey p (uConfidential u)) (sealIV p (uConfidential u) (ownNext p)) (ownNext p)
        body (len (uMsgs u)) (uMsgs u).
  Proof.
    intros est p u Hp He Hl Hk. unfold SendModel.sendUnit.
    assert (C : (packetSizeOf est <? add32 messagesContainerHeadersSize (u32 (len (uMsgs u)))) = false).
    { apply N.ltb_ge. rewrite packetSizeOf_small by auto. unfold add32, u32, messagesContainerHeadersSize.
      rewrite (N.mod_small (len (uMsgs u))) by lia. rewrite N.mod_small by lia. lia. }
    rewrite C, andb_false_r. apply sendPacket_spec; auto. lia.
  Qed.
End Send.

(** ** C17.  Full statement: every packet with application data, fragmented or
    not, is encrypted under the current session key. It fails for messages
    bigger than the established payload size, see below. *)

(** What is not fragmented is marked for the session key whatever the type
    (except the library's own key exchange type)... *)
Theorem C17_unfragmented_partial : forall o chainID t payload, t <> messageTypeKeyExchange ->
  len payload <= soEst o -> len payload < 2^32 ->
  if soDelay o
  then writeMessageAsyncPlan o chainID t payload = PlanAggregate (encodeMsg t 1 payload)
  else exists u, writeMessageAsyncPlan o chainID t payload = PlanUnits [u] /\
         writeMessageSinglePlan t payload = PlanUnits [u] /\
         uConfidential u = true /\ uMsgs u = encodeMsg t 1 payload.
Proof.
  intros o chainID t payload Ht Hl Hl2. unfold writeMessageAsyncPlan, writeMessageSinglePlan, u32.
  rewrite N.mod_small by auto. replace (soEst o <? len payload) with false by (symmetry; apply N.ltb_ge; auto).
  cbn [andb]. rewrite isConf_single. apply N.eqb_neq in Ht. rewrite Ht. cbn [negb orb].
  destruct (soDelay o); cbn [negb].
  - unfold singleFlags. rewrite Ht. reflexivity.
  - eexists. split; [reflexivity|]. split; [reflexivity|]. unfold singleUnit. cbn [uConfidential uMsgs].
    rewrite isConf_single, Ht. unfold singleFlags. rewrite Ht. auto.
Qed.
Print Assumptions C17_unfragmented_partial.

(** ... and what is marked so, alone or as a full aggregation buffer, leaves the
    host under that key. *)
Theorem C17_session_key_partial : forall stream blake3 poly1305 est p u raw p',
  primitives_ok stream poly1305 -> peer_ok p ->
  nth secretIDRecentBoth (pKeys p) None <> None ->
  uConfidential u = true \/ (exists msgs, u = batchUnit msgs) -> len (uMsgs u) + 44 < 2^32 ->
  sendUnit stream blake3 poly1305 est p u = (p', Ret (Ok raw)) ->
  underSessionKey stream p (packetIDBytes (pNext p')) (uMsgs u) raw.
Proof.
  intros stream blake3 poly1305 est p u raw p' Hprim Hp Hk Hu Hl H.
  assert (Hc : uConfidential u = true) by (destruct Hu as [Hu|[ms ->]]; [exact Hu|reflexivity]). clear Hu.
  pose proof (f_equal fst H) as Hf. rewrite fst_sendUnit in Hf. cbn [fst takePacketID] in Hf.
  unfold sendUnit in H. destruct (_ && _); [discriminate|].
  destruct (sendPacket_spec stream blake3 poly1305 Hprim p true (uMsgs u) Hp Hl) as (body & E & S); [auto|].
  rewrite Hc in H. rewrite H in E. cbn [snd] in E. injection E as ->.
  destruct (nth secretIDRecentBoth (pKeys p) None) as [key|] eqn:Ek; [|congruence].
  unfold sealed, sealKey, sealIV, tags in S. rewrite Ek in S. cbn [plainOf] in S.
  set (pid := ownNext p) in *. assert (Ei : packetIDBytes (pNext p') = pid) by (rewrite <- Hf; reflexivity). rewrite Ei.
  eexists key, _. split; [exact Ek|]. split.
  2:{ f_equal. rewrite <- (xorStream_invol stream key (pOwnID p ++ pid) body), S.
      rewrite (app_assoc _ (le_enc 4 (len (uMsgs u))) (uMsgs u)). reflexivity. }
  destruct Hprim as [_ P]. rewrite !app_length, !P, le_enc_length. reflexivity.
Qed.
Print Assumptions C17_session_key_partial.

Example C17_example :
  let o := {| soEst := 100; soFragmentation := true; soDelay := false |} in
  match writeMessageAsyncPlan o 1 7 [1;2;3] with
  | PlanUnits us =>
      match snd (sendUnits toyStream toyHash toyPoly 100 (exA false) us) with
      | [Ret (Ok raw)] => len raw = 56 /\ skipn 53 raw <> [1;2;3] /\
          skipn 45 (xorStream toyStream (keyOf 40) (idOf 1 ++ packetIDBytes 1) (skipn 8 raw)) = [1;2;3]
      | _ => False
      end
  | _ => False
  end.
Proof. vm_compute. repeat split; discriminate. Qed.

(** Fragments. [hdrOfFragment]: the 33 bytes in front of the piece. *)
Lemma fragUnit : forall chainID total t f,
  (let '(t', fl, body) := fragmentMessage chainID total t f in singleUnit t' fl body) =
  {| uConfidential := false; uInternal := isInternal t;
     uMsgs := encodeMsg t 2 (wPayload (fragWire 2 t chainID total f)) |}.
Proof. intros chainID total t f. rewrite C19_on_the_wire. reflexivity. Qed.

Lemma encodeMsg_split : forall t f p, exists h, length h = 9%nat /\ encodeMsg t f p = h ++ p.
Proof.
  intros t f p. unfold encodeMsg, hdrWrite. change (len (repeat 0 9) <? messageHeadersSize) with false. cbn match.
  eexists. split; [|reflexivity]. rewrite !app_length, !le_enc_length. reflexivity.
Qed.

(** The packets of a fragmented message. *)
Definition fragmentUnit (t chainID total : N) (f : N * bytes) : unit_ :=
  {| uConfidential := false; uInternal := isInternal t; uMsgs := encodeMsg t 2 (wPayload (fragWire 2 t chainID total f)) |}.

Lemma big_plan : forall o chainID t payload,
  soFragmentation o = true -> isInternal t = false -> 24 < soEst o < 2^32 -> soEst o < len payload < 2^32 ->
  writeMessageAsyncPlan o chainID t payload =
    PlanUnits (map (fragmentUnit t chainID (len payload)) (tiles 0 (sentPieces (soEst o) payload))).
Proof.
  intros o chainID t payload Hf Ht He Hl. unfold writeMessageAsyncPlan, u32. rewrite N.mod_small by lia.
  replace (soEst o <? len payload) with true by (symmetry; apply N.ltb_lt; lia). rewrite Ht, Hf. cbn [andb negb].
  unfold fragmentUnits. rewrite splitMessage_spec by lia. f_equal. apply map_ext. intros f. apply fragUnit.
Qed.

Lemma fragmentUnit_len : forall t c n f, len (uMsgs (fragmentUnit t c n f)) = 33 + len (snd f).
Proof. intros. cbn [fragmentUnit uMsgs]. rewrite encodeMsg_len, fragWire_payload_len. lia. Qed.

Lemma tiles_snd : forall ps off, map snd (tiles off ps) = ps.
Proof. induction ps as [|p r IH]; intros off; cbn [tiles map snd]; [auto|]. rewrite IH. reflexivity. Qed.

Lemma takePacketID_ok : forall p, peer_ok p -> peer_ok (fst (takePacketID p)).
Proof. intros p H. exact H. Qed.

(** What an outsider reads in packets sent in clear: everything behind the
    44 + 9 + 24 bytes of headers. *)
Definition readByAnybody (o : outcome (res bytes)) : bytes :=
  match o with Ret (Ok raw) => skipn 77 raw | _ => [] end.

Lemma plain_units : forall stream blake3 poly1305 est t c n fs p,
  primitives_ok stream poly1305 -> peer_ok p -> pAux p = None -> est + 53 < 2^32 ->
  Forall (fun f => 24 + len (snd f) <= est) fs ->
  concat (map readByAnybody (snd (sendUnits stream blake3 poly1305 est p (map (fragmentUnit t c n) fs)))) =
  concat (map snd fs).
Proof.
  intros stream blake3 poly1305 est t c n. induction fs as [|f fs IH]; intros p Hprim Hp Ha He HF; [reflexivity|].
  inversion HF as [|x l Hf HF' E]; subst. cbn [map sendUnits].
  destruct (sendUnit_ok stream blake3 poly1305 Hprim est p (fragmentUnit t c n f) Hp He) as (body & E & S).
  { cbv beta in Hf. rewrite fragmentUnit_len. unfold bytes in *. lia. }
  { discriminate. }
  destruct (sendUnit stream blake3 poly1305 est p (fragmentUnit t c n f)) as [p1 o1] eqn:Eu. cbn [snd] in E. subst o1.
  assert (Ep : p1 = fst (takePacketID p)) by (rewrite <- (fst_sendUnit stream blake3 poly1305 est p (fragmentUnit t c n f)), Eu; reflexivity).
  specialize (IH p1 Hprim). destruct (sendUnits stream blake3 poly1305 est p1 (map (fragmentUnit t c n) fs)) as [p2 os].
  cbn [snd] in IH |- *. cbn [map concat]. rewrite IH; auto.
  2:{ rewrite Ep. exact Hp. }
  2:{ rewrite Ep. exact Ha. }
  f_equal. cbn [readByAnybody]. rewrite Ha. cbn [idOnWire].
  unfold sealed, sealKey in S. cbn [fragmentUnit uConfidential uMsgs] in S. rewrite Ha in S. cbn [plainOf] in S.
  destruct (encodeMsg_split t 2 (wPayload (fragWire 2 t c n f))) as (h & Lh & Eh).
  assert (L1 : length (tags blake3 poly1305 None (ownNext p) (len (encodeMsg t 2 (wPayload (fragWire 2 t c n f))))
                         (encodeMsg t 2 (wPayload (fragWire 2 t c n f)))) = 32%nat).
  { unfold tags. destruct Hprim as [_ P]. rewrite app_length, !P. reflexivity. }
  remember (tags blake3 poly1305 None (ownNext p) (len (encodeMsg t 2 (wPayload (fragWire 2 t c n f))))
                         (encodeMsg t 2 (wPayload (fragWire 2 t c n f)))) as T eqn:ET. clear ET.
  remember (le_enc 4 (len (encodeMsg t 2 (wPayload (fragWire 2 t c n f))))) as L eqn:EL.
  assert (L2 : length L = 4%nat) by (rewrite EL; apply le_enc_length). clear EL.
  rewrite S, Eh. cbn [fragWire wPayload]. rewrite !app_assoc.
  set (pre := _ ++ le_enc 8 n). assert (Lp : length pre = 77%nat).
  { unfold pre. rewrite !app_length, !le_enc_length, L1, L2, Lh. unfold ownNext, packetIDBytes. rewrite le_enc_length. reflexivity. }
  rewrite <- Lp. apply skipn_exact.
Qed.

(** Without a pre-shared key a fragmented message travels in clear: anybody on
    the path reads the whole of it, whatever keys the session has agreed on. *)
Theorem C17_fragments_in_clear_refuted : forall stream blake3 poly1305 p o chainID t payload,
  primitives_ok stream poly1305 -> peer_ok p -> pAux p = None ->
  soFragmentation o = true -> isInternal t = false -> 24 < soEst o -> soEst o + 53 < 2^32 ->
  soEst o < len payload < 2^32 ->
  exists us, writeMessageAsyncPlan o chainID t payload = PlanUnits us /\
    concat (map readByAnybody (snd (sendUnits stream blake3 poly1305 (soEst o) p us))) = payload.
Proof.
  intros stream blake3 poly1305 p o chainID t payload Hprim Hp Ha Hf Ht He He2 Hl.
  eexists. split; [apply big_plan; auto; lia|].
  destruct (sentPieces_facts (soEst o) payload ltac:(lia)) as (F1 & F2 & F3 & F4).
  rewrite plain_units; auto.
  - rewrite tiles_snd. exact F1.
  - rewrite Forall_forall in *. intros f Hin. apply F3. rewrite <- (tiles_snd (sentPieces (soEst o) payload) 0).
    apply in_map. exact Hin.
Qed.
Print Assumptions C17_fragments_in_clear_refuted.

Lemma sendUnits_keys : forall stream blake3 poly1305 est us p q,
  Forall (fun u => uConfidential u = false) us ->
  pAux p = pAux q -> pOwnID p = pOwnID q -> pNext p = pNext q ->
  snd (sendUnits stream blake3 poly1305 est p us) = snd (sendUnits stream blake3 poly1305 est q us).
Proof.
  intros stream blake3 poly1305 est. induction us as [|u us IH]; intros p q HF H1 H2 H3; [reflexivity|].
  inversion HF as [|x l Hu HF' E]; subst. cbn [sendUnits].
  assert (S : snd (sendUnit stream blake3 poly1305 est p u) = snd (sendUnit stream blake3 poly1305 est q u)).
  { unfold sendUnit. destruct (_ && _); [reflexivity|]. rewrite Hu. unfold sendPacket, takePacketID. cbn zeta. cbn [snd].
    rewrite H3. apply sealPacket_ext; auto. discriminate. }
  assert (Pp : fst (sendUnit stream blake3 poly1305 est p u) = fst (takePacketID p)) by apply fst_sendUnit.
  assert (Pq : fst (sendUnit stream blake3 poly1305 est q u) = fst (takePacketID q)) by apply fst_sendUnit.
  destruct (sendUnit stream blake3 poly1305 est p u) as [p1 o1]. destruct (sendUnit stream blake3 poly1305 est q u) as [q1 o2].
  cbn [fst snd] in S, Pp, Pq. subst o2.
  specialize (IH p1 q1 HF'). subst p1 q1.
  assert (I := IH H1 H2 (f_equal (fun x => add64 x 1) H3)). clear IH.
  destruct (sendUnits stream blake3 poly1305 est (fst (takePacketID p)) us). destruct (sendUnits stream blake3 poly1305 est (fst (takePacketID q)) us).
  cbn [snd] in I |- *. f_equal. exact I.
Qed.

(** With a pre-shared key the session keys play no part either: a peer with any
    other session keys sends the same bytes. So whoever knows the pre-shared key
    reads the message, now or later. *)
Theorem C17_fragments_ignore_session_keys_refuted : forall stream blake3 poly1305 p o chainID t payload keys us,
  soFragmentation o = true -> isInternal t = false -> 24 < soEst o < 2^32 -> soEst o < len payload < 2^32 ->
  writeMessageAsyncPlan o chainID t payload = PlanUnits us ->
  let q := {| pAux := pAux p; pKeys := keys; pRemoteID := pRemoteID p; pOwnID := pOwnID p; pNext := pNext p |} in
  snd (sendUnits stream blake3 poly1305 (soEst o) p us) = snd (sendUnits stream blake3 poly1305 (soEst o) q us).
Proof.
  intros stream blake3 poly1305 p o chainID t payload keys us Hf Ht He Hl E q.
  rewrite big_plan in E by auto. injection E as <-. apply sendUnits_keys; auto.
  rewrite Forall_forall. intros u Hu. apply in_map_iff in Hu. destruct Hu as (f & <- & _). reflexivity.
Qed.
Print Assumptions C17_fragments_ignore_session_keys_refuted.

(** Nothing stops an application from using the type of key exchange messages,
    and those do not use the session key either. *)
Theorem C17_kx_type_refuted : forall stream blake3 poly1305 p o chainID payload keys,
  exists us, writeMessageAsyncPlan o chainID messageTypeKeyExchange payload = PlanUnits us /\
    writeMessageSinglePlan messageTypeKeyExchange payload = PlanUnits us /\ us <> [] /\
    let q := {| pAux := pAux p; pKeys := keys; pRemoteID := pRemoteID p; pOwnID := pOwnID p; pNext := pNext p |} in
    snd (sendUnits stream blake3 poly1305 (soEst o) p us) = snd (sendUnits stream blake3 poly1305 (soEst o) q us).
Proof.
  intros stream blake3 poly1305 p o chainID payload keys.
  exists [singleUnit messageTypeKeyExchange (singleFlags messageTypeKeyExchange) payload].
  split; [unfold writeMessageAsyncPlan; rewrite andb_false_r; reflexivity|]. split; [reflexivity|]. split; [discriminate|].
  intros q. apply sendUnits_keys; auto.
Qed.
Print Assumptions C17_kx_type_refuted.

Example C17_refuted_example :
  let o := {| soEst := 64; soFragmentation := true; soDelay := true |} in
  match writeMessageAsyncPlan o 1 7 (countUp 100 7) with
  | PlanUnits us =>
      concat (map readByAnybody (snd (sendUnits toyStream toyHash toyPoly 64 (exA false) us))) = countUp 100 7 /\
      map (fun o => match o with Ret (Ok raw) => len raw | _ => 0 end)
          (snd (sendUnits toyStream toyHash toyPoly 64 (exA true) us)) = [117; 117; 97]
  | _ => False
  end.
Proof. vm_compute. auto. Qed.

(** ** C42 for packets sent right away: at most the established payload size
    plus 53 bytes, whatever the message type, size and fragmentation. *)
Lemma gslice_size : forall A (l : list A) i j r, gslice l i j = Some r -> len r = j - i /\ i <= j /\ j <= len l.
Proof.
  intros A l i j r H. unfold gslice in H. destruct ((i <=? j) && (j <=? len l)) eqn:E; [|discriminate].
  apply andb_true_iff in E. destruct E as [E1 E2]. apply N.leb_le in E1. apply N.leb_le in E2.
  assert (R : firstn (N.to_nat (j - i)) (skipn (N.to_nat i) l) = r) by congruence. subst r.
  split; [|auto]. unfold len in *. rewrite firstn_length, skipn_length. lia.
Qed.

Lemma sealed_size : forall stream blake3 poly1305 p conf pid msgs raw, primitives_ok stream poly1305 -> length pid = 8%nat ->
  sealPacket stream blake3 poly1305 p conf pid msgs = Ret (Ok raw) ->
  len raw = if (if conf then nth secretIDRecentBoth (pKeys p) None else pAux p) then u32 (44 + len msgs) else 44 + len msgs.
Proof.
  intros stream blake3 poly1305 p conf pid msgs raw Hprim Lp H. unfold sealPacket in H.
  set (k := if conf then nth secretIDRecentBoth (pKeys p) None else pAux p) in *.
  unfold contWrite in H. change (len (repeat 0 44) <? messagesContainerHeadersSize) with false in H. cbn match in H.
  match type of H with context [cPacketID ?c ++ _] => set (h := c) in H end.
  set (hb := cPacketID h ++ cHdrSum h ++ cMsgSum h ++ le_enc 4 (cLength h) ++ skipn 44 (repeat 0 44)) in H.
  assert (Lh : length hb = 44%nat).
  { unfold hb, h, contSet, headersChecksum, messagesChecksum. cbn [cPacketID cHdrSum cMsgSum cLength].
    destruct Hprim as [_ P]. rewrite !app_length, !P, le_enc_length, Lp. reflexivity. }
  assert (Lpl : len (hb ++ msgs) = 44 + len msgs) by (rewrite len_app; unfold len; rewrite Lh; lia).
  destruct k as [key|].
  - rewrite Lpl in H. assert (U : u32 (44 + len msgs) < 2^32) by (apply N.mod_lt; lia). rewrite roundSize_1 in H by auto.
    remember (u32 (44 + len msgs)) as sz eqn:Esz. clear Esz.
    destruct (gslice (hb ++ msgs) 0 sz) as [pl|] eqn:G; [|discriminate].
    unfold gslice in G. match type of G with (if ?c then _ else _) = _ => destruct c eqn:Gc; [|discriminate] end. injection G as <-.
    apply andb_true_iff in Gc. destruct Gc as [_ Gc]. apply N.leb_le in Gc.
    set (pl := firstn (N.to_nat (sz - 0)) (hb ++ msgs)) in *.
    assert (Ll : len pl = sz).
    { unfold pl. unfold len in *. rewrite firstn_length. lia. }
    destruct (gslice pl 8 (len pl)) as [rest|] eqn:G; [|discriminate].
    destruct (gslice_size _ _ _ _ _ G) as (Lr & Gc2 & _).
    unfold crypt in H. destruct (_ && _); [|discriminate].
    destruct (pAux p) as [a|].
    + destruct (_ && _); [|discriminate]. injection H as <-. rewrite len_app. unfold len. rewrite !xorStream_length, Lp.
      unfold len in *. lia.
    + injection H as <-. rewrite len_app. unfold len. rewrite !xorStream_length, Lp. unfold len in *. lia.
  - injection H as <-. exact Lpl.
Qed.

Lemma splitLoop_sizes : forall fuel mx pos m fs, splitLoop fuel mx pos m = SplitDone fs ->
  Forall (fun f : N * bytes => len (snd f) <= mx /\ len (snd f) <= len m) fs.
Proof.
  induction fuel as [|fuel IH]; intros mx pos m fs H; cbn [splitLoop] in H.
  - destruct (0 <? len m); [discriminate|]. injection H as <-. constructor.
  - destruct (0 <? len m); [|injection H as <-; constructor].
    set (k := if u32 (len m) <? mx then u32 (len m) else mx) in *.
    assert (Hk : k <= mx). { unfold k. destruct (u32 (len m) <? mx) eqn:E; [apply N.ltb_lt in E|]; lia. }
    destruct (k =? 0); [discriminate|].
    destruct (splitLoop fuel mx (add64 pos k) (skipn (N.to_nat k) m)) as [r| |] eqn:E; try discriminate.
    injection H as <-. constructor.
    + cbn [snd]. unfold len. rewrite firstn_length. lia.
    + apply IH in E. eapply Forall_impl; [|exact E]. cbn. intros f [H1 H2]. split; [exact H1|].
      unfold len in *. rewrite skipn_length in H2. lia.
Qed.

Lemma PlanUnits_inj : forall a b, PlanUnits a = PlanUnits b -> a = b.
Proof. intros a b H. injection H as H. exact H. Qed.

Theorem C42_sent_right_away : forall stream blake3 poly1305 p o chainID t payload us,
  primitives_ok stream poly1305 -> nth secretIDRecentBoth (pKeys p) None <> None ->
  soEst o + 53 < 2^32 -> isInternal t = false -> 24 < soEst o \/ len payload + 77 < 2^32 ->
  writeMessageAsyncPlan o chainID t payload = PlanUnits us \/ writeMessageSinglePlan t payload = PlanUnits us ->
  Forall (fun r => forall raw, r = Ret (Ok raw) -> len raw <= soEst o + 53)
    (snd (sendUnits stream blake3 poly1305 (soEst o) p us)).
Proof.
  intros stream blake3 poly1305 p o chainID t payload us Hprim Hk He Ht Hh E.
  assert (Hx : (t =? messageTypeKeyExchange) = false).
  { unfold isInternal in Ht. apply orb_false_iff in Ht. tauto. }
  assert (G1 : uConfidential (singleUnit t (singleFlags t) payload) = true)
    by (cbn [singleUnit uConfidential]; rewrite isConf_single, Hx; reflexivity).
  assert (G2 : uInternal (singleUnit t (singleFlags t) payload) = false) by exact Ht.
  assert (G : Forall (fun u => uInternal u = false /\ (uConfidential u = true \/ len (uMsgs u) + 44 < 2^32)) us).
  { destruct E as [E|E].
    - unfold writeMessageAsyncPlan in E. destruct (_ && _).
      + destruct (soFragmentation o); [|discriminate]. unfold fragmentUnits in E.
        destruct (splitMessage (soEst o) payload) as [fs| |] eqn:Es; try discriminate. apply PlanUnits_inj in E; subst us.
        unfold splitMessage in Es. apply splitLoop_sizes in Es.
        rewrite Forall_forall in *. intros u Hu. apply in_map_iff in Hu. destruct Hu as (f & <- & Hf).
        rewrite fragUnit. cbn [uInternal uConfidential uMsgs]. split; [exact Ht|right].
        rewrite encodeMsg_len, fragWire_payload_len. destruct (Es f Hf) as [S1 S2].
        destruct Hh as [Hh|Hh]; [|lia]. unfold sub32, messageFragmentHeadersSize in S1.
        replace (soEst o + (2^32 - 24)) with (soEst o - 24 + 1 * 2^32) in S1 by lia.
        rewrite N.mod_add, N.mod_small in S1 by lia. lia.
      + destruct (_ || _); [|discriminate]. apply PlanUnits_inj in E; subst us. constructor; [auto|constructor].
    - apply PlanUnits_inj in E; subst us. constructor; [auto|constructor]. }
  clear E G1 G2. revert p Hk. induction G as [|u us [Hi Hc] G IH]; intros p Hk; cbn [sendUnits]; [constructor|].
  destruct (sendUnit stream blake3 poly1305 (soEst o) p u) as [p1 o1] eqn:Eu.
  pose proof (fst_sendUnit stream blake3 poly1305 (soEst o) p u) as Ef. rewrite Eu in Ef. cbn [fst] in Ef.
  specialize (IH p1). assert (Hk1 : nth secretIDRecentBoth (pKeys p1) None <> None) by (rewrite Ef; exact Hk). specialize (IH Hk1).
  destruct (sendUnits stream blake3 poly1305 (soEst o) p1 us) as [p2 os]. cbn [snd] in *. constructor; [|exact IH].
  intros raw ->. unfold sendUnit in Eu. rewrite Hi in Eu. cbn [negb andb] in Eu.
  destruct (packetSizeOf (soEst o) <? add32 messagesContainerHeadersSize (u32 (len (uMsgs u)))) eqn:Es; [discriminate|].
  apply N.ltb_ge in Es. rewrite packetSizeOf_small in Es by auto.
  unfold sendPacket, takePacketID in Eu. cbn zeta in Eu. injection Eu as _ Eu.
  apply sealed_size in Eu; [|exact Hprim|apply le_enc_length]. cbn [pKeys pAux] in Eu.
  assert (U : add32 messagesContainerHeadersSize (u32 (len (uMsgs u))) = u32 (44 + len (uMsgs u))).
  { unfold add32, u32, messagesContainerHeadersSize. apply N.add_mod_idemp_r. lia. }
  rewrite U in Es. destruct Hc as [Hc|Hc].
  - rewrite Hc in Eu. destruct (nth secretIDRecentBoth (pKeys p) None); [|congruence]. lia.
  - assert (Um : u32 (44 + len (uMsgs u)) = 44 + len (uMsgs u)) by (apply N.mod_small; lia).
    rewrite Um in *. destruct (if uConfidential u then _ else _); lia.
Qed.
Print Assumptions C42_sent_right_away.

(** Below 4 GiB nothing is lost by the checks either: every packet is sent. *)
Theorem C42_nothing_refused : forall stream blake3 poly1305 p o chainID t payload us,
  primitives_ok stream poly1305 -> peer_ok p -> nth secretIDRecentBoth (pKeys p) None <> None ->
  24 < soEst o -> soEst o + 53 < 2^32 -> isInternal t = false -> len payload < 2^32 ->
  writeMessageAsyncPlan o chainID t payload = PlanUnits us ->
  Forall (fun r => exists raw, r = Ret (Ok raw) /\ len raw <= soEst o + 53)
    (snd (sendUnits stream blake3 poly1305 (soEst o) p us)).
Proof.
  intros stream blake3 poly1305 p o chainID t payload us Hprim Hp Hk He He2 Ht Hl E.
  assert (G : Forall (fun u => len (uMsgs u) <= soEst o + 9) us).
  { destruct (N.lt_ge_cases (soEst o) (len payload)) as [Hb|Hs].
    - destruct (soFragmentation o) eqn:Hf.
      + rewrite big_plan in E by (auto; lia). injection E as <-.
        destruct (sentPieces_facts (soEst o) payload ltac:(lia)) as (F1 & F2 & F3 & F4).
        rewrite Forall_forall in *. intros u Hu. apply in_map_iff in Hu. destruct Hu as (f & <- & Hin).
        rewrite fragmentUnit_len. specialize (F3 (snd f)). unfold bytes in *.
        assert (24 + len (snd f) <= soEst o); [|lia]. apply F3. rewrite <- (tiles_snd (sentPieces (soEst o) payload) 0).
        apply in_map. exact Hin.
      + unfold writeMessageAsyncPlan, u32 in E. rewrite N.mod_small in E by lia.
        replace (soEst o <? len payload) with true in E by (symmetry; apply N.ltb_lt; lia). rewrite Ht, Hf in E. discriminate.
    - unfold writeMessageAsyncPlan, u32 in E. rewrite N.mod_small in E by lia.
      replace (soEst o <? len payload) with false in E by (symmetry; apply N.ltb_ge; lia). cbn [andb] in E.
      destruct (_ || _); [|discriminate]. injection E as <-. constructor; [|constructor].
      cbn [singleUnit uMsgs]. rewrite encodeMsg_len. lia. }
  clear E. revert p Hp Hk. induction G as [|u us Hu G IH]; intros p Hp Hk; cbn [sendUnits]; [constructor|].
  destruct (sendUnit_ok stream blake3 poly1305 Hprim (soEst o) p u Hp He2 Hu ltac:(auto)) as (body & E & S).
  pose proof (fst_sendUnit stream blake3 poly1305 (soEst o) p u) as Ef.
  destruct (sendUnit stream blake3 poly1305 (soEst o) p u) as [p1 o1]. cbn [fst snd] in *. subst o1 p1.
  specialize (IH (fst (takePacketID p)) Hp Hk).
  destruct (sendUnits stream blake3 poly1305 (soEst o) (fst (takePacketID p)) us) as [p2 os]. cbn [snd] in *.
  constructor; [|exact IH]. eexists. split; [reflexivity|].
  apply sealed_len in S; [|exact Hprim]. rewrite len_app. unfold len in *. rewrite idOnWire_len by apply le_enc_length. lia.
Qed.
Print Assumptions C42_nothing_refused.

(** [WriteMessageSingle]: whatever the size, either refused or small enough;
    nothing in between, and refused exactly above the limit (below 4 GiB). *)
Theorem C42_single : forall stream blake3 poly1305 est p t payload,
  primitives_ok stream poly1305 -> peer_ok p -> nth secretIDRecentBoth (pKeys p) None <> None ->
  est + 53 < 2^32 -> isInternal t = false -> len payload + 53 < 2^32 ->
  exists us, writeMessageSinglePlan t payload = PlanUnits us /\
    if est <? len payload
    then snd (sendUnits stream blake3 poly1305 est p us) = [Ret (Err ErrPayloadTooBig)]
    else exists raw, snd (sendUnits stream blake3 poly1305 est p us) = [Ret (Ok raw)] /\
           len raw = len payload + 53 /\ len raw <= est + 53.
Proof.
  intros stream blake3 poly1305 est p t payload Hprim Hp Hk He Ht Hl. eexists. split; [reflexivity|]. cbn [sendUnits].
  destruct (est <? len payload) eqn:E.
  - apply N.ltb_lt in E.
    destruct (sendUnit stream blake3 poly1305 est p (singleUnit t (singleFlags t) payload)) as [p1 o1] eqn:Eu. cbn [snd].
    unfold sendUnit in Eu. cbn [singleUnit uInternal uMsgs] in Eu. rewrite Ht in Eu. cbn [negb andb] in Eu.
    rewrite packetSizeOf_small in Eu by auto. rewrite encodeMsg_len in Eu.
    unfold add32, u32, messagesContainerHeadersSize in Eu. rewrite (N.mod_small (9 + len payload)) in Eu by lia.
    rewrite N.mod_small in Eu by lia. replace (est + 53 <? 44 + (9 + len payload)) with true in Eu by (symmetry; apply N.ltb_lt; lia).
    injection Eu as _ <-. reflexivity.
  - apply N.ltb_ge in E.
    destruct (sendUnit_ok stream blake3 poly1305 Hprim est p (singleUnit t (singleFlags t) payload) Hp He) as (body & Eb & S).
    { cbn [singleUnit uMsgs]. rewrite encodeMsg_len. lia. }
    { auto. }
    destruct (sendUnit stream blake3 poly1305 est p (singleUnit t (singleFlags t) payload)) as [p1 o1]. cbn [snd] in *. subst o1.
    eexists. split; [reflexivity|]. apply sealed_len in S; [|exact Hprim].
    cbn [singleUnit uMsgs] in S. pose proof (encodeMsg_len t (singleFlags t) payload) as Le.
    rewrite len_app. unfold len in *. rewrite idOnWire_len by apply le_enc_length. lia.
Qed.
Print Assumptions C42_single.

Example C42_single_example :
  let r n := match writeMessageSinglePlan 7 (countUp n 1) with
             | PlanUnits us => match snd (sendUnits toyStream toyHash toyPoly 100 (exA true) us) with
                               | [Ret (Ok raw)] => Some (len raw) | _ => None end
             | _ => None end in
  r 100%nat = Some 153 /\ r 101%nat = None /\ r 0%nat = Some 53.
Proof. vm_compute. auto. Qed.

(** ** C43 for packets sent right away. Full statement: without fragmentation a
    message bigger than the established payload size is refused. *)
Theorem C43_sync_refused_partial : forall o chainID t payload, isInternal t = false -> soFragmentation o = false ->
  soEst o < len payload < 2^32 -> writeMessageAsyncPlan o chainID t payload = PlanRefuse ErrPayloadTooBig.
Proof.
  intros o chainID t payload Ht Hf Hl. unfold writeMessageAsyncPlan, u32. rewrite N.mod_small by lia.
  replace (soEst o <? len payload) with true by (symmetry; apply N.ltb_lt; lia). rewrite Ht, Hf. reflexivity.
Qed.
Print Assumptions C43_sync_refused_partial.

(** False from 4 GiB on: the length is truncated to 32 bits three times, and a
    message of exactly 4 GiB is "sent" as a packet of 53 bytes, with success. *)
Theorem C43_huge_accepted_refuted : forall stream blake3 poly1305 p o chainID t payload,
  primitives_ok stream poly1305 -> peer_ok p -> nth secretIDRecentBoth (pKeys p) None <> None ->
  isInternal t = false -> soEst o + 53 < 2^32 -> soDelay o = false -> len payload = 2^32 ->
  exists us raw, writeMessageAsyncPlan o chainID t payload = PlanUnits us /\
    snd (sendUnits stream blake3 poly1305 (soEst o) p us) = [Ret (Ok raw)] /\ len raw = 53.
Proof.
  intros stream blake3 poly1305 p o chainID t payload Hprim Hp Hk Ht He Hd Hl.
  assert (Hx : (t =? messageTypeKeyExchange) = false).
  { unfold isInternal in Ht. apply orb_false_iff in Ht. tauto. }
  exists [singleUnit t (singleFlags t) payload].
  assert (Eu : exists p1 raw, sendUnit stream blake3 poly1305 (soEst o) p (singleUnit t (singleFlags t) payload) = (p1, Ret (Ok raw)) /\ len raw = 53).
  { unfold sendUnit. cbn [singleUnit uInternal uMsgs uConfidential]. rewrite Ht, encodeMsg_len, Hl.
    cbn [negb andb]. rewrite packetSizeOf_small by auto.
    change (add32 messagesContainerHeadersSize (u32 (9 + 2^32))) with 53.
    replace (soEst o + 53 <? 53) with false by (symmetry; apply N.ltb_ge; lia).
    rewrite isConf_single, Hx. cbn [negb]. unfold sendPacket, takePacketID. cbn zeta.
    exists {| pAux := pAux p; pKeys := pKeys p; pRemoteID := pRemoteID p; pOwnID := pOwnID p; pNext := add64 (pNext p) 1 |}.
    destruct (nth secretIDRecentBoth (pKeys p) None) as [key|] eqn:Ek; [|congruence].
    set (msgs := encodeMsg t (singleFlags t) payload).
    assert (Lm : len msgs = 9 + 2^32) by (unfold msgs; rewrite encodeMsg_len, Hl; reflexivity).
    unfold sealPacket. cbn [pKeys pAux pOwnID]. rewrite Ek.
    unfold contWrite. change (len (repeat 0 44) <? messagesContainerHeadersSize) with false. cbn match.
    match goal with |- context [cPacketID ?c ++ _] => set (h := c) end.
    set (hb := cPacketID h ++ cHdrSum h ++ cMsgSum h ++ le_enc 4 (cLength h) ++ skipn 44 (repeat 0 44)).
    assert (Lh : length hb = 44%nat).
    { unfold hb, h, contSet, headersChecksum, messagesChecksum. cbn [cPacketID cHdrSum cMsgSum cLength].
      destruct Hprim as [_ P]. rewrite !app_length, !P, le_enc_length. unfold packetIDBytes. rewrite le_enc_length. reflexivity. }
    assert (Lpl : len (hb ++ msgs) = 53 + 2^32) by (rewrite len_app, Lm; unfold len; rewrite Lh; lia).
    rewrite Lpl. change (roundSize (u32 (53 + 2^32)) cipherBlockSize) with 53.
    rewrite gslice_some by (rewrite ?Lpl; lia). change (N.to_nat (53 - 0)) with 53%nat. cbn [skipn N.to_nat].
    set (pl := firstn 53 (hb ++ msgs)).
    assert (Lp : length pl = 53%nat).
    { unfold pl. rewrite firstn_length. unfold len in Lpl. lia. }
    rewrite gslice_some by (unfold len; rewrite Lp; lia).
    set (rest := firstn _ (skipn (N.to_nat 8) pl)).
    assert (Lr : length rest = 45%nat).
    { unfold rest. rewrite firstn_length, skipn_length. unfold len. rewrite Lp. reflexivity. }
    destruct Hp as (Ha & Hks & Ho & _).
    rewrite crypt_usable.
    2:{ split; [|right; rewrite app_length, Ho; unfold packetIDBytes; rewrite le_enc_length; reflexivity].
        unfold secretIDRecentBoth in Ek. destruct (pKeys p) as [|x l]; [discriminate|]. cbn in Ek. subst x. inversion Hks; auto. }
    destruct (pAux p) as [a|].
    - rewrite crypt_usable by (split; [exact Ha|right; reflexivity]).
      eexists. split; [reflexivity|]. rewrite len_app. unfold len. rewrite !xorStream_length, Lr.
      unfold packetIDBytes. rewrite le_enc_length. reflexivity.
    - eexists. split; [reflexivity|]. rewrite len_app. unfold len. rewrite xorStream_length, Lr.
      unfold packetIDBytes. rewrite le_enc_length. reflexivity. }
  destruct Eu as (p1 & raw & Eu & Lr). exists raw. split.
  - unfold writeMessageAsyncPlan. rewrite Hl. change (u32 (2^32)) with 0.
    replace (soEst o <? 0) with false by (symmetry; apply N.ltb_ge; lia). rewrite Hd. cbn [andb negb]. rewrite orb_true_r. reflexivity.
  - split; [|exact Lr]. cbn [sendUnits]. rewrite Eu. reflexivity.
Qed.
Print Assumptions C43_huge_accepted_refuted.

(** ** C82: a message bigger than a packet, from [WriteMessage] to the handler:
    split, sealed, sent, opened, not a duplicate, parsed, reassembled,
    dispatched, exactly once. Any earlier traffic in the receiver's window, any
    session keys at the receiver as long as no 128-bit tag fits by accident. *)
Fixpoint processAll (s : rcv) (contents : list bytes) : outcome rcv :=
  match contents with
  | [] => Ret s
  | c :: r => match processIncomingMessages s (len c) c with LoopEnd s' => processAll s' r | _ => Panic end
  end.

(** Nothing fits by accident: no session key of [b] opens the i-th packet,
    whose ID is [first + i]. *)
Fixpoint noAccident (stream : bytes -> bytes -> nat -> N) (blake3 : bytes -> bytes) (poly1305 : bytes -> bytes -> bytes)
  (b : peer) (first : N) (raws : list bytes) : Prop :=
  match raws with
  | [] => True
  | raw :: r =>
      Forall (fun k => k = None \/ ~ firstTagFits stream blake3 poly1305 k (remoteIV b (packetIDBytes first))
                                       (packetIDBytes first) (skipn 8 raw)) (pKeys b) /\
      noAccident stream blake3 poly1305 b (first + 1) r
  end.

Lemma offer_snoc : forall ids st st' vs id st'' v, offer st ids = Ret (st', vs) ->
  checkAndRemember st' id = Ret (st'', v) -> offer st (ids ++ [id]) = Ret (st'', vs ++ [v]).
Proof.
  induction ids as [|i ids IH]; intros st st' vs id st'' v H1 H2; cbn [offer app] in *.
  - injection H1 as <- <-. rewrite H2. reflexivity.
  - destruct (checkAndRemember st i) as [[s1 b]|]; [|discriminate].
    destruct (offer s1 ids) as [[s2 bs]|] eqn:E; [|discriminate]. injection H1 as <- <-.
    rewrite (IH _ _ _ _ _ _ E H2). reflexivity.
Qed.

Lemma accepted_le : forall ids vs m, Forall (fun i => i <= m) ids -> maxl (PacketIDSpec.accepted ids vs) <= m.
Proof.
  induction ids as [|i ids IH]; intros vs m H; destruct vs as [|[] vs]; cbn [PacketIDSpec.accepted maxl]; try lia; inversion H; subst.
  - specialize (IH vs m H3). lia.
  - apply IH. auto.
Qed.

Lemma receive_units : forall stream blake3 poly1305 est n, primitives_ok stream poly1305 -> est + 53 < 2^32 ->
  forall us a a' raws b ids win vs, peer_ok a -> peer_ok b -> pAux b = pAux a ->
  Forall (fun u => uConfidential u = false /\ len (uMsgs u) <= est + 9) us ->
  pNext a + len us < 2^64 ->
  sendUnits stream blake3 poly1305 est a us = (a', map (fun r => Ret (Ok r)) raws) -> Forall bytes_ok raws ->
  noAccident stream blake3 poly1305 b (pNext a + 1) raws ->
  offer (sessionStorage (Size n)) ids = Ret (win, vs) -> Forall (fun i => i <= pNext a) ids ->
  exists b' win', receivePackets stream blake3 poly1305 b win raws =
    Ret (b', win', map (fun u => PktAccepted (len (uMsgs u)) (uMsgs u)) us).
Proof.
  intros stream blake3 poly1305 est n Hprim He.
  induction us as [|u us IH]; intros a a' raws b ids win vs Ha Hb Hx HF Hn S Hok HA Ho Hid; cbn [sendUnits] in S.
  - destruct raws; [|discriminate]. cbn. eexists _, _. reflexivity.
  - inversion HF as [|x l [Hc Hu] HF' E]; subst. rewrite len_cons in Hn.
    assert (En : add64 (pNext a) 1 = pNext a + 1) by (apply N.mod_small; lia).
    assert (Es : exists raw, sendUnit stream blake3 poly1305 est a u = (fst (takePacketID a), Ret (Ok raw)) /\
                 sealPacket stream blake3 poly1305 (fst (takePacketID a)) false (packetIDBytes (pNext a + 1)) (uMsgs u) = Ret (Ok raw)).
    { destruct (sendUnit_ok stream blake3 poly1305 Hprim est a u Ha He Hu) as (body & E & _).
      { intros H. rewrite Hc in H. discriminate. }
      exists (idOnWire stream (pAux a) (ownNext a) ++ body). split.
      - apply injective_projections; [apply fst_sendUnit|exact E].
      - refine (eq_trans _ E). unfold sendUnit.
        replace (packetSizeOf est <? add32 messagesContainerHeadersSize (u32 (len (uMsgs u)))) with false.
        + rewrite andb_false_r, Hc. unfold sendPacket, takePacketID. cbn zeta. cbn [snd fst]. rewrite En. reflexivity.
        + symmetry. apply N.ltb_ge. rewrite packetSizeOf_small by auto. unfold add32, u32, messagesContainerHeadersSize.
          rewrite (N.mod_small (len (uMsgs u))) by lia. rewrite N.mod_small by lia. lia. }
    destruct Es as (raw & Es & Eseal). rewrite Es in S.
    set (a1 := fst (takePacketID a)) in *.
    destruct (sendUnits stream blake3 poly1305 est a1 us) as [a2 os] eqn:Er.
    destruct raws as [|raw' raws]; [discriminate|]. cbn [map] in S. injection S as S1 S2 S3. subst raw' a2 os.
    cbn [noAccident] in HA. destruct HA as [HA1 HA2]. inversion Hok as [|y l Hok1 Hok2 E]; subst.
    assert (En1 : pNext a1 = pNext a + 1) by (unfold a1; cbn [takePacketID fst pNext]; exact En).
    assert (D : decryptPacket stream blake3 poly1305 b raw = Ret (Ok (packetIDBytes (pNext a + 1), len (uMsgs u), uMsgs u))).
    { apply (C13_open_unconfidential stream blake3 poly1305 a1 b); try assumption; [apply le_enc_length|lia]. }
    assert (V : packetIDValue (packetIDBytes (pNext a + 1)) = pNext a + 1)
      by (apply le_dec_enc; change (2 ^ (8 * N.of_nat 8)) with (2^64); lia).
    assert (H64 : ids64 ids).
    { unfold ids64. eapply Forall_impl; [|exact Hid]. cbn. intros. lia. }
    destruct (PacketIDProps.C10_newer_accepted n ids (pNext a + 1) win vs H64 ltac:(lia) Ho) as [win1 Hw].
    { pose proof (accepted_le ids vs (pNext a) Hid). lia. }
    cbn [receivePackets]. unfold receivePacket. destruct raw as [|x0 raw0].
    { cbn in D. discriminate. }
    rewrite D, V, Hw.
    match goal with |- context [receivePackets _ _ _ ?b1 _ _] => set (b1' := b1) end.
    assert (B : pAux b1' = pAux b /\ pKeys b1' = pKeys b /\ pRemoteID b1' = pRemoteID b /\ pOwnID b1' = pOwnID b).
    { unfold b1'. destruct (_ <? _); cbn [takePacketID fst pAux pKeys pRemoteID pOwnID]; auto. }
    destruct B as (B1 & B2 & B3 & B4).
    destruct (IH a1 a' raws b1' (ids ++ [pNext a + 1]) win1 (vs ++ [true])) as (b2 & win2 & R).
    + exact Ha.
    + unfold peer_ok in *. rewrite B1, B2, B3, B4. exact Hb.
    + rewrite B1. exact Hx.
    + exact HF'.
    + rewrite En1. lia.
    + exact Er.
    + exact Hok2.
    + rewrite En1. clear - HA2 B2 B3. revert HA2. generalize (pNext a + 1 + 1). induction raws as [|r rs IHr]; intros k H; cbn [noAccident] in *; [exact I|].
      destruct H as [H1 H2]. split; [|apply IHr; exact H2]. rewrite B2. unfold remoteIV. rewrite B3. exact H1.
    + exact (offer_snoc _ _ _ _ _ _ _ Ho Hw).
    + apply Forall_app. split.
      * eapply Forall_impl; [|exact Hid]. cbn. intros. lia.
      * constructor; [lia|constructor].
    + rewrite R. eexists _, _. reflexivity.
Qed.

Theorem C82_big_message_end_to_end : forall stream blake3 poly1305 a b o chainID t payload us a' raws n ids win vs s,
  primitives_ok stream poly1305 -> peer_ok a -> peer_ok b -> pAux b = pAux a ->
  soFragmentation o = true -> isInternal t = false -> t < 2^32 -> 24 < soEst o -> soEst o + 53 < 2^32 ->
  soEst o < len payload <= maxFragmentedMessageSize s -> len payload < 2^32 ->
  writeMessageAsyncPlan o chainID t payload = PlanUnits us -> pNext a + len us < 2^64 ->
  sendUnits stream blake3 poly1305 (soEst o) a us = (a', map (fun r => Ret (Ok r)) raws) -> Forall bytes_ok raws ->
  noAccident stream blake3 poly1305 b (pNext a + 1) raws ->
  offer (sessionStorage (Size n)) ids = Ret (win, vs) -> Forall (fun i => i <= pNext a) ids ->
  handlersReady s -> detachOnMessagesCount s = 0 -> 0 < maxChainIDDiff s ->
  length (pendingChains s) = N.to_nat (maxChainIDDiff s) -> Forall PendingChainProofs.bufok (pendingChains s) ->
  (forall c, In c (pendingChains s) -> len (PendingChainModel.cdata c) <= len payload) ->
  lastRemoteChainID s < chainID < 2^64 ->
  exists b' win' contents s', receivePackets stream blake3 poly1305 b win raws =
      Ret (b', win', map (fun c => PktAccepted (len c) c) contents) /\
    processAll s contents = Ret s' /\
    rev (out s') = rev (out s) ++
      map toEvent (route (map fst (messengers s)) (readChans s) {| wType := t; wFlags := 0; wPayload := payload |}).
Proof.
  intros stream blake3 poly1305 a b o chainID t payload us a' raws n ids win vs s
    Hprim Ha Hb Hx Hf Ht Ht2 He He2 Hl Hl2 E Hn S Hok HA Ho Hid Hr Hd Hdf Hlen Hbuf Hsmall Hc.
  rewrite big_plan in E by (auto; lia). injection E as <-.
  destruct (sentPieces_facts (soEst o) payload ltac:(lia)) as (F1 & F2 & F3 & F4).
  destruct (receive_units stream blake3 poly1305 (soEst o) n Hprim He2
    (map (fragmentUnit t chainID (len payload)) (tiles 0 (sentPieces (soEst o) payload)))
    a a' raws b ids win vs Ha Hb Hx) as (b' & win' & R).
  - rewrite Forall_forall in *. intros u Hu. apply in_map_iff in Hu. destruct Hu as (f & <- & Hin). split; [reflexivity|].
    rewrite fragmentUnit_len. unfold bytes in *.
    assert (24 + len (snd f) <= soEst o); [|lia]. apply F3. rewrite <- (tiles_snd (sentPieces (soEst o) payload) 0).
    apply in_map. exact Hin.
  - exact Hn.
  - exact S.
  - exact Hok.
  - exact HA.
  - exact Ho.
  - exact Hid.
  - destruct (C20_session (soEst o) s t chainID payload) as (pieces & s' & outs & P1 & P2 & P3 & P4); auto; try lia.
    rewrite splitMessage_spec in P1 by lia. injection P1 as P1.
    assert (Ep : tiles 0 pieces = tiles 0 (sentPieces (soEst o) payload)) by (symmetry; exact P1). rewrite Ep in P2.
    exists b', win', (map uMsgs (map (fragmentUnit t chainID (len payload)) (tiles 0 (sentPieces (soEst o) payload)))), s'.
    split; [rewrite R; rewrite !map_map; reflexivity|]. split; [|exact P4].
    rewrite map_map.
    assert (Hfs : Forall (fun f : N * bytes => fst f < 2^64 /\ 24 + len (snd f) <= soEst o) (tiles 0 (sentPieces (soEst o) payload))).
    { apply Forall_forall. intros [q c] Hin. pose proof Hin as Hin2. apply tiles_fragOf in Hin. destruct Hin as [Hin _].
      cbn [fst snd] in *. rewrite F1 in Hin. split; [unfold len, bytes in *; lia|]. rewrite Forall_forall in F3. apply F3.
      rewrite <- (tiles_snd (sentPieces (soEst o) payload) 0). apply (in_map snd) in Hin2. exact Hin2. }
    clear - P2 Hfs Ht2 He2 Hl2. generalize dependent outs. revert Hfs. revert s s'.
    generalize (tiles 0 (sentPieces (soEst o) payload)) as fs.
    induction fs as [|f fs IH]; intros s s' HF outs P2; cbn [map fragRun processAll] in *.
    + injection P2 as <- _. reflexivity.
    + inversion HF as [|x l [Hf1 Hf2] HF' Ex]; subst.
      change (encodeMsg t 2 (wPayload (fragWire 2 t chainID (len payload) f)))
        with (encodeMsg (wType (fragWire 2 t chainID (len payload) f)) (wFlags (fragWire 2 t chainID (len payload) f))
                (wPayload (fragWire 2 t chainID (len payload) f))).
      cbn [fragmentUnit uMsgs].
      change (encodeMsg t 2 (wPayload (fragWire 2 t chainID (len payload) f)))
        with (encodeMsg (wType (fragWire 2 t chainID (len payload) f)) (wFlags (fragWire 2 t chainID (len payload) f))
                (wPayload (fragWire 2 t chainID (len payload) f))).
      rewrite encodeMsg_wire.
      2:{ split; [exact Ht2|]. split; [reflexivity|]. pose proof (fragWire_payload_len 2 t chainID (len payload) f). unfold len, bytes in *. lia. }
      unfold arrMsg in P2 at 1. cbn [aId aFlags aFrag] in P2.
      destruct (processIncomingMessages s _ _) as [s1| |]; try discriminate.
      match type of P2 with match ?x with _ => _ end = _ => destruct x as [[s2 o2]|] eqn:Ef; [|discriminate] end.
      injection P2 as -> _. eapply IH; eauto.
Qed.
Print Assumptions C82_big_message_end_to_end.

Example C82_example :
  let o := {| soEst := 64; soFragmentation := true; soDelay := true |} in
  match writeMessageAsyncPlan o 1 7 (countUp 100 7) with
  | PlanUnits us =>
      let raws := map rawOf (snd (sendUnits toyStream toyHash toyPoly 64 (exA true) us)) in
      match receivePackets toyStream toyHash toyPoly (exB true) (sessionStorage (Size 0)) raws with
      | Ret (_, _, pks) =>
          map (fun p => match p with PktAccepted l _ => l | _ => 0 end) pks = [73; 73; 53] /\
          match processAll exS (map (fun p => match p with PktAccepted _ c => c | _ => [] end) pks) with
          | Ret s => rev (out s) = [EvHandler 7 (countUp 100 7)]
          | Panic => False
          end
      | Panic => False
      end
  | _ => False
  end.
Proof. vm_compute. auto. Qed.
