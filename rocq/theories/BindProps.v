(** C125, C126: which session a packet belongs to (models KxModel, PacketModel). *)
From Coq Require Import NArith List Bool Arith Lia.
From Verif Require Import Base BaseLemmas TS MessageModel CodecProofs PacketIDModel PacketIDSpec PacketIDProofs PacketIDRun PacketIDProps
  ReaderModel ReaderLoopModel PacketModel PacketSpec PacketProofs PacketProps KxModel KxSpec KxProofs KxProps.
Import ListNotations.
Local Open Scope N_scope.

(** The part of the session that opens packets, in a state of its exchanger. *)
Definition receiver (aux : option bytes) (own : sessID) (next : N) (k : kx) : peer :=
  {| pAux := aux; pKeys := kKeys k; pRemoteID := option_map sessBytes (kRemoteSession k); pOwnID := sessBytes own; pNext := next |}.

(** ** C125.  Full statement: after a genuine exchange message of the expected peer
    was handled without error, packets that the session which made the message
    seals under the new key are opened.
    False: the session ID of the first message ever handled stays, that of
    later messages is ignored, while their keys are used. The message may be
    one on record, or the peer may have started a new session. *)
Lemma update_session : forall dh blake3 sha3 c k k',
  updateSecrets dh blake3 sha3 c k = Ret k' -> kRemoteSession k' = kRemoteSession k.
Proof.
  intros dh blake3 sha3 c k k' E. unfold updateSecrets in E.
  destruct (generateAll _ _ _ _ _) as [[|[[|x y]|] r]|]; try discriminate; try (injection E as <-; reflexivity).
  destruct (cipherKeysOf _); [|discriminate]. injection E as <-. reflexivity.
Qed.

Lemma handle_session : forall verify dh blake3 sha3 c s b s' h i, kRemoteSession s = Some i ->
  handleKx verify dh blake3 sha3 c s b = Ret (s', h) -> kRemoteSession s' = Some i.
Proof.
  intros verify dh blake3 sha3 c s b s' h i K E. unfold handleKx, parseAndCheck in E.
  destruct (len b <? kxSignedSize); [injection E as <- _; exact K|].
  destruct (negb (match kRemoteIdentity s with Some id => _ | None => true end)); [injection E as <- _; exact K|].
  destruct (kxDecode _) as [m|]; [|injection E as <- _; exact K].
  destruct (negb (kMode m =? cMode c)); [injection E as <- _; exact K|].
  destruct (bytes_eqb (kPub m) zeroKey); [injection E as <- _; exact K|].
  destruct (kCtxDone s); [injection E as <- _; exact K|].
  assert (G : forall x, kRemoteSession x = Some i ->
    match updateSecrets dh blake3 sha3 c (setNextRemotePublicKey (match kRemoteSession x with Some _ => x | None => setRemote x (kRemoteIdentity x) (Some (kSess m)) end) (kPub m)) with
    | Panic => Panic
    | Ret s => Ret (if kxIsAnswer (kFlags m) || negb (cMode c =? AnswersModeAnswerAndWait) then sendSuccessNotifications s else s,
                    HDone (negb (kxIsAnswer (kFlags m)) && negb (cMode c =? AnswersModeDisable)))
    end = Ret (s', h) -> kRemoteSession s' = Some i).
  { intros x Kx F. rewrite Kx in F.
    destruct (updateSecrets _ _ _ _ _) as [k|] eqn:U; [|discriminate]. apply update_session in U.
    assert (kRemoteSession k = Some i).
    { rewrite U. unfold setNextRemotePublicKey. destruct (match kNextRemote x with Some _ => _ | None => _ end); exact Kx. }
    injection F as <- _. destruct (_ || _); exact H. }
  destruct (kRemoteIdentity s) eqn:I; [exact (G s K E)|].
  unfold setRemoteIdentityFromPublicKey in E. destruct (verify _ _ _); [|injection E as <- _; exact K].
  exact (G (setRemote s (Some (kIdentity m)) (kRemoteSession s)) K E).
Qed.

(** In every run of the exchanger the session ID of the peer never changes again. *)
Lemma pinned_step : forall verify dh blake3 sha3 c x l x' i, kRemoteSession (xKx x) = Some i ->
  kstep verify dh blake3 sha3 c x l = Some x' -> kRemoteSession (xKx x') = Some i.
Proof.
  intros verify dh blake3 sha3 c x l x' i K E. unfold kstep in E. destruct (xPanic x); [discriminate|].
  assert (In : forall p pub now k, installLocalKey dh blake3 sha3 c (xKx x) p pub now = Ret k -> kRemoteSession k = Some i).
  { intros p pub now k J. unfold installLocalKey in J. apply update_session in J. rewrite J. exact K. }
  assert (Sm : forall y a, kRemoteSession (xKx y) = Some i -> kRemoteSession (xKx (sendMsg c y a)) = Some i).
  { intros y a Y. unfold sendMsg. destruct (publicKeyMessage _ _ _); exact Y. }
  destruct l.
  - destruct (locked x); [discriminate|]. destruct (handleKx _ _ _ _ _ _ _) as [[k h]|] eqn:H; [|injection E as <-; exact K].
    pose proof (handle_session _ _ _ _ _ _ _ _ _ _ K H) as G. injection E as <-. destruct h as [| |[]]; exact G.
  - destruct (xLoop x); try discriminate. destruct (kCtxDone (xKx x)); [discriminate|]. destruct (_ <? _); injection E as <-; exact K.
  - destruct (xLoop x); try discriminate. destruct (inProgress _); injection E as <-; exact K.
  - destruct (xLoop x); try discriminate. destruct (installLocalKey _ _ _ _ _ _ _ _) as [k|] eqn:J; injection E as <-; [|exact K].
    exact (In _ _ _ _ J).
  - destruct (xLoop x); try discriminate. injection E as <-. exact (Sm x false K).
  - destruct (xLoop x); try discriminate. destruct (kNotify (xKx x)); injection E as <-; [destruct (_ <=? _); [exact K|]|]; apply Sm; exact K.
  - destruct (xLoop x); try discriminate. destruct (kNotify (xKx x)); try discriminate. injection E as <-. destruct (_ <=? _); exact K.
  - destruct (xLoop x); try discriminate. injection E as <-. destruct (kNotify (xKx x)); [destruct (_ <=? _)|]; exact K.
  - destruct (nth_error (xAnswers x) i0) as [[]|]; try discriminate; injection E as <-; try exact K. exact (Sm x true K).
  - destruct (nth_error (xAnswers x) i0) as [[]|]; try discriminate.
    destruct (installLocalKey _ _ _ _ _ _ _ _) as [k|] eqn:J; injection E as <-; [|exact K]. exact (In _ _ _ _ J).
  - injection E as <-. exact K.
Qed.

Theorem C125_pinned : forall verify dh blake3 sha3 c ls x x' i, kRemoteSession (xKx x) = Some i ->
  exec (kstep verify dh blake3 sha3 c) x ls = Some x' -> kRemoteSession (xKx x') = Some i.
Proof.
  intros verify dh blake3 sha3 c. induction ls as [|l ls IH]; intros x x' i K E; cbn [exec] in E; [injection E as <-; exact K|].
  destruct (kstep verify dh blake3 sha3 c x l) as [y|] eqn:Y; [|discriminate].
  exact (IH y x' i (pinned_step _ _ _ _ _ _ _ _ _ K Y) E).
Qed.
Print Assumptions C125_pinned.

(** What comes of it, for all primitives: the message is accepted, its key becomes
    the newest key, and what its maker seals under that key is not opened, unless
    a tag made for another nonce fits by accident. *)
Theorem C125_unreadable_refuted : forall verify dh blake3 sha3 stream b3 poly c s i m b l aux own next sender pid msgs raw,
  (forall x y, length (dh x y) = 32%nat) -> (forall x, length (sha3 x) = 32%nat) -> (forall x y, dh x y <> repeat 0 32) ->
  primitives_ok stream poly ->
  kRemoteIdentity s = Some (kIdentity m) -> kRemoteSession s = Some i -> kCtxDone s = false -> kNextLocal s = Some l -> cPSK c = None ->
  kxMsg_ok m -> kMode m = cMode c -> kPub m <> repeat 0 32 -> genuine verify (kIdentity m) m b ->
  kSess m <> i ->
  exists s' h, handleKx verify dh blake3 sha3 c s b = Ret (s', HDone h) /\ nth 0 (kKeys s') None = Some (dh l (kPub m)) /\
    let v := receiver aux own next s' in
    (peer_ok v -> peer_ok sender -> pAux sender = aux -> pOwnID sender = sessBytes (kSess m) ->
     nth 0 (pKeys sender) None = Some (dh l (kPub m)) -> length pid = 8%nat -> len msgs + 44 < 2^32 ->
     sealPacket stream b3 poly sender true pid msgs = Ret (Ok raw) -> bytes_ok raw ->
     Forall (fun k => k = None \/ ~ firstTagFits stream b3 poly k (sessBytes i ++ pid) pid (skipn 8 raw)) (kKeys s') ->
     ~ firstTagFits stream b3 poly aux pid pid (skipn 8 raw) ->
     decryptPacket stream b3 poly v raw = Ret (Err ErrCannotDecrypt)).
Proof.
  intros verify dh blake3 sha3 stream b3 poly c s i m b l aux own next sender pid msgs raw
    Hl Hs Hz Hp Hi Hr Hc Hn Hpsk Hm Hmode Hpz Hg Hne.
  destruct (C51_replay_accepted_refuted verify dh blake3 sha3 c s m b Hl Hs Hz Hi Hc Hm Hmode Hpz Hg) as (s' & h & E & _ & _ & K).
  exists s', h. split; [exact E|]. split; [exact (K l Hn Hpsk)|]. cbv zeta.
  intros Hv Hsd Hx Ho Hks Lp Hlen S Hraw HF HA.
  pose proof (handle_session _ _ _ _ _ _ _ _ _ _ Hr E) as R.
  destruct (seal_spec stream b3 poly Hp sender true pid msgs Hsd Lp Hlen) as (body & E1 & T & _).
  { intros _. unfold sealKey, secretIDRecentBoth. rewrite Hks. discriminate. }
  rewrite E1 in S. injection S as <-. rewrite Hx in *.
  rewrite skipn_app_l in HF, HA by (rewrite idOnWire_length; auto).
  apply Forall_app in Hraw. destruct Hraw as [_ Hbody].
  pose proof (sealed_length stream b3 poly Hp _ _ _ _ _ _ T) as LB.
  apply (C18_wrong_keys_never_open stream b3 poly (receiver aux own next s') pid body Hp Hv Lp Hbody ltac:(lia)).
  - unfold remoteIV, receiver. cbn [pRemoteID pKeys]. rewrite R. exact HF.
  - exact HA.
Qed.
Print Assumptions C125_unreadable_refuted.

(** Identity 2 made session 7 with key 11 and later session 8 with key 12; both
    messages are handled. What session 8 seals under the newest key is not
    opened, what session 7 would seal under it is. *)
Example C125_example :
  match exec (kstep toyVerify toyDh KxProps.toyHash KxProps.toyHash (toyConf None 1)) (kxsInit (Some (key32 2)))
    [KLoopGo 100; KLoopCheck; KLoopGen (key32 4) (toyPub (key32 4)) 200; KLoopSend;
     KHandle (toyWire 2 (toyMsg 2 7 11 1 true)); KLoopNotified; KHandle (toyWire 2 (toyMsg 2 8 12 1 true))] with
  | Some x =>
      let k := xKx x in
      let new := toyDh (key32 12) (toyPub (key32 4)) in
      let sender i := {| pAux := None; pKeys := [Some new]; pRemoteID := None; pOwnID := sessBytes {| sCreatedAt := i; sRandom := 1 |}; pNext := 0 |} in
      let sealedBy i := rawOf (sealPacket toyStream PacketProps.toyHash toyPoly (sender i) true (packetIDBytes 9) [1;2;3]) in
      nth 0 (kKeys k) None = Some new /\ kErrs k = [] /\ kDone k = 2 /\
      decryptPacket toyStream PacketProps.toyHash toyPoly (receiver None (cSession (toyConf None 1)) 5 k) (sealedBy 8) = Ret (Err ErrCannotDecrypt) /\
      decryptPacket toyStream PacketProps.toyHash toyPoly (receiver None (cSession (toyConf None 1)) 5 k) (sealedBy 7) = Ret (Ok (packetIDBytes 9, 3, [1;2;3]))
  | None => False
  end.
Proof. vm_compute. repeat split. Qed.

(** It holds for the first message, and for later ones of the same session of the
    peer. *)
Theorem C125_readable_partial : forall verify dh blake3 sha3 stream b3 poly c s m b l aux own next sender pid msgs raw,
  (forall x y, length (dh x y) = 32%nat) -> (forall x, length (sha3 x) = 32%nat) -> (forall x y, dh x y <> repeat 0 32) ->
  primitives_ok stream poly ->
  kRemoteIdentity s = Some (kIdentity m) -> (kRemoteSession s = None \/ kRemoteSession s = Some (kSess m)) ->
  kCtxDone s = false -> kNextLocal s = Some l -> cPSK c = None ->
  kxMsg_ok m -> kMode m = cMode c -> kPub m <> repeat 0 32 -> genuine verify (kIdentity m) m b ->
  exists s' h, handleKx verify dh blake3 sha3 c s b = Ret (s', HDone h) /\
    let v := receiver aux own next s' in
    (peer_ok v -> peer_ok sender -> pAux sender = aux -> pOwnID sender = sessBytes (kSess m) ->
     nth 0 (pKeys sender) None = Some (dh l (kPub m)) -> length pid = 8%nat -> len msgs + 44 < 2^32 ->
     sealPacket stream b3 poly sender true pid msgs = Ret (Ok raw) -> bytes_ok raw ->
     decryptPacket stream b3 poly v raw = Ret (Ok (pid, len msgs, msgs))).
Proof.
  intros verify dh blake3 sha3 stream b3 poly c s m b l aux own next sender pid msgs raw
    Hl Hs Hz Hp Hi Hr Hc Hn Hpsk Hm Hmode Hpz Hg.
  destruct (C51_replay_accepted_refuted verify dh blake3 sha3 c s m b Hl Hs Hz Hi Hc Hm Hmode Hpz Hg) as (s' & h & E & _ & R0 & K).
  exists s', h. split; [exact E|]. cbv zeta. intros Hv Hsd Hx Ho Hks Lp Hlen S Hraw.
  assert (R : kRemoteSession s' = Some (kSess m)).
  { destruct Hr as [Hr|Hr]; [exact (R0 Hr)|exact (handle_session _ _ _ _ _ _ _ _ _ _ Hr E)]. }
  pose proof (K l Hn Hpsk) as Hkey.
  destruct (kKeys s') as [|k0 post] eqn:Ek; [discriminate Hkey|]. cbn [nth] in Hkey. subst k0.
  refine (C13_open_confidential stream b3 poly sender (receiver aux own next s') pid msgs (dh l (kPub m)) [] post raw Hp Hsd Hv Lp Hlen _ _ Hks _ S Hraw _).
  - symmetry. exact Hx.
  - unfold receiver. cbn [pRemoteID]. rewrite R, Ho. reflexivity.
  - unfold receiver. cbn [pKeys app]. exact Ek.
  - constructor.
Qed.
Print Assumptions C125_readable_partial.

(** ** C126.  Full statement: a packet that the peer has not sealed for this session
    (but this session itself, or another session) is not accepted, whether or not a
    pre-shared key is used.
    False of packets sealed without a session key: nothing in them names the
    session. The session's own packet, sent back to it, is accepted, and
    packets of the peer that are older than the window are dropped from then on. *)
Theorem C126_reflected_refuted : forall stream blake3 poly1305 n victim victim' msgs raw ids st vs,
  primitives_ok stream poly1305 -> peer_ok victim -> len msgs + 44 < 2^32 -> pNext victim + 1 < 2^64 ->
  sendPacket stream blake3 poly1305 victim false msgs = (victim', Ret (Ok raw)) -> bytes_ok raw ->
  Forall (fun k => k = None \/ ~ firstTagFits stream blake3 poly1305 k (remoteIV victim' (packetIDBytes (pNext victim + 1)))
                                 (packetIDBytes (pNext victim + 1)) (skipn 8 raw)) (pKeys victim') ->
  ids64 ids -> offer (sessionStorage (Size n)) ids = Ret (st, vs) -> maxl (PacketIDSpec.accepted ids vs) < pNext victim + 1 ->
  exists v st', receivePacket stream blake3 poly1305 victim' st raw = Ret (v, st', PktAccepted (len msgs) msgs) /\
    forall id, id < pNext victim + 1 -> window n <= pNext victim + 1 - id -> checkAndRemember st' id = Ret (st', false).
Proof.
  intros stream blake3 poly1305 n victim victim' msgs raw ids st vs Hprim Hv Hl Hnx S Hraw HF Hids Hoff Hmax.
  set (i := pNext victim + 1) in *.
  unfold sendPacket, takePacketID in S. replace (add64 (pNext victim) 1) with i in S by (unfold add64, u64; rewrite N.mod_small by exact Hnx; reflexivity).
  injection S as <- S. set (v := {| pAux := pAux victim; pKeys := pKeys victim; pRemoteID := pRemoteID victim; pOwnID := pOwnID victim; pNext := i |}) in *.
  assert (Ok' : peer_ok v) by exact Hv.
  assert (D : decryptPacket stream blake3 poly1305 v raw = Ret (Ok (packetIDBytes i, len msgs, msgs))).
  { refine (C13_open_unconfidential stream blake3 poly1305 v v (packetIDBytes i) msgs raw Hprim Ok' Ok' _ Hl eq_refl S Hraw HF). apply le_enc_length. }
  destruct (C10_newer_accepted n ids i st vs Hids Hnx Hoff Hmax) as [st' W].
  assert (V : packetIDValue (packetIDBytes i) = i) by (apply le_dec_enc; change (2 ^ (8 * N.of_nat 8)) with (2^64); exact Hnx).
  eexists. exists st'. split.
  - unfold receivePacket. destruct raw as [|x raw].
    + unfold decryptPacket in D. cbn in D. discriminate.
    + rewrite D, V, W. reflexivity.
  - intros id H1 H2.
    assert (O' : exists vs', offer (sessionStorage (Size n)) (ids ++ [i]) = Ret (st', vs') /\
                 maxl (PacketIDSpec.accepted (ids ++ [i]) vs') = i).
    { clear - Hoff W Hmax. revert Hoff W. generalize (sessionStorage (Size n)) as s0. revert vs Hmax.
      induction ids as [|j ids IH]; intros vs Hmax s0 Hoff W.
      - cbn [offer] in Hoff. injection Hoff as <- <-. exists [true]. cbn [app offer]. rewrite W. split; [reflexivity|].
        cbn [PacketIDSpec.accepted maxl]. lia.
      - cbn [offer app] in *. destruct (checkAndRemember s0 j) as [[s1 b]|]; [|discriminate].
        destruct (offer s1 ids) as [[s2 bs]|] eqn:E; [|discriminate]. injection Hoff as <- <-.
        destruct (IH bs) with (s0 := s1) as (vs' & O & M); auto.
        { cbn [PacketIDSpec.accepted] in Hmax. destruct b; cbn [maxl] in Hmax; lia. }
        exists (b :: vs'). rewrite O. split; [reflexivity|]. cbn [PacketIDSpec.accepted]. destruct b; cbn [maxl]; [|exact M].
        rewrite M. cbn [PacketIDSpec.accepted] in Hmax. cbn [maxl] in Hmax. lia. }
    destruct O' as (vs' & O & M).
    eapply stale_rejected; [|exact O| |]; rewrite ?M; auto.
    apply Forall_app. split; [exact Hids|]. constructor; [exact Hnx|constructor].
Qed.
Print Assumptions C126_reflected_refuted.

(** With a pre-shared key the attacker does not know: packet 6 of B,
    sealed without session key, comes back to B; packets 2 and 3 of A are lost
    (grow-only mode). *)
Example C126_example :
  let b6 := {| pAux := pAux (exB true); pKeys := pKeys (exB true); pRemoteID := pRemoteID (exB true); pOwnID := pOwnID (exB true); pNext := 5 |} in
  let own := rawOf (snd (sendPacket toyStream PacketProps.toyHash toyPoly b6 false [7;7])) in
  let good i := rawOf (sealPacket toyStream PacketProps.toyHash toyPoly (exA true) true (packetIDBytes i) [5;5]) in
  match receivePackets toyStream PacketProps.toyHash toyPoly (exB true) (sessionStorage (Size 1)) [good 1; own; good 2; good 3],
        receivePackets toyStream PacketProps.toyHash toyPoly (exB true) (sessionStorage (Size 1)) [good 1; good 2; good 3] with
  | Ret (_, _, pks), Ret (_, _, pks') =>
      pks = [PktAccepted 2 [5;5]; PktAccepted 2 [7;7]; PktDuplicate; PktDuplicate] /\
      pks' = [PktAccepted 2 [5;5]; PktAccepted 2 [5;5]; PktAccepted 2 [5;5]]
  | _, _ => False
  end.
Proof. vm_compute. auto. Qed.

(** With a session key: if the packet is opened then it was sealed by the session
    whose ID the receiver has learnt, or a tag fits by accident under another key
    or nonce. *)
Theorem C126_bound_partial : forall stream blake3 poly1305 a v pid msgs key raw pid' l m,
  primitives_ok stream poly1305 -> peer_ok a -> peer_ok v -> length pid = 8%nat -> len msgs + 44 < 2^32 ->
  pAux v = pAux a -> nth 0 (pKeys a) None = Some key ->
  sealPacket stream blake3 poly1305 a true pid msgs = Ret (Ok raw) -> bytes_ok raw ->
  decryptPacket stream blake3 poly1305 v raw = Ret (Ok (pid', l, m)) ->
  pid' = pid /\
  ((pRemoteID v = Some (pOwnID a) /\ In (Some key) (pKeys v) /\ m = msgs) \/
   exists k iv, (k, iv) <> (Some key, pOwnID a ++ pid) /\ (In k (pKeys v) \/ k = pAux v) /\
     firstTagFits stream blake3 poly1305 k iv pid (skipn 8 raw)).
Proof.
  intros stream blake3 poly1305 a v pid msgs key raw pid' l m Hp Ha Hv Lp Hl Hx Hk S Hraw D.
  destruct (seal_spec stream blake3 poly1305 Hp a true pid msgs Ha Lp Hl) as (body & E & T & _).
  { intros _. unfold sealKey, secretIDRecentBoth. rewrite Hk. discriminate. }
  rewrite E in S. injection S as <-. unfold sealKey, sealIV, secretIDRecentBoth in T. rewrite Hk in T.
  destruct (decryptPacket_sound stream blake3 poly1305 Hp v _ pid' l m Hv Hraw D) as (_ & Hid & Q).
  rewrite Hx in Hid. rewrite firstn_app_l in Hid by (rewrite idOnWire_length; auto).
  assert (pid' = pid). { rewrite <- (idOnWire_invol stream (pAux a) pid'), Hid. apply idOnWire_invol. }
  subst pid'. split; [reflexivity|].
  rewrite skipn_app_l in * by (rewrite idOnWire_length; auto).
  destruct Q as [(k & I & Q)|[Q _]].
  - destruct (list_eq_dec N.eq_dec k key) as [->|Nk].
    + destruct (list_eq_dec N.eq_dec (remoteIV v pid) (pOwnID a ++ pid)) as [Ei|Ni].
      * left. assert (R : pRemoteID v = Some (pOwnID a)).
        { unfold remoteIV in Ei. destruct (pRemoteID v) as [r|].
          - f_equal. apply app_inv_tail in Ei. exact Ei.
          - exfalso. apply (f_equal (@length N)) in Ei. rewrite app_length in Ei. cbn [length] in Ei. lia. }
        split; [exact R|]. split; [exact I|]. rewrite Ei in Q. unfold sealed in Q, T. rewrite T in Q. unfold tags in Q.
        destruct Hp as [_ Lt]. apply (f_equal (skipn 36)) in Q. rewrite !app_assoc in Q.
        rewrite !skipn_app_l in Q by (rewrite !app_length, !Lt, le_enc_length; reflexivity). symmetry. exact Q.
      * right. exists (Some key), (remoteIV v pid). split; [congruence|]. split; [left; exact I|]. eapply sealed_fits; eauto.
    + right. exists (Some k), (remoteIV v pid). split; [congruence|]. split; [left; exact I|]. eapply sealed_fits; eauto.
  - right. exists (pAux v), pid. split.
    + intros X. injection X as _ X. apply (f_equal (@length N)) in X. rewrite app_length in X. destruct Ha as (_ & _ & Lo & _). lia.
    + split; [right; reflexivity|]. eapply sealed_fits; eauto.
Qed.
Print Assumptions C126_bound_partial.

(** The session's own packet under the session key, sent back, is not opened. *)
Example C126_own_example :
  let own := rawOf (snd (sendPacket toyStream PacketProps.toyHash toyPoly (exA true) true [7;7])) in
  decryptPacket toyStream PacketProps.toyHash toyPoly (exA true) own = Ret (Err ErrCannotDecrypt) /\
  decryptPacket toyStream PacketProps.toyHash toyPoly (exB true) own = Ret (Ok (packetIDBytes 1, 2, [7;7])).
Proof. vm_compute. auto. Qed.
