(** C142: lemmas about the next steps of a handshake. *)
From Coq Require Import NArith Arith List Bool Lia.
From Verif Require Import Base BaseLemmas TS MessageModel CodecProofs PacketIDModel PacketIDSpec PacketIDProofs ReaderModel ReaderLoopModel ReaderSpec ReaderProofs
  PacketModel PacketSpec PacketProofs PacketProps StateModel KxModel KxSpec KxProofs KxPairModel IntegModel IntegProofs IntegSafe
  DuoModel DuoSpec DuoProofs DuoProps DuoOnceProps.
Import ListNotations.
Local Open Scope N_scope.

(** ** Ambiguous traffic can be recognised *)

Section Dec.
  Variable blake3 : bytes -> bytes.
  Variable stream : bytes -> bytes -> nat -> N.
  Variable poly1305 : bytes -> bytes -> bytes.

  Lemma fits_dec : forall k iv pid body, {firstTagFits stream blake3 poly1305 k iv pid body} + {~ firstTagFits stream blake3 poly1305 k iv pid body}.
  Proof. intros. unfold firstTagFits. apply list_eq_dec, N.eq_dec. Qed.

  Lemma plain_dec : forall aux k id net, plainTraffic blake3 stream poly1305 aux k id net \/ ~ plainTraffic blake3 stream poly1305 aux k id net.
  Proof.
    intros aux k id net. unfold plainTraffic.
    assert (D1 : Forall bytes_ok net \/ ~ Forall bytes_ok net).
    { destruct (Forall_dec bytes_ok) with (l := net); auto. intros raw. apply Forall_dec. intros b. unfold byte_ok.
      destruct (b <? 256) eqn:E; [left; apply N.ltb_lt; exact E|right; apply N.ltb_ge in E; lia]. }
    assert (D2 : forall raw, (forall pid body, length pid = 8%nat -> raw = idOnWire stream aux pid ++ body ->
        firstTagFits stream blake3 poly1305 aux pid pid body -> ~ firstTagFits stream blake3 poly1305 (Some k) (id ++ pid) pid body) \/
        ~ (forall pid body, length pid = 8%nat -> raw = idOnWire stream aux pid ++ body ->
        firstTagFits stream blake3 poly1305 aux pid pid body -> ~ firstTagFits stream blake3 poly1305 (Some k) (id ++ pid) pid body)).
    { intros raw. set (pid0 := idOnWire stream aux (firstn 8 raw)). set (body0 := skipn 8 raw).
      assert (U : forall pid body, length pid = 8%nat -> raw = idOnWire stream aux pid ++ body -> pid = pid0 /\ body = body0).
      { intros pid body L ->. unfold pid0, body0. assert (L8 : length (idOnWire stream aux pid) = 8%nat) by (rewrite idOnWire_length; exact L).
        rewrite firstn_app_l, skipn_app_l by (symmetry; exact L8). rewrite idOnWire_invol. auto. }
      destruct (le_lt_dec 8 (length raw)) as [L|L].
      2: { left. intros pid body Lp -> _ _. rewrite app_length, idOnWire_length in L. lia. }
      assert (L0 : length pid0 = 8%nat) by (unfold pid0; rewrite idOnWire_length, firstn_length; lia).
      assert (E0 : raw = idOnWire stream aux pid0 ++ body0) by (unfold pid0, body0; rewrite idOnWire_invol, firstn_skipn; reflexivity).
      destruct (fits_dec aux pid0 pid0 body0) as [F1|F1]; [destruct (fits_dec (Some k) (id ++ pid0) pid0 body0) as [F2|F2]|].
      - right. intros H. exact (H pid0 body0 L0 E0 F1 F2).
      - left. intros pid body Lp E. destruct (U pid body Lp E) as [-> ->]. auto.
      - left. intros pid body Lp E G. destruct (U pid body Lp E) as [-> ->]. contradiction. }
    assert (D3 : (forall pid body, length pid = 8%nat -> In (idOnWire stream aux pid ++ body) net ->
        firstTagFits stream blake3 poly1305 aux pid pid body -> ~ firstTagFits stream blake3 poly1305 (Some k) (id ++ pid) pid body) \/
        ~ (forall pid body, length pid = 8%nat -> In (idOnWire stream aux pid ++ body) net ->
        firstTagFits stream blake3 poly1305 aux pid pid body -> ~ firstTagFits stream blake3 poly1305 (Some k) (id ++ pid) pid body)).
    { clear D1. induction net as [|raw net IH]; [left; intros pid body _ []|].
      destruct IH as [IH|IH]; [|right; intros H; apply IH; intros; apply H; auto; right; assumption].
      destruct (D2 raw) as [R|R].
      - left. intros pid body L [E|Hi]; [apply R; auto|apply IH; auto].
      - right. intros H. apply R. intros pid body L E. apply H; auto. left. auto. }
    tauto.
  Qed.
End Dec.

(** ** Before the first success *)

(** Nothing has been notified, and the local key is younger than the one last confirmed. *)
Definition early (k : kx) : Prop :=
  kDone k = 0 -> kLocalAt k = 0 /\ kNotify k = None /\ (kNextLocal k <> None -> 0 < kNextAt k).

Section Early.
  Variable verify : bytes -> bytes -> bytes -> bool.
  Variable dh : bytes -> bytes -> bytes.
  Variable blake3 sha3 : bytes -> bytes.
  Variable stream : bytes -> bytes -> nat -> N.
  Variable poly1305 : bytes -> bytes -> bytes.
  Variable sign : bytes -> bytes -> bytes.

  Lemma update_form : forall c k k', updateSecrets dh blake3 sha3 c k = Ret k' -> k' = k \/ exists ks, k' = setKeys k ks.
  Proof.
    intros c k k' E. unfold updateSecrets in E. destruct (generateAll _ _ _ _ _) as [ss|]; [|discriminate].
    destruct ss as [|[[|b s]|] ss]; try (injection E as <-; auto; fail). destruct (cipherKeysOf _); [|discriminate]. injection E as <-. eauto.
  Qed.

  Lemma early_update : forall c k k', early k -> updateSecrets dh blake3 sha3 c k = Ret k' -> early k'.
  Proof. intros c k k' H E. destruct (update_form _ _ _ E) as [->|[ks ->]]; exact H. Qed.

  Lemma early_handle : forall c k b k' h, early k -> handleKx verify dh blake3 sha3 c k b = Ret (k', h) -> early k'.
  Proof.
    intros c k b k' h H E.
    destruct (handle_cases verify dh blake3 sha3 c k b _ eq_refl) as [(e & R)|[R|[(m & e & _ & R & _)|(m & Ac & R)]]]; rewrite R in E; clear R;
      try (injection E as <- _; exact H).
    unfold accept in E. set (k1 := setRemote k _ _) in E.
    assert (H1 : early (setNextRemotePublicKey k1 (kPub m))).
    { unfold setNextRemotePublicKey. destruct (match kNextRemote k1 with Some y => _ | None => _ end); exact H. }
    destruct (updateSecrets _ _ _ _ _) as [k2|] eqn:U; [|discriminate]. apply (early_update _ _ _ H1) in U.
    injection E as <- _. destruct (_ || _); [|exact U]. intros D. cbn in D. lia.
  Qed.

  Lemma early_install : forall c k p t now k', early k -> installLocalKey dh blake3 sha3 c k p t now = Ret k' -> early k'.
  Proof.
    intros c k p t now k' H E. unfold installLocalKey in E. eapply early_update; [|exact E]. intros D. cbn in *.
    destruct (H D) as (H1 & H2 & _). split; [exact H1|]. split; [exact H2|]. intros _. rewrite H1.
    destruct (N.leb_spec (u64 now) 0); [reflexivity|assumption].
  Qed.

  Lemma early_kstep : forall c x l x', isHandle l = false -> early (xKx x) -> kstep verify dh blake3 sha3 c x l = Some x' -> early (xKx x').
  Proof.
    intros c x l x' Hl H E. unfold kstep in E. destruct (xPanic x); [discriminate|].
    assert (Nt : early (setNotify (xKx x) None)) by (intros D; destruct (H D) as (A & B & C); auto).
    assert (Sd : forall y b, early (xKx y) -> early (xKx (sendMsg c y b))) by (intros y b Hy; unfold sendMsg; destruct (publicKeyMessage _ _ _); exact Hy).
    destruct l; try discriminate.
    - destruct (xLoop x); try discriminate. destruct (kCtxDone (xKx x)); [discriminate|]. destruct (_ <? _); injection E as <-; assumption.
    - destruct (xLoop x); try discriminate. destruct (inProgress _); injection E as <-; exact H.
    - destruct (xLoop x); try discriminate. destruct (installLocalKey _ _ _ _ _ _ _ _) as [k|] eqn:I; injection E as <-; [|exact H]. exact (early_install _ _ _ _ _ _ H I).
    - destruct (xLoop x); try discriminate. injection E as <-. apply Sd, H.
    - destruct (xLoop x); try discriminate. destruct (kNotify (xKx x)); injection E as <-; [destruct (_ <=? _); [exact Nt|apply Sd, Nt]|apply Sd, H].
    - destruct (xLoop x); try discriminate. destruct (kNotify (xKx x)); try discriminate. injection E as <-. destruct (_ <=? _); exact Nt.
    - destruct (xLoop x); try discriminate. injection E as <-. destruct (match kNotify _ with Some _ => _ | None => _ end); exact Nt.
    - destruct (nth_error (xAnswers x) i) as [[]|]; try discriminate; injection E as <-; try exact H. apply Sd, H.
    - destruct (nth_error (xAnswers x) i) as [[]|]; try discriminate.
      destruct (installLocalKey _ _ _ _ _ _ _ _) as [k|] eqn:I; injection E as <-; [|exact H]. exact (early_install _ _ _ _ _ _ H I).
    - injection E as <-. exact H.
  Qed.

  Definition earlyS (s : isess) : Prop := early (xKx (iKx s)).

  Lemma early_istep : forall c s l s', earlyS s -> istep verify dh blake3 sha3 stream poly1305 c s l = Some s' -> earlyS s'.
  Proof.
    intros c s l s' H E. unfold istep in E. destruct (iPanic s); [discriminate|]. destruct l as [raw|k| | | |].
    - destruct (_ || _); [discriminate|]. destruct (iReceive _ _ _ _ _ _ _ _ _) as [s1|] eqn:R; injection E as <-; [|exact H].
      apply (receive_inv verify dh blake3 sha3 stream poly1305 c earlyS) with (s := s) (raw := raw); auto.
      intros s0 b k h H0 Eh. apply early_handle in Eh; [|exact H0]. split; exact Eh.
    - destruct (isHandle k) eqn:Hk; [discriminate|]. destruct (kstep _ _ _ _ _ _ _) as [x1|] eqn:K; [|discriminate].
      apply early_kstep in K; [|exact Hk|exact H].
      assert (X1 : earlyS (afterKx c s x1)).
      { unfold earlyS. replace (iKx (afterKx c s x1)) with x1; [exact K|].
        unfold afterKx. cbv beta zeta. destruct (Nat.ltb _ _); destruct ((_ =? 0) && _); unfold reportError; cbv beta zeta; destruct (icCloseOnError c); reflexivity. }
      injection E as <-. destruct (xPanic x1); exact X1.
    - destruct (_ || _); [discriminate|]. destruct (sendPacket _ _ _ _ _ _) as [P [[raw|]|]]; try discriminate; injection E as <-; exact H.
    - destruct (iWritten s); [|discriminate]. destruct (iResult s); [discriminate|]. destruct (nth_error _ _); [|discriminate]. injection E as <-. exact H.
    - destruct (_ || _); [|discriminate]. injection E as <-. exact H.
    - destruct (iResult s); [discriminate|]. destruct (_ =? _); [|discriminate]. injection E as <-. exact H.
  Qed.

  Lemma early_side : forall c x net l x', earlyS (dSess x) -> sideStep verify dh blake3 sha3 stream poly1305 sign c x net l = Some x' -> earlyS (dSess x').
  Proof.
    assert (HO : forall c x s cf m w x', earlyS s -> handOver blake3 sha3 stream poly1305 c x s cf m w = Some x' -> earlyS (dSess x')).
    { intros c x s cf m w x' H E. unfold handOver in E. destruct (sendPacket _ _ _ _ _ _) as [P [[raw|]|]]; try discriminate; injection E as <-; exact H. }
    intros c x net l x' H E. destruct l as [k|n|pl| |]; cbn [sideStep] in E.
    - destruct (istep _ _ _ _ _ _ _ _ _) as [s'|] eqn:Es; [|discriminate]. apply early_istep in Es; [|exact H].
      destruct (_ && _); [|injection E as <-; exact Es]. destruct (xSent (iKx s')); [discriminate|]. eapply HO; eauto.
    - destruct (nth_error net n); [|discriminate]. destruct (istep _ _ _ _ _ _ _ _ _) eqn:Es; [|discriminate]. injection E as <-. exact (early_istep _ _ _ _ H Es).
    - destruct (_ || _); [discriminate|]. eapply HO; [|eauto]. exact H.
    - destruct (iPanic (dSess x)); [discriminate|]. injection E as <-. exact H.
    - destruct (istep _ _ _ _ _ _ _ _ _) eqn:Es; [|discriminate]. injection E as <-. exact (early_istep _ _ _ _ H Es).
  Qed.
End Early.

(** ** Single steps, in detail *)

Section Steps.
  Variable verify : bytes -> bytes -> bytes -> bool.
  Variable dh : bytes -> bytes -> bytes.
  Variable blake3 sha3 : bytes -> bytes.
  Variable stream : bytes -> bytes -> nat -> N.
  Variable poly1305 : bytes -> bytes -> bytes.
  Variable sign : bytes -> bytes -> bytes.
  Variable pubOf : bytes -> bytes.
  Hypothesis id : ideal verify dh sha3 stream poly1305 sign pubOf.

  Notation sinv := (SI dh blake3 sha3 stream poly1305 sign pubOf True).
  Notation seal := (sealPacket stream blake3 poly1305).
  Notation sstep := (sideStep verify dh blake3 sha3 stream poly1305 sign).
  Notation kst := (kstep verify dh blake3 sha3).

  (** A packet with a key-exchange message of the side with configuration [c]. *)
  Definition kxPacket (c : iconf) (p : bytes) (raw : bytes) (v : N) (fl : bool) : Prop :=
    exists P, peer_ok P /\ pAux P = auxKey blake3 sha3 c /\
      seal P false (packetIDBytes v) (encodeMsg messageTypeKeyExchange 0 (signedWire sign (icKx c) (msgOf pubOf (icKx c) p fl))) = Ret (Ok raw).

  (** A step of the exchanger which neither fails nor succeeds. *)
  Definition quiet (x : side) (x1 : kxs) : Prop :=
    xPanic x1 = false /\ kErrs (xKx x1) = kErrs (xKx (xOf x)) /\ kDone (xKx x1) = kDone (xKx (xOf x)).

  Lemma quiet_istep : forall c x k x1, iPanic (dSess x) = false -> isHandle k = false -> kst (icKx c) (xOf x) k = Some x1 -> quiet x x1 ->
    istep verify dh blake3 sha3 stream poly1305 c (dSess x) (IKx k) = Some (upKx (dSess x) x1).
  Proof.
    intros c x k x1 Hp Hk E (Q1 & Q2 & Q3). unfold istep. rewrite Hp, Hk. unfold xOf in E. rewrite E, Q1. f_equal. unfold afterKx. cbv beta zeta.
    unfold xOf in *. rewrite Q2, Q3, Nat.ltb_irrefl. destruct (kDone (xKx (iKx (dSess x))) =? 0) eqn:D; [|reflexivity].
    apply N.eqb_eq in D. rewrite D. reflexivity.
  Qed.

  Lemma quiet_side : forall c x net k x1, iPanic (dSess x) = false -> isHandle k = false -> kst (icKx c) (xOf x) k = Some x1 -> quiet x x1 ->
    xSent x1 = xSent (xOf x) -> sstep c x net (SKx k) = Some (withSess x (upKx (dSess x) x1)).
  Proof.
    intros c x net k x1 Hp Hk E Q Es. cbn [sideStep]. rewrite (quiet_istep c x k x1 Hp Hk E Q). cbn [upKx iKx]. unfold xOf in Es.
    rewrite Es, Nat.ltb_irrefl. reflexivity.
  Qed.

  Lemma send_side : forall c c' p p' x y net k x1 fl, honestConf c -> honestConf c' -> sinv c c' p p' x y -> calmKx pubOf p k (xOf x) ->
    isHandle k = false -> kst (icKx c) (xOf x) k = Some x1 -> quiet x x1 -> isDoneState (stateOf (dSess x)) = false ->
    xSent x1 = msgOf pubOf (icKx c) p fl :: xSent (xOf x) ->
    exists raw, sstep c x net (SKx k) =
        Some {| dSess := upPkt (upKx (dSess x) x1) (add64 (iNext (dSess x)) 1) (iWin (dSess x)); dNet := dNet x ++ [raw]; dWrote := dWrote x ++ [] |} /\
      kxPacket c p raw (add64 (iNext (dSess x)) 1) fl.
  Proof.
    intros c c' p p' x y net k x1 fl Hc Hc' SX HC Hk E Q Hd Es. destruct id as [I1 I2 I3 I4 I5 I6 I7 I8 I9].
    assert (Hp : iPanic (dSess x) = false) by apply SX. destruct SX as (KIx & _).
    destruct (kx_own verify dh blake3 sha3 pubOf I2 I3 I4 (icKx c) (icKx c') p (pubOf p') _ _ _ _ KIx HC Hk E) as [KI1 _].
    cbn [sideStep]. rewrite (quiet_istep c x k x1 Hp Hk E Q). cbn [upKx iKx]. unfold xOf in Es. rewrite Es. cbn [length].
    replace (Nat.ltb _ _) with true by (symmetry; apply Nat.ltb_lt; lia).
    change (stateOf (upKx (dSess x) x1)) with (stateOf (dSess x)). rewrite Hd. cbn [negb andb].
    set (s := upKx (dSess x) x1). unfold handOver. cbn [concat]. rewrite app_nil_r. unfold sendPacket. set (P0 := peerOf blake3 sha3 c s).
    assert (PO : peer_ok P0) by (eapply (side_peer_ok dh blake3 sha3 pubOf I2 I3 I4 c c' p (pubOf p') _ s Hc Hc'); exact KI1).
    destruct (takePacketID P0) as [P pid] eqn:ET. unfold takePacketID in ET. injection ET as EP Epid.
    assert (PO1 : peer_ok P) by (subst P; exact PO).
    assert (Lp : length pid = 8%nat) by (subst pid; apply le_enc_length).
    set (msg := encodeMsg _ _ _).
    assert (Lm : len msg + 44 < 2^32).
    { unfold msg. destruct (kxMsgOf_ok sign pubOf I6 I8 c p fl Hc) as [Mk Lk].
      change (encodeMsg _ _ _) with (encodeMsg (wType (kxMsgOf sign pubOf c p fl)) (wFlags (kxMsgOf sign pubOf c p fl)) (wPayload (kxMsgOf sign pubOf c p fl))).
      rewrite (encodeMsg_wire _ Mk), (wire_len _ Mk), Lk. reflexivity. }
    destruct (seal_spec stream blake3 poly1305 I1 P false pid msg PO1 Lp Lm ltac:(discriminate)) as (body & Es' & _).
    rewrite Es'. eexists. split; [subst P; reflexivity|]. exists P. split; [exact PO1|]. split; [subst P; reflexivity|]. subst pid. exact Es'.
  Qed.

  Lemma open_kx : forall c c' p p' x y raw v fl, honestConf c -> honestConf c' -> cPSK (icKx c) = cPSK (icKx c') ->
    sinv c c' p p' x y -> kxPacket c' p' raw v fl -> bytes_ok raw ->
    unmistakable blake3 stream poly1305 (auxKey blake3 sha3 c') (mk dh blake3 sha3 (cPSK (icKx c)) p (pubOf p')) (sessBytes (cSession (icKx c'))) raw ->
    decryptPacket stream blake3 poly1305 (peerOf blake3 sha3 c (dSess x)) raw =
      Ret (Ok (packetIDBytes v, len (wireBytes (kxMsgOf sign pubOf c' p' fl)), wireBytes (kxMsgOf sign pubOf c' p' fl))).
  Proof.
    intros c c' p p' x y raw v fl Hc Hc' Hpsk (KIx & _) (P & PO & PA & Es) Hb HU. destruct id as [I1 I2 I3 I4 I5 I6 I7 I8 I9].
    assert (PB := side_peer_ok dh blake3 sha3 pubOf I2 I3 I4 c c' p (pubOf p') _ (dSess x) Hc Hc' KIx).
    assert (Lp : length (packetIDBytes v) = 8%nat) by apply le_enc_length.
    assert (AX : pAux (peerOf blake3 sha3 c (dSess x)) = pAux P) by (rewrite PA; cbn; unfold auxKey; rewrite Hpsk; reflexivity).
    destruct KIx as (A & B & C & D & E & F & _).
    destruct (kxMsgOf_ok sign pubOf I6 I8 c' p' fl Hc') as [Mk Lk].
    rewrite <- (encodeMsg_wire _ Mk).
    assert (Le : len (encodeMsg (wType (kxMsgOf sign pubOf c' p' fl)) (wFlags (kxMsgOf sign pubOf c' p' fl)) (wPayload (kxMsgOf sign pubOf c' p' fl))) + 44 < 2^32).
    { rewrite (encodeMsg_wire _ Mk), (wire_len _ Mk), Lk. reflexivity. }
    apply (C13_open_unconfidential stream blake3 poly1305 P (peerOf blake3 sha3 c (dSess x)) (packetIDBytes v) _ raw I1 PO PB Lp Le AX Es Hb).
    cbn [peerOf pKeys]. rewrite F. unfold keysFor. destruct D as [(-> & _)|(-> & _)]; [constructor|].
    destruct E as [(-> & _)|(E1 & E2 & _)]; [constructor|]. rewrite E1. constructor; [|repeat (constructor; [left; reflexivity|]); constructor].
    right. unfold remoteIV, peerOf. cbn [pRemoteID]. rewrite E2. cbn [option_map].
    destruct (seal_spec stream blake3 poly1305 I1 P false (packetIDBytes v) _ PO Lp Le ltac:(discriminate)) as (body & Es' & Sd & _).
    change (encodeMsg _ _ _) with (encodeMsg messageTypeKeyExchange 0 (signedWire sign (icKx c') (msgOf pubOf (icKx c') p' fl))) in Es'.
    rewrite Es in Es'. injection Es' as Er.
    assert (L8 : length (idOnWire stream (pAux P) (packetIDBytes v)) = 8%nat) by (rewrite idOnWire_length; exact Lp).
    replace (skipn 8 raw) with body by (rewrite Er, skipn_app_l by (symmetry; exact L8); reflexivity).
    apply (HU (packetIDBytes v) body Lp); [rewrite <- PA; exact Er|].
    rewrite <- PA. apply sealed_fits in Sd; [exact Sd|apply I1].
  Qed.

  (** Arrival of a key-exchange message. *)
  Lemma recv_kx : forall c c' p p' x y raw v fl w, honestConf c -> honestConf c' -> cPSK (icKx c) = cPSK (icKx c') ->
    sinv c c' p p' x y -> kxPacket c' p' raw v fl -> bytes_ok raw ->
    unmistakable blake3 stream poly1305 (auxKey blake3 sha3 c') (mk dh blake3 sha3 (cPSK (icKx c)) p (pubOf p')) (sessBytes (cSession (icKx c'))) raw ->
    hasLocal (xOf y) -> (fl = true -> hasLocal (xOf x)) ->
    iOver (dSess x) = false -> isDoneState (stateOf (dSess x)) = false -> locked (xOf x) = false ->
    checkAndRemember (iWin (dSess x)) (packetIDValue (packetIDBytes v)) = Ret (w, true) ->
    exists s2 k, istep verify dh blake3 sha3 stream poly1305 c (dSess x) (IPacket raw) = Some s2 /\
      iKx s2 = (if negb fl then addAnswer (setX (xOf x) k) else setX (xOf x) k) /\ iOver s2 = false /\
      kNextLocal k = kNextLocal (xKx (xOf x)) /\ kDone k = (if fl then kDone (xKx (xOf x)) + 1 else kDone (xKx (xOf x))) /\
      stateOf s2 = (if fl && (kDone (xKx (xOf x)) =? 0) then SessionStateEstablished else stateOf (dSess x)).
  Proof.
    intros c c' p p' x y raw v fl w Hc Hc' Hpsk SX PK Hb HU HL Hfl EO ED EL Ck.
    assert (De := open_kx c c' p p' x y raw v fl Hc Hc' Hpsk SX PK Hb HU). destruct id as [I1 I2 I3 I4 I5 I6 I7 I8 I9].
    destruct (kxMsgOf_ok sign pubOf I6 I8 c' p' fl Hc') as [Mk _].
    destruct SX as (KIx & (A1 & A2 & A3) & U & B1 & B2 & B3 & B4 & B5 & B6).
    unfold istep. rewrite A1. unfold xOf in EL. rewrite EO, ED, EL. cbn [orb].
    assert (Cx : kCtxDone (xKx (iKx (dSess x))) = false) by (destruct (kCtxDone (xKx (iKx (dSess x)))); [rewrite B1 in ED; [discriminate|reflexivity]|reflexivity]).
    destruct (received_at blake3 sha3 stream poly1305 c (dSess x) raw v _ Mk A3 De) as (P & w' & b & Hw & Ew & Nx & Rc).
    rewrite Ck in Ew. injection Ew as <- <-.
    set (s1 := upFails (upPkt (dSess x) (pNext P) w) 0 (iUnexpected (dSess x))).
    destruct (kx_handle verify dh blake3 sha3 sign pubOf I2 I3 I4 I6 I7 I8 I9
                (icKx c) (icKx c') p p' (hasLocal (xOf y)) (iKx s1) fl KIx HL) as (k & Ek & KIk & K1 & K2 & K3 & K4 & K5);
      [apply Hc'|apply Hc'|apply Hc|apply Hc'|exact Cx|exact Hfl|].
    assert (Hh := handle_kx verify dh blake3 sha3 c s1 _ k (negb fl) U Ek K3).
    set (s2 := if (kDone (xKx (iKx s1)) =? 0) && (0 <? kDone k) then _ else _) in Hh.
    rewrite (receive_one verify dh blake3 sha3 stream poly1305 c (dSess x) raw P w (kxMsgOf sign pubOf c' p' fl) s2 _ Mk eq_refl Rc Hh).
    exists s2, k. split; [reflexivity|]. change (xKx (iKx s1)) with (xKx (iKx (dSess x))) in *. unfold xOf.
    split; [unfold s2; destruct (_ && (0 <? kDone k)); reflexivity|].
    split; [unfold s2; destruct (_ && (0 <? kDone k)); exact EO|].
    split; [exact K2|]. split; [exact K5|].
    assert (St : stateOf s2 = if (kDone (xKx (iKx (dSess x))) =? 0) && (0 <? kDone k) then
                    fst (setState (fst (setState (stateOf (dSess x)) SessionStateNegotiating
                      [SessionStateClosed; SessionStateClosing; SessionStateNew; SessionStateEstablished; SessionStateNegotiating]))
                      SessionStateEstablished [SessionStateClosed; SessionStateClosing; SessionStateNew; SessionStateEstablished])
                  else stateOf (dSess x))
      by (unfold s2; destruct (_ && (0 <? kDone k)); reflexivity).
    rewrite St, K5. destruct (kDone (xKx (iKx (dSess x))) =? 0) eqn:E0; [|rewrite andb_false_r; reflexivity].
    apply N.eqb_eq in E0. rewrite E0. destruct fl; cbn [andb]; [|reflexivity].
    destruct B2 as [(S0 & _)|[(_ & Z)|[Z|Z]]]; [rewrite S0; reflexivity|lia|rewrite Z in ED; discriminate|rewrite Z in ED; discriminate].
  Qed.
End Steps.
