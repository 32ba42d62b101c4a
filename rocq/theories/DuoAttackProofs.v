(** Lemmas about two sessions under attack. *)
From Coq Require Import NArith Arith List Bool Lia Permutation.
From Verif Require Import Base BaseLemmas TS MessageModel CodecProofs PacketIDModel PacketIDSpec PacketIDProofs PacketIDRun ReaderModel ReaderLoopModel ReaderSpec ReaderProofs
  PacketModel PacketSpec PacketProofs PacketProps StateModel KxModel KxSpec KxProofs KxPairModel IntegModel IntegSpec IntegProofs IntegSafe IntegProps
  DuoModel DuoSpec DuoProofs DuoProps DuoOnceProps DuoAttackModel DuoAttackSpec.
Import ListNotations.
Local Open Scope N_scope.

Section Attack.
  Variable verify : bytes -> bytes -> bytes -> bool.
  Variable dh : bytes -> bytes -> bytes.
  Variable blake3 sha3 : bytes -> bytes.
  Variable stream : bytes -> bytes -> nat -> N.
  Variable poly1305 : bytes -> bytes -> bytes.
  Variable sign : bytes -> bytes -> bytes.
  Variable pubOf : bytes -> bytes.
  Hypothesis id : ideal verify dh sha3 stream poly1305 sign pubOf.

  Notation sinv := (SI dh blake3 sha3 stream poly1305 sign pubOf False).
  Notation mkey := (mk dh blake3 sha3).
  Notation dec c x raw := (decryptPacket stream blake3 poly1305 (peerOf blake3 sha3 c (dSess x)) raw).
  Notation asPacket := (packetAs dh blake3 sha3 stream poly1305 sign pubOf).
  Notation eff := (effect dh blake3 sha3 stream poly1305 sign pubOf).

  (** ** A packet of one's own *)

  Lemma keys_now : forall c c' p p' x y, sinv c c' p p' x y ->
    kKeys (xKx (iKx (dSess x))) = [] \/
    kKeys (xKx (iKx (dSess x))) = [Some (mkey (cPSK (icKx c)) p (pubOf p')); None; None; None] /\ kRemoteSession (xKx (iKx (dSess x))) = Some (cSession (icKx c')).
  Proof.
    intros c c' p p' x y ((_ & _ & _ & D & E & F & _) & _). rewrite F. unfold keysFor.
    destruct D as [(-> & _)|(-> & _)]; [left; reflexivity|]. destruct E as [(-> & _)|(-> & -> & _)]; [left; reflexivity|]. right. auto.
  Qed.

  Lemma reflected : forall c c' p p' x y raw, honestConf c -> honestConf c' -> sinv c c' p p' x y -> In raw (dNet x) ->
    plainTraffic blake3 stream poly1305 (auxKey blake3 sha3 c) (mkey (cPSK (icKx c)) p (pubOf p')) (sessBytes (cSession (icKx c))) (dNet x) ->
    foreign blake3 stream poly1305 (auxKey blake3 sha3 c) (mkey (cPSK (icKx c)) p (pubOf p')) (sessBytes (cSession (icKx c'))) (dNet x) ->
    (exists e, dec c x raw = Ret (Err e)) \/
    exists v fl, dec c x raw = Ret (Ok (packetIDBytes v, len (wireBytes (kxMsgOf sign pubOf c p fl)), wireBytes (kxMsgOf sign pubOf c p fl))).
  Proof.
    intros c c' p p' x y raw Hc Hc' SX Hin [Bs Un] Fo. destruct id as [I1 I2 I3 I4 I5 I6 I7 I8 I9].
    assert (Hb : bytes_ok raw) by (rewrite Forall_forall in Bs; apply Bs, Hin).
    assert (KS := keys_now _ _ _ _ _ _ SX). assert (SX0 := SX). destruct SX as (KIx & _ & _ & _ & _ & _ & Fp & _).
    assert (PB := side_peer_ok dh blake3 sha3 pubOf I2 I3 I4 c c' p (pubOf p') _ (dSess x) Hc Hc' KIx).
    rewrite Forall_forall in Fp. destruct (Fp raw Hin) as (v & o & P & PO & PA & PI & Cases).
    assert (Lp : length (packetIDBytes v) = 8%nat) by apply le_enc_length.
    assert (L8 : length (idOnWire stream (pAux P) (packetIDBytes v)) = 8%nat) by (unfold idOnWire; destruct (pAux P); rewrite ?xorStream_length; exact Lp).
    destruct o as [pl|].
    - left. destruct Cases as (_ & Hl & HK & Es & _).
      destruct (decryptPacket_total stream blake3 poly1305 I1 _ raw PB Hb) as [[[[pid l] m]|e] Er]; [|eauto]. exfalso.
      destruct (decryptPacket_sound stream blake3 poly1305 I1 _ raw pid l m PB Hb Er) as (L44 & Ei & Cs).
      assert (Mk : wireMsg_ok (dataMsg pl)).
      { unfold wireMsg_ok, dataMsg, kxWire. cbn [wType wFlags wPayload]. unfold len in Hl. repeat split; try reflexivity. lia. }
      assert (Le : len (encodeMsg MessageTypeReadWrite (setIsConfidential 0 true) pl) + 44 < 2^32).
      { change (encodeMsg _ _ _) with (encodeMsg (wType (dataMsg pl)) (wFlags (dataMsg pl)) (wPayload (dataMsg pl))).
        rewrite (encodeMsg_wire _ Mk), (wire_len _ Mk). cbn [wPayload dataMsg kxWire]. lia. }
      destruct (seal_spec stream blake3 poly1305 I1 P true (packetIDBytes v) _ PO Lp Le) as (body & Es' & Sd & _).
      { unfold sealKey, secretIDRecentBoth. rewrite HK. discriminate. }
      rewrite Es in Es'. injection Es' as Er'.
      cbn [peerOf pAux] in Ei. rewrite PA in Er'.
      assert (Ev : pid = packetIDBytes v).
      { rewrite <- (idOnWire_invol stream (auxKey blake3 sha3 c) pid), Ei, Er'. rewrite PA in L8.
        rewrite firstn_app, L8, Nat.sub_diag, (firstn_all2 (n := 8)) by lia. cbn [firstn]. rewrite app_nil_r. apply idOnWire_invol. }
      assert (Eb : skipn 8 raw = body).
      { rewrite PA in L8. rewrite Er', skipn_app, L8, (skipn_all2 (n := 8)), Nat.sub_diag by lia. reflexivity. }
      rewrite Er' in Hin. destruct Cs as [(k & Ik & Sk)|[Sa _]].
      + cbn [peerOf pKeys] in Ik. destruct KS as [Z|[Z R]]; rewrite Z in Ik; [destruct Ik|].
        destruct Ik as [Ek|[Ek|[Ek|[Ek|[]]]]]; try discriminate. injection Ek as <-.
        unfold remoteIV in Sk. cbn [peerOf pRemoteID] in Sk. rewrite R in Sk. cbn [option_map] in Sk. rewrite Eb, Ev in Sk.
        apply (Fo (packetIDBytes v) body Lp Hin). eapply sealed_fits; eauto.
      + cbn [peerOf pAux] in Sa. rewrite Eb, Ev in Sa. apply (Un (packetIDBytes v) body Lp Hin).
        * eapply sealed_fits; eauto.
        * apply (sealed_fits stream blake3 poly1305 I1) in Sd. unfold sealKey, secretIDRecentBoth, sealIV in Sd. rewrite HK, PI in Sd. exact Sd.
    - right. destruct Cases as (fl & Es & _). exists v, fl. destruct (kxMsgOf_ok sign pubOf I6 I8 c p fl Hc) as [Mk Lk].
      rewrite <- (encodeMsg_wire _ Mk).
      assert (Le : len (encodeMsg (wType (kxMsgOf sign pubOf c p fl)) (wFlags (kxMsgOf sign pubOf c p fl)) (wPayload (kxMsgOf sign pubOf c p fl))) + 44 < 2^32).
      { rewrite (encodeMsg_wire _ Mk), (wire_len _ Mk), Lk. reflexivity. }
      apply (C13_open_unconfidential stream blake3 poly1305 P (peerOf blake3 sha3 c (dSess x)) (packetIDBytes v) _ raw I1 PO PB Lp Le (eq_sym PA) Es Hb).
      destruct (seal_spec stream blake3 poly1305 I1 P false (packetIDBytes v) _ PO Lp Le ltac:(discriminate)) as (body & Es' & _).
      change (encodeMsg _ _ _) with (encodeMsg messageTypeKeyExchange 0 (signedWire sign (icKx c) (msgOf pubOf (icKx c) p fl))) in Es'.
      rewrite Es in Es'. injection Es' as Er.
      cbn [peerOf pKeys]. destruct KS as [Z|[Z R]]; rewrite Z; [constructor|].
      constructor; [|repeat (constructor; [left; reflexivity|]); constructor].
      right. unfold remoteIV. cbn [peerOf pRemoteID]. rewrite R. cbn [option_map].
      replace (skipn 8 raw) with body by (rewrite Er, skipn_app, L8, (skipn_all2 (n := 8)), Nat.sub_diag by lia; reflexivity).
      apply (Fo (packetIDBytes v) body Lp). rewrite <- PA, <- Er. exact Hin.
  Qed.

  (** ** Bytes which are not a packet of the peer *)

  Lemma harmless : forall c c' p p' x y s', sinv c c' p p' x y -> iKx s' = iKx (dSess x) -> iPanic s' = false -> winOk (iWin s') -> usual (iRcv s') ->
    (stateOf s' = stateOf (dSess x) \/ stateOf s' = SessionStateClosing \/ stateOf s' = SessionStateClosed) -> queued s' = queued (dSess x) ->
    sinv c c' p p' (withSess x s') y.
  Proof.
    intros c c' p p' x y s' (KIx & (A1 & _ & A3) & U & B1 & B2 & B3 & B4 & B5 & _) E1 E2 E3 E4 E5 E6.
    unfold SI. cbn [dSess withSess]. rewrite E1, E6. split; [exact KIx|]. split; [split; [exact E2|split; [intros []|exact E3]]|]. split; [exact E4|].
    split. { intros H. destruct E5 as [-> | [-> | -> ]]; auto. }
    split. { unfold phase in *. rewrite E1. destruct E5 as [-> | [-> | -> ]]; auto. }
    split; [exact B3|]. split; [|split; [exact B5|intros []]].
    eapply packets_self; [exact B4| | |apply incl_refl]; unfold xOf; cbn [dSess withSess]; rewrite E1; auto.
  Qed.

  Lemma report_facts : forall c s e, iKx (reportError c s e) = iKx s /\ iPanic (reportError c s e) = iPanic s /\ iWin (reportError c s e) = iWin s /\
    iNext (reportError c s e) = iNext s /\
    (usual (iRcv s) -> usual (iRcv (reportError c s e))) /\
    (stateOf (reportError c s e) = stateOf s \/ stateOf (reportError c s e) = SessionStateClosing \/ stateOf (reportError c s e) = SessionStateClosed) /\
    queued (reportError c s e) = queued s.
  Proof.
    intros c s e. unfold reportError. cbv zeta.
    assert (Q : queued (upRcv s (emit (iRcv s) (EvError e))) = queued s) by (rewrite queued_emit; apply app_nil_r).
    destruct (icCloseOnError c).
    - repeat (split; [reflexivity|]). split; [intros H; exact H|]. split; [right; apply closed_state|exact Q].
    - repeat (split; [reflexivity|]). split; [intros H; exact H|]. split; [left; reflexivity|exact Q].
  Qed.

  Definition counted (w : option storage) (w' : option storage) : Prop :=
    w' = w \/ exists v b, v < 2^64 /\ checkAndRemember w v = Ret (w', b).

  Lemma nobody : forall c c' p p' x y raw s', honestConf c -> honestConf c' -> separate verify sign (cIdentity (icKx c)) (cIdentity (icKx c')) ->
    sinv c c' p p' x y ->
    ((exists e, dec c x raw = Ret (Err e)) \/
     exists v fl, dec c x raw = Ret (Ok (packetIDBytes v, len (wireBytes (kxMsgOf sign pubOf c p fl)), wireBytes (kxMsgOf sign pubOf c p fl)))) ->
    istep verify dh blake3 sha3 stream poly1305 c (dSess x) (IPacket raw) = Some s' ->
    sinv c c' p p' (withSess x s') y /\ iKx s' = iKx (dSess x) /\ queued s' = queued (dSess x) /\ counted (iWin (dSess x)) (iWin s') /\
    (iNext s' = iNext (dSess x) \/ iNext s' = add64 (iNext (dSess x)) 1).
  Proof.
    intros c c' p p' x y raw s' Hc Hc' Sep SX De E. destruct id as [I1 I2 I3 I4 I5 I6 I7 I8 I9]. assert (SX0 := SX).
    destruct SX as (KIx & (A1 & _ & A3) & U & _). unfold istep in E. rewrite A1 in E. destruct (_ || _); [discriminate|].
    destruct De as [[e De]|(v & fl & De)].
    - (* not opened *)
      assert (R : exists s1, iReceive verify dh blake3 sha3 stream poly1305 c (dSess x) raw = Ret s1 /\ iKx s1 = iKx (dSess x) /\ iPanic s1 = false /\
                iWin s1 = iWin (dSess x) /\ usual (iRcv s1) /\
                (stateOf s1 = stateOf (dSess x) \/ stateOf s1 = SessionStateClosing \/ stateOf s1 = SessionStateClosed) /\ queued s1 = queued (dSess x) /\
                (iNext s1 = iNext (dSess x) \/ iNext s1 = add64 (iNext (dSess x)) 1)).
      { unfold iReceive, receivePacket. destruct raw as [|b0 raw].
        - eexists. split; [reflexivity|]. cbn. auto 10.
        - rewrite De. cbn zeta. set (pp := if _ <? _ then _ else _).
          assert (Nx : pNext pp = iNext (dSess x) \/ pNext pp = add64 (iNext (dSess x)) 1) by (unfold pp; destruct (_ <? _); auto).
          set (s0 := upFails _ _ _).
          assert (S0 : iKx s0 = iKx (dSess x) /\ iPanic s0 = false /\ iWin s0 = iWin (dSess x) /\ usual (iRcv s0) /\ stateOf s0 = stateOf (dSess x) /\ queued s0 = queued (dSess x) /\ iNext s0 = pNext pp)
            by (repeat split; auto; apply U).
          destruct S0 as (T1 & T2 & T3 & T4 & T5 & T6 & T7). destruct (report_facts c s0 e) as (R1 & R2 & R3 & R4 & R5 & R6 & R7).
          set (s1 := match icErrorOn c with Some k => _ | None => _ end).
          assert (S1 : iKx s1 = iKx (dSess x) /\ iPanic s1 = false /\ iWin s1 = iWin (dSess x) /\ usual (iRcv s1) /\
            (stateOf s1 = stateOf (dSess x) \/ stateOf s1 = SessionStateClosing \/ stateOf s1 = SessionStateClosed) /\ queued s1 = queued (dSess x) /\ iNext s1 = pNext pp).
          { assert (G : iKx s0 = iKx (dSess x) /\ iPanic s0 = false /\ iWin s0 = iWin (dSess x) /\ usual (iRcv s0) /\
              (stateOf s0 = stateOf (dSess x) \/ stateOf s0 = SessionStateClosing \/ stateOf s0 = SessionStateClosed) /\ queued s0 = queued (dSess x) /\ iNext s0 = pNext pp) by auto 10.
            unfold s1. destruct (icErrorOn c) as [k|]; [|exact G]. destruct (_ <=? _); [|exact G].
            rewrite R1, R2, R3, R4, R7. rewrite T5 in R6. auto 10. }
          eexists. split; [reflexivity|]. destruct S1 as (V1 & V2 & V3 & V4 & V5 & V6 & V7).
          destruct (_ <=? _); [|rewrite V7; auto 10]. cbn [upOver iKx iPanic iWin iRcv iNext]. rewrite V7. auto 10. }
      destruct R as (s1 & R & V1 & V2 & V3 & V4 & V5 & V6 & V7). rewrite R in E. injection E as <-.
      split; [|split; [exact V1|split; [exact V6|split; [left; exact V3|exact V7]]]].
      apply harmless; auto. rewrite V3. exact A3.
    - (* one's own key-exchange message *)
      destruct (kxMsgOf_ok sign pubOf I6 I8 c p fl Hc) as [Mk _].
      destruct (received_at blake3 sha3 stream poly1305 c (dSess x) raw v _ Mk A3 De) as (P & w & b & Hw & Ew & Nx & Rc).
      assert (Cn : counted (iWin (dSess x)) w) by (right; exists (packetIDValue (packetIDBytes v)), b; split; [apply pid_value|exact Ew]).
      destruct b.
      + set (s1 := upFails (upPkt (dSess x) (pNext P) w) 0 (iUnexpected (dSess x))).
        set (b := signedWire sign (icKx c) (msgOf pubOf (icKx c) p fl)).
        assert (Hk : handleKx verify dh blake3 sha3 (icKx c) (xKx (iKx s1)) b = Ret (xKx (iKx s1), HErr KxWrongSignature)).
        { assert (Mok : kxMsg_ok (msgOf pubOf (icKx c) p fl)).
          { destruct Hc as (H1 & H2 & H3). unfold kxMsg_ok, msgOf. cbn [kSess kIdentity kPub kMode kFlags]. rewrite H3. repeat split; try apply H1; auto; destruct fl; reflexivity. }
          assert (W : wire (sign (cIdentity (icKx c)) (kxEncode (msgOf pubOf (icKx c) p fl))) (kxEncode (msgOf pubOf (icKx c) p fl)) [] b).
          { unfold wire, b, signedWire. rewrite app_nil_r. split; [reflexivity|]. split; [apply I6|apply kx_len; exact Mok]. }
          destruct (wire_parts _ _ _ _ W) as (W1 & W2 & W3). unfold handleKx, parseAndCheck.
          replace (len b <? kxSignedSize) with false
            by (symmetry; apply N.ltb_ge; unfold b, signedWire, len; rewrite app_length, I6, (kx_len _ Mok); vm_compute; discriminate).
          replace (kRemoteIdentity (xKx (iKx s1))) with (Some (cIdentity (icKx c'))) by (symmetry; apply KIx).
          rewrite W1, W2, (Sep _ (kx_len _ Mok)). reflexivity. }
        assert (U1 : usual (iRcv s1)) by exact U.
        set (s2 := upRcv s1 (emit (iRcv s1) (EvHandler messageTypeKeyExchange b))).
        assert (Hh : iHandle verify dh blake3 sha3 c s1 (hdrOf (kxMsgOf sign pubOf c p fl)) (wPayload (kxMsgOf sign pubOf c p fl)) = Ret (reportError c s2 ErrBackend, Some (len b))).
        { cbn [wPayload kxMsgOf kxWire]. fold b. unfold iHandle, kxMsgOf. fold b. rewrite (one_kx _ _ U1), emitted. cbn [out emit]. unfold handleEvent.
          change (messageTypeKeyExchange =? messageTypeKeyExchange) with true. cbn match. change (xKx (iKx (upRcv s1 _))) with (xKx (iKx s1)). rewrite Hk. cbn match.
          unfold afterKx. change (xKx (iKx (upRcv s1 _))) with (xKx (iKx s1)). change (iKx (upRcv s1 _)) with (iKx s1). cbn [xKx setX]. rewrite Nat.ltb_irrefl.
          replace ((kDone (xKx (iKx s1)) =? 0) && (0 <? kDone (xKx (iKx s1)))) with false
            by (destruct (kDone (xKx (iKx s1))); reflexivity). cbv zeta.
          replace (upKx (upRcv s1 _) _) with s2.
          - reflexivity.
          - assert (Xe : setX (iKx s1) (xKx (iKx s1)) = iKx s1) by (unfold setX; destruct (iKx s1); reflexivity).
            rewrite Xe. reflexivity. }
        rewrite (receive_one verify dh blake3 sha3 stream poly1305 c (dSess x) raw P w _ _ _ Mk eq_refl Rc Hh) in E. injection E as <-.
        destruct (report_facts c s2 ErrBackend) as (R1 & R2 & R3 & R4 & R5 & R6 & R7).
        assert (Q2 : queued s2 = queued (dSess x)) by (unfold s2; rewrite queued_emit, app_nil_r; reflexivity).
        split; [|split; [rewrite R1; reflexivity|split; [rewrite R7; exact Q2|split; [rewrite R3; exact Cn|rewrite R4; exact Nx]]]].
        apply harmless; auto; try congruence; [rewrite R2; exact A1|rewrite R3; exact Hw].
      + unfold iReceive in E. rewrite Rc in E. injection E as <-.
        split; [|split; [reflexivity|split; [reflexivity|split; [exact Cn|exact Nx]]]]. apply harmless; auto.
  Qed.

  (** ** What arrives *)

  (** Bytes which are no packet of the peer. *)
  Definition quiet (x x' : side) : Prop :=
    dNet x' = dNet x /\ dWrote x' = dWrote x /\ iKx (dSess x') = iKx (dSess x) /\ queued (dSess x') = queued (dSess x) /\
    counted (iWin (dSess x)) (iWin (dSess x')) /\ (iNext (dSess x') = iNext (dSess x) \/ iNext (dSess x') = add64 (iNext (dSess x)) 1).

  Lemma arrive_ok : forall c c' p p' x y raw x', honestConf c -> honestConf c' -> cPSK (icKx c) = cPSK (icKx c') ->
    separate verify sign (cIdentity (icKx c)) (cIdentity (icKx c')) ->
    plainTraffic blake3 stream poly1305 (auxKey blake3 sha3 c) (mkey (cPSK (icKx c)) p (pubOf p')) (sessBytes (cSession (icKx c))) (dNet x) ->
    foreign blake3 stream poly1305 (auxKey blake3 sha3 c) (mkey (cPSK (icKx c)) p (pubOf p')) (sessBytes (cSession (icKx c'))) (dNet x) ->
    plainTraffic blake3 stream poly1305 (auxKey blake3 sha3 c') (mkey (cPSK (icKx c)) p (pubOf p')) (sessBytes (cSession (icKx c'))) (dNet y) ->
    sinv c c' p p' x y -> sinv c' c p' p y x -> notForged blake3 sha3 stream poly1305 c x y raw ->
    arrive verify dh blake3 sha3 stream poly1305 c x raw = Some x' ->
    sinv c c' p p' x' y /\ sinv c' c p' p y x' /\
    (hasLocal (xOf x) -> hasLocal (xOf x')) /\ (hasRemote (xOf x) -> hasRemote (xOf x')) /\
    ((exists n, eff c c' p p' x y (SRecv n) x') \/ quiet x x').
  Proof.
    intros c c' p p' x y raw x' Hc Hc' Hp Sep PX FX PY SX SY [Hb NF] E.
    assert (HP : primitives_ok stream poly1305) by apply id.
    assert (PB : peer_ok (peerOf blake3 sha3 c (dSess x))).
    { destruct id as [I1 I2 I3 I4 _ _ _ _ _]. destruct SX as (K & _). exact (side_peer_ok dh blake3 sha3 pubOf I2 I3 I4 c c' p (pubOf p') _ (dSess x) Hc Hc' K). }
    assert (Q : ((exists e, dec c x raw = Ret (Err e)) \/
       exists v fl, dec c x raw = Ret (Ok (packetIDBytes v, len (wireBytes (kxMsgOf sign pubOf c p fl)), wireBytes (kxMsgOf sign pubOf c p fl)))) ->
       sinv c c' p p' x' y /\ sinv c' c p' p y x' /\
       (hasLocal (xOf x) -> hasLocal (xOf x')) /\ (hasRemote (xOf x) -> hasRemote (xOf x')) /\
       ((exists n, eff c c' p p' x y (SRecv n) x') \/ quiet x x')).
    { intros De. unfold arrive in E. destruct (istep _ _ _ _ _ _ _ _ _) as [s'|] eqn:Es; [|discriminate]. injection E as <-.
      destruct (nobody c c' p p' x y raw s' Hc Hc' Sep SX De Es) as (S1 & S2 & S3 & S4 & S5).
      assert (Kx : xOf {| dSess := s'; dNet := dNet x; dWrote := dWrote x |} = xOf x) by (unfold xOf; exact S2).
      split; [exact S1|]. split.
      { apply (SI_other dh blake3 sha3 stream poly1305 sign pubOf False) with (y := x); auto; rewrite ?Kx; auto. apply incl_refl. }
      rewrite Kx. split; [auto|]. split; [auto|]. right. unfold quiet. cbn [dNet dWrote dSess]. auto 10. }
    destruct (opened blake3 sha3 stream poly1305 c (dSess x) raw HP PB Hb) as [O|De]; [|auto].
    destruct (NF O) as [Hin|Hin].
    - apply Q. eapply reflected; eauto.
    - destruct (In_nth_error _ _ Hin) as [n En].
      assert (E' : sideStep verify dh blake3 sha3 stream poly1305 sign c x (dNet y) (SRecv n) = Some x') by (cbn [sideStep]; rewrite En; exact E).
      destruct (side_ok verify dh blake3 sha3 stream poly1305 sign pubOf id False c c' p p' x y (SRecv n) x' Hc Hc' Hp PY SX SY I E') as (S1 & S2 & S3 & S4 & _ & S5).
      eauto 10.
  Qed.

  (** ** At most once *)

  (** [acc]: accepted packet IDs; [own]: those of packets of the peer. *)
  Definition LA (o : sizeOption) (c' : iconf) (p' q : bytes) (x y : side) (T : N) : Prop :=
    exists log,
      Forall2 (fun raw e => asPacket c' p' q y x raw (fst e) (snd e)) (dNet y) log /\
      increasing_from 0 (map fst log) /\ Forall (fun e => fst e <= iNext (dSess y)) log /\ iNext (dSess y) <= T /\
      flat_map (fun e => optl (snd e)) log = dWrote y /\
      match iWin (dSess x) with
      | None => o = NegSize
      | Some st => exists acc own, Sound (words o) st acc /\ ((words o <= 1)%nat -> Complete st acc /\ NoDup own) /\ incl own acc /\ incl own (map fst log) /\
          queued (dSess x) = flat_map (payloadOf log) (rev own)
      end.

  Lemma LA_init : forall c' p' q ra wa rb wb md mf T, LA wa c' p' q (sideInit ra wa md mf) (sideInit rb wb md mf) T.
  Proof.
    intros. exists []. split; [constructor|]. split; [exact I|]. split; [constructor|]. split; [cbn; lia|]. split; [reflexivity|].
    cbn [sideInit dSess isessInit iWin]. destruct wa as [|n]; [reflexivity|].
    destruct (session_storage_some n) as (st & E & S & C & _). rewrite E. exists [], [].
    split; [unfold words; rewrite E; exact S|]. split; [intros _; split; [exact C|constructor]|]. split; [intros z []|]. split; [intros z []|reflexivity].
  Qed.

  Lemma LA_receiver : forall w0 c c' p p' x y l x' T, LA w0 c' p' (pubOf p) x y T -> T < 2^64 ->
    (hasLocal (xOf x) -> hasLocal (xOf x')) -> (hasRemote (xOf x) -> hasRemote (xOf x')) -> eff c c' p p' x y l x' ->
    LA w0 c' p' (pubOf p) x' y T.
  Proof.
    intros wd c c' p p' x y l x' T (log & F & Inc & Le & LeT & Wr & W) HT HL HR E.
    assert (F' : Forall2 (fun raw e => asPacket c' p' (pubOf p) y x' raw (fst e) (snd e)) (dNet y) log).
    { eapply forall2_mono; [exact F|]. intros raw e H. eapply packetAs_mono; [exact H|auto|auto|apply incl_refl|]. intros [H1 H2]. split; auto. }
    assert (G : iWin (dSess x') = iWin (dSess x) -> queued (dSess x') = queued (dSess x) -> LA wd c' p' (pubOf p) x' y T).
    { intros E1 E2. exists log. rewrite E1, E2. auto 10. }
    unfold effect in E. destruct l as [k|n|pl| |]; try (destruct E as (E1 & E2 & _); auto; fail).
    destruct E as (_ & _ & _ & raw & En & E). destruct (forall2_nth _ _ _ _ _ _ _ F En) as ([v o] & El & Pk). cbn [fst snd] in Pk.
    destruct (E v o Pk) as (w & b & Ck & Ew & Eq). exists log. split; [exact F'|]. split; [exact Inc|]. split; [exact Le|]. split; [exact LeT|].
    split; [exact Wr|]. rewrite Ew. assert (Hin := nth_error_In _ _ El).
    assert (V : v < 2^64) by (rewrite Forall_forall in Le; specialize (Le _ Hin); cbn [fst] in Le; lia).
    assert (Vv : packetIDValue (packetIDBytes v) = v) by (unfold packetIDValue, packetIDBytes; apply le_dec_enc; exact V).
    rewrite Vv in Ck. destruct (iWin (dSess x)) as [st|]; cbn [checkAndRemember] in Ck; [|injection Ck as <- _; exact W].
    destruct W as (acc & own & S & Cm & Io & Ia & Q). destruct (push_sound (words wd) st acc v S V) as (st1 & b1 & Ep & S1 & _). rewrite Ep in Ck.
    injection Ck as <- <-. exists (if b1 then v :: acc else acc), (if b1 then v :: own else own). split; [exact S1|].
    split.
    { intros Hw. destruct (Cm Hw) as [C0 N0]. destruct (push_complete (words wd) st acc v S C0 V) as (st2 & b2 & Ep2 & C2 & NI).
      { unfold jump_ok. destruct (N.le_gt_cases (v - latest st) 64); [auto|]. right. right. lia. }
      rewrite Ep in Ep2. injection Ep2 as <- <-. split; [exact C2|]. destruct b1; [constructor; [intros Z; exact (NI eq_refl (Io _ Z))|exact N0]|exact N0]. }
    split. { destruct b1; [|exact Io]. intros z [<-|Hz]; [left; reflexivity|right; apply Io, Hz]. }
    split.
    { destruct b1; [|exact Ia]. intros z [<-|Hz]; [|apply Ia, Hz]. change v with (fst (v, o)). apply in_map. exact Hin. }
    rewrite Eq, Q. destruct b1; [|rewrite app_nil_r; reflexivity]. cbn [rev]. rewrite flat_map_app. cbn [flat_map]. rewrite app_nil_r. f_equal.
    symmetry. change v with (fst (v, o)). apply (payload_at log n (v, o)); [eapply increasing_nodup; eauto|exact El].
  Qed.

  Lemma LA_quiet : forall w0 c' p' q x y x' T, LA w0 c' p' q x y T -> quiet x x' -> LA w0 c' p' q x' y T.
  Proof.
    intros wd c' p' q x y x' T (log & F & Inc & Le & LeT & Wr & W) (_ & _ & Kx & Q & Cn & _). exists log.
    split. { eapply forall2_mono; [exact F|]. intros raw e H. eapply packetAs_mono; [exact H|auto|auto|apply incl_refl|]. unfold xOf. rewrite Kx. auto. }
    split; [exact Inc|]. split; [exact Le|]. split; [exact LeT|]. split; [exact Wr|]. rewrite Q. destruct Cn as [-> | (v & b & V & Ck)]; [exact W|].
    destruct (iWin (dSess x)) as [st|]; cbn [checkAndRemember] in Ck; [|injection Ck as <- _; exact W].
    destruct W as (acc & own & S & Cm & Io & Ia & Qe). destruct (push_sound (words wd) st acc v S V) as (st1 & b1 & Ep & S1 & _). rewrite Ep in Ck.
    injection Ck as <- <-. exists (if b1 then v :: acc else acc), own. split; [exact S1|].
    split.
    { intros Hw. destruct (Cm Hw) as [C0 N0]. destruct (push_complete (words wd) st acc v S C0 V) as (st2 & b2 & Ep2 & C2 & NI).
      { unfold jump_ok. destruct (N.le_gt_cases (v - latest st) 64); [auto|]. right. right. lia. }
      rewrite Ep in Ep2. injection Ep2 as <- <-. auto. }
    split; [|auto]. destruct b1; [|exact Io]. intros z Hz. right. apply Io, Hz.
  Qed.

  Lemma LA_still : forall w0 c' p' q x y y' T, LA w0 c' p' q x y T -> T + 1 < 2^64 -> dNet y' = dNet y -> dWrote y' = dWrote y ->
    (hasLocal (xOf y) -> hasLocal (xOf y')) -> (hasRemote (xOf y) -> hasRemote (xOf y')) ->
    (iNext (dSess y') = iNext (dSess y) \/ iNext (dSess y') = add64 (iNext (dSess y)) 1) -> LA w0 c' p' q x y' (T + 1).
  Proof.
    intros wd c' p' q x y y' T (log & F & Inc & Le & LeT & Wr & W) HT E1 E2 HL HR E3.
    assert (Nx : add64 (iNext (dSess y)) 1 = iNext (dSess y) + 1) by (unfold add64; apply N.mod_small; lia). rewrite Nx in E3.
    exists log. rewrite E1, E2.
    split. { eapply forall2_mono; [exact F|]. intros raw e H. eapply packetAs_mono; [exact H|auto|auto|rewrite E2; apply incl_refl|auto]. }
    split; [exact Inc|]. split; [eapply Forall_impl; [|exact Le]; cbn beta; intros a Ha; lia|]. split; [lia|]. auto.
  Qed.

  Lemma LA_sender : forall w0 c c' p p' x y l y' T, LA w0 c' p' (pubOf p) x y T -> T + 1 < 2^64 ->
    (hasLocal (xOf y) -> hasLocal (xOf y')) -> (hasRemote (xOf y) -> hasRemote (xOf y')) -> incl (dWrote y) (dWrote y') ->
    eff c' c p' p y x l y' -> LA w0 c' p' (pubOf p) x y' (T + 1).
  Proof.
    intros wd c c' p p' x y l y' T L HT HL HR HW E.
    assert (G : dNet y' = dNet y -> dWrote y' = dWrote y -> (iNext (dSess y') = iNext (dSess y) \/ iNext (dSess y') = add64 (iNext (dSess y)) 1) ->
                LA wd c' p' (pubOf p) x y' (T + 1)) by (intros E1 E2 E3; apply (LA_still _ _ _ _ _ y); auto).
    destruct L as (log & F & Inc & Le & LeT & Wr & W).
    assert (F' : Forall2 (fun raw e => asPacket c' p' (pubOf p) y' x raw (fst e) (snd e)) (dNet y) log).
    { eapply forall2_mono; [exact F|]. intros raw e H. eapply packetAs_mono; [exact H|auto|auto|exact HW|auto]. }
    assert (Nx : add64 (iNext (dSess y)) 1 = iNext (dSess y) + 1) by (unfold add64; apply N.mod_small; lia).
    assert (G2 : grew dh blake3 sha3 stream poly1305 sign pubOf c' p' (pubOf p) y y' x -> LA wd c' p' (pubOf p) x y' (T + 1)).
    { intros (_ & _ & [(E1 & E2 & E3)|(raw & o & E1 & E2 & E3 & E4)]); [apply G; auto|]. rewrite Nx in E3, E4. set (v := iNext (dSess y) + 1) in *.
      assert (Lt : forall j, In j (map fst log) -> j < v).
      { intros j Hj. apply in_map_iff in Hj. destruct Hj as (e & <- & He). rewrite Forall_forall in Le. specialize (Le e He). cbn beta in Le. unfold v. lia. }
      exists (log ++ [(v, o)]). rewrite E1, E2, E3. split; [apply Forall2_app; [exact F'|constructor; [exact E4|constructor]]|].
      split; [rewrite map_app; apply increasing_snoc; [exact Inc|cbn [fst]; unfold v; lia|exact Lt]|].
      split; [apply Forall_app; split; [eapply Forall_impl; [|exact Le]; cbn beta; intros a Ha; unfold v; lia|constructor; [cbn; lia|constructor]]|].
      split; [unfold v; lia|]. split; [rewrite flat_map_app, Wr; cbn [flat_map]; rewrite app_nil_r; reflexivity|].
      destruct (iWin (dSess x)) as [st|]; [|exact W]. destruct W as (acc & own & S & C & Io & Ia & Q). exists acc, own. split; [exact S|]. split; [exact C|].
      split; [exact Io|]. split; [intros z Hz; rewrite map_app; apply in_or_app; left; apply Ia, Hz|]. rewrite Q.
      assert (Hr : forall z, In z (rev own) -> In z (map fst log)) by (intros z Hz; apply Ia; apply in_rev; exact Hz).
      revert Hr. generalize (rev own). induction l0 as [|z r IH]; intros Hr; [reflexivity|]. cbn [flat_map]. rewrite payload_snoc, IH; auto.
      - intros z' Hz'. apply Hr. right. exact Hz'.
      - cbn [fst]. specialize (Lt z (Hr z (or_introl eq_refl))). lia. }
    unfold effect in E. destruct l as [k|n|pl| |]; try (apply G2; exact E; fail).
    destruct E as (E1 & E2 & E3 & _). apply G; auto.
  Qed.

  Lemma LA_later : forall w c' p' q x y T T', LA w c' p' q x y T -> T <= T' -> LA w c' p' q x y T'.
  Proof. intros w c' p' q x y T T' (log & A & B & C & D & E) H. exists log. repeat split; try tauto. lia. Qed.

  Lemma LA_once : forall w c' p' q x y T, LA w c' p' q x y T -> (words w <= 1)%nat -> w <> NegSize ->
    exists rest, Permutation (queued (dSess x) ++ rest) (dWrote y).
  Proof.
    intros w c' p' q x y T (log & _ & Inc & _ & _ & Wr & W) Hw Ew. destruct (iWin (dSess x)) as [st|]; [|contradiction]. destruct W as (acc & own & _ & C & _ & Ia & Q).
    destruct (C Hw) as [_ ND]. assert (NL := increasing_nodup _ _ Inc).
    destruct (nodup_part (rev own) (map fst log)) as [r Hr]; auto.
    - apply NoDup_rev. exact ND.
    - intros z Hz. apply Ia, in_rev, Hz.
    - exists (flat_map (payloadOf log) r). rewrite Q, <- flat_map_app, <- Wr, <- (payload_all log NL). apply flat_map_perm. exact Hr.
  Qed.

  Lemma foreign_incl : forall aux k i net net', foreign blake3 stream poly1305 aux k i net' -> incl net net' -> foreign blake3 stream poly1305 aux k i net.
  Proof. intros aux k i net net' A H pid body L Hi. apply A; auto. Qed.

  (** ** Runs *)
  Variables ca cb : iconf.
  Variables pa pb : bytes.
  Hypothesis Ha : honestConf ca.
  Hypothesis Hb : honestConf cb.
  Hypothesis psk : cPSK (icKx ca) = cPSK (icKx cb).
  Hypothesis sepA : separate verify sign (cIdentity (icKx ca)) (cIdentity (icKx cb)).
  Hypothesis sepB : separate verify sign (cIdentity (icKx cb)) (cIdentity (icKx ca)).
  Notation run := (attackedRun verify dh blake3 sha3 stream poly1305 sign pubOf ca cb pa pb).
  Notation plain := (plainTraffic blake3 stream poly1305).
  Notation alien := (foreign blake3 stream poly1305).

  Lemma attack_inv : forall wa wb md mf k ls d, sharedKey dh blake3 sha3 (cPSK (icKx ca)) pa (pubOf pb) k ->
    run (duoInit ca cb wa wb md mf) ls d ->
    plain (auxKey blake3 sha3 cb) k (sessBytes (cSession (icKx cb))) (dNet (dB d)) -> alien (auxKey blake3 sha3 cb) k (sessBytes (cSession (icKx ca))) (dNet (dB d)) ->
    plain (auxKey blake3 sha3 ca) k (sessBytes (cSession (icKx ca))) (dNet (dA d)) -> alien (auxKey blake3 sha3 ca) k (sessBytes (cSession (icKx cb))) (dNet (dA d)) ->
    (sinv ca cb pa pb (dA d) (dB d) /\ sinv cb ca pb pa (dB d) (dA d)) /\
    (N.of_nat (length ls) < 2^64 ->
     LA wa cb pb (pubOf pa) (dA d) (dB d) (N.of_nat (length ls)) /\ LA wb ca pa (pubOf pb) (dB d) (dA d) (N.of_nat (length ls))).
  Proof.
    intros wa wb md mf k ls d Hk R. assert (Ek := shared_mk verify dh blake3 sha3 stream poly1305 sign pubOf id _ _ _ _ Hk). subst k.
    assert (Sym : mkey (cPSK (icKx ca)) pa (pubOf pb) = mkey (cPSK (icKx cb)) pb (pubOf pa)).
    { rewrite psk. apply mkey_sym. exact (id_dh_comm _ _ _ _ _ _ _ id). }
    induction R as [|ls d l d' R IH HO E]; intros PB FB PA FA.
    - split; [split; apply SI_init|]. intros _. split; apply LA_init.
    - rewrite app_length, Nnat.Nat2N.inj_add. cbn [length]. change (N.of_nat 1) with 1. set (T := N.of_nat (length ls)) in *.
      assert (Inc : incl (dNet (dA d)) (dNet (dA d')) /\ incl (dNet (dB d)) (dNet (dB d'))).
      { destruct l as [[l|l]|raw|raw]; cbn [astep] in E.
        - unfold dstep in E. destruct (sideStep _ _ _ _ _ _ _ ca (dA d) (dNet (dB d)) l) as [x|] eqn:Ex; [|discriminate]. injection E as <-.
          split; [eapply side_net; eauto|apply incl_refl].
        - unfold dstep in E. destruct (sideStep _ _ _ _ _ _ _ cb (dB d) (dNet (dA d)) l) as [x|] eqn:Ex; [|discriminate]. injection E as <-.
          split; [apply incl_refl|eapply side_net; eauto].
        - unfold arrive in E. destruct (istep _ _ _ _ _ _ _ _ _); [|discriminate]. injection E as <-. split; apply incl_refl.
        - unfold arrive in E. destruct (istep _ _ _ _ _ _ _ _ _); [|discriminate]. injection E as <-. split; apply incl_refl. }
      destruct Inc as [NA NB].
      assert (PB' := plain_incl blake3 stream poly1305 _ _ _ _ _ PB NB). assert (PA' := plain_incl blake3 stream poly1305 _ _ _ _ _ PA NA).
      assert (FB' := foreign_incl _ _ _ _ _ FB NB). assert (FA' := foreign_incl _ _ _ _ _ FA NA).
      destruct (IH PB' FB' PA' FA') as [[SA SB] L]. clear IH.
      assert (PBs := PB'). assert (PAs := PA'). assert (FBs := FB'). assert (FAs := FA'). rewrite Sym in PBs, PAs, FBs, FAs.
      destruct l as [[l|l]|raw|raw]; cbn [astep] in E.
      + unfold dstep in E. destruct (sideStep _ _ _ _ _ _ _ ca (dA d) (dNet (dB d)) l) as [x|] eqn:Ex; [|discriminate]. injection E as <-. cbn [dA dB] in *.
        destruct (side_ok verify dh blake3 sha3 stream poly1305 sign pubOf id False ca cb pa pb _ _ l x Ha Hb psk PB' SA SB HO Ex) as (S1 & S2 & M1 & M2 & M3 & Ef).
        split; [auto|]. intros HT. destruct L as [LA0 LB0]; [lia|]. split.
        * apply (LA_later _ _ _ _ _ _ T); [|lia]. eapply LA_receiver; eauto. lia.
        * eapply LA_sender; eauto.
      + unfold dstep in E. destruct (sideStep _ _ _ _ _ _ _ cb (dB d) (dNet (dA d)) l) as [x|] eqn:Ex; [|discriminate]. injection E as <-. cbn [dA dB] in *.
        destruct (side_ok verify dh blake3 sha3 stream poly1305 sign pubOf id False cb ca pb pa _ _ l x Hb Ha (eq_sym psk) PAs SB SA HO Ex) as (S1 & S2 & M1 & M2 & M3 & Ef).
        split; [auto|]. intros HT. destruct L as [LA0 LB0]; [lia|]. split.
        * eapply LA_sender; eauto.
        * apply (LA_later _ _ _ _ _ _ T); [|lia]. eapply LA_receiver; eauto. lia.
      + destruct (arrive _ _ _ _ _ _ ca (dA d) raw) as [x|] eqn:Ex; [|discriminate]. injection E as <-. cbn [dA dB] in *.
        destruct (arrive_ok ca cb pa pb _ _ raw x Ha Hb psk sepA PA' FA' PB' SA SB HO Ex) as (S1 & S2 & M1 & M2 & Ef).
        split; [auto|]. intros HT. destruct L as [LA0 LB0]; [lia|]. destruct Ef as [[n Ef]|Qu].
        * split; [apply (LA_later _ _ _ _ _ _ T); [|lia]; eapply LA_receiver; eauto; lia|].
          assert (Ef0 := Ef). destruct Ef0 as (E1 & E2 & E3 & _). apply (LA_still _ _ _ _ _ (dA d)); auto.
        * split; [apply (LA_later _ _ _ _ _ _ T); [|lia]; eapply LA_quiet; eauto|].
          destruct Qu as (E1 & E2 & E3 & _ & _ & E4). apply (LA_still _ _ _ _ _ (dA d)); auto.
      + destruct (arrive _ _ _ _ _ _ cb (dB d) raw) as [x|] eqn:Ex; [|discriminate]. injection E as <-. cbn [dA dB] in *.
        destruct (arrive_ok cb ca pb pa _ _ raw x Hb Ha (eq_sym psk) sepB PBs FBs PAs SB SA HO Ex) as (S1 & S2 & M1 & M2 & Ef).
        split; [auto|]. intros HT. destruct L as [LA0 LB0]; [lia|]. destruct Ef as [[n Ef]|Qu].
        * split; [|apply (LA_later _ _ _ _ _ _ T); [|lia]; eapply LA_receiver; eauto; lia].
          assert (Ef0 := Ef). destruct Ef0 as (E1 & E2 & E3 & _). apply (LA_still _ _ _ _ _ (dB d)); auto.
        * split; [|apply (LA_later _ _ _ _ _ _ T); [|lia]; eapply LA_quiet; eauto].
          destruct Qu as (E1 & E2 & E3 & _ & _ & E4). apply (LA_still _ _ _ _ _ (dB d)); auto.
  Qed.
End Attack.
