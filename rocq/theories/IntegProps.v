(** Properties C99-C103: the session put together. *)
From Coq Require Import NArith Arith List Bool Lia.
From Verif Require Import Base BaseLemmas TS MessageModel CodecProofs PendingChainModel PacketIDModel PacketIDSpec PacketIDProofs PacketIDRun
  ReaderModel ReaderLoopModel ReaderSpec ReaderProofs PacketModel PacketSpec PacketProofs PacketProps StateModel KxModel KxSpec KxProofs KxProps
  IntegModel IntegSpec IntegProofs IntegAuth IntegSafe.
Import ListNotations.
Local Open Scope N_scope.

(** A packet made from public data only: no key, no identity. *)
Definition keylessPacket (stream : bytes -> bytes -> nat -> N) (blake3 : bytes -> bytes) (poly1305 : bytes -> bytes -> bytes)
    (pid msgs raw : bytes) : Prop :=
  length pid = 8%nat /\ len msgs + 44 < 2^32 /\ bytes_ok raw /\
  sealPacket stream blake3 poly1305
    {| pAux := None; pKeys := []; pRemoteID := None; pOwnID := repeat 0 16; pNext := 0 |} false pid msgs = Ret (Ok raw).

Section Attack.
  Variable verify : bytes -> bytes -> bytes -> bool.
  Variable dh : bytes -> bytes -> bytes.
  Variable blake3 sha3 : bytes -> bytes.
  Variable stream : bytes -> bytes -> nat -> N.
  Variable poly1305 : bytes -> bytes -> bytes.
  Variable c : iconf.
  Hypothesis prim : primitives_ok stream poly1305.
  Hypothesis dh_len : forall a b, length (dh a b) = 32%nat.
  Hypothesis sha3_len : forall b, length (sha3 b) = 32%nat.
  Hypothesis noPSK : cPSK (icKx c) = None.

  Notation recv := (iReceive verify dh blake3 sha3 stream poly1305 c).
  Notation step := (istep verify dh blake3 sha3 stream poly1305 c).
  Notation peer_of := (peerOf blake3 sha3 c).

  Lemma sessBytes_len : forall i, length (sessBytes i) = 16%nat.
  Proof. intros i. unfold sessBytes. rewrite app_length, !le_enc_length. reflexivity. Qed.

  Lemma keyless_received : forall s pid msgs raw win,
    peer_ok (peer_of s) -> keylessPacket stream blake3 poly1305 pid msgs raw ->
    Forall (fun k => k = None \/ ~ firstTagFits stream blake3 poly1305 k (remoteIV (peer_of s) pid) pid (skipn 8 raw)) (kKeys (xKx (iKx s))) ->
    checkAndRemember (iWin s) (packetIDValue pid) = Ret (win, true) ->
    exists p, receivePacket stream blake3 poly1305 (peer_of s) (iWin s) raw = Ret (p, win, PktAccepted (len msgs) msgs).
  Proof.
    intros s pid msgs raw win Hp (Lp & Hl & Hb & Hs) HF Hw.
    assert (A : pAux (peer_of s) = None) by (unfold peerOf, auxKey; cbn; rewrite noPSK; reflexivity).
    assert (D : decryptPacket stream blake3 poly1305 (peer_of s) raw = Ret (Ok (pid, len msgs, msgs))).
    { refine (C15_injection_refuted stream blake3 poly1305 (peer_of s) (repeat 0 16) pid msgs raw _ prim Hp eq_refl _ Lp Hl Hs Hb HF).
      rewrite A. reflexivity. }
    unfold receivePacket. destruct raw as [|x raw]; [discriminate|]. rewrite D, Hw. eauto.
  Qed.

  (** The victim: it has just made its first key and sent it. *)
  Definition stampOf (now : N) : N := if u64 now <=? 0 then u64 (0 + 1) else u64 now.
  Definition startRun (priv pub : bytes) (now0 now : N) : list ilabel :=
    [IKx (KLoopGo now0); IKx KLoopCheck; IKx (KLoopGen priv pub now); IKx KLoopSend].
  Definition startKx (id priv pub : bytes) (now : N) : kxs :=
    {| xKx := setLocalKeys (newKx (Some id)) None (Some priv) (Some pub) (stampOf now); xLoop := LpWait (stampOf now); xAnswers := [];
       xSent := [{| kSess := cSession (icKx c); kIdentity := cIdentity (icKx c); kPub := pub; kMode := cMode (icKx c); kFlags := kxSetIsAnswer 0 false |}];
       xLog := [stampOf now]; xPanic := false |}.

  Lemma stampOf_pos : forall now, stampOf now =? 0 = false.
  Proof.
    intros now. unfold stampOf. destruct (u64 now <=? 0) eqn:E; [reflexivity|]. apply N.leb_gt in E. apply N.eqb_neq. lia.
  Qed.

  Lemma start_run : forall id n md mf priv pub now0 now,
    exec step (isessInit (Some id) n md mf) (startRun priv pub now0 now) =
      Some (upKx (isessInit (Some id) n md mf) (startKx id priv pub now)).
  Proof.
    intros id n md mf priv pub now0 now. unfold startRun, exec.
    assert (E1 : step (isessInit (Some id) n md mf) (IKx (KLoopGo now0)) =
      Some (upKx (isessInit (Some id) n md mf) (setLoop (setX (kxsInit (Some id)) (setNotify (newKx (Some id)) None)) LpGo))).
    { unfold istep. cbn [isessInit iPanic isHandle iKx kstep kxsInit xPanic xLoop xKx newKx kCtxDone kSkipUntil].
      replace (now0 <? 0) with false by (symmetry; apply N.ltb_ge; lia). reflexivity. }
    rewrite E1. clear E1.
    change (step (upKx (isessInit (Some id) n md mf) (setLoop (setX (kxsInit (Some id)) (setNotify (newKx (Some id)) None)) LpGo)) (IKx KLoopCheck))
      with (Some (upKx (isessInit (Some id) n md mf) (setLoop (setX (kxsInit (Some id)) (setNotify (newKx (Some id)) None)) LpGen))).
    cbn match.
    assert (E3 : step (upKx (isessInit (Some id) n md mf) (setLoop (setX (kxsInit (Some id)) (setNotify (newKx (Some id)) None)) LpGen)) (IKx (KLoopGen priv pub now)) =
      Some (upKx (isessInit (Some id) n md mf) {| xKx := setLocalKeys (newKx (Some id)) None (Some priv) (Some pub) (stampOf now);
              xLoop := LpSend (stampOf now); xAnswers := []; xSent := []; xLog := [stampOf now]; xPanic := false |})).
    { unfold istep. cbn [upKx isessInit iPanic isHandle iKx kstep kxsInit xPanic xLoop xKx newKx setLoop setX].
      unfold installLocalKey. cbn [setNotify newKx kLocalAt kNextLocal]. fold (stampOf now).
      unfold updateSecrets. cbn [map secretParts N.eqb Pos.eqb setLocalKeys setNotify newKx kNextLocal kNextRemote kPrevLocal kPrevRemote generateAll generateSharedKey].
      cbn [kNextAt setLocalKeys addLog setX]. rewrite stampOf_pos. reflexivity. }
    rewrite E3. clear E3. reflexivity.
  Qed.

  Lemma start_peer_ok : forall id n md mf priv pub now,
    peer_ok (peer_of (upKx (isessInit (Some id) n md mf) (startKx id priv pub now))).
  Proof.
    intros. unfold peer_ok, peerOf, auxKey. cbn. rewrite noPSK. repeat split; auto.
  Qed.

  (** The answer of the expected peer is taken, whatever session it was made for. *)
  Lemma start_answer : forall id priv pub now m b, (forall x y, dh x y <> zeroKey) -> genuine verify id m b ->
    kxMsg_ok m -> kMode m = cMode (icKx c) -> kPub m <> zeroKey -> kxIsAnswer (kFlags m) = true ->
    exists k, handleKx verify dh blake3 sha3 (icKx c) (xKx (startKx id priv pub now)) b = Ret (k, HDone false) /\
      kKeys k = [Some (dh priv (kPub m)); None; None; None] /\ kErrs k = [] /\ kDone k = 1 /\ kRemoteSession k = Some (kSess m).
  Proof.
    intros id priv pub now m b Hz (sig & tail & W & V) Hm Hmode Hpz Ha.
    assert (A : acceptable verify (icKx c) (xKx (startKx id priv pub now)) m b).
    { destruct (wire_parts _ _ _ _ W) as (_ & W2 & _). split.
      - rewrite W2. pose proof (kx_rt m [] Hm) as R. rewrite app_nil_r in R. exact R.
      - split; [exact Hmode|]. split; [exact Hpz|]. split; [reflexivity|].
        exists sig, (kxEncode m), tail. auto. }
    rewrite (handle_accept verify dh blake3 sha3 _ _ m b A). unfold accept. rewrite (update_spec dh blake3 sha3 dh_len sha3_len), noPSK.
    cbn [startKx xKx setLocalKeys newKx setRemote setNextRemotePublicKey kNextRemote setRemoteKeys kNextLocal kPrevLocal kPrevRemote
         kRemoteIdentity kRemoteSession generateSharedKey].
    replace (bytes_eqb (dh priv (kPub m)) zeroKey) with false by (symmetry; apply bytes_eqb_neq, Hz).
    rewrite Ha. cbn [orb andb negb]. eexists. split; [reflexivity|]. repeat split.
  Qed.

  (** A key-exchange message, not confidential, and an empty application message. *)
  Definition kxMessage (b : bytes) : wireMsg := {| wType := messageTypeKeyExchange; wFlags := 0; wPayload := b |}.
  Definition emptyMessage : wireMsg := {| wType := MessageTypeReadWrite; wFlags := 0; wPayload := [] |}.

  (** One keyless packet with the old answer and an empty message. *)
  Lemma confirmed_alone : forall n md mf priv pub now0 now id m b pid raw,
    (forall x y, dh x y <> zeroKey) -> genuine verify id m b -> kxMsg_ok m -> kMode m = cMode (icKx c) -> kPub m <> zeroKey ->
    kxIsAnswer (kFlags m) = true -> len b + 62 < 2^32 -> packetIDValue pid <> 0 -> packetIDValue pid < 2^64 ->
    keylessPacket stream blake3 poly1305 pid (wireBytes (kxMessage b) ++ wireBytes emptyMessage) raw ->
    exists s keys, exec step (isessInit (Some id) (Size n) md mf) (startRun priv pub now0 now ++ [IPacket raw; IWrite; IRead]) = Some s /\
      iResult s = Some (CfOk keys) /\ keys = [Some (dh priv (kPub m)); None; None; None] /\ stateOf s = SessionStateEstablished.
  Proof.
    intros n md mf priv pub now0 now id m b pid raw Hz Hg Hm Hmode Hpz Ha Hb Hid0 Hid Hk.
    rewrite (exec_app step _ _ _ _ (start_run id (Size n) md mf priv pub now0 now)).
    set (s0 := upKx (isessInit (Some id) (Size n) md mf) (startKx id priv pub now)).
    destruct (start_answer id priv pub now m b Hz Hg Hm Hmode Hpz Ha) as (k & Ek & Kk & Ke & Kd & Ks).
    destruct (fresh_accepted n [] (packetIDValue pid) (sessionStorage (Size n)) [] (Forall_nil _) Hid eq_refl
                (fun H => H) Hid0) as [win Ew].
    { left. cbn. lia. }
    destruct (keyless_received s0 pid _ raw win (start_peer_ok id (Size n) md mf priv pub now) Hk (Forall_nil _) Ew) as [p Ep].
    assert (B : len b < 2^32) by lia. unfold len in B.
    set (s1 := upFails (upPkt s0 (pNext p) win) 0 (iUnexpected s0)).
    assert (H1 : exists s2, iHandle verify dh blake3 sha3 c s1 (hdrOf (kxMessage b)) b = Ret (s2, Some (len b)) /\
              iKx s2 = setX (iKx s0) k /\ iPanic s2 = false /\ iWritten s2 = false /\ iResult s2 = None /\ iTaken s2 = O /\
              iRcv s2 = setSessState (emit (iRcv s0) (EvHandler messageTypeKeyExchange b)) SessionStateEstablished).
    { assert (HO : handleOne (iRcv s1) (hdrOf (kxMessage b)) b = Ret (emit (iRcv s1) (EvHandler messageTypeKeyExchange b), 0, Some (len b))).
      { unfold handleOne. change (detachOnMessagesCount (iRcv s1)) with 0.
        change (isFragmented (mFlags (hdrOf (kxMessage b)))) with false. cbn [N.ltb N.compare andb]. unfold processIncomingMessage.
        change (lookup (mType (hdrOf (kxMessage b))) (messengers (iRcv s1))) with (Some true).
        change (mLength (hdrOf (kxMessage b))) with (len b). cbn match.
        replace (gslice b 0 (len b)) with (Some b); [reflexivity|].
        unfold gslice. rewrite N.leb_refl. replace (0 <=? len b) with true by (symmetry; apply N.leb_le; lia).
        cbn [andb N.to_nat skipn]. rewrite N.sub_0_r. unfold len. rewrite Nnat.Nat2N.id, firstn_all. reflexivity. }
      set (s2 := upRcv s1 (emit (iRcv s1) (EvHandler messageTypeKeyExchange b))).
      assert (HE : handleEvent verify dh blake3 sha3 c s2 (EvHandler messageTypeKeyExchange b) = Ret (connect (upKx s2 (setX (iKx s0) k)))).
      { unfold handleEvent. change (messageTypeKeyExchange =? messageTypeKeyExchange) with true. cbn match.
        change (xKx (iKx s2)) with (xKx (startKx id priv pub now)). rewrite Ek. cbn match.
        unfold afterKx. change (xKx (setX (iKx s2) k)) with k. rewrite Ke, Kd.
        change (kErrs (xKx (iKx s2))) with (@nil kxErr). change (kDone (xKx (iKx s2))) with 0. reflexivity. }
      unfold iHandle. rewrite HO. change (out (iRcv s1)) with (@nil event).
      cbn [emit out length Nat.ltb Nat.leb]. change {| maxChainIDDiff := _ |} with (emit (iRcv s1) (EvHandler messageTypeKeyExchange b)).
      fold s2. rewrite HE. cbn [N.ltb N.compare andb]. eexists. split; [reflexivity|]. repeat split. }
    destruct H1 as (s2 & H1 & F1 & F2 & F3 & F4 & F5 & F6).
    assert (H2 : exists s3, iHandle verify dh blake3 sha3 c s2 (hdrOf emptyMessage) [] = Ret (s3, Some 0) /\
              iKx s3 = iKx s2 /\ iPanic s3 = false /\ iWritten s3 = false /\ iResult s3 = None /\ iTaken s3 = O /\
              iRcv s3 = emit (iRcv s2) (EvQueue MessageTypeReadWrite [])).
    { unfold iHandle. rewrite F6. eexists. split; [reflexivity|].
      split; [reflexivity|]. split; [exact F2|]. split; [exact F3|]. split; [exact F4|]. split; [exact F5|]. reflexivity. }
    destruct H2 as (s3 & H2 & G1 & G2 & G3 & G4 & G5 & G6).
    assert (R : recv s0 raw = Ret s3).
    { apply (receive_two verify dh blake3 sha3 stream poly1305 c s0 raw p win (kxMessage b) emptyMessage s2 (len b) s3 (Some 0)); auto;
        repeat split; auto. }
    cbn [exec]. unfold istep at 1. change (iPanic s0) with false.
    change (iOver s0 || isDoneState (stateOf s0) || locked (iKx s0)) with false. cbn match. rewrite R.
    assert (St : stateOf s3 = SessionStateEstablished) by (unfold stateOf; rewrite G6, F6; reflexivity).
    assert (Pk : peer_ok (fst (takePacketID (peer_of s3)))).
    { unfold peer_ok, peerOf, auxKey. cbn. rewrite noPSK, G1, F1. cbn [setX xKx]. rewrite Kk, Ks. cbn. repeat split; auto.
      repeat constructor; cbn; auto. }
    destruct (takePacketID (peer_of s3)) as [p3 pid3] eqn:Et.
    assert (Kp : pKeys p3 = [Some (dh priv (kPub m)); None; None; None]).
    { unfold takePacketID in Et. injection Et as <- _. cbn. rewrite G1, F1. exact Kk. }
    destruct (seal_spec stream blake3 poly1305 prim p3 true pid3 (encodeMsg MessageTypeReadWrite (setIsConfidential 0 true) []) Pk) as (body & Es & _).
    { unfold takePacketID in Et. injection Et as _ <-. apply le_enc_length. }
    { reflexivity. }
    { intros _. unfold sealKey. rewrite Kp. discriminate. }
    unfold istep at 1. rewrite G2, G3, St. cbn [orb N.eqb Pos.eqb SessionStateEstablished negb]. unfold sendPacket. rewrite Et, Es.
    unfold istep at 1.
    set (raw3 := idOnWire stream (pAux p3) pid3 ++ body).
    change (iPanic (upSent s3 (pNext p3) raw3)) with (iPanic s3). rewrite G2.
    change (iWritten (upSent s3 (pNext p3) raw3)) with true.
    change (iResult (upSent s3 (pNext p3) raw3)) with (iResult s3). rewrite G4.
    change (iTaken (upSent s3 (pNext p3) raw3)) with (iTaken s3). rewrite G5.
    change (queued (upSent s3 (pNext p3) raw3)) with (queued s3). unfold queued. rewrite G6, F6.
    change (iKx (upSent s3 (pNext p3) raw3)) with (iKx s3). rewrite G1, F1. cbn [setX xKx]. rewrite Kk.
    cbn -[upSent upResult]. do 2 eexists. split; [reflexivity|]. split; [reflexivity|]. split; [reflexivity|]. exact St.
  Qed.
End Attack.

(** ** C99 *)

(** Nobody but the victim is there. One packet made of public data and of an
    answer the expected peer once sent to somebody else makes
    [MutualConfirmationOfIdentity] succeed. *)
Theorem C99_success_without_peer_refuted : forall verify dh blake3 sha3 stream poly1305 c n md mf priv pub now0 now id m b pid raw,
  primitives_ok stream poly1305 -> (forall x y, length (dh x y) = 32%nat) -> (forall x, length (sha3 x) = 32%nat) ->
  (forall x y, dh x y <> repeat 0 32) -> cPSK (icKx c) = None ->
  genuine verify id m b -> kxMsg_ok m -> kMode m = cMode (icKx c) -> kPub m <> repeat 0 32 -> kxIsAnswer (kFlags m) = true ->
  len b + 62 < 2^32 -> packetIDValue pid <> 0 -> packetIDValue pid < 2^64 ->
  keylessPacket stream blake3 poly1305 pid (wireBytes (kxMessage b) ++ wireBytes emptyMessage) raw ->
  exists s keys,
    exec (istep verify dh blake3 sha3 stream poly1305 c) (isessInit (Some id) (Size n) md mf)
      (startRun priv pub now0 now ++ [IPacket raw; IWrite; IRead]) = Some s /\
    iResult s = Some (CfOk keys) /\ nth 0 keys None = Some (dh priv (kPub m)).
Proof.
  intros verify dh blake3 sha3 stream poly1305 c n md mf priv pub now0 now id m b pid raw Hp Hl Hs Hz Hn Hg Hm Hmode Hpz Ha Hb H0 H1 Hk.
  destruct (confirmed_alone verify dh blake3 sha3 stream poly1305 c Hp Hl Hs Hn n md mf priv pub now0 now id m b pid raw Hz Hg Hm Hmode Hpz Ha Hb H0 H1 Hk)
    as (s & keys & E & R & K & _).
  exists s, keys. rewrite K at 2. auto.
Qed.
Print Assumptions C99_success_without_peer_refuted.

Definition toyIConf (psk : option bytes) (closeOnError : bool) : iconf :=
  {| icKx := toyConf psk 1; icDetachFails := 2; icErrorOn := Some 3; icCloseOnError := closeOnError |}.
Definition toyStep (psk : option bytes) (closeOnError : bool) :=
  istep toyVerify toyDh PacketProps.toyHash KxProps.toyHash toyStream toyPoly (toyIConf psk closeOnError).
Definition toyKeyless (pid : N) (ms : list wireMsg) : bytes :=
  rawOf (sealPacket toyStream PacketProps.toyHash toyPoly
    {| pAux := None; pKeys := []; pRemoteID := None; pOwnID := repeat 0 16; pNext := 0 |} false (packetIDBytes pid) (concat (map wireBytes ms))).

(** Identity 1 wants to talk to identity 2, whose answer of session 7 (to
    somebody else) is on record. *)
Example C99_example :
  match exec (toyStep None true) (isessInit (Some (key32 2)) (Size 0) 8 65536)
          (startRun (key32 4) (toyPub (key32 4)) 100 200 ++
           [IPacket (toyKeyless 1 [kxMessage (toyWire 2 (toyMsg 2 7 11 1 true)); emptyMessage]); IWrite; IRead]) with
  | Some s => iResult s = Some (CfOk [Some (toyDh (key32 4) (toyPub (key32 11))); None; None; None]) /\
              length (iSent s) = 1%nat /\ stateOf s = SessionStateEstablished
  | None => False
  end.
Proof. vm_compute. auto. Qed.

(** What does hold: the keys returned are four, and each is made of a private
    key drawn by this very session and a public key out of a message with a
    valid signature of the expected identity. *)
Theorem C99_keys_partial : forall verify dh blake3 sha3 stream poly1305 c win md mf id ls s keys,
  (forall x y, length (dh x y) = 32%nat) -> (forall x, length (sha3 x) = 32%nat) ->
  exec (istep verify dh blake3 sha3 stream poly1305 c) (isessInit (Some id) win md mf) ls = Some s ->
  iResult s = Some (CfOk keys) ->
  length keys = 4%nat /\
  forall k, In (Some k) keys -> exists p x, drawn ls p /\ heard verify id (out (iRcv s)) x /\
    madeOf dh (option_map (fun p => sha3 (blake3 (p ++ Salt ++ purpose) ++ Salt ++ purpose)) (cPSK (icKx c))) p x k.
Proof.
  intros verify dh blake3 sha3 stream poly1305 c win md mf id ls s keys Hl Hs E R.
  destruct (sound_run verify dh blake3 sha3 stream poly1305 c id Hl Hs win md mf ls s E) as [_ K].
  destruct (K keys R) as [L S]. split; [exact L|]. intros k Hk. destruct (S k Hk) as (p & x & A & B & M). exists p, x.
  split; [exact A|]. split; [exact B|]. unfold maskOf, hash in M. cbn [concat] in M. rewrite app_nil_r in M. exact M.
Qed.
Print Assumptions C99_keys_partial.

(** The same for every key the session ever uses, whatever happens to it. *)
Theorem C99_session_keys : forall verify dh blake3 sha3 stream poly1305 c win md mf id ls s k,
  (forall x y, length (dh x y) = 32%nat) -> (forall x, length (sha3 x) = 32%nat) ->
  exec (istep verify dh blake3 sha3 stream poly1305 c) (isessInit (Some id) win md mf) ls = Some s ->
  In (Some k) (kKeys (xKx (iKx s))) -> exists p x, drawn ls p /\ heard verify id (out (iRcv s)) x /\
    madeOf dh (option_map (fun p => sha3 (blake3 (p ++ Salt ++ purpose) ++ Salt ++ purpose)) (cPSK (icKx c))) p x k.
Proof.
  intros verify dh blake3 sha3 stream poly1305 c win md mf id ls s k Hl Hs E Hk.
  destruct (sound_run verify dh blake3 sha3 stream poly1305 c id Hl Hs win md mf ls s E) as [(_ & _ & _ & _ & _ & K) _].
  destruct (K k Hk) as (p & x & A & B & M). exists p, x.
  split; [exact A|]. split; [exact B|]. unfold maskOf, hash in M. cbn [concat] in M. rewrite app_nil_r in M. exact M.
Qed.
Print Assumptions C99_session_keys.

(** ** C100 *)

(** A fragment of any type at position 2^64 - 1. *)
Definition wrappedFragment : wireMsg :=
  {| wType := 7; wFlags := 2; wPayload := le_enc 8 1 ++ le_enc 8 (2^64 - 1) ++ le_enc 8 100 ++ [0] |}.

(** It is enough to send it, in a packet made of public data, to a session with
    default options that has just been started. *)
Theorem C100_one_packet_crashes_refuted : forall verify dh blake3 sha3 stream poly1305 c remote n pid raw,
  primitives_ok stream poly1305 -> cPSK (icKx c) = None -> packetIDValue pid <> 0 -> packetIDValue pid < 2^64 ->
  keylessPacket stream blake3 poly1305 pid (wireBytes wrappedFragment) raw ->
  exists s, exec (istep verify dh blake3 sha3 stream poly1305 c) (isessInit remote (Size n) 8 65536) [IPacket raw] = Some s /\ iPanic s = true.
Proof.
  intros verify dh blake3 sha3 stream poly1305 c remote n pid raw Hp Hn H0 H1 Hk.
  set (s0 := isessInit remote (Size n) 8 65536).
  destruct (fresh_accepted n [] (packetIDValue pid) (sessionStorage (Size n)) [] (Forall_nil _) H1 eq_refl (fun H => H) H0) as [win Ew].
  { left. cbn. lia. }
  assert (P : peer_ok (peerOf blake3 sha3 c s0)).
  { unfold peer_ok, peerOf, auxKey. cbn. rewrite Hn. repeat split; auto. }
  destruct (keyless_received blake3 sha3 stream poly1305 c Hp Hn s0 pid _ raw win P Hk (Forall_nil _) Ew) as [p Ep].
  assert (R : iReceive verify dh blake3 sha3 stream poly1305 c s0 raw = Panic).
  { unfold iReceive. rewrite Ep.
    assert (L : runLoop (reportError c) (iHandle verify dh blake3 sha3 c)
              (upFails (upPkt s0 (pNext p) win) 0 (iUnexpected (upPkt s0 (pNext p) win))) (len (wireBytes wrappedFragment)) (wireBytes wrappedFragment)
            = LoopPanic) by (vm_compute; reflexivity).
    rewrite L. reflexivity. }
  exists (upPanic s0). split; [|reflexivity]. cbn [exec]. unfold istep. change (iPanic s0) with false.
  change (iOver s0 || isDoneState (stateOf s0) || locked (iKx s0)) with false. rewrite R. reflexivity.
Qed.
Print Assumptions C100_one_packet_crashes_refuted.

Example C100_example :
  match exec (toyStep None false) (isessInit (Some (key32 2)) (Size 0) 8 65536) [IPacket (toyKeyless 1 [wrappedFragment])] with
  | Some s => iPanic s = true
  | None => False
  end.
Proof. vm_compute. reflexivity. Qed.

(** There is no other way: with a key agreement that never yields the zero key
    (but see C53), a packet can crash the session only if it, or a packet before
    it, contained a fragment whose position wraps around. *)
Theorem C100_crash_cause_partial : forall verify dh blake3 sha3 stream poly1305 c remote win md mf ls raw s s',
  primitives_ok stream poly1305 -> (forall x y, length (dh x y) = 32%nat) -> (forall x, length (sha3 x) = 32%nat) ->
  (forall x y, dh x y <> repeat 0 32) -> 0 < md -> mf < 2^63 ->
  Forall bytes_ok (packetsOf (ls ++ [IPacket raw])) ->
  exec (istep verify dh blake3 sha3 stream poly1305 c) (isessInit remote win md mf) ls = Some s ->
  istep verify dh blake3 sha3 stream poly1305 c s (IPacket raw) = Some s' -> iPanic s' = true ->
  exists ls1 raw1 ls2 s1 p w l content, ls ++ [IPacket raw] = ls1 ++ IPacket raw1 :: ls2 /\
    exec (istep verify dh blake3 sha3 stream poly1305 c) (isessInit remote win md mf) ls1 = Some s1 /\
    receivePacket stream blake3 poly1305 (peerOf blake3 sha3 c s1) (iWin s1) raw1 = Ret (p, w, PktAccepted l content) /\ wraps content.
Proof.
  intros verify dh blake3 sha3 stream poly1305 c remote win md mf ls raw s s' Hp Hl Hs Hz Hmd Hmf HF E Est Hpanic.
  rewrite packetsOf_app in HF. apply Forall_app in HF. destruct HF as [HF HR]. inversion HR; subst.
  destruct (safe_run verify dh blake3 sha3 stream poly1305 c Hp Hl Hs Hz remote win md mf Hmd Hmf ls s E HF) as [Sf|Po].
  2:{ apply (poisoned_app verify dh blake3 sha3 stream poly1305 c _ _ (IPacket raw)) in Po. exact Po. }
  unfold istep in Est. destruct (iPanic s) eqn:Ep; [discriminate|]. destruct (_ || _); [discriminate|].
  destruct (safe_receive verify dh blake3 sha3 stream poly1305 c Hp Hl Hs Hz s raw Sf) as [(s1 & R & S1)|(p & w & n & content & R & W)]; [assumption| |].
  - exfalso. rewrite R in Est. injection Est as <-. 
    apply receive_panic in R. congruence.
  - exists ls, raw, [], s, p, w, n, content. auto.
Qed.
Print Assumptions C100_crash_cause_partial.

(** ** C101 *)

(** One packet made of public data, holding an empty key-exchange message, and
    [MutualConfirmationOfIdentity] returns an error: its event handler closes the
    session on any error ([OnErrorClose], identity.go 303-308). *)
Theorem C101_one_packet_aborts_refuted : forall verify dh blake3 sha3 stream poly1305 c remote n md mf pid raw,
  primitives_ok stream poly1305 -> cPSK (icKx c) = None -> icCloseOnError c = true ->
  packetIDValue pid <> 0 -> packetIDValue pid < 2^64 ->
  keylessPacket stream blake3 poly1305 pid (wireBytes (kxMessage [])) raw ->
  exists s, exec (istep verify dh blake3 sha3 stream poly1305 c) (isessInit remote (Size n) md mf) [IPacket raw; ICleanup; IFail] = Some s /\
    iResult s = Some CfErr.
Proof.
  intros verify dh blake3 sha3 stream poly1305 c remote n md mf pid raw Hp Hn Hc H0 H1 Hk.
  set (s0 := isessInit remote (Size n) md mf).
  destruct (fresh_accepted n [] (packetIDValue pid) (sessionStorage (Size n)) [] (Forall_nil _) H1 eq_refl (fun H => H) H0) as [win Ew].
  { left. cbn. lia. }
  assert (P : peer_ok (peerOf blake3 sha3 c s0)).
  { unfold peer_ok, peerOf, auxKey. cbn. rewrite Hn. repeat split; auto. }
  destruct (keyless_received blake3 sha3 stream poly1305 c Hp Hn s0 pid _ raw win P Hk (Forall_nil _) Ew) as [p Ep].
  assert (R : exists s1, iReceive verify dh blake3 sha3 stream poly1305 c s0 raw = Ret s1 /\ iPanic s1 = false /\ iOver s1 = false /\
                stateOf s1 = SessionStateClosing /\ iResult s1 = None).
  { unfold iReceive. rewrite Ep.
    assert (L : exists s1, runLoop (reportError c) (iHandle verify dh blake3 sha3 c)
              (upFails (upPkt s0 (pNext p) win) 0 (iUnexpected (upPkt s0 (pNext p) win))) (len (wireBytes (kxMessage []))) (wireBytes (kxMessage []))
            = LoopEnd s1 /\ iPanic s1 = false /\ iOver s1 = false /\ stateOf s1 = SessionStateClosing /\ iResult s1 = None).
    { destruct c as [k d e cl]. cbn in Hc. subst cl. eexists. split; [vm_compute; reflexivity|]. repeat split; reflexivity. }
    destruct L as (s1 & L & F). exists s1. rewrite L. auto. }
  destruct R as (s1 & R & P1 & O1 & S1 & F1).
  set (step := istep verify dh blake3 sha3 stream poly1305 c).
  assert (E1 : step s0 (IPacket raw) = Some s1).
  { unfold step, istep. change (iPanic s0) with false.
    change (iOver s0 || isDoneState (stateOf s0) || locked (iKx s0)) with false. rewrite R. reflexivity. }
  set (s2 := upOver (upKx (upRcv s1 (setSessState (iRcv s1) SessionStateClosed)) (setX (iKx s1) (setCtx (xKx (iKx s1)))))).
  assert (E2 : step s1 ICleanup = Some s2).
  { unfold step, istep. rewrite P1, O1, S1. reflexivity. }
  assert (E3 : step s2 IFail = Some (upResult s2 (iTaken s2) CfErr)).
  { unfold step, istep. change (iPanic s2) with (iPanic s1). change (iResult s2) with (iResult s1). rewrite P1, F1. reflexivity. }
  exists (upResult s2 (iTaken s2) CfErr). split; [|reflexivity]. cbn [exec]. rewrite E1, E2, E3. reflexivity.
Qed.
Print Assumptions C101_one_packet_aborts_refuted.

Example C101_example :
  match exec (toyStep None true) (isessInit (Some (key32 2)) (Size 0) 8 65536) [IPacket (toyKeyless 1 [kxMessage []]); ICleanup; IFail] with
  | Some s => iResult s = Some CfErr
  | None => False
  end.
Proof. vm_compute. reflexivity. Qed.

(** ** C102 *)

Lemma opened : forall blake3 sha3 stream poly1305 c s raw,
  primitives_ok stream poly1305 -> peer_ok (peerOf blake3 sha3 c s) -> bytes_ok raw ->
  opens stream blake3 poly1305 (auxKey blake3 sha3 c) (kKeys (xKx (iKx s))) (option_map sessBytes (kRemoteSession (xKx (iKx s)))) raw \/
  exists e, decryptPacket stream blake3 poly1305 (peerOf blake3 sha3 c s) raw = Ret (Err e).
Proof.
  intros blake3 sha3 stream poly1305 c s raw Hp P HB.
  destruct (decryptPacket_total stream blake3 poly1305 Hp (peerOf blake3 sha3 c s) raw P HB) as [[[[pid l] m]|e] Er]; [|eauto].
  left.
  destruct (decryptPacket_sound stream blake3 poly1305 Hp (peerOf blake3 sha3 c s) raw pid l m P HB Er) as (_ & Ei & [(k & Ik & Sk)|[Sa _]]).
  - exists pid, l, m. split; [exact Ei|]. right. exists k. unfold remoteIV in Sk. cbn [peerOf pRemoteID pKeys] in Sk, Ik.
    destruct P as (_ & _ & _ & P4). cbn [peerOf pRemoteID pKeys] in P4.
    destruct (option_map sessBytes (kRemoteSession (xKx (iKx s)))) as [i|].
    + exists i. auto.
    + rewrite Forall_forall in P4. specialize (P4 _ Ik). discriminate.
  - exists pid, l, m. auto.
Qed.

(** What a packet may change that cannot be decrypted. *)
Definition onlyCounted (c : iconf) (s s' : isess) : Prop :=
  iKx s' = iKx s /\ iWin s' = iWin s /\ deliveries (out (iRcv s')) = deliveries (out (iRcv s)) /\
  pendingChains (iRcv s') = pendingChains (iRcv s) /\ iSent s' = iSent s /\ iResult s' = iResult s /\ iPanic s' = false /\
  (stateOf s' <> stateOf s -> icCloseOnError c = true /\ exists k, icErrorOn c = Some k /\ k <= iFails s') /\
  (iOver s' = true -> icDetachFails c <= iFails s').

Lemma undecryptable : forall verify dh blake3 sha3 stream poly1305 c s raw e s',
  decryptPacket stream blake3 poly1305 (peerOf blake3 sha3 c s) raw = Ret (Err e) ->
  istep verify dh blake3 sha3 stream poly1305 c s (IPacket raw) = Some s' -> onlyCounted c s s'.
Proof.
  intros verify dh blake3 sha3 stream poly1305 c s raw e s' Er Est. unfold onlyCounted.
  unfold istep in Est. destruct (iPanic s) eqn:Ep; [discriminate|]. destruct (iOver s || _ || _) eqn:Eo; [discriminate|].
  apply orb_false_iff in Eo. destruct Eo as [Eo _]. apply orb_false_iff in Eo. destruct Eo as [Eo _].
  unfold iReceive, receivePacket in Est. destruct raw as [|x raw0].
  - injection Est as <-. cbn. rewrite Ep, Eo. do 7 (split; [reflexivity|]). split; [intros H; contradiction H; reflexivity|discriminate].
  - rewrite Er in Est. cbn [upPkt] in Est. injection Est as <-.
    destruct (icErrorOn c) as [k|] eqn:Ee; [destruct (k <=? _) eqn:Ek|]; destruct (icDetachFails c <=? _) eqn:Ed;
      unfold reportError, closeCall; try destruct (icCloseOnError c) eqn:Ec; cbn; rewrite ?Ep, ?Eo; do 7 (split; [reflexivity|]); split;
      try discriminate; try (intros H; contradiction H; reflexivity); intros _; try (apply N.leb_le; assumption).
    all: split; [reflexivity|]; exists k; split; [reflexivity|]; apply N.leb_le; assumption.
Qed.

(** A packet that no key opens leaves the keys, the window, what was handled,
    the incomplete messages and what was sent alone. It is counted, it may be
    reported, and it may end the reader. *)
Theorem C102_undecryptable_is_harmless : forall verify dh blake3 sha3 stream poly1305 c win md mf remote ls s raw s',
  primitives_ok stream poly1305 -> (forall x y, length (dh x y) = 32%nat) -> (forall x, length (sha3 x) = 32%nat) ->
  exec (istep verify dh blake3 sha3 stream poly1305 c) (isessInit remote win md mf) ls = Some s -> bytes_ok raw ->
  ~ opens stream blake3 poly1305 (auxKey blake3 sha3 c) (kKeys (xKx (iKx s))) (option_map sessBytes (kRemoteSession (xKx (iKx s)))) raw ->
  istep verify dh blake3 sha3 stream poly1305 c s (IPacket raw) = Some s' ->
  iKx s' = iKx s /\ iWin s' = iWin s /\ deliveries (out (iRcv s')) = deliveries (out (iRcv s)) /\
  pendingChains (iRcv s') = pendingChains (iRcv s) /\ iSent s' = iSent s /\ iResult s' = iResult s /\ iPanic s' = false /\
  (stateOf s' <> stateOf s -> icCloseOnError c = true /\ exists k, icErrorOn c = Some k /\ k <= iFails s') /\
  (iOver s' = true -> icDetachFails c <= iFails s').
Proof.
  intros verify dh blake3 sha3 stream poly1305 c win md mf remote ls s raw s' Hp Hl Hs E HB HO Est.
  pose proof (kok_run verify dh blake3 sha3 stream poly1305 c Hl Hs remote win md mf ls s E) as K.
  pose proof (kok_peer blake3 sha3 c Hs s K) as P.
  destruct (opened blake3 sha3 stream poly1305 c s raw Hp P HB) as [D|[e D]]; [contradiction|].
  exact (undecryptable verify dh blake3 sha3 stream poly1305 c s raw e s' D Est).
Qed.
Print Assumptions C102_undecryptable_is_harmless.

(** With a pre-shared key, of which the sender of this packet knows nothing. *)
Example C102_example :
  match exec (toyStep (Some [9]) true) (isessInit (Some (key32 2)) (Size 0) 8 65536)
          (startRun (key32 4) (toyPub (key32 4)) 100 200 ++ [IPacket (toyKeyless 1 [kxMessage []])]) with
  | Some s => iFails s = 1 /\ out (iRcv s) = [] /\ iOver s = false /\ stateOf s = SessionStateKeyExchanging
  | None => False
  end.
Proof. vm_compute. auto. Qed.

(** ** C103 *)

Definition event_dec : forall a b : event, {a = b} + {a <> b}.
Proof. repeat decide equality. Defined.

(** Whatever was handed to a handler or to a reader, the packet it first appeared
    with is one that a key opens that the session had at that time. *)
Theorem C103_handled_was_sealed : forall verify dh blake3 sha3 stream poly1305 c win md mf remote ls s e,
  primitives_ok stream poly1305 -> (forall x y, length (dh x y) = 32%nat) -> (forall x, length (sha3 x) = 32%nat) ->
  exec (istep verify dh blake3 sha3 stream poly1305 c) (isessInit remote win md mf) ls = Some s -> Forall bytes_ok (packetsOf ls) ->
  In e (deliveries (out (iRcv s))) ->
  exists ls1 raw ls2 s1, ls = ls1 ++ IPacket raw :: ls2 /\
    exec (istep verify dh blake3 sha3 stream poly1305 c) (isessInit remote win md mf) ls1 = Some s1 /\
    opens stream blake3 poly1305 (auxKey blake3 sha3 c) (kKeys (xKx (iKx s1)))
      (option_map sessBytes (kRemoteSession (xKx (iKx s1)))) raw /\
    ~ In e (deliveries (out (iRcv s1))) /\
    exists s2, istep verify dh blake3 sha3 stream poly1305 c s1 (IPacket raw) = Some s2 /\ In e (deliveries (out (iRcv s2))).
Proof.
  intros verify dh blake3 sha3 stream poly1305 c win md mf remote ls s e Hp Hl Hs E HF Hin. revert ls s E HF Hin.
  set (step := istep verify dh blake3 sha3 stream poly1305 c). set (s0 := isessInit remote win md mf).
  assert (Err : forall s er, deliveries (out (iRcv (reportError c s er))) = deliveries (out (iRcv s))).
  { intros s er. unfold reportError. destruct (icCloseOnError c); reflexivity. }
  assert (Aft : forall s x, deliveries (out (iRcv (afterKx c s x))) = deliveries (out (iRcv s))).
  { intros s x. unfold afterKx. destruct (Nat.ltb _ _), (_ && _); cbn [connect upRcv iRcv out setSessState]; rewrite ?Err; reflexivity. }
  apply (exec_snoc_inv _ _ step (fun ls s => Forall bytes_ok (packetsOf ls) -> In e (deliveries (out (iRcv s))) ->
    exists ls1 raw ls2 s1, ls = ls1 ++ IPacket raw :: ls2 /\ exec step s0 ls1 = Some s1 /\
      opens stream blake3 poly1305 (auxKey blake3 sha3 c) (kKeys (xKx (iKx s1))) (option_map sessBytes (kRemoteSession (xKx (iKx s1)))) raw /\
      ~ In e (deliveries (out (iRcv s1))) /\ exists s2, step s1 (IPacket raw) = Some s2 /\ In e (deliveries (out (iRcv s2))))).
  - intros _ [].
  - intros ls s l s' E IH Est HF Hin. rewrite packetsOf_app in HF. apply Forall_app in HF. destruct HF as [HF HR].
    assert (Keep : In e (deliveries (out (iRcv s))) -> exists ls1 raw ls2 s1, ls ++ [l] = ls1 ++ IPacket raw :: ls2 /\
      exec step s0 ls1 = Some s1 /\
      opens stream blake3 poly1305 (auxKey blake3 sha3 c) (kKeys (xKx (iKx s1))) (option_map sessBytes (kRemoteSession (xKx (iKx s1)))) raw /\
      ~ In e (deliveries (out (iRcv s1))) /\ exists s2, step s1 (IPacket raw) = Some s2 /\ In e (deliveries (out (iRcv s2)))).
    { intros I0. destruct (IH HF I0) as (ls1 & raw & ls2 & s1 & -> & A & B). exists ls1, raw, (ls2 ++ [l]), s1.
      rewrite <- app_assoc. auto. }
    destruct l as [raw|k| | | |].
    2-6: apply Keep; unfold step, istep in Est; destruct (iPanic s); [discriminate|].
    + inversion HR; subst.
      pose proof (kok_run verify dh blake3 sha3 stream poly1305 c Hl Hs remote win md mf ls s E) as K.
      pose proof (kok_peer blake3 sha3 c Hs s K) as P.
      destruct (opened blake3 sha3 stream poly1305 c s raw Hp P) as [D|[er D]]; [assumption| |].
      { destruct (in_dec event_dec e (deliveries (out (iRcv s)))) as [I0|N0]; [exact (Keep I0)|]. exists ls, raw, [], s. eauto 8. }
      apply Keep.
      destruct (undecryptable verify dh blake3 sha3 stream poly1305 c s raw er s' D Est) as (_ & _ & Hd & _).
      rewrite Hd in Hin. exact Hin.
    + destruct (isHandle k); [discriminate|]. destruct (kstep _ _ _ _ _ _ k) as [x|]; [|discriminate]. injection Est as <-.
      pose proof (Aft s x) as Hx. destruct (xPanic x); cbn [upPanic iRcv] in Hin; rewrite Hx in Hin; exact Hin.
    + destruct (_ || _); [discriminate|]. destruct (sendPacket _ _ _ _ _ _) as [p [[raw|er]|]]; try discriminate; injection Est as <-; exact Hin.
    + destruct (iWritten s); [|discriminate]. destruct (iResult s); [discriminate|].
      destruct (nth_error _ _) as [b|]; [|discriminate]. injection Est as <-. exact Hin.
    + destruct (_ || _); [|discriminate]. injection Est as <-. exact Hin.
    + destruct (iResult s); [discriminate|]. destruct (_ =? _); [|discriminate]. injection Est as <-. exact Hin.
Qed.
Print Assumptions C103_handled_was_sealed.

(** With a pre-shared key the sender of a packet that opens needs that key or a
    session key; this one has it. *)
Example C103_example :
  match exec (toyStep (Some [9]) true) (isessInit (Some (key32 2)) (Size 0) 8 65536)
          (startRun (key32 4) (toyPub (key32 4)) 100 200 ++
           [IPacket (rawOf (sealPacket toyStream PacketProps.toyHash toyPoly
              {| pAux := auxKey PacketProps.toyHash KxProps.toyHash (toyIConf (Some [9]) true); pKeys := []; pRemoteID := None; pOwnID := repeat 0 16; pNext := 0 |}
              false (packetIDBytes 1) (wireBytes (kxMessage (toyWire 2 (toyMsg 2 7 11 1 true))))))]) with
  | Some s => deliveries (out (iRcv s)) = [EvHandler messageTypeKeyExchange (toyWire 2 (toyMsg 2 7 11 1 true))] /\
              stateOf s = SessionStateEstablished
  | None => False
  end.
Proof. vm_compute. auto. Qed.
