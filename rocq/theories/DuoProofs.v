(** Lemmas about two honest sessions. *)
From Coq Require Import NArith Arith List Bool Lia.
From Verif Require Import Base BaseLemmas TS MessageModel CodecProofs PacketIDModel ReaderModel ReaderLoopModel ReaderSpec ReaderProofs
  PacketModel PacketSpec PacketProofs PacketProps StateModel KxModel KxSpec KxProofs KxPairModel IntegModel IntegProofs IntegSafe DuoModel.
Import ListNotations.
Local Open Scope N_scope.

(** ** The exchanger of one side *)

Section Kx.
  Variable verify : bytes -> bytes -> bytes -> bool.
  Variable dh : bytes -> bytes -> bytes.
  Variable blake3 sha3 : bytes -> bytes.
  Variable sign : bytes -> bytes -> bytes.
  Variable pubOf : bytes -> bytes.
  Hypothesis dh_len : forall a b, length (dh a b) = 32%nat.
  Hypothesis sha3_len : forall b, length (sha3 b) = 32%nat.
  Hypothesis dh_nonzero : forall a b, dh a b <> zeroKey.
  Hypothesis sign_len : forall id m, length (sign id m) = 64%nat.
  Hypothesis sign_ok : forall id m, verify id (sign id m) m = true.
  Hypothesis pub_len : forall p, length (pubOf p) = 32%nat.
  Hypothesis pub_nonzero : forall p, pubOf p <> zeroKey.

  Notation gsk := (generateSharedKey dh blake3 sha3).
  Notation step := (kstep verify dh blake3 sha3).

  Definition mk (psk : option bytes) (p q : bytes) : bytes := match gsk psk (Some p) (Some q) with Ret (Some k) => k | _ => [] end.

  Lemma mk_eq : forall psk p q, gsk psk (Some p) (Some q) = Ret (Some (mk psk p q)) /\ length (mk psk p q) = 32%nat.
  Proof.
    intros psk p q. unfold mk.
    destruct (gsk_spec dh blake3 sha3 dh_len sha3_len psk (Some p) (Some q)) as [(a & b & Ea & Eb & Z & _)|[(a & b & k & Ea & Eb & _ & E & X)|([D|D] & _)]]; try discriminate.
    - injection Ea as <-. injection Eb as <-. destruct (dh_nonzero p q Z).
    - rewrite E. split; [reflexivity|]. destruct X as (X1 & _). injection Ea as <-. injection Eb as <-. rewrite <- X1. apply dh_len.
  Qed.

  (** One side: [c] its configuration, [c'] that of the other side, [p] its only
      private key, [q] the other's public key, [peer] whether the other side has
      made it already. *)
  Definition msgOf (c : kxConf) (p : bytes) (fl : bool) : kxMsg :=
    {| kSess := cSession c; kIdentity := cIdentity c; kPub := pubOf p; kMode := cMode c; kFlags := kxSetIsAnswer 0 fl |}.

  Definition hasLocal (x : kxs) : Prop := kNextLocal (xKx x) <> None.
  Definition hasRemote (x : kxs) : Prop := kNextRemote (xKx x) <> None.
  Definition complete (x : kxs) : Prop := hasLocal x /\ hasRemote x.

  Definition keysFor (psk : option bytes) (l r : option bytes) : list (option bytes) :=
    match l, r with Some p, Some q => [Some (mk psk p q); None; None; None] | _, _ => [] end.

  Definition KI (c c' : kxConf) (p q : bytes) (peer : Prop) (x : kxs) : Prop :=
    let k := xKx x in
    kRemoteIdentity k = Some (cIdentity c') /\ kPrevRemote k = None /\ kPrevLocal k = None /\
    (kNextLocal k = None /\ kNextLocalPub k = None /\ kNextAt k = 0 \/ kNextLocal k = Some p /\ kNextLocalPub k = Some (pubOf p)) /\
    (kNextRemote k = None /\ kRemoteSession k = None \/ kNextRemote k = Some q /\ kRemoteSession k = Some (cSession c') /\ peer) /\
    kKeys k = keysFor (cPSK c) (kNextLocal k) (kNextRemote k) /\
    match xLoop x with LpSend _ | LpWait _ => hasLocal x | _ => True end /\
    Forall (fun a => hasRemote x /\ match a with ApSend | ApSkip | ApDone => hasLocal x | _ => True end) (xAnswers x) /\
    Forall (fun m => hasLocal x /\ exists fl, m = msgOf c p fl /\ (fl = true -> hasRemote x)) (xSent x) /\
    xPanic x = false /\ Forall (eq KxTimeout) (kErrs k) /\ (0 < kDone k -> complete x).

  Lemma KI_mono : forall c c' p q (P Q : Prop) x, (P -> Q) -> KI c c' p q P x -> KI c c' p q Q x.
  Proof.
    intros c c' p q P Q x H (A & B & C & D & E & R). unfold KI. cbn zeta in *. split; [exact A|]. split; [exact B|]. split; [exact C|]. split; [exact D|]. split; [|exact R]. tauto.
  Qed.

  Lemma KI_init : forall c c' p q P, KI c c' p q P (kxsInit (Some (cIdentity c'))).
  Proof.
    intros. unfold KI, kxsInit, newKx. cbn. repeat split; auto; try constructor; try lia.
  Qed.

  (** The own goroutines. *)
  Definition calmKx (p : bytes) (l : klabel) (x : kxs) : Prop :=
    match l with
    | KLoopGen s t _ | KAnswerGen _ s t _ => s = p /\ t = pubOf p /\ ~ hasLocal x
    | KCancel => False
    | _ => True
    end.

  Lemma update_first : forall c k, kPrevRemote k = None -> kPrevLocal k = None ->
    (kNextLocal k = None \/ kNextRemote k = None -> kKeys k = []) ->
    updateSecrets dh blake3 sha3 c k = Ret (setKeys k (keysFor (cPSK c) (kNextLocal k) (kNextRemote k))).
  Proof.
    intros c k H1 H2 H3. rewrite (update_spec dh blake3 sha3 dh_len sha3_len), H1, H2.
    assert (G : forall l, gsk (cPSK c) l None = Ret None) by (intros [l|]; reflexivity).
    rewrite !G. assert (G2 : forall r, gsk (cPSK c) None r = Ret None) by reflexivity. rewrite G2.
    assert (S : kKeys k = [] -> k = setKeys k []) by (intros E; rewrite <- E; destruct k; reflexivity).
    destruct (kNextLocal k) as [l|]; [|rewrite G2; cbn [keysFor]; rewrite <- S; auto].
    destruct (kNextRemote k) as [r|]; [|rewrite G; cbn [keysFor]; rewrite <- S; auto].
    rewrite (proj1 (mk_eq (cPSK c) l r)). reflexivity.
  Qed.

  Lemma Forall_set : forall A (P : A -> Prop) l i a, Forall P l -> P a -> Forall P (firstn i l ++ [a] ++ skipn (S i) l).
  Proof.
    intros A P l i a H Ha. apply Forall_app. split; [apply Forall_firstn; exact H|]. constructor; [exact Ha|apply Forall_skipn; exact H].
  Qed.

  (** What a step of the own goroutines leaves alone. *)
  Definition KStep (x x' : kxs) : Prop :=
    kNextRemote (xKx x') = kNextRemote (xKx x) /\ kDone (xKx x') = kDone (xKx x) /\ (hasLocal x -> hasLocal x') /\
    (kErrs (xKx x') = kErrs (xKx x) /\ kCtxDone (xKx x') = kCtxDone (xKx x) \/ exists e, kErrs (xKx x') = e :: kErrs (xKx x)) /\
    (xSent x' = xSent x \/ exists m, xSent x' = m :: xSent x).

  Ltac ki := unfold KI, KStep, complete, hasLocal, hasRemote in *; cbn -[keysFor msgOf zeroKey] in *.

  Lemma KI_install : forall c c' p q P x now, KI c c' p q P x -> ~ hasLocal x ->
    exists k, installLocalKey dh blake3 sha3 c (xKx x) p (pubOf p) now = Ret k /\
      kRemoteIdentity k = kRemoteIdentity (xKx x) /\ kPrevRemote k = None /\ kPrevLocal k = None /\
      kNextLocal k = Some p /\ kNextLocalPub k = Some (pubOf p) /\ kNextRemote k = kNextRemote (xKx x) /\
      kRemoteSession k = kRemoteSession (xKx x) /\ kKeys k = keysFor (cPSK c) (Some p) (kNextRemote (xKx x)) /\
      kErrs k = kErrs (xKx x) /\ kDone k = kDone (xKx x) /\ kCtxDone k = kCtxDone (xKx x).
  Proof.
    intros c c' p q P x now (A & B & C & D & E & F & _) HL. unfold installLocalKey. cbn zeta.
    set (at_ := if u64 now <=? _ then _ else _). clearbody at_.
    assert (L : kNextLocal (xKx x) = None) by (destruct D as [(D & _)|(D & _)]; [exact D|exfalso; apply HL; unfold hasLocal; congruence]).
    rewrite update_first; cbn; auto.
    - eexists. split; [reflexivity|]. cbn. rewrite L. repeat split; auto.
    - intros _. rewrite F, L. reflexivity.
  Qed.

  Lemma kx_own : forall c c' p q P x l x', KI c c' p q P x -> calmKx p l x -> KxPairModel.isHandle l = false -> step c x l = Some x' ->
    KI c c' p q P x' /\ KStep x x'.
  Proof.
    intros c c' p q P x l x' HI HC HH E. unfold kstep in E.
    assert (HP : xPanic x = false) by apply HI. rewrite HP in E.
    destruct l as [b|now| |s t now| | | | |i now|i s t now|]; try discriminate.
    - (* go *) destruct (xLoop x) eqn:EL; try discriminate. destruct (kCtxDone (xKx x)) eqn:EC; [discriminate|].
      destruct (now <? _); injection E as <-.
      + split; [exact HI|]. ki. tauto.
      + ki. rewrite EL in HI. tauto.
    - (* check *) destruct (xLoop x) eqn:EL; try discriminate. destruct (inProgress (xKx x)) eqn:EP; injection E as <-.
      + unfold inProgress in EP. apply N.ltb_lt in EP. ki. rewrite EL in HI. destruct HI as (A & B & C & D & R).
        assert (kNextLocal (xKx x) <> None) by (destruct D as [(_ & _ & D)|(D & _)]; [lia|congruence]). tauto.
      + ki. rewrite EL in HI. tauto.
    - (* generate *) destruct (xLoop x) eqn:EL; try discriminate. destruct HC as (-> & -> & HL).
      destruct (KI_install c c' p q P x now HI HL) as (k & Ek & R). rewrite Ek in E. injection E as <-. ki.
      destruct R as (R1 & R2 & R3 & R4 & R5 & R6 & R7 & R8 & R9 & R10 & R11). rewrite EL in HI.
      destruct HI as (A & B & C & D & F & G & _ & I1 & I2 & I3 & I4 & I5).
      rewrite R1, R2, R3, R4, R5, R6, R7, R8, R9, R10, R11. 
      split; [|intuition congruence].
      repeat (match goal with |- _ /\ _ => split end); auto.
      + destruct (kNextAt k =? 0); [exact I|discriminate].
      + eapply Forall_impl; [|exact I1]. intros a (H1 & H2). split; [exact H1|]. destruct a; try exact I; discriminate.
      + eapply Forall_impl; [|exact I2]. intros m (Hl & fl & Em & Hf). split; [discriminate|]. eauto.
      + intros Hd. split; [discriminate|]. apply I5. exact Hd.
    - (* send *) destruct (xLoop x) eqn:EL; try discriminate. injection E as <-.
      destruct HI as (A & B & C & D & F & G & L & I1 & I2 & I3 & I4 & I5). rewrite EL in L.
      destruct D as [(D & _)|(D1 & D2)]; [exfalso; apply L; exact D|].
      unfold sendMsg, publicKeyMessage. rewrite D2. ki. rewrite D1, D2 in *.
      split; [|intuition eauto].
      repeat (match goal with |- _ /\ _ => split end); auto; try discriminate.
      constructor; [|exact I2]. split; [discriminate|]. exists false. split; [reflexivity|discriminate].
    - (* retry *) destruct (xLoop x) as [| | | |a] eqn:EL; try discriminate.
      destruct HI as (A & B & C & D & F & G & L & I1 & I2 & I3 & I4 & I5). rewrite EL in L.
      destruct D as [(D & _)|(D1 & D2)]; [exfalso; apply L; exact D|].
      assert (N1 : forall y, (y = x \/ y = setX x (setNotify (xKx x) None)) ->
        KI c c' p q P (sendMsg c y false) /\ KStep x (sendMsg c y false)).
      { intros y Hy. unfold sendMsg, publicKeyMessage.
        assert (Ey : kNextLocalPub (xKx y) = Some (pubOf p)) by (destruct Hy as [-> | ->]; exact D2). rewrite Ey.
        destruct Hy as [-> | ->]; ki; rewrite D1, D2, EL in *;
          (split; [|intuition eauto]);
          (repeat (match goal with |- _ /\ _ => split end)); auto; try discriminate;
          (constructor; [|exact I2]; split; [discriminate|]; exists false; split; [reflexivity|discriminate]). }
      destruct (kNotify (xKx x)) as [n|]; [|injection E as <-; apply N1; auto].
      destruct (a <=? n); injection E as <-; [|apply N1; auto]. ki. rewrite D1, D2 in *. intuition eauto.
    - (* notified *) destruct (xLoop x) as [| | | |a] eqn:EL; try discriminate. destruct (kNotify (xKx x)) as [n|]; [|discriminate].
      destruct (a <=? n); injection E as <-; ki; rewrite EL in HI; rewrite ?EL; tauto.
    - (* time-out *) destruct (xLoop x) as [| | | |a] eqn:EL; try discriminate.
      destruct (match kNotify (xKx x) with Some n => a <=? n | None => false end); injection E as <-; ki; rewrite EL in HI.
      + tauto.
      + destruct HI as (A & B & C & D & F & G & L & I1 & I2 & I3 & I4 & I5).
        split; [|intuition eauto]. repeat (match goal with |- _ /\ _ => split end); auto.
    - (* answer *) destruct (nth_error (xAnswers x) i) as [a|] eqn:Ea; [|discriminate].
      destruct HI as (A & B & C & D & F & G & L & I1 & I2 & I3 & I4 & I5).
      assert (Ha : hasRemote x /\ match a with ApSend | ApSkip | ApDone => hasLocal x | _ => True end).
      { rewrite Forall_forall in I1. apply I1. eapply nth_error_In; eauto. }
      destruct Ha as [Hr Hl].
      assert (Set1 : forall b, match b with ApSend | ApSkip | ApDone => hasLocal x | _ => True end ->
        KI c c' p q P (setAnswer x i b) /\ KStep x (setAnswer x i b)).
      { intros b Hb. ki. split; [|intuition eauto]. repeat (match goal with |- _ /\ _ => split end); auto; try tauto.
        apply (Forall_set answerPc); [exact I1|]. split; [exact Hr|exact Hb]. }
      destruct a; try discriminate.
      + injection E as <-. apply Set1. destruct (kNextLocalPub (xKx x)) eqn:E2; [|exact I].
        unfold hasLocal. destruct D as [(_ & D & _)|(D & _)]; congruence.
      + injection E as <-. apply Set1. destruct (inProgress (xKx x)) eqn:EP; [|exact I].
        unfold inProgress in EP. apply N.ltb_lt in EP. unfold hasLocal. destruct D as [(_ & _ & D)|(D & _)]; [lia|congruence].
      + injection E as <-. ki. split; [|intuition eauto]. repeat (match goal with |- _ /\ _ => split end); auto; try tauto.
        apply (Forall_set answerPc); [exact I1|]. auto.
      + injection E as <-. destruct D as [(D & _)|(D1 & D2)]; [exfalso; apply Hl; exact D|].
        unfold sendMsg, publicKeyMessage. rewrite D2. ki. rewrite D1, D2 in *. split; [|intuition eauto].
        repeat (match goal with |- _ /\ _ => split end); auto; try discriminate; try tauto.
        * apply (Forall_set answerPc); [exact I1|]. auto.
        * constructor; [|exact I2]. split; [discriminate|]. exists true. split; [reflexivity|auto].
    - (* answer: generate *) destruct (nth_error (xAnswers x) i) as [[]|] eqn:Ea; try discriminate. destruct HC as (-> & -> & HL).
      destruct (KI_install c c' p q P x now HI HL) as (k & Ek & R). rewrite Ek in E. injection E as <-. ki.
      destruct R as (R1 & R2 & R3 & R4 & R5 & R6 & R7 & R8 & R9 & R10 & R11).
      destruct HI as (A & B & C & D & F & G & L & I1 & I2 & I3 & I4 & I5).
      assert (Hr : kNextRemote (xKx x) <> None) by (rewrite Forall_forall in I1; apply (I1 ApGen); eapply nth_error_In; eauto).
      rewrite R1, R2, R3, R4, R5, R6, R7, R8, R9, R10, R11.
      split; [|intuition congruence].
      repeat (match goal with |- _ /\ _ => split end); auto.
      + destruct (xLoop x); auto; discriminate.
      + apply (Forall_set answerPc).
        * eapply Forall_impl; [|exact I1]. intros a (H1 & H2). split; [exact H1|]. destruct a; try exact I; discriminate.
        * split; [exact Hr|discriminate].
      + eapply Forall_impl; [|exact I2]. intros m (Hl & fl & Em & Hf). split; [discriminate|]. eauto.
      + intros Hd. split; [discriminate|]. apply I5. exact Hd.
    - destruct HC.
  Qed.

  (** A message of the other side. *)
  Lemma kx_handle : forall c c' p p' (P : Prop) x fl,
    KI c c' p (pubOf p') P x -> P -> sessID_ok (cSession c') -> length (cIdentity c') = 32%nat ->
    cMode c = AnswersModeAnswerAndWait -> cMode c' = AnswersModeAnswerAndWait -> kCtxDone (xKx x) = false -> (fl = true -> hasLocal x) ->
    exists k, handleKx verify dh blake3 sha3 c (xKx x) (signedWire sign c' (msgOf c' p' fl)) = Ret (k, HDone (negb fl)) /\
      KI c c' p (pubOf p') P (if negb fl then addAnswer (setX x k) else setX x k) /\
      kNextRemote k = Some (pubOf p') /\ kNextLocal k = kNextLocal (xKx x) /\ kErrs k = kErrs (xKx x) /\ kCtxDone k = false /\
      kDone k = (if fl then kDone (xKx x) + 1 else kDone (xKx x)).
  Proof.
    intros c c' p p' P x fl HI HP Hs Hid Hm Hm' Hc Hfl.
    set (m := msgOf c' p' fl).
    assert (Mok : kxMsg_ok m).
    { unfold kxMsg_ok, m, msgOf. cbn [kSess kIdentity kPub kMode kFlags]. rewrite Hm'. repeat split; try apply Hs; auto; destruct fl; reflexivity. }
    assert (Fl : kxIsAnswer (kFlags m) = fl) by (destruct fl; reflexivity).
    assert (W : wire (sign (cIdentity c') (kxEncode m)) (kxEncode m) [] (signedWire sign c' m)).
    { unfold wire, signedWire. rewrite app_nil_r. split; [reflexivity|]. split; [apply sign_len|apply kx_len; exact Mok]. }
    destruct HI as (A & B & C & D & F & G & L & I1 & I2 & I3 & I4 & I5).
    assert (Acc : acceptable verify c (xKx x) m (signedWire sign c' m)).
    { destruct (wire_parts _ _ _ _ W) as (_ & W2 & _). split; [rewrite W2; pose proof (kx_rt m [] Mok) as R; rewrite app_nil_r in R; exact R|].
      split; [cbn; congruence|]. split; [apply pub_nonzero|]. split; [exact Hc|]. rewrite A.
      exists (sign (cIdentity c') (kxEncode m)), (kxEncode m), []. split; [exact W|apply sign_ok]. }
    rewrite (handle_accept verify dh blake3 sha3 c (xKx x) m _ Acc). unfold accept. cbn zeta. rewrite Fl, Hm.
    change (AnswersModeAnswerAndWait =? AnswersModeAnswerAndWait) with true. change (AnswersModeAnswerAndWait =? AnswersModeDisable) with false.
    cbn [negb]. rewrite orb_false_r, andb_true_r. rewrite A.
    assert (Sx : Some (match kRemoteSession (xKx x) with Some i => i | None => kSess m end) = Some (cSession c')).
    { destruct F as [(_ & ->)|(_ & -> & _)]; reflexivity. }
    rewrite Sx. set (s1 := setRemote (xKx x) (Some (cIdentity c')) (Some (cSession c'))).
    assert (N1 : setNextRemotePublicKey s1 (kPub m) = setRemoteKeys s1 None (Some (pubOf p'))).
    { unfold setNextRemotePublicKey. change (kPub m) with (pubOf p'). change (kNextRemote s1) with (kNextRemote (xKx x)).
      destruct F as [(-> & _)|(F & _)]; [reflexivity|]. rewrite F, bytes_eqb_refl. unfold s1, setRemote, setRemoteKeys. cbn. rewrite B, F. reflexivity. }
    rewrite N1.
    assert (U := update_first c (setRemoteKeys s1 None (Some (pubOf p'))) eq_refl).
    rewrite U; clear U; [|exact C|cbn; intros [Z|Z]; [rewrite G, Z; reflexivity|discriminate]].
    eexists. split; [reflexivity|].
    assert (KL : keysFor (cPSK c) (kNextLocal (xKx x)) (Some (pubOf p')) = keysFor (cPSK c) (kNextLocal (setRemoteKeys s1 None (Some (pubOf p')))) (kNextRemote (setRemoteKeys s1 None (Some (pubOf p'))))) by reflexivity.
    assert (T : forall A (P : A -> Prop) (Q : A -> Prop) l, Forall P l -> (forall a, P a -> Q a) -> Forall Q l)
      by (intros; eapply Forall_impl; eauto).
    destruct fl; cbn [negb].
    - specialize (Hfl eq_refl). ki. split; [|rewrite ?Hc; auto 10].
      repeat (match goal with |- _ /\ _ => split end); auto; try tauto.
      + eapply T; [exact I1|]. intros a (_ & H). split; [discriminate|exact H].
      + eapply T; [exact I2|]. intros a (H1 & fl & H2 & _). split; [exact H1|]. exists fl. split; [exact H2|discriminate].
      + intros _. split; [exact Hfl|discriminate].
    - ki. split; [|rewrite ?Hc; auto 10].
      repeat (match goal with |- _ /\ _ => split end); auto; try tauto.
      + apply Forall_app. split; [|constructor; [split; [discriminate|exact I]|constructor]].
        eapply T; [exact I1|]. intros a (_ & H). split; [discriminate|exact H].
      + eapply T; [exact I2|]. intros a (H1 & fl & H2 & _). split; [exact H1|]. exists fl. split; [exact H2|discriminate].
      + intros H. split; [apply I5; exact H|discriminate].
  Qed.
End Kx.

(** ** The sessions *)

Section Duo.
  Variable verify : bytes -> bytes -> bytes -> bool.
  Variable dh : bytes -> bytes -> bytes.
  Variable blake3 sha3 : bytes -> bytes.
  Variable stream : bytes -> bytes -> nat -> N.
  Variable poly1305 : bytes -> bytes -> bytes.
  Variable sign : bytes -> bytes -> bytes.
  Variable pubOf : bytes -> bytes.
  Hypothesis prim : primitives_ok stream poly1305.
  Hypothesis dh_len : forall a b, length (dh a b) = 32%nat.
  Hypothesis sha3_len : forall b, length (sha3 b) = 32%nat.
  Hypothesis dh_nonzero : forall a b, dh a b <> zeroKey.
  Hypothesis dh_comm : dh_agrees dh pubOf.
  Hypothesis sign_len : forall id m, length (sign id m) = 64%nat.
  Hypothesis sign_ok : forall id m, verify id (sign id m) m = true.
  Hypothesis pub_len : forall p, length (pubOf p) = 32%nat.
  Hypothesis pub_nonzero : forall p, pubOf p <> zeroKey.

  Notation mkey := (mk dh blake3 sha3).
  Notation inv := (KI dh blake3 sha3 pubOf).
  Notation seal := (sealPacket stream blake3 poly1305).

  Definition honest (c : iconf) : Prop :=
    sessID_ok (cSession (icKx c)) /\ length (cIdentity (icKx c)) = 32%nat /\ cMode (icKx c) = AnswersModeAnswerAndWait.

  Definition xOf (x : side) : kxs := iKx (dSess x).
  Definition kxWire (t f : N) (b : bytes) : wireMsg := {| wType := t; wFlags := f; wPayload := b |}.

  (** A packet of side [x], meant for [y], with ID [v]; [o]: the payload of the
      application, or a key-exchange message. *)
  Definition packetAs (c : iconf) (p q : bytes) (x y : side) (raw : bytes) (v : N) (o : option bytes) : Prop :=
    exists P, peer_ok P /\ pAux P = auxKey blake3 sha3 c /\ pOwnID P = sessBytes (cSession (icKx c)) /\
      match o with
      | None => exists fl, seal P false (packetIDBytes v) (encodeMsg messageTypeKeyExchange 0 (signedWire sign (icKx c) (msgOf pubOf (icKx c) p fl))) = Ret (Ok raw) /\
          hasLocal (xOf x) /\ (fl = true -> hasRemote (xOf x))
      | Some payload => In payload (dWrote x) /\ len payload + 53 < 2^32 /\ nth 0 (pKeys P) None = Some (mkey (cPSK (icKx c)) p q) /\
          seal P true (packetIDBytes v) (encodeMsg MessageTypeReadWrite (setIsConfidential 0 true) payload) = Ret (Ok raw) /\
          complete (xOf x) /\ complete (xOf y)
      end.
  Definition packetOf (c : iconf) (p q : bytes) (x y : side) (raw : bytes) : Prop := exists v o, packetAs c p q x y raw v o.

  Definition phase (s : isess) : Prop :=
    stateOf s = SessionStateKeyExchanging /\ kDone (xKx (iKx s)) = 0 \/
    stateOf s = SessionStateEstablished /\ 0 < kDone (xKx (iKx s)) \/
    stateOf s = SessionStateClosing \/ stateOf s = SessionStateClosed.

  (** [qt]: nothing but packets of the other side has arrived. *)
  Variable qt : Prop.

  Definition SI (c c' : iconf) (p p' : bytes) (x y : side) : Prop :=
    let s := dSess x in
    inv (icKx c) (icKx c') p (pubOf p') (hasLocal (xOf y)) (iKx s) /\
    (iPanic s = false /\ (qt -> iFails s = 0) /\ winOk (iWin s)) /\
    (messengers (iRcv s) = [(messageTypeKeyExchange, true); (messageTypeNegotiation, true)] /\
     readChans (iRcv s) = [messageTypeKeyExchange; messageTypeNegotiation; MessageTypeReadWrite] /\ detachOnMessagesCount (iRcv s) = 0) /\
    (kCtxDone (xKx (iKx s)) = true -> isDoneState (stateOf s) = true) /\
    phase s /\
    (0 < kDone (xKx (iKx s)) -> complete (xOf y)) /\
    Forall (packetOf c p (pubOf p') x y) (dNet x) /\
    incl (queued s) (dWrote y) /\
    (qt -> kErrs (xKx (iKx s)) = [] -> forall e, ~ In (EvError e) (out (iRcv s))).

  Lemma packetAs_mono : forall c p q x y x' y' raw v o, packetAs c p q x y raw v o ->
    (hasLocal (xOf x) -> hasLocal (xOf x')) -> (hasRemote (xOf x) -> hasRemote (xOf x')) -> incl (dWrote x) (dWrote x') ->
    (complete (xOf y) -> complete (xOf y')) -> packetAs c p q x' y' raw v o.
  Proof.
    intros c p q x y x' y' raw v o (P & A & B & C & D) H1 H2 H3 H4. exists P. split; [exact A|]. split; [exact B|]. split; [exact C|].
    destruct o as [pl|].
    - destruct D as (E & F & G & H & I & J). unfold complete in *. repeat split; auto; tauto.
    - destruct D as (fl & E & F & G). exists fl. auto.
  Qed.

  Lemma packet_mono : forall c p q x y x' y' raw, packetOf c p q x y raw ->
    (hasLocal (xOf x) -> hasLocal (xOf x')) -> (hasRemote (xOf x) -> hasRemote (xOf x')) -> incl (dWrote x) (dWrote x') ->
    (complete (xOf y) -> complete (xOf y')) -> packetOf c p q x' y' raw.
  Proof. intros c p q x y x' y' raw (v & o & A) H1 H2 H3 H4. exists v, o. eapply packetAs_mono; eauto. Qed.

  Lemma SI_other : forall c c' p p' x y y', SI c c' p p' x y ->
    (hasLocal (xOf y) -> hasLocal (xOf y')) -> (complete (xOf y) -> complete (xOf y')) -> incl (dWrote y) (dWrote y') -> SI c c' p p' x y'.
  Proof.
    intros c c' p p' x y y' (A & B & C & D & E & F & G & H & I) H1 H2 H3. unfold SI. cbn zeta.
    split; [eapply KI_mono; eauto|]. split; [exact B|]. split; [exact C|]. split; [exact D|]. split; [exact E|]. split; [auto|]. split; [|split; [|exact I]].
    - eapply Forall_impl; [|exact G]. intros raw Hr. eapply packet_mono; eauto. apply incl_refl.
    - intros z Hz. apply H3, H, Hz.
  Qed.

  Lemma SI_init : forall c c' p p' w md mf y, SI c c' p p' (sideInit (cIdentity (icKx c')) w md mf) y.
  Proof.
    intros. unfold SI, sideInit. cbn [dSess dNet dWrote].
    split; [apply KI_init|]. split; [split; [reflexivity|split; [reflexivity|apply win_init]]|].
    split; [repeat split|]. split; [discriminate|]. split; [left; split; reflexivity|]. split; [cbn; lia|].
    split; [constructor|]. split; [intros z []|]. intros _ _ e [].
  Qed.

  (** What sealing and opening need. *)
  Lemma side_peer_ok : forall c c' p q (P : Prop) s, honest c -> honest c' -> inv (icKx c) (icKx c') p q P (iKx s) -> peer_ok (peerOf blake3 sha3 c s).
  Proof.
    intros c c' p q P s (H1 & _) (H2 & _) (A & B & C & D & E & F & _). unfold peer_ok, peerOf. cbn [pAux pKeys pOwnID pRemoteID].
    split. { unfold auxKey. destruct (cPSK (icKx c)); [|exact I]. cbn [key_ok]. rewrite firstn_all2; unfold hash; rewrite sha3_len; auto. }
    assert (K : Forall key_ok (kKeys (xKx (iKx s)))).
    { rewrite F. unfold keysFor. destruct (kNextLocal _) as [a|]; [|constructor]. destruct (kNextRemote _) as [b|]; [|constructor].
      repeat constructor. apply mk_eq; auto. }
    split; [exact K|]. split; [reflexivity|]. destruct E as [(E1 & E2)|(E1 & E2 & _)]; rewrite E2.
    - cbn. rewrite F, E1. unfold keysFor. destruct (kNextLocal _); constructor.
    - reflexivity.
  Qed.

  (** No packet made without the session key passes for one made with it. *)
  Definition unmistakable (aux : option bytes) (k id : bytes) (raw : bytes) : Prop :=
    forall pid body, length pid = 8%nat -> raw = idOnWire stream aux pid ++ body ->
      firstTagFits stream blake3 poly1305 aux pid pid body -> ~ firstTagFits stream blake3 poly1305 (Some k) (id ++ pid) pid body.

  Lemma mkey_sym : forall psk p p', mkey psk p (pubOf p') = mkey psk p' (pubOf p).
  Proof. intros. unfold mk, generateSharedKey. rewrite (dh_comm p p'). reflexivity. Qed.

  Lemma wire_len : forall m, wireMsg_ok m -> len (wireBytes m) = 9 + len (wPayload m).
  Proof. intros m _. unfold wireBytes, len. cbn [map app length]. lia. Qed.

  Lemma pid_value : forall v, packetIDValue (packetIDBytes v) < 2^64.
  Proof.
    intros v. unfold packetIDValue, packetIDBytes. pose proof (le_dec_bound (le_enc 8 v) (le_enc_ok 8 v)) as H.
    rewrite le_enc_length in H. exact H.
  Qed.

  (** What arrives. *)
  Definition kxMsgOf (c : iconf) (p : bytes) (fl : bool) : wireMsg :=
    kxWire messageTypeKeyExchange 0 (signedWire sign (icKx c) (msgOf pubOf (icKx c) p fl)).
  Definition dataMsg (payload : bytes) : wireMsg := kxWire MessageTypeReadWrite (setIsConfidential 0 true) payload.

  Lemma kxMsgOf_ok : forall c p fl, honest c -> wireMsg_ok (kxMsgOf c p fl) /\ len (wPayload (kxMsgOf c p fl)) = 146.
  Proof.
    intros c p fl (H1 & H2 & H3).
    assert (Mok : kxMsg_ok (msgOf pubOf (icKx c) p fl)).
    { unfold kxMsg_ok, msgOf. cbn [kSess kIdentity kPub kMode kFlags]. rewrite H3. repeat split; try apply H1; auto; destruct fl; reflexivity. }
    assert (L : length (wPayload (kxMsgOf c p fl)) = 146%nat).
    { cbn [wPayload kxMsgOf kxWire]. unfold signedWire. rewrite app_length, sign_len, (kx_len _ Mok). reflexivity. }
    split; [|unfold len; rewrite L; reflexivity]. unfold wireMsg_ok. rewrite L. repeat split; reflexivity.
  Qed.

  Definition arrives (x y : side) (c' : iconf) (p' : bytes) (m : wireMsg) (o : option bytes) : Prop :=
    match o with
    | None => exists fl, m = kxMsgOf c' p' fl /\ hasLocal (xOf y) /\ (fl = true -> hasRemote (xOf y))
    | Some payload => m = dataMsg payload /\ In payload (dWrote y)
    end.

  Lemma open_packet : forall c c' p p' x y raw v o, honest c -> honest c' -> cPSK (icKx c) = cPSK (icKx c') ->
    SI c c' p p' x y -> packetAs c' p' (pubOf p) y x raw v o -> bytes_ok raw ->
    unmistakable (auxKey blake3 sha3 c') (mkey (cPSK (icKx c)) p (pubOf p')) (sessBytes (cSession (icKx c'))) raw ->
    exists m, arrives x y c' p' m o /\ wireMsg_ok m /\ isFragmented (wFlags m) = false /\
      decryptPacket stream blake3 poly1305 (peerOf blake3 sha3 c (dSess x)) raw =
        Ret (Ok (packetIDBytes v, len (wireBytes m), wireBytes m)).
  Proof.
    intros c c' p p' x y raw v o Hc Hc' Hpsk (KIx & _) (P & PO & PA & PI & Cases) Hb HU.
    assert (PB := side_peer_ok c c' p (pubOf p') _ (dSess x) Hc Hc' KIx).
    assert (Lp : length (packetIDBytes v) = 8%nat) by apply le_enc_length.
    assert (AX : pAux (peerOf blake3 sha3 c (dSess x)) = pAux P) by (rewrite PA; cbn; unfold auxKey; rewrite Hpsk; reflexivity).
    destruct KIx as (A & B & C & D & E & F & _).
    destruct o as [pl|]; [destruct Cases as (Hin & Hl & HK & Es & Cy & Cx)|destruct Cases as (fl & Es & HL & HR)].
    2: { exists (kxMsgOf c' p' fl). destruct (kxMsgOf_ok c' p' fl Hc') as [Mk Lk].
      split; [exists fl; auto|]. split; [exact Mk|]. split; [reflexivity|].
      rewrite <- (encodeMsg_wire _ Mk).
      assert (Le : len (encodeMsg (wType (kxMsgOf c' p' fl)) (wFlags (kxMsgOf c' p' fl)) (wPayload (kxMsgOf c' p' fl))) + 44 < 2^32).
      { rewrite (encodeMsg_wire _ Mk), (wire_len _ Mk), Lk. reflexivity. }
      apply (C13_open_unconfidential stream blake3 poly1305 P (peerOf blake3 sha3 c (dSess x)) (packetIDBytes v) _ raw prim PO PB Lp Le AX Es Hb).
      cbn [peerOf pKeys]. rewrite F. unfold keysFor. destruct D as [(-> & _)|(-> & _)]; [constructor|].
      destruct E as [(-> & _)|(E1 & E2 & _)]; [constructor|]. rewrite E1. constructor; [|repeat (constructor; [left; reflexivity|]); constructor].
      right. unfold remoteIV, peerOf. cbn [pRemoteID]. rewrite E2. cbn [option_map].
      destruct (seal_spec stream blake3 poly1305 prim P false (packetIDBytes v) _ PO Lp Le ltac:(discriminate)) as (body & Es' & Sd & _).
      change (encodeMsg _ _ _) with (encodeMsg messageTypeKeyExchange 0 (signedWire sign (icKx c') (msgOf pubOf (icKx c') p' fl))) in Es'.
      rewrite Es in Es'. injection Es' as Er.
      assert (L8 : length (idOnWire stream (pAux P) (packetIDBytes v)) = 8%nat) by (unfold idOnWire; destruct (pAux P); rewrite ?xorStream_length; exact Lp).
      replace (skipn 8 raw) with body by (rewrite Er, skipn_app, L8, (skipn_all2 _ (n := 8)), Nat.sub_diag by lia; reflexivity).
      apply (HU (packetIDBytes v) body Lp); [rewrite <- PA; exact Er|].
      rewrite <- PA. apply sealed_fits in Sd; [exact Sd|apply prim]. }
    - assert (Mk : wireMsg_ok (dataMsg pl)).
      { unfold wireMsg_ok, dataMsg, kxWire. cbn [wType wFlags wPayload]. unfold len in Hl. repeat split; try reflexivity. lia. }
      exists (dataMsg pl). split; [split; auto|]. split; [exact Mk|]. split; [reflexivity|].
      rewrite <- (encodeMsg_wire _ Mk).
      assert (Le : len (encodeMsg (wType (dataMsg pl)) (wFlags (dataMsg pl)) (wPayload (dataMsg pl))) + 44 < 2^32).
      { rewrite (encodeMsg_wire _ Mk), (wire_len _ Mk). cbn [wPayload dataMsg kxWire]. lia. }
      destruct Cx as [CL CR]. unfold hasLocal, hasRemote, xOf in CL, CR.
      destruct D as [(D & _)|(D & _)]; [contradiction|]. destruct E as [(E & _)|(E1 & E2 & _)]; [contradiction|].
      apply (C13_open_confidential stream blake3 poly1305 P (peerOf blake3 sha3 c (dSess x)) (packetIDBytes v) _
               (mkey (cPSK (icKx c')) p' (pubOf p)) [] [None; None; None] raw prim PO PB Lp Le AX); auto.
      + cbn [peerOf pRemoteID]. rewrite E2, PI. reflexivity.
      + cbn [peerOf pKeys]. rewrite F, D, E1. cbn [keysFor app]. rewrite Hpsk, mkey_sym. reflexivity.
  Qed.

  Notation hnd c := (iHandle verify dh blake3 sha3 c).

  (** How a message is passed on. *)
  Lemma slice_all : forall b : bytes, gslice b 0 (len b) = Some b.
  Proof.
    intros b. unfold gslice. rewrite N.leb_refl. replace (0 <=? len b) with true by (symmetry; apply N.leb_le; lia).
    cbn [andb N.to_nat skipn]. rewrite N.sub_0_r. unfold len. rewrite Nnat.Nat2N.id, firstn_all. reflexivity.
  Qed.

  Definition usual (r : rcv) : Prop :=
    messengers r = [(messageTypeKeyExchange, true); (messageTypeNegotiation, true)] /\
    readChans r = [messageTypeKeyExchange; messageTypeNegotiation; MessageTypeReadWrite] /\ detachOnMessagesCount r = 0.

  Lemma one_kx : forall r b, usual r ->
    handleOne r (hdrOf (kxWire messageTypeKeyExchange 0 b)) b = Ret (emit r (EvHandler messageTypeKeyExchange b), 0, Some (len b)).
  Proof.
    intros r b (A & B & C). unfold handleOne. rewrite C. change (0 <? 0) with false. cbn [andb].
    change (isFragmented (mFlags (hdrOf (kxWire messageTypeKeyExchange 0 b)))) with false. cbn match. unfold processIncomingMessage. rewrite A.
    change (lookup (mType (hdrOf (kxWire messageTypeKeyExchange 0 b))) [(messageTypeKeyExchange, true); (messageTypeNegotiation, true)]) with (Some true).
    change (mLength (hdrOf (kxWire messageTypeKeyExchange 0 b))) with (len b). rewrite slice_all. reflexivity.
  Qed.

  Lemma one_data : forall r b, usual r -> handleOne r (hdrOf (dataMsg b)) b = Ret (emit r (EvQueue MessageTypeReadWrite b), 0, Some (len b)).
  Proof.
    intros r b (A & B & C). unfold handleOne. rewrite C. change (0 <? 0) with false. cbn [andb].
    change (isFragmented (mFlags (hdrOf (dataMsg b)))) with false. cbn match. unfold processIncomingMessage. rewrite A.
    change (lookup (mType (hdrOf (dataMsg b))) [(messageTypeKeyExchange, true); (messageTypeNegotiation, true)]) with (@None bool).
    change (mLength (hdrOf (dataMsg b))) with (len b). rewrite slice_all, B. reflexivity.
  Qed.

  Lemma emitted : forall r e, Nat.ltb (length (out r)) (length (out (emit r e))) = true.
  Proof. intros. cbn [emit out length]. apply Nat.ltb_lt. lia. Qed.

  Lemma handle_data : forall c s b, usual (iRcv s) -> hnd c s (hdrOf (dataMsg b)) b = Ret (upRcv s (emit (iRcv s) (EvQueue MessageTypeReadWrite b)), Some (len b)).
  Proof.
    intros c s b U. unfold iHandle. rewrite (one_data _ _ U), emitted. cbn match. reflexivity.
  Qed.

  Lemma handle_kx : forall c s b k answer, usual (iRcv s) ->
    handleKx verify dh blake3 sha3 (icKx c) (xKx (iKx s)) b = Ret (k, HDone answer) ->
    kErrs k = kErrs (xKx (iKx s)) ->
    hnd c s (hdrOf (kxWire messageTypeKeyExchange 0 b)) b =
      Ret (let s1 := upKx (upRcv s (emit (iRcv s) (EvHandler messageTypeKeyExchange b))) (if answer then addAnswer (setX (iKx s) k) else setX (iKx s) k) in
           if (kDone (xKx (iKx s)) =? 0) && (0 <? kDone k) then connect s1 else s1, Some (len b)).
  Proof.
    intros c s b k answer U E Ek. unfold iHandle. rewrite (one_kx _ _ U), emitted. cbn [out emit].
    unfold handleEvent. change (messageTypeKeyExchange =? messageTypeKeyExchange) with true. cbn match.
    change (xKx (iKx (upRcv s _))) with (xKx (iKx s)). rewrite E. cbn match. unfold afterKx.
    change (xKx (iKx (upRcv s _))) with (xKx (iKx s)). change (iKx (upRcv s _)) with (iKx s).
    destruct answer; cbn [xKx addAnswer setX]; rewrite Ek, Nat.ltb_irrefl; cbn zeta; cbn [N.ltb N.compare andb]; reflexivity.
  Qed.

  Definition withSess (x : side) (s : isess) : side := {| dSess := s; dNet := dNet x; dWrote := dWrote x |}.

  Lemma received_at : forall c s raw v m, wireMsg_ok m -> winOk (iWin s) ->
    decryptPacket stream blake3 poly1305 (peerOf blake3 sha3 c s) raw = Ret (Ok (packetIDBytes v, len (wireBytes m), wireBytes m)) ->
    exists p w b, winOk w /\ checkAndRemember (iWin s) (packetIDValue (packetIDBytes v)) = Ret (w, b) /\
      (pNext p = iNext s \/ pNext p = add64 (iNext s) 1) /\
      receivePacket stream blake3 poly1305 (peerOf blake3 sha3 c s) (iWin s) raw =
        Ret (p, w, if b then PktAccepted (len (wireBytes m)) (wireBytes m) else PktDuplicate).
  Proof.
    intros c s raw v m Hm Hw E. destruct (win_check (iWin s) (packetIDValue (packetIDBytes v)) Hw (pid_value v)) as (w & b & Ew & Hw').
    destruct raw as [|b0 raw]; [discriminate|]. unfold receivePacket. rewrite E, Ew. cbn zeta.
    set (p := if _ <? _ then _ else _). exists p, w, b. split; [exact Hw'|]. split; [reflexivity|].
    split; [unfold p; destruct (_ <? _); auto|]. destruct b; reflexivity.
  Qed.

  Definition optl (o : option bytes) : list bytes := match o with Some b => [b] | None => [] end.

  Lemma queued_emit : forall s e, queued (upRcv s (emit (iRcv s) e)) =
    queued s ++ (match e with EvQueue t p => if t =? MessageTypeReadWrite then [p] else [] | _ => [] end).
  Proof.
    intros. unfold queued. cbn [upRcv iRcv emit out rev]. rewrite flat_map_app. cbn [flat_map]. rewrite app_nil_r. reflexivity.
  Qed.

  Lemma packets_self : forall c p q x y x' net, Forall (packetOf c p q x y) net ->
    (hasLocal (xOf x) -> hasLocal (xOf x')) -> (hasRemote (xOf x) -> hasRemote (xOf x')) -> incl (dWrote x) (dWrote x') ->
    Forall (packetOf c p q x' y) net.
  Proof. intros c p q x y x' net F H1 H2 H3. eapply Forall_impl; [|exact F]. intros raw H. eapply packet_mono; eauto. Qed.

  Lemma recv_ok : forall c c' p p' x y raw v o s', honest c -> honest c' -> cPSK (icKx c) = cPSK (icKx c') ->
    SI c c' p p' x y -> SI c' c p' p y x -> packetAs c' p' (pubOf p) y x raw v o -> bytes_ok raw ->
    unmistakable (auxKey blake3 sha3 c') (mkey (cPSK (icKx c)) p (pubOf p')) (sessBytes (cSession (icKx c'))) raw ->
    istep verify dh blake3 sha3 stream poly1305 c (dSess x) (IPacket raw) = Some s' ->
    SI c c' p p' (withSess x s') y /\
    (hasLocal (xOf x) -> hasLocal (iKx s')) /\ (hasRemote (xOf x) -> hasRemote (iKx s')) /\
    exists w b, checkAndRemember (iWin (dSess x)) (packetIDValue (packetIDBytes v)) = Ret (w, b) /\ iWin s' = w /\
      queued s' = queued (dSess x) ++ (if b then optl o else []) /\ (iNext s' = iNext (dSess x) \/ iNext s' = add64 (iNext (dSess x)) 1).
  Proof.
    intros c c' p p' x y raw v o s' Hc Hc' Hpsk SX SY PK Hb HU E.
    destruct (open_packet c c' p p' x y raw v o Hc Hc' Hpsk SX PK Hb HU) as (m & Ar & Mk & Fr & De).
    assert (SX0 := SX). destruct SX as (KIx & (A1 & A2 & A3) & U & B1 & B2 & B3 & B4 & B5 & B6).
    unfold istep in E. rewrite A1 in E.
    destruct (iOver (dSess x) || isDoneState (stateOf (dSess x)) || locked (iKx (dSess x))) eqn:EO; [discriminate|].
    apply orb_false_iff in EO. destruct EO as [EO _]. apply orb_false_iff in EO. destruct EO as [_ EO].
    assert (Cx : kCtxDone (xKx (iKx (dSess x))) = false) by (destruct (kCtxDone (xKx (iKx (dSess x)))); [rewrite B1 in EO; [discriminate|reflexivity]|reflexivity]).
    destruct (received_at c (dSess x) raw v m Mk A3 De) as (P & w & b & Hw & Ew & Nx & Rc). destruct b.
    2: { unfold iReceive in E. rewrite Rc in E. injection E as <-. split; [|split; [intros H; exact H|split; [intros H; exact H|]]].
      2: { exists w, false. rewrite app_nil_r. auto. }
      unfold SI. cbn [dSess withSess]. split; [exact KIx|]. split; [split; [exact A1|split; [exact A2|exact Hw]]|].
      split; [exact U|]. split; [exact B1|]. split; [exact B2|]. split; [exact B3|]. split; [|split; [exact B5|exact B6]].
      eapply packets_self; [exact B4| | |apply incl_refl]; intros H; exact H. }
    set (s1 := upFails (upPkt (dSess x) (pNext P) w) 0 (iUnexpected (dSess x))).
    assert (U1 : usual (iRcv s1)) by exact U.
    destruct o as [pl|]; [destruct Ar as (-> & Hpl)|destruct Ar as (fl & -> & HL & HR)].
    2: { (* key exchange *)
      assert (Hfl : fl = true -> hasLocal (xOf x)).
      { intros ->. destruct SY as ((_ & _ & _ & _ & Er & _) & _). specialize (HR eq_refl). destruct Er as [(Er & _)|(_ & _ & Er)]; [exfalso; apply HR; exact Er|exact Er]. }
      destruct (kx_handle verify dh blake3 sha3 sign pubOf dh_len sha3_len dh_nonzero sign_len sign_ok pub_len pub_nonzero
                  (icKx c) (icKx c') p p' (hasLocal (xOf y)) (iKx s1) fl KIx HL) as (k & Ek & KIk & K1 & K2 & K3 & K4 & K5);
        [apply Hc'|apply Hc'|apply Hc|apply Hc'|exact Cx|exact Hfl|].
      assert (Hh := handle_kx c s1 _ k (negb fl) U1 Ek K3).
      set (s2 := if (kDone (xKx (iKx s1)) =? 0) && (0 <? kDone k) then _ else _) in Hh.
      change (upKx _ _) with (upKx (upRcv s1 (emit (iRcv s1) (EvHandler messageTypeKeyExchange (signedWire sign (icKx c') (msgOf pubOf (icKx c') p' fl)))))
        (if negb fl then addAnswer (setX (iKx s1) k) else setX (iKx s1) k)) in s2.
      rewrite (receive_one verify dh blake3 sha3 stream poly1305 c (dSess x) raw P w _ s2 _ Mk Fr Rc Hh) in E. injection E as <-.
      assert (X2 : iKx s2 = if negb fl then addAnswer (setX (iKx s1) k) else setX (iKx s1) k)
        by (unfold s2; destruct ((kDone (xKx (iKx s1)) =? 0) && (0 <? kDone k)); reflexivity).
      assert (K6 : xKx (iKx s2) = k) by (rewrite X2; destruct fl; reflexivity).
      assert (ML : hasLocal (xOf x) -> hasLocal (iKx s2)) by (unfold hasLocal; rewrite K6, K2; intros H; exact H).
      assert (MR : hasRemote (iKx s2)) by (unfold hasRemote; rewrite K6, K1; discriminate).
      split; [|split; [exact ML|split; [intros _; exact MR|]]].
      2: { exists w, true. split; [exact Ew|]. cbn [optl].
        split; [unfold s2; destruct ((kDone _ =? 0) && (0 <? kDone k)); reflexivity|]. split; [|unfold s2; destruct ((kDone _ =? 0) && (0 <? kDone k)); exact Nx].
        unfold s2. destruct ((kDone _ =? 0) && (0 <? kDone k)); unfold queued; cbn [connect upRcv upKx iRcv setSessState emit out rev]; rewrite flat_map_app; reflexivity. }
      assert (St : stateOf s2 = if (kDone (xKx (iKx s1)) =? 0) && (0 <? kDone k) then
                      fst (setState (fst (setState (stateOf (dSess x)) SessionStateNegotiating
                        [SessionStateClosed; SessionStateClosing; SessionStateNew; SessionStateEstablished; SessionStateNegotiating]))
                        SessionStateEstablished [SessionStateClosed; SessionStateClosing; SessionStateNew; SessionStateEstablished])
                    else stateOf (dSess x))
        by (unfold s2; destruct ((kDone (xKx (iKx s1)) =? 0) && (0 <? kDone k)); reflexivity).
      assert (O2 : out (iRcv s2) = EvHandler messageTypeKeyExchange (signedWire sign (icKx c') (msgOf pubOf (icKx c') p' fl)) :: out (iRcv (dSess x)))
        by (unfold s2; destruct ((kDone (xKx (iKx s1)) =? 0) && (0 <? kDone k)); reflexivity).
      change (xKx (iKx s1)) with (xKx (iKx (dSess x))) in *.
      unfold SI. cbn [dSess withSess]. split; [rewrite X2; exact KIk|].
      split. { unfold s2. destruct ((kDone _ =? 0) && (0 <? kDone k)); (split; [exact A1|split; [reflexivity|exact Hw]]). }
      split. { unfold s2. destruct ((kDone _ =? 0) && (0 <? kDone k)); exact U. }
      split. { rewrite K6, K4. discriminate. }
      split. { unfold phase. rewrite K6, St, K5. destruct B2 as [(S0 & D0)|[(S0 & D0)|[S0|S0]]].
        - rewrite S0, D0. destruct fl; [right; left|left]; split; reflexivity.
        - rewrite S0. replace (kDone (xKx (iKx (dSess x))) =? 0) with false by (symmetry; apply N.eqb_neq; lia). cbn [andb]. right. left.
          split; [reflexivity|]. destruct fl; lia.
        - rewrite S0 in EO. discriminate.
        - rewrite S0 in EO. discriminate. }
      split. { rewrite K6, K5. intros Hd. destruct fl; [split; [exact HL|apply HR; reflexivity]|apply B3, Hd]. }
      split. { eapply packets_self; [exact B4|exact ML|intros _; exact MR|apply incl_refl]. }
      split. { unfold queued. rewrite O2. cbn [rev]. rewrite flat_map_app. cbn [flat_map app]. rewrite app_nil_r. exact B5. }
      rewrite K6, K3, O2. intros Hq He e [Z|Z]; [discriminate|]. exact (B6 Hq He e Z). }
    - (* data *)
      assert (Hh := handle_data c s1 pl U1). set (s2 := upRcv s1 _) in Hh.
      rewrite (receive_one verify dh blake3 sha3 stream poly1305 c (dSess x) raw P w _ s2 _ Mk Fr Rc Hh) in E. injection E as <-.
      split; [|split; [intros H; exact H|split; [intros H; exact H|]]].
      2: { exists w, true. split; [exact Ew|]. split; [reflexivity|]. split; [unfold s2; rewrite queued_emit; reflexivity|exact Nx]. }
      unfold SI. cbn [dSess withSess].
      split; [exact KIx|]. split; [split; [exact A1|split; [reflexivity|exact Hw]]|]. split; [exact U|]. split; [exact B1|]. split; [exact B2|]. split; [exact B3|].
      split. { eapply packets_self; [exact B4| | |apply incl_refl]; intros H; exact H. }
      split. { unfold s2. rewrite queued_emit. intros z Hz. apply in_app_or in Hz. destruct Hz as [Hz|[<-|[]]]; [apply B5; exact Hz|exact Hpl]. }
      intros Hq He e [Z|Z]; [discriminate|]. exact (B6 Hq He e Z).
  Qed.

  (** Handing over. *)
  Lemma hand_over_ok : forall c c' p p' x s y conf msg wrote, honest c -> honest c' ->
    SI c c' p p' (withSess x s) y ->
    (conf = false /\ wrote = [] /\ (exists fl, msg = encodeMsg messageTypeKeyExchange 0 (signedWire sign (icKx c) (msgOf pubOf (icKx c) p fl)) /\
       hasLocal (iKx s) /\ (fl = true -> hasRemote (iKx s))) \/
     conf = true /\ stateOf s = SessionStateEstablished /\ (exists payload, wrote = [payload] /\ len payload + 53 < 2^32 /\
       msg = encodeMsg MessageTypeReadWrite (setIsConfidential 0 true) payload)) ->
    exists x', handOver blake3 sha3 stream poly1305 c x s conf [msg] wrote = Some x' /\
    SI c c' p p' x' y /\ iKx (dSess x') = iKx s /\
    exists raw, dNet x' = dNet x ++ [raw] /\ dWrote x' = dWrote x ++ wrote /\ iWin (dSess x') = iWin s /\ queued (dSess x') = queued s /\
      iNext (dSess x') = add64 (iNext s) 1 /\ packetAs c p (pubOf p') x' y raw (add64 (iNext s) 1) (hd_error wrote).
  Proof.
    intros c c' p p' x s y conf msg wrote Hc Hc' (KIx & (A1 & A2 & A3) & U & B1 & B2 & B3 & B4 & B5 & B6) Hm.
    cbn [dSess withSess] in *. unfold handOver. cbn [concat]. rewrite app_nil_r.
    unfold sendPacket. set (P0 := peerOf blake3 sha3 c s).
    assert (PO : peer_ok P0) by (eapply side_peer_ok; eauto).
    destruct (takePacketID P0) as [P pid] eqn:ET. unfold takePacketID in ET. injection ET as EP Epid.
    assert (PO1 : peer_ok P) by (subst P; exact PO).
    assert (Lp : length pid = 8%nat) by (subst pid; apply le_enc_length).
    assert (Lm : len msg + 44 < 2^32).
    { destruct Hm as [(_ & _ & fl & -> & _)|(_ & _ & pl & _ & L & ->)].
      - destruct (kxMsgOf_ok c p fl Hc) as [Mk Lk]. change (encodeMsg _ _ _) with (encodeMsg (wType (kxMsgOf c p fl)) (wFlags (kxMsgOf c p fl)) (wPayload (kxMsgOf c p fl))).
        rewrite (encodeMsg_wire _ Mk), (wire_len _ Mk), Lk. reflexivity.
      - assert (Mk : wireMsg_ok (dataMsg pl)).
        { unfold wireMsg_ok, dataMsg, kxWire. cbn [wType wFlags wPayload]. unfold len in L. repeat split; try reflexivity. lia. }
        change (encodeMsg _ _ _) with (encodeMsg (wType (dataMsg pl)) (wFlags (dataMsg pl)) (wPayload (dataMsg pl))).
        rewrite (encodeMsg_wire _ Mk), (wire_len _ Mk). cbn [wPayload dataMsg kxWire]. lia. }
    assert (Est : conf = true -> complete (iKx s) /\ complete (xOf y)).
    { intros ->. destruct Hm as [(Z & _)|(_ & S & _)]; [discriminate|].
      assert (D : 0 < kDone (xKx (iKx s))) by (destruct B2 as [(Z & _)|[(_ & Z)|[Z|Z]]]; [rewrite S in Z; discriminate|exact Z|rewrite S in Z; discriminate|rewrite S in Z; discriminate]).
      split; [apply KIx; exact D|apply B3; exact D]. }
    assert (Key : conf = true -> nth 0 (pKeys P) None = Some (mkey (cPSK (icKx c)) p (pubOf p'))).
    { intros H. destruct (Est H) as [[CL CR] _]. unfold hasLocal, hasRemote in CL, CR. destruct KIx as (_ & _ & _ & D & F & G & _).
      subst P. cbn [pKeys P0 peerOf]. rewrite G. destruct D as [(D & _)|(D & _)]; [contradiction|]. destruct F as [(F & _)|(F & _)]; [contradiction|].
      rewrite D, F. reflexivity. }
    destruct (seal_spec stream blake3 poly1305 prim P conf pid msg PO1 Lp Lm) as (body & Es & _).
    { intros H. rewrite H. unfold sealKey, secretIDRecentBoth. rewrite (Key H). discriminate. }
    rewrite Es. set (raw := idOnWire stream (pAux P) pid ++ body) in *.
    set (x1 := {| dSess := _; dNet := _; dWrote := _ |}). exists x1. split; [reflexivity|].
    assert (PK : packetAs c p (pubOf p') x1 y raw (add64 (iNext s) 1) (hd_error wrote)).
    { exists P. rewrite Epid. split; [exact PO1|]. split; [subst P; reflexivity|]. split; [subst P; reflexivity|].
      destruct Hm as [(Z & -> & fl & Em & HL & HR)|(Z & S & pl & -> & L & Em)]; cbn [hd_error].
      + exists fl. rewrite <- Em, <- Z. split; [exact Es|]. split; [exact HL|exact HR].
      + cbn [dWrote x1]. split; [apply in_or_app; right; left; reflexivity|]. split; [exact L|]. split; [apply Key, Z|].
        rewrite <- Em, <- Z. split; [exact Es|]. apply Est, Z. }
    cbn [dSess upPkt iKx dWrote x1]. split; [|split; [reflexivity|]].
    2: { exists raw. split; [reflexivity|]. split; [reflexivity|]. split; [reflexivity|]. split; [reflexivity|]. split; [subst P; reflexivity|exact PK]. }
    unfold SI. cbn [dSess dNet dWrote]. split; [exact KIx|]. split; [split; [exact A1|split; [exact A2|exact A3]]|]. split; [exact U|].
    split; [exact B1|]. split; [exact B2|]. split; [exact B3|]. split; [|split; [exact B5|exact B6]].
    apply Forall_app. split.
    - eapply packets_self; [exact B4| | |cbn; apply incl_appl, incl_refl]; intros H; exact H.
    - constructor; [|constructor]. exists (add64 (iNext s) 1), (hd_error wrote). exact PK.
  Qed.

  Lemma hand_over : forall c c' p p' x s y conf msg wrote x', honest c -> honest c' ->
    SI c c' p p' (withSess x s) y ->
    (conf = false /\ wrote = [] /\ (exists fl, msg = encodeMsg messageTypeKeyExchange 0 (signedWire sign (icKx c) (msgOf pubOf (icKx c) p fl)) /\
       hasLocal (iKx s) /\ (fl = true -> hasRemote (iKx s))) \/
     conf = true /\ stateOf s = SessionStateEstablished /\ (exists payload, wrote = [payload] /\ len payload + 53 < 2^32 /\
       msg = encodeMsg MessageTypeReadWrite (setIsConfidential 0 true) payload)) ->
    handOver blake3 sha3 stream poly1305 c x s conf [msg] wrote = Some x' ->
    SI c c' p p' x' y /\ iKx (dSess x') = iKx s /\
    exists raw, dNet x' = dNet x ++ [raw] /\ dWrote x' = dWrote x ++ wrote /\ iWin (dSess x') = iWin s /\ queued (dSess x') = queued s /\
      iNext (dSess x') = add64 (iNext s) 1 /\ packetAs c p (pubOf p') x' y raw (add64 (iNext s) 1) (hd_error wrote).
  Proof.
    intros c c' p p' x s y conf msg wrote x' Hc Hc' S Hm E.
    destruct (hand_over_ok c c' p p' x s y conf msg wrote Hc Hc' S Hm) as (x1 & E1 & R). rewrite E in E1. injection E1 as <-. exact R.
  Qed.

  (** Everything but packets. *)
  Definition calm (p : bytes) (x : side) (l : slabel) : Prop := match l with SKx k => calmKx pubOf p k (xOf x) | _ => True end.

  Lemma closed_state : forall s, isDoneState (stateOf (closeCall s)) = true /\ (stateOf (closeCall s) = SessionStateClosing \/ stateOf (closeCall s) = SessionStateClosed).
  Proof.
    intros s. unfold closeCall, stateOf. cbn [iRcv upRcv setSessState sessState setState fst memN].
    replace (memN (sessState (iRcv s)) [SessionStateClosed]) with (sessState (iRcv s) =? SessionStateClosed) by (cbn; rewrite orb_false_r; reflexivity || apply N.eqb_sym).
    destruct (sessState (iRcv s) =? SessionStateClosed) eqn:E.
    - apply N.eqb_eq in E. rewrite E. split; [reflexivity|right; reflexivity].
    - split; [reflexivity|left; reflexivity].
  Qed.

  Lemma kx_ok : forall c c' p p' x y k s', SI c c' p p' x y -> calmKx pubOf p k (xOf x) ->
    istep verify dh blake3 sha3 stream poly1305 c (dSess x) (IKx k) = Some s' ->
    SI c c' p p' (withSess x s') y /\ KStep (xOf x) (iKx s') /\
    iWin s' = iWin (dSess x) /\ queued s' = queued (dSess x) /\ iNext s' = iNext (dSess x).
  Proof.
    intros c c' p p' x y k s' (KIx & (A1 & A2 & A3) & U & B1 & B2 & B3 & B4 & B5 & B6) HC E.
    unfold istep in E. rewrite A1 in E. destruct (isHandle k) eqn:EH; [discriminate|].
    destruct (kstep verify dh blake3 sha3 (icKx c) (iKx (dSess x)) k) as [x1|] eqn:EK; [|discriminate].
    destruct (kx_own verify dh blake3 sha3 pubOf dh_len sha3_len dh_nonzero (icKx c) (icKx c') p (pubOf p') _ _ _ _ KIx HC EH EK) as [KI1 ST].
    assert (P1 : xPanic x1 = false) by apply KI1. rewrite P1 in E. injection E as <-.
    assert (X1 : iKx (afterKx c (dSess x) x1) = x1).
    { unfold afterKx. cbv beta zeta. destruct (Nat.ltb _ _); destruct ((_ =? 0) && _); unfold reportError; cbv beta zeta; destruct (icCloseOnError c); reflexivity. }
    destruct ST as (S1 & S2 & S3 & S4 & S5).
    assert (ST : KStep (xOf x) x1) by (unfold KStep; auto).
    rewrite X1. split; [|split; [exact ST|]].
    2: { unfold afterKx. cbv beta zeta. destruct (Nat.ltb _ _); destruct ((_ =? 0) && _); unfold reportError; cbv beta zeta; try destruct (icCloseOnError c);
         (split; [reflexivity|split; [|reflexivity]]); unfold queued; cbn [closeCall connect upRcv upKx iRcv emit out rev setSessState];
         rewrite ?flat_map_app; cbn [flat_map app]; rewrite ?app_nil_r; reflexivity. }
    assert (MR : hasRemote (xOf x) -> hasRemote x1) by (unfold hasRemote; rewrite S1; intros H; exact H).
    assert (AF : afterKx c (dSess x) x1 = if Nat.ltb (length (kErrs (xKx (iKx (dSess x))))) (length (kErrs (xKx x1)))
                   then reportError c (closeCall (upKx (dSess x) x1)) ErrBackend else upKx (dSess x) x1).
    { unfold afterKx. cbv beta zeta. unfold xOf in S2. rewrite S2. destruct (kDone (xKx (iKx (dSess x))) =? 0) eqn:ED; cbn [andb]; [|reflexivity].
      apply N.eqb_eq in ED. rewrite ED. reflexivity. }
    rewrite AF in *. clear AF. unfold xOf in S1, S2, S3, S4, S5. destruct S4 as [(S4 & S6)|(e & S4)].
    - rewrite S4, Nat.ltb_irrefl in *. unfold SI. cbn [dSess withSess upKx iKx]. split; [exact KI1|]. split; [split; [exact A1|split; [exact A2|exact A3]]|].
      split; [exact U|]. split; [rewrite S6; exact B1|]. split; [unfold phase; cbn [upKx iKx]; rewrite S2; exact B2|]. split; [rewrite S2; exact B3|].
      split. { eapply packets_self; [exact B4|exact S3|exact MR|apply incl_refl]. }
      split; [exact B5|]. rewrite S4. exact B6.
    - rewrite S4 in *. cbn [length] in *. replace (Nat.ltb _ _) with true in * by (symmetry; apply Nat.ltb_lt; lia).
      set (s2 := reportError c (closeCall (upKx (dSess x) x1)) ErrBackend) in *.
      assert (Q : iPanic s2 = false /\ (qt -> iFails s2 = 0) /\ winOk (iWin s2)) by (unfold s2, reportError; cbv beta zeta; destruct (icCloseOnError c); (split; [exact A1|split; [exact A2|exact A3]])).
      assert (U2 : usual (iRcv s2)) by (unfold s2, reportError; cbv beta zeta; destruct (icCloseOnError c); exact U).
      assert (Q2 : queued s2 = queued (dSess x)).
      { unfold s2, reportError, queued. cbv beta zeta. destruct (icCloseOnError c);
          cbn [closeCall upRcv upKx iRcv emit out rev setSessState]; rewrite flat_map_app; cbn [flat_map app]; rewrite app_nil_r; reflexivity. }
      assert (D2 : isDoneState (stateOf s2) = true /\ (stateOf s2 = SessionStateClosing \/ stateOf s2 = SessionStateClosed)).
      { unfold s2, reportError. cbv beta zeta. destruct (icCloseOnError c); [apply closed_state|apply (closed_state (upKx (dSess x) x1))]. }
      unfold SI. cbn [dSess withSess]. rewrite X1. split; [exact KI1|]. split; [exact Q|]. split; [exact U2|]. split; [intros _; apply D2|].
      split; [right; right; apply D2|]. split; [rewrite S2; exact B3|].
      split. { eapply packets_self; [exact B4| | |apply incl_refl]; unfold xOf; cbn [dSess withSess]; rewrite X1; [exact S3|exact MR]. }
      split; [rewrite Q2; exact B5|]. rewrite S4. discriminate.
  Qed.

  (** What a step of a side which is not an arrival does to the traffic. *)
  Definition grew (c : iconf) (p q : bytes) (x x' y : side) : Prop :=
    iWin (dSess x') = iWin (dSess x) /\ queued (dSess x') = queued (dSess x) /\
    (dNet x' = dNet x /\ dWrote x' = dWrote x /\ iNext (dSess x') = iNext (dSess x) \/
     exists raw o, dNet x' = dNet x ++ [raw] /\ dWrote x' = dWrote x ++ optl o /\ iNext (dSess x') = add64 (iNext (dSess x)) 1 /\
       packetAs c p q x' y raw (add64 (iNext (dSess x)) 1) o).

  Lemma grew_incl : forall c p q x x' y, grew c p q x x' y -> incl (dWrote x) (dWrote x').
  Proof.
    intros c p q x x' y (_ & _ & [(_ & E & _)|(raw & o & _ & E & _)]); rewrite E; [apply incl_refl|apply incl_appl, incl_refl].
  Qed.

  Lemma own_ok : forall c c' p p' x y net l x', honest c -> honest c' -> SI c c' p p' x y -> calm p x l ->
    (forall n, l <> SRecv n) -> sideStep verify dh blake3 sha3 stream poly1305 sign c x net l = Some x' ->
    SI c c' p p' x' y /\ (hasLocal (xOf x) -> hasLocal (xOf x')) /\ (hasRemote (xOf x) -> hasRemote (xOf x')) /\ grew c p (pubOf p') x x' y.
  Proof.
    intros c c' p p' x y net l x' Hc Hc' SX HC HN E. destruct l as [k|n|payload| |]; cbn [sideStep] in E.
    - destruct (istep verify dh blake3 sha3 stream poly1305 c (dSess x) (IKx k)) as [s'|] eqn:EI; [|discriminate].
      destruct (kx_ok c c' p p' x y k s' SX HC EI) as (S1 & (K1 & K2 & K3 & K4 & K5) & W & Q & Nx).
      assert (MR : hasRemote (xOf x) -> hasRemote (iKx s')) by (unfold hasRemote; rewrite K1; intros H; exact H).
      destruct (Nat.ltb (length (xSent (iKx (dSess x)))) (length (xSent (iKx s'))) && negb (isDoneState (stateOf s'))) eqn:EC.
      + destruct (xSent (iKx s')) as [|m ms] eqn:EM; [discriminate|].
        assert (HM : hasLocal (iKx s') /\ exists fl, m = msgOf pubOf (icKx c) p fl /\ (fl = true -> hasRemote (iKx s'))).
        { destruct S1 as ((_ & _ & _ & _ & _ & _ & _ & _ & F & _) & _). cbn [dSess withSess] in F. rewrite EM in F. inversion F; assumption. }
        destruct HM as (HL & fl & -> & HR).
        destruct (hand_over c c' p p' x s' y false _ [] x' Hc Hc' S1 (or_introl (conj eq_refl (conj eq_refl (ex_intro _ fl (conj eq_refl (conj HL HR)))))) E)
          as (S2 & X & raw & I1 & I2 & I3 & I4 & I5 & I6).
        split; [exact S2|]. unfold xOf. rewrite X. split; [intros _; exact HL|]. split; [exact MR|].
        split; [congruence|]. split; [congruence|]. right. exists raw, None. rewrite Nx in I5, I6. auto.
      + injection E as <-. split; [exact S1|]. split; [exact K3|]. split; [exact MR|]. split; [exact W|]. split; [exact Q|]. left. auto.
    - destruct (HN n eq_refl).
    - destruct (iPanic (dSess x) || negb (stateOf (dSess x) =? SessionStateEstablished) || (2^32 <=? len payload + 53)) eqn:EO; [discriminate|].
      apply orb_false_iff in EO. destruct EO as [EO EL]. apply orb_false_iff in EO. destruct EO as [_ EO]. apply negb_false_iff, N.eqb_eq in EO. apply N.leb_gt in EL.
      assert (S1 : SI c c' p p' (withSess x (dSess x)) y) by (destruct x; exact SX).
      destruct (hand_over c c' p p' x (dSess x) y true _ [payload] x' Hc Hc' S1
                  (or_intror (conj eq_refl (conj EO (ex_intro _ payload (conj eq_refl (conj EL eq_refl)))))) E) as (S2 & X & raw & I1 & I2 & I3 & I4 & I5 & I6).
      split; [exact S2|]. unfold xOf. rewrite X. split; [auto|]. split; [auto|]. split; [exact I3|]. split; [exact I4|].
      right. exists raw, (Some payload). auto.
    - destruct (iPanic (dSess x)) eqn:EP; [discriminate|]. injection E as <-.
      split; [|split; [intros H; exact H|split; [intros H; exact H|split; [reflexivity|split; [reflexivity|left; auto]]]]].
      destruct SX as (KIx & (A1 & A2 & A3) & U & B1 & B2 & B3 & B4 & B5 & B6). destruct (closed_state (dSess x)) as [D1 D2].
      unfold SI. cbn [dSess]. split; [exact KIx|]. split; [split; [exact A1|split; [exact A2|exact A3]]|]. split; [exact U|]. split; [intros _; exact D1|].
      split; [right; right; exact D2|]. split; [exact B3|]. split; [|split; [exact B5|exact B6]].
      eapply packets_self; [exact B4| | |apply incl_refl]; intros H; exact H.
    - destruct (istep verify dh blake3 sha3 stream poly1305 c (dSess x) ICleanup) as [s'|] eqn:EI; [|discriminate]. injection E as <-.
      destruct SX as (KIx & (A1 & A2 & A3) & U & B1 & B2 & B3 & B4 & B5 & B6). unfold istep in EI. rewrite A1 in EI.
      destruct (iOver (dSess x) || isDoneState (stateOf (dSess x))); [|discriminate]. injection EI as <-.
      split; [|split; [intros H; exact H|split; [intros H; exact H|split; [reflexivity|split; [reflexivity|left; auto]]]]].
      unfold SI. cbn [dSess upOver upKx iKx]. split; [exact KIx|]. split; [split; [exact A1|split; [exact A2|exact A3]]|]. split; [exact U|]. split; [reflexivity|].
      split; [right; right; right; reflexivity|]. split; [exact B3|]. split; [|split; [exact B5|exact B6]].
      eapply packets_self; [exact B4| | |apply incl_refl]; intros H; exact H.
  Qed.
End Duo.
