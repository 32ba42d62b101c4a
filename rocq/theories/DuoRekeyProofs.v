(** Lemmas about two sessions which draw new key pairs again and again. *)
From Coq Require Import NArith Arith List Bool Lia Permutation.
From Verif Require Import Base BaseLemmas TS MessageModel CodecProofs PacketIDModel PacketIDSpec PacketIDProofs PacketIDRun ReaderModel ReaderLoopModel ReaderSpec ReaderProofs
  PacketModel PacketSpec PacketProofs PacketProps StateModel KxModel KxSpec KxProofs KxPairModel IntegModel IntegSpec IntegProofs IntegSafe IntegProps
  DuoModel DuoSpec DuoProofs DuoProps DuoOnceProps DuoAttackModel DuoAttackSpec DuoAttackProofs IntegAuth DuoRekeySpec.
Import ListNotations.
Local Open Scope N_scope.

(** ** The exchanger of one side *)

Section Kx.
  Variable verify : bytes -> bytes -> bytes -> bool.
  Variable dh : bytes -> bytes -> bytes.
  Variable blake3 sha3 : bytes -> bytes.
  Variable sign : bytes -> bytes -> bytes.
  Variable pubOf : bytes -> bytes.
  Hypothesis dh_len : forall a b, length (dh a b) = 32%nat.
  Hypothesis sha3_len : forall b, length (sha3 b) = 32%nat.
  Hypothesis dh_nonzero : forall a b, dh a b <> zeroKey.
  Hypothesis sign_len : forall id m, length (sign id m) = 64%nat.
  Hypothesis sign_ok : forall id m, verify id (sign id m) m = true.
  Hypothesis pub_len : forall p, length (pubOf p) = 32%nat.
  Hypothesis pub_nonzero : forall p, pubOf p <> zeroKey.

  Notation gsk := (generateSharedKey dh blake3 sha3).
  Notation step := (kstep verify dh blake3 sha3).
  Notation mkey := (mk dh blake3 sha3).
  Notation msg := (msgOf pubOf).

  (** The keys of [ps] and [qs]. *)
  Definition sk (psk : option bytes) (ps qs : list bytes) (k : bytes) : Prop := exists p q, In p ps /\ In q qs /\ k = mkey psk p (pubOf q).

  Definition ownKey (ps : list bytes) (o : option bytes) : Prop := match o with None => True | Some p => In p ps end.
  Definition hisKey (qs : list bytes) (o : option bytes) : Prop := match o with None => True | Some x => exists q, In q qs /\ x = pubOf q end.

  Definition KR (c c' : kxConf) (ps qs : list bytes) (peer : Prop) (x : kxs) : Prop :=
    let k := xKx x in
    kRemoteIdentity k = Some (cIdentity c') /\
    (ownKey ps (kNextLocal k) /\ ownKey ps (kPrevLocal k) /\ kNextLocalPub k = option_map pubOf (kNextLocal k) /\ (kNextLocal k = None -> kNextAt k = 0)) /\
    (hisKey qs (kNextRemote k) /\ hisKey qs (kPrevRemote k)) /\
    (kNextRemote k = None /\ kRemoteSession k = None \/ kNextRemote k <> None /\ kRemoteSession k = Some (cSession c') /\ peer) /\
    (kKeys k = [] /\ (kNextLocal k = None \/ kNextRemote k = None) \/
     complete x /\ (exists k0 ks, kKeys k = Some k0 :: ks) /\ forall key, In (Some key) (kKeys k) -> sk (cPSK c) ps qs key) /\
    match xLoop x with LpSend _ | LpWait _ => hasLocal x | _ => True end /\
    Forall (fun a => hasRemote x /\ match a with ApSend | ApSkip | ApDone => hasLocal x | _ => True end) (xAnswers x) /\
    Forall (fun m => hasLocal x /\ exists p fl, In p ps /\ m = msg c p fl /\ (fl = true -> hasRemote x)) (xSent x) /\
    xPanic x = false /\ (0 < kDone k -> complete x).

  Lemma KR_mono : forall c c' ps qs (P Q : Prop) x, (P -> Q) -> KR c c' ps qs P x -> KR c c' ps qs Q x.
  Proof. intros c c' ps qs P Q x H (A & B & C & D & R). unfold KR. cbn zeta in *. split; [exact A|]. split; [exact B|]. split; [exact C|]. split; [|exact R]. tauto. Qed.

  Lemma KR_init : forall c c' ps qs P, KR c c' ps qs P (kxsInit (Some (cIdentity c'))).
  Proof. intros. unfold KR, kxsInit, newKx. cbn. repeat split; auto; try constructor; try lia. Qed.

  (** All four secrets. *)
  Lemma gsk_any : forall psk l r, gsk psk l r = Ret (match l, r with Some a, Some b => Some (mkey psk a b) | _, _ => None end).
  Proof. intros psk [a|] [b|]; try reflexivity. apply (mk_eq dh blake3 sha3 dh_len sha3_len dh_nonzero). Qed.

  Lemma update_any : forall c k ps qs, ownKey ps (kNextLocal k) -> ownKey ps (kPrevLocal k) -> hisKey qs (kNextRemote k) -> hisKey qs (kPrevRemote k) ->
    exists ks, updateSecrets dh blake3 sha3 c k = Ret (setKeys k ks) /\
      ((kNextLocal k = None \/ kNextRemote k = None) /\ ks = kKeys k \/
       kNextLocal k <> None /\ kNextRemote k <> None /\ (exists k0 r, ks = Some k0 :: r) /\ forall key, In (Some key) ks -> sk (cPSK c) ps qs key).
  Proof.
    intros c k ps qs A B C D. rewrite (update_spec dh blake3 sha3 dh_len sha3_len), !gsk_any.
    assert (S : k = setKeys k (kKeys k)) by (destruct k; reflexivity).
    destruct (kNextLocal k) as [l|] eqn:EL; [|exists (kKeys k); rewrite <- S; auto].
    destruct (kNextRemote k) as [r|] eqn:ER; [|exists (kKeys k); rewrite <- S; auto].
    eexists. split; [reflexivity|]. right. split; [discriminate|]. split; [discriminate|]. split; [eauto|].
    assert (M : forall o1 o2 key, ownKey ps o1 -> hisKey qs o2 -> match o1, o2 with Some a, Some b => Some (mkey (cPSK c) a b) | _, _ => None end = Some key -> sk (cPSK c) ps qs key).
    { intros [a|] [b|] key H1 H2 E; try discriminate. injection E as <-. destruct H2 as (q & Hq & ->). exists a, q. auto. }
    intros key [E|[E|[E|[E|[]]]]].
    - apply (M (Some l) (Some r)); auto.
    - apply (M (Some l) (kPrevRemote k)); auto.
    - apply (M (kPrevLocal k) (Some r)); auto.
    - apply (M (kPrevLocal k) (kPrevRemote k)); auto.
  Qed.

  (** The own goroutines. *)
  Definition freeKx (ps : list bytes) (l : klabel) : Prop :=
    match l with
    | KLoopGen s t _ | KAnswerGen _ s t _ => In s ps /\ t = pubOf s
    | KCancel => False
    | _ => True
    end.

  (** What a step of the own goroutines leaves alone. *)
  Definition KStepR (x x' : kxs) : Prop :=
    kNextRemote (xKx x') = kNextRemote (xKx x) /\ kDone (xKx x') = kDone (xKx x) /\ (hasLocal x -> hasLocal x') /\
    (kErrs (xKx x') = kErrs (xKx x) /\ kCtxDone (xKx x') = kCtxDone (xKx x) \/ exists e, kErrs (xKx x') = e :: kErrs (xKx x)) /\
    (xSent x' = xSent x \/ exists m, xSent x' = m :: xSent x).

  Ltac ki := unfold KR, KStepR, complete, hasLocal, hasRemote in *; cbn -[msgOf zeroKey sk ownKey hisKey] in *.

  Lemma KR_install : forall c c' ps qs P x p now, KR c c' ps qs P x -> In p ps ->
    exists k, installLocalKey dh blake3 sha3 c (xKx x) p (pubOf p) now = Ret k /\
      kRemoteIdentity k = kRemoteIdentity (xKx x) /\ kPrevRemote k = kPrevRemote (xKx x) /\ kPrevLocal k = kNextLocal (xKx x) /\
      kNextLocal k = Some p /\ kNextLocalPub k = Some (pubOf p) /\ kNextRemote k = kNextRemote (xKx x) /\
      kRemoteSession k = kRemoteSession (xKx x) /\
      (kKeys k = [] /\ kNextRemote (xKx x) = None \/
       kNextRemote (xKx x) <> None /\ (exists k0 ks, kKeys k = Some k0 :: ks) /\ forall key, In (Some key) (kKeys k) -> sk (cPSK c) ps qs key) /\
      kErrs k = kErrs (xKx x) /\ kDone k = kDone (xKx x) /\ kCtxDone k = kCtxDone (xKx x).
  Proof.
    intros c c' ps qs P x p now (A & (B1 & B2 & B3 & B4) & (C1 & C2) & D & E & _) Hp. unfold installLocalKey. cbn zeta.
    set (at_ := if u64 now <=? _ then _ else _). clearbody at_. set (k1 := setLocalKeys _ _ _ _ _).
    destruct (update_any c k1 ps qs Hp B1 C1 C2) as (ks & Eu & Cases). rewrite Eu.
    eexists. split; [reflexivity|]. cbn [setKeys k1 setLocalKeys kRemoteIdentity kPrevRemote kPrevLocal kNextLocal kNextLocalPub kNextRemote kRemoteSession kKeys kErrs kDone kCtxDone] in *.
    repeat (split; [reflexivity|]). split; [|auto].
    destruct Cases as [([Z|Z] & ->)|(_ & Z & W)]; [discriminate| |right; auto].
    left. split; [|exact Z]. destruct E as [(E & _)|([_ CR] & _)]; [exact E|exfalso; apply CR; exact Z].
  Qed.

  Lemma kx_ownR : forall c c' ps qs P x l x', KR c c' ps qs P x -> freeKx ps l -> KxPairModel.isHandle l = false -> step c x l = Some x' ->
    KR c c' ps qs P x' /\ KStepR x x'.
  Proof.
    intros c c' ps qs P x l x' HI HC HH E. unfold kstep in E.
    assert (HP : xPanic x = false) by apply HI. rewrite HP in E.
    destruct l as [b|now| |s t now| | | | |i now|i s t now|]; try discriminate.
    - (* go *) destruct (xLoop x) eqn:EL; try discriminate. destruct (kCtxDone (xKx x)) eqn:EC; [discriminate|].
      destruct (now <? _); injection E as <-.
      + split; [exact HI|]. ki. tauto.
      + ki. rewrite EL in HI. tauto.
    - (* check *) destruct (xLoop x) eqn:EL; try discriminate. destruct (inProgress (xKx x)) eqn:EP; injection E as <-.
      + unfold inProgress in EP. apply N.ltb_lt in EP. ki. rewrite EL in HI. destruct HI as (A & (B1 & B2 & B3 & B4) & R).
        assert (kNextLocal (xKx x) <> None) by (intros Z; rewrite (B4 Z) in EP; lia). tauto.
      + ki. rewrite EL in HI. tauto.
    - (* generate *) destruct (xLoop x) eqn:EL; try discriminate. destruct HC as (Hs & ->).
      destruct (KR_install c c' ps qs P x s now HI Hs) as (k & Ek & R). rewrite Ek in E. injection E as <-. ki.
      destruct R as (R1 & R2 & R3 & R4 & R5 & R6 & R7 & R8 & R9 & R10 & R11). rewrite EL in HI.
      destruct HI as (A & (B1 & B2 & B3 & B4) & (C1 & C2) & D & F & _ & I1 & I2 & I3 & I4).
      rewrite R1, R2, R3, R4, R5, R6, R7, R9, R10, R11.
      split; [|intuition congruence].
      repeat (match goal with |- _ /\ _ => split end); auto; try discriminate.
      + destruct R8 as [(-> & Z)|(Z & W)]; [left; auto|right; split; [split; [discriminate|exact Z]|exact W]].
      + destruct (kNextAt k =? 0); [exact I|discriminate].
      + eapply Forall_impl; [|exact I1]. intros a (H1 & H2). split; [exact H1|]. destruct a; try exact I; discriminate.
      + eapply Forall_impl; [|exact I2]. intros m (Hl & W). split; [discriminate|exact W].
      + intros Hd. split; [discriminate|]. apply I4. exact Hd.
    - (* send *) destruct (xLoop x) eqn:EL; try discriminate. injection E as <-.
      destruct HI as (A & (B1 & B2 & B3 & B4) & C & D & F & L & I1 & I2 & I3 & I4). rewrite EL in L.
      destruct (kNextLocal (xKx x)) as [p|] eqn:D1; [|exfalso; apply L; exact D1].
      unfold sendMsg, publicKeyMessage. rewrite B3. ki. rewrite D1 in *.
      split; [|intuition eauto].
      repeat (match goal with |- _ /\ _ => split end); auto; try tauto; try discriminate.
      constructor; [|exact I2]. split; [discriminate|]. exists p, false. split; [exact B1|]. split; [reflexivity|discriminate].
    - (* retry *) destruct (xLoop x) as [| | | |a] eqn:EL; try discriminate.
      destruct HI as (A & (B1 & B2 & B3 & B4) & C & D & F & L & I1 & I2 & I3 & I4). rewrite EL in L.
      destruct (kNextLocal (xKx x)) as [p|] eqn:D1; [|exfalso; apply L; exact D1].
      assert (N1 : forall y, (y = x \/ y = setX x (setNotify (xKx x) None)) ->
        KR c c' ps qs P (sendMsg c y false) /\ KStepR x (sendMsg c y false)).
      { intros y Hy. unfold sendMsg, publicKeyMessage.
        assert (Ey : kNextLocalPub (xKx y) = Some (pubOf p)) by (destruct Hy as [-> | ->]; exact B3). rewrite Ey.
        destruct Hy as [-> | ->]; ki; rewrite D1, EL in *;
          (split; [|intuition eauto]);
          (repeat (match goal with |- _ /\ _ => split end)); auto; try tauto; try discriminate;
          (constructor; [|exact I2]; split; [discriminate|]; exists p, false; split; [exact B1|]; split; [reflexivity|discriminate]). }
      destruct (kNotify (xKx x)) as [n|]; [|injection E as <-; apply N1; auto].
      destruct (a <=? n); injection E as <-; [|apply N1; auto]. ki. rewrite D1 in *. intuition eauto.
    - (* notified *) destruct (xLoop x) as [| | | |a] eqn:EL; try discriminate. destruct (kNotify (xKx x)) as [n|]; [|discriminate].
      destruct (a <=? n); injection E as <-; ki; rewrite EL in HI; rewrite ?EL; tauto.
    - (* time-out *) destruct (xLoop x) as [| | | |a] eqn:EL; try discriminate.
      destruct (match kNotify (xKx x) with Some n => a <=? n | None => false end); injection E as <-; ki; rewrite EL in HI.
      + tauto.
      + destruct HI as (A & B & C & D & F & L & I1 & I2 & I3 & I4).
        split; [|intuition eauto]. repeat (match goal with |- _ /\ _ => split end); auto; tauto.
    - (* answer *) destruct (nth_error (xAnswers x) i) as [a|] eqn:Ea; [|discriminate].
      destruct HI as (A & (B1 & B2 & B3 & B4) & C & D & F & L & I1 & I2 & I3 & I4).
      assert (Ha : hasRemote x /\ match a with ApSend | ApSkip | ApDone => hasLocal x | _ => True end).
      { rewrite Forall_forall in I1. apply I1. eapply nth_error_In; eauto. }
      destruct Ha as [Hr Hl].
      assert (Set1 : forall b, match b with ApSend | ApSkip | ApDone => hasLocal x | _ => True end ->
        KR c c' ps qs P (setAnswer x i b) /\ KStepR x (setAnswer x i b)).
      { intros b Hb. ki. split; [|intuition eauto]. repeat (match goal with |- _ /\ _ => split end); auto; try tauto.
        apply (Forall_set answerPc); [exact I1|]. split; [exact Hr|exact Hb]. }
      destruct a; try discriminate.
      + injection E as <-. apply Set1. destruct (kNextLocalPub (xKx x)) eqn:E2; [|exact I].
        unfold hasLocal. destruct (kNextLocal (xKx x)); [discriminate|discriminate].
      + injection E as <-. apply Set1. destruct (inProgress (xKx x)) eqn:EP; [|exact I].
        unfold inProgress in EP. apply N.ltb_lt in EP. unfold hasLocal. intros Z. rewrite (B4 Z) in EP. lia.
      + injection E as <-. ki. split; [|intuition eauto]. repeat (match goal with |- _ /\ _ => split end); auto; try tauto.
        apply (Forall_set answerPc); [exact I1|]. auto.
      + injection E as <-. destruct (kNextLocal (xKx x)) as [p|] eqn:D1; [|exfalso; apply Hl; exact D1].
        unfold sendMsg, publicKeyMessage. rewrite B3. ki. rewrite D1 in *. split; [|intuition eauto].
        repeat (match goal with |- _ /\ _ => split end); auto; try discriminate; try tauto.
        * apply (Forall_set answerPc); [exact I1|]. auto.
        * constructor; [|exact I2]. split; [discriminate|]. exists p, true. auto.
    - (* answer: generate *) destruct (nth_error (xAnswers x) i) as [[]|] eqn:Ea; try discriminate. destruct HC as (Hs & ->).
      destruct (KR_install c c' ps qs P x s now HI Hs) as (k & Ek & R). rewrite Ek in E. injection E as <-. ki.
      destruct R as (R1 & R2 & R3 & R4 & R5 & R6 & R7 & R8 & R9 & R10 & R11).
      destruct HI as (A & (B1 & B2 & B3 & B4) & (C1 & C2) & D & F & L & I1 & I2 & I3 & I4).
      assert (Hr : kNextRemote (xKx x) <> None) by (rewrite Forall_forall in I1; apply (I1 ApGen); eapply nth_error_In; eauto).
      rewrite R1, R2, R3, R4, R5, R6, R7, R9, R10, R11.
      split; [|intuition congruence].
      repeat (match goal with |- _ /\ _ => split end); auto; try discriminate.
      + destruct R8 as [(-> & Z)|(Z & W)]; [left; auto|right; split; [split; [discriminate|exact Z]|exact W]].
      + destruct (xLoop x); auto; discriminate.
      + apply (Forall_set answerPc).
        * eapply Forall_impl; [|exact I1]. intros a (H1 & H2). split; [exact H1|]. destruct a; try exact I; discriminate.
        * split; [exact Hr|discriminate].
      + eapply Forall_impl; [|exact I2]. intros m (Hl & W). split; [discriminate|exact W].
      + intros Hd. split; [discriminate|]. apply I4. exact Hd.
    - destruct HC.
  Qed.

  (** A message of the other side. *)
  Lemma kx_handleR : forall c c' ps qs (P : Prop) x p' fl,
    KR c c' ps qs P x -> In p' qs -> P -> sessID_ok (cSession c') -> length (cIdentity c') = 32%nat ->
    cMode c = AnswersModeAnswerAndWait -> cMode c' = AnswersModeAnswerAndWait -> kCtxDone (xKx x) = false -> (fl = true -> hasLocal x) ->
    exists k, handleKx verify dh blake3 sha3 c (xKx x) (signedWire sign c' (msg c' p' fl)) = Ret (k, HDone (negb fl)) /\
      KR c c' ps qs P (if negb fl then addAnswer (setX x k) else setX x k) /\
      kNextRemote k = Some (pubOf p') /\ kNextLocal k = kNextLocal (xKx x) /\ kErrs k = kErrs (xKx x) /\ kCtxDone k = false /\
      kDone k = (if fl then kDone (xKx x) + 1 else kDone (xKx x)).
  Proof.
    intros c c' ps qs P x p' fl HI Hp' HP Hs Hid Hm Hm' Hc Hfl.
    set (m := msg c' p' fl).
    assert (Mok : kxMsg_ok m).
    { unfold kxMsg_ok, m, msgOf. cbn [kSess kIdentity kPub kMode kFlags]. rewrite Hm'. repeat split; try apply Hs; auto; destruct fl; reflexivity. }
    assert (Fl : kxIsAnswer (kFlags m) = fl) by (destruct fl; reflexivity).
    assert (W : wire (sign (cIdentity c') (kxEncode m)) (kxEncode m) [] (signedWire sign c' m)).
    { unfold wire, signedWire. rewrite app_nil_r. split; [reflexivity|]. split; [apply sign_len|apply kx_len; exact Mok]. }
    destruct HI as (A & (B1 & B2 & B3 & B4) & (C1 & C2) & D & F & L & I1 & I2 & I3 & I4).
    assert (Acc : acceptable verify c (xKx x) m (signedWire sign c' m)).
    { destruct (wire_parts _ _ _ _ W) as (_ & W2 & _). split; [rewrite W2; pose proof (kx_rt m [] Mok) as R; rewrite app_nil_r in R; exact R|].
      split; [cbn; congruence|]. split; [apply pub_nonzero|]. split; [exact Hc|]. rewrite A.
      exists (sign (cIdentity c') (kxEncode m)), (kxEncode m), []. split; [exact W|apply sign_ok]. }
    rewrite (handle_accept verify dh blake3 sha3 c (xKx x) m _ Acc). unfold accept. cbn zeta. rewrite Fl, Hm.
    change (AnswersModeAnswerAndWait =? AnswersModeAnswerAndWait) with true. change (AnswersModeAnswerAndWait =? AnswersModeDisable) with false.
    cbn [negb]. rewrite orb_false_r, andb_true_r. rewrite A.
    assert (Sx : Some (match kRemoteSession (xKx x) with Some i => i | None => kSess m end) = Some (cSession c')).
    { destruct D as [(_ & ->)|(_ & -> & _)]; reflexivity. }
    rewrite Sx. set (s1 := setRemote (xKx x) (Some (cIdentity c')) (Some (cSession c'))).
    assert (N1 : exists pr, hisKey qs pr /\ setNextRemotePublicKey s1 (kPub m) = setRemoteKeys s1 pr (Some (pubOf p'))).
    { unfold setNextRemotePublicKey. change (kPub m) with (pubOf p'). change (kNextRemote s1) with (kNextRemote (xKx x)).
      destruct (kNextRemote (xKx x)) as [q|] eqn:Eq; [|exists None; split; [exact I|reflexivity]].
      destruct (bytes_eqb q (pubOf p')) eqn:Eb; [|exists (Some q); auto]. apply bytes_eqb_eq in Eb. subst q.
      exists (kPrevRemote (xKx x)). split; [exact C2|]. unfold s1, setRemote, setRemoteKeys. cbn. rewrite Eq. reflexivity. }
    destruct N1 as (pr & Hpr & N1). rewrite N1.
    destruct (update_any c (setRemoteKeys s1 pr (Some (pubOf p'))) ps qs B1 B2 (ex_intro _ p' (conj Hp' eq_refl)) Hpr) as (ks & Eu & Kc).
    rewrite Eu. eexists. split; [reflexivity|].
    assert (Keys : ks = [] /\ kNextLocal (xKx x) = None \/
       kNextLocal (xKx x) <> None /\ (exists k0 r, ks = Some k0 :: r) /\ forall key, In (Some key) ks -> sk (cPSK c) ps qs key).
    { destruct Kc as [([Z|Z] & ->)|(Z & _ & V)]; [|discriminate|right; auto]. left. split; [|exact Z].
      destruct F as [(F & _)|([CL _] & _)]; [exact F|exfalso; apply CL; exact Z]. }
    assert (T : forall A (P : A -> Prop) (Q : A -> Prop) l, Forall P l -> (forall a, P a -> Q a) -> Forall Q l)
      by (intros; eapply Forall_impl; eauto).
    destruct fl; cbn [negb].
    - specialize (Hfl eq_refl). ki. split; [|rewrite ?Hc; auto 10].
      repeat (match goal with |- _ /\ _ => split end); auto; try tauto.
      + exists p'. auto.
      + right. split; [discriminate|auto].
      + destruct Keys as [(-> & Z)|(Z & V)]; [left; auto|right; split; [split; [exact Z|discriminate]|exact V]].
      + eapply T; [exact I1|]. intros a (_ & H). split; [discriminate|exact H].
      + eapply T; [exact I2|]. intros a (H1 & p & fl & H2 & H3 & _). split; [exact H1|]. exists p, fl. split; [exact H2|]. split; [exact H3|discriminate].
      + intros _. split; [exact Hfl|discriminate].
    - ki. split; [|rewrite ?Hc; auto 10].
      repeat (match goal with |- _ /\ _ => split end); auto; try tauto.
      + exists p'. auto.
      + right. split; [discriminate|auto].
      + destruct Keys as [(-> & Z)|(Z & V)]; [left; auto|right; split; [split; [exact Z|discriminate]|exact V]].
      + apply Forall_app. split; [|constructor; [split; [discriminate|exact I]|constructor]].
        eapply T; [exact I1|]. intros a (_ & H). split; [discriminate|exact H].
      + eapply T; [exact I2|]. intros a (H1 & p & fl & H2 & H3 & _). split; [exact H1|]. exists p, fl. split; [exact H2|]. split; [exact H3|discriminate].
      + intros H. split; [apply I4; exact H|discriminate].
  Qed.
End Kx.

(** ** The sessions *)

Lemma option_eq_dec : forall a b : option bytes, {a = b} + {a <> b}.
Proof. intros [a|] [b|]; try (right; discriminate); [|left; reflexivity]. destruct (list_eq_dec N.eq_dec a b) as [->|N]; [left; reflexivity|right; congruence]. Qed.

Lemma in_first : forall (k : bytes) l, In (Some k) l -> exists pre post, l = pre ++ Some k :: post /\ ~ In (Some k) pre.
Proof.
  intros k. induction l as [|o l IH]; intros H; [destruct H|].
  destruct (option_eq_dec o (Some k)) as [->|Ho]; [exists [], l; split; [reflexivity|intros []]|].
  destruct H as [H|H]; [contradiction|]. destruct (IH H) as (pre & post & -> & N). exists (o :: pre), post. split; [reflexivity|].
  intros [Z|Z]; auto.
Qed.

Section Duo.
  Variable verify : bytes -> bytes -> bytes -> bool.
  Variable dh : bytes -> bytes -> bytes.
  Variable blake3 sha3 : bytes -> bytes.
  Variable stream : bytes -> bytes -> nat -> N.
  Variable poly1305 : bytes -> bytes -> bytes.
  Variable sign : bytes -> bytes -> bytes.
  Variable pubOf : bytes -> bytes.
  Hypothesis id : ideal verify dh sha3 stream poly1305 sign pubOf.

  (** All keys, and the two session IDs. *)
  Variable K : bytes -> Prop.
  Variables ia ib : bytes.
  Hypothesis ids_differ : ia <> ib.
  Hypothesis len_a : length ia = 16%nat.
  Hypothesis len_b : length ib = 16%nat.

  Notation kr := (KR dh blake3 sha3 pubOf).
  Notation seal := (sealPacket stream blake3 poly1305).
  Notation dec c x raw := (decryptPacket stream blake3 poly1305 (peerOf blake3 sha3 c (dSess x)) raw).
  Notation kxm := (kxMsgOf sign pubOf).
  Notation clear := (unambiguous blake3 stream poly1305).
  Notation fits := (firstTagFits stream blake3 poly1305).

  (** The two sessions agree on [K], on the session IDs and on the pre-shared key. *)
  Definition fitting (c c' : iconf) (ps qs : list bytes) : Prop :=
    honestConf c /\ honestConf c' /\ cPSK (icKx c) = cPSK (icKx c') /\ (forall k, sk dh blake3 sha3 pubOf (cPSK (icKx c)) ps qs k -> K k) /\
    (sessBytes (cSession (icKx c)) = ia /\ sessBytes (cSession (icKx c')) = ib \/ sessBytes (cSession (icKx c)) = ib /\ sessBytes (cSession (icKx c')) = ia).

  (** A packet of side [x] with ID [v]; [o]: the payload of the application, or a
      key-exchange message. *)
  Definition packetR (c : iconf) (ps : list bytes) (x : side) (raw : bytes) (v : N) (o : option bytes) : Prop :=
    exists P, peer_ok P /\ pAux P = auxKey blake3 sha3 c /\ pOwnID P = sessBytes (cSession (icKx c)) /\
      match o with
      | None => exists p fl, In p ps /\ seal P false (packetIDBytes v) (encodeMsg messageTypeKeyExchange 0 (signedWire sign (icKx c) (msgOf pubOf (icKx c) p fl))) = Ret (Ok raw) /\
          hasLocal (xOf x) /\ (fl = true -> hasRemote (xOf x))
      | Some payload => In payload (dWrote x) /\ len payload + 53 < 2^32 /\
          exists k, K k /\ nth 0 (pKeys P) None = Some k /\
            seal P true (packetIDBytes v) (encodeMsg MessageTypeReadWrite (setIsConfidential 0 true) payload) = Ret (Ok raw)
      end.

  Definition SR (c c' : iconf) (ps qs : list bytes) (x y : side) : Prop :=
    let s := dSess x in
    kr (icKx c) (icKx c') ps qs (hasLocal (xOf y)) (iKx s) /\
    (iPanic s = false /\ winOk (iWin s)) /\ usual (iRcv s) /\
    (kCtxDone (xKx (iKx s)) = true -> isDoneState (stateOf s) = true) /\
    phase s /\
    Forall (fun raw => exists v o, packetR c ps x raw v o) (dNet x) /\
    incl (queued s) (dWrote y).

  Lemma packetR_mono : forall c ps x x' raw v o, packetR c ps x raw v o ->
    (hasLocal (xOf x) -> hasLocal (xOf x')) -> (hasRemote (xOf x) -> hasRemote (xOf x')) -> incl (dWrote x) (dWrote x') -> packetR c ps x' raw v o.
  Proof.
    intros c ps x x' raw v o (P & A & B & C & D) H1 H2 H3. exists P. split; [exact A|]. split; [exact B|]. split; [exact C|].
    destruct o as [pl|].
    - destruct D as (E & F). split; [apply H3, E|exact F].
    - destruct D as (p & fl & D1 & E & F & G). exists p, fl. repeat split; auto.
  Qed.

  Lemma packetsR : forall c ps x x' net, Forall (fun raw => exists v o, packetR c ps x raw v o) net ->
    (hasLocal (xOf x) -> hasLocal (xOf x')) -> (hasRemote (xOf x) -> hasRemote (xOf x')) -> incl (dWrote x) (dWrote x') ->
    Forall (fun raw => exists v o, packetR c ps x' raw v o) net.
  Proof. intros c ps x x' net F H1 H2 H3. eapply Forall_impl; [|exact F]. intros raw (v & o & H). exists v, o. eapply packetR_mono; eauto. Qed.

  Lemma SR_other : forall c c' ps qs x y y', SR c c' ps qs x y -> (hasLocal (xOf y) -> hasLocal (xOf y')) -> incl (dWrote y) (dWrote y') -> SR c c' ps qs x y'.
  Proof.
    intros c c' ps qs x y y' (A & B & C & D & E & F & G) H1 H2. unfold SR. cbn zeta.
    split; [eapply KR_mono; eauto|]. repeat (split; [assumption|]). intros z Hz. apply H2, G, Hz.
  Qed.

  Lemma SR_init : forall c c' ps qs w md mf y, SR c c' ps qs (sideInit (cIdentity (icKx c')) w md mf) y.
  Proof.
    intros. unfold SR, sideInit. cbn [dSess dNet dWrote].
    split; [apply KR_init|]. split; [split; [reflexivity|apply win_init]|].
    split; [repeat split|]. split; [discriminate|]. split; [left; split; reflexivity|].
    split; [constructor|]. intros z [].
  Qed.

  Lemma sk_len : forall psk ps qs k, sk dh blake3 sha3 pubOf psk ps qs k -> length k = 32%nat.
  Proof. intros psk ps qs k (p & q & _ & _ & ->). apply mk_eq; apply id. Qed.

  (** The keys of a side. *)
  Lemma keysR : forall c c' ps qs (P : Prop) s, kr (icKx c) (icKx c') ps qs P (iKx s) ->
    kKeys (xKx (iKx s)) = [] \/
    kRemoteSession (xKx (iKx s)) = Some (cSession (icKx c')) /\ (exists k0 ks, kKeys (xKx (iKx s)) = Some k0 :: ks) /\
    forall key, In (Some key) (kKeys (xKx (iKx s))) -> sk dh blake3 sha3 pubOf (cPSK (icKx c)) ps qs key.
  Proof.
    intros c c' ps qs P s (A & B & C & D & E & _). destruct E as [(E & _)|([CL CR] & E1 & E2)]; [left; exact E|]. right.
    destruct D as [(D & _)|(_ & D & _)]; [exfalso; apply CR; exact D|]. auto.
  Qed.

  Lemma peerR : forall c c' ps qs (P : Prop) s, kr (icKx c) (icKx c') ps qs P (iKx s) -> peer_ok (peerOf blake3 sha3 c s).
  Proof.
    intros c c' ps qs P s H. unfold peer_ok, peerOf. cbn [pAux pKeys pOwnID pRemoteID].
    split. { unfold auxKey. destruct (cPSK (icKx c)); [|exact I]. cbn [key_ok]. rewrite firstn_all2; unfold hash; rewrite (id_sha3_len _ _ _ _ _ _ _ id); auto. }
    destruct (keysR _ _ _ _ _ _ H) as [E|(E1 & _ & E2)].
    - rewrite E. split; [constructor|]. split; [reflexivity|]. destruct (kRemoteSession _); [reflexivity|constructor].
    - split.
      + apply Forall_forall. intros [k|] Hk; [|exact I]. cbn. eapply sk_len; eauto.
      + split; [reflexivity|]. rewrite E1. reflexivity.
  Qed.

  (** What another sealing would need. *)
  Lemma other_sealing : forall c c' ps qs (P : Prop) s raw pid body c1 net,
    fitting c c' ps qs -> kr (icKx c) (icKx c') ps qs P (iKx s) -> clear (auxKey blake3 sha3 c) K ia ib net ->
    length pid = 8%nat -> raw = idOnWire stream (auxKey blake3 sha3 c) pid ++ body -> In raw net ->
    sealing (auxKey blake3 sha3 c) K ia ib c1 -> fits (fst c1) (snd c1 ++ pid) pid body ->
    (forall k, In (Some k) (kKeys (xKx (iKx s))) -> fits (Some k) (remoteIV (peerOf blake3 sha3 c s) pid) pid body -> c1 = (Some k, sessBytes (cSession (icKx c')))) /\
    (fits (auxKey blake3 sha3 c) pid pid body -> c1 = (auxKey blake3 sha3 c, [])).
  Proof.
    intros c c' ps qs P s raw pid body c1 net (_ & _ & _ & HK & Hi) HR [_ U] Lp -> Hin S1 F1. split.
    - intros k Hk Fk. destruct (keysR _ _ _ _ _ _ HR) as [E|(E1 & _ & E2)]; [rewrite E in Hk; destruct Hk|].
      apply (U pid body); auto.
      + right. exists k. split; [apply HK, E2, Hk|]. destruct Hi as [[_ ->]|[_ ->]]; auto.
      + unfold remoteIV in Fk. cbn [peerOf pRemoteID] in Fk. rewrite E1 in Fk. exact Fk.
    - intros Fa. apply (U pid body); auto. left. reflexivity.
  Qed.

  Lemma wire_id : forall aux pid (body : bytes), length pid = 8%nat -> skipn 8 (idOnWire stream aux pid ++ body) = body.
  Proof.
    intros aux pid body L. assert (L8 : length (idOnWire stream aux pid) = 8%nat) by (unfold idOnWire; destruct aux; rewrite ?xorStream_length; exact L).
    rewrite skipn_app, L8, (skipn_all2 (n := 8)), Nat.sub_diag by lia. reflexivity.
  Qed.

  Lemma aux_same : forall c c', cPSK (icKx c) = cPSK (icKx c') -> auxKey blake3 sha3 c = auxKey blake3 sha3 c'.
  Proof. intros c c' H. unfold auxKey. rewrite H. reflexivity. Qed.

  (** A key-exchange message, of either side. *)
  Lemma open_kxP : forall c c' ps qs (P0 : Prop) x cz raw v net P p fl,
    fitting c c' ps qs -> kr (icKx c) (icKx c') ps qs P0 (iKx (dSess x)) -> clear (auxKey blake3 sha3 c) K ia ib net -> In raw net ->
    honestConf cz -> auxKey blake3 sha3 cz = auxKey blake3 sha3 c -> peer_ok P -> pAux P = auxKey blake3 sha3 cz ->
    seal P false (packetIDBytes v) (encodeMsg messageTypeKeyExchange 0 (signedWire sign (icKx cz) (msgOf pubOf (icKx cz) p fl))) = Ret (Ok raw) ->
    dec c x raw = Ret (Ok (packetIDBytes v, len (wireBytes (kxm cz p fl)), wireBytes (kxm cz p fl))).
  Proof.
    intros c c' ps qs P0 x cz raw v net P p fl HF HR HU Hin Hz Ha PO PA Es.
    assert (I1 := id_prim _ _ _ _ _ _ _ id). assert (I6 := id_sign_len _ _ _ _ _ _ _ id). assert (I8 := id_pub_len _ _ _ _ _ _ _ id).
    assert (PB := peerR _ _ _ _ _ _ HR). assert (Lp : length (packetIDBytes v) = 8%nat) by apply le_enc_length.
    destruct (kxMsgOf_ok sign pubOf I6 I8 cz p fl Hz) as [Mk Lk]. rewrite <- (encodeMsg_wire _ Mk).
    assert (Le : len (encodeMsg (wType (kxm cz p fl)) (wFlags (kxm cz p fl)) (wPayload (kxm cz p fl))) + 44 < 2^32).
    { rewrite (encodeMsg_wire _ Mk), (wire_len _ Mk), Lk. reflexivity. }
    assert (Hb : bytes_ok raw) by (destruct HU as [HU _]; rewrite Forall_forall in HU; apply HU, Hin).
    assert (AX : pAux (peerOf blake3 sha3 c (dSess x)) = pAux P) by (cbn [peerOf pAux]; congruence).
    apply (C13_open_unconfidential stream blake3 poly1305 P (peerOf blake3 sha3 c (dSess x)) (packetIDBytes v) _ raw I1 PO PB Lp Le AX Es Hb).
    destruct (seal_spec stream blake3 poly1305 I1 P false (packetIDBytes v) _ PO Lp Le ltac:(discriminate)) as (body & Es' & Sd & _).
    change (encodeMsg _ _ _) with (encodeMsg messageTypeKeyExchange 0 (signedWire sign (icKx cz) (msgOf pubOf (icKx cz) p fl))) in Es'.
    rewrite Es in Es'. injection Es' as Er. apply (sealed_fits stream blake3 poly1305 I1) in Sd. unfold sealKey, sealIV in Sd.
    rewrite <- AX in Er, Sd. cbn [peerOf pAux] in Er, Sd. rewrite Er, wire_id by exact Lp.
    destruct (other_sealing c c' ps qs P0 (dSess x) raw (packetIDBytes v) body (auxKey blake3 sha3 c, []) net HF HR HU Lp Er Hin (or_introl eq_refl) Sd) as [O _].
    cbn [peerOf pKeys]. apply Forall_forall. intros [k|] Hk; [|left; reflexivity]. right. intros Fk. specialize (O k Hk Fk).
    injection O as _ O. destruct HF as (_ & _ & _ & _ & [[_ Z]|[_ Z]]); rewrite Z in O; [rewrite <- O in len_b; discriminate|rewrite <- O in len_a; discriminate].
  Qed.

  Lemma open_kxR : forall c c' ps qs (P0 : Prop) x cz zs z raw v net,
    fitting c c' ps qs -> kr (icKx c) (icKx c') ps qs P0 (iKx (dSess x)) -> clear (auxKey blake3 sha3 c) K ia ib net -> In raw net ->
    honestConf cz -> auxKey blake3 sha3 cz = auxKey blake3 sha3 c -> packetR cz zs z raw v None ->
    exists p fl, In p zs /\ hasLocal (xOf z) /\ (fl = true -> hasRemote (xOf z)) /\
      dec c x raw = Ret (Ok (packetIDBytes v, len (wireBytes (kxm cz p fl)), wireBytes (kxm cz p fl))).
  Proof.
    intros c c' ps qs P0 x cz zs z raw v net HF HR HU Hin Hz Ha (P & PO & PA & PI & p & fl & Hp & Es & HL & Hr).
    exists p, fl. split; [exact Hp|]. split; [exact HL|]. split; [exact Hr|]. eapply open_kxP; eauto.
  Qed.

  (** A message of the application, of either side. *)
  Lemma open_dataK : forall c c' ps qs (P0 : Prop) x cz raw v pl net P k,
    fitting c c' ps qs -> kr (icKx c) (icKx c') ps qs P0 (iKx (dSess x)) -> clear (auxKey blake3 sha3 c) K ia ib net -> In raw net ->
    (cz = c \/ cz = c') -> peer_ok P -> pAux P = auxKey blake3 sha3 cz -> pOwnID P = sessBytes (cSession (icKx cz)) ->
    len pl + 53 < 2^32 -> K k -> nth 0 (pKeys P) None = Some k ->
    seal P true (packetIDBytes v) (encodeMsg MessageTypeReadWrite (setIsConfidential 0 true) pl) = Ret (Ok raw) ->
    (exists e, dec c x raw = Ret (Err e)) /\ (cz = c' -> ~ In (Some k) (kKeys (xKx (iKx (dSess x))))) \/
    cz = c' /\ wireMsg_ok (dataMsg pl) /\
    dec c x raw = Ret (Ok (packetIDBytes v, len (wireBytes (dataMsg pl)), wireBytes (dataMsg pl))).
  Proof.
    intros c c' ps qs P0 x cz raw v pl net P k HF HR HU Hin Hz PO PA PI Hl Hk HK Es.
    assert (I1 := id_prim _ _ _ _ _ _ _ id).
    assert (PB := peerR _ _ _ _ _ _ HR). assert (Lp : length (packetIDBytes v) = 8%nat) by apply le_enc_length.
    assert (Mk : wireMsg_ok (dataMsg pl)).
    { unfold wireMsg_ok, dataMsg, kxWire. cbn [wType wFlags wPayload]. unfold len in Hl. repeat split; try reflexivity. lia. }
    assert (Le : len (encodeMsg MessageTypeReadWrite (setIsConfidential 0 true) pl) + 44 < 2^32).
    { change (encodeMsg _ _ _) with (encodeMsg (wType (dataMsg pl)) (wFlags (dataMsg pl)) (wPayload (dataMsg pl))).
      rewrite (encodeMsg_wire _ Mk), (wire_len _ Mk). cbn [wPayload dataMsg kxWire]. lia. }
    assert (Hb : bytes_ok raw) by (destruct HU as [HU _]; rewrite Forall_forall in HU; apply HU, Hin).
    assert (Ha : auxKey blake3 sha3 cz = auxKey blake3 sha3 c) by (destruct Hz as [-> | ->]; [reflexivity|symmetry; apply aux_same, HF]).
    assert (AX : pAux (peerOf blake3 sha3 c (dSess x)) = pAux P) by (cbn [peerOf pAux]; congruence).
    destruct (seal_spec stream blake3 poly1305 I1 P true (packetIDBytes v) _ PO Lp Le) as (body & Es' & Sd & _).
    { unfold sealKey, secretIDRecentBoth. rewrite HK. discriminate. }
    rewrite Es in Es'. injection Es' as Er. assert (Lb := sealed_length stream blake3 poly1305 I1 _ _ _ _ _ _ Sd).
    apply (sealed_fits stream blake3 poly1305 I1) in Sd. unfold sealKey, secretIDRecentBoth, sealIV in Sd. rewrite HK, PI in Sd.
    rewrite <- AX in Er. cbn [peerOf pAux] in Er.
    assert (SC : sealing (auxKey blake3 sha3 c) K ia ib (Some k, sessBytes (cSession (icKx cz)))).
    { right. exists k. split; [exact Hk|]. destruct HF as (_ & _ & _ & _ & Hi). destruct Hz as [-> | ->]; destruct Hi as [[Z1 Z2]|[Z1 Z2]]; rewrite ?Z1, ?Z2; auto. }
    destruct (other_sealing c c' ps qs P0 (dSess x) raw (packetIDBytes v) body _ net HF HR HU Lp Er Hin SC Sd) as [O1 O2].
    assert (NA : ~ fits (auxKey blake3 sha3 c) (packetIDBytes v) (packetIDBytes v) body).
    { intros Z. specialize (O2 Z). injection O2 as _ O2. destruct HF as (_ & _ & _ & _ & Hi). destruct Hz as [-> | ->]; destruct Hi as [[Z1 Z2]|[Z1 Z2]];
        rewrite ?Z1, ?Z2 in O2; rewrite O2 in *; discriminate. }
    assert (Hbody : bytes_ok body).
    { rewrite Er in Hb. apply Forall_app in Hb. apply Hb. }
    destruct (in_dec option_eq_dec (Some k) (kKeys (xKx (iKx (dSess x))))) as [Ik|Nk].
    2: { left. split; [|auto]. exists ErrCannotDecrypt. rewrite Er.
      apply (decryptPacket_none stream blake3 poly1305 I1 (peerOf blake3 sha3 c (dSess x)) (packetIDBytes v) body PB Lp Hbody); [lia| |exact NA].
      cbn [peerOf pKeys]. apply Forall_forall. intros [k'|] Hk'; [|left; reflexivity]. right. intros Fk. specialize (O1 k' Hk' Fk).
      injection O1 as O1 _. subst k'. contradiction. }
    destruct (keysR _ _ _ _ _ _ HR) as [E|(E1 & _ & E2)]; [rewrite E in Ik; destruct Ik|].
    destruct (list_eq_dec N.eq_dec (sessBytes (cSession (icKx cz))) (sessBytes (cSession (icKx c')))) as [Ei|Ni].
    - right. assert (cz = c').
      { destruct Hz as [-> | ->]; [|reflexivity]. exfalso. destruct HF as (_ & _ & _ & _ & [[Z1 Z2]|[Z1 Z2]]); rewrite Z1, Z2 in Ei; congruence. }
      subst cz. split; [reflexivity|]. split; [exact Mk|]. rewrite <- (encodeMsg_wire _ Mk).
      destruct (in_first _ _ Ik) as (pre & post & Ek & Np).
      apply (C13_open_confidential stream blake3 poly1305 P (peerOf blake3 sha3 c (dSess x)) (packetIDBytes v) _ k pre post raw I1 PO PB Lp Le AX); auto.
      + cbn [peerOf pRemoteID]. rewrite E1, PI. reflexivity.
      + rewrite Er, wire_id by exact Lp. apply Forall_forall. intros [k'|] Hk'; [|left; reflexivity]. right. intros Fk.
        assert (I' : In (Some k') (kKeys (xKx (iKx (dSess x))))) by (rewrite Ek; apply in_or_app; left; exact Hk').
        rewrite PI in Fk. specialize (O1 k' I'). unfold remoteIV in O1. cbn [peerOf pRemoteID] in O1. rewrite E1 in O1. specialize (O1 Fk).
        injection O1 as O1. subst k'. contradiction.
    - left. split; [|intros ->; exfalso; apply Ni; reflexivity]. exists ErrCannotDecrypt. rewrite Er.
      apply (decryptPacket_none stream blake3 poly1305 I1 (peerOf blake3 sha3 c (dSess x)) (packetIDBytes v) body PB Lp Hbody); [lia| |exact NA].
      cbn [peerOf pKeys]. apply Forall_forall. intros [k'|] Hk'; [|left; reflexivity]. right. intros Fk. specialize (O1 k' Hk' Fk).
      apply (f_equal snd) in O1. exact (Ni O1).
  Qed.

  Lemma open_dataR : forall c c' ps qs (P0 : Prop) x cz zs z raw v pl net,
    fitting c c' ps qs -> kr (icKx c) (icKx c') ps qs P0 (iKx (dSess x)) -> clear (auxKey blake3 sha3 c) K ia ib net -> In raw net ->
    (cz = c \/ cz = c') -> packetR cz zs z raw v (Some pl) ->
    (exists e, dec c x raw = Ret (Err e)) \/
    cz = c' /\ wireMsg_ok (dataMsg pl) /\ In pl (dWrote z) /\
    dec c x raw = Ret (Ok (packetIDBytes v, len (wireBytes (dataMsg pl)), wireBytes (dataMsg pl))).
  Proof.
    intros c c' ps qs P0 x cz zs z raw v pl net HF HR HU Hin Hz (P & PO & PA & PI & Hw & Hl & k & Hk & HK & Es).
    destruct (open_dataK c c' ps qs P0 x cz raw v pl net P k HF HR HU Hin Hz PO PA PI Hl Hk HK Es) as [[E _]|(E1 & E2 & E3)]; auto.
  Qed.

  (** ** Bytes which are not a packet of the peer *)

  Lemma harmlessR : forall c c' ps qs x y s', SR c c' ps qs x y -> iKx s' = iKx (dSess x) -> iPanic s' = false -> winOk (iWin s') -> usual (iRcv s') ->
    (stateOf s' = stateOf (dSess x) \/ stateOf s' = SessionStateClosing \/ stateOf s' = SessionStateClosed) -> queued s' = queued (dSess x) ->
    SR c c' ps qs (withSess x s') y.
  Proof.
    intros c c' ps qs x y s' (KIx & (A1 & A3) & U & B1 & B2 & B4 & B5) E1 E2 E3 E4 E5 E6.
    unfold SR. cbn [dSess withSess]. rewrite E1, E6. split; [exact KIx|]. split; [split; [exact E2|exact E3]|]. split; [exact E4|].
    split. { intros H. destruct E5 as [-> | [-> | -> ]]; auto. }
    split. { unfold phase in *. rewrite E1. destruct E5 as [-> | [-> | -> ]]; auto. }
    split; [|exact B5].
    eapply packetsR; [exact B4| | |apply incl_refl]; unfold xOf; cbn [dSess withSess]; rewrite E1; auto.
  Qed.

  Lemma nobodyR : forall c c' ps qs x y raw s', honestConf c -> honestConf c' -> separate verify sign (cIdentity (icKx c)) (cIdentity (icKx c')) ->
    SR c c' ps qs x y ->
    ((exists e, dec c x raw = Ret (Err e)) \/
     exists v p fl, dec c x raw = Ret (Ok (packetIDBytes v, len (wireBytes (kxm c p fl)), wireBytes (kxm c p fl)))) ->
    istep verify dh blake3 sha3 stream poly1305 c (dSess x) (IPacket raw) = Some s' ->
    SR c c' ps qs (withSess x s') y /\ iKx s' = iKx (dSess x) /\ queued s' = queued (dSess x) /\ counted (iWin (dSess x)) (iWin s') /\
    (iNext s' = iNext (dSess x) \/ iNext s' = add64 (iNext (dSess x)) 1) /\
    ((exists e, dec c x raw = Ret (Err e)) -> iWin s' = iWin (dSess x)).
  Proof.
    intros c c' ps qs x y raw s' Hc Hc' Sep SX De E. destruct id as [I1 I2 I3 I4 I5 I6 I7 I8 I9]. assert (SX0 := SX).
    destruct SX as (KIx & (A1 & A3) & U & _). unfold istep in E. rewrite A1 in E. destruct (_ || _); [discriminate|].
    destruct De as [[e De]|(v & p & fl & De)].
    - (* not opened *)
      assert (R : exists s1, iReceive verify dh blake3 sha3 stream poly1305 c (dSess x) raw = Ret s1 /\ iKx s1 = iKx (dSess x) /\ iPanic s1 = false /\
                iWin s1 = iWin (dSess x) /\ usual (iRcv s1) /\
                (stateOf s1 = stateOf (dSess x) \/ stateOf s1 = SessionStateClosing \/ stateOf s1 = SessionStateClosed) /\ queued s1 = queued (dSess x) /\
                (iNext s1 = iNext (dSess x) \/ iNext s1 = add64 (iNext (dSess x)) 1)).
      { unfold iReceive, receivePacket. destruct raw as [|b0 raw].
        - eexists. split; [reflexivity|]. cbn. auto 10.
        - rewrite De. cbn zeta. set (pp := if _ <? _ then _ else _).
          assert (Nx : pNext pp = iNext (dSess x) \/ pNext pp = add64 (iNext (dSess x)) 1) by (unfold pp; destruct (_ <? _); auto).
          set (s0 := upFails _ _ _).
          assert (S0 : iKx s0 = iKx (dSess x) /\ iPanic s0 = false /\ iWin s0 = iWin (dSess x) /\ usual (iRcv s0) /\ stateOf s0 = stateOf (dSess x) /\ queued s0 = queued (dSess x) /\ iNext s0 = pNext pp)
            by (repeat split; auto; apply U).
          destruct S0 as (T1 & T2 & T3 & T4 & T5 & T6 & T7). destruct (report_facts c s0 e) as (R1 & R2 & R3 & R4 & R5 & R6 & R7).
          set (s1 := match icErrorOn c with Some k => _ | None => _ end).
          assert (S1 : iKx s1 = iKx (dSess x) /\ iPanic s1 = false /\ iWin s1 = iWin (dSess x) /\ usual (iRcv s1) /\
            (stateOf s1 = stateOf (dSess x) \/ stateOf s1 = SessionStateClosing \/ stateOf s1 = SessionStateClosed) /\ queued s1 = queued (dSess x) /\ iNext s1 = pNext pp).
          { assert (G : iKx s0 = iKx (dSess x) /\ iPanic s0 = false /\ iWin s0 = iWin (dSess x) /\ usual (iRcv s0) /\
              (stateOf s0 = stateOf (dSess x) \/ stateOf s0 = SessionStateClosing \/ stateOf s0 = SessionStateClosed) /\ queued s0 = queued (dSess x) /\ iNext s0 = pNext pp) by auto 10.
            unfold s1. destruct (icErrorOn c) as [k|]; [|exact G]. destruct (_ <=? _); [|exact G].
            rewrite R1, R2, R3, R4, R7. rewrite T5 in R6. auto 10. }
          eexists. split; [reflexivity|]. destruct S1 as (V1 & V2 & V3 & V4 & V5 & V6 & V7).
          destruct (_ <=? _); [|rewrite V7; auto 10]. cbn [upOver iKx iPanic iWin iRcv iNext]. rewrite V7. auto 10. }
      destruct R as (s1 & R & V1 & V2 & V3 & V4 & V5 & V6 & V7). rewrite R in E. injection E as <-.
      split; [|split; [exact V1|split; [exact V6|split; [left; exact V3|split; [exact V7|intros _; exact V3]]]]].
      apply harmlessR; auto. rewrite V3. exact A3.
    - (* one's own key-exchange message *)
      destruct (kxMsgOf_ok sign pubOf I6 I8 c p fl Hc) as [Mk _].
      destruct (received_at blake3 sha3 stream poly1305 c (dSess x) raw v _ Mk A3 De) as (P & w & b & Hw & Ew & Nx & Rc).
      assert (Cn : counted (iWin (dSess x)) w) by (right; exists (packetIDValue (packetIDBytes v)), b; split; [apply pid_value|exact Ew]).
      destruct b.
      + set (s1 := upFails (upPkt (dSess x) (pNext P) w) 0 (iUnexpected (dSess x))).
        set (b := signedWire sign (icKx c) (msgOf pubOf (icKx c) p fl)).
        assert (Hk : handleKx verify dh blake3 sha3 (icKx c) (xKx (iKx s1)) b = Ret (xKx (iKx s1), HErr KxWrongSignature)).
        { assert (Mok : kxMsg_ok (msgOf pubOf (icKx c) p fl)).
          { destruct Hc as (H1 & H2 & H3). unfold kxMsg_ok, msgOf. cbn [kSess kIdentity kPub kMode kFlags]. rewrite H3. repeat split; try apply H1; auto; destruct fl; reflexivity. }
          assert (W : wire (sign (cIdentity (icKx c)) (kxEncode (msgOf pubOf (icKx c) p fl))) (kxEncode (msgOf pubOf (icKx c) p fl)) [] b).
          { unfold wire, b, signedWire. rewrite app_nil_r. split; [reflexivity|]. split; [apply I6|apply kx_len; exact Mok]. }
          destruct (wire_parts _ _ _ _ W) as (W1 & W2 & W3). unfold handleKx, parseAndCheck.
          replace (len b <? kxSignedSize) with false
            by (symmetry; apply N.ltb_ge; unfold b, signedWire, len; rewrite app_length, I6, (kx_len _ Mok); vm_compute; discriminate).
          replace (kRemoteIdentity (xKx (iKx s1))) with (Some (cIdentity (icKx c'))) by (symmetry; apply KIx).
          rewrite W1, W2, (Sep _ (kx_len _ Mok)). reflexivity. }
        assert (U1 : usual (iRcv s1)) by exact U.
        set (s2 := upRcv s1 (emit (iRcv s1) (EvHandler messageTypeKeyExchange b))).
        assert (Hh : iHandle verify dh blake3 sha3 c s1 (hdrOf (kxm c p fl)) (wPayload (kxm c p fl)) = Ret (reportError c s2 ErrBackend, Some (len b))).
        { cbn [wPayload kxMsgOf kxWire]. fold b. unfold iHandle, kxMsgOf. fold b. rewrite (one_kx _ _ U1), emitted. cbn [out emit]. unfold handleEvent.
          change (messageTypeKeyExchange =? messageTypeKeyExchange) with true. cbn match. change (xKx (iKx (upRcv s1 _))) with (xKx (iKx s1)). rewrite Hk. cbn match.
          unfold afterKx. change (xKx (iKx (upRcv s1 _))) with (xKx (iKx s1)). change (iKx (upRcv s1 _)) with (iKx s1). cbn [xKx setX]. rewrite Nat.ltb_irrefl.
          replace ((kDone (xKx (iKx s1)) =? 0) && (0 <? kDone (xKx (iKx s1)))) with false
            by (destruct (kDone (xKx (iKx s1))); reflexivity). cbv zeta.
          replace (upKx (upRcv s1 _) _) with s2.
          - reflexivity.
          - assert (Xe : setX (iKx s1) (xKx (iKx s1)) = iKx s1) by (unfold setX; destruct (iKx s1); reflexivity).
            rewrite Xe. reflexivity. }
        rewrite (receive_one verify dh blake3 sha3 stream poly1305 c (dSess x) raw P w _ _ _ Mk eq_refl Rc Hh) in E. injection E as <-.
        destruct (report_facts c s2 ErrBackend) as (R1 & R2 & R3 & R4 & R5 & R6 & R7).
        assert (Q2 : queued s2 = queued (dSess x)) by (unfold s2; rewrite queued_emit, app_nil_r; reflexivity).
        split; [|split; [rewrite R1; reflexivity|split; [rewrite R7; exact Q2|split; [rewrite R3; exact Cn|split; [rewrite R4; exact Nx|intros [e Z]; congruence]]]]].
        apply harmlessR; auto; try congruence; [rewrite R2; exact A1|rewrite R3; exact Hw].
      + unfold iReceive in E. rewrite Rc in E. injection E as <-.
        split; [|split; [reflexivity|split; [reflexivity|split; [exact Cn|split; [exact Nx|intros [e Z]; congruence]]]]]. apply harmlessR; auto.
  Qed.

  (** ** A packet of the peer *)

  Lemma recvR : forall c c' ps qs x y raw v o s', fitting c c' ps qs -> clear (auxKey blake3 sha3 c) K ia ib (dNet y) -> In raw (dNet y) ->
    SR c c' ps qs x y -> SR c' c qs ps y x -> packetR c' qs y raw v o ->
    istep verify dh blake3 sha3 stream poly1305 c (dSess x) (IPacket raw) = Some s' ->
    (exists e, dec c x raw = Ret (Err e)) \/
    SR c c' ps qs (withSess x s') y /\
    (hasLocal (xOf x) -> hasLocal (iKx s')) /\ (hasRemote (xOf x) -> hasRemote (iKx s')) /\
    (iNext s' = iNext (dSess x) \/ iNext s' = add64 (iNext (dSess x)) 1) /\
    exists w b, checkAndRemember (iWin (dSess x)) (packetIDValue (packetIDBytes v)) = Ret (w, b) /\ iWin s' = w /\
      queued s' = queued (dSess x) ++ (if b then optl o else []).
  Proof.
    intros c c' ps qs x y raw v o s' HF HU Hin SX SY PK E. assert (Hc : honestConf c) by apply HF. assert (Hc' : honestConf c') by apply HF.
    assert (Ax : auxKey blake3 sha3 c' = auxKey blake3 sha3 c) by (symmetry; apply aux_same, HF).
    assert (SX0 := SX). destruct SX as (KIx & (A1 & A3) & U & B1 & B2 & B4 & B5).
    unfold istep in E. rewrite A1 in E.
    destruct (iOver (dSess x) || isDoneState (stateOf (dSess x)) || locked (iKx (dSess x))) eqn:EO; [discriminate|].
    apply orb_false_iff in EO. destruct EO as [EO _]. apply orb_false_iff in EO. destruct EO as [_ EO].
    assert (Cx : kCtxDone (xKx (iKx (dSess x))) = false) by (destruct (kCtxDone (xKx (iKx (dSess x)))); [rewrite B1 in EO; [discriminate|reflexivity]|reflexivity]).
    assert (Dup : forall P w, winOk w -> SR c c' ps qs (withSess x (upPkt (dSess x) (pNext P) w)) y) by (intros P w Hw; apply harmlessR; auto).
    destruct o as [pl|].
    - (* data *)
      destruct (open_dataR c c' ps qs _ x c' qs y raw v pl _ HF KIx HU Hin (or_intror eq_refl) PK) as [Er|(_ & Mk & Hpl & De)]; [left; exact Er|right].
      destruct (received_at blake3 sha3 stream poly1305 c (dSess x) raw v _ Mk A3 De) as (P & w & b & Hw & Ew & Nx & Rc). destruct b.
      2: { unfold iReceive in E. rewrite Rc in E. injection E as <-. split; [|split; [intros H; exact H|split; [intros H; exact H|split; [exact Nx|]]]].
        - apply harmlessR; auto.
        - exists w, false. rewrite app_nil_r. auto. }
      set (s1 := upFails (upPkt (dSess x) (pNext P) w) 0 (iUnexpected (dSess x))).
      assert (U1 : usual (iRcv s1)) by exact U.
      assert (Hh := handle_data verify dh blake3 sha3 c s1 pl U1). set (s2 := upRcv s1 _) in Hh.
      rewrite (receive_one verify dh blake3 sha3 stream poly1305 c (dSess x) raw P w _ s2 _ Mk eq_refl Rc Hh) in E. injection E as <-.
      split; [|split; [intros H; exact H|split; [intros H; exact H|split; [exact Nx|]]]].
      2: { exists w, true. split; [exact Ew|]. split; [reflexivity|]. unfold s2; rewrite queued_emit; reflexivity. }
      unfold SR. cbn [dSess withSess].
      split; [exact KIx|]. split; [split; [exact A1|exact Hw]|]. split; [exact U|]. split; [exact B1|]. split; [exact B2|].
      split. { eapply packetsR; [exact B4| | |apply incl_refl]; intros H; exact H. }
      unfold s2. rewrite queued_emit. intros z Hz. apply in_app_or in Hz. destruct Hz as [Hz|[<-|[]]]; [apply B5; exact Hz|exact Hpl].
    - (* key exchange *)
      right. destruct (open_kxR c c' ps qs _ x c' qs y raw v _ HF KIx HU Hin Hc' Ax PK) as (p & fl & Hp & HL & HR & De).
      destruct (kxMsgOf_ok sign pubOf (id_sign_len _ _ _ _ _ _ _ id) (id_pub_len _ _ _ _ _ _ _ id) c' p fl Hc') as [Mk _].
      destruct (received_at blake3 sha3 stream poly1305 c (dSess x) raw v _ Mk A3 De) as (P & w & b & Hw & Ew & Nx & Rc). destruct b.
      2: { unfold iReceive in E. rewrite Rc in E. injection E as <-. split; [|split; [intros H; exact H|split; [intros H; exact H|split; [exact Nx|]]]].
        - apply harmlessR; auto.
        - exists w, false. rewrite app_nil_r. auto. }
      set (s1 := upFails (upPkt (dSess x) (pNext P) w) 0 (iUnexpected (dSess x))).
      assert (U1 : usual (iRcv s1)) by exact U.
      assert (Hfl : fl = true -> hasLocal (xOf x)).
      { intros ->. destruct SY as ((_ & _ & _ & Er & _) & _). specialize (HR eq_refl). destruct Er as [(Er & _)|(_ & _ & Er)]; [exfalso; apply HR; exact Er|exact Er]. }
      destruct id as [I1 I2 I3 I4 I5 I6 I7 I8 I9].
      destruct (kx_handleR verify dh blake3 sha3 sign pubOf I2 I3 I4 I6 I7 I8 I9
                  (icKx c) (icKx c') ps qs (hasLocal (xOf y)) (iKx s1) p fl KIx Hp HL) as (k & Ek & KIk & K1 & K2 & K3 & K4 & K5);
        [apply Hc'|apply Hc'|apply Hc|apply Hc'|exact Cx|exact Hfl|].
      assert (Hh := handle_kx verify dh blake3 sha3 c s1 _ k (negb fl) U1 Ek K3).
      set (s2 := if (kDone (xKx (iKx s1)) =? 0) && (0 <? kDone k) then _ else _) in Hh.
      change (upKx _ _) with (upKx (upRcv s1 (emit (iRcv s1) (EvHandler messageTypeKeyExchange (signedWire sign (icKx c') (msgOf pubOf (icKx c') p fl)))))
        (if negb fl then addAnswer (setX (iKx s1) k) else setX (iKx s1) k)) in s2.
      rewrite (receive_one verify dh blake3 sha3 stream poly1305 c (dSess x) raw P w _ s2 _ Mk eq_refl Rc Hh) in E. injection E as <-.
      assert (X2 : iKx s2 = if negb fl then addAnswer (setX (iKx s1) k) else setX (iKx s1) k)
        by (unfold s2; destruct ((kDone (xKx (iKx s1)) =? 0) && (0 <? kDone k)); reflexivity).
      assert (K6 : xKx (iKx s2) = k) by (rewrite X2; destruct fl; reflexivity).
      assert (ML : hasLocal (xOf x) -> hasLocal (iKx s2)) by (unfold hasLocal; rewrite K6, K2; intros H; exact H).
      assert (MR : hasRemote (iKx s2)) by (unfold hasRemote; rewrite K6, K1; discriminate).
      split; [|split; [exact ML|split; [intros _; exact MR|]]].
      2: { split; [unfold s2; destruct ((kDone _ =? 0) && (0 <? kDone k)); exact Nx|]. exists w, true. split; [exact Ew|]. cbn [optl].
        split; [unfold s2; destruct ((kDone _ =? 0) && (0 <? kDone k)); reflexivity|].
        unfold s2. destruct ((kDone _ =? 0) && (0 <? kDone k)); unfold queued; cbn [connect upRcv upKx iRcv setSessState emit out rev]; rewrite flat_map_app; reflexivity. }
      assert (St : stateOf s2 = if (kDone (xKx (iKx s1)) =? 0) && (0 <? kDone k) then
                      fst (setState (fst (setState (stateOf (dSess x)) SessionStateNegotiating
                        [SessionStateClosed; SessionStateClosing; SessionStateNew; SessionStateEstablished; SessionStateNegotiating]))
                        SessionStateEstablished [SessionStateClosed; SessionStateClosing; SessionStateNew; SessionStateEstablished])
                    else stateOf (dSess x))
        by (unfold s2; destruct ((kDone (xKx (iKx s1)) =? 0) && (0 <? kDone k)); reflexivity).
      assert (O2 : out (iRcv s2) = EvHandler messageTypeKeyExchange (signedWire sign (icKx c') (msgOf pubOf (icKx c') p fl)) :: out (iRcv (dSess x)))
        by (unfold s2; destruct ((kDone (xKx (iKx s1)) =? 0) && (0 <? kDone k)); reflexivity).
      change (xKx (iKx s1)) with (xKx (iKx (dSess x))) in *.
      unfold SR. cbn [dSess withSess]. split; [rewrite X2; exact KIk|].
      split. { unfold s2. destruct ((kDone _ =? 0) && (0 <? kDone k)); (split; [exact A1|exact Hw]). }
      split. { unfold s2. destruct ((kDone _ =? 0) && (0 <? kDone k)); exact U. }
      split. { rewrite K6, K4. discriminate. }
      split. { unfold phase. rewrite K6, St, K5. destruct B2 as [(S0 & D0)|[(S0 & D0)|[S0|S0]]].
        - rewrite S0, D0. destruct fl; [right; left|left]; split; reflexivity.
        - rewrite S0. replace (kDone (xKx (iKx (dSess x))) =? 0) with false by (symmetry; apply N.eqb_neq; lia). cbn [andb]. right. left.
          split; [reflexivity|]. destruct fl; lia.
        - rewrite S0 in EO. discriminate.
        - rewrite S0 in EO. discriminate. }
      split. { eapply packetsR; [exact B4|exact ML|intros _; exact MR|apply incl_refl]. }
      unfold queued. rewrite O2. cbn [rev]. rewrite flat_map_app. cbn [flat_map app]. rewrite app_nil_r. exact B5.
  Qed.

  (** ** What arrives *)

  Definition heard (c' : iconf) (qs : list bytes) (x y x' : side) : Prop :=
    dNet x' = dNet x /\ dWrote x' = dWrote x /\ (iNext (dSess x') = iNext (dSess x) \/ iNext (dSess x') = add64 (iNext (dSess x)) 1) /\
    exists n raw, nth_error (dNet y) n = Some raw /\
      forall v o, packetR c' qs y raw v o ->
        exists w b, checkAndRemember (iWin (dSess x)) (packetIDValue (packetIDBytes v)) = Ret (w, b) /\ iWin (dSess x') = w /\
          queued (dSess x') = queued (dSess x) ++ (if b then optl o else []).

  Lemma arriveR : forall c c' ps qs x y raw x', fitting c c' ps qs -> separate verify sign (cIdentity (icKx c)) (cIdentity (icKx c')) ->
    clear (auxKey blake3 sha3 c) K ia ib (dNet x) -> clear (auxKey blake3 sha3 c) K ia ib (dNet y) ->
    SR c c' ps qs x y -> SR c' c qs ps y x ->
    (In raw (dNet y) \/ In raw (dNet x) \/ exists e, dec c x raw = Ret (Err e)) ->
    arrive verify dh blake3 sha3 stream poly1305 c x raw = Some x' ->
    SR c c' ps qs x' y /\ SR c' c qs ps y x' /\
    (hasLocal (xOf x) -> hasLocal (xOf x')) /\ (hasRemote (xOf x) -> hasRemote (xOf x')) /\
    (heard c' qs x y x' \/ quiet x x').
  Proof.
    intros c c' ps qs x y raw x' HF Sep UX UY SX SY Or E. unfold arrive in E. destruct (istep _ _ _ _ _ _ _ _ _) as [s'|] eqn:Es; [|discriminate]. injection E as <-.
    assert (Hc : honestConf c) by apply HF. assert (Hc' : honestConf c') by apply HF.
    assert (Q : ((exists e, dec c x raw = Ret (Err e)) \/
       exists v p fl, dec c x raw = Ret (Ok (packetIDBytes v, len (wireBytes (kxm c p fl)), wireBytes (kxm c p fl)))) ->
       SR c c' ps qs (withSess x s') y /\ SR c' c qs ps y (withSess x s') /\
       (hasLocal (xOf x) -> hasLocal (xOf (withSess x s'))) /\ (hasRemote (xOf x) -> hasRemote (xOf (withSess x s'))) /\
       (heard c' qs x y (withSess x s') \/ quiet x (withSess x s'))).
    { intros De. destruct (nobodyR c c' ps qs x y raw s' Hc Hc' Sep SX De Es) as (S1 & S2 & S3 & S4 & S5 & _).
      assert (Kx : xOf (withSess x s') = xOf x) by exact S2.
      split; [exact S1|]. split. { apply (SR_other _ _ _ _ _ x); auto; rewrite ?Kx; auto. apply incl_refl. }
      rewrite Kx. split; [auto|]. split; [auto|]. right. unfold quiet. cbn [withSess dNet dWrote dSess]. auto 10. }
    destruct Or as [Hin|[Hin|Er]]; [| |auto].
    - destruct (dec c x raw) as [[t|e]|] eqn:De; [|apply Q; left; eauto|].
      2: { exfalso. assert (PB := peerR _ _ _ _ _ _ (proj1 SX)). destruct UY as [UY _]. rewrite Forall_forall in UY.
        destruct (decryptPacket_total stream blake3 poly1305 (id_prim _ _ _ _ _ _ _ id) _ raw PB (UY raw Hin)) as [r Er]. congruence. }
      assert (G : forall v o, packetR c' qs y raw v o -> 
        SR c c' ps qs (withSess x s') y /\ (hasLocal (xOf x) -> hasLocal (iKx s')) /\ (hasRemote (xOf x) -> hasRemote (iKx s')) /\
        (iNext s' = iNext (dSess x) \/ iNext s' = add64 (iNext (dSess x)) 1) /\
        exists w b, checkAndRemember (iWin (dSess x)) (packetIDValue (packetIDBytes v)) = Ret (w, b) /\ iWin s' = w /\
          queued s' = queued (dSess x) ++ (if b then optl o else [])).
      { intros v o PK. destruct (recvR c c' ps qs x y raw v o s' HF UY Hin SX SY PK Es) as [[e Z]|Z]; [congruence|exact Z]. }
      destruct (In_nth_error _ _ Hin) as [n En].
      assert (Pk : exists v o, packetR c' qs y raw v o) by (destruct SY as (_ & _ & _ & _ & _ & SY & _); rewrite Forall_forall in SY; apply SY, Hin).
      destruct Pk as (v & o & Pk). destruct (G v o Pk) as (G1 & G2 & G3 & G4 & _).
      split; [exact G1|]. split. { apply (SR_other _ _ _ _ _ x); auto. apply incl_refl. }
      split; [exact G2|]. split; [exact G3|]. left. split; [reflexivity|]. split; [reflexivity|]. split; [exact G4|]. exists n, raw. split; [exact En|].
      intros v' o' Pk'. apply (G v' o' Pk').
    - apply Q. assert (Pk : exists v o, packetR c ps x raw v o) by (destruct SX as (_ & _ & _ & _ & _ & SX & _); rewrite Forall_forall in SX; apply SX, Hin).
      destruct Pk as (v & [pl|] & Pk).
      + left. destruct (open_dataR c c' ps qs _ x c ps x raw v pl _ HF (proj1 SX) UX Hin (or_introl eq_refl) Pk) as [Er|(Ec & _)]; [exact Er|exfalso].
        destruct HF as (_ & _ & _ & _ & [[Z1 Z2]|[Z1 Z2]]); rewrite <- Ec in Z2; congruence.
      + right. destruct (open_kxR c c' ps qs _ x c ps x raw v _ HF (proj1 SX) UX Hin Hc eq_refl Pk) as (p & fl & _ & _ & _ & De). eauto.
  Qed.

  (** ** Everything but arrivals *)

  Definition grewR (c : iconf) (ps : list bytes) (x x' : side) : Prop :=
    iWin (dSess x') = iWin (dSess x) /\ queued (dSess x') = queued (dSess x) /\
    (dNet x' = dNet x /\ dWrote x' = dWrote x /\ iNext (dSess x') = iNext (dSess x) \/
     exists raw o, dNet x' = dNet x ++ [raw] /\ dWrote x' = dWrote x ++ optl o /\ iNext (dSess x') = add64 (iNext (dSess x)) 1 /\
       packetR c ps x' raw (add64 (iNext (dSess x)) 1) o).

  Lemma hand_overR : forall c c' ps qs x s y conf msg wrote x', fitting c c' ps qs ->
    SR c c' ps qs (withSess x s) y ->
    (conf = false /\ wrote = [] /\ (exists p fl, In p ps /\ msg = encodeMsg messageTypeKeyExchange 0 (signedWire sign (icKx c) (msgOf pubOf (icKx c) p fl)) /\
       hasLocal (iKx s) /\ (fl = true -> hasRemote (iKx s))) \/
     conf = true /\ stateOf s = SessionStateEstablished /\ (exists payload, wrote = [payload] /\ len payload + 53 < 2^32 /\
       msg = encodeMsg MessageTypeReadWrite (setIsConfidential 0 true) payload)) ->
    handOver blake3 sha3 stream poly1305 c x s conf [msg] wrote = Some x' ->
    SR c c' ps qs x' y /\ iKx (dSess x') = iKx s /\
    exists raw, dNet x' = dNet x ++ [raw] /\ dWrote x' = dWrote x ++ wrote /\ iWin (dSess x') = iWin s /\ queued (dSess x') = queued s /\
      iNext (dSess x') = add64 (iNext s) 1 /\ packetR c ps x' raw (add64 (iNext s) 1) (hd_error wrote).
  Proof.
    intros c c' ps qs x s y conf msg wrote x' HF (KIx & (A1 & A3) & U & B1 & B2 & B4 & B5) Hm E.
    assert (Hc : honestConf c) by apply HF.
    cbn [dSess withSess] in *. unfold handOver in E. cbn [concat] in E. rewrite app_nil_r in E.
    unfold sendPacket in E. set (P0 := peerOf blake3 sha3 c s) in E.
    assert (PO : peer_ok P0) by (eapply peerR; eauto).
    destruct (takePacketID P0) as [P pid] eqn:ET. unfold takePacketID in ET. injection ET as EP Epid.
    assert (PO1 : peer_ok P) by (subst P; exact PO).
    assert (Lp : length pid = 8%nat) by (subst pid; apply le_enc_length).
    assert (Lm : len msg + 44 < 2^32).
    { destruct Hm as [(_ & _ & p & fl & _ & -> & _)|(_ & _ & pl & _ & L & ->)].
      - destruct (kxMsgOf_ok sign pubOf (id_sign_len _ _ _ _ _ _ _ id) (id_pub_len _ _ _ _ _ _ _ id) c p fl Hc) as [Mk Lk].
        change (encodeMsg _ _ _) with (encodeMsg (wType (kxm c p fl)) (wFlags (kxm c p fl)) (wPayload (kxm c p fl))).
        rewrite (encodeMsg_wire _ Mk), (wire_len _ Mk), Lk. reflexivity.
      - assert (Mk : wireMsg_ok (dataMsg pl)).
        { unfold wireMsg_ok, dataMsg, kxWire. cbn [wType wFlags wPayload]. unfold len in L. repeat split; try reflexivity. lia. }
        change (encodeMsg _ _ _) with (encodeMsg (wType (dataMsg pl)) (wFlags (dataMsg pl)) (wPayload (dataMsg pl))).
        rewrite (encodeMsg_wire _ Mk), (wire_len _ Mk). cbn [wPayload dataMsg kxWire]. lia. }
    assert (Key : conf = true -> exists k, K k /\ nth 0 (pKeys P) None = Some k).
    { intros ->. destruct Hm as [(Z & _)|(_ & S & _)]; [discriminate|].
      assert (D : 0 < kDone (xKx (iKx s))) by (destruct B2 as [(Z & _)|[(_ & Z)|[Z|Z]]]; [rewrite S in Z; discriminate|exact Z|rewrite S in Z; discriminate|rewrite S in Z; discriminate]).
      destruct KIx as (_ & _ & _ & _ & F & _ & _ & _ & _ & G). destruct (G D) as [CL CR].
      destruct F as [(_ & [F|F])|(_ & (k0 & ks & F1) & F2)]; [exfalso; apply CL; exact F|exfalso; apply CR; exact F|].
      exists k0. subst P. cbn [pKeys P0 peerOf]. rewrite F1 in *. split; [|reflexivity]. destruct HF as (_ & _ & _ & HK & _). apply HK, F2. left. reflexivity. }
    destruct (seal_spec stream blake3 poly1305 (id_prim _ _ _ _ _ _ _ id) P conf pid msg PO1 Lp Lm) as (body & Es & _).
    { intros H. destruct (Key H) as (k & _ & Ek). rewrite H. unfold sealKey, secretIDRecentBoth. rewrite Ek. discriminate. }
    rewrite Es in E. set (raw := idOnWire stream (pAux P) pid ++ body) in *. injection E as <-.
    set (x1 := {| dSess := _; dNet := _; dWrote := _ |}).
    assert (PK : packetR c ps x1 raw (add64 (iNext s) 1) (hd_error wrote)).
    { exists P. rewrite Epid. split; [exact PO1|]. split; [subst P; reflexivity|]. split; [subst P; reflexivity|].
      destruct Hm as [(Z & -> & p & fl & Hp & Em & HL & HR)|(Z & S & pl & -> & L & Em)]; cbn [hd_error].
      + exists p, fl. rewrite <- Em, <- Z. split; [exact Hp|]. split; [exact Es|]. split; [exact HL|exact HR].
      + cbn [dWrote x1]. split; [apply in_or_app; right; left; reflexivity|]. split; [exact L|]. destruct (Key Z) as (k & Hk & Ek). exists k.
        split; [exact Hk|]. split; [exact Ek|]. rewrite <- Em, <- Z. exact Es. }
    cbn [dSess upPkt iKx dWrote x1]. split; [|split; [reflexivity|]].
    2: { exists raw. split; [reflexivity|]. split; [reflexivity|]. split; [reflexivity|]. split; [reflexivity|]. split; [subst P; reflexivity|exact PK]. }
    unfold SR. cbn [dSess dNet dWrote]. split; [exact KIx|]. split; [split; [exact A1|exact A3]|]. split; [exact U|].
    split; [exact B1|]. split; [exact B2|]. split; [|exact B5].
    apply Forall_app. split.
    - eapply packetsR; [exact B4| | |cbn; apply incl_appl, incl_refl]; intros H; exact H.
    - constructor; [|constructor]. exists (add64 (iNext s) 1), (hd_error wrote). exact PK.
  Qed.

  Lemma kx_okR : forall c c' ps qs x y k s', SR c c' ps qs x y -> freeKx pubOf ps k ->
    istep verify dh blake3 sha3 stream poly1305 c (dSess x) (IKx k) = Some s' ->
    SR c c' ps qs (withSess x s') y /\ KStepR (xOf x) (iKx s') /\
    iWin s' = iWin (dSess x) /\ queued s' = queued (dSess x) /\ iNext s' = iNext (dSess x).
  Proof.
    intros c c' ps qs x y k s' (KIx & (A1 & A3) & U & B1 & B2 & B4 & B5) HC E.
    unfold istep in E. rewrite A1 in E. destruct (isHandle k) eqn:EH; [discriminate|].
    destruct (kstep verify dh blake3 sha3 (icKx c) (iKx (dSess x)) k) as [x1|] eqn:EK; [|discriminate].
    destruct (kx_ownR verify dh blake3 sha3 pubOf (id_dh_len _ _ _ _ _ _ _ id) (id_sha3_len _ _ _ _ _ _ _ id) (id_dh_nonzero _ _ _ _ _ _ _ id)
                (icKx c) (icKx c') ps qs _ _ _ _ KIx HC EH EK) as [KI1 ST].
    assert (P1 : xPanic x1 = false) by apply KI1. rewrite P1 in E. injection E as <-.
    assert (X1 : iKx (afterKx c (dSess x) x1) = x1).
    { unfold afterKx. cbv beta zeta. destruct (Nat.ltb _ _); destruct ((_ =? 0) && _); unfold reportError; cbv beta zeta; destruct (icCloseOnError c); reflexivity. }
    assert (ST0 := ST). destruct ST as (S1 & S2 & S3 & S4 & S5).
    rewrite X1. split; [|split; [exact ST0|]].
    2: { unfold afterKx. cbv beta zeta. destruct (Nat.ltb _ _); destruct ((_ =? 0) && _); unfold reportError; cbv beta zeta; try destruct (icCloseOnError c);
         (split; [reflexivity|split; [|reflexivity]]); unfold queued; cbn [closeCall connect upRcv upKx iRcv emit out rev setSessState];
         rewrite ?flat_map_app; cbn [flat_map app]; rewrite ?app_nil_r; reflexivity. }
    assert (MR : hasRemote (xOf x) -> hasRemote x1) by (unfold hasRemote; rewrite S1; intros H; exact H).
    assert (AF : afterKx c (dSess x) x1 = if Nat.ltb (length (kErrs (xKx (iKx (dSess x))))) (length (kErrs (xKx x1)))
                   then reportError c (closeCall (upKx (dSess x) x1)) ErrBackend else upKx (dSess x) x1).
    { unfold afterKx. cbv beta zeta. unfold xOf in S2. rewrite S2. destruct (kDone (xKx (iKx (dSess x))) =? 0) eqn:ED; cbn [andb]; [|reflexivity].
      apply N.eqb_eq in ED. rewrite ED. reflexivity. }
    rewrite AF in *. clear AF. unfold xOf in S1, S2, S3, S4, S5. destruct S4 as [(S4 & S6)|(e & S4)].
    - rewrite S4, Nat.ltb_irrefl in *. unfold SR. cbn [dSess withSess upKx iKx]. split; [exact KI1|]. split; [split; [exact A1|exact A3]|].
      split; [exact U|]. split; [rewrite S6; exact B1|]. split; [unfold phase; cbn [upKx iKx]; rewrite S2; exact B2|].
      split; [|exact B5]. eapply packetsR; [exact B4|exact S3|exact MR|apply incl_refl].
    - rewrite S4 in *. cbn [length] in *. replace (Nat.ltb _ _) with true in * by (symmetry; apply Nat.ltb_lt; lia).
      set (s2 := reportError c (closeCall (upKx (dSess x) x1)) ErrBackend) in *.
      assert (Q : iPanic s2 = false /\ winOk (iWin s2)) by (unfold s2, reportError; cbv beta zeta; destruct (icCloseOnError c); (split; [exact A1|exact A3])).
      assert (U2 : usual (iRcv s2)) by (unfold s2, reportError; cbv beta zeta; destruct (icCloseOnError c); exact U).
      assert (Q2 : queued s2 = queued (dSess x)).
      { unfold s2, reportError, queued. cbv beta zeta. destruct (icCloseOnError c);
          cbn [closeCall upRcv upKx iRcv emit out rev setSessState]; rewrite flat_map_app; cbn [flat_map app]; rewrite app_nil_r; reflexivity. }
      assert (D2 : isDoneState (stateOf s2) = true /\ (stateOf s2 = SessionStateClosing \/ stateOf s2 = SessionStateClosed)).
      { unfold s2, reportError. cbv beta zeta. destruct (icCloseOnError c); [apply closed_state|apply (closed_state (upKx (dSess x) x1))]. }
      unfold SR. cbn [dSess withSess]. rewrite X1. split; [exact KI1|]. split; [exact Q|]. split; [exact U2|]. split; [intros _; apply D2|].
      split; [right; right; apply D2|].
      split. { eapply packetsR; [exact B4| | |apply incl_refl]; unfold xOf; cbn [dSess withSess]; rewrite X1; [exact S3|exact MR]. }
      rewrite Q2; exact B5.
  Qed.

  Lemma own_okR : forall c c' ps qs x y net l x', fitting c c' ps qs -> SR c c' ps qs x y -> drawsFrom pubOf ps l ->
    (forall n, l <> SRecv n) -> sideStep verify dh blake3 sha3 stream poly1305 sign c x net l = Some x' ->
    SR c c' ps qs x' y /\ (hasLocal (xOf x) -> hasLocal (xOf x')) /\ (hasRemote (xOf x) -> hasRemote (xOf x')) /\ grewR c ps x x'.
  Proof.
    intros c c' ps qs x y net l x' HF SX HC HN E. destruct l as [k|n|payload| |]; cbn [sideStep] in E.
    - destruct (istep verify dh blake3 sha3 stream poly1305 c (dSess x) (IKx k)) as [s'|] eqn:EI; [|discriminate].
      assert (HC' : freeKx pubOf ps k) by (destruct k; exact HC).
      destruct (kx_okR c c' ps qs x y k s' SX HC' EI) as (S1 & (K1 & K2 & K3 & K4 & K5) & W & Q & Nx).
      assert (MR : hasRemote (xOf x) -> hasRemote (iKx s')) by (unfold hasRemote; rewrite K1; intros H; exact H).
      destruct (Nat.ltb (length (xSent (iKx (dSess x)))) (length (xSent (iKx s'))) && negb (isDoneState (stateOf s'))) eqn:EC.
      + destruct (xSent (iKx s')) as [|m ms] eqn:EM; [discriminate|].
        assert (HM : hasLocal (iKx s') /\ exists p fl, In p ps /\ m = msgOf pubOf (icKx c) p fl /\ (fl = true -> hasRemote (iKx s'))).
        { destruct S1 as ((_ & _ & _ & _ & _ & _ & _ & F & _) & _). cbn [dSess withSess] in F. rewrite EM in F. inversion F; assumption. }
        destruct HM as (HL & p & fl & Hp & -> & HR).
        destruct (hand_overR c c' ps qs x s' y false _ [] x' HF S1 (or_introl (conj eq_refl (conj eq_refl (ex_intro _ p (ex_intro _ fl (conj Hp (conj eq_refl (conj HL HR)))))))) E)
          as (S2 & X & raw & I1 & I2 & I3 & I4 & I5 & I6).
        split; [exact S2|]. unfold xOf. rewrite X. split; [intros _; exact HL|]. split; [exact MR|].
        split; [congruence|]. split; [congruence|]. right. exists raw, None. rewrite Nx in I5, I6. auto.
      + injection E as <-. split; [exact S1|]. split; [exact K3|]. split; [exact MR|]. split; [exact W|]. split; [exact Q|]. left. auto.
    - destruct (HN n eq_refl).
    - destruct (iPanic (dSess x) || negb (stateOf (dSess x) =? SessionStateEstablished) || (2^32 <=? len payload + 53)) eqn:EO; [discriminate|].
      apply orb_false_iff in EO. destruct EO as [EO EL]. apply orb_false_iff in EO. destruct EO as [_ EO]. apply negb_false_iff, N.eqb_eq in EO. apply N.leb_gt in EL.
      assert (S1 : SR c c' ps qs (withSess x (dSess x)) y) by (destruct x; exact SX).
      destruct (hand_overR c c' ps qs x (dSess x) y true _ [payload] x' HF S1
                  (or_intror (conj eq_refl (conj EO (ex_intro _ payload (conj eq_refl (conj EL eq_refl)))))) E) as (S2 & X & raw & I1 & I2 & I3 & I4 & I5 & I6).
      split; [exact S2|]. unfold xOf. rewrite X. split; [auto|]. split; [auto|]. split; [exact I3|]. split; [exact I4|].
      right. exists raw, (Some payload). auto.
    - destruct (iPanic (dSess x)) eqn:EP; [discriminate|]. injection E as <-.
      split; [|split; [intros H; exact H|split; [intros H; exact H|split; [reflexivity|split; [reflexivity|left; auto]]]]].
      destruct SX as (KIx & (A1 & A3) & U & B1 & B2 & B4 & B5). destruct (closed_state (dSess x)) as [D1 D2].
      unfold SR. cbn [dSess]. split; [exact KIx|]. split; [split; [exact A1|exact A3]|]. split; [exact U|]. split; [intros _; exact D1|].
      split; [right; right; exact D2|]. split; [|exact B5].
      eapply packetsR; [exact B4| | |apply incl_refl]; intros H; exact H.
    - destruct (istep verify dh blake3 sha3 stream poly1305 c (dSess x) ICleanup) as [s'|] eqn:EI; [|discriminate]. injection E as <-.
      destruct SX as (KIx & (A1 & A3) & U & B1 & B2 & B4 & B5). unfold istep in EI. rewrite A1 in EI.
      destruct (iOver (dSess x) || isDoneState (stateOf (dSess x))); [|discriminate]. injection EI as <-.
      split; [|split; [intros H; exact H|split; [intros H; exact H|split; [reflexivity|split; [reflexivity|left; auto]]]]].
      unfold SR. cbn [dSess upOver upKx iKx]. split; [exact KIx|]. split; [split; [exact A1|exact A3]|]. split; [exact U|]. split; [reflexivity|].
      split; [right; right; right; reflexivity|]. split; [|exact B5].
      eapply packetsR; [exact B4| | |apply incl_refl]; intros H; exact H.
  Qed.

  (** ** At most once *)

  Lemma jump_steady : forall x x' (w : nat) st acc v st1 b, Sound w st acc -> v < 2^64 -> push st v = Ret (st1, b) ->
    iWin (dSess x) = Some st -> iWin (dSess x') = Some st1 -> (w <= 1)%nat \/ steady x x' -> jump_ok w (latest st) v.
  Proof.
    clear len_a len_b ids_differ id.
    intros x x' w st acc v st1 b S V E W1 W2 H. unfold jump_ok. destruct (N.le_gt_cases v (latest st)) as [L|L]; [auto|]. right.
    destruct H as [H|H]; [destruct (N.le_gt_cases (v - latest st) 64); [auto|]; right; lia|]. left.
    destruct (push_newer st v (s_ok _ _ _ S)) as (t & Ep & _); [lia|]. rewrite Ep in E. injection E as <- _.
    specialize (H _ _ W1 W2). cbn [latest] in H. lia.
  Qed.

  Lemma grow_only : forall st v st', table st = [] -> push st v = Ret (st', true) -> latest st < v.
  Proof.
    clear len_a len_b ids_differ id.
    intros st v st' Ht E. unfold push in E. rewrite Ht in E. destruct (N.ltb_spec (latest st) v) as [H|H]; [exact H|].
    destruct (v =? latest st); [discriminate|]. change (len [] * 64) with 0 in E. cbn [N.leb N.compare] in E.
    replace (0 <=? latest st - v) with true in E by (symmetry; apply N.leb_le; lia). discriminate.
  Qed.

  (** [acc]: accepted packet IDs; [own]: those of packets of the peer. *)
  Definition LRg (g : Prop) (o : sizeOption) (c' : iconf) (qs : list bytes) (x y : side) (T : N) : Prop :=
    exists log,
      Forall2 (fun raw e => packetR c' qs y raw (fst e) (snd e)) (dNet y) log /\
      increasing_from 0 (map fst log) /\ Forall (fun e => fst e <= iNext (dSess y)) log /\ iNext (dSess y) <= T /\
      flat_map (fun e => optl (snd e)) log = dWrote y /\
      match iWin (dSess x) with
      | None => o = NegSize
      | Some st => exists acc own, Sound (words o) st acc /\ (g -> Complete st acc /\ NoDup own) /\ (words o = O -> increasing_from 0 (rev own)) /\ incl own acc /\ incl own (map fst log) /\
          queued (dSess x) = flat_map (payloadOf log) (rev own)
      end.

  Lemma LRg_init : forall (g : Prop) c' qs ra wa rb wb md mf T, LRg g wa c' qs (sideInit ra wa md mf) (sideInit rb wb md mf) T.
  Proof.
    intros g c' qs ra wa rb wb md mf T. exists []. split; [constructor|]. split; [exact I|]. split; [constructor|]. split; [cbn; lia|]. split; [reflexivity|].
    cbn [sideInit dSess isessInit iWin]. destruct wa as [|n]; [reflexivity|].
    destruct (session_storage_some n) as (st & E & S & C & _). rewrite E. exists [], [].
    split; [unfold words; rewrite E; exact S|]. split; [intros _; split; [exact C|constructor]|]. split; [intros _; exact I|]. split; [intros z []|]. split; [intros z []|reflexivity].
  Qed.

  Lemma LRg_same : forall (g : Prop) w0 c' qs x y x' T, LRg g w0 c' qs x y T -> iWin (dSess x') = iWin (dSess x) -> queued (dSess x') = queued (dSess x) -> LRg g w0 c' qs x' y T.
  Proof. intros g w0 c' qs x y x' T (log & R) E1 E2. exists log. rewrite E1, E2. exact R. Qed.

  Lemma LRg_heard : forall (g : Prop) w0 c' qs x y x' T, LRg g w0 c' qs x y T -> (g -> (words w0 <= 1)%nat \/ steady x x') -> T < 2^64 -> heard c' qs x y x' -> LRg g w0 c' qs x' y T.
  Proof.
    intros g wd c' qs x y x' T (log & F & Inc & Le & LeT & Wr & W) HG HT (_ & _ & _ & n & raw & En & E).
    destruct (forall2_nth _ _ _ _ _ _ _ F En) as ([v o] & El & Pk). cbn [fst snd] in Pk.
    destruct (E v o Pk) as (w & b & Ck & Ew & Eq). exists log. split; [exact F|]. split; [exact Inc|]. split; [exact Le|]. split; [exact LeT|].
    split; [exact Wr|]. rewrite Ew. assert (Hin := nth_error_In _ _ El).
    assert (V : v < 2^64) by (rewrite Forall_forall in Le; specialize (Le _ Hin); cbn [fst] in Le; lia).
    assert (Vv : packetIDValue (packetIDBytes v) = v) by (unfold packetIDValue, packetIDBytes; apply le_dec_enc; exact V).
    rewrite Vv in Ck. destruct (iWin (dSess x)) as [st|] eqn:EW; cbn [checkAndRemember] in Ck; [|injection Ck as <- _; exact W].
    destruct W as (acc & own & S & Cm & Oo & Io & Ia & Q). destruct (push_sound (words wd) st acc v S V) as (st1 & b1 & Ep & S1 & _). rewrite Ep in Ck.
    injection Ck as <- <-. exists (if b1 then v :: acc else acc), (if b1 then v :: own else own). split; [exact S1|].
    split.
    { intros Hw. destruct (Cm Hw) as [C0 N0]. destruct (push_complete (words wd) st acc v S C0 V) as (st2 & b2 & Ep2 & C2 & NI).
      { exact (jump_steady x x' (words wd) st acc v st1 b1 S V Ep EW Ew (HG Hw)). }
      rewrite Ep in Ep2. injection Ep2 as <- <-. split; [exact C2|]. destruct b1; [constructor; [intros Z; exact (NI eq_refl (Io _ Z))|exact N0]|exact N0]. }
    split.
    { intros Hw. specialize (Oo Hw). destruct b1; [|exact Oo]. cbn [rev].
      assert (Lv : latest st < v).
      { apply (grow_only st v st1); [|exact Ep]. rewrite <- (s_len _ _ _ S) in Hw. destruct (table st); [reflexivity|discriminate]. }
      apply increasing_snoc; [exact Oo|eapply increasing_le; [exact Inc|change v with (fst (v, o)); apply in_map; exact Hin]|].
      intros j Hj. apply in_rev, Io, (s_le _ _ _ S) in Hj. lia. }
    split. { destruct b1; [|exact Io]. intros z [<-|Hz]; [left; reflexivity|right; apply Io, Hz]. }
    split.
    { destruct b1; [|exact Ia]. intros z [<-|Hz]; [|apply Ia, Hz]. change v with (fst (v, o)). apply in_map. exact Hin. }
    rewrite Eq, Q. destruct b1; [|rewrite app_nil_r; reflexivity]. cbn [rev]. rewrite flat_map_app. cbn [flat_map]. rewrite app_nil_r. f_equal.
    symmetry. change v with (fst (v, o)). apply (payload_at log n (v, o)); [eapply increasing_nodup; eauto|exact El].
  Qed.

  Lemma LRg_quiet : forall (g : Prop) w0 c' qs x y x' T, LRg g w0 c' qs x y T -> (g -> (words w0 <= 1)%nat \/ steady x x') -> quiet x x' -> LRg g w0 c' qs x' y T.
  Proof.
    intros g wd c' qs x y x' T (log & F & Inc & Le & LeT & Wr & W) HG (_ & _ & Kx & Q & Cn & _). exists log. split; [exact F|].
    split; [exact Inc|]. split; [exact Le|]. split; [exact LeT|]. split; [exact Wr|]. rewrite Q. destruct Cn as [-> | (v & b & V & Ck)]; [exact W|].
    destruct (iWin (dSess x)) as [st|] eqn:EW; cbn [checkAndRemember] in Ck; [|injection Ck as <- _; exact W].
    destruct W as (acc & own & S & Cm & Oo & Io & Ia & Qe). destruct (push_sound (words wd) st acc v S V) as (st1 & b1 & Ep & S1 & _). rewrite Ep in Ck.
    injection Ck as Ew <-. rewrite <- Ew. symmetry in Ew. exists (if b1 then v :: acc else acc), own. split; [exact S1|].
    split.
    { intros Hw. destruct (Cm Hw) as [C0 N0]. destruct (push_complete (words wd) st acc v S C0 V) as (st2 & b2 & Ep2 & C2 & NI).
      { exact (jump_steady x x' (words wd) st acc v st1 b1 S V Ep EW Ew (HG Hw)). }
      rewrite Ep in Ep2. injection Ep2 as <- <-. auto. }
    split; [exact Oo|]. split; [|auto]. destruct b1; [|exact Io]. intros z Hz. right. apply Io, Hz.
  Qed.

  (** The other side moves. *)
  Lemma LRg_still : forall (g : Prop) w0 c' qs x y y' T, LRg g w0 c' qs x y T -> T + 1 < 2^64 -> dNet y' = dNet y -> dWrote y' = dWrote y ->
    (hasLocal (xOf y) -> hasLocal (xOf y')) -> (hasRemote (xOf y) -> hasRemote (xOf y')) ->
    (iNext (dSess y') = iNext (dSess y) \/ iNext (dSess y') = add64 (iNext (dSess y)) 1) -> LRg g w0 c' qs x y' (T + 1).
  Proof.
    intros g wd c' qs x y y' T (log & F & Inc & Le & LeT & Wr & W) HT E1 E2 HL HR E3.
    assert (Nx : add64 (iNext (dSess y)) 1 = iNext (dSess y) + 1) by (unfold add64; apply N.mod_small; lia). rewrite Nx in E3.
    exists log. rewrite E1, E2.
    split. { eapply forall2_mono; [exact F|]. intros raw e H. eapply packetR_mono; [exact H|auto|auto|rewrite E2; apply incl_refl]. }
    split; [exact Inc|]. split; [eapply Forall_impl; [|exact Le]; cbn beta; intros a Ha; lia|]. split; [lia|]. auto.
  Qed.

  Lemma LRg_grew : forall (g : Prop) w0 c' qs x y y' T, LRg g w0 c' qs x y T -> T + 1 < 2^64 ->
    (hasLocal (xOf y) -> hasLocal (xOf y')) -> (hasRemote (xOf y) -> hasRemote (xOf y')) ->
    grewR c' qs y y' -> LRg g w0 c' qs x y' (T + 1).
  Proof.
    intros g wd c' qs x y y' T L HT HL HR E.
    destruct E as (_ & _ & [(E1 & E2 & E3)|(raw & o & E1 & E2 & E3 & E4)]); [apply (LRg_still _ _ _ _ _ y); auto|].
    destruct L as (log & F & Inc & Le & LeT & Wr & W).
    assert (F' : Forall2 (fun raw e => packetR c' qs y' raw (fst e) (snd e)) (dNet y) log).
    { eapply forall2_mono; [exact F|]. intros r e H. eapply packetR_mono; [exact H|auto|auto|rewrite E2; apply incl_appl, incl_refl]. }
    assert (Nx : add64 (iNext (dSess y)) 1 = iNext (dSess y) + 1) by (unfold add64; apply N.mod_small; lia).
    rewrite Nx in E3, E4. set (v := iNext (dSess y) + 1) in *.
    assert (Lt : forall j, In j (map fst log) -> j < v).
    { intros j Hj. apply in_map_iff in Hj. destruct Hj as (e & <- & He). rewrite Forall_forall in Le. specialize (Le e He). cbn beta in Le. unfold v. lia. }
    exists (log ++ [(v, o)]). rewrite E1, E2, E3. split; [apply Forall2_app; [exact F'|constructor; [exact E4|constructor]]|].
    split; [rewrite map_app; apply increasing_snoc; [exact Inc|cbn [fst]; unfold v; lia|exact Lt]|].
    split; [apply Forall_app; split; [eapply Forall_impl; [|exact Le]; cbn beta; intros a Ha; unfold v; lia|constructor; [cbn; lia|constructor]]|].
    split; [unfold v; lia|]. split; [rewrite flat_map_app, Wr; cbn [flat_map]; rewrite app_nil_r; reflexivity|].
    destruct (iWin (dSess x)) as [st|]; [|exact W]. destruct W as (acc & own & S & C & Oo & Io & Ia & Q). exists acc, own. split; [exact S|]. split; [exact C|].
    split; [exact Oo|]. split; [exact Io|]. split; [intros z Hz; rewrite map_app; apply in_or_app; left; apply Ia, Hz|]. rewrite Q.
    assert (Hr : forall z, In z (rev own) -> In z (map fst log)) by (intros z Hz; apply Ia; apply in_rev; exact Hz).
    revert Hr. generalize (rev own). induction l as [|z r IH]; intros Hr; [reflexivity|]. cbn [flat_map]. rewrite payload_snoc, IH; auto.
    - intros z' Hz'. apply Hr. right. exact Hz'.
    - cbn [fst]. specialize (Lt z (Hr z (or_introl eq_refl))). lia.
  Qed.

  Lemma LRg_later : forall (g : Prop) w c' qs x y T T', LRg g w c' qs x y T -> T <= T' -> LRg g w c' qs x y T'.
  Proof. intros g w c' qs x y T T' (log & A & B & C & D & E) H. exists log. repeat split; try tauto. lia. Qed.

  Lemma LRg_once : forall (g : Prop) w c' qs x y T, LRg g w c' qs x y T -> g -> w <> NegSize ->
    exists rest, Permutation (queued (dSess x) ++ rest) (dWrote y).
  Proof.
    intros g w c' qs x y T (log & _ & Inc & _ & _ & Wr & W) Hw Ew. destruct (iWin (dSess x)) as [st|]; [|contradiction]. destruct W as (acc & own & _ & C & _ & _ & Ia & Q).
    destruct (C Hw) as [_ ND]. assert (NL := increasing_nodup _ _ Inc).
    destruct (nodup_part (rev own) (map fst log)) as [r Hr]; auto.
    - apply NoDup_rev. exact ND.
    - intros z Hz. apply Ia, in_rev, Hz.
    - exists (flat_map (payloadOf log) r). rewrite Q, <- flat_map_app, <- Wr, <- (payload_all log NL). apply flat_map_perm. exact Hr.
  Qed.

  (** ** Steps of the pair *)

  Lemma clear_incl : forall aux net net', clear aux K ia ib net' -> incl net net' -> clear aux K ia ib net.
  Proof.
    intros aux net net' [A B] H. split; [rewrite Forall_forall in *; auto|]. intros pid body c1 c2 L Hi. apply (B pid body c1 c2 L). apply H, Hi.
  Qed.

  (** Side [x] moves. *)
  Definition moves (c : iconf) (x y : side) (m : slabel + bytes) (x' : side) : Prop :=
    match m with
    | inl l => sideStep verify dh blake3 sha3 stream poly1305 sign c x (dNet y) l = Some x'
    | inr raw => arrive verify dh blake3 sha3 stream poly1305 c x raw = Some x'
    end.
  Definition mayMove (c : iconf) (ps : list bytes) (x y : side) (m : slabel + bytes) : Prop :=
    match m with inl l => drawsFrom pubOf ps l | inr raw => notForged blake3 sha3 stream poly1305 c x y raw end.

  Definition bothg (g g' : Prop) (c c' : iconf) (ps qs : list bytes) (w w' : sizeOption) (x y : side) (T : N) : Prop :=
    (SR c c' ps qs x y /\ SR c' c qs ps y x) /\ (T < 2^64 -> LRg g w c' qs x y T /\ LRg g' w' c ps y x T).

  Lemma one_moveg : forall (g g' : Prop) c c' ps qs w w' x y m x' T, fitting c c' ps qs -> separate verify sign (cIdentity (icKx c)) (cIdentity (icKx c')) ->
    clear (auxKey blake3 sha3 c) K ia ib (dNet x) -> clear (auxKey blake3 sha3 c) K ia ib (dNet y) ->
    bothg g g' c c' ps qs w w' x y T -> mayMove c ps x y m -> (g -> (words w <= 1)%nat \/ steady x x') -> moves c x y m x' -> bothg g g' c c' ps qs w w' x' y (T + 1).
  Proof.
    intros g g' c c' ps qs w w' x y m x' T HF Sep UX UY [[SX SY] L] HM HG E.
    assert (PB := peerR _ _ _ _ _ _ (proj1 SX)).
    assert (Arr : forall raw, (In raw (dNet y) \/ In raw (dNet x) \/ exists e, dec c x raw = Ret (Err e)) ->
      arrive verify dh blake3 sha3 stream poly1305 c x raw = Some x' -> bothg g g' c c' ps qs w w' x' y (T + 1)).
    { intros raw Or E'. destruct (arriveR c c' ps qs x y raw x' HF Sep UX UY SX SY Or E') as (S1 & S2 & M1 & M2 & Ef).
      split; [auto|]. intros HT. destruct L as [L1 L2]; [lia|]. destruct Ef as [He|Qu].
      - split; [apply (LRg_later _ _ _ _ _ _ T); [|lia]; eapply LRg_heard; eauto; lia|].
        destruct He as (E1 & E2 & E3 & _). apply (LRg_still _ _ _ _ _ x); auto.
      - split; [apply (LRg_later _ _ _ _ _ _ T); [|lia]; eapply LRg_quiet; eauto|].
        destruct Qu as (E1 & E2 & E3 & _ & _ & E4). apply (LRg_still _ _ _ _ _ x); auto. }
    destruct m as [l|raw]; cbn [moves mayMove] in *.
    - assert (D : (exists n, l = SRecv n) \/ forall n, l <> SRecv n) by (destruct l; try (right; discriminate); left; eauto).
      destruct D as [[n ->]|D].
      + cbn [sideStep] in E. destruct (nth_error (dNet y) n) as [raw|] eqn:En; [|discriminate].
        apply (Arr raw); [left; eapply nth_error_In; eauto|]. exact E.
      + destruct (own_okR c c' ps qs x y (dNet y) l x' HF SX HM D E) as (S1 & M1 & M2 & G). split.
        * split; [exact S1|]. apply (SR_other _ _ _ _ _ x); auto. destruct G as (_ & _ & [(_ & G & _)|(raw & o & _ & G & _)]); rewrite G; [apply incl_refl|apply incl_appl, incl_refl].
        * intros HT. destruct L as [L1 L2]; [lia|]. split; [|eapply LRg_grew; eauto].
          apply (LRg_later _ _ _ _ _ _ T); [|lia]. destruct G as (G1 & G2 & _). eapply LRg_same; eauto.
    - apply (Arr raw); [|exact E]. destruct HM as [Hb NF].
      destruct (opened blake3 sha3 stream poly1305 c (dSess x) raw (id_prim _ _ _ _ _ _ _ id) PB Hb) as [O|De]; [|auto].
      destruct (NF O); auto.
  Qed.

  (** Windows of 1 to 64. *)
  Definition LR (o : sizeOption) := LRg (words o <= 1)%nat o.
  Definition both (c c' : iconf) (ps qs : list bytes) (w w' : sizeOption) := bothg (words w <= 1)%nat (words w' <= 1)%nat c c' ps qs w w'.

  Lemma one_move : forall c c' ps qs w w' x y m x' T, fitting c c' ps qs -> separate verify sign (cIdentity (icKx c)) (cIdentity (icKx c')) ->
    clear (auxKey blake3 sha3 c) K ia ib (dNet x) -> clear (auxKey blake3 sha3 c) K ia ib (dNet y) ->
    both c c' ps qs w w' x y T -> mayMove c ps x y m -> moves c x y m x' -> both c c' ps qs w w' x' y (T + 1).
  Proof. intros c c' ps qs w w' x y m x' T H1 H2 H3 H4 H5 H6 H7. apply (one_moveg _ _ c c' ps qs w w' x y m x' T); auto. Qed.

  (** ** Without packets of the attacker, nothing newer than the sender's latest has arrived *)

  Definition winLe (x y : side) : Prop := forall w, iWin (dSess x) = Some w -> latest w <= iNext (dSess y).

  Lemma push_latest : forall st i st' b, push st i = Ret (st', b) -> latest st' <= N.max (latest st) i.
  Proof.
    intros st i st' b E. unfold push in E.
    destruct (latest st <? i); [destruct (table st); [|destruct (setAtOffset _ _); [|discriminate]]; injection E as <- _; cbn [latest]; lia|].
    destruct (i =? latest st); [injection E as <- _; lia|]. destruct (_ <=? _); [injection E as <- _; lia|].
    destruct (getAtOffset _ _) as [[|]|]; [injection E as <- _; lia| |discriminate].
    destruct (setAtOffset _ _); [|discriminate]. injection E as <- _. cbn [latest]. lia.
  Qed.

  Lemma winLe_step : forall c c' ps qs w w' x y l x' T, fitting c c' ps qs -> separate verify sign (cIdentity (icKx c)) (cIdentity (icKx c')) ->
    clear (auxKey blake3 sha3 c) K ia ib (dNet y) ->
    both c c' ps qs w w' x y T -> T + 1 < 2^64 -> drawsFrom pubOf ps l ->
    sideStep verify dh blake3 sha3 stream poly1305 sign c x (dNet y) l = Some x' ->
    winLe x y -> winLe y x -> winLe x' y /\ winLe y x'.
  Proof.
    intros c c' ps qs w w' x y l x' T HF Sep UY [[SX SY] L] HT HM E W1 W2.
    destruct L as [(log & F & _ & Le & LeT & _) (log' & _ & _ & _ & LeT' & _)]; [lia|].
    assert (Nx : add64 (iNext (dSess x)) 1 = iNext (dSess x) + 1) by (unfold add64; apply N.mod_small; lia).
    assert (Grow : (iNext (dSess x') = iNext (dSess x) \/ iNext (dSess x') = add64 (iNext (dSess x)) 1) -> winLe y x').
    { intros G z Hz. specialize (W2 z Hz). rewrite Nx in G. lia. }
    assert (D : (exists n, l = SRecv n) \/ forall n, l <> SRecv n) by (destruct l; try (right; discriminate); left; eauto).
    destruct D as [[n ->]|D].
    - cbn [sideStep] in E. destruct (nth_error (dNet y) n) as [raw|] eqn:En; [|discriminate]. assert (Hin := nth_error_In _ _ En).
      destruct (istep _ _ _ _ _ _ _ _ _) as [s'|] eqn:Es; [|discriminate]. injection E as <-. cbn [dSess] in *.
      destruct (forall2_nth _ _ _ _ _ _ _ F En) as ([v o] & El & Pk). cbn [fst snd] in Pk.
      assert (V : v <= iNext (dSess y)) by (rewrite Forall_forall in Le; apply (Le (v, o)), (nth_error_In _ _ El)).
      destruct (recvR c c' ps qs x y raw v o s' HF UY Hin SX SY Pk Es) as [Er|(_ & _ & _ & G & w1 & b & Ck & Ew & _)].
      + assert (Hc : honestConf c) by apply HF. assert (Hc' : honestConf c') by apply HF.
        destruct (nobodyR c c' ps qs x y raw s' Hc Hc' Sep SX (or_introl Er) Es) as (_ & _ & _ & _ & G & Ew).
        split; [|apply Grow, G]. intros z Hz. apply W1. rewrite <- (Ew Er). exact Hz.
      + split; [|apply Grow, G]. intros z Hz. cbn [dSess] in Hz. rewrite Ew in Hz. clear Ew. subst w1.
        assert (Vv : packetIDValue (packetIDBytes v) = v) by (unfold packetIDValue, packetIDBytes; apply le_dec_enc; change (2 ^ (8 * N.of_nat 8)) with (2^64); lia).
        rewrite Vv in Ck. destruct (iWin (dSess x)) as [st|] eqn:Eo; cbn [checkAndRemember] in Ck; [|congruence].
        destruct (push st v) as [[st1 b1]|] eqn:Ep; [|discriminate]. injection Ck as <- _. assert (Z := push_latest _ _ _ _ Ep). specialize (W1 st Eo). lia.
    - destruct (own_okR c c' ps qs x y (dNet y) l x' HF SX HM D E) as (_ & _ & _ & G1 & _ & G).
      split; [intros z Hz; rewrite G1 in Hz; apply W1, Hz|]. apply Grow. destruct G as [(_ & _ & G)|(r & o & _ & _ & G & _)]; auto.
  Qed.

  (** ** A message for which the other side has the key *)

  Lemma delivered : forall c c' ps qs x y pl x' y' k w,
    fitting c c' ps qs -> fitting c' c qs ps -> SR c c' ps qs x y -> SR c' c qs ps y x ->
    sideStep verify dh blake3 sha3 stream poly1305 sign c x (dNet y) (SWrite pl) = Some x' ->
    clear (auxKey blake3 sha3 c') K ia ib (dNet x') ->
    nth 0 (kKeys (xKx (iKx (dSess x)))) None = Some k -> In (Some k) (kKeys (xKx (iKx (dSess y)))) ->
    iNext (dSess x) + 1 < 2^64 -> checkAndRemember (iWin (dSess y)) (iNext (dSess x) + 1) = Ret (w, true) ->
    sideStep verify dh blake3 sha3 stream poly1305 sign c' y (dNet x') (SRecv (length (dNet x))) = Some y' ->
    queued (dSess y') = queued (dSess y) ++ [pl].
  Proof.
    intros c c' ps qs x y pl x' y' k w HF HF' SX SY E1 HU Hk Hin Hn Ck E2.
    destruct (own_okR c c' ps qs x y (dNet y) (SWrite pl) x' HF SX I ltac:(discriminate) E1) as (S1 & M1 & M2 & G).
    assert (S2 : SR c' c qs ps y x').
    { apply (SR_other _ _ _ _ _ x); auto. destruct G as (_ & _ & [(_ & G & _)|(r & o & _ & G & _)]); rewrite G; [apply incl_refl|apply incl_appl, incl_refl]. }
    cbn [sideStep] in E1.
    destruct (iPanic (dSess x) || negb (stateOf (dSess x) =? SessionStateEstablished) || (2^32 <=? len pl + 53)) eqn:EO; [discriminate|].
    apply orb_false_iff in EO. destruct EO as [EO EL]. apply orb_false_iff in EO. destruct EO as [EP _]. apply N.leb_gt in EL.
    assert (Kk : K k).
    { destruct (keysR _ _ _ _ _ _ (proj1 SX)) as [Z|(_ & (k0 & ks & Z) & A)]; [rewrite Z in Hk; discriminate|]. rewrite Z in Hk. injection Hk as ->.
      destruct HF as (_ & _ & _ & HK & _). apply HK, A. rewrite Z. left. reflexivity. }
    unfold handOver in E1. cbn [concat] in E1. rewrite app_nil_r in E1. unfold sendPacket in E1. set (P0 := peerOf blake3 sha3 c (dSess x)) in E1.
    assert (PO : peer_ok P0) by (eapply peerR; exact (proj1 SX)).
    destruct (takePacketID P0) as [P pid] eqn:ET. unfold takePacketID in ET. injection ET as EPp Epid.
    assert (PO1 : peer_ok P) by (subst P; exact PO).
    assert (KP : nth 0 (pKeys P) None = Some k) by (subst P; exact Hk).
    assert (Ev : add64 (iNext (dSess x)) 1 = iNext (dSess x) + 1) by (unfold add64; apply N.mod_small; exact Hn).
    assert (Epid' : pid = packetIDBytes (iNext (dSess x) + 1)) by (rewrite <- Ev; symmetry; exact Epid).
    destruct (seal P true pid (encodeMsg MessageTypeReadWrite (setIsConfidential 0 true) pl)) as [[raw|e]|] eqn:Es; [|discriminate|].
    2: { injection E1 as <-. exfalso. destruct S1 as (_ & (Z & _) & _). discriminate Z. }
    injection E1 as E1.
    assert (Nx : dNet x' = dNet x ++ [raw]) by (subst x'; reflexivity).
    assert (Wx : dWrote x' = dWrote x ++ [pl]) by (subst x'; reflexivity).
    assert (PK : packetR c ps x' raw (iNext (dSess x) + 1) (Some pl)).
    { exists P. split; [exact PO1|]. split; [subst P; reflexivity|]. split; [subst P; reflexivity|]. rewrite Wx.
      split; [apply in_or_app; right; left; reflexivity|]. split; [exact EL|]. exists k. split; [exact Kk|]. split; [exact KP|]. rewrite <- Epid'. exact Es. }
    cbn [sideStep] in E2. rewrite Nx, nth_error_app2, Nat.sub_diag in E2 by lia. cbn [nth_error] in E2.
    destruct (istep verify dh blake3 sha3 stream poly1305 c' (dSess y) (IPacket raw)) as [s'|] eqn:Ei; [|discriminate]. injection E2 as <-. cbn [dSess].
    assert (Hr : In raw (dNet x')) by (rewrite Nx; apply in_or_app; right; left; reflexivity).
    destruct (recvR c' c qs ps y x' raw _ _ s' HF' HU Hr S2 S1 PK Ei) as [[e Er]|(_ & _ & _ & _ & w1 & b & Ck1 & _ & Q)].
    - exfalso. destruct (open_dataK c' c qs ps _ y c raw (iNext (dSess x) + 1) pl _ P k HF' (proj1 S2) HU Hr (or_intror eq_refl) PO1) as [[_ Z]|(_ & _ & Z)]; auto.
      + subst P; reflexivity.
      + subst P; reflexivity.
      + rewrite <- Epid'. exact Es.
      + exact (Z eq_refl Hin).
      + rewrite Z in Er. discriminate.
    - assert (Vv : packetIDValue (packetIDBytes (iNext (dSess x) + 1)) = iNext (dSess x) + 1) by (unfold packetIDValue, packetIDBytes; apply le_dec_enc; exact Hn).
      rewrite Vv, Ck in Ck1. injection Ck1 as _ <-. exact Q.
  Qed.
End Duo.

(** ** Runs *)

Section Runs.
  Variable verify : bytes -> bytes -> bytes -> bool.
  Variable dh : bytes -> bytes -> bytes.
  Variable blake3 sha3 : bytes -> bytes.
  Variable stream : bytes -> bytes -> nat -> N.
  Variable poly1305 : bytes -> bytes -> bytes.
  Variable sign : bytes -> bytes -> bytes.
  Variable pubOf : bytes -> bytes.
  Hypothesis id : ideal verify dh sha3 stream poly1305 sign pubOf.
  Variables ca cb : iconf.
  Variables pas pbs : list bytes.
  Hypothesis Ha : honestConf ca.
  Hypothesis Hb : honestConf cb.
  Hypothesis psk : cPSK (icKx ca) = cPSK (icKx cb).
  Hypothesis sepA : separate verify sign (cIdentity (icKx ca)) (cIdentity (icKx cb)).
  Hypothesis sepB : separate verify sign (cIdentity (icKx cb)) (cIdentity (icKx ca)).
  Hypothesis ids : sessBytes (cSession (icKx ca)) <> sessBytes (cSession (icKx cb)).

  Notation aux := (auxKey blake3 sha3 ca).
  Notation K := (keyOfBoth dh blake3 sha3 pubOf (cPSK (icKx ca)) pas pbs).
  Notation ia := (sessBytes (cSession (icKx ca))).
  Notation ib := (sessBytes (cSession (icKx cb))).
  Notation clear := (unambiguous blake3 stream poly1305 aux K ia ib).

  Lemma mk_shared : forall s p q, sharedKey dh blake3 sha3 s p q (mk dh blake3 sha3 s p q).
  Proof.
    intros s p q. destruct id as [_ L S Z _ _ _ _ _]. destruct (mk_eq dh blake3 sha3 L S Z s p q) as [E _].
    destruct (gsk_made dh blake3 sha3 L S _ _ _ _ E) as (p' & x' & Ep & Ex & M). injection Ep as <-. injection Ex as <-.
    unfold sharedKey. unfold maskOf, hash in M. destruct s as [t|]; cbn [option_map madeOf concat] in *; rewrite ?app_nil_r in *; exact M.
  Qed.

  Lemma fitA : fitting dh blake3 sha3 pubOf K ia ib ca cb pas pbs.
  Proof.
    split; [exact Ha|]. split; [exact Hb|]. split; [exact psk|]. split; [|left; auto].
    intros k (p & q & Hp & Hq & ->). exists p, q. split; [exact Hp|]. split; [exact Hq|]. apply mk_shared.
  Qed.

  Lemma fitB : fitting dh blake3 sha3 pubOf K ia ib cb ca pbs pas.
  Proof.
    split; [exact Hb|]. split; [exact Ha|]. split; [symmetry; exact psk|]. split; [|right; auto].
    intros k (p & q & Hp & Hq & ->). exists q, p. split; [exact Hq|]. split; [exact Hp|].
    rewrite (mkey_sym dh blake3 sha3 pubOf (id_dh_comm _ _ _ _ _ _ _ id)), <- psk. apply mk_shared.
  Qed.

  Lemma rekeyed_invg : forall (ga gb : Prop) wa wb md mf ls d,
    rekeyedRun verify dh blake3 sha3 stream poly1305 sign pubOf ca cb pas pbs (duoInit ca cb wa wb md mf) ls d ->
    (forall ls1 l ls2 d1 d2, ls = ls1 ++ l :: ls2 ->
      rekeyedRun verify dh blake3 sha3 stream poly1305 sign pubOf ca cb pas pbs (duoInit ca cb wa wb md mf) ls1 d1 ->
      astep verify dh blake3 sha3 stream poly1305 sign ca cb d1 l = Some d2 ->
      (ga -> (words wa <= 1)%nat \/ steady (dA d1) (dA d2)) /\ (gb -> (words wb <= 1)%nat \/ steady (dB d1) (dB d2))) ->
    clear (dNet (dA d)) -> clear (dNet (dB d)) ->
    bothg dh blake3 sha3 stream poly1305 sign pubOf K ga gb ca cb pas pbs wa wb (dA d) (dB d) (N.of_nat (length ls)).
  Proof.
    intros ga gb wa wb md mf ls d R. induction R as [|ls d l d' R IH HO E]; intros HS UA UB.
    - split; [split; apply SR_init|]. intros _. split; apply (LRg_init blake3 sha3 stream poly1305 sign pubOf K ia ib); reflexivity.
    - rewrite app_length, Nnat.Nat2N.inj_add. cbn [length]. change (N.of_nat 1) with 1. set (T := N.of_nat (length ls)) in *.
      assert (Inc : incl (dNet (dA d)) (dNet (dA d')) /\ incl (dNet (dB d)) (dNet (dB d'))).
      { destruct l as [[l|l]|raw|raw]; cbn [astep] in E.
        - unfold dstep in E. destruct (sideStep _ _ _ _ _ _ _ ca (dA d) (dNet (dB d)) l) as [x|] eqn:Ex; [|discriminate]. injection E as <-.
          split; [eapply side_net; eauto|apply incl_refl].
        - unfold dstep in E. destruct (sideStep _ _ _ _ _ _ _ cb (dB d) (dNet (dA d)) l) as [x|] eqn:Ex; [|discriminate]. injection E as <-.
          split; [apply incl_refl|eapply side_net; eauto].
        - unfold arrive in E. destruct (istep _ _ _ _ _ _ _ _ _); [|discriminate]. injection E as <-. split; apply incl_refl.
        - unfold arrive in E. destruct (istep _ _ _ _ _ _ _ _ _); [|discriminate]. injection E as <-. split; apply incl_refl. }
      destruct Inc as [NA NB].
      assert (UA' := clear_incl blake3 stream poly1305 _ _ _ _ _ _ UA NA). assert (UB' := clear_incl blake3 stream poly1305 _ _ _ _ _ _ UB NB).
      assert (St : (ga -> (words wa <= 1)%nat \/ steady (dA d) (dA d')) /\ (gb -> (words wb <= 1)%nat \/ steady (dB d) (dB d'))) by (apply (HS ls l [] d d' eq_refl R E)).
      destruct St as [GA GB].
      assert (HS' : forall ls1 l0 ls2 d1 d2, ls = ls1 ++ l0 :: ls2 ->
        rekeyedRun verify dh blake3 sha3 stream poly1305 sign pubOf ca cb pas pbs (duoInit ca cb wa wb md mf) ls1 d1 ->
        astep verify dh blake3 sha3 stream poly1305 sign ca cb d1 l0 = Some d2 ->
        (ga -> (words wa <= 1)%nat \/ steady (dA d1) (dA d2)) /\ (gb -> (words wb <= 1)%nat \/ steady (dB d1) (dB d2))).
      { intros ls1 l0 ls2 d1 d2 El. apply (HS ls1 l0 (ls2 ++ [l]) d1 d2). rewrite El, <- app_assoc. reflexivity. }
      specialize (IH HS' UA' UB').
      assert (Sw : bothg dh blake3 sha3 stream poly1305 sign pubOf K gb ga cb ca pbs pas wb wa (dB d) (dA d) T) by (destruct IH as [[? ?] L]; split; [auto|]; intros HT; destruct (L HT); auto).
      assert (Back : forall x y, bothg dh blake3 sha3 stream poly1305 sign pubOf K gb ga cb ca pbs pas wb wa x y (T + 1) ->
                bothg dh blake3 sha3 stream poly1305 sign pubOf K ga gb ca cb pas pbs wa wb y x (T + 1)) by (intros x y [[? ?] L]; split; [auto|]; intros HT; destruct (L HT); auto).
      assert (Ax : auxKey blake3 sha3 cb = aux) by (apply aux_same; symmetry; exact psk).
      assert (StA : forall m x, (ga -> (words wa <= 1)%nat \/ steady (dA d) x) -> mayMove blake3 sha3 stream poly1305 pubOf ca pas (dA d) (dB d) m -> moves verify dh blake3 sha3 stream poly1305 sign ca (dA d) (dB d) m x ->
                bothg dh blake3 sha3 stream poly1305 sign pubOf K ga gb ca cb pas pbs wa wb x (dB d) (T + 1)).
      { intros m x H0 H1 H2. exact (one_moveg verify dh blake3 sha3 stream poly1305 sign pubOf id K ia ib ids eq_refl eq_refl _ _ _ _ _ _ _ _ _ _ m x T fitA sepA UA' UB' IH H1 H0 H2). }
      assert (StB : forall m x, (gb -> (words wb <= 1)%nat \/ steady (dB d) x) -> mayMove blake3 sha3 stream poly1305 pubOf cb pbs (dB d) (dA d) m -> moves verify dh blake3 sha3 stream poly1305 sign cb (dB d) (dA d) m x ->
                bothg dh blake3 sha3 stream poly1305 sign pubOf K ga gb ca cb pas pbs wa wb (dA d) x (T + 1)).
      { intros m x H0 H1 H2. apply Back. rewrite <- Ax in UA', UB'.
        exact (one_moveg verify dh blake3 sha3 stream poly1305 sign pubOf id K ia ib ids eq_refl eq_refl _ _ _ _ _ _ _ _ _ _ m x T fitB sepB UB' UA' Sw H1 H0 H2). }
      destruct l as [[l|l]|raw|raw]; cbn [astep] in E.
      + unfold dstep in E. destruct (sideStep _ _ _ _ _ _ _ ca (dA d) (dNet (dB d)) l) as [x|] eqn:Ex; [|discriminate]. injection E as <-. exact (StA (inl l) x GA HO Ex).
      + unfold dstep in E. destruct (sideStep _ _ _ _ _ _ _ cb (dB d) (dNet (dA d)) l) as [x|] eqn:Ex; [|discriminate]. injection E as <-. exact (StB (inl l) x GB HO Ex).
      + destruct (arrive _ _ _ _ _ _ ca (dA d) raw) as [x|] eqn:Ex; [|discriminate]. injection E as <-. exact (StA (inr raw) x GA HO Ex).
      + destruct (arrive _ _ _ _ _ _ cb (dB d) raw) as [x|] eqn:Ex; [|discriminate]. injection E as <-. exact (StB (inr raw) x GB HO Ex).
  Qed.

  Lemma rekeyed_inv : forall wa wb md mf ls d,
    rekeyedRun verify dh blake3 sha3 stream poly1305 sign pubOf ca cb pas pbs (duoInit ca cb wa wb md mf) ls d ->
    clear (dNet (dA d)) -> clear (dNet (dB d)) ->
    both dh blake3 sha3 stream poly1305 sign pubOf K ca cb pas pbs wa wb (dA d) (dB d) (N.of_nat (length ls)).
  Proof. intros wa wb md mf ls d R UA UB. apply (rekeyed_invg _ _ wa wb md mf ls d R); auto. Qed.

  Lemma win_inv : forall wa wb md mf ls d,
    rekeyedRun verify dh blake3 sha3 stream poly1305 sign pubOf ca cb pas pbs (duoInit ca cb wa wb md mf) ls d ->
    Forall (fun l => match l with AStep _ => True | _ => False end) ls ->
    clear (dNet (dA d)) -> clear (dNet (dB d)) -> N.of_nat (length ls) < 2^64 ->
    winLe (dA d) (dB d) /\ winLe (dB d) (dA d).
  Proof.
    intros wa wb md mf ls d R. induction R as [|ls d l d' R IH HO E]; intros HS UA UB HT.
    - cbn [duoInit dA dB sideInit isessInit dSess iWin]. split; intros z Hz; cbn [sideInit dSess isessInit iWin iNext] in *;
        [destruct wa as [|n]|destruct wb as [|n]]; try discriminate; cbn [sessionStorage] in Hz; injection Hz as <-; cbn; lia.
    - rewrite app_length, Nnat.Nat2N.inj_add in HT. cbn [length] in HT. change (N.of_nat 1) with 1 in HT.
      apply Forall_app in HS. destruct HS as [HS Hl]. apply Forall_inv in Hl.
      destruct l as [[l|l]|raw|raw]; [| |contradiction|contradiction]; cbn [astep] in E; unfold dstep in E.
      + destruct (sideStep _ _ _ _ _ _ _ ca (dA d) (dNet (dB d)) l) as [x|] eqn:Ex; [|discriminate]. injection E as <-. cbn [dA dB] in *.
        assert (UA' := clear_incl blake3 stream poly1305 _ _ _ _ _ _ UA (side_net _ _ _ _ _ _ _ _ _ _ _ _ Ex)).
        destruct (IH HS UA' UB) as [W1 W2]; [lia|].
        assert (B := rekeyed_inv wa wb md mf ls d R UA' UB).
        exact (winLe_step verify dh blake3 sha3 stream poly1305 sign pubOf id K ia ib ids eq_refl eq_refl _ _ _ _ _ _ _ _ l x _ fitA sepA UB B HT HO Ex W1 W2).
      + destruct (sideStep _ _ _ _ _ _ _ cb (dB d) (dNet (dA d)) l) as [x|] eqn:Ex; [|discriminate]. injection E as <-. cbn [dA dB] in *.
        assert (UB' := clear_incl blake3 stream poly1305 _ _ _ _ _ _ UB (side_net _ _ _ _ _ _ _ _ _ _ _ _ Ex)).
        destruct (IH HS UA UB') as [W1 W2]; [lia|].
        assert (B := rekeyed_inv wa wb md mf ls d R UA UB').
        assert (Sw : both dh blake3 sha3 stream poly1305 sign pubOf K cb ca pbs pas wb wa (dB d) (dA d) (N.of_nat (length ls)))
          by (destruct B as [[? ?] L]; split; [auto|]; intros HT'; destruct (L HT'); auto).
        assert (Ax : auxKey blake3 sha3 cb = aux) by (apply aux_same; symmetry; exact psk). rewrite <- Ax in UA.
        apply and_comm.
        exact (winLe_step verify dh blake3 sha3 stream poly1305 sign pubOf id K ia ib ids eq_refl eq_refl _ _ _ _ _ _ _ _ l x _ fitB sepB UA Sw HT HO Ex W2 W1).
  Qed.
End Runs.
