(** C155: one side can always be brought to a common key: lemmas. *)
From Coq Require Import NArith Arith List Bool Lia Permutation.
From Verif Require Import Base BaseLemmas TS MessageModel CodecProofs PacketIDModel PacketIDSpec PacketIDProofs PacketIDRun ReaderModel ReaderLoopModel ReaderSpec ReaderProofs
  PacketModel PacketSpec PacketProofs PacketProps StateModel KxModel KxSpec KxProofs KxPairModel IntegModel IntegSpec IntegProofs IntegSafe IntegProps
  DuoModel DuoSpec DuoProofs DuoProps DuoOnceProps DuoAttackModel DuoAttackSpec DuoAttackProofs IntegAuth DuoRekeySpec DuoRekeyProofs DuoReach DuoReachHalf DuoRenew.
Import ListNotations.
Local Open Scope N_scope.

Section Clock.
  Variable verify : bytes -> bytes -> bytes -> bool.
  Variable dh : bytes -> bytes -> bytes.
  Variable blake3 sha3 : bytes -> bytes.

  Lemma install_at : forall c k p t now k', installLocalKey dh blake3 sha3 c k p t now = Ret k' ->
    kNextAt k' = (if u64 now <=? kLocalAt k then u64 (kLocalAt k + 1) else u64 now) /\ kLocalAt k' = kLocalAt k.
  Proof.
    intros c k p t now k' E. unfold installLocalKey in E. destruct (update_form dh blake3 sha3 _ _ _ E) as [-> | [ks ->]]; split; reflexivity.
  Qed.

  Lemma handle_at : forall c k b k', cMode c = AnswersModeAnswerAndWait -> handleKx verify dh blake3 sha3 c k b = Ret (k', HDone true) -> kLocalAt k' = kLocalAt k.
  Proof.
    intros c k b k' Hm E.
    destruct (handle_cases verify dh blake3 sha3 c k b _ eq_refl) as [(e & R)|[R|[(m & e & _ & R & _)|(m & Ac & R)]]]; rewrite R in E; clear R; try discriminate.
    unfold accept in E. cbv zeta in E. set (k1 := setNextRemotePublicKey _ _) in E.
    assert (K1 : kLocalAt k1 = kLocalAt k).
    { unfold k1, setNextRemotePublicKey. destruct (match kNextRemote _ with Some y => _ | None => _ end); reflexivity. }
    destruct (updateSecrets _ _ _ _ _) as [k2|] eqn:U; [|discriminate].
    assert (K2 : kLocalAt k2 = kLocalAt k) by (destruct (update_form dh blake3 sha3 _ _ _ U) as [-> | [ks ->]]; exact K1).
    rewrite Hm in E. change (AnswersModeAnswerAndWait =? AnswersModeAnswerAndWait) with true in E. cbn [negb] in E. rewrite orb_false_r in E.
    destruct (kxIsAnswer (kFlags m)); cbn [negb andb] in E; [discriminate|]. injection E as <-. exact K2.
  Qed.
End Clock.

Section Half.
  Variable verify : bytes -> bytes -> bytes -> bool.
  Variable dh : bytes -> bytes -> bytes.
  Variable blake3 sha3 : bytes -> bytes.
  Variable stream : bytes -> bytes -> nat -> N.
  Variable poly1305 : bytes -> bytes -> bytes.
  Variable sign : bytes -> bytes -> bytes.
  Variable pubOf : bytes -> bytes.
  Hypothesis id : ideal verify dh sha3 stream poly1305 sign pubOf.
  Variable K : bytes -> Prop.
  Variables ia ib : bytes.
  Hypothesis ids_differ : ia <> ib.
  Hypothesis len_a : length ia = 16%nat.
  Hypothesis len_b : length ib = 16%nat.
  Variable aux : option bytes.
  Notation clear := (unambiguous blake3 stream poly1305 aux K ia ib).
  Hypothesis clear_dec : forall net, clear net \/ ~ clear net.

  Notation sr := (SR dh blake3 sha3 stream poly1305 sign pubOf K).
  Notation fit := (fitting dh blake3 sha3 pubOf K ia ib).
  Notation sstep := (sideStep verify dh blake3 sha3 stream poly1305 sign).
  Notation kst := (kstep verify dh blake3 sha3).
  Notation pkt := (kxPacket blake3 sha3 stream poly1305 sign pubOf).
  Notation ok := (pairOk verify dh blake3 sha3 sign pubOf K ia ib aux).
  Notation Good := (good dh blake3 sha3 stream poly1305 sign pubOf K ia ib aux).
  Notation Reach := (reach verify dh blake3 sha3 stream poly1305 sign pubOf K ia ib aux).
  Notation Sent := (sent blake3 sha3 stream poly1305 sign pubOf).
  Notation step_ := (reach_step verify dh blake3 sha3 stream poly1305 sign pubOf id K ia ib ids_differ len_a len_b aux clear_dec).
  Notation less_ := (good_less dh blake3 sha3 stream poly1305 sign pubOf K ia ib aux).

  (** Arrival of a key-exchange message. *)
  Lemma recv_kxR : forall c c' ps qs x y raw v p fl w, ok c c' ps qs -> sr c c' ps qs x y -> clear (dNet y) -> In raw (dNet y) ->
    pkt c' p raw v fl -> In p qs -> hasLocal (xOf y) -> (fl = true -> hasLocal (xOf x)) -> free x ->
    checkAndRemember (iWin (dSess x)) (packetIDValue (packetIDBytes v)) = Ret (w, true) ->
    exists s2 k, istep verify dh blake3 sha3 stream poly1305 c (dSess x) (IPacket raw) = Some s2 /\
      iKx s2 = (if negb fl then addAnswer (setX (xOf x) k) else setX (xOf x) k) /\ iOver s2 = false /\
      kNextLocal k = kNextLocal (xKx (xOf x)) /\ kNextRemote k = Some (pubOf p) /\
      stateOf s2 = (if fl then SessionStateEstablished else stateOf (dSess x)) /\
      (fl = false -> kLocalAt k = kLocalAt (xKx (xOf x))).
  Proof.
    intros c c' ps qs x y raw v p fl w O SX CY Hin (P & PO & PA & Es) Hp HL Hfl (EO & ED & EL) Ck.
    destruct O as [F F' _ _ A A']. assert (Hc : honestConf c) by apply F. assert (Hc' : honestConf c') by apply F.
    assert (CY' := CY). rewrite <- A in CY'. assert (Ax : auxKey blake3 sha3 c' = auxKey blake3 sha3 c) by congruence.
    assert (De := open_kxP verify dh blake3 sha3 stream poly1305 sign pubOf id K ia ib len_a len_b c c' ps qs _ x c' raw v (dNet y) P p fl F (proj1 SX) CY' Hin Hc' Ax PO PA Es).
    assert (Hm : cMode (icKx c) = AnswersModeAnswerAndWait) by apply Hc.
    destruct id as [I1 I2 I3 I4 I5 I6 I7 I8 I9].
    destruct (kxMsgOf_ok sign pubOf I6 I8 c' p fl Hc') as [Mk _].
    destruct SX as (KIx & (A1 & A3) & U & B1 & B2 & _).
    unfold istep. rewrite A1. unfold xOf in EL. rewrite EO, ED, EL. cbn [orb].
    assert (Cx : kCtxDone (xKx (iKx (dSess x))) = false) by (destruct (kCtxDone (xKx (iKx (dSess x)))); [rewrite B1 in ED; [discriminate|reflexivity]|reflexivity]).
    destruct (received_at blake3 sha3 stream poly1305 c (dSess x) raw v _ Mk A3 De) as (P1 & w' & b & Hw & Ew & Nx & Rc).
    rewrite Ck in Ew. injection Ew as <- <-.
    set (s1 := upFails (upPkt (dSess x) (pNext P1) w) 0 (iUnexpected (dSess x))).
    destruct (kx_handleR verify dh blake3 sha3 sign pubOf I2 I3 I4 I6 I7 I8 I9
                (icKx c) (icKx c') ps qs (hasLocal (xOf y)) (iKx s1) p fl KIx Hp HL) as (k & Ek & KIk & K1 & K2 & K3 & K4 & K5);
      [apply Hc'|apply Hc'|exact Hm|apply Hc'|exact Cx|exact Hfl|].
    assert (Hh := handle_kx verify dh blake3 sha3 c s1 _ k (negb fl) U Ek K3).
    set (s2 := if (kDone (xKx (iKx s1)) =? 0) && (0 <? kDone k) then _ else _) in Hh.
    rewrite (receive_one verify dh blake3 sha3 stream poly1305 c (dSess x) raw P1 w (kxMsgOf sign pubOf c' p fl) s2 _ Mk eq_refl Rc Hh).
    exists s2, k. split; [reflexivity|]. change (xKx (iKx s1)) with (xKx (iKx (dSess x))) in *. unfold xOf.
    split; [unfold s2; destruct (_ && (0 <? kDone k)); reflexivity|].
    split; [unfold s2; destruct (_ && (0 <? kDone k)); exact EO|].
    split; [exact K2|]. split; [exact K1|].
    split; [|intros ->; exact (handle_at verify dh blake3 sha3 (icKx c) _ _ k Hm Ek)].
    assert (St : stateOf s2 = if (kDone (xKx (iKx (dSess x))) =? 0) && (0 <? kDone k) then
                    fst (setState (fst (setState (stateOf (dSess x)) SessionStateNegotiating
                      [SessionStateClosed; SessionStateClosing; SessionStateNew; SessionStateEstablished; SessionStateNegotiating]))
                      SessionStateEstablished [SessionStateClosed; SessionStateClosing; SessionStateNew; SessionStateEstablished])
                  else stateOf (dSess x))
      by (unfold s2; destruct (_ && (0 <? kDone k)); reflexivity).
    rewrite St, K5. destruct B2 as [(S0 & D0)|[(S0 & D0)|[Z|Z]]]; [|(*
    *)|rewrite Z in ED; discriminate|rewrite Z in ED; discriminate].
    - rewrite D0, S0. destruct fl; reflexivity.
    - rewrite S0. replace (kDone (xKx (iKx (dSess x))) =? 0) with false by (symmetry; apply N.eqb_neq; lia). destruct fl; reflexivity.
  Qed.

  Definition clockOk (x : side) : Prop := kLocalAt (xKx (xOf x)) + 1 < 2^64.

  (** *** The first side sends its newest key *)
  Definition asked (c : iconf) (ps : list bytes) (y x' y' : side) : Prop := y' = y /\ free x' /\ Sent c ps false x' y'.

  Lemma ask_now : forall c c' ps qs w w' x y x1 l, ok c c' ps qs -> Good c c' ps qs w w' 1%nat x y -> free x -> hasLocal (xOf x) ->
    drawsFrom pubOf ps (SKx l) -> isHandle l = false -> kst (icKx c) (xOf x) l = Some x1 -> DuoReach.quiet x x1 ->
    (forall p, kNextLocal (xKx (xOf x)) = Some p -> xSent x1 = msgOf pubOf (icKx c) p false :: xSent (xOf x)) ->
    kNextLocal (xKx x1) = kNextLocal (xKx (xOf x)) -> locked x1 = false -> Reach c c' ps qs 1%nat (asked c ps y) x y.
  Proof.
    intros c c' ps qs w w' x y x1 l O G (A1 & A2 & A3) HL M Hh E Q Es Kl Lk.
    destruct (good_sr dh blake3 sha3 stream poly1305 sign pubOf K ia ib aux _ _ _ _ _ _ _ _ _ G) as [SX _].
    destruct (kNextLocal (xKx (xOf x))) as [p|] eqn:Ep; [|exfalso; apply HL; exact Ep].
    destruct (local_pub dh blake3 sha3 stream poly1305 sign pubOf K _ _ _ _ _ _ SX p Ep) as [Hp Pb].
    destruct (send_side verify dh blake3 sha3 stream poly1305 sign pubOf id K ia ib len_a len_b c c' ps qs x y (dNet y) l x1 p false (po_fit _ _ _ _ _ _ _ _ _ _ _ _ _ _ O) SX M Hh E Q A2 (Es p eq_refl)) as (raw & Ex & Pk).
    eapply (step_ c c' ps qs w w' 0%nat); [exact O|exact G|exact M|exact Ex|]. intros _. apply reach_now.
    split; [reflexivity|]. split; [split; [exact A1|split; [exact A2|exact Lk]]|].
    eapply (just_sent blake3 sha3 stream poly1305 sign pubOf); [|exact Pk|exact Kl|exact Hp]. exact (good_newer dh blake3 sha3 stream poly1305 sign pubOf K ia ib aux _ _ _ _ _ _ _ _ _ G).
  Qed.

  Lemma sent_message : forall c x p fl, kNextLocalPub (xKx x) = Some (pubOf p) -> sendMsg c x fl = addSent x (msgOf pubOf c p fl).
  Proof. intros c x p fl H. unfold sendMsg, publicKeyMessage. rewrite H. reflexivity. Qed.

  Lemma ask_send : forall c c' ps qs w w' x y a, ok c c' ps qs -> Good c c' ps qs w w' 1%nat x y -> free x -> xLoop (xOf x) = LpSend a -> Reach c c' ps qs 1%nat (asked c ps y) x y.
  Proof.
    intros c c' ps qs w w' x y a O G R EL.
    destruct (good_sr dh blake3 sha3 stream poly1305 sign pubOf K ia ib aux _ _ _ _ _ _ _ _ _ G) as [SX _].
    assert (HL : hasLocal (xOf x)) by (destruct SX as ((_ & _ & _ & _ & _ & L & _) & _); unfold xOf in *; rewrite EL in L; exact L).
    assert (P : xPanic (xOf x) = false) by apply SX.
    destruct (kNextLocal (xKx (xOf x))) as [p|] eqn:Ep; [|exfalso; apply HL; exact Ep].
    destruct (local_pub dh blake3 sha3 stream poly1305 sign pubOf K _ _ _ _ _ _ SX p Ep) as [Hp Pb].
    eapply (ask_now c c' ps qs w w' x y _ KLoopSend); [exact O|exact G|exact R|exact HL|exact I|reflexivity|
      unfold kstep; rewrite P, EL, (sent_message _ _ _ _ Pb); reflexivity|repeat split; exact P| |reflexivity|reflexivity].
    intros p' Ep'. rewrite Ep in Ep'. injection Ep' as <-. reflexivity.
  Qed.

  (** A step of the first side which sends nothing. *)
  Lemma quiet_reach : forall c c' ps qs w w' n Q x y x1 l, ok c c' ps qs -> Good c c' ps qs w w' (S n) x y -> drawsFrom pubOf ps (SKx l) -> isHandle l = false ->
    kst (icKx c) (xOf x) l = Some x1 -> DuoReach.quiet x x1 -> xSent x1 = xSent (xOf x) ->
    (forall x', Good c c' ps qs w w' n x' y -> dSess x' = upKx (dSess x) x1 -> Reach c c' ps qs n Q x' y) -> Reach c c' ps qs (S n) Q x y.
  Proof.
    intros c c' ps qs w w' n Q x y x1 l O G M Hh E Qu Es H.
    destruct (good_sr dh blake3 sha3 stream poly1305 sign pubOf K ia ib aux _ _ _ _ _ _ _ _ _ G) as [SX _].
    assert (P0 : iPanic (dSess x) = false) by apply SX.
    eapply (step_ c c' ps qs w w' n); [exact O|exact G|exact M|exact (quiet_side verify dh blake3 sha3 stream poly1305 sign c x (dNet y) l x1 P0 Hh E Qu Es)|].
    intros G1. apply H; [exact G1|reflexivity].
  Qed.

  (** A new pair. *)
  Lemma gen_loop : forall c c' ps qs w w' n Q x y p0, ok c c' ps qs -> Good c c' ps qs w w' (S n) x y -> In p0 ps -> clockOk x ->
    iOver (dSess x) = false -> isDoneState (stateOf (dSess x)) = false -> xLoop (xOf x) = LpGen ->
    (forall x', Good c c' ps qs w w' n x' y -> free x' -> (exists a, xLoop (xOf x') = LpSend a) -> kLocalAt (xKx (xOf x')) = kLocalAt (xKx (xOf x)) -> Reach c c' ps qs n Q x' y) ->
    Reach c c' ps qs (S n) Q x y.
  Proof.
    intros c c' ps qs w w' n Q x y p0 O G Hp Ck A1 A2 EL H.
    destruct (good_sr dh blake3 sha3 stream poly1305 sign pubOf K ia ib aux _ _ _ _ _ _ _ _ _ G) as [SX _].
    assert (P : xPanic (xOf x) = false) by apply SX. assert (KIx := proj1 SX). destruct id as [I1 I2 I3 I4 I5 I6 I7 I8 I9].
    destruct (KR_install dh blake3 sha3 pubOf I2 I3 I4 (icKx c) (icKx c') ps qs _ _ p0 (kLocalAt (xKx (xOf x)) + 1) KIx Hp) as (k1 & Ei & R1 & R2 & R3 & R4 & R5 & R6 & R7 & R8 & R9 & R10 & R11).
    destruct (install_at dh blake3 sha3 _ _ _ _ _ _ Ei) as [At Lt]. unfold clockOk in Ck. unfold xOf in Ck, At, Ei.
    assert (U : u64 (kLocalAt (xKx (iKx (dSess x))) + 1) = kLocalAt (xKx (iKx (dSess x))) + 1) by (unfold u64; apply N.mod_small; exact Ck).
    assert (Nz : kNextAt k1 =? 0 = false).
    { apply N.eqb_neq. rewrite At, U. match goal with |- (if ?b then _ else _) <> 0 => destruct b end; lia. }
    eapply (quiet_reach c c' ps qs w w' n Q x y _ (KLoopGen p0 (pubOf p0) (kLocalAt (xKx (iKx (dSess x))) + 1)) O G); [split; [exact Hp|reflexivity]|reflexivity|
      unfold kstep; rewrite P, EL; unfold xOf; rewrite Ei; cbv zeta; rewrite Nz; reflexivity|split; [exact P|split; [exact R9|exact R10]]|reflexivity|].
    intros x' G' E'. apply H; [exact G'| | |]; unfold free, xOf; rewrite E'.
    - split; [exact A1|]. split; [exact A2|reflexivity].
    - eexists. reflexivity.
    - exact Lt.
  Qed.

  Lemma ask_go : forall c c' ps qs w w' x y p0, ok c c' ps qs -> Good c c' ps qs w w' 3%nat x y -> In p0 ps -> clockOk x -> free x -> xLoop (xOf x) = LpGo ->
    Reach c c' ps qs 3%nat (asked c ps y) x y.
  Proof.
    intros c c' ps qs w w' x y p0 O G Hp Ck (A1 & A2 & A3) EL.
    destruct (good_sr dh blake3 sha3 stream poly1305 sign pubOf K ia ib aux _ _ _ _ _ _ _ _ _ G) as [SX _].
    assert (P : xPanic (xOf x) = false) by apply SX.
    destruct (inProgress (xKx (xOf x))) eqn:IP.
    - eapply (quiet_reach c c' ps qs w w' 2%nat _ x y _ KLoopCheck O G); [exact I|reflexivity|unfold kstep; rewrite P, EL, IP; reflexivity|repeat split; exact P|reflexivity|].
      intros x' G' E'. apply (reach_more _ _ _ _ _ _ _ _ _ _ _ _ _ _ _ _ 1%nat 2%nat); [lia|].
      eapply (ask_send c c' ps qs w w' x' y); [exact O|apply (less_ _ _ _ _ _ _ 1%nat 2%nat); [lia|exact G']| |unfold xOf; rewrite E'; reflexivity].
      unfold free, xOf. rewrite E'. split; [exact A1|]. split; [exact A2|reflexivity].
    - eapply (quiet_reach c c' ps qs w w' 2%nat _ x y _ KLoopCheck O G); [exact I|reflexivity|unfold kstep; rewrite P, EL, IP; reflexivity|repeat split; exact P|reflexivity|].
      intros x' G' E'. eapply (gen_loop c c' ps qs w w' 1%nat _ x' y p0 O G' Hp); unfold clockOk, xOf; rewrite ?E'; auto.
      intros x2 G2 F2 [a E2] _. eapply ask_send; eauto.
  Qed.

  Lemma ask_idle : forall c c' ps qs w w' x y p0, ok c c' ps qs -> Good c c' ps qs w w' 4%nat x y -> In p0 ps -> clockOk x -> free x -> xLoop (xOf x) = LpIdle ->
    Reach c c' ps qs 4%nat (asked c ps y) x y.
  Proof.
    intros c c' ps qs w w' x y p0 O G Hp Ck (A1 & A2 & A3) EL.
    destruct (good_sr dh blake3 sha3 stream poly1305 sign pubOf K ia ib aux _ _ _ _ _ _ _ _ _ G) as [SX _].
    assert (P : xPanic (xOf x) = false) by apply SX.
    assert (Cx : kCtxDone (xKx (xOf x)) = false).
    { destruct SX as (_ & _ & _ & B1 & _). unfold xOf. destruct (kCtxDone _); [|reflexivity]. rewrite B1 in A2; [discriminate|reflexivity]. }
    eapply (quiet_reach c c' ps qs w w' 3%nat _ x y _ (KLoopGo (kSkipUntil (xKx (xOf x)))) O G); [exact I|reflexivity|unfold kstep; rewrite P, EL, Cx, N.ltb_irrefl; reflexivity|repeat split; exact P|reflexivity|].
    intros x' G' E'. eapply ask_go; eauto; unfold clockOk, free, xOf; rewrite E'; auto.
  Qed.

  Lemma ask : forall c c' ps qs w w' x y p0, ok c c' ps qs -> Good c c' ps qs w w' 5%nat x y -> In p0 ps -> clockOk x -> free x -> Reach c c' ps qs 5%nat (asked c ps y) x y.
  Proof.
    intros c c' ps qs w w' x y p0 O G Hp Ck F.
    destruct (good_sr dh blake3 sha3 stream poly1305 sign pubOf K ia ib aux _ _ _ _ _ _ _ _ _ G) as [SX _].
    assert (P : xPanic (xOf x) = false) by apply SX.
    assert (M : forall n, (n <= 5)%nat -> (Good c c' ps qs w w' n x y -> Reach c c' ps qs n (asked c ps y) x y) -> Reach c c' ps qs 5%nat (asked c ps y) x y).
    { intros n Hn H. apply (reach_more _ _ _ _ _ _ _ _ _ _ _ _ _ _ _ _ n 5%nat); [lia|]. apply H, (less_ _ _ _ _ _ _ n 5%nat); [lia|exact G]. }
    assert (F0 := F). destruct F as (A1 & A2 & A3).
    destruct (xLoop (xOf x)) as [| | |a|a] eqn:EL.
    - apply (M 4%nat); [lia|]. intros G'. eapply ask_idle; eauto.
    - apply (M 3%nat); [lia|]. intros G'. eapply ask_go; eauto.
    - unfold locked in A3. rewrite EL in A3. discriminate.
    - apply (M 1%nat); [lia|]. intros G'. eapply ask_send; eauto.
    - assert (HL : hasLocal (xOf x)) by (destruct SX as ((_ & _ & _ & _ & _ & L & _) & _); unfold xOf in *; rewrite EL in L; exact L).
      assert (HL' := HL). destruct (kNextLocal (xKx (xOf x))) as [p|] eqn:Ep; [|exfalso; apply HL; exact Ep].
      destruct (local_pub dh blake3 sha3 stream poly1305 sign pubOf K _ _ _ _ _ _ SX p Ep) as [_ Pb].
      assert (Now : forall y0, y0 = xOf x \/ y0 = setX (xOf x) (setNotify (xKx (xOf x)) None) ->
        kst (icKx c) (xOf x) KLoopRetry = Some (sendMsg (icKx c) y0 false) -> Reach c c' ps qs 5%nat (asked c ps y) x y).
      { intros y0 Hy E. apply (M 1%nat); [lia|]. intros G'.
        assert (Py : kNextLocalPub (xKx y0) = Some (pubOf p)) by (destruct Hy as [-> | ->]; exact Pb). rewrite (sent_message _ _ _ _ Py) in E.
        eapply (ask_now c c' ps qs w w' x y _ KLoopRetry); [exact O|exact G'|exact F0|exact HL'|exact I|reflexivity|exact E| | | |].
        - destruct Hy as [-> | ->]; repeat split; exact P.
        - intros p' Ep'. rewrite Ep in Ep'. injection Ep' as <-. destruct Hy as [-> | ->]; reflexivity.
        - destruct Hy as [-> | ->]; reflexivity.
        - destruct Hy as [-> | ->]; unfold locked; cbn; rewrite EL; reflexivity. }
      destruct (kNotify (xKx (xOf x))) as [n|] eqn:En.
      + destruct (a <=? n) eqn:Ea.
        * eapply (quiet_reach c c' ps qs w w' 4%nat _ x y _ KLoopRetry O G); [exact I|reflexivity|unfold kstep; rewrite P, EL, En, Ea; reflexivity|repeat split; exact P|reflexivity|].
          intros x' G' E'. eapply ask_idle; eauto; unfold clockOk, free, xOf; rewrite E'; auto.
        * apply (Now (setX (xOf x) (setNotify (xKx (xOf x)) None))); [auto|]. unfold kstep. rewrite P, EL, En, Ea. reflexivity.
      + apply (Now (xOf x)); [auto|]. unfold kstep. rewrite P, EL, En. reflexivity.
  Qed.

  (** *** The first side gets the key of the second *)
  Definition told (x y : side) (q : bytes) (i : nat) (x' y' : side) : Prop :=
    y' = y /\ free x' /\ stateOf (dSess x') = stateOf (dSess x) /\ kLocalAt (xKx (xOf x')) = kLocalAt (xKx (xOf x)) /\
    kNextRemote (xKx (xOf x')) = Some (pubOf q) /\ nth_error (xAnswers (xOf x')) i = Some ApNew.

  Lemma tell : forall c c' ps qs w w' x y, ok c c' ps qs -> Good c c' ps qs w w' 1%nat x y -> free x -> Sent c' qs false y x ->
    exists q, kNextLocal (xKx (xOf y)) = Some q /\ Reach c c' ps qs 1%nat (told x y q (length (xAnswers (xOf x)))) x y.
  Proof.
    intros c c' ps qs w w' x y O G F Sn. destruct (sent_accepted blake3 sha3 stream poly1305 sign pubOf _ _ _ _ _ Sn) as (wn & Ck).
    destruct Sn as (q & net & raw & Hl & Hq & En & Pk & _). exists q. split; [exact Hl|].
    destruct (good_sr dh blake3 sha3 stream poly1305 sign pubOf K ia ib aux _ _ _ _ _ _ _ _ _ G) as [SX _].
    assert (Nt : nth_error (dNet y) (length net) = Some raw) by (rewrite En, nth_error_app2, Nat.sub_diag by lia; reflexivity).
    assert (CY : clear (dNet y)) by (destruct G as (T & _ & _ & _ & _ & _ & _ & _ & Z); exact Z).
    destruct (recv_kxR c c' ps qs x y raw _ q false wn O SX CY (nth_error_In _ _ Nt) Pk Hq) as (s2 & k & Ei & Kx & Ov & Kl & Kr & St & La);
      [unfold hasLocal; rewrite Hl; discriminate|discriminate|exact F|exact Ck|].
    eapply (step_ c c' ps qs w w' 0%nat _ x y (SRecv (length net))); [exact O|exact G|exact I|cbn [sideStep]; rewrite Nt, Ei; reflexivity|].
    intros _. apply reach_now. destruct F as (F1 & F2 & F3). cbn [negb] in Kx. split; [reflexivity|]. unfold free, xOf. cbn [dSess]. rewrite Kx.
    split; [split; [exact Ov|split; [rewrite St; exact F2|exact F3]]|]. split; [exact St|]. split; [exact (La eq_refl)|]. split; [exact Kr|].
    cbn [addAnswer setX xAnswers]. rewrite nth_error_app2, Nat.sub_diag by (unfold xOf; lia). reflexivity.
  Qed.

  (** *** The first side answers *)
  Definition answered (c : iconf) (ps : list bytes) (x y x' y' : side) : Prop :=
    y' = y /\ free x' /\ stateOf (dSess x') = stateOf (dSess x) /\ kLocalAt (xKx (xOf x')) = kLocalAt (xKx (xOf x)) /\
    kNextRemote (xKx (xOf x')) = kNextRemote (xKx (xOf x)) /\ Sent c ps true x' y'.

  Lemma answer : forall c c' ps qs w w' p0 i, ok c c' ps qs -> In p0 ps ->
    forall n pc, match pc with ApSend => n = 1%nat | ApSkip => n = 2%nat | ApGen => n = 3%nat | ApCheck => n = 4%nat | ApNew => n = 5%nat | ApDone => False end ->
    forall x y, Good c c' ps qs w w' n x y -> free x -> nth_error (xAnswers (xOf x)) i = Some pc ->
    Reach c c' ps qs n (answered c ps x y) x y.
  Proof.
    intros c c' ps qs w w' p0 i O Hp0.
    assert (Quiet : forall n x y x1 l, Good c c' ps qs w w' (S n) x y -> free x -> drawsFrom pubOf ps (SKx l) -> isHandle l = false ->
      kst (icKx c) (xOf x) l = Some x1 -> DuoReach.quiet x x1 -> xSent x1 = xSent (xOf x) -> xLoop x1 = xLoop (xOf x) ->
      kLocalAt (xKx x1) = kLocalAt (xKx (xOf x)) -> kNextRemote (xKx x1) = kNextRemote (xKx (xOf x)) ->
      (forall x', Good c c' ps qs w w' n x' y -> free x' -> xOf x' = x1 -> Reach c c' ps qs n (answered c ps x' y) x' y) ->
      Reach c c' ps qs (S n) (answered c ps x y) x y).
    { intros n x y x1 l G (F1 & F2 & F3) M Hh E Q Es El La Kr H.
      eapply (quiet_reach c c' ps qs w w' n _ x y x1 l O G M Hh E Q Es). intros x' G' E'.
      assert (X : xOf x' = x1) by (unfold xOf; rewrite E'; reflexivity).
      destruct (H x' G') as (ls & x2 & y2 & L & R & HQ); [|exact X|].
      - split; [rewrite E'; exact F1|]. split; [rewrite E'; exact F2|]. rewrite X. unfold locked in *. rewrite El. exact F3.
      - exists ls, x2, y2. split; [exact L|]. split; [exact R|]. intros C1 C2. destruct (HQ C1 C2) as (Q1 & Q2 & Q3 & Q4 & Q5 & Q6).
        split; [exact Q1|]. split; [exact Q2|]. rewrite X in Q4, Q5. split; [rewrite Q3, E'; reflexivity|]. split; [congruence|]. split; [congruence|exact Q6]. }
    assert (Send : forall x y, Good c c' ps qs w w' 1%nat x y -> free x -> nth_error (xAnswers (xOf x)) i = Some ApSend -> Reach c c' ps qs 1%nat (answered c ps x y) x y).
    { intros x y G (F1 & F2 & F3) En.
      destruct (good_sr dh blake3 sha3 stream poly1305 sign pubOf K ia ib aux _ _ _ _ _ _ _ _ _ G) as [SX _].
      assert (KK : hasLocal (xOf x) /\ xPanic (xOf x) = false).
      { destruct SX as ((_ & _ & _ & _ & _ & _ & F & _ & P & _) & _). split; [|exact P]. rewrite Forall_forall in F. apply (F ApSend). eapply nth_error_In; eauto. }
      destruct KK as [HL P]. destruct (kNextLocal (xKx (xOf x))) as [p|] eqn:Ep; [|exfalso; apply HL; exact Ep].
      destruct (local_pub dh blake3 sha3 stream poly1305 sign pubOf K _ _ _ _ _ _ SX p Ep) as [Hp Pb].
      set (x1 := setAnswer (addSent (xOf x) (msgOf pubOf (icKx c) p true)) i ApDone).
      assert (E : kst (icKx c) (xOf x) (KAnswer i 0) = Some x1) by (unfold kstep; rewrite P, En, (sent_message _ _ _ _ Pb); reflexivity).
      destruct (send_side verify dh blake3 sha3 stream poly1305 sign pubOf id K ia ib len_a len_b c c' ps qs x y (dNet y) (KAnswer i 0) x1 p true
                  (po_fit _ _ _ _ _ _ _ _ _ _ _ _ _ _ O) SX I eq_refl E (conj P (conj eq_refl eq_refl)) F2 eq_refl) as (raw & Ex & Pk).
      eapply (step_ c c' ps qs w w' 0%nat _ x y (SKx (KAnswer i 0))); [exact O|exact G|exact I|exact Ex|]. intros _. apply reach_now.
      split; [reflexivity|]. split; [split; [exact F1|split; [exact F2|exact F3]]|]. split; [reflexivity|]. split; [reflexivity|]. split; [reflexivity|].
      eapply (just_sent blake3 sha3 stream poly1305 sign pubOf); [|exact Pk|exact Ep|exact Hp]. exact (good_newer dh blake3 sha3 stream poly1305 sign pubOf K ia ib aux _ _ _ _ _ _ _ _ _ G). }
    assert (Skip : forall x y, Good c c' ps qs w w' 2%nat x y -> free x -> nth_error (xAnswers (xOf x)) i = Some ApSkip -> Reach c c' ps qs 2%nat (answered c ps x y) x y).
    { intros x y G F En. destruct (good_sr dh blake3 sha3 stream poly1305 sign pubOf K ia ib aux _ _ _ _ _ _ _ _ _ G) as [SX _]. assert (P : xPanic (xOf x) = false) by apply SX.
      eapply (Quiet 1%nat x y _ (KAnswer i 0) G F I eq_refl); [unfold kstep; rewrite P, En; reflexivity|repeat split; exact P|reflexivity|reflexivity|reflexivity|reflexivity|].
      intros x' G' F' E'. apply Send; auto. rewrite E'. eapply nth_set. exact En. }
    assert (Gen : forall x y, Good c c' ps qs w w' 3%nat x y -> free x -> nth_error (xAnswers (xOf x)) i = Some ApGen -> Reach c c' ps qs 3%nat (answered c ps x y) x y).
    { intros x y G F En. destruct (good_sr dh blake3 sha3 stream poly1305 sign pubOf K ia ib aux _ _ _ _ _ _ _ _ _ G) as [SX _]. assert (P : xPanic (xOf x) = false) by apply SX.
      assert (KIx := proj1 SX). destruct id as [I1 I2 I3 I4 I5 I6 I7 I8 I9].
      destruct (KR_install dh blake3 sha3 pubOf I2 I3 I4 (icKx c) (icKx c') ps qs _ _ p0 1 KIx Hp0) as (k1 & Ei & R1 & R2 & R3 & R4 & R5 & R6 & R7 & R8 & R9 & R10 & R11).
      destruct (install_at dh blake3 sha3 _ _ _ _ _ _ Ei) as [_ Lt].
      eapply (Quiet 2%nat x y _ (KAnswerGen i p0 (pubOf p0) 1) G F); [split; [exact Hp0|reflexivity]|reflexivity|
        unfold kstep; rewrite P, En; unfold xOf; rewrite Ei; reflexivity|split; [exact P|split; [exact R9|exact R10]]|reflexivity|reflexivity|exact Lt|exact R6|].
      intros x' G' F' E'. apply Skip; auto. rewrite E'. cbn [setAnswer addLog setX xAnswers]. eapply nth_set. exact En. }
    assert (Check : forall x y, Good c c' ps qs w w' 4%nat x y -> free x -> nth_error (xAnswers (xOf x)) i = Some ApCheck -> Reach c c' ps qs 4%nat (answered c ps x y) x y).
    { intros x y G F En. destruct (good_sr dh blake3 sha3 stream poly1305 sign pubOf K ia ib aux _ _ _ _ _ _ _ _ _ G) as [SX _]. assert (P : xPanic (xOf x) = false) by apply SX.
      eapply (Quiet 3%nat x y _ (KAnswer i 0) G F I eq_refl); [unfold kstep; rewrite P, En; reflexivity|repeat split; exact P|reflexivity|reflexivity|reflexivity|reflexivity|].
      intros x' G' F' E'. destruct (inProgress (xKx (xOf x))).
      - apply (reach_more _ _ _ _ _ _ _ _ _ _ _ _ _ _ _ _ 2%nat 3%nat); [lia|]. apply Skip; auto; [apply (less_ _ _ _ _ _ _ 2%nat 3%nat); [lia|exact G']|]. rewrite E'. eapply nth_set. exact En.
      - apply Gen; auto. rewrite E'. eapply nth_set. exact En. }
    intros n pc Hn x y G F En. destruct pc; try contradiction; subst n; auto.
    destruct (good_sr dh blake3 sha3 stream poly1305 sign pubOf K ia ib aux _ _ _ _ _ _ _ _ _ G) as [SX _]. assert (P : xPanic (xOf x) = false) by apply SX.
    eapply (Quiet 4%nat x y _ (KAnswer i 0) G F I eq_refl); [unfold kstep; rewrite P, En; reflexivity|repeat split; exact P|reflexivity|reflexivity|reflexivity|reflexivity|].
    intros x' G' F' E'. destruct (kNextLocalPub (xKx (xOf x))).
    - apply (reach_more _ _ _ _ _ _ _ _ _ _ _ _ _ _ _ _ 1%nat 4%nat); [lia|]. apply Send; auto; [apply (less_ _ _ _ _ _ _ 1%nat 4%nat); [lia|exact G']|]. rewrite E'. eapply nth_set. exact En.
    - apply Check; auto. rewrite E'. eapply nth_set. exact En.
  Qed.

  (** *** The first side gets the answer *)
  Lemma finish : forall c c' ps qs w w' x y, ok c c' ps qs -> Good c c' ps qs w w' 1%nat x y -> free x -> hasLocal (xOf x) -> Sent c' qs true y x ->
    exists q, kNextLocal (xKx (xOf y)) = Some q /\
      Reach c c' ps qs 1%nat (fun x' y' => y' = y /\ free x' /\ stateOf (dSess x') = SessionStateEstablished /\
        kNextLocal (xKx (xOf x')) = kNextLocal (xKx (xOf x)) /\ kNextRemote (xKx (xOf x')) = Some (pubOf q)) x y.
  Proof.
    intros c c' ps qs w w' x y O G F HL Sn. destruct (sent_accepted blake3 sha3 stream poly1305 sign pubOf _ _ _ _ _ Sn) as (wn & Ck).
    destruct Sn as (q & net & raw & Hl & Hq & En & Pk & _). exists q. split; [exact Hl|].
    destruct (good_sr dh blake3 sha3 stream poly1305 sign pubOf K ia ib aux _ _ _ _ _ _ _ _ _ G) as [SX _].
    assert (Nt : nth_error (dNet y) (length net) = Some raw) by (rewrite En, nth_error_app2, Nat.sub_diag by lia; reflexivity).
    assert (CY : clear (dNet y)) by (destruct G as (T & _ & _ & _ & _ & _ & _ & _ & Z); exact Z).
    destruct (recv_kxR c c' ps qs x y raw _ q true wn O SX CY (nth_error_In _ _ Nt) Pk Hq) as (s2 & k & Ei & Kx & Ov & Kl & Kr & St & La);
      [unfold hasLocal; rewrite Hl; discriminate|intros _; exact HL|exact F|exact Ck|].
    eapply (step_ c c' ps qs w w' 0%nat _ x y (SRecv (length net))); [exact O|exact G|exact I|cbn [sideStep]; rewrite Nt, Ei; reflexivity|].
    intros _. apply reach_now. destruct F as (F1 & F2 & F3). cbn [negb] in Kx. split; [reflexivity|]. unfold free, xOf. cbn [dSess]. rewrite Kx.
    split; [split; [exact Ov|split; [rewrite St; reflexivity|exact F3]]|]. split; [exact St|]. split; [exact Kl|exact Kr].
  Qed.

  (** The newest keys are the same on both sides. *)
  Definition agreed (x y : side) : Prop := exists p q,
    kNextLocal (xKx (xOf x)) = Some p /\ kNextRemote (xKx (xOf x)) = Some (pubOf q) /\
    kNextLocal (xKx (xOf y)) = Some q /\ kNextRemote (xKx (xOf y)) = Some (pubOf p).

  Definition halfway (y x' y' : side) : Prop :=
    free x' /\ free y' /\ stateOf (dSess x') = SessionStateEstablished /\ stateOf (dSess y') = stateOf (dSess y) /\
    kLocalAt (xKx (xOf y')) = kLocalAt (xKx (xOf y)) /\ agreed x' y'.

  Lemma half : forall c c' ps qs w w' x y p0 q0, ok c c' ps qs -> Good c c' ps qs w w' 12%nat x y -> In p0 ps -> In q0 qs -> clockOk x -> free x -> free y ->
    Reach c c' ps qs 12%nat (halfway y) x y.
  Proof.
    intros c c' ps qs w w' x y p0 q0 O G Hp Hq Ck FX FY.
    assert (O' := pairOk_swap verify dh blake3 sha3 sign pubOf K ia ib aux _ _ _ _ O).
    assert (Bind := reach_bind verify dh blake3 sha3 stream poly1305 sign pubOf id K ia ib ids_differ len_a len_b aux clear_dec c c' ps qs w w').
    assert (Sw := good_swap dh blake3 sha3 stream poly1305 sign pubOf K ia ib aux).
    apply (Bind 5%nat 7%nat (asked c ps y) _ x y O G (ask c c' ps qs w w' x y p0 O (less_ _ _ _ _ _ _ 5%nat 12%nat x y ltac:(lia) G) Hp Ck FX)).
    intros x1 y1 G1 (-> & F1 & S1).
    destruct (tell c' c qs ps w' w y x1 O' (Sw _ _ _ _ _ _ _ _ _ (less_ _ _ _ _ _ _ 1%nat 7%nat x1 y ltac:(lia) G1)) FY S1) as (p & Hlp & T).
    apply (Bind 1%nat 6%nat (fun x' y' => told y x1 p (length (xAnswers (xOf y))) y' x') _ x1 y O G1); [apply reach_swap; exact T|].
    intros x2 y2 G2 (-> & FY2 & St2 & La2 & Kr2 & N2).
    apply (Bind 5%nat 1%nat (fun x' y' => answered c' qs y2 x1 y' x') _ x1 y2 O G2).
    { apply reach_swap. apply (answer c' c qs ps w' w q0 (length (xAnswers (xOf y))) O' Hq 5%nat ApNew eq_refl); auto. apply Sw, (less_ _ _ _ _ _ _ 5%nat 6%nat); [lia|exact G2]. }
    intros x3 y3 G3 (-> & FY3 & St3 & La3 & Kr3 & S3).
    destruct (finish c c' ps qs w w' x1 y3 O G3 F1) as (q & Hlq & ls & x4 & y4 & L4 & R4 & H4); [unfold hasLocal; rewrite Hlp; discriminate|exact S3|].
    exists ls, x4, y4. split; [exact L4|]. split; [exact R4|]. intros C1 C2. destruct (H4 C1 C2) as (-> & F4 & St4 & Kl4 & Kr4).
    split; [exact F4|]. split; [exact FY3|]. split; [exact St4|]. split; [congruence|]. split; [congruence|].
    exists p, q. rewrite Kl4, Hlp. split; [reflexivity|]. split; [exact Kr4|]. split; [exact Hlq|congruence].
  Qed.
  Lemma unlock : forall c c' ps qs w w' x y p0, ok c c' ps qs -> Good c c' ps qs w w' 1%nat x y -> In p0 ps -> clockOk x ->
    iOver (dSess x) = false -> isDoneState (stateOf (dSess x)) = false ->
    Reach c c' ps qs 1%nat (fun x' y' => y' = y /\ free x' /\ kLocalAt (xKx (xOf x')) = kLocalAt (xKx (xOf x))) x y.
  Proof.
    intros c c' ps qs w w' x y p0 O G Hp Ck A1 A2. destruct (locked (xOf x)) eqn:Lk.
    2: { apply reach_now. split; [reflexivity|]. split; [|reflexivity]. split; [exact A1|]. split; [exact A2|exact Lk]. }
    eapply (gen_loop c c' ps qs w w' 0%nat _ x y p0 O G Hp Ck A1 A2).
    - unfold locked in Lk. destruct (xLoop (xOf x)); try discriminate. reflexivity.
    - intros x' G' F' _ La. apply reach_now. auto.
  Qed.

  Lemma whole : forall c c' ps qs w w' x y p0 q0, ok c c' ps qs -> Good c c' ps qs w w' 26%nat x y -> In p0 ps -> In q0 qs -> clockOk x -> clockOk y ->
    iOver (dSess x) = false -> isDoneState (stateOf (dSess x)) = false -> iOver (dSess y) = false -> isDoneState (stateOf (dSess y)) = false ->
    Reach c c' ps qs 26%nat (fun x' y' => free x' /\ free y' /\ stateOf (dSess x') = SessionStateEstablished /\ stateOf (dSess y') = SessionStateEstablished /\ agreed x' y') x y.
  Proof.
    intros c c' ps qs w w' x y p0 q0 O G Hp Hq CX CY A1 A2 B1 B2.
    assert (O' := pairOk_swap verify dh blake3 sha3 sign pubOf K ia ib aux _ _ _ _ O).
    assert (Bind := reach_bind verify dh blake3 sha3 stream poly1305 sign pubOf id K ia ib ids_differ len_a len_b aux clear_dec c c' ps qs w w').
    assert (Sw := good_swap dh blake3 sha3 stream poly1305 sign pubOf K ia ib aux).
    apply (Bind 1%nat 25%nat _ _ x y O G (unlock c c' ps qs w w' x y p0 O (less_ _ _ _ _ _ _ 1%nat 26%nat x y ltac:(lia) G) Hp CX A1 A2)).
    intros x1 y1 G1 (-> & F1 & L1).
    apply (Bind 1%nat 24%nat (fun x' y' => x' = x1 /\ free y' /\ kLocalAt (xKx (xOf y')) = kLocalAt (xKx (xOf y))) _ x1 y O G1).
    { apply reach_swap. apply (unlock c' c qs ps w' w y x1 q0 O' (Sw _ _ _ _ _ _ _ _ _ (less_ _ _ _ _ _ _ 1%nat 25%nat x1 y ltac:(lia) G1)) Hq CY B1 B2). }
    intros x2 y2 G2 (-> & F2 & L2).
    apply (Bind 12%nat 12%nat (halfway y2) _ x1 y2 O G2).
    { apply (half c c' ps qs w w' x1 y2 p0 q0 O (less_ _ _ _ _ _ _ 12%nat 24%nat x1 y2 ltac:(lia) G2) Hp Hq); auto. unfold clockOk in *. congruence. }
    intros x3 y3 G3 (F3 & F3' & S3 & _ & L3 & _). apply reach_swap.
    destruct (half c' c qs ps w' w y3 x3 q0 p0 O' (Sw _ _ _ _ _ _ _ _ _ G3) Hq Hp) as (ls & x4 & y4 & L & R & H); [unfold clockOk in *; congruence|exact F3'|exact F3|].
    exists ls, x4, y4. split; [exact L|]. split; [exact R|]. intros C1 C2. destruct (H C1 C2) as (E1 & E2 & E3 & E4 & _ & p & q & D1 & D2 & D3 & D4).
    split; [exact E2|]. split; [exact E1|]. split; [congruence|]. split; [exact E3|]. exists q, p. auto.
  Qed.

  (** *** Data gets through *)
  Lemma passes : forall c c' ps qs w w' x y k pl, ok c c' ps qs -> Good c c' ps qs w w' 1%nat x y -> stateOf (dSess x) = SessionStateEstablished -> free y ->
    hd None (kKeys (xKx (xOf x))) = Some k -> hd None (kKeys (xKx (xOf y))) = Some k -> len pl + 53 < 2^32 ->
    exists x', sstep c x (dNet y) (SWrite pl) = Some x' /\ dWrote x' = dWrote x ++ [pl] /\
      (clear (dNet x') -> exists y', sstep c' y (dNet x') (SRecv (length (dNet x))) = Some y' /\ queued (dSess y') = queued (dSess y) ++ [pl]).
  Proof.
    intros c c' ps qs w w' x y k pl O G St (F1 & F2 & F3) Kx Ky Hl. assert (id0 := id).
    destruct (good_newer dh blake3 sha3 stream poly1305 sign pubOf K ia ib aux _ _ _ _ _ _ _ _ _ G) as [N1 N2].
    destruct (good_sr dh blake3 sha3 stream poly1305 sign pubOf K ia ib aux _ _ _ _ _ _ _ _ _ G) as [SX SY].
    assert (Np : iPanic (dSess x) = false) by apply SX. assert (Ny : iPanic (dSess y) = false) by apply SY.
    assert (KX : nth 0 (kKeys (xKx (iKx (dSess x)))) None = Some k) by (unfold xOf in Kx; destruct (kKeys (xKx (iKx (dSess x)))); [discriminate|exact Kx]).
    assert (Hin : In (Some k) (kKeys (xKx (iKx (dSess y))))) by (unfold xOf in Ky; destruct (kKeys (xKx (iKx (dSess y)))); [discriminate|left; exact Ky]).
    assert (Ex : exists x' raw, sstep c x (dNet y) (SWrite pl) = Some x' /\ dWrote x' = dWrote x ++ [pl] /\ dNet x' = dNet x ++ [raw]).
    { cbn [sideStep]. rewrite Np, St. replace (2^32 <=? len pl + 53) with false by (symmetry; apply N.leb_gt; exact Hl).
      change (false || negb (SessionStateEstablished =? SessionStateEstablished) || false) with false. cbv iota.
      unfold handOver. cbn [concat]. rewrite app_nil_r. unfold sendPacket. set (P0 := peerOf blake3 sha3 c (dSess x)).
      assert (PO : peer_ok P0) by (eapply (peerR verify dh blake3 sha3 stream poly1305 sign pubOf id0 c c' ps qs _ (dSess x)); exact (proj1 SX)).
      destruct (takePacketID P0) as [P pid] eqn:ET. unfold takePacketID in ET. injection ET as EP Epid.
      assert (PO1 : peer_ok P) by (subst P; exact PO). assert (Lp : length pid = 8%nat) by (subst pid; apply le_enc_length).
      assert (Lm : len (encodeMsg MessageTypeReadWrite (setIsConfidential 0 true) pl) + 44 < 2^32).
      { assert (Mk : wireMsg_ok (dataMsg pl)) by (unfold wireMsg_ok, dataMsg, kxWire; cbn [wType wFlags wPayload]; unfold len in Hl; repeat split; try reflexivity; lia).
        change (encodeMsg _ _ _) with (encodeMsg (wType (dataMsg pl)) (wFlags (dataMsg pl)) (wPayload (dataMsg pl))).
        rewrite (encodeMsg_wire _ Mk), (wire_len _ Mk). cbn [wPayload dataMsg kxWire]. lia. }
      destruct id as [I1 I2 I3 I4 I5 I6 I7 I8 I9].
      destruct (seal_spec stream blake3 poly1305 I1 P true pid _ PO1 Lp Lm) as (body & Es & _); [intros _; subst P; cbn; unfold secretIDRecentBoth; rewrite KX; discriminate|].
      rewrite Es. do 2 eexists. split; [reflexivity|]. split; reflexivity. }
    destruct Ex as (x' & raw & Ex & Wx & Nx). exists x'. split; [exact Ex|]. split; [exact Wx|]. intros CX.
    assert (Ey : exists y', sstep c' y (dNet x') (SRecv (length (dNet x))) = Some y').
    { cbn [sideStep]. rewrite Nx, nth_error_app2, Nat.sub_diag by lia. cbn [nth_error]. unfold istep. unfold xOf in F3. rewrite Ny, F1, F2, F3. cbn [orb].
      destruct (iReceive _ _ _ _ _ _ _ _ _); eexists; reflexivity. }
    destruct Ey as (y' & Ey). exists y'. split; [exact Ey|].
    assert (exists wn, checkAndRemember (iWin (dSess y)) (iNext (dSess x) + 1) = Ret (wn, true)) as [wn Ck].
    { destruct (iWin (dSess y)) as [st|]; [|eexists; reflexivity]. destruct N2 as [N2 N3].
      destruct (push_newer st (iNext (dSess x) + 1) N3) as (t & Ep & _); [lia|]. cbn [checkAndRemember]. rewrite Ep. eexists. reflexivity. }
    destruct O as [F F' _ _ A A']. rewrite <- A' in CX.
    exact (delivered verify dh blake3 sha3 stream poly1305 sign pubOf id0 K ia ib ids_differ len_a len_b c c' ps qs x y pl x' y' k wn F F' SX SY Ex CX KX Hin N1 Ck Ey).
  Qed.
End Half.
