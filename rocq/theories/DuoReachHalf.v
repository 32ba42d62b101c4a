(** C142: one side can always be brought to the end of the handshake: lemmas. *)
From Coq Require Import NArith Arith List Bool Lia.
From Verif Require Import Base BaseLemmas TS MessageModel PacketIDModel PacketIDSpec PacketIDProofs ReaderModel ReaderLoopModel
  PacketModel PacketSpec StateModel KxModel KxSpec KxProofs KxPairModel IntegModel IntegSafe
  DuoModel DuoSpec DuoProofs DuoProps DuoOnceProps DuoReach.
Import ListNotations.
Local Open Scope N_scope.

Lemma nth_set : forall A (l : list A) i a b, nth_error l i = Some a -> nth_error (firstn i l ++ [b] ++ skipn (S i) l) i = Some b.
Proof.
  intros A l i a b H. assert (L : (i < length l)%nat) by (apply nth_error_Some; congruence).
  rewrite nth_error_app2; rewrite firstn_length, Nat.min_l by lia; [|lia]. rewrite Nat.sub_diag. reflexivity.
Qed.

Section Reach.
  Variable verify : bytes -> bytes -> bytes -> bool.
  Variable dh : bytes -> bytes -> bytes.
  Variable blake3 sha3 : bytes -> bytes.
  Variable stream : bytes -> bytes -> nat -> N.
  Variable poly1305 : bytes -> bytes -> bytes.
  Variable sign : bytes -> bytes -> bytes.
  Variable pubOf : bytes -> bytes.
  Hypothesis id : ideal verify dh sha3 stream poly1305 sign pubOf.
  Variables ca cb : iconf.
  Variables pa pb : bytes.
  Hypothesis Ha : honestConf ca.
  Hypothesis Hb : honestConf cb.
  Hypothesis psk : cPSK (icKx ca) = cPSK (icKx cb).
  Variables wa wb : sizeOption.
  Variables md mf : N.
  Variable k : bytes.
  Hypothesis Hk : sharedKey dh blake3 sha3 (cPSK (icKx ca)) pa (pubOf pb) k.

  Notation sinv := (SI dh blake3 sha3 stream poly1305 sign pubOf True).
  Notation run := (firstKeysRun verify dh blake3 sha3 stream poly1305 sign pubOf ca cb pa pb).
  Notation step := (dstep verify dh blake3 sha3 stream poly1305 sign ca cb).
  Notation pkt := (kxPacket blake3 sha3 stream poly1305 sign pubOf).

  Definition plainD (d : duo) : Prop :=
    plainTraffic blake3 stream poly1305 (auxKey blake3 sha3 cb) k (sessBytes (cSession (icKx cb))) (dNet (dB d)) /\
    plainTraffic blake3 stream poly1305 (auxKey blake3 sha3 ca) k (sessBytes (cSession (icKx ca))) (dNet (dA d)).

  Definition may (d : duo) (l : dlabel) : Prop := match l with DA l => onePair pubOf pa (dA d) l | DB l => onePair pubOf pb (dB d) l end.

  Definition reach (n : nat) (Q : duo -> Prop) (d : duo) : Prop :=
    exists ls d', (length ls <= n)%nat /\ run d ls d' /\ (plainD d' -> Q d').

  Definition good (m : nat) (d : duo) : Prop :=
    exists ls, run (duoInit ca cb wa wb md mf) ls d /\ N.of_nat (length ls) + N.of_nat m < 2^64 /\ plainD d.

  Lemma run_app : forall d0 ls d ls2 d', run d0 ls d -> run d ls2 d' -> run d0 (ls ++ ls2) d'.
  Proof.
    intros d0 ls d ls2 d' R1 R2. induction R2 as [|ls2 d1 l d2 R2 IH HO E]; [rewrite app_nil_r; exact R1|].
    rewrite app_assoc. eapply fk_snoc; eauto.
  Qed.

  Lemma run_cons : forall d l d1 ls d', may d l -> step d l = Some d1 -> run d1 ls d' -> run d (l :: ls) d'.
  Proof. intros d l d1 ls d' H E R. apply (run_app d [l] d1 ls d'); [|exact R]. apply (fk_snoc _ _ _ _ _ _ _ _ _ _ _ _ _ [] d l d1); [constructor|exact H|exact E]. Qed.

  Lemma good_less : forall m m' d, (m <= m')%nat -> good m' d -> good m d.
  Proof. intros m m' d H (ls & R & L & P). exists ls. split; [exact R|]. split; [lia|exact P]. Qed.

  Lemma reach_now : forall n (Q : duo -> Prop) d, Q d -> reach n Q d.
  Proof. intros n Q d H. exists [], d. split; [cbn; lia|]. split; [constructor|auto]. Qed.

  Lemma reach_more : forall n m (Q : duo -> Prop) d, (n <= m)%nat -> reach n Q d -> reach m Q d.
  Proof. intros n m Q d H (ls & d' & L & R). exists ls, d'. split; [lia|exact R]. Qed.

  Lemma plainD_dec : forall d, plainD d \/ ~ plainD d.
  Proof.
    intros d. unfold plainD.
    destruct (plain_dec blake3 stream poly1305 (auxKey blake3 sha3 cb) k (sessBytes (cSession (icKx cb))) (dNet (dB d)));
    destruct (plain_dec blake3 stream poly1305 (auxKey blake3 sha3 ca) k (sessBytes (cSession (icKx ca))) (dNet (dA d))); tauto.
  Qed.

  Lemma reach_bind : forall n m (P Q : duo -> Prop) d, good (n + m) d -> reach n P d -> (forall d', good m d' -> P d' -> reach m Q d') -> reach (n + m) Q d.
  Proof.
    intros n m P Q d (ls0 & R0 & L0 & _) (ls & d' & L & R & HP) HQ. destruct (plainD_dec d') as [Pl|Pl].
    - destruct (HQ d') as (ls2 & d2 & L2 & R2 & H2); [|auto|].
      + exists (ls0 ++ ls). split; [eapply run_app; eauto|]. split; [rewrite app_length; lia|exact Pl].
      + exists (ls ++ ls2), d2. split; [rewrite app_length; lia|]. split; [eapply run_app; eauto|exact H2].
    - exists ls, d'. split; [lia|]. split; [exact R|contradiction].
  Qed.

  Lemma reach_step : forall n (Q : duo -> Prop) d l d1, good (S n) d -> may d l -> step d l = Some d1 -> (good n d1 -> reach n Q d1) -> reach (S n) Q d.
  Proof.
    intros n Q d l d1 G M E H. apply (reach_bind 1 n (fun d' => d' = d1) Q d G).
    - exists [l], d1. split; [cbn; lia|]. split; [|auto]. eapply run_cons; eauto. constructor.
    - intros d' Gd ->. auto.
  Qed.

  (** What is known of the states. *)
  Lemma good_inv : forall m d, good m d -> sinv ca cb pa pb (dA d) (dB d) /\ sinv cb ca pb pa (dB d) (dA d).
  Proof. intros m d (ls & R & L & [P1 P2]). eapply duo_inv; eauto. Qed.

  Definition newer (x y : side) : Prop :=
    iNext (dSess x) + 1 < 2^64 /\ match iWin (dSess y) with Some st => latest st <= iNext (dSess x) /\ words_ok (table st) | None => True end.

  Lemma good_newer : forall m d, good (S m) d -> newer (dA d) (dB d) /\ newer (dB d) (dA d).
  Proof.
    intros m d (ls & R & L & [P1 P2]).
    destruct (once_inv verify dh blake3 sha3 stream poly1305 sign pubOf ca cb pa pb id Ha Hb psk wa wb md mf k ls d Hk R P1 P2) as [LA LB]; [lia|].
    assert (G : forall o c' p' q x y, LI dh blake3 sha3 stream poly1305 sign pubOf o c' p' q x y (N.of_nat (length ls)) -> newer y x).
    { intros o c' p' q x y (log & _ & _ & Le & LeT & _ & W). split; [lia|]. destruct (iWin (dSess x)) as [st|]; [|exact I].
      destruct W as (acc & S & _ & Ia & _). split; [|exact (s_ok _ _ _ S)].
      destruct (s_lat _ _ _ S) as [->|Hi]; [lia|]. apply Ia, in_map_iff in Hi. destruct Hi as (e & <- & He). rewrite Forall_forall in Le. apply Le, He. }
    split; eapply G; eauto.
  Qed.

  Lemma good_early : forall m d, good m d -> early (xKx (xOf (dA d))) /\ early (xKx (xOf (dB d))).
  Proof.
    intros m d (ls & R & _). clear m. induction R as [|ls d l d' R IH HO E].
    - split; intros _; cbn; repeat split; intros H; destruct (H eq_refl).
    - unfold dstep in E. destruct l as [l|l]; destruct (sideStep _ _ _ _ _ _ _ _ _ _ l) as [x|] eqn:Ex; try discriminate; injection E as <-; cbn [dA dB]; destruct IH as [A B];
        apply early_side in Ex; auto.
  Qed.

  Definition free (x : side) : Prop := iOver (dSess x) = false /\ isDoneState (stateOf (dSess x)) = false /\ locked (xOf x) = false.
  Definition ready (d : duo) : Prop := free (dA d) /\ free (dB d).

  (** The newest packet of [x] is a key-exchange message which [y] has not got. *)
  Definition sent (c : iconf) (p : bytes) (fl : bool) (x y : side) : Prop :=
    exists net raw, dNet x = net ++ [raw] /\ pkt c p raw (iNext (dSess x)) fl /\ iNext (dSess x) < 2^64 /\
      match iWin (dSess y) with Some st => latest st < iNext (dSess x) /\ words_ok (table st) | None => True end.

  Lemma keyA : k = mk dh blake3 sha3 (cPSK (icKx ca)) pa (pubOf pb).
  Proof. eapply shared_mk; eauto. Qed.
  Lemma keyB : k = mk dh blake3 sha3 (cPSK (icKx cb)) pb (pubOf pa).
  Proof. rewrite keyA, psk. apply mkey_sym. exact (id_dh_comm _ _ _ _ _ _ _ id). Qed.

  Lemma local_pub : forall c c' p p' x y, sinv c c' p p' x y -> hasLocal (xOf x) -> kNextLocalPub (xKx (xOf x)) = Some (pubOf p).
  Proof. intros c c' p p' x y ((_ & _ & _ & D & _) & _) H. destruct D as [(D & _)|(_ & D)]; [destruct (H D)|exact D]. Qed.

  Lemma no_local : forall c c' p p' x y, sinv c c' p p' x y -> kNextLocal (xKx (xOf x)) = None -> kNextLocalPub (xKx (xOf x)) = None /\ kNextAt (xKx (xOf x)) = 0.
  Proof. intros c c' p p' x y ((_ & _ & _ & D & _) & _) H. unfold xOf in *. destruct D as [(_ & D)|(D & _)]; [exact D|congruence]. Qed.

  Lemma sent_message : forall c x p fl, kNextLocalPub (xKx x) = Some (pubOf p) -> sendMsg c x fl = addSent x (msgOf pubOf c p fl).
  Proof. intros c x p fl H. unfold sendMsg, publicKeyMessage. rewrite H. reflexivity. Qed.

  (** Handing over the packet makes it the newest. *)
  Lemma just_sent : forall c p fl x y x1 raw, newer x y -> pkt c p raw (add64 (iNext (dSess x)) 1) fl ->
    sent c p fl {| dSess := upPkt (upKx (dSess x) x1) (add64 (iNext (dSess x)) 1) (iWin (dSess x)); dNet := dNet x ++ [raw]; dWrote := dWrote x ++ [] |} y.
  Proof.
    intros c p fl x y x1 raw [N1 N2] Pk. exists (dNet x), raw. cbn [dNet dSess upPkt iNext]. split; [reflexivity|]. split; [exact Pk|].
    assert (E : add64 (iNext (dSess x)) 1 = iNext (dSess x) + 1) by (unfold add64; apply N.mod_small; lia). rewrite E. split; [lia|].
    destruct (iWin (dSess y)); [|exact I]. destruct N2. split; [lia|assumption].
  Qed.

  Lemma sent_accepted : forall c p fl x y, sent c p fl x y -> exists w, checkAndRemember (iWin (dSess y)) (packetIDValue (packetIDBytes (iNext (dSess x)))) = Ret (w, true).
  Proof.
    intros c p fl x y (net & raw & _ & _ & Lt & W).
    replace (packetIDValue (packetIDBytes (iNext (dSess x)))) with (iNext (dSess x)) by (symmetry; unfold packetIDValue, packetIDBytes; apply le_dec_enc; exact Lt).
    destruct (iWin (dSess y)) as [st|]; cbn [checkAndRemember]; [|eauto]. destruct W as [W1 W2].
    destruct (push_newer st (iNext (dSess x)) W2) as (t & Ep & _); [lia|]. rewrite Ep. eauto.
  Qed.

  (** *** A sends its key *)
  Definition asked (b : side) (d : duo) : Prop :=
    ready d /\ dB d = b /\ kDone (xKx (xOf (dA d))) = 0 /\ hasLocal (xOf (dA d)) /\ sent ca pa false (dA d) (dB d).

  Lemma ask_now : forall d x1 l, good 1 d -> ready d -> kDone (xKx (xOf (dA d))) = 0 -> hasLocal (xOf (dA d)) ->
    may d (DA (SKx l)) -> isHandle l = false -> kstep verify dh blake3 sha3 (icKx ca) (xOf (dA d)) l = Some x1 ->
    quiet (dA d) x1 -> xSent x1 = msgOf pubOf (icKx ca) pa false :: xSent (xOf (dA d)) -> locked x1 = false -> hasLocal x1 -> reach 1 (asked (dB d)) d.
  Proof.
    intros d x1 l G [(A1 & A2 & A3) RB] D0 HL M Hh E Q Es Lk HL1. destruct (good_inv _ _ G) as [SA SB].
    destruct (send_side verify dh blake3 sha3 stream poly1305 sign pubOf id ca cb pa pb (dA d) (dB d) (dNet (dB d)) l x1 false Ha Hb SA
                (onePair_calm pubOf pa (dA d) (SKx l) M) Hh E Q A2 Es) as (raw & Ex & Pk).
    eapply reach_step; [exact G|exact M|unfold dstep; rewrite Ex; reflexivity|]. intros _. apply reach_now. cbn [dA dB].
    split; [split; [split; [exact A1|split; [exact A2|exact Lk]]|exact RB]|]. split; [reflexivity|].
    destruct Q as (_ & _ & Q3). split; [unfold xOf at 1; cbn; congruence|]. split; [exact HL1|]. apply just_sent; [|exact Pk]. exact (proj1 (good_newer _ _ G)).
  Qed.

  Lemma ask_loop : forall d, good 1 d -> ready d -> kDone (xKx (xOf (dA d))) = 0 ->
    match xLoop (xOf (dA d)) with LpSend _ | LpWait _ => True | _ => False end -> reach 1 (asked (dB d)) d.
  Proof.
    intros d G R D0 HL. destruct (good_inv _ _ G) as [SA SB]. destruct (good_early _ _ G) as [EA _]. destruct (EA D0) as (_ & Nt & _).
    assert (K : hasLocal (xOf (dA d)) /\ xPanic (xOf (dA d)) = false).
    { destruct SA as ((_ & _ & _ & _ & _ & _ & L & _ & _ & P & _) & _). split; [|exact P]. unfold xOf in *. destruct (xLoop _); try contradiction; exact L. }
    destruct K as [K P]. assert (Pb := local_pub _ _ _ _ _ _ SA K).
    destruct (xLoop (xOf (dA d))) as [| | |a|a] eqn:EL; try contradiction.
    - eapply (ask_now d _ KLoopSend); [exact G|exact R|exact D0|exact K|exact I|reflexivity|unfold kstep; rewrite P, EL, (sent_message _ _ _ _ Pb); reflexivity|
        repeat split; exact P|reflexivity|reflexivity|exact K].
    - eapply (ask_now d _ KLoopRetry); [exact G|exact R|exact D0|exact K|exact I|reflexivity|unfold kstep; rewrite P, EL, Nt, (sent_message _ _ _ _ Pb); reflexivity|repeat split; exact P|reflexivity|unfold locked; cbn; rewrite EL; reflexivity|exact K].
  Qed.

  (** The key pair is generated. *)
  Lemma gen_step : forall d, good 1 d -> iOver (dSess (dA d)) = false -> isDoneState (stateOf (dSess (dA d))) = false ->
    xLoop (xOf (dA d)) = LpGen -> kNextLocal (xKx (xOf (dA d))) = None -> kDone (xKx (xOf (dA d))) = 0 ->
    exists x1 l d1, may d l /\ step d l = Some d1 /\ dB d1 = dB d /\ dSess (dA d1) = upKx (dSess (dA d)) x1 /\
      kDone (xKx x1) = 0 /\ exists a, xLoop x1 = LpSend a.
  Proof.
    intros d G A1 A2 EL Nl D0. destruct (good_inv _ _ G) as [SA _]. destruct (good_early _ _ G) as [EA _]. destruct id as [I1 I2 I3 I4 I5 I6 I7 I8 I9].
    assert (HNL : ~ hasLocal (xOf (dA d))) by (unfold hasLocal; rewrite Nl; intros H; apply H; reflexivity).
    assert (P0 : iPanic (dSess (dA d)) = false) by apply SA. assert (SA0 := SA). destruct SA as (KIx & _). assert (P : xPanic (xOf (dA d)) = false) by apply KIx.
    destruct (KI_install dh blake3 sha3 pubOf I2 I3 I4 (icKx ca) (icKx cb) pa (pubOf pb) _ _ 1 KIx HNL) as (k1 & Ei & R1 & R2 & R3 & R4 & R5 & R6 & R7 & R8 & R9 & R10 & R11).
    assert (E1 := early_install dh blake3 sha3 _ _ _ _ _ _ EA Ei). assert (D1 : kDone k1 = 0) by (rewrite R10; exact D0).
    destruct (E1 D1) as (_ & _ & Pos). assert (Nz : 0 < kNextAt k1) by (apply Pos; rewrite R4; discriminate).
    set (x1 := setLoop (addLog (setX (xOf (dA d)) k1) (kNextAt k1)) (LpSend (kNextAt k1))).
    assert (E : kstep verify dh blake3 sha3 (icKx ca) (xOf (dA d)) (KLoopGen pa (pubOf pa) 1) = Some x1).
    { unfold kstep. rewrite P, EL. unfold xOf. rewrite Ei. cbn zeta. replace (kNextAt k1 =? 0) with false by (symmetry; apply N.eqb_neq; lia). reflexivity. }
    assert (M : may d (DA (SKx (KLoopGen pa (pubOf pa) 1)))) by (split; [reflexivity|split; [reflexivity|exact Nl]]).
    exists x1, (DA (SKx (KLoopGen pa (pubOf pa) 1))). eexists. split; [exact M|]. split.
    { unfold dstep. rewrite (quiet_side verify dh blake3 sha3 stream poly1305 sign ca (dA d) (dNet (dB d)) (KLoopGen pa (pubOf pa) 1) x1 P0 eq_refl E); [reflexivity| |reflexivity].
      split; [exact P|]. split; [exact R9|exact R10]. }
    split; [reflexivity|]. split; [reflexivity|]. split; [exact D1|]. eexists. reflexivity.
  Qed.

  Lemma ask : forall d, good 4 d -> ready d -> kDone (xKx (xOf (dA d))) = 0 -> reach 4 (asked (dB d)) d.
  Proof.
    assert (Quiet : forall n d x1 l, good (S n) d -> ready d -> kDone (xKx (xOf (dA d))) = 0 -> may d (DA (SKx l)) -> isHandle l = false ->
      kstep verify dh blake3 sha3 (icKx ca) (xOf (dA d)) l = Some x1 -> quiet (dA d) x1 -> xSent x1 = xSent (xOf (dA d)) ->
      (forall d1, good n d1 -> dB d1 = dB d -> dSess (dA d1) = upKx (dSess (dA d)) x1 -> reach n (asked (dB d)) d1) -> reach (S n) (asked (dB d)) d).
    { intros n d x1 l G R D0 M Hh E Q Es H. destruct (good_inv _ _ G) as [SA _]. assert (P0 : iPanic (dSess (dA d)) = false) by apply SA.
      eapply reach_step; [exact G|exact M| |].
      - unfold dstep. rewrite (quiet_side verify dh blake3 sha3 stream poly1305 sign ca (dA d) (dNet (dB d)) l x1 P0 Hh E Q Es). reflexivity.
      - intros G1. apply H; [exact G1|reflexivity|reflexivity]. }
    assert (Gen : forall d, good 2 d -> free (dB d) -> iOver (dSess (dA d)) = false -> isDoneState (stateOf (dSess (dA d))) = false ->
      xLoop (xOf (dA d)) = LpGen -> kNextLocal (xKx (xOf (dA d))) = None -> kDone (xKx (xOf (dA d))) = 0 -> reach 2 (asked (dB d)) d).
    { intros d G FB A1 A2 EL Nl D0. destruct (gen_step d (good_less 1 2 d ltac:(lia) G) A1 A2 EL Nl D0) as (x1 & l & d1 & M & E & EB & EA & D1 & a & Lp).
      eapply reach_step; [exact G|exact M|exact E|]. intros G1. rewrite <- EB. apply ask_loop; [exact G1| | |].
      - split; [|rewrite EB; exact FB]. unfold free, xOf. rewrite EA. split; [exact A1|]. split; [exact A2|]. unfold locked. cbn. rewrite Lp. reflexivity.
      - unfold xOf. rewrite EA. exact D1.
      - unfold xOf. rewrite EA. cbn. rewrite Lp. exact I. }
    assert (Go : forall d, good 3 d -> ready d -> xLoop (xOf (dA d)) = LpGo -> kDone (xKx (xOf (dA d))) = 0 -> reach 3 (asked (dB d)) d).
    { intros d G R EL D0. destruct (good_inv _ _ G) as [SA _]. destruct (good_early _ _ G) as [EA _]. destruct (EA D0) as (L0 & _ & Pos).
      assert (P : xPanic (xOf (dA d)) = false) by apply SA. destruct R as [(A1 & A2 & A3) RB].
      destruct (kNextLocal (xKx (xOf (dA d)))) as [q|] eqn:Nl.
      - assert (IP : inProgress (xKx (xOf (dA d))) = true) by (unfold inProgress; apply N.ltb_lt; rewrite L0; apply Pos; discriminate).
        eapply (Quiet 2%nat d _ KLoopCheck G); [split; [split; auto|exact RB]|exact D0|exact I|reflexivity|unfold kstep; rewrite P, EL, IP; reflexivity|repeat split; exact P|reflexivity|].
        intros d1 G1 EB E1. rewrite <- EB. apply (reach_more 1); [lia|]. apply ask_loop; [eapply good_less; [|exact G1]; lia| | |].
        + split; [|rewrite EB; exact RB]. unfold free, xOf. rewrite E1. split; [exact A1|]. split; [exact A2|]. reflexivity.
        + unfold xOf. rewrite E1. exact D0.
        + unfold xOf. rewrite E1. exact I.
      - destruct (no_local _ _ _ _ _ _ SA Nl) as [_ At0].
        assert (IP : inProgress (xKx (xOf (dA d))) = false) by (unfold inProgress; rewrite At0; apply N.ltb_ge; lia).
        eapply (Quiet 2%nat d _ KLoopCheck G); [split; [split; auto|exact RB]|exact D0|exact I|reflexivity|unfold kstep; rewrite P, EL, IP; reflexivity|repeat split; exact P|reflexivity|].
        intros d1 G1 EB E1. rewrite <- EB. apply Gen; [exact G1|rewrite EB; exact RB| | | | |]; unfold xOf; rewrite E1; auto. }
    intros d G R D0. destruct (good_inv _ _ G) as [SA _]. assert (P : xPanic (xOf (dA d)) = false) by apply SA. assert (R0 := R). destruct R as [(A1 & A2 & A3) RB].
    destruct (xLoop (xOf (dA d))) as [| | |a|a] eqn:EL.
    - assert (Cx : kCtxDone (xKx (xOf (dA d))) = false).
      { destruct SA as (_ & _ & _ & B1 & _). unfold xOf. destruct (kCtxDone _); [|reflexivity]. rewrite B1 in A2; [discriminate|reflexivity]. }
      eapply (Quiet 3%nat d _ (KLoopGo (kSkipUntil (xKx (xOf (dA d))))) G R0 D0); [exact I|reflexivity|unfold kstep; rewrite P, EL, Cx, N.ltb_irrefl; reflexivity|repeat split; exact P|reflexivity|].
      intros d1 G1 EB E1. rewrite <- EB. apply Go; [exact G1| | |].
      + split; [|rewrite EB; exact RB]. unfold free, xOf. rewrite E1. split; [exact A1|]. split; [exact A2|]. reflexivity.
      + unfold xOf. rewrite E1. reflexivity.
      + unfold xOf. rewrite E1. exact D0.
    - apply (reach_more 3); [lia|]. apply Go; auto. eapply good_less; [|exact G]; lia.
    - unfold locked in A3. rewrite EL in A3. discriminate.
    - apply (reach_more 1); [lia|]. apply ask_loop; auto; [eapply good_less; [|exact G]; lia|rewrite EL; exact I].
    - apply (reach_more 1); [lia|]. apply ask_loop; auto; [eapply good_less; [|exact G]; lia|rewrite EL; exact I].
  Qed.

  (** *** B gets it *)
  Lemma unmistaken : forall aux kk sid net raw, plainTraffic blake3 stream poly1305 aux kk sid net -> In raw net ->
    bytes_ok raw /\ unmistakable blake3 stream poly1305 aux kk sid raw.
  Proof.
    intros aux kk sid net raw [B U] Hi. split; [rewrite Forall_forall in B; apply B, Hi|]. intros pid body L ->. apply U; auto.
  Qed.

  Definition told (a : side) (st : N) (i : nat) (d : duo) : Prop :=
    ready d /\ dA d = a /\ stateOf (dSess (dB d)) = st /\ nth_error (xAnswers (xOf (dB d))) i = Some ApNew.

  Lemma tell : forall d, good 1 d -> ready d -> hasLocal (xOf (dA d)) -> sent ca pa false (dA d) (dB d) ->
    reach 1 (told (dA d) (stateOf (dSess (dB d))) (length (xAnswers (xOf (dB d))))) d.
  Proof.
    intros d G [RA (B1 & B2 & B3)] HL Sn. destruct (good_inv _ _ G) as [SA SB]. destruct (sent_accepted _ _ _ _ _ Sn) as (w & Ck).
    destruct Sn as (net & raw & En & Pk & _). assert (G0 := G). destruct G as (ls & _ & _ & [_ PA]).
    assert (Nt : nth_error (dNet (dA d)) (length net) = Some raw) by (rewrite En, nth_error_app2, Nat.sub_diag by lia; reflexivity).
    destruct (unmistaken _ _ _ _ raw PA) as [Bo Un]; [eapply nth_error_In; eauto|]. rewrite keyB in Un.
    destruct (recv_kx verify dh blake3 sha3 stream poly1305 sign pubOf id cb ca pb pa (dB d) (dA d) raw _ false w Hb Ha (eq_sym psk) SB Pk Bo Un HL)
      as (s2 & k1 & Ei & Kx & Ov & Kl & Kd & St); auto; [discriminate|].
    eapply (reach_step 0 _ d (DB (SRecv (length net)))); [exact G0|exact I|unfold dstep; cbn [sideStep]; rewrite Nt, Ei; reflexivity|].
    intros _. apply reach_now. split; [split; [exact RA|]|].
    - split; [exact Ov|]. cbn [dB dSess negb andb] in *. rewrite St. split; [exact B2|]. unfold xOf. cbn [dB dSess]. rewrite Kx. exact B3.
    - split; [reflexivity|]. split; [exact St|]. unfold xOf. cbn [dB dSess]. rewrite Kx. cbn [negb addAnswer setX xAnswers].
      rewrite nth_error_app2, Nat.sub_diag by (unfold xOf; lia). reflexivity.
  Qed.

  (** *** B answers *)
  Definition answered (a : side) (st : N) (d : duo) : Prop :=
    ready d /\ dA d = a /\ stateOf (dSess (dB d)) = st /\ hasLocal (xOf (dB d)) /\ sent cb pb true (dB d) (dA d).

  Lemma answerB : forall i n pc, match pc with ApSend => n = 1%nat | ApSkip => n = 2%nat | ApGen => n = 3%nat | ApCheck => n = 4%nat | ApNew => n = 5%nat | ApDone => False end ->
    forall d, good n d -> ready d -> nth_error (xAnswers (xOf (dB d))) i = Some pc ->
    match pc with ApGen | ApCheck => kNextLocal (xKx (xOf (dB d))) = None | _ => True end ->
    reach n (answered (dA d) (stateOf (dSess (dB d)))) d.
  Proof.
    intros i.
    assert (Quiet : forall n d x1 l, good (S n) d -> ready d -> may d (DB (SKx l)) -> isHandle l = false ->
      kstep verify dh blake3 sha3 (icKx cb) (xOf (dB d)) l = Some x1 -> quiet (dB d) x1 -> xSent x1 = xSent (xOf (dB d)) -> xLoop x1 = xLoop (xOf (dB d)) ->
      (forall d1, good n d1 -> ready d1 -> xOf (dB d1) = x1 -> reach n (answered (dA d1) (stateOf (dSess (dB d1)))) d1) ->
      reach (S n) (answered (dA d) (stateOf (dSess (dB d)))) d).
    { intros n d x1 l G R M Hh E Q Es El H. destruct (good_inv _ _ G) as [_ SB]. assert (P0 : iPanic (dSess (dB d)) = false) by apply SB.
      destruct R as [RA (B1 & B2 & B3)].
      eapply reach_step; [exact G|exact M| |].
      - unfold dstep. rewrite (quiet_side verify dh blake3 sha3 stream poly1305 sign cb (dB d) (dNet (dA d)) l x1 P0 Hh E Q Es). reflexivity.
      - intros G1. apply (H _ G1); [|reflexivity]. split; [exact RA|]. split; [exact B1|]. split; [exact B2|].
        unfold locked in *. unfold xOf at 1. cbn. rewrite El. exact B3. }
    assert (Send : forall d, good 1 d -> ready d -> nth_error (xAnswers (xOf (dB d))) i = Some ApSend -> reach 1 (answered (dA d) (stateOf (dSess (dB d)))) d).
    { intros d G [RA (B1 & B2 & B3)] En. destruct (good_inv _ _ G) as [SA SB].
      assert (K : hasLocal (xOf (dB d)) /\ xPanic (xOf (dB d)) = false).
      { destruct SB as ((_ & _ & _ & _ & _ & _ & _ & F & _ & P & _) & _). split; [|exact P]. rewrite Forall_forall in F. apply (F ApSend). eapply nth_error_In; eauto. }
      destruct K as [K P]. assert (Pb := local_pub _ _ _ _ _ _ SB K).
      set (x1 := setAnswer (addSent (xOf (dB d)) (msgOf pubOf (icKx cb) pb true)) i ApDone).
      assert (E : kstep verify dh blake3 sha3 (icKx cb) (xOf (dB d)) (KAnswer i 0) = Some x1).
      { unfold kstep. rewrite P, En, (sent_message _ _ _ _ Pb). reflexivity. }
      destruct (send_side verify dh blake3 sha3 stream poly1305 sign pubOf id cb ca pb pa (dB d) (dA d) (dNet (dA d)) (KAnswer i 0) x1 true Hb Ha SB
                  I eq_refl E (conj P (conj eq_refl eq_refl)) B2 eq_refl) as (raw & Ex & Pk).
      eapply (reach_step 0 _ d (DB (SKx (KAnswer i 0)))); [exact G|exact I|unfold dstep; rewrite Ex; reflexivity|]. intros _. apply reach_now.
      split; [split; [exact RA|split; [exact B1|split; [exact B2|exact B3]]]|]. split; [reflexivity|]. split; [reflexivity|]. split; [exact K|].
      apply just_sent; [|exact Pk]. exact (proj2 (good_newer _ _ G)). }
    assert (Skip : forall d, good 2 d -> ready d -> nth_error (xAnswers (xOf (dB d))) i = Some ApSkip -> reach 2 (answered (dA d) (stateOf (dSess (dB d)))) d).
    { intros d G R En. destruct (good_inv _ _ G) as [_ SB]. assert (P : xPanic (xOf (dB d)) = false) by apply SB.
      eapply (Quiet 1%nat d _ (KAnswer i 0) G R I eq_refl); [unfold kstep; rewrite P, En; reflexivity|repeat split; exact P|reflexivity|reflexivity|].
      intros d1 G1 R1 E1. apply Send; auto. rewrite E1. eapply nth_set. exact En. }
    assert (Gen : forall d, good 3 d -> ready d -> nth_error (xAnswers (xOf (dB d))) i = Some ApGen -> kNextLocal (xKx (xOf (dB d))) = None ->
      reach 3 (answered (dA d) (stateOf (dSess (dB d)))) d).
    { intros d G R En Nl. destruct (good_inv _ _ G) as [_ SB]. assert (P : xPanic (xOf (dB d)) = false) by apply SB. destruct SB as (KIx & _).
      assert (HNL : ~ hasLocal (xOf (dB d))) by (unfold hasLocal; rewrite Nl; intros H; apply H; reflexivity). destruct id as [I1 I2 I3 I4 I5 I6 I7 I8 I9].
      destruct (KI_install dh blake3 sha3 pubOf I2 I3 I4 (icKx cb) (icKx ca) pb (pubOf pa) _ _ 1 KIx HNL) as (k1 & Ei & R1 & R2 & R3 & R4 & R5 & R6 & R7 & R8 & R9 & R10 & R11).
      eapply (Quiet 2%nat d _ (KAnswerGen i pb (pubOf pb) 1) G R); [split; [reflexivity|split; [reflexivity|exact Nl]]|reflexivity|
        unfold kstep; rewrite P, En; unfold xOf; rewrite Ei; reflexivity|split; [exact P|split; [exact R9|exact R10]]|reflexivity|reflexivity|].
      intros d1 G1 Rd1 E1. apply Skip; auto. rewrite E1. cbn [setAnswer addLog setX xAnswers]. eapply nth_set. exact En. }
    assert (Check : forall d, good 4 d -> ready d -> nth_error (xAnswers (xOf (dB d))) i = Some ApCheck -> kNextLocal (xKx (xOf (dB d))) = None ->
      reach 4 (answered (dA d) (stateOf (dSess (dB d)))) d).
    { intros d G R En Nl. destruct (good_inv _ _ G) as [_ SB]. assert (P : xPanic (xOf (dB d)) = false) by apply SB. destruct (no_local _ _ _ _ _ _ SB Nl) as [_ At0].
      assert (IP : inProgress (xKx (xOf (dB d))) = false) by (unfold inProgress; rewrite At0; apply N.ltb_ge; lia).
      eapply (Quiet 3%nat d _ (KAnswer i 0) G R I eq_refl); [unfold kstep; rewrite P, En, IP; reflexivity|repeat split; exact P|reflexivity|reflexivity|].
      intros d1 G1 R1 E1. apply Gen; auto; rewrite E1; [|exact Nl]. eapply nth_set. exact En. }
    intros n pc Hn d G R En Nl. destruct pc; try contradiction; subst n; auto.
    destruct (good_inv _ _ G) as [_ SB]. assert (P : xPanic (xOf (dB d)) = false) by apply SB.
    destruct (kNextLocal (xKx (xOf (dB d)))) as [q|] eqn:NL.
    - assert (Pb := local_pub _ _ _ _ _ _ SB ltac:(unfold hasLocal; congruence)).
      eapply (Quiet 4%nat d _ (KAnswer i 0) G R I eq_refl); [unfold kstep; rewrite P, En, Pb; reflexivity|repeat split; exact P|reflexivity|reflexivity|].
      intros d1 G1 R1 E1. apply (reach_more 1); [lia|]. apply Send; auto; [eapply good_less; [|exact G1]; lia|]. rewrite E1. eapply nth_set. exact En.
    - destruct (no_local _ _ _ _ _ _ SB NL) as [Pb _].
      eapply (Quiet 4%nat d _ (KAnswer i 0) G R I eq_refl); [unfold kstep; rewrite P, En, Pb; reflexivity|repeat split; exact P|reflexivity|reflexivity|].
      intros d1 G1 R1 E1. apply Check; auto; rewrite E1; [|exact NL]. eapply nth_set. exact En.
  Qed.

  (** *** A gets the answer *)
  Lemma finish : forall d, good 1 d -> ready d -> kDone (xKx (xOf (dA d))) = 0 -> hasLocal (xOf (dA d)) -> hasLocal (xOf (dB d)) -> sent cb pb true (dB d) (dA d) ->
    reach 1 (fun d' => ready d' /\ stateOf (dSess (dA d')) = SessionStateEstablished /\ dB d' = dB d) d.
  Proof.
    intros d G [(A1 & A2 & A3) RB] D0 HLa HLb Sn. destruct (good_inv _ _ G) as [SA SB]. destruct (sent_accepted _ _ _ _ _ Sn) as (w & Ck).
    destruct Sn as (net & raw & En & Pk & _). assert (G0 := G). destruct G as (ls & _ & _ & [PB _]).
    assert (Nt : nth_error (dNet (dB d)) (length net) = Some raw) by (rewrite En, nth_error_app2, Nat.sub_diag by lia; reflexivity).
    destruct (unmistaken _ _ _ _ raw PB) as [Bo Un]; [eapply nth_error_In; eauto|]. rewrite keyA in Un.
    destruct (recv_kx verify dh blake3 sha3 stream poly1305 sign pubOf id ca cb pa pb (dA d) (dB d) raw _ true w Ha Hb psk SA Pk Bo Un HLb)
      as (s2 & k1 & Ei & Kx & Ov & Kl & Kd & St); auto.
    eapply (reach_step 0 _ d (DA (SRecv (length net)))); [exact G0|exact I|unfold dstep; cbn [sideStep]; rewrite Nt, Ei; reflexivity|].
    intros _. apply reach_now. rewrite D0 in St. change (true && (0 =? 0)) with true in St. cbn match in St.
    split; [split; [|exact RB]|split; [exact St|reflexivity]].
    split; [exact Ov|]. cbn [dA dSess]. rewrite St. split; [reflexivity|]. unfold xOf. cbn [dA dSess]. rewrite Kx. exact A3.
  Qed.

  Definition halfway (st : N) (d : duo) : Prop :=
    ready d /\ stateOf (dSess (dA d)) = SessionStateEstablished /\ stateOf (dSess (dB d)) = st.

  Lemma half : forall d, good 11 d -> ready d -> reach 11 (halfway (stateOf (dSess (dB d)))) d.
  Proof.
    intros d G R. destruct (good_inv _ _ G) as [SA SB].
    destruct (N.eq_0_gt_0_cases (kDone (xKx (xOf (dA d))))) as [D0|D0].
    2: { apply reach_now. split; [exact R|]. split; [|reflexivity]. destruct SA as (_ & _ & _ & _ & B2 & _). destruct R as [(_ & A2 & _) _].
      destruct B2 as [(_ & Z)|[(Z & _)|[Z|Z]]]; [unfold xOf in D0; lia|exact Z|rewrite Z in A2; discriminate|rewrite Z in A2; discriminate]. }
    apply (reach_bind 4 7 (asked (dB d)) _ d G (ask d (good_less 4 11 d ltac:(lia) G) R D0)). intros d1 G1 (R1 & E1 & D1 & L1 & S1). rewrite <- E1.
    apply (reach_bind 1 6 _ _ d1 G1 (tell d1 (good_less 1 7 d1 ltac:(lia) G1) R1 L1 S1)). intros d2 G2 (R2 & E2 & T2 & A2). rewrite <- T2.
    apply (reach_bind 5 1 _ _ d2 G2 (answerB _ 5 ApNew eq_refl d2 (good_less 5 6 d2 ltac:(lia) G2) R2 A2 I)). intros d3 G3 (R3 & E3 & T3 & L3 & S3).
    rewrite E2 in E3. rewrite <- T3.
    destruct (finish d3 G3 R3) as (ls & d4 & L4 & R4 & H4); auto; [rewrite E3; exact D1|rewrite E3; exact L1|].
    exists ls, d4. split; [exact L4|]. split; [exact R4|]. intros P4. destruct (H4 P4) as (Q1 & Q2 & Q3). split; [exact Q1|]. split; [exact Q2|]. rewrite Q3. reflexivity.
  Qed.
End Reach.
