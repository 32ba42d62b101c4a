(** C131: between two honest sessions a message is delivered at once when its
    packet is the newest, and with a small window at most once. *)
From Coq Require Import NArith Arith List Bool Lia Permutation.
From Verif Require Import Base BaseLemmas TS MessageModel PacketIDModel PacketIDSpec PacketIDProofs PacketIDRun ReaderModel ReaderLoopModel PacketModel PacketSpec
  PacketProps StateModel KxModel KxProps KxPairModel KxPairProps IntegModel IntegSafe DuoModel DuoSpec DuoProofs DuoProps.
Import ListNotations.
Local Open Scope N_scope.

Definition payloadOf (log : list (N * option bytes)) (i : N) : list bytes :=
  flat_map (fun e => if fst e =? i then optl (snd e) else []) log.

Lemma increasing_le : forall l m i, increasing_from m l -> In i l -> m < i.
Proof.
  induction l as [|x l IH]; intros m i H Hi; [destruct Hi|]. destruct H as [H1 H2]. destruct Hi as [<-|Hi]; [exact H1|].
  specialize (IH x i H2 Hi). lia.
Qed.

Lemma increasing_snoc : forall l m i, increasing_from m l -> m < i -> (forall j, In j l -> j < i) -> increasing_from m (l ++ [i]).
Proof.
  induction l as [|x l IH]; intros m i H Hm Hj; cbn [app increasing_from] in *; [auto|]. destruct H as [H1 H2]. split; [exact H1|].
  apply IH; auto. apply Hj. left. reflexivity. intros j Hj'. apply Hj. right. exact Hj'.
Qed.

Lemma increasing_nodup : forall l m, increasing_from m l -> NoDup l.
Proof.
  induction l as [|x l IH]; intros m H; constructor.
  - destruct H as [_ H]. intros Hi. pose proof (increasing_le _ _ _ H Hi). lia.
  - destruct H as [_ H]. eapply IH; eauto.
Qed.

Lemma payload_absent : forall log i, ~ In i (map fst log) -> payloadOf log i = [].
Proof.
  induction log as [|e log IH]; intros i H; [reflexivity|]. unfold payloadOf in *. cbn [flat_map map In] in *.
  destruct (N.eqb_spec (fst e) i) as [E|_]; [exfalso; auto|]. apply IH. auto.
Qed.

Lemma payload_at : forall log n e, NoDup (map fst log) -> nth_error log n = Some e -> payloadOf log (fst e) = optl (snd e).
Proof.
  induction log as [|e0 log IH]; intros n e H E; [destruct n; discriminate|]. cbn [map] in H. inversion H as [|x l Hx Hl]; subst.
  unfold payloadOf. cbn [flat_map]. destruct n as [|n]; cbn [nth_error] in E.
  - injection E as <-. rewrite N.eqb_refl. change (flat_map _ log) with (payloadOf log (fst e0)). rewrite (payload_absent _ _ Hx), app_nil_r. reflexivity.
  - destruct (N.eqb_spec (fst e0) (fst e)) as [Z|_].
    + exfalso. apply Hx. rewrite Z. apply in_map. eapply nth_error_In; eauto.
    + cbn [app]. apply (IH n); auto.
Qed.

Lemma payload_snoc : forall log e i, i <> fst e -> payloadOf (log ++ [e]) i = payloadOf log i.
Proof.
  intros log e i H. unfold payloadOf. rewrite flat_map_app. cbn [flat_map]. destruct (N.eqb_spec (fst e) i); [congruence|]. rewrite app_nil_r. reflexivity.
Qed.

Lemma payload_all : forall log, NoDup (map fst log) -> flat_map (payloadOf log) (map fst log) = flat_map (fun e => optl (snd e)) log.
Proof.
  intros log ND. assert (H : forall l, incl l log -> flat_map (payloadOf log) (map fst l) = flat_map (fun e => optl (snd e)) l).
  { induction l as [|e l IH]; intros I; [reflexivity|]. cbn [map flat_map]. rewrite IH by (intros z Hz; apply I; right; exact Hz).
    destruct (In_nth_error log e (I e (or_introl eq_refl))) as [n En]. rewrite (payload_at log n e ND En). reflexivity. }
  apply H, incl_refl.
Qed.

Lemma flat_map_perm : forall A B (f : A -> list B) l l', Permutation l l' -> Permutation (flat_map f l) (flat_map f l').
Proof.
  intros A B f l l' H. induction H as [|x l l' H IH|x y l|l l' l'' _ IH1 _ IH2]; cbn [flat_map].
  - constructor.
  - apply Permutation_app_head. exact IH.
  - rewrite !app_assoc. apply Permutation_app_tail, Permutation_app_comm.
  - eapply Permutation_trans; eauto.
Qed.

Lemma nodup_part : forall (a l : list N), NoDup a -> incl a l -> NoDup l -> exists r, Permutation (a ++ r) l.
Proof.
  induction a as [|x a IH]; intros l Ha Hi Hl; [exists l; reflexivity|]. inversion Ha as [|y b Hx Ha']; subst.
  destruct (in_split x l (Hi x (or_introl eq_refl))) as (l1 & l2 & ->).
  destruct (IH (l1 ++ l2)) as [r Hr]; auto.
  - intros z Hz. assert (z <> x) by (intros ->; contradiction). specialize (Hi z (or_intror Hz)). apply in_app_or in Hi. apply in_or_app.
    destruct Hi as [Hi|[Hi|Hi]]; auto. congruence.
  - apply NoDup_remove_1 in Hl. exact Hl.
  - exists r. cbn [app]. apply Permutation_cons_app. exact Hr.
Qed.

Section Once.
  Variable verify : bytes -> bytes -> bytes -> bool.
  Variable dh : bytes -> bytes -> bytes.
  Variable blake3 sha3 : bytes -> bytes.
  Variable stream : bytes -> bytes -> nat -> N.
  Variable poly1305 : bytes -> bytes -> bytes.
  Variable sign : bytes -> bytes -> bytes.
  Variable pubOf : bytes -> bytes.

  Notation asPacket := (packetAs dh blake3 sha3 stream poly1305 sign pubOf).
  Notation eff := (effect dh blake3 sha3 stream poly1305 sign pubOf).

  (** The packets of [y], its window as kept by [x], the queue of [x]. [T]: number of steps. *)
  Definition words (o : sizeOption) : nat := match sessionStorage o with Some st => length (table st) | None => O end.

  Definition LI (o : sizeOption) (c' : iconf) (p' q : bytes) (x y : side) (T : N) : Prop :=
    exists log,
      Forall2 (fun raw e => asPacket c' p' q y x raw (fst e) (snd e)) (dNet y) log /\
      increasing_from 0 (map fst log) /\ Forall (fun e => fst e <= iNext (dSess y)) log /\ iNext (dSess y) <= T /\
      flat_map (fun e => optl (snd e)) log = dWrote y /\
      match iWin (dSess x) with
      | None => o = NegSize
      | Some st => exists acc, Sound (words o) st acc /\ ((words o <= 1)%nat -> Complete st acc /\ NoDup acc) /\ incl acc (map fst log) /\
          queued (dSess x) = flat_map (payloadOf log) (rev acc)
      end.

  Lemma LI_init : forall c' p' q ra wa rb wb md mf T, LI wa c' p' q (sideInit ra wa md mf) (sideInit rb wb md mf) T.
  Proof.
    intros. exists []. split; [constructor|]. split; [exact I|]. split; [constructor|]. split; [cbn; lia|]. split; [reflexivity|].
    cbn [sideInit dSess isessInit iWin]. destruct wa as [|n]; [reflexivity|].
    destruct (session_storage_some n) as (st & E & S & C & _). rewrite E. exists [].
    split; [unfold words; rewrite E; exact S|]. split; [intros _; split; [exact C|constructor]|]. split; [intros z []|reflexivity].
  Qed.

  Lemma forall2_mono : forall A B (P Q : A -> B -> Prop) l m, Forall2 P l m -> (forall a b, P a b -> Q a b) -> Forall2 Q l m.
  Proof. intros A B P Q l m H F. induction H; constructor; auto. Qed.

  Lemma forall2_nth : forall A B (P : A -> B -> Prop) l m n a, Forall2 P l m -> nth_error l n = Some a -> exists b, nth_error m n = Some b /\ P a b.
  Proof.
    intros A B P l m n a H. revert n. induction H as [|x y l m Hxy H IH]; intros [|n] E; try discriminate.
    - injection E as <-. exists y. auto.
    - apply IH. exact E.
  Qed.

  (** The receiver moves. *)
  Lemma LI_receiver : forall w0 c c' p p' x y l x' T, LI w0 c' p' (pubOf p) x y T -> T < 2^64 ->
    (hasLocal (xOf x) -> hasLocal (xOf x')) -> (hasRemote (xOf x) -> hasRemote (xOf x')) -> eff c c' p p' x y l x' ->
    LI w0 c' p' (pubOf p) x' y T.
  Proof.
    intros wd c c' p p' x y l x' T (log & F & Inc & Le & LeT & Wr & W) HT HL HR E.
    assert (F' : Forall2 (fun raw e => asPacket c' p' (pubOf p) y x' raw (fst e) (snd e)) (dNet y) log).
    { eapply forall2_mono; [exact F|]. intros raw e H. eapply packetAs_mono; [exact H|auto|auto|apply incl_refl|]. intros [H1 H2]. split; auto. }
    assert (G : iWin (dSess x') = iWin (dSess x) -> queued (dSess x') = queued (dSess x) -> LI wd c' p' (pubOf p) x' y T).
    { intros E1 E2. exists log. rewrite E1, E2. auto 10. }
    unfold effect in E. destruct l as [k|n|pl| |]; try (destruct E as (E1 & E2 & _); auto; fail).
    destruct E as (_ & _ & _ & raw & En & E). destruct (forall2_nth _ _ _ _ _ _ _ F En) as ([v o] & El & Pk). cbn [fst snd] in Pk.
    destruct (E v o Pk) as (w & b & Ck & Ew & Eq). exists log. split; [exact F'|]. split; [exact Inc|]. split; [exact Le|]. split; [exact LeT|].
    split; [exact Wr|]. rewrite Ew. assert (Hin := nth_error_In _ _ El).
    assert (V : v < 2^64) by (rewrite Forall_forall in Le; specialize (Le _ Hin); cbn [fst] in Le; lia).
    assert (Vv : packetIDValue (packetIDBytes v) = v) by (unfold packetIDValue, packetIDBytes; apply le_dec_enc; exact V).
    rewrite Vv in Ck. destruct (iWin (dSess x)) as [st|]; cbn [checkAndRemember] in Ck; [|injection Ck as <- _; exact W].
    destruct W as (acc & S & Cm & Ia & Q). destruct (push_sound (words wd) st acc v S V) as (st1 & b1 & Ep & S1 & _). rewrite Ep in Ck.
    injection Ck as <- <-. exists (if b1 then v :: acc else acc). split; [exact S1|].
    split.
    { intros Hw. destruct (Cm Hw) as [C0 N0]. destruct (push_complete (words wd) st acc v S C0 V) as (st2 & b2 & Ep2 & C2 & NI).
      { unfold jump_ok. destruct (N.le_gt_cases (v - latest st) 64); [auto|]. right. right. lia. }
      rewrite Ep in Ep2. injection Ep2 as <- <-. split; [exact C2|]. destruct b1; [constructor; auto|exact N0]. }
    split.
    { destruct b1; [|exact Ia]. intros z [<-|Hz]; [|apply Ia, Hz]. change v with (fst (v, o)). apply in_map. exact Hin. }
    rewrite Eq, Q. destruct b1; [|rewrite app_nil_r; reflexivity]. cbn [rev]. rewrite flat_map_app. cbn [flat_map]. rewrite app_nil_r. f_equal.
    symmetry. change v with (fst (v, o)). apply (payload_at log n (v, o)); [eapply increasing_nodup; eauto|exact El].
  Qed.

  (** The sender moves. *)
  Lemma LI_sender : forall w0 c c' p p' x y l y' T, LI w0 c' p' (pubOf p) x y T -> T + 1 < 2^64 ->
    (hasLocal (xOf y) -> hasLocal (xOf y')) -> (hasRemote (xOf y) -> hasRemote (xOf y')) -> incl (dWrote y) (dWrote y') ->
    eff c' c p' p y x l y' -> LI w0 c' p' (pubOf p) x y' (T + 1).
  Proof.
    intros wd c c' p p' x y l y' T (log & F & Inc & Le & LeT & Wr & W) HT HL HR HW E.
    assert (F' : Forall2 (fun raw e => asPacket c' p' (pubOf p) y' x raw (fst e) (snd e)) (dNet y) log).
    { eapply forall2_mono; [exact F|]. intros raw e H. eapply packetAs_mono; [exact H|auto|auto|exact HW|auto]. }
    assert (Nx : add64 (iNext (dSess y)) 1 = iNext (dSess y) + 1) by (unfold add64; apply N.mod_small; lia).
    assert (G : dNet y' = dNet y -> dWrote y' = dWrote y -> (iNext (dSess y') = iNext (dSess y) \/ iNext (dSess y') = add64 (iNext (dSess y)) 1) ->
                LI wd c' p' (pubOf p) x y' (T + 1)).
    { intros E1 E2 E3. exists log. rewrite E1, E2. split; [exact F'|]. split; [exact Inc|]. rewrite Nx in E3.
      split; [eapply Forall_impl; [|exact Le]; cbn beta; intros a Ha; lia|]. split; [lia|]. auto. }
    assert (G2 : grew dh blake3 sha3 stream poly1305 sign pubOf c' p' (pubOf p) y y' x -> LI wd c' p' (pubOf p) x y' (T + 1)).
    { intros (_ & _ & [(E1 & E2 & E3)|(raw & o & E1 & E2 & E3 & E4)]); [apply G; auto|]. rewrite Nx in E3, E4. set (v := iNext (dSess y) + 1) in *.
      assert (Lt : forall j, In j (map fst log) -> j < v).
      { intros j Hj. apply in_map_iff in Hj. destruct Hj as (e & <- & He). rewrite Forall_forall in Le. specialize (Le e He). cbn beta in Le. unfold v. lia. }
      exists (log ++ [(v, o)]). rewrite E1, E2, E3. split; [apply Forall2_app; [exact F'|constructor; [exact E4|constructor]]|].
      split; [rewrite map_app; apply increasing_snoc; [exact Inc|cbn [fst]; unfold v; lia|exact Lt]|].
      split; [apply Forall_app; split; [eapply Forall_impl; [|exact Le]; cbn beta; intros a Ha; unfold v; lia|constructor; [cbn; lia|constructor]]|].
      split; [unfold v; lia|]. split; [rewrite flat_map_app, Wr; cbn [flat_map]; rewrite app_nil_r; reflexivity|].
      destruct (iWin (dSess x)) as [st|]; [|exact W]. destruct W as (acc & S & C & Ia & Q). exists acc. split; [exact S|]. split; [exact C|].
      split; [intros z Hz; rewrite map_app; apply in_or_app; left; apply Ia, Hz|]. rewrite Q.
      assert (Hr : forall z, In z (rev acc) -> In z (map fst log)) by (intros z Hz; apply Ia; apply in_rev; exact Hz).
      revert Hr. generalize (rev acc). induction l0 as [|z r IH]; intros Hr; [reflexivity|]. cbn [flat_map]. rewrite payload_snoc, IH; auto.
      - intros z' Hz'. apply Hr. right. exact Hz'.
      - cbn [fst]. specialize (Lt z (Hr z (or_introl eq_refl))). lia. }
    unfold effect in E. destruct l as [k|n|pl| |]; try (apply G2; exact E; fail).
    destruct E as (E1 & E2 & E3 & _). apply G; auto.
  Qed.

  Lemma LI_later : forall w c' p' q x y T T', LI w c' p' q x y T -> T <= T' -> LI w c' p' q x y T'.
  Proof. intros w c' p' q x y T T' (log & A & B & C & D & E) H. exists log. repeat split; try tauto. lia. Qed.

  Variables ca cb : iconf.
  Variables pa pb : bytes.
  Hypothesis id : ideal verify dh sha3 stream poly1305 sign pubOf.
  Hypothesis Ha : honestConf ca.
  Hypothesis Hb : honestConf cb.
  Hypothesis psk : cPSK (icKx ca) = cPSK (icKx cb).
  Notation run := (firstKeysRun verify dh blake3 sha3 stream poly1305 sign pubOf ca cb pa pb).
  Notation plain := (plainTraffic blake3 stream poly1305).
  Notation sinv := (SI dh blake3 sha3 stream poly1305 sign pubOf True).

  Lemma once_inv : forall wa wb md mf k ls d, sharedKey dh blake3 sha3 (cPSK (icKx ca)) pa (pubOf pb) k ->
    run (duoInit ca cb wa wb md mf) ls d ->
    plain (auxKey blake3 sha3 cb) k (sessBytes (cSession (icKx cb))) (dNet (dB d)) ->
    plain (auxKey blake3 sha3 ca) k (sessBytes (cSession (icKx ca))) (dNet (dA d)) ->
    N.of_nat (length ls) < 2^64 ->
    LI wa cb pb (pubOf pa) (dA d) (dB d) (N.of_nat (length ls)) /\ LI wb ca pa (pubOf pb) (dB d) (dA d) (N.of_nat (length ls)).
  Proof.
    intros wa wb md mf k ls d Hk R. assert (Ek := shared_mk verify dh blake3 sha3 stream poly1305 sign pubOf id _ _ _ _ Hk).
    assert (Sym : mk dh blake3 sha3 (cPSK (icKx ca)) pa (pubOf pb) = mk dh blake3 sha3 (cPSK (icKx cb)) pb (pubOf pa)).
    { rewrite psk. apply mkey_sym. exact (id_dh_comm _ _ _ _ _ _ _ id). }
    induction R as [|ls d l d' R IH HO E]; intros PB PA HT.
    - split; apply LI_init.
    - rewrite app_length, Nnat.Nat2N.inj_add in *. cbn [length] in *. change (N.of_nat 1) with 1 in *.
      set (T := N.of_nat (length ls)) in *. assert (HT' : T < 2^64) by lia. unfold dstep in E. destruct l as [l|l].
      + destruct (sideStep _ _ _ _ _ _ _ ca (dA d) (dNet (dB d)) l) as [x|] eqn:Ex; [|discriminate]. injection E as <-. cbn [dA dB] in *.
        assert (PA' := plain_incl blake3 stream poly1305 _ _ _ _ _ PA (side_net _ _ _ _ _ _ _ _ _ _ _ _ Ex)).
        destruct (IH PB PA' HT') as [LA LB].
        destruct (duo_inv verify dh blake3 sha3 stream poly1305 sign pubOf ca cb pa pb id Ha Hb psk True wa wb md mf k ls d Hk R PB PA') as [SA SB].
        rewrite Ek in PB.
        destruct (side_ok verify dh blake3 sha3 stream poly1305 sign pubOf id True ca cb pa pb _ _ l x Ha Hb psk PB SA SB HO Ex) as (_ & _ & M1 & M2 & M3 & Ef).
        split.
        * apply (LI_later _ _ _ _ _ _ T); [|lia]. eapply LI_receiver; eauto.
        * eapply LI_sender; eauto.
      + destruct (sideStep _ _ _ _ _ _ _ cb (dB d) (dNet (dA d)) l) as [x|] eqn:Ex; [|discriminate]. injection E as <-. cbn [dA dB] in *.
        assert (PB' := plain_incl blake3 stream poly1305 _ _ _ _ _ PB (side_net _ _ _ _ _ _ _ _ _ _ _ _ Ex)).
        destruct (IH PB' PA HT') as [LA LB].
        destruct (duo_inv verify dh blake3 sha3 stream poly1305 sign pubOf ca cb pa pb id Ha Hb psk True wa wb md mf k ls d Hk R PB' PA) as [SA SB].
        rewrite Ek, Sym in PA.
        destruct (side_ok verify dh blake3 sha3 stream poly1305 sign pubOf id True cb ca pb pa _ _ l x Hb Ha (eq_sym psk) PA SB SA HO Ex) as (_ & _ & M1 & M2 & M3 & Ef).
        split.
        * eapply LI_sender; eauto.
        * apply (LI_later _ _ _ _ _ _ T); [|lia]. eapply LI_receiver; eauto.
  Qed.

  Lemma LI_once : forall w c' p' q x y T, LI w c' p' q x y T -> (words w <= 1)%nat -> w <> NegSize ->
    exists rest, Permutation (queued (dSess x) ++ rest) (dWrote y).
  Proof.
    intros w c' p' q x y T (log & _ & Inc & _ & _ & Wr & W) Hw Ew. destruct (iWin (dSess x)) as [st|]; [|contradiction]. destruct W as (acc & _ & C & Ia & Q).
    destruct (C Hw) as [_ ND]. assert (NL := increasing_nodup _ _ Inc).
    destruct (nodup_part (rev acc) (map fst log)) as [r Hr]; auto.
    - apply NoDup_rev. exact ND.
    - intros z Hz. apply Ia, in_rev, Hz.
    - exists (flat_map (payloadOf log) r). rewrite Q, <- flat_map_app, <- Wr, <- (payload_all log NL). apply flat_map_perm. exact Hr.
  Qed.

  (** The newest packet. *)
  Lemma deliver : forall o c c' p p' x y T pl k, honestConf c -> honestConf c' -> cPSK (icKx c) = cPSK (icKx c') ->
    k = mk dh blake3 sha3 (cPSK (icKx c)) p (pubOf p') -> k = mk dh blake3 sha3 (cPSK (icKx c')) p' (pubOf p) ->
    plain (auxKey blake3 sha3 c) k (sessBytes (cSession (icKx c))) (dNet x) ->
    sinv c c' p p' x y -> sinv c' c p' p y x -> LI o c' p' (pubOf p) x y T -> T + 1 < 2^64 ->
    stateOf (dSess y) = SessionStateEstablished -> len pl + 53 < 2^32 ->
    exists y', sideStep verify dh blake3 sha3 stream poly1305 sign c' y (dNet x) (SWrite pl) = Some y' /\ dWrote y' = dWrote y ++ [pl] /\
      (plain (auxKey blake3 sha3 c') k (sessBytes (cSession (icKx c'))) (dNet y') ->
       iOver (dSess x) = false -> isDoneState (stateOf (dSess x)) = false -> locked (iKx (dSess x)) = false ->
       exists x', sideStep verify dh blake3 sha3 stream poly1305 sign c x (dNet y') (SRecv (length (dNet y))) = Some x' /\
         queued (dSess x') = queued (dSess x) ++ [pl]).
  Proof.
    intros o c c' p p' x y T pl k Hc Hc' Hp Ek Ek' Pn SX SY L HT St Hl. assert (Id := id). destruct id as [I1 I2 I3 I4 I5 I6 I7 I8 I9].
    assert (Np : iPanic (dSess y) = false) by apply SY.
    assert (SY0 : sinv c' c p' p (withSess y (dSess y)) x) by (destruct y; exact SY).
    destruct (hand_over_ok dh blake3 sha3 stream poly1305 sign pubOf I1 I2 I3 I4 I6 I8 True c' c p' p y (dSess y) x true
                (encodeMsg MessageTypeReadWrite (setIsConfidential 0 true) pl) [pl] Hc' Hc SY0)
      as (y' & Ey & SY' & Ky & raw & En & Ew & Ei & Eq & Ex & Pk).
    { right. split; [reflexivity|]. split; [exact St|]. exists pl. auto. }
    assert (E : sideStep verify dh blake3 sha3 stream poly1305 sign c' y (dNet x) (SWrite pl) = Some y').
    { cbn [sideStep]. rewrite Np, St. replace (2^32 <=? len pl + 53) with false by (symmetry; apply N.leb_gt; exact Hl). exact Ey. }
    exists y'. split; [exact E|]. split; [exact Ew|]. intros PB F1 F2 F3.
    rewrite Ek' in Pn. destruct (side_ok verify dh blake3 sha3 stream poly1305 sign pubOf Id True c' c p' p y x (SWrite pl) y' Hc' Hc (eq_sym Hp) Pn SY SX I E) as (S1 & S2 & _).
    assert (Nt : nth_error (dNet y') (length (dNet y)) = Some raw) by (rewrite En, nth_error_app2, Nat.sub_diag by lia; reflexivity).
    assert (Ex2 : exists x', sideStep verify dh blake3 sha3 stream poly1305 sign c x (dNet y') (SRecv (length (dNet y))) = Some x').
    { cbn [sideStep]. rewrite Nt. unfold istep. replace (iPanic (dSess x)) with false by (symmetry; apply SX). rewrite F1, F2, F3. cbn [orb].
      destruct (iReceive _ _ _ _ _ _ _ _ _); eexists; reflexivity. }
    destruct Ex2 as (x' & Ex2). exists x'. split; [exact Ex2|]. rewrite Ek in PB.
    destruct (side_ok verify dh blake3 sha3 stream poly1305 sign pubOf Id True c c' p p' x y' (SRecv (length (dNet y))) x' Hc Hc' Hp PB S2 S1 I Ex2) as (_ & _ & _ & _ & _ & Ef).
    destruct Ef as (_ & _ & _ & raw' & Nt' & Ef). rewrite Nt in Nt'. injection Nt' as <-.
    destruct (Ef _ _ Pk) as (w & b & Ck & _ & Q). cbn [hd_error optl] in Q. rewrite Q. destruct b; [reflexivity|].
    exfalso. destruct L as (log & _ & _ & Le & LeT & _ & W).
    assert (Nx : add64 (iNext (dSess y)) 1 = iNext (dSess y) + 1) by (unfold add64; apply N.mod_small; lia). rewrite Nx in Ck.
    replace (packetIDValue (packetIDBytes (iNext (dSess y) + 1))) with (iNext (dSess y) + 1) in Ck
      by (symmetry; unfold packetIDValue, packetIDBytes; apply le_dec_enc; cbn; lia).
    destruct (iWin (dSess x)) as [st|]; cbn [checkAndRemember] in Ck; [|discriminate].
    destruct W as (acc & S & _ & Ia & _). assert (Lt : latest st <= iNext (dSess y)).
    { destruct (s_lat _ _ _ S) as [->|Hi]; [lia|]. apply Ia, in_map_iff in Hi. destruct Hi as (e & <- & He). rewrite Forall_forall in Le. apply Le, He. }
    destruct (push_newer st (iNext (dSess y) + 1) (s_ok _ _ _ S)) as (t & Ep & _); [lia|]. rewrite Ep in Ck. discriminate.
  Qed.
End Once.

Lemma words_small : forall n, 1 <= n <= 64 -> (words (Size n) <= 1)%nat.
Proof.
  intros n H. unfold words, sessionStorage. replace (n =? 0) with false by (symmetry; apply N.eqb_neq; lia).
  destruct (N.eqb_spec n 1) as [->|Hn]; [vm_compute; lia|]. unfold newStorage. cbn [table].
  replace (0 <? n) with true by (symmetry; apply N.ltb_lt; lia). rewrite repeat_length.
  assert ((n + 63) / 64 <= 1); [|lia]. apply N.lt_succ_r. apply N.div_lt_upper_bound; lia.
Qed.

(** ** C131.  Full statement:
    [forall ... ls d, firstKeysRun ... ls d -> ... ->
       exists rest, Permutation (queued (dSess (dA d)) ++ rest) (dWrote (dB d))]
    for every window. It holds for the windows from 1 to 64. *)
Theorem C131_at_most_once_partial : forall verify dh blake3 sha3 stream poly1305 sign pubOf ca cb pa pb na nb md mf k ls d,
  ideal verify dh sha3 stream poly1305 sign pubOf -> honestConf ca -> honestConf cb -> cPSK (icKx ca) = cPSK (icKx cb) ->
  sharedKey dh blake3 sha3 (cPSK (icKx ca)) pa (pubOf pb) k ->
  firstKeysRun verify dh blake3 sha3 stream poly1305 sign pubOf ca cb pa pb (duoInit ca cb (Size na) (Size nb) md mf) ls d ->
  plainTraffic blake3 stream poly1305 (auxKey blake3 sha3 ca) k (sessBytes (cSession (icKx ca))) (dNet (dA d)) ->
  plainTraffic blake3 stream poly1305 (auxKey blake3 sha3 cb) k (sessBytes (cSession (icKx cb))) (dNet (dB d)) ->
  1 <= na <= 64 -> 1 <= nb <= 64 -> N.of_nat (length ls) < 2^64 ->
  (exists lost, Permutation (queued (dSess (dA d)) ++ lost) (dWrote (dB d))) /\
  (exists lost, Permutation (queued (dSess (dB d)) ++ lost) (dWrote (dA d))).
Proof.
  intros verify dh blake3 sha3 stream poly1305 sign pubOf ca cb pa pb na nb md mf k ls d id Ha Hb Hp Hk R PA PB Na Nb HT.
  destruct (once_inv verify dh blake3 sha3 stream poly1305 sign pubOf ca cb pa pb id Ha Hb Hp _ _ _ _ _ _ _ Hk R PB PA HT) as [LA LB].
  split; eapply LI_once; eauto using words_small; discriminate.
Qed.
Print Assumptions C131_at_most_once_partial.


(** Full statement refuted: 65 repeated packets move the sender's packet IDs by
    65 (C127), the receiver's window of 256 forgets what it has seen when the IDs
    jump by more than 64, and a repeated packet is delivered again. *)
Definition twiceRun : list dlabel :=
  firstn 20 duoRun ++ [DB (SWrite [9])] ++ repeat (DB (SRecv 0)) 64 ++ [DB (SWrite []); DA (SRecv 2); DA (SRecv 3); DA (SRecv 2)].
Definition twiceEnd : duo := Eval vm_compute in endOf (checkedRun duo0 twiceRun).

Theorem C131_twice_refuted :
  exists verify dh blake3 sha3 stream poly1305 sign pubOf ca cb pa pb md mf k ls d,
    ideal verify dh sha3 stream poly1305 sign pubOf /\ honestConf ca /\ honestConf cb /\ cPSK (icKx ca) = cPSK (icKx cb) /\
    sharedKey dh blake3 sha3 (cPSK (icKx ca)) pa (pubOf pb) k /\
    firstKeysRun verify dh blake3 sha3 stream poly1305 sign pubOf ca cb pa pb (duoInit ca cb (Size 0) (Size 0) md mf) ls d /\
    plainTraffic blake3 stream poly1305 (auxKey blake3 sha3 ca) k (sessBytes (cSession (icKx ca))) (dNet (dA d)) /\
    plainTraffic blake3 stream poly1305 (auxKey blake3 sha3 cb) k (sessBytes (cSession (icKx cb))) (dNet (dB d)) /\
    length ls = 89%nat /\ dWrote (dB d) = [[9]; []] /\ queued (dSess (dA d)) = [[9]; []; [9]].
Proof.
  exists padVerify, goodDh, quickHash, KxProps.toyHash, quickStream, quickPoly, padSign, goodPub.
  exists (duoConf 1), (duoConf 2), (key32 3), (key32 11), 8, 65536, duoShared, twiceRun, twiceEnd.
  split; [apply good_ideal|]. split; [repeat split; vm_compute; auto|]. split; [repeat split; vm_compute; auto|]. split; [reflexivity|].
  split; [reflexivity|].
  split. { apply (checkedRun_ok duo0 twiceRun duo0 twiceEnd []); [constructor|]. vm_compute. reflexivity. }
  split; [apply noBoth_ok; vm_compute; reflexivity|]. split; [apply noBoth_ok; vm_compute; reflexivity|]. vm_compute. repeat split.
Qed.
Print Assumptions C131_twice_refuted.

(** Windows of 64 and 1: the second copy is not delivered. *)
Definition onceRun : list dlabel :=
  firstn 20 duoRun ++ [DB (SWrite [9]); DB (SRecv 0); DB (SWrite []); DA (SRecv 2); DA (SRecv 3); DA (SRecv 2)].
Definition onceEnd : duo := Eval vm_compute in endOf (checkedRun (duoInit (duoConf 1) (duoConf 2) (Size 64) (Size 1) 8 65536) onceRun).

Example C131_example :
  firstKeysRun padVerify goodDh quickHash KxProps.toyHash quickStream quickPoly padSign goodPub (duoConf 1) (duoConf 2) (key32 3) (key32 11)
    (duoInit (duoConf 1) (duoConf 2) (Size 64) (Size 1) 8 65536) onceRun onceEnd /\
  plainTraffic quickHash quickStream quickPoly None duoShared (sessBytes (cSession (icKx (duoConf 1)))) (dNet (dA onceEnd)) /\
  plainTraffic quickHash quickStream quickPoly None duoShared (sessBytes (cSession (icKx (duoConf 2)))) (dNet (dB onceEnd)) /\
  dWrote (dB onceEnd) = [[9]; []] /\ queued (dSess (dA onceEnd)) = [[9]; []].
Proof.
  split. { apply (checkedRun_ok _ onceRun (duoInit (duoConf 1) (duoConf 2) (Size 64) (Size 1) 8 65536) onceEnd []); [constructor|]. vm_compute. reflexivity. }
  split; [apply noBoth_ok; vm_compute; reflexivity|]. split; [apply noBoth_ok; vm_compute; reflexivity|]. vm_compute. repeat split.
Qed.

(** ** C132.  From every state of such a run: a message written by a side which
    considers the session established is handed to the application of the other
    side as soon as its packet arrives, if it arrives before the packets sent
    later; whatever the window. *)
Theorem C132_newest_delivered : forall verify dh blake3 sha3 stream poly1305 sign pubOf ca cb pa pb wa wb md mf k ls d payload,
  ideal verify dh sha3 stream poly1305 sign pubOf -> honestConf ca -> honestConf cb -> cPSK (icKx ca) = cPSK (icKx cb) ->
  sharedKey dh blake3 sha3 (cPSK (icKx ca)) pa (pubOf pb) k ->
  firstKeysRun verify dh blake3 sha3 stream poly1305 sign pubOf ca cb pa pb (duoInit ca cb wa wb md mf) ls d ->
  plainTraffic blake3 stream poly1305 (auxKey blake3 sha3 ca) k (sessBytes (cSession (icKx ca))) (dNet (dA d)) ->
  plainTraffic blake3 stream poly1305 (auxKey blake3 sha3 cb) k (sessBytes (cSession (icKx cb))) (dNet (dB d)) ->
  N.of_nat (length ls) + 1 < 2^64 -> len payload + 53 < 2^32 -> stateOf (dSess (dB d)) = SessionStateEstablished ->
  exists d1, dstep verify dh blake3 sha3 stream poly1305 sign ca cb d (DB (SWrite payload)) = Some d1 /\ dWrote (dB d1) = dWrote (dB d) ++ [payload] /\
    (plainTraffic blake3 stream poly1305 (auxKey blake3 sha3 cb) k (sessBytes (cSession (icKx cb))) (dNet (dB d1)) ->
     iOver (dSess (dA d)) = false -> isDoneState (stateOf (dSess (dA d))) = false -> locked (iKx (dSess (dA d))) = false ->
     exists d2, dstep verify dh blake3 sha3 stream poly1305 sign ca cb d1 (DA (SRecv (length (dNet (dB d))))) = Some d2 /\
       queued (dSess (dA d2)) = queued (dSess (dA d)) ++ [payload]).
Proof.
  intros verify dh blake3 sha3 stream poly1305 sign pubOf ca cb pa pb wa wb md mf k ls d payload id Ha Hb Hp Hk R PA PB HT Hl St.
  destruct (once_inv verify dh blake3 sha3 stream poly1305 sign pubOf ca cb pa pb id Ha Hb Hp _ _ _ _ _ _ _ Hk R PB PA) as [LA _]; [lia|].
  destruct (duo_inv verify dh blake3 sha3 stream poly1305 sign pubOf ca cb pa pb id Ha Hb Hp True wa wb md mf k ls d Hk R PB PA) as [SA SB].
  assert (Ek := shared_mk verify dh blake3 sha3 stream poly1305 sign pubOf id _ _ _ _ Hk).
  assert (Sym : mk dh blake3 sha3 (cPSK (icKx ca)) pa (pubOf pb) = mk dh blake3 sha3 (cPSK (icKx cb)) pb (pubOf pa)).
  { rewrite Hp. apply mkey_sym. exact (id_dh_comm _ _ _ _ _ _ _ id). }
  destruct (deliver verify dh blake3 sha3 stream poly1305 sign pubOf id wa ca cb pa pb (dA d) (dB d) _ payload k Ha Hb Hp Ek
              (eq_trans Ek Sym) PA SA SB LA HT St Hl) as (y & Ey & Wy & D).
  exists {| dA := dA d; dB := y |}. split; [unfold dstep; rewrite Ey; reflexivity|]. split; [exact Wy|]. cbn [dA dB]. intros P1 F1 F2 F3.
  destruct (D P1 F1 F2 F3) as (x & Ex & Q). exists {| dA := x; dB := y |}. split; [unfold dstep; cbn [dA dB]; rewrite Ex; reflexivity|exact Q].
Qed.
Print Assumptions C132_newest_delivered.

Example C132_example :
  stateOf (dSess (dB duoEnd)) = SessionStateEstablished /\ iOver (dSess (dA duoEnd)) = false /\
  isDoneState (stateOf (dSess (dA duoEnd))) = false /\ locked (iKx (dSess (dA duoEnd))) = false /\
  queued (dSess (dA (endOf (checkedRun duoEnd [DB (SWrite [7; 7]); DA (SRecv 4)])))) = [[]; [9]; [7; 7]].
Proof. vm_compute. repeat split. Qed.
