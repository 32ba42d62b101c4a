(** C130: two honest sessions and the network between them. *)
From Coq Require Import NArith Arith List Bool Lia.
From Verif Require Import Base BaseLemmas TS MessageModel CodecProofs PacketIDModel ReaderModel ReaderLoopModel PacketModel PacketSpec PacketProofs
  PacketProps StateModel KxModel KxSpec KxProofs KxProps KxPairModel KxPairProps IntegModel IntegSpec IntegAuth DuoModel DuoSpec DuoProofs.
Import ListNotations.
Local Open Scope N_scope.

(** The key both sides should end up with. *)
Definition sharedKey (dh : bytes -> bytes -> bytes) (blake3 sha3 : bytes -> bytes) (psk : option bytes) (p x k : bytes) : Prop :=
  madeOf dh (option_map (fun s => sha3 (blake3 (s ++ Salt ++ purpose) ++ Salt ++ purpose)) psk) p x k.

Definition duoInit (ca cb : iconf) (wa wb : sizeOption) (md mf : N) : duo :=
  {| dA := sideInit (cIdentity (icKx cb)) wa md mf; dB := sideInit (cIdentity (icKx ca)) wb md mf |}.

(** Both with the answers mode which sessions are given by default, session IDs
    and identities of the right size. *)
Definition honestConf (c : iconf) : Prop :=
  sessID_ok (cSession (icKx c)) /\ length (cIdentity (icKx c)) = 32%nat /\ cMode (icKx c) = AnswersModeAnswerAndWait.

Section Duo.
  Variable verify : bytes -> bytes -> bytes -> bool.
  Variable dh : bytes -> bytes -> bytes.
  Variable blake3 sha3 : bytes -> bytes.
  Variable stream : bytes -> bytes -> nat -> N.
  Variable poly1305 : bytes -> bytes -> bytes.
  Variable sign : bytes -> bytes -> bytes.
  Variable pubOf : bytes -> bytes.
  Variables ca cb : iconf.
  Variables pa pb : bytes.
  Hypothesis id : ideal verify dh sha3 stream poly1305 sign pubOf.
  Hypothesis Ha : honestConf ca.
  Hypothesis Hb : honestConf cb.
  Hypothesis psk : cPSK (icKx ca) = cPSK (icKx cb).

  Variable qt : Prop.

  Notation sinv := (SI dh blake3 sha3 stream poly1305 sign pubOf qt).
  Notation run := (firstKeysRun verify dh blake3 sha3 stream poly1305 sign pubOf ca cb pa pb).

  Lemma xored_fun : forall a b k k', xored a b k -> xored a b k' -> k = k'.
  Proof.
    intros a b k k' (A & _ & B) (A' & _ & B'). apply (nth_ext k k' 0 0); [congruence|]. intros n Hn. rewrite B, B'; auto. rewrite <- A', A. exact Hn.
  Qed.

  Lemma shared_mk : forall ps p x k, sharedKey dh blake3 sha3 ps p x k -> k = mk dh blake3 sha3 ps p x.
  Proof.
    intros ps p x k H. destruct id as [_ L S Z _ _ _ _ _]. destruct (mk_eq dh blake3 sha3 L S Z ps p x) as [E _].
    destruct (gsk_made dh blake3 sha3 L S _ _ _ _ E) as (p' & x' & Ep & Ex & M). injection Ep as <-. injection Ex as <-.
    unfold sharedKey in H. unfold maskOf, hash in M. destruct ps as [q|]; cbn [option_map madeOf concat] in *; rewrite ?app_nil_r in *; [|congruence].
    eapply xored_fun; eauto.
  Qed.

  Lemma onePair_calm : forall p x l, onePair pubOf p x l -> calm pubOf p x l.
  Proof.
    intros p x l H. unfold calm, calmKx, hasLocal, xOf. unfold onePair in H. destruct l as [[]| | | |]; auto; destruct H as (A & B & C); auto.
  Qed.

  Lemma side_net : forall c x net l x', sideStep verify dh blake3 sha3 stream poly1305 sign c x net l = Some x' -> incl (dNet x) (dNet x').
  Proof.
    assert (HO : forall c x s cf m w x', handOver blake3 sha3 stream poly1305 c x s cf m w = Some x' -> incl (dNet x) (dNet x')).
    { intros c x s cf m w x' E. unfold handOver in E. destruct (sendPacket _ _ _ _ _ _) as [P [[raw|]|]]; try discriminate; injection E as <-; cbn [dNet].
      - apply incl_appl, incl_refl.
      - apply incl_refl. }
    intros c x net l x' E. destruct l as [k|n|pl| |]; cbn [sideStep] in E.
    - destruct (istep _ _ _ _ _ _ _ _ _) as [s'|]; [|discriminate]. destruct (_ && _); [|injection E as <-; apply incl_refl].
      destruct (xSent (iKx s')); [discriminate|]. eapply HO; eauto.
    - destruct (nth_error net n); [|discriminate]. destruct (istep _ _ _ _ _ _ _ _ _); [|discriminate]. injection E as <-. apply incl_refl.
    - destruct (_ || _); [discriminate|]. eapply HO; eauto.
    - destruct (iPanic (dSess x)); [discriminate|]. injection E as <-. apply incl_refl.
    - destruct (istep _ _ _ _ _ _ _ _ _); [|discriminate]. injection E as <-. apply incl_refl.
  Qed.

  (** What a step does to the traffic. *)
  Definition effect (c c' : iconf) (p p' : bytes) (x y : side) (l : slabel) (x' : side) : Prop :=
    match l with
    | SRecv n => dNet x' = dNet x /\ dWrote x' = dWrote x /\ (iNext (dSess x') = iNext (dSess x) \/ iNext (dSess x') = add64 (iNext (dSess x)) 1) /\
        exists raw, nth_error (dNet y) n = Some raw /\
          forall v o, packetAs dh blake3 sha3 stream poly1305 sign pubOf c' p' (pubOf p) y x raw v o ->
            exists w b, checkAndRemember (iWin (dSess x)) (packetIDValue (packetIDBytes v)) = Ret (w, b) /\ iWin (dSess x') = w /\
              queued (dSess x') = queued (dSess x) ++ (if b then optl o else [])
    | _ => grew dh blake3 sha3 stream poly1305 sign pubOf c p (pubOf p') x x' y
    end.

  Lemma side_ok : forall c c' p p' x y l x', honestConf c -> honestConf c' -> cPSK (icKx c) = cPSK (icKx c') ->
    plainTraffic blake3 stream poly1305 (auxKey blake3 sha3 c') (mk dh blake3 sha3 (cPSK (icKx c)) p (pubOf p')) (sessBytes (cSession (icKx c'))) (dNet y) ->
    sinv c c' p p' x y -> sinv c' c p' p y x -> onePair pubOf p x l ->
    sideStep verify dh blake3 sha3 stream poly1305 sign c x (dNet y) l = Some x' ->
    sinv c c' p p' x' y /\ sinv c' c p' p y x' /\
    (hasLocal (xOf x) -> hasLocal (xOf x')) /\ (hasRemote (xOf x) -> hasRemote (xOf x')) /\ incl (dWrote x) (dWrote x') /\ effect c c' p p' x y l x'.
  Proof.
    intros c c' p p' x y l x' Hc Hc' Hp [Bs Un] SX SY HO E. destruct id as [I1 I2 I3 I4 I5 I6 I7 I8 I9].
    assert (R : sinv c c' p p' x' y /\ (hasLocal (xOf x) -> hasLocal (xOf x')) /\ (hasRemote (xOf x) -> hasRemote (xOf x')) /\ incl (dWrote x) (dWrote x') /\
                effect c c' p p' x y l x').
    { destruct l as [k|n|pl| |].
      2:{ cbn [sideStep] in E. destruct (nth_error (dNet y) n) as [raw|] eqn:En; [|discriminate]. assert (Hin := nth_error_In _ _ En).
          destruct (istep _ _ _ _ _ _ _ _ _) as [s'|] eqn:Es; [|discriminate]. injection E as <-.
          assert (B : bytes_ok raw) by (rewrite Forall_forall in Bs; apply Bs, Hin).
          assert (U : unmistakable blake3 stream poly1305 (auxKey blake3 sha3 c') (mk dh blake3 sha3 (cPSK (icKx c)) p (pubOf p')) (sessBytes (cSession (icKx c'))) raw).
          { intros pid body L ->. apply Un; auto. }
          assert (G := fun v o PK => recv_ok verify dh blake3 sha3 stream poly1305 sign pubOf I1 I2 I3 I4 I5 I6 I7 I8 I9 qt c c' p p' x y raw v o s' Hc Hc' Hp SX SY PK B U Es).
          assert (PK : packetOf dh blake3 sha3 stream poly1305 sign pubOf c' p' (pubOf p) y x raw).
          { destruct SY as (_ & _ & _ & _ & _ & _ & F & _). rewrite Forall_forall in F. apply F, Hin. }
          destruct PK as (v & o & PK). destruct (G v o PK) as (S1 & S2 & S3 & w0 & b0 & _ & _ & _ & Nx).
          split; [exact S1|]. split; [exact S2|]. split; [exact S3|]. split; [apply incl_refl|].
          split; [reflexivity|]. split; [reflexivity|]. split; [exact Nx|]. exists raw. split; [exact En|]. intros v' o' PK'.
          destruct (G v' o' PK') as (_ & _ & _ & w & b & R1 & R2 & R3 & _). exists w, b. auto. }
      all: match goal with |- context [effect _ _ _ _ _ _ ?l _] =>
        destruct (own_ok verify dh blake3 sha3 stream poly1305 sign pubOf I1 I2 I3 I4 I6 I8 qt c c' p p' x y (dNet y) l x' Hc Hc' SX (onePair_calm _ _ _ HO)
                    ltac:(intros; discriminate) E) as (S1 & S2 & S3 & S4) end;
        (split; [exact S1|split; [exact S2|split; [exact S3|split; [eapply grew_incl; eauto|exact S4]]]]). }
    destruct R as (S1 & S2 & S3 & S4 & S5). split; [exact S1|]. split; [|auto].
    apply (SI_other dh blake3 sha3 stream poly1305 sign pubOf qt) with (y := x); auto.
    intros [H1 H2]. split; auto.
  Qed.

  Lemma plain_incl : forall aux k i net net', plainTraffic blake3 stream poly1305 aux k i net' -> incl net net' -> plainTraffic blake3 stream poly1305 aux k i net.
  Proof.
    intros aux k i net net' [A B] H. split; [|intros pid body L Hi; apply B; auto]. rewrite Forall_forall in *. intros z Hz. apply A, H, Hz.
  Qed.

  Lemma duo_inv : forall wa wb md mf k ls d, sharedKey dh blake3 sha3 (cPSK (icKx ca)) pa (pubOf pb) k ->
    run (duoInit ca cb wa wb md mf) ls d ->
    plainTraffic blake3 stream poly1305 (auxKey blake3 sha3 cb) k (sessBytes (cSession (icKx cb))) (dNet (dB d)) ->
    plainTraffic blake3 stream poly1305 (auxKey blake3 sha3 ca) k (sessBytes (cSession (icKx ca))) (dNet (dA d)) ->
    sinv ca cb pa pb (dA d) (dB d) /\ sinv cb ca pb pa (dB d) (dA d).
  Proof.
    intros wa wb md mf k ls d Hk R. assert (Ek := shared_mk _ _ _ _ Hk). subst k.
    assert (Sym : mk dh blake3 sha3 (cPSK (icKx ca)) pa (pubOf pb) = mk dh blake3 sha3 (cPSK (icKx cb)) pb (pubOf pa)).
    { rewrite psk. apply mkey_sym. exact (id_dh_comm _ _ _ _ _ _ _ id). }
    induction R as [|ls d l d' R IH HO E]; intros PB PA.
    - split; apply SI_init.
    - unfold dstep in E. destruct l as [l|l].
      + destruct (sideStep _ _ _ _ _ _ _ ca (dA d) (dNet (dB d)) l) as [x|] eqn:Ex; [|discriminate]. injection E as <-. cbn [dA dB] in *.
        destruct (IH PB (plain_incl _ _ _ _ _ PA (side_net _ _ _ _ _ Ex))) as [SA SB].
        destruct (side_ok ca cb pa pb _ _ l x Ha Hb psk PB SA SB HO Ex) as (T1 & T2 & _). auto.
      + destruct (sideStep _ _ _ _ _ _ _ cb (dB d) (dNet (dA d)) l) as [x|] eqn:Ex; [|discriminate]. injection E as <-. cbn [dA dB] in *.
        destruct (IH (plain_incl _ _ _ _ _ PB (side_net _ _ _ _ _ Ex)) PA) as [SA SB].
        rewrite Sym in PA. destruct (side_ok cb ca pb pa _ _ l x Hb Ha (eq_sym psk) PA SB SA HO Ex) as (T1 & T2 & _). auto.
  Qed.

  Lemma untroubled_of : forall c c' p p' x y, qt -> sinv c c' p p' x y -> untroubled x y.
  Proof.
    intros c c' p p' x y Hq (K & (A1 & A2 & A3) & _ & _ & _ & _ & _ & B5 & B6). split; [exact A1|]. split; [exact (A2 Hq)|]. split; [exact B5|].
    destruct K as (_ & _ & _ & _ & _ & _ & _ & _ & _ & _ & F & _). destruct (kErrs (xKx (iKx (dSess x)))) as [|e es]; [left; apply (B6 Hq); reflexivity|].
    right. inversion F; subst. left. reflexivity.
  Qed.

  Lemma keys_of : forall c c' p p' x y, sinv c c' p p' x y -> complete (xOf x) ->
    kKeys (xKx (iKx (dSess x))) = [Some (mk dh blake3 sha3 (cPSK (icKx c)) p (pubOf p')); None; None; None].
  Proof.
    intros c c' p p' x y ((_ & _ & _ & D & E & F & _) & _) [HL HR]. unfold hasLocal, hasRemote, xOf in *. rewrite F.
    destruct D as [(D & _)|(D & _)]; [contradiction|]. destruct E as [(E & _)|(E & _)]; [contradiction|]. rewrite D, E. reflexivity.
  Qed.

  Lemma established_of : forall c c' p p' x y, sinv c c' p p' x y -> stateOf (dSess x) = SessionStateEstablished -> complete (xOf x) /\ complete (xOf y).
  Proof.
    intros c c' p p' x y (K & _ & _ & _ & B2 & B3 & _) S.
    assert (D : 0 < kDone (xKx (iKx (dSess x)))) by (destruct B2 as [(Z & _)|[(_ & Z)|[Z|Z]]]; [rewrite S in Z; discriminate|exact Z|rewrite S in Z; discriminate|rewrite S in Z; discriminate]).
    split; [apply K; exact D|apply B3; exact D].
  Qed.
End Duo.

(** Whatever the network does with the packets of two honest sessions — delays,
    repetitions, losses, any order — as long as neither of them draws a second
    key pair: no crash, no packet which cannot be decrypted, nothing read that the
    other side has not written, no error reported except the time-out of the
    exchanger, and a session considered established has the other side's key. *)
Theorem C130_two_honest_sessions : forall verify dh blake3 sha3 stream poly1305 sign pubOf ca cb pa pb wa wb md mf k ls d,
  ideal verify dh sha3 stream poly1305 sign pubOf -> honestConf ca -> honestConf cb -> cPSK (icKx ca) = cPSK (icKx cb) ->
  sharedKey dh blake3 sha3 (cPSK (icKx ca)) pa (pubOf pb) k ->
  firstKeysRun verify dh blake3 sha3 stream poly1305 sign pubOf ca cb pa pb (duoInit ca cb wa wb md mf) ls d ->
  plainTraffic blake3 stream poly1305 (auxKey blake3 sha3 ca) k (sessBytes (cSession (icKx ca))) (dNet (dA d)) ->
  plainTraffic blake3 stream poly1305 (auxKey blake3 sha3 cb) k (sessBytes (cSession (icKx cb))) (dNet (dB d)) ->
  untroubled (dA d) (dB d) /\ untroubled (dB d) (dA d) /\
  (stateOf (dSess (dA d)) = SessionStateEstablished \/ stateOf (dSess (dB d)) = SessionStateEstablished ->
   kKeys (xKx (iKx (dSess (dA d)))) = [Some k; None; None; None] /\ kKeys (xKx (iKx (dSess (dB d)))) = [Some k; None; None; None]).
Proof.
  intros verify dh blake3 sha3 stream poly1305 sign pubOf ca cb pa pb wa wb md mf k ls d id Ha Hb psk Hk R PA PB.
  destruct (duo_inv verify dh blake3 sha3 stream poly1305 sign pubOf ca cb pa pb id Ha Hb psk True wa wb md mf k ls d Hk R PB PA) as [SA SB].
  split; [exact (untroubled_of _ _ _ _ _ _ _ _ _ _ _ _ _ _ I SA)|]. split; [exact (untroubled_of _ _ _ _ _ _ _ _ _ _ _ _ _ _ I SB)|]. intros S.
  assert (C : complete (xOf (dA d)) /\ complete (xOf (dB d))).
  { destruct S as [S|S].
    - eapply established_of; eauto.
    - destruct (established_of dh blake3 sha3 stream poly1305 sign pubOf True _ _ _ _ _ _ SB S). auto. }
  destruct C as [C1 C2]. rewrite (keys_of _ _ _ _ _ _ _ _ _ _ _ _ _ _ SA C1), (keys_of _ _ _ _ _ _ _ _ _ _ _ _ _ _ SB C2).
  rewrite (shared_mk verify dh blake3 sha3 stream poly1305 sign pubOf id _ _ _ _ Hk), <- psk. split; [reflexivity|].
  rewrite (mkey_sym dh blake3 sha3 pubOf (id_dh_comm _ _ _ _ _ _ _ id)). reflexivity.
Qed.
Print Assumptions C130_two_honest_sessions.

(** ** An instance *)

(** A Diffie-Hellman without special points. *)
Definition modulus : N := 2^255 - 19.
Definition unitOf (b : bytes) : N := 1 + le_dec b mod modulus.
Definition goodPub (p : bytes) : bytes := le_enc 32 (unitOf p).
Definition goodDh (p x : bytes) : bytes := le_enc 32 (1 + (unitOf p * le_dec x) mod modulus).

Lemma good_nonzero : forall n, n < modulus -> le_enc 32 (1 + n) <> zeroKey.
Proof.
  intros n H E. assert (D : le_dec (le_enc 32 (1 + n)) = le_dec zeroKey) by (rewrite E; reflexivity).
  rewrite le_dec_enc in D; [vm_compute in D; destruct n; discriminate|].
  assert (modulus < 2 ^ (8 * N.of_nat 32)) by reflexivity. lia.
Qed.

Lemma unit_bound : forall p, unitOf p <= modulus.
Proof. intros p. unfold unitOf. pose proof (N.mod_lt (le_dec p) modulus ltac:(discriminate)). lia. Qed.

(** Primitives which are quick to compute. *)
Definition quickSum (l : bytes) : N := fold_left (fun a b => N.land (a + a + b + 7) 4095) l 1.
Definition quickStream (k iv : bytes) (n : nat) : N := N.land (hd 0 k + nth 16 k 0 + hd 0 iv + match n with O => 3 | S _ => 5 end) 255.
Definition quickHash (m : bytes) : bytes := let h := quickSum m in map (fun i => N.land (h + i) 255) (map N.of_nat (seq 0 32)).
Definition quickPoly (k m : bytes) : bytes := let h := quickSum (k ++ m) in map (fun i => N.land (h + i) 255) (map N.of_nat (seq 0 16)).

Lemma quick_ok : primitives_ok quickStream quickPoly.
Proof.
  split; intros.
  - unfold quickStream. change 255 with (N.ones 8). rewrite N.land_ones. apply N.mod_lt. discriminate.
  - unfold quickPoly. rewrite !map_length, seq_length. reflexivity.
Qed.

Lemma good_ideal : ideal padVerify goodDh KxProps.toyHash quickStream quickPoly padSign goodPub.
Proof.
  assert (M : modulus < 2 ^ (8 * N.of_nat 32)) by reflexivity.
  assert (D : forall p, le_dec (goodPub p) = unitOf p).
  { intros p. unfold goodPub. apply le_dec_enc. pose proof (unit_bound p). lia. }
  constructor.
  - apply quick_ok.
  - intros. apply le_enc_length.
  - intros. unfold KxProps.toyHash. rewrite firstn_length, app_length, repeat_length. lia.
  - intros a b. apply good_nonzero. apply N.mod_lt. discriminate.
  - intros a b. unfold goodDh. rewrite !D, (N.mul_comm (unitOf a)). reflexivity.
  - apply padSign_len.
  - intros id m. unfold padVerify. apply bytes_eqb_refl.
  - intros. apply le_enc_length.
  - intros p. apply good_nonzero. apply N.mod_lt. discriminate.
Qed.

Definition duoConf (i : N) : iconf :=
  {| icKx := {| cPSK := None; cMode := 1; cIdentity := key32 i; cSession := {| sCreatedAt := 5; sRandom := i |}; cInterval := 60 |};
     icDetachFails := 1; icErrorOn := Some 1; icCloseOnError := true |}.

(** Both start at once, each answers the other's message; packets are repeated;
    then data both ways, one packet of it twice. *)
Definition duoRun : list dlabel :=
  [DA (SKx (KLoopGo 100)); DB (SKx (KLoopGo 100)); DA (SKx KLoopCheck); DB (SKx KLoopCheck);
   DA (SKx (KLoopGen (key32 3) (goodPub (key32 3)) 100)); DB (SKx (KLoopGen (key32 11) (goodPub (key32 11)) 101));
   DA (SKx KLoopSend); DB (SKx KLoopSend); DA (SKx KLoopRetry);
   DB (SRecv 0); DB (SKx (KAnswer 0 110)); DB (SKx (KAnswer 0 110));
   DA (SRecv 0); DA (SRecv 0); DA (SKx (KAnswer 0 110)); DA (SKx (KAnswer 0 110));
   DA (SRecv 1); DA (SKx KLoopNotified); DB (SRecv 1); DB (SRecv 2);
   DA (SWrite [1;2;3]); DB (SWrite [9]); DB (SWrite []); DA (SRecv 3); DA (SRecv 2); DA (SRecv 3); DB (SRecv 3)].

Definition duoStep := dstep padVerify goodDh quickHash KxProps.toyHash quickStream quickPoly padSign (duoConf 1) (duoConf 2).
Definition duo0 := duoInit (duoConf 1) (duoConf 2) (Size 0) (Size 0) 8 65536.

(** The side condition of the run, checked. *)
Definition onePairB (p : bytes) (x : side) (l : slabel) : bool :=
  match l with
  | SKx (KLoopGen s t _) | SKx (KAnswerGen _ s t _) =>
      bytes_eqb s p && bytes_eqb t (goodPub p) && match kNextLocal (xKx (iKx (dSess x))) with None => true | Some _ => false end
  | SKx KCancel => false
  | _ => true
  end.

Fixpoint checkedRun (d : duo) (ls : list dlabel) : option duo :=
  match ls with
  | [] => Some d
  | l :: r =>
      if match l with DA l => onePairB (key32 3) (dA d) l | DB l => onePairB (key32 11) (dB d) l end
      then match duoStep d l with Some d' => checkedRun d' r | None => None end
      else None
  end.

Lemma onePairB_ok : forall p x l, onePairB p x l = true -> onePair goodPub p x l.
Proof.
  intros p x l H. unfold onePairB in H. unfold onePair.
  destruct l as [[]| | | |]; auto; try discriminate;
    apply andb_true_iff in H; destruct H as [H1 H3]; apply andb_true_iff in H1; destruct H1 as [H1 H2]; apply bytes_eqb_eq in H1, H2;
    (destruct (kNextLocal _); [discriminate|auto]).
Qed.

Lemma checkedRun_ok : forall d0 ls d d' pre,
  firstKeysRun padVerify goodDh quickHash KxProps.toyHash quickStream quickPoly padSign goodPub (duoConf 1) (duoConf 2) (key32 3) (key32 11) d0 pre d ->
  checkedRun d ls = Some d' ->
  firstKeysRun padVerify goodDh quickHash KxProps.toyHash quickStream quickPoly padSign goodPub (duoConf 1) (duoConf 2) (key32 3) (key32 11) d0 (pre ++ ls) d'.
Proof.
  intros d0 ls. induction ls as [|l ls IH]; intros d d' pre R E; cbn [checkedRun] in E.
  - injection E as <-. rewrite app_nil_r. exact R.
  - destruct (match l with DA l => onePairB (key32 3) (dA d) l | DB l => onePairB (key32 11) (dB d) l end) eqn:EO; [|discriminate].
    destruct (duoStep d l) as [d1|] eqn:Ed; [|discriminate]. replace (pre ++ l :: ls) with ((pre ++ [l]) ++ ls) by (rewrite <- app_assoc; reflexivity).
    apply (IH d1); [|exact E]. eapply fk_snoc; [exact R| |exact Ed]. destruct l; apply onePairB_ok, EO.
Qed.

Definition noBothB (k id : bytes) (raw : bytes) : bool :=
  let pid := firstn 8 raw in
  let fits k iv := bytes_eqb (firstn 16 (plainOf quickStream k iv (skipn 8 raw)))
    (quickPoly (calculatePoly1305Key quickHash pid k) (firstn 4 (skipn 32 (plainOf quickStream k iv (skipn 8 raw))))) in
  negb (fits None pid && fits (Some k) (id ++ pid)) && forallb (fun b => b <? 256) raw.

Lemma noBoth_ok : forall k id net, forallb (noBothB k id) net = true -> plainTraffic quickHash quickStream quickPoly None k id net.
Proof.
  intros k id net H. rewrite forallb_forall in H. split.
  - apply Forall_forall. intros raw Hr. apply H in Hr. apply andb_true_iff in Hr. destruct Hr as [_ Hr]. rewrite forallb_forall in Hr.
    apply Forall_forall. intros b Hb. apply N.ltb_lt, Hr, Hb.
  - intros pid body L Hin F1 F2. apply H in Hin. apply andb_true_iff in Hin. destruct Hin as [Hin _]. cbn [idOnWire] in Hin.
    assert (E1 : firstn 8 (pid ++ body) = pid) by (rewrite firstn_app, L, Nat.sub_diag, (firstn_all2 pid) by lia; cbn; apply app_nil_r).
    assert (E2 : skipn 8 (pid ++ body) = body) by (rewrite skipn_app, L, Nat.sub_diag, (skipn_all2 pid) by lia; reflexivity).
    unfold noBothB in Hin. rewrite E1, E2 in Hin. unfold firstTagFits in F1, F2. rewrite F1, F2, !bytes_eqb_refl in Hin. discriminate.
Qed.

Definition duoShared : bytes := goodDh (key32 3) (goodPub (key32 11)).

Definition endOf (o : option duo) : duo := match o with Some d => d | None => duo0 end.
Definition duoEnd : duo := endOf (checkedRun duo0 duoRun).

Example C130_example :
  ideal padVerify goodDh KxProps.toyHash quickStream quickPoly padSign goodPub /\ honestConf (duoConf 1) /\ honestConf (duoConf 2) /\
  firstKeysRun padVerify goodDh quickHash KxProps.toyHash quickStream quickPoly padSign goodPub (duoConf 1) (duoConf 2) (key32 3) (key32 11) duo0 duoRun duoEnd /\
  plainTraffic quickHash quickStream quickPoly None duoShared (sessBytes (cSession (icKx (duoConf 1)))) (dNet (dA duoEnd)) /\
  plainTraffic quickHash quickStream quickPoly None duoShared (sessBytes (cSession (icKx (duoConf 2)))) (dNet (dB duoEnd)) /\
  stateOf (dSess (dA duoEnd)) = SessionStateEstablished /\ stateOf (dSess (dB duoEnd)) = SessionStateEstablished /\
  queued (dSess (dA duoEnd)) = [[]; [9]] /\ queued (dSess (dB duoEnd)) = [[1; 2; 3]] /\ iUnexpected (dSess (dA duoEnd)) = 2.
Proof.
  split; [apply good_ideal|]. split; [repeat split; vm_compute; auto|]. split; [repeat split; vm_compute; auto|].
  split. { apply (checkedRun_ok duo0 duoRun duo0 duoEnd []); [constructor|]. vm_compute. reflexivity. }
  split; [apply noBoth_ok; vm_compute; reflexivity|]. split; [apply noBoth_ok; vm_compute; reflexivity|]. vm_compute. repeat split.
Qed.
