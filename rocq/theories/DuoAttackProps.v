(** C151: two honest sessions and an attacker who knows none of their keys. *)
From Coq Require Import NArith Arith List Bool Lia Permutation.
From Verif Require Import Base BaseLemmas TS MessageModel PacketIDModel ReaderModel ReaderLoopModel PacketModel PacketSpec PacketProofs PacketProps
  StateModel KxModel KxSpec KxProps KxPairModel KxPairProps IntegModel IntegSpec IntegAuth DuoModel DuoSpec DuoProofs DuoProps DuoOnceProps
  DuoAttackModel DuoAttackSpec DuoAttackProofs.
Import ListNotations.
Local Open Scope N_scope.

(** Whatever arrives besides the packets of the other side — bytes no key opens,
    packets of the session itself sent back to it —: no crash, nothing is read that the
    other side has not written, and a session considered established has the
    other side's key. *)
Theorem C151_attacked_sessions : forall verify dh blake3 sha3 stream poly1305 sign pubOf ca cb pa pb wa wb md mf k ls d,
  ideal verify dh sha3 stream poly1305 sign pubOf -> honestConf ca -> honestConf cb -> cPSK (icKx ca) = cPSK (icKx cb) ->
  separate verify sign (cIdentity (icKx ca)) (cIdentity (icKx cb)) -> separate verify sign (cIdentity (icKx cb)) (cIdentity (icKx ca)) ->
  sharedKey dh blake3 sha3 (cPSK (icKx ca)) pa (pubOf pb) k ->
  attackedRun verify dh blake3 sha3 stream poly1305 sign pubOf ca cb pa pb (duoInit ca cb wa wb md mf) ls d ->
  plainTraffic blake3 stream poly1305 (auxKey blake3 sha3 ca) k (sessBytes (cSession (icKx ca))) (dNet (dA d)) ->
  plainTraffic blake3 stream poly1305 (auxKey blake3 sha3 cb) k (sessBytes (cSession (icKx cb))) (dNet (dB d)) ->
  foreign blake3 stream poly1305 (auxKey blake3 sha3 ca) k (sessBytes (cSession (icKx cb))) (dNet (dA d)) ->
  foreign blake3 stream poly1305 (auxKey blake3 sha3 cb) k (sessBytes (cSession (icKx ca))) (dNet (dB d)) ->
  iPanic (dSess (dA d)) = false /\ iPanic (dSess (dB d)) = false /\
  incl (queued (dSess (dA d))) (dWrote (dB d)) /\ incl (queued (dSess (dB d))) (dWrote (dA d)) /\
  (stateOf (dSess (dA d)) = SessionStateEstablished \/ stateOf (dSess (dB d)) = SessionStateEstablished ->
   kKeys (xKx (iKx (dSess (dA d)))) = [Some k; None; None; None] /\ kKeys (xKx (iKx (dSess (dB d)))) = [Some k; None; None; None]).
Proof.
  intros verify dh blake3 sha3 stream poly1305 sign pubOf ca cb pa pb wa wb md mf k ls d id Ha Hb psk sA sB Hk R PA PB FA FB.
  destruct (attack_inv verify dh blake3 sha3 stream poly1305 sign pubOf id ca cb pa pb Ha Hb psk sA sB wa wb md mf k ls d Hk R PB FB PA FA) as [[SA SB] _].
  split; [apply SA|]. split; [apply SB|]. split; [apply SA|]. split; [apply SB|]. intros S.
  assert (C : complete (xOf (dA d)) /\ complete (xOf (dB d))).
  { destruct S as [S|S].
    - eapply established_of; eauto.
    - destruct (established_of dh blake3 sha3 stream poly1305 sign pubOf False _ _ _ _ _ _ SB S). auto. }
  destruct C as [C1 C2]. rewrite (keys_of _ _ _ _ _ _ _ _ _ _ _ _ _ _ SA C1), (keys_of _ _ _ _ _ _ _ _ _ _ _ _ _ _ SB C2).
  rewrite (shared_mk verify dh blake3 sha3 stream poly1305 sign pubOf id _ _ _ _ Hk), <- psk. split; [reflexivity|].
  rewrite (mkey_sym dh blake3 sha3 pubOf (id_dh_comm _ _ _ _ _ _ _ id)). reflexivity.
Qed.
Print Assumptions C151_attacked_sessions.

(** With windows of 1 to 64 nothing is read twice either. *)
Theorem C151_attacked_once : forall verify dh blake3 sha3 stream poly1305 sign pubOf ca cb pa pb na nb md mf k ls d,
  ideal verify dh sha3 stream poly1305 sign pubOf -> honestConf ca -> honestConf cb -> cPSK (icKx ca) = cPSK (icKx cb) ->
  separate verify sign (cIdentity (icKx ca)) (cIdentity (icKx cb)) -> separate verify sign (cIdentity (icKx cb)) (cIdentity (icKx ca)) ->
  sharedKey dh blake3 sha3 (cPSK (icKx ca)) pa (pubOf pb) k ->
  attackedRun verify dh blake3 sha3 stream poly1305 sign pubOf ca cb pa pb (duoInit ca cb (Size na) (Size nb) md mf) ls d ->
  plainTraffic blake3 stream poly1305 (auxKey blake3 sha3 ca) k (sessBytes (cSession (icKx ca))) (dNet (dA d)) ->
  plainTraffic blake3 stream poly1305 (auxKey blake3 sha3 cb) k (sessBytes (cSession (icKx cb))) (dNet (dB d)) ->
  foreign blake3 stream poly1305 (auxKey blake3 sha3 ca) k (sessBytes (cSession (icKx cb))) (dNet (dA d)) ->
  foreign blake3 stream poly1305 (auxKey blake3 sha3 cb) k (sessBytes (cSession (icKx ca))) (dNet (dB d)) ->
  1 <= na <= 64 -> 1 <= nb <= 64 -> N.of_nat (length ls) < 2^64 ->
  (exists lost, Permutation (queued (dSess (dA d)) ++ lost) (dWrote (dB d))) /\
  (exists lost, Permutation (queued (dSess (dB d)) ++ lost) (dWrote (dA d))).
Proof.
  intros verify dh blake3 sha3 stream poly1305 sign pubOf ca cb pa pb na nb md mf k ls d id Ha Hb psk sA sB Hk R PA PB FA FB Na Nb HT.
  destruct (attack_inv verify dh blake3 sha3 stream poly1305 sign pubOf id ca cb pa pb Ha Hb psk sA sB _ _ md mf k ls d Hk R PB FB PA FA) as [_ L].
  destruct (L HT) as [LA0 LB0]. split; eapply LA_once; eauto using words_small; discriminate.
Qed.
Print Assumptions C151_attacked_once.

(** ** An instance: a pre-shared key, an attacker who sends junk and sends packets back *)

Definition armedConf (i : N) : iconf :=
  {| icKx := {| cPSK := Some [7; 9]; cMode := 1; cIdentity := key32 i; cSession := {| sCreatedAt := 5 + 50 * i; sRandom := i |}; cInterval := 60 |};
     icDetachFails := 9; icErrorOn := Some 1; icCloseOnError := false |}.

Definition armedAux : option bytes := auxKey quickHash KxProps.toyHash (armedConf 1).
Definition armed0 := duoInit (armedConf 1) (armedConf 2) (Size 64) (Size 64) 8 65536.
Definition armedStep := astep padVerify goodDh quickHash KxProps.toyHash quickStream quickPoly padSign (armedConf 1) (armedConf 2).

Definition fitsB (k : option bytes) (iv pid body : bytes) : bool :=
  bytes_eqb (firstn 16 (plainOf quickStream k iv body))
    (quickPoly (calculatePoly1305Key quickHash pid k) (firstn 4 (skipn 32 (plainOf quickStream k iv body)))).

Lemma fitsB_ok : forall k iv pid body, firstTagFits quickStream quickHash quickPoly k iv pid body -> fitsB k iv pid body = true.
Proof. intros k iv pid body H. unfold fitsB. rewrite H. apply bytes_eqb_refl. Qed.

Definition idOf (raw : bytes) : bytes := idOnWire quickStream armedAux (firstn 8 raw).

(** No checksum fits. *)
Definition junkB (x : side) (raw : bytes) : bool :=
  negb (fitsB armedAux (idOf raw) (idOf raw) (skipn 8 raw)) &&
  forallb (fun o => match o, kRemoteSession (xKx (iKx (dSess x))) with
                    | Some k, Some i => negb (fitsB (Some k) (sessBytes i ++ idOf raw) (idOf raw) (skipn 8 raw))
                    | _, _ => true end) (kKeys (xKx (iKx (dSess x)))).

Definition allowedB (x y : side) (raw : bytes) : bool :=
  forallb (fun b => b <? 256) raw && (existsb (bytes_eqb raw) (dNet x) || existsb (bytes_eqb raw) (dNet y) || junkB x raw).

Lemma allowedB_ok : forall i x y raw, allowedB x y raw = true -> notForged quickHash KxProps.toyHash quickStream quickPoly (armedConf i) x y raw.
Proof.
  intros i x y raw H. apply andb_true_iff in H. destruct H as [H1 H2]. split.
  { rewrite forallb_forall in H1. apply Forall_forall. intros b Hb. apply N.ltb_lt, H1, Hb. }
  assert (M : forall net, existsb (bytes_eqb raw) net = true -> In raw net).
  { intros net E. apply existsb_exists in E. destruct E as (r & Hr & Er). apply bytes_eqb_eq in Er. congruence. }
  apply orb_true_iff in H2. destruct H2 as [H2|H2]; [apply orb_true_iff in H2; destruct H2; auto|].
  intros (pid & l & m & Ep & Cases). exfalso. change (auxKey quickHash KxProps.toyHash (armedConf i)) with armedAux in *.
  assert (Ei : idOf raw = pid) by (unfold idOf; rewrite <- Ep; apply idOnWire_invol).
  unfold junkB in H2. rewrite Ei in H2. apply andb_true_iff in H2. destruct H2 as [H2 H3].
  destruct Cases as [S|(k & sid & Ik & Er & S)]; apply (sealed_fits quickStream quickHash quickPoly quick_ok), fitsB_ok in S.
  - rewrite S in H2. discriminate.
  - rewrite forallb_forall in H3. specialize (H3 _ Ik). cbn beta iota in H3. destruct (kRemoteSession _) as [r|]; [|discriminate].
    injection Er as <-. rewrite S in H3. discriminate.
Qed.

Fixpoint armedRunB (d : duo) (ls : list alabel) : option duo :=
  match ls with
  | [] => Some d
  | l :: r =>
      if match l with
         | AStep (DA l) => onePairB (key32 3) (dA d) l | AStep (DB l) => onePairB (key32 11) (dB d) l
         | AToA raw => allowedB (dA d) (dB d) raw | AToB raw => allowedB (dB d) (dA d) raw
         end
      then match armedStep d l with Some d' => armedRunB d' r | None => None end
      else None
  end.

Lemma armedRunB_ok : forall d0 ls d d' pre,
  attackedRun padVerify goodDh quickHash KxProps.toyHash quickStream quickPoly padSign goodPub (armedConf 1) (armedConf 2) (key32 3) (key32 11) d0 pre d ->
  armedRunB d ls = Some d' ->
  attackedRun padVerify goodDh quickHash KxProps.toyHash quickStream quickPoly padSign goodPub (armedConf 1) (armedConf 2) (key32 3) (key32 11) d0 (pre ++ ls) d'.
Proof.
  intros d0 ls. induction ls as [|l ls IH]; intros d d' pre R E; cbn [armedRunB] in E.
  - injection E as <-. rewrite app_nil_r. exact R.
  - match type of E with (if ?b then _ else _) = _ => destruct b eqn:EO; [|discriminate] end.
    destruct (armedStep d l) as [d1|] eqn:Ed; [|discriminate]. replace (pre ++ l :: ls) with ((pre ++ [l]) ++ ls) by (rewrite <- app_assoc; reflexivity).
    apply (IH d1); [|exact E]. eapply ar_snoc; [exact R| |exact Ed].
    destruct l as [[l|l]|raw|raw]; [apply onePairB_ok, EO|apply onePairB_ok, EO|apply allowedB_ok, EO|apply allowedB_ok, EO].
Qed.

(** The handshake, with junk for both. *)
Definition junk : bytes := repeat 5 60.
Definition armedRun1 : list alabel :=
  map AStep (firstn 8 duoRun) ++ [AToB junk; AToA [1; 2]].
Definition armed1 : duo := Eval vm_compute in match armedRunB armed0 armedRun1 with Some d => d | None => armed0 end.
Definition armedRun2 : list alabel :=
  map AStep (skipn 8 (firstn 20 duoRun)) ++
  map AStep [DA (SWrite [1;2;3]); DB (SWrite [9]); DB (SWrite [])].
Definition armed2 : duo := Eval vm_compute in match armedRunB armed1 armedRun2 with Some d => d | None => armed0 end.
(** Key-exchange messages back to their sender; data packets in any order,
    twice, and back to their sender. *)
Definition armedRun3 : list alabel :=
  [AToA junk; AToA (nth 2 (dNet (dA armed2)) []); AStep (DA (SRecv 3)); AStep (DA (SRecv 2)); AToA (last (dNet (dB armed2)) []); AToA (last (dNet (dA armed2)) []);
   AToB (last (dNet (dA armed2)) []); AToB (last (dNet (dA armed2)) []); AToB (last (dNet (dB armed2)) []); AToB (nth 1 (dNet (dB armed2)) [])].
Definition armed3 : duo := Eval vm_compute in match armedRunB armed2 armedRun3 with Some d => d | None => armed0 end.
Definition armedShared : bytes := Eval vm_compute in mk goodDh quickHash KxProps.toyHash (Some [7; 9]) (key32 3) (goodPub (key32 11)).


Definition bytesB (raw : bytes) : bool := forallb (fun b => b <? 256) raw.
Definition noTwoB (k id : bytes) (raw : bytes) : bool :=
  bytesB raw && negb (fitsB armedAux (idOf raw) (idOf raw) (skipn 8 raw) && fitsB (Some k) (id ++ idOf raw) (idOf raw) (skipn 8 raw)).
Definition notHisB (k id : bytes) (raw : bytes) : bool := negb (fitsB (Some k) (id ++ idOf raw) (idOf raw) (skipn 8 raw)).

Lemma idOf_wire : forall pid body, length pid = 8%nat -> idOf (idOnWire quickStream armedAux pid ++ body) = pid /\ skipn 8 (idOnWire quickStream armedAux pid ++ body) = body.
Proof.
  intros pid body L. assert (L8 : length (idOnWire quickStream armedAux pid) = 8%nat) by (unfold idOnWire; destruct armedAux; rewrite ?xorStream_length; exact L).
  unfold idOf. rewrite firstn_app, skipn_app, L8, Nat.sub_diag, (firstn_all2 (n := 8)), (skipn_all2 (n := 8)) by lia. cbn [firstn skipn app]. rewrite app_nil_r.
  split; [apply idOnWire_invol|reflexivity].
Qed.

Lemma noTwo_ok : forall k i net, forallb (noTwoB k i) net = true -> plainTraffic quickHash quickStream quickPoly armedAux k i net.
Proof.
  intros k i net H. rewrite forallb_forall in H. split.
  - apply Forall_forall. intros raw Hr. apply H in Hr. apply andb_true_iff in Hr. destruct Hr as [Hr _]. unfold bytesB in Hr. rewrite forallb_forall in Hr.
    apply Forall_forall. intros b Hb. apply N.ltb_lt, Hr, Hb.
  - intros pid body L Hin F1 F2. apply H in Hin. apply andb_true_iff in Hin. destruct Hin as [_ Hin]. destruct (idOf_wire pid body L) as [E1 E2].
    rewrite E1, E2, (fitsB_ok _ _ _ _ F1), (fitsB_ok _ _ _ _ F2) in Hin. discriminate.
Qed.

Lemma notHis_ok : forall k i net, forallb (notHisB k i) net = true -> foreign quickHash quickStream quickPoly armedAux k i net.
Proof.
  intros k i net H pid body L Hin F. rewrite forallb_forall in H. apply H in Hin. unfold notHisB in Hin. destruct (idOf_wire pid body L) as [E1 E2].
  rewrite E1, E2, (fitsB_ok _ _ _ _ F) in Hin. discriminate.
Qed.

Lemma pad_separate : forall i j, i mod 256 <> j mod 256 -> separate padVerify padSign (key32 i) (key32 j).
Proof.
  intros i j Hij m L. unfold padVerify. destruct (bytes_eqb _ _) eqn:E; [|reflexivity]. exfalso. apply bytes_eqb_eq in E.
  assert (N48 : exists b r, firstn 32 (skipn 48 m) = b :: r).
  { assert (Ls : length (skipn 48 m) = 34%nat) by (rewrite skipn_length, L; reflexivity). destruct (skipn 48 m) as [|b r]; [discriminate|]. cbn [firstn]. eauto. }
  destruct N48 as (b & r & Eb). unfold padSign, toySign in E. rewrite Eb in E. unfold key32 in E. cbn [le_enc combine map fst snd app firstn] in E.
  injection E as E _. clear -Hij E.
  assert (H : forall a, (a mod 256 + b) mod 256 = (a + b) mod 256) by (intros a; rewrite N.add_mod_idemp_l; [reflexivity|discriminate]).
  rewrite !H in E. apply Hij.
  assert (G : forall a, ((a + b) mod 256 + (256 - b mod 256)) mod 256 = a mod 256).
  { intros a. pose proof (N.mod_lt b 256 ltac:(discriminate)) as Hb. rewrite N.add_mod_idemp_l by discriminate.
    pose proof (N.div_mod b 256 ltac:(discriminate)) as D. set (q := b / 256) in *. set (t := b mod 256) in *. clearbody q t.
    replace (a + b + (256 - t)) with (a + (q + 1) * 256) by lia. apply N.mod_add. discriminate. }
  rewrite <- (G i), <- (G j), E. reflexivity.
Qed.

Example C151_example :
  ideal padVerify goodDh KxProps.toyHash quickStream quickPoly padSign goodPub /\ honestConf (armedConf 1) /\ honestConf (armedConf 2) /\
  separate padVerify padSign (key32 1) (key32 2) /\ separate padVerify padSign (key32 2) (key32 1) /\
  attackedRun padVerify goodDh quickHash KxProps.toyHash quickStream quickPoly padSign goodPub (armedConf 1) (armedConf 2) (key32 3) (key32 11)
    armed0 (armedRun1 ++ armedRun2 ++ armedRun3) armed3 /\
  plainTraffic quickHash quickStream quickPoly armedAux armedShared (sessBytes (cSession (icKx (armedConf 1)))) (dNet (dA armed3)) /\
  plainTraffic quickHash quickStream quickPoly armedAux armedShared (sessBytes (cSession (icKx (armedConf 2)))) (dNet (dB armed3)) /\
  foreign quickHash quickStream quickPoly armedAux armedShared (sessBytes (cSession (icKx (armedConf 2)))) (dNet (dA armed3)) /\
  foreign quickHash quickStream quickPoly armedAux armedShared (sessBytes (cSession (icKx (armedConf 1)))) (dNet (dB armed3)) /\
  kKeys (xKx (iKx (dSess (dA armed3)))) = [Some armedShared; None; None; None] /\
  stateOf (dSess (dA armed3)) = SessionStateEstablished /\ stateOf (dSess (dB armed3)) = SessionStateEstablished /\
  queued (dSess (dA armed3)) = [[]; [9]] /\ queued (dSess (dB armed3)) = [[1; 2; 3]] /\
  (iFails (dSess (dA armed3)), iFails (dSess (dB armed3))) = (1, 0) /\
  (iUnexpected (dSess (dA armed3)), iUnexpected (dSess (dB armed3))) = (2, 1) /\
  filter (fun e => match e with EvError _ => true | _ => false end) (out (iRcv (dSess (dB armed3)))) = [EvError ErrBackend; EvError ErrCannotDecrypt; EvError ErrCannotDecrypt].
Proof.
  split; [apply good_ideal|]. split; [repeat split; vm_compute; auto|]. split; [repeat split; vm_compute; auto|].
  split; [apply pad_separate; vm_compute; discriminate|]. split; [apply pad_separate; vm_compute; discriminate|].
  split.
  { apply (armedRunB_ok armed0 _ armed0 armed3 []); [constructor|]. vm_compute. reflexivity. }
  split; [apply noTwo_ok; vm_compute; reflexivity|]. split; [apply noTwo_ok; vm_compute; reflexivity|].
  split; [apply notHis_ok; vm_compute; reflexivity|]. split; [apply notHis_ok; vm_compute; reflexivity|].
  vm_compute. repeat split.
Qed.
