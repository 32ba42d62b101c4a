(** C142: the handshake between two honest sessions can always be completed. *)
From Coq Require Import NArith Arith List Bool Lia.
From Verif Require Import Base BaseLemmas TS MessageModel PacketIDModel PacketIDSpec PacketIDProofs ReaderModel ReaderLoopModel
  PacketModel PacketSpec PacketProps StateModel KxModel KxSpec KxProofs KxProps KxPairModel KxPairProps IntegModel IntegSafe
  DuoModel DuoSpec DuoProofs DuoProps DuoOnceProps DuoReach DuoReachHalf.
Import ListNotations.
Local Open Scope N_scope.

(** A side which still works: it is not closing, its loop runs, and its
    exchanger does not hold the lock for the sake of a second key pair. *)
Definition working (x : side) : Prop :=
  iOver (dSess x) = false /\ isDoneState (stateOf (dSess x)) = false /\
  (locked (iKx (dSess x)) = true -> kNextLocal (xKx (iKx (dSess x))) = None).

Definition swap (d : duo) : duo := {| dA := dB d; dB := dA d |}.
Definition swapL (l : dlabel) : dlabel := match l with DA l => DB l | DB l => DA l end.

Lemma swap_swap : forall d, swap (swap d) = d.
Proof. intros [a b]. reflexivity. Qed.

Section Swap.
  Variable verify : bytes -> bytes -> bytes -> bool.
  Variable dh : bytes -> bytes -> bytes.
  Variable blake3 sha3 : bytes -> bytes.
  Variable stream : bytes -> bytes -> nat -> N.
  Variable poly1305 : bytes -> bytes -> bytes.
  Variable sign : bytes -> bytes -> bytes.
  Variable pubOf : bytes -> bytes.
  Notation run := (firstKeysRun verify dh blake3 sha3 stream poly1305 sign pubOf).

  Lemma run_swap : forall ca cb pa pb d ls d', run ca cb pa pb d ls d' -> run cb ca pb pa (swap d) (map swapL ls) (swap d').
  Proof.
    intros ca cb pa pb d ls d' R. induction R as [|ls d1 l d2 R IH HO E]; [constructor|]. rewrite map_app. eapply fk_snoc; [exact IH| |].
    - destruct l; exact HO.
    - destruct l as [l|l]; cbn [swapL swap dA dB]; unfold dstep in *; cbn [dA dB] in *; destruct (sideStep _ _ _ _ _ _ _ _ _ _ l); try discriminate; injection E as <-; reflexivity.
  Qed.

  Lemma plain_swap : forall ca cb k d, plainD blake3 sha3 stream poly1305 ca cb k d -> plainD blake3 sha3 stream poly1305 cb ca k (swap d).
  Proof. intros ca cb k d [A B]. split; assumption. Qed.

  Lemma good_swap : forall ca cb pa pb wa wb md mf k n d,
    good verify dh blake3 sha3 stream poly1305 sign pubOf ca cb pa pb wa wb md mf k n d ->
    good verify dh blake3 sha3 stream poly1305 sign pubOf cb ca pb pa wb wa md mf k n (swap d).
  Proof.
    intros ca cb pa pb wa wb md mf k n d (ls & R & L & P). exists (map swapL ls). split; [exact (run_swap _ _ _ _ _ _ _ R)|].
    split; [rewrite map_length; exact L|apply plain_swap, P].
  Qed.

  Lemma reach_swap : forall ca cb pa pb k n Q d,
    reach verify dh blake3 sha3 stream poly1305 sign pubOf cb ca pb pa k n (fun d' => Q (swap d')) (swap d) ->
    reach verify dh blake3 sha3 stream poly1305 sign pubOf ca cb pa pb k n Q d.
  Proof.
    intros ca cb pa pb k n Q d (ls & d' & L & R & H). exists (map swapL ls), (swap d'). split; [rewrite map_length; exact L|].
    split; [rewrite <- (swap_swap d); exact (run_swap _ _ _ _ _ _ _ R)|]. intros P. apply H. rewrite <- (swap_swap d'). apply plain_swap, P.
  Qed.
End Swap.

Section Whole.
  Variable verify : bytes -> bytes -> bytes -> bool.
  Variable dh : bytes -> bytes -> bytes.
  Variable blake3 sha3 : bytes -> bytes.
  Variable stream : bytes -> bytes -> nat -> N.
  Variable poly1305 : bytes -> bytes -> bytes.
  Variable sign : bytes -> bytes -> bytes.
  Variable pubOf : bytes -> bytes.
  Hypothesis id : ideal verify dh sha3 stream poly1305 sign pubOf.
  Notation Good := (good verify dh blake3 sha3 stream poly1305 sign pubOf).
  Notation Reach := (reach verify dh blake3 sha3 stream poly1305 sign pubOf).
  Notation shared := (sharedKey dh blake3 sha3).

  Lemma unlock : forall ca cb pa pb wa wb md mf k, honestConf ca -> honestConf cb -> cPSK (icKx ca) = cPSK (icKx cb) ->
    shared (cPSK (icKx ca)) pa (pubOf pb) k -> forall d, Good ca cb pa pb wa wb md mf k 1%nat d -> working (dA d) ->
    Reach ca cb pa pb k 1%nat (fun d' => free (dA d') /\ dB d' = dB d) d.
  Proof.
    intros ca cb pa pb wa wb md mf k Ha Hb psk Hk d G (A1 & A2 & A3). destruct (locked (iKx (dSess (dA d)))) eqn:Lk.
    2: { apply reach_now. split; [|reflexivity]. split; [exact A1|]. split; [exact A2|exact Lk]. }
    specialize (A3 eq_refl). destruct (good_inv verify dh blake3 sha3 stream poly1305 sign pubOf id ca cb pa pb Ha Hb psk wa wb md mf k Hk _ _ G) as [SA _].
    assert (EL : xLoop (xOf (dA d)) = LpGen) by (unfold locked in Lk; unfold xOf; destruct (xLoop _); try discriminate; reflexivity).
    assert (D0 : kDone (xKx (xOf (dA d))) = 0).
    { destruct SA as ((_ & _ & _ & _ & _ & _ & _ & _ & _ & _ & _ & C) & _). destruct (N.eq_0_gt_0_cases (kDone (xKx (xOf (dA d))))) as [D|D]; [exact D|].
      destruct (C D) as [C1 _]. destruct (C1 A3). }
    destruct (gen_step verify dh blake3 sha3 stream poly1305 sign pubOf id ca cb pa pb Ha Hb psk wa wb md mf k Hk d G A1 A2 EL A3 D0) as (x1 & l & d1 & M & E & EB & EA & D1 & a & Lp).
    eapply (reach_step verify dh blake3 sha3 stream poly1305 sign pubOf ca cb pa pb wa wb md mf k 0); [exact G|exact M|exact E|]. intros _. apply reach_now.
    split; [|exact EB]. unfold free, xOf. rewrite EA. split; [exact A1|]. split; [exact A2|]. unfold locked. cbn. rewrite Lp. reflexivity.
  Qed.

  Lemma whole : forall ca cb pa pb wa wb md mf k, honestConf ca -> honestConf cb -> cPSK (icKx ca) = cPSK (icKx cb) ->
    shared (cPSK (icKx ca)) pa (pubOf pb) k -> forall d, Good ca cb pa pb wa wb md mf k 24%nat d -> working (dA d) -> working (dB d) ->
    Reach ca cb pa pb k 24%nat (fun d' => ready d' /\ stateOf (dSess (dA d')) = SessionStateEstablished /\ stateOf (dSess (dB d')) = SessionStateEstablished) d.
  Proof.
    intros ca cb pa pb wa wb md mf k Ha Hb psk Hk d G WA WB.
    assert (Hk' : shared (cPSK (icKx cb)) pb (pubOf pa) k).
    { unfold sharedKey in *. rewrite <- psk. destruct (cPSK (icKx ca)); cbn in *; rewrite (id_dh_comm _ _ _ _ _ _ _ id pb pa); exact Hk. }
    assert (G1 : Good ca cb pa pb wa wb md mf k 1%nat d) by (eapply good_less; [|exact G]; lia).
    eapply (reach_bind verify dh blake3 sha3 stream poly1305 sign pubOf ca cb pa pb wa wb md mf k 1 23); [exact G|exact (unlock ca cb pa pb wa wb md mf k Ha Hb psk Hk d G1 WA)|].
    intros d1 Gd1 [F1 E1]. cbn beta in *.
    eapply (reach_bind verify dh blake3 sha3 stream poly1305 sign pubOf ca cb pa pb wa wb md mf k 1 22 (fun d' => ready d')); [exact Gd1| |].
    { apply reach_swap. assert (G2 := good_swap _ _ _ _ _ _ _ _ _ _ _ _ _ _ _ _ _ _ _ (good_less _ _ _ _ _ _ _ _ _ _ _ _ _ _ _ _ _ 1 23 d1 ltac:(lia) Gd1)).
      destruct (unlock cb ca pb pa wb wa md mf k Hb Ha (eq_sym psk) Hk' (swap d1) G2) as (ls & d2 & L & R & H); [cbn [swap dA]; rewrite E1; exact WB|].
      exists ls, d2. split; [exact L|]. split; [exact R|]. intros P. destruct (H P) as [H1 H2]. split; cbn [swap dA dB]; [rewrite H2; exact F1|exact H1]. }
    intros d2 Gd2 R2.
    eapply (reach_bind verify dh blake3 sha3 stream poly1305 sign pubOf ca cb pa pb wa wb md mf k 11 11); [exact Gd2| |].
    { apply (half verify dh blake3 sha3 stream poly1305 sign pubOf id ca cb pa pb Ha Hb psk wa wb md mf k Hk d2); [eapply good_less; [|exact Gd2]; lia|exact R2]. }
    intros d3 Gd3 ((RA & RB) & SA & _). apply reach_swap.
    destruct (half verify dh blake3 sha3 stream poly1305 sign pubOf id cb ca pb pa Hb Ha (eq_sym psk) wb wa md mf k Hk' (swap d3)) as (ls & d4 & L & R & H);
      [apply good_swap; exact Gd3|split; assumption|].
    exists ls, d4. split; [exact L|]. split; [exact R|]. intros P. destruct (H P) as ([R1 R2'] & H1 & H2).
    split; [split; assumption|]. split; cbn [swap dA dB] in *; congruence.
  Qed.
End Whole.

(** ** C142.  Whatever two honest sessions have done so far: if both still work, at
    most 24 further steps establish the session on both sides, with the same key. *)
Theorem C142_handshake_can_end : forall verify dh blake3 sha3 stream poly1305 sign pubOf ca cb pa pb wa wb md mf k ls d,
  ideal verify dh sha3 stream poly1305 sign pubOf -> honestConf ca -> honestConf cb -> cPSK (icKx ca) = cPSK (icKx cb) ->
  sharedKey dh blake3 sha3 (cPSK (icKx ca)) pa (pubOf pb) k ->
  firstKeysRun verify dh blake3 sha3 stream poly1305 sign pubOf ca cb pa pb (duoInit ca cb wa wb md mf) ls d ->
  plainTraffic blake3 stream poly1305 (auxKey blake3 sha3 ca) k (sessBytes (cSession (icKx ca))) (dNet (dA d)) ->
  plainTraffic blake3 stream poly1305 (auxKey blake3 sha3 cb) k (sessBytes (cSession (icKx cb))) (dNet (dB d)) ->
  N.of_nat (length ls) + 24 < 2^64 -> working (dA d) -> working (dB d) ->
  exists ls2 d2, (length ls2 <= 24)%nat /\
    firstKeysRun verify dh blake3 sha3 stream poly1305 sign pubOf ca cb pa pb d ls2 d2 /\
    (plainTraffic blake3 stream poly1305 (auxKey blake3 sha3 ca) k (sessBytes (cSession (icKx ca))) (dNet (dA d2)) ->
     plainTraffic blake3 stream poly1305 (auxKey blake3 sha3 cb) k (sessBytes (cSession (icKx cb))) (dNet (dB d2)) ->
     stateOf (dSess (dA d2)) = SessionStateEstablished /\ stateOf (dSess (dB d2)) = SessionStateEstablished /\
     kKeys (xKx (iKx (dSess (dA d2)))) = [Some k; None; None; None] /\ kKeys (xKx (iKx (dSess (dB d2)))) = [Some k; None; None; None]).
Proof.
  intros verify dh blake3 sha3 stream poly1305 sign pubOf ca cb pa pb wa wb md mf k ls d id Ha Hb psk Hk R PA PB HT WA WB.
  assert (G : good verify dh blake3 sha3 stream poly1305 sign pubOf ca cb pa pb wa wb md mf k 24 d).
  { exists ls. split; [exact R|]. split; [cbn; lia|split; assumption]. }
  destruct (whole verify dh blake3 sha3 stream poly1305 sign pubOf id ca cb pa pb wa wb md mf k Ha Hb psk Hk d G WA WB) as (ls2 & d2 & L & R2 & H).
  exists ls2, d2. split; [exact L|]. split; [exact R2|]. intros PA2 PB2. destruct (H (conj PB2 PA2)) as (_ & H1 & H2). split; [exact H1|]. split; [exact H2|].
  assert (R3 := run_app verify dh blake3 sha3 stream poly1305 sign pubOf ca cb pa pb _ _ _ _ _ R R2).
  destruct (C130_two_honest_sessions verify dh blake3 sha3 stream poly1305 sign pubOf ca cb pa pb wa wb md mf k _ d2 id Ha Hb psk Hk R3 PA2 PB2) as (_ & _ & K). apply K. left; exact H1.
Qed.
Print Assumptions C142_handshake_can_end.

(** Two messages of A are lost and B is about to draw its key pair with the lock
    held: 11 further steps complete the handshake. *)
Definition lostRun : list dlabel :=
  [DA (SKx (KLoopGo 100)); DA (SKx KLoopCheck); DA (SKx (KLoopGen (key32 3) (goodPub (key32 3)) 100)); DA (SKx KLoopSend); DA (SKx KLoopRetry);
   DB (SKx (KLoopGo 100)); DB (SKx KLoopCheck)].
Definition lostEnd : duo := endOf (checkedRun duo0 lostRun).
Definition lostRest : list dlabel :=
  [DB (SKx (KLoopGen (key32 11) (goodPub (key32 11)) 1)); DA (SKx KLoopRetry); DB (SRecv 2); DB (SKx (KAnswer 0 0)); DB (SKx (KAnswer 0 0)); DA (SRecv 0);
   DB (SKx KLoopSend); DA (SRecv 1); DA (SKx (KAnswer 0 0)); DA (SKx (KAnswer 0 0)); DB (SRecv 3)].
Definition lostEnd2 : duo := endOf (checkedRun lostEnd lostRest).

Example C142_example :
  firstKeysRun padVerify goodDh quickHash KxProps.toyHash quickStream quickPoly padSign goodPub (duoConf 1) (duoConf 2) (key32 3) (key32 11) duo0 lostRun lostEnd /\
  plainTraffic quickHash quickStream quickPoly None duoShared (sessBytes (cSession (icKx (duoConf 1)))) (dNet (dA lostEnd)) /\
  plainTraffic quickHash quickStream quickPoly None duoShared (sessBytes (cSession (icKx (duoConf 2)))) (dNet (dB lostEnd)) /\
  working (dA lostEnd) /\ working (dB lostEnd) /\ locked (iKx (dSess (dB lostEnd))) = true /\
  stateOf (dSess (dA lostEnd)) = SessionStateKeyExchanging /\ stateOf (dSess (dB lostEnd)) = SessionStateKeyExchanging /\
  checkedRun lostEnd lostRest = Some lostEnd2 /\
  plainTraffic quickHash quickStream quickPoly None duoShared (sessBytes (cSession (icKx (duoConf 1)))) (dNet (dA lostEnd2)) /\
  plainTraffic quickHash quickStream quickPoly None duoShared (sessBytes (cSession (icKx (duoConf 2)))) (dNet (dB lostEnd2)) /\
  stateOf (dSess (dA lostEnd2)) = SessionStateEstablished /\ stateOf (dSess (dB lostEnd2)) = SessionStateEstablished /\
  kKeys (xKx (iKx (dSess (dB lostEnd2)))) = [Some duoShared; None; None; None].
Proof.
  split. { apply (checkedRun_ok duo0 lostRun duo0 lostEnd []); [constructor|]. vm_compute. reflexivity. }
  split; [apply noBoth_ok; vm_compute; reflexivity|]. split; [apply noBoth_ok; vm_compute; reflexivity|].
  split; [vm_compute; repeat split; discriminate|]. split; [vm_compute; repeat split|]. split; [vm_compute; reflexivity|]. split; [vm_compute; reflexivity|]. split; [vm_compute; reflexivity|].
  split; [vm_compute; reflexivity|]. split; [apply noBoth_ok; vm_compute; reflexivity|]. split; [apply noBoth_ok; vm_compute; reflexivity|]. vm_compute. repeat split.
Qed.

(** ** C143.  So no history keeps the application's data from getting through: after
    at most 24 steps either side can write a message, and when the packet of that
    message arrives, the message is handed to the application of the other side. *)
Definition getsThrough verify dh blake3 sha3 stream poly1305 sign (c c' : iconf) (k payload : bytes) (d : duo) : Prop :=
  exists d1, dstep verify dh blake3 sha3 stream poly1305 sign c c' d (DB (SWrite payload)) = Some d1 /\ dWrote (dB d1) = dWrote (dB d) ++ [payload] /\
    (plainTraffic blake3 stream poly1305 (auxKey blake3 sha3 c') k (sessBytes (cSession (icKx c'))) (dNet (dB d1)) ->
     exists d2, dstep verify dh blake3 sha3 stream poly1305 sign c c' d1 (DA (SRecv (length (dNet (dB d))))) = Some d2 /\
       queued (dSess (dA d2)) = queued (dSess (dA d)) ++ [payload]).

Theorem C143_data_gets_through : forall verify dh blake3 sha3 stream poly1305 sign pubOf ca cb pa pb wa wb md mf k ls d,
  ideal verify dh sha3 stream poly1305 sign pubOf -> honestConf ca -> honestConf cb -> cPSK (icKx ca) = cPSK (icKx cb) ->
  sharedKey dh blake3 sha3 (cPSK (icKx ca)) pa (pubOf pb) k ->
  firstKeysRun verify dh blake3 sha3 stream poly1305 sign pubOf ca cb pa pb (duoInit ca cb wa wb md mf) ls d ->
  plainTraffic blake3 stream poly1305 (auxKey blake3 sha3 ca) k (sessBytes (cSession (icKx ca))) (dNet (dA d)) ->
  plainTraffic blake3 stream poly1305 (auxKey blake3 sha3 cb) k (sessBytes (cSession (icKx cb))) (dNet (dB d)) ->
  N.of_nat (length ls) + 25 < 2^64 -> working (dA d) -> working (dB d) ->
  exists ls2 d2, (length ls2 <= 24)%nat /\
    firstKeysRun verify dh blake3 sha3 stream poly1305 sign pubOf ca cb pa pb d ls2 d2 /\
    (plainTraffic blake3 stream poly1305 (auxKey blake3 sha3 ca) k (sessBytes (cSession (icKx ca))) (dNet (dA d2)) ->
     plainTraffic blake3 stream poly1305 (auxKey blake3 sha3 cb) k (sessBytes (cSession (icKx cb))) (dNet (dB d2)) ->
     forall payload, len payload + 53 < 2^32 ->
       getsThrough verify dh blake3 sha3 stream poly1305 sign ca cb k payload d2 /\
       getsThrough verify dh blake3 sha3 stream poly1305 sign cb ca k payload {| dA := dB d2; dB := dA d2 |}).
Proof.
  intros verify dh blake3 sha3 stream poly1305 sign pubOf ca cb pa pb wa wb md mf k ls d id Ha Hb psk Hk R PA PB HT WA WB.
  assert (G : good verify dh blake3 sha3 stream poly1305 sign pubOf ca cb pa pb wa wb md mf k 24 d).
  { exists ls. split; [exact R|]. split; [cbn; lia|split; assumption]. }
  destruct (whole verify dh blake3 sha3 stream poly1305 sign pubOf id ca cb pa pb wa wb md mf k Ha Hb psk Hk d G WA WB) as (ls2 & d2 & L & R2 & H).
  exists ls2, d2. split; [exact L|]. split; [exact R2|]. intros PA2 PB2 payload Hl.
  destruct (H (conj PB2 PA2)) as (((A1 & A2 & A3) & (B1 & B2 & B3)) & H1 & H2).
  assert (R3 := run_app verify dh blake3 sha3 stream poly1305 sign pubOf ca cb pa pb _ _ _ _ _ R R2).
  assert (Hk' : sharedKey dh blake3 sha3 (cPSK (icKx cb)) pb (pubOf pa) k).
  { unfold sharedKey in *. rewrite <- psk. destruct (cPSK (icKx ca)); cbn in *; rewrite (id_dh_comm _ _ _ _ _ _ _ id pb pa); exact Hk. }
  split.
  - destruct (C132_newest_delivered verify dh blake3 sha3 stream poly1305 sign pubOf ca cb pa pb wa wb md mf k _ d2 payload id Ha Hb psk Hk R3 PA2 PB2) as (d3 & E & W & D);
      [rewrite app_length; lia|exact Hl|exact H2|].
    exists d3. split; [exact E|]. split; [exact W|]. intros P. apply D; assumption.
  - assert (R4 := run_swap verify dh blake3 sha3 stream poly1305 sign pubOf ca cb pa pb _ _ _ R3).
    destruct (C132_newest_delivered verify dh blake3 sha3 stream poly1305 sign pubOf cb ca pb pa wb wa md mf k _ (swap d2) payload id Hb Ha (eq_sym psk) Hk' R4 PB2 PA2) as (d3 & E & W & D);
      [rewrite map_length, app_length; lia|exact Hl|exact H1|].
    exists d3. split; [exact E|]. split; [exact W|]. intros P. apply D; assumption.
Qed.
Print Assumptions C143_data_gets_through.

(** The same lost packets as above, then a message of A. *)
Definition lostEnd3 : duo := endOf (checkedRun lostEnd2 [DA (SWrite [4; 2]); DB (SRecv 4); DB (SWrite [5]); DA (SRecv 2)]).
Example C143_example :
  queued (dSess (dB lostEnd)) = [] /\ queued (dSess (dB lostEnd3)) = [[4; 2]] /\ queued (dSess (dA lostEnd3)) = [[5]].
Proof. vm_compute. repeat split. Qed.
