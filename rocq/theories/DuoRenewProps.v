(** C155: two sessions at work can always agree on a key again. *)
From Coq Require Import NArith Arith List Bool Lia.
From Verif Require Import Base BaseLemmas TS MessageModel PacketIDModel PacketIDProofs ReaderModel ReaderLoopModel PacketModel PacketSpec PacketProofs PacketProps
  StateModel KxModel KxSpec KxProps KxPairModel KxPairProps IntegModel IntegSpec IntegAuth DuoModel DuoSpec DuoProofs DuoProps DuoOnceProps
  DuoAttackModel DuoAttackSpec DuoAttackProofs DuoAttackProps DuoRekeySpec DuoRekeyProofs DuoRekeyProps DuoRenew DuoRenewHalf.
Import ListNotations.
Local Open Scope N_scope.

(** A side which is not closing and whose reading loop runs. The time of its own
    latest key pair is below the greatest one (the times are nanoseconds since
    1970). *)
Definition atWork (x : side) : Prop :=
  iOver (dSess x) = false /\ isDoneState (stateOf (dSess x)) = false /\ kLocalAt (xKx (iKx (dSess x))) + 1 < 2^64.

Definition firstKey (x : side) : option bytes := hd None (kKeys (xKx (iKx (dSess x)))).

(** What A writes is read by B as soon as its packet arrives. *)
Definition passesAB verify dh blake3 sha3 stream poly1305 sign (clear : list bytes -> Prop) (ca cb : iconf) (pl : bytes) (d : duo) : Prop :=
  exists d1, dstep verify dh blake3 sha3 stream poly1305 sign ca cb d (DA (SWrite pl)) = Some d1 /\ dWrote (dA d1) = dWrote (dA d) ++ [pl] /\
    (clear (dNet (dA d1)) ->
     exists d2, dstep verify dh blake3 sha3 stream poly1305 sign ca cb d1 (DB (SRecv (length (dNet (dA d))))) = Some d2 /\
       queued (dSess (dB d2)) = queued (dSess (dB d)) ++ [pl]).
Definition passesBA verify dh blake3 sha3 stream poly1305 sign (clear : list bytes -> Prop) (ca cb : iconf) (pl : bytes) (d : duo) : Prop :=
  exists d1, dstep verify dh blake3 sha3 stream poly1305 sign ca cb d (DB (SWrite pl)) = Some d1 /\ dWrote (dB d1) = dWrote (dB d) ++ [pl] /\
    (clear (dNet (dB d1)) ->
     exists d2, dstep verify dh blake3 sha3 stream poly1305 sign ca cb d1 (DA (SRecv (length (dNet (dB d))))) = Some d2 /\
       queued (dSess (dA d2)) = queued (dSess (dA d)) ++ [pl]).

Section Runs.
  Variable verify : bytes -> bytes -> bytes -> bool.
  Variable dh : bytes -> bytes -> bytes.
  Variable blake3 sha3 : bytes -> bytes.
  Variable stream : bytes -> bytes -> nat -> N.
  Variable poly1305 : bytes -> bytes -> bytes.
  Variable sign : bytes -> bytes -> bytes.
  Variable pubOf : bytes -> bytes.
  Hypothesis id : ideal verify dh sha3 stream poly1305 sign pubOf.
  Variables ca cb : iconf.
  Variables pas pbs : list bytes.
  Notation run := (rekeyedRun verify dh blake3 sha3 stream poly1305 sign pubOf ca cb pas pbs).

  Lemma fresh_run : forall wa wb md mf ls d, run (duoInit ca cb wa wb md mf) ls d -> Forall (fun l => match l with AStep _ => True | _ => False end) ls ->
    freshS dh blake3 sha3 ca (dSess (dA d)) /\ freshS dh blake3 sha3 cb (dSess (dB d)).
  Proof.
    intros wa wb md mf ls d R. destruct id as [I1 I2 I3 I4 I5 I6 I7 I8 I9]. induction R as [|ls d l d' R IH HO E]; intros HS.
    - split; intros p r Hp; discriminate Hp.
    - apply Forall_app in HS. destruct HS as [HS Hl]. apply Forall_inv in Hl. destruct (IH HS) as [F1 F2].
      destruct l as [[l|l]|raw|raw]; [| |contradiction|contradiction]; cbn [astep] in E; unfold dstep in E.
      + destruct (sideStep _ _ _ _ _ _ _ ca (dA d) (dNet (dB d)) l) as [x|] eqn:Ex; [|discriminate]. injection E as <-. split; [|exact F2].
        exact (fresh_side verify dh blake3 sha3 stream poly1305 sign I2 I3 I4 ca (dA d) (dNet (dB d)) l x F1 Ex).
      + destruct (sideStep _ _ _ _ _ _ _ cb (dB d) (dNet (dA d)) l) as [x|] eqn:Ex; [|discriminate]. injection E as <-. split; [exact F1|].
        exact (fresh_side verify dh blake3 sha3 stream poly1305 sign I2 I3 I4 cb (dB d) (dNet (dA d)) l x F2 Ex).
  Qed.

  Definition asLabel (e : bool * slabel) : dlabel := if fst e then DA (snd e) else DB (snd e).

  Lemma path_run : forall x y es x' y', path verify dh blake3 sha3 stream poly1305 sign pubOf ca cb pas pbs x y es x' y' ->
    forall d0 ls d, run d0 ls d -> dA d = x -> dB d = y -> exists d', run d0 (ls ++ map AStep (map asLabel es)) d' /\ dA d' = x' /\ dB d' = y'.
  Proof.
    intros x y es x' y' P. induction P as [x y|x y l x1 es x' y' D E P IH|x y l y1 es x' y' D E P IH]; intros d0 ls d R <- <-.
    - exists d. rewrite app_nil_r. auto.
    - destruct (IH d0 (ls ++ [AStep (DA l)]) {| dA := x1; dB := dB d |}) as (d' & R' & A' & B'); [|reflexivity|reflexivity|].
      + eapply rr_snoc; [exact R|exact D|]. cbn [astep]. unfold dstep. rewrite E. reflexivity.
      + exists d'. rewrite <- app_assoc in R'. auto.
    - destruct (IH d0 (ls ++ [AStep (DB l)]) {| dA := dA d; dB := y1 |}) as (d' & R' & A' & B'); [|reflexivity|reflexivity|].
      + eapply rr_snoc; [exact R|exact D|]. cbn [astep]. unfold dstep. rewrite E. reflexivity.
      + exists d'. rewrite <- app_assoc in R'. auto.
  Qed.
End Runs.

(** Whatever keys have been drawn, lost, delayed or repeated: if both sides are at
    work, at most 26 further steps (which may draw pairs already drawn before)
    leave the session established on both sides, with the same key to send with,
    and whatever either side writes then is read by the other. *)
Theorem C155_keys_renewed : forall verify dh blake3 sha3 stream poly1305 sign pubOf ca cb pas pbs wa wb md mf ls d,
  let clear := unambiguous blake3 stream poly1305 (auxKey blake3 sha3 ca) (keyOfBoth dh blake3 sha3 pubOf (cPSK (icKx ca)) pas pbs)
      (sessBytes (cSession (icKx ca))) (sessBytes (cSession (icKx cb))) in
  ideal verify dh sha3 stream poly1305 sign pubOf -> honestConf ca -> honestConf cb -> cPSK (icKx ca) = cPSK (icKx cb) ->
  separate verify sign (cIdentity (icKx ca)) (cIdentity (icKx cb)) -> separate verify sign (cIdentity (icKx cb)) (cIdentity (icKx ca)) ->
  sessBytes (cSession (icKx ca)) <> sessBytes (cSession (icKx cb)) -> pas <> [] -> pbs <> [] ->
  rekeyedRun verify dh blake3 sha3 stream poly1305 sign pubOf ca cb pas pbs (duoInit ca cb wa wb md mf) ls d ->
  Forall (fun l => match l with AStep _ => True | _ => False end) ls -> clear (dNet (dA d)) -> clear (dNet (dB d)) ->
  N.of_nat (length ls) + 27 < 2^64 -> atWork (dA d) -> atWork (dB d) ->
  exists ls2 d2, (length ls2 <= 26)%nat /\
    rekeyedRun verify dh blake3 sha3 stream poly1305 sign pubOf ca cb pas pbs (duoInit ca cb wa wb md mf) (ls ++ map AStep ls2) d2 /\
    (clear (dNet (dA d2)) -> clear (dNet (dB d2)) ->
     stateOf (dSess (dA d2)) = SessionStateEstablished /\ stateOf (dSess (dB d2)) = SessionStateEstablished /\
     firstKey (dA d2) = firstKey (dB d2) /\ firstKey (dA d2) <> None /\
     forall pl, len pl + 53 < 2^32 ->
       passesAB verify dh blake3 sha3 stream poly1305 sign clear ca cb pl d2 /\ passesBA verify dh blake3 sha3 stream poly1305 sign clear ca cb pl d2).
Proof.
  intros verify dh blake3 sha3 stream poly1305 sign pubOf ca cb pas pbs wa wb md mf ls d clear id Ha Hb psk sA sB ids NA NB R HS CA CB HT (A1 & A2 & A3) (B1 & B2 & B3).
  set (aux := auxKey blake3 sha3 ca) in *. set (K := keyOfBoth dh blake3 sha3 pubOf (cPSK (icKx ca)) pas pbs) in *.
  set (ia := sessBytes (cSession (icKx ca))) in *. set (ib := sessBytes (cSession (icKx cb))) in *.
  assert (La : length ia = 16%nat) by reflexivity. assert (Lb : length ib = 16%nat) by reflexivity.
  assert (O : pairOk verify dh blake3 sha3 sign pubOf K ia ib aux ca cb pas pbs).
  { split; [exact (fitA verify dh blake3 sha3 stream poly1305 sign pubOf id ca cb pas pbs Ha Hb psk)
           |exact (fitB verify dh blake3 sha3 stream poly1305 sign pubOf id ca cb pas pbs Ha Hb psk)|exact sA|exact sB|reflexivity|apply aux_same; symmetry; exact psk]. }
  assert (Dec : forall net, clear net \/ ~ clear net).
  { intros net. apply (unambiguous_dec blake3 stream poly1305 aux K ia ib
      ((aux, []) :: flat_map (fun p => flat_map (fun q => let k := mk dh blake3 sha3 (cPSK (icKx ca)) p (pubOf q) in [(Some k, ia); (Some k, ib)]) pbs) pas)).
    intros c. split.
    - intros [-> | (k & (p & q & Hp & Hq & Hk) & Hc)]; [left; reflexivity|]. right. apply in_flat_map. exists p. split; [exact Hp|]. apply in_flat_map. exists q. split; [exact Hq|].
      apply (shared_mk verify dh blake3 sha3 stream poly1305 sign pubOf id) in Hk. subst k. destruct Hc as [-> | ->]; [left|right; left]; reflexivity.
    - intros [<-|Hc]; [left; reflexivity|]. right. apply in_flat_map in Hc. destruct Hc as (p & Hp & Hc). apply in_flat_map in Hc. destruct Hc as (q & Hq & Hc).
      exists (mk dh blake3 sha3 (cPSK (icKx ca)) p (pubOf q)). split; [exists p, q; split; [exact Hp|]; split; [exact Hq|apply (mk_shared verify dh blake3 sha3 stream poly1305 sign pubOf id)]|].
      destruct Hc as [<-|[<-|[]]]; auto. }
  assert (HT0 : N.of_nat (length ls) < 2^64) by lia.
  destruct (win_inv verify dh blake3 sha3 stream poly1305 sign pubOf id ca cb pas pbs Ha Hb psk sA sB ids wa wb md mf ls d R HS CA CB HT0) as [W1 W2].
  destruct (fresh_run verify dh blake3 sha3 stream poly1305 sign pubOf id ca cb pas pbs wa wb md mf ls d R HS) as [F1 F2].
  assert (G : good dh blake3 sha3 stream poly1305 sign pubOf K ia ib aux ca cb pas pbs wa wb (26 + 1) (dA d) (dB d)).
  { exists (N.of_nat (length ls)). split; [exact (rekeyed_inv verify dh blake3 sha3 stream poly1305 sign pubOf id ca cb pas pbs Ha Hb psk sA sB ids wa wb md mf ls d R CA CB)|].
    split; [cbn; lia|]. auto 10. }
  destruct pas as [|p0 pas']; [destruct (NA eq_refl)|]. destruct pbs as [|q0 pbs']; [destruct (NB eq_refl)|].
  destruct (whole verify dh blake3 sha3 stream poly1305 sign pubOf id K ia ib ids La Lb aux Dec ca cb (p0 :: pas') (q0 :: pbs') wa wb (dA d) (dB d) p0 q0 O) as (es & x2 & y2 & L & P & H);
    [apply (good_less _ _ _ _ _ _ _ _ _ _ _ _ _ _ _ _ _ 26 27); [lia|exact G]|left; reflexivity|left; reflexivity|exact A3|exact B3|exact A1|exact A2|exact B1|exact B2|].
  destruct (path_run verify dh blake3 sha3 stream poly1305 sign pubOf ca cb (p0 :: pas') (q0 :: pbs') _ _ _ _ _ P _ ls d R eq_refl eq_refl) as (d2 & R2 & <- & <-).
  exists (map asLabel es), d2. split; [rewrite map_length; exact L|]. split; [exact R2|]. intros C1 C2.
  destruct (H C1 C2) as (FX & FY & S1 & S2 & p & q & D1 & D2 & D3 & D4).
  assert (G0 : good dh blake3 sha3 stream poly1305 sign pubOf K ia ib aux ca cb (p0 :: pas') (q0 :: pbs') wa wb 1 (dA d2) (dB d2)).
  { apply (good_path verify dh blake3 sha3 stream poly1305 sign pubOf id K ia ib ids La Lb aux ca cb _ _ wa wb 1 (dA d) (dB d) es); auto.
    apply (good_less _ _ _ _ _ _ _ _ _ _ _ _ _ _ _ _ _ (length es + 1) 27); [lia|exact G]. }
  assert (G0' := good_swap dh blake3 sha3 stream poly1305 sign pubOf K ia ib aux _ _ _ _ _ _ _ _ _ G0).
  assert (KA : firstKey (dA d2) = Some (mk dh blake3 sha3 (cPSK (icKx ca)) p (pubOf q))) by (destruct G0 as (T & _ & _ & _ & _ & Z & _); exact (Z _ _ D1 D2)).
  assert (KB : firstKey (dB d2) = Some (mk dh blake3 sha3 (cPSK (icKx ca)) p (pubOf q))).
  { destruct G0 as (T & _ & _ & _ & _ & _ & Z & _). unfold firstKey. rewrite (Z _ _ D3 D4), <- psk. f_equal. apply mkey_sym. exact (id_dh_comm _ _ _ _ _ _ _ id). }
  split; [exact S1|]. split; [exact S2|]. split; [congruence|]. split; [rewrite KA; discriminate|]. intros pl Hl. split.
  - destruct (passes verify dh blake3 sha3 stream poly1305 sign pubOf id K ia ib ids La Lb aux ca cb _ _ wa wb (dA d2) (dB d2) _ pl O G0 S1 FY KA KB Hl) as (x' & E1 & W & Q).
    exists {| dA := x'; dB := dB d2 |}. split; [unfold dstep; rewrite E1; reflexivity|]. split; [exact W|]. intros Cx. destruct (Q Cx) as (y' & E2 & Q2).
    exists {| dA := x'; dB := y' |}. split; [unfold dstep; cbn [dA dB]; rewrite E2; reflexivity|exact Q2].
  - assert (O' := pairOk_swap verify dh blake3 sha3 sign pubOf K ia ib aux _ _ _ _ O).
    destruct (passes verify dh blake3 sha3 stream poly1305 sign pubOf id K ia ib ids La Lb aux cb ca _ _ wb wa (dB d2) (dA d2) _ pl O' G0' S2 FX KB KA Hl) as (x' & E1 & W & Q).
    exists {| dA := dA d2; dB := x' |}. split; [unfold dstep; rewrite E1; reflexivity|]. split; [exact W|]. intros Cx. destruct (Q Cx) as (y' & E2 & Q2).
    exists {| dA := y'; dB := x' |}. split; [unfold dstep; cbn [dA dB]; rewrite E2; reflexivity|exact Q2].
Qed.
Print Assumptions C155_keys_renewed.

(** In [rk2] A sends with a key unknown to B (see [C154_delivery_refuted]). Two
    steps later both have the same key, and messages pass both ways. *)
Definition rnRun : list alabel := map AStep [DA (SKx KLoopSend); DB (SRecv 5)].
Definition rn1 : duo := Eval vm_compute in match rekeyRunB rk2 rnRun with Some d => d | None => armed0 end.
Definition rn2 : duo := Eval vm_compute in
  match rekeyRunB rn1 (map AStep [DA (SWrite [8; 9]); DB (SRecv 6); DB (SWrite [3]); DA (SRecv 3)]) with Some d => d | None => armed0 end.

Example C155_example :
  rkRun (rkRun1 ++ rkRun2) rk2 /\ rkClear (dNet (dA rk2)) /\ rkClear (dNet (dB rk2)) /\ atWork (dA rk2) /\ atWork (dB rk2) /\
  match firstKey (dA rk2), firstKey (dB rk2) with Some a, Some b => bytes_eqb a b | _, _ => true end = false /\
  rekeyRunB rk2 rnRun = Some rn1 /\ rkClear (dNet (dA rn1)) /\ rkClear (dNet (dB rn1)) /\
  stateOf (dSess (dA rn1)) = SessionStateEstablished /\ stateOf (dSess (dB rn1)) = SessionStateEstablished /\
  firstKey (dA rn1) = firstKey (dB rn1) /\ queued (dSess (dB rn2)) = [[1; 2; 3]; [8; 9]] /\ queued (dSess (dA rn2)) = [[9]; [3]].
Proof.
  split; [apply rk_run2|]. split; [apply oneKey_ok; vm_compute; reflexivity|]. split; [apply oneKey_ok; vm_compute; reflexivity|].
  split; [vm_compute; repeat split|]. split; [vm_compute; repeat split|]. split; [vm_compute; reflexivity|]. split; [vm_compute; reflexivity|].
  split; [apply oneKey_ok; vm_compute; reflexivity|]. split; [apply oneKey_ok; vm_compute; reflexivity|]. vm_compute. repeat split.
Qed.
