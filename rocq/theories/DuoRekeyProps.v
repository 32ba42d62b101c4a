(** C153: two sessions which draw new key pairs again and again, and an attacker
    who knows none of their keys. *)
From Coq Require Import NArith Arith List Bool Lia Permutation.
From Verif Require Import Base BaseLemmas TS MessageModel PacketIDModel PacketIDProofs ReaderModel ReaderLoopModel PacketModel PacketSpec PacketProofs PacketProps
  StateModel KxModel KxSpec KxProps KxPairModel KxPairProps IntegModel IntegSpec IntegAuth DuoModel DuoSpec DuoProofs DuoProps DuoOnceProps
  DuoAttackModel DuoAttackSpec DuoAttackProofs DuoAttackProps DuoRekeySpec DuoRekeyProofs.
Import ListNotations.
Local Open Scope N_scope.

(** However often either side draws a new pair, and whichever packets are lost,
    delayed, repeated, reordered or sent back: no crash; nothing is read that the
    other side has not written; every key in use is made of one pair of each side;
    and a session considered established has a key to send with. *)
Theorem C153_rekeyed_sessions : forall verify dh blake3 sha3 stream poly1305 sign pubOf ca cb pas pbs wa wb md mf ls d,
  ideal verify dh sha3 stream poly1305 sign pubOf -> honestConf ca -> honestConf cb -> cPSK (icKx ca) = cPSK (icKx cb) ->
  separate verify sign (cIdentity (icKx ca)) (cIdentity (icKx cb)) -> separate verify sign (cIdentity (icKx cb)) (cIdentity (icKx ca)) ->
  sessBytes (cSession (icKx ca)) <> sessBytes (cSession (icKx cb)) ->
  rekeyedRun verify dh blake3 sha3 stream poly1305 sign pubOf ca cb pas pbs (duoInit ca cb wa wb md mf) ls d ->
  (forall net, In net [dNet (dA d); dNet (dB d)] ->
    unambiguous blake3 stream poly1305 (auxKey blake3 sha3 ca) (keyOfBoth dh blake3 sha3 pubOf (cPSK (icKx ca)) pas pbs)
      (sessBytes (cSession (icKx ca))) (sessBytes (cSession (icKx cb))) net) ->
  iPanic (dSess (dA d)) = false /\ iPanic (dSess (dB d)) = false /\
  incl (queued (dSess (dA d))) (dWrote (dB d)) /\ incl (queued (dSess (dB d))) (dWrote (dA d)) /\
  (forall x k, In x [dA d; dB d] -> In (Some k) (kKeys (xKx (iKx (dSess x)))) -> keyOfBoth dh blake3 sha3 pubOf (cPSK (icKx ca)) pas pbs k) /\
  (forall x, In x [dA d; dB d] -> stateOf (dSess x) = SessionStateEstablished -> exists k ks, kKeys (xKx (iKx (dSess x))) = Some k :: ks).
Proof.
  intros verify dh blake3 sha3 stream poly1305 sign pubOf ca cb pas pbs wa wb md mf ls d id Ha Hb psk sA sB ids R U.
  destruct (rekeyed_inv verify dh blake3 sha3 stream poly1305 sign pubOf id ca cb pas pbs Ha Hb psk sA sB ids wa wb md mf ls d R) as [[SA SB] _];
    [apply U; left; reflexivity|apply U; right; left; reflexivity|].
  split; [apply SA|]. split; [apply SB|]. split; [apply SA|]. split; [apply SB|]. split.
  - intros x k Hx Hk.
    destruct (fitA verify dh blake3 sha3 stream poly1305 sign pubOf id ca cb pas pbs Ha Hb psk) as (_ & _ & _ & FA & _).
    destruct (fitB verify dh blake3 sha3 stream poly1305 sign pubOf id ca cb pas pbs Ha Hb psk) as (_ & _ & _ & FB & _).
    destruct Hx as [<-|[<-|[]]].
    + destruct (keysR dh blake3 sha3 pubOf _ _ _ _ _ _ (proj1 SA)) as [E|(_ & _ & E)]; [rewrite E in Hk; destruct Hk|]. apply FA, E, Hk.
    + destruct (keysR dh blake3 sha3 pubOf _ _ _ _ _ _ (proj1 SB)) as [E|(_ & _ & E)]; [rewrite E in Hk; destruct Hk|]. apply FB, E, Hk.
  - assert (G : forall c c' ps qs x y, SR dh blake3 sha3 stream poly1305 sign pubOf (keyOfBoth dh blake3 sha3 pubOf (cPSK (icKx ca)) pas pbs) c c' ps qs x y ->
      stateOf (dSess x) = SessionStateEstablished -> exists k ks, kKeys (xKx (iKx (dSess x))) = Some k :: ks).
    { intros c c' ps qs x y (KR0 & _ & _ & _ & Ph & _) S.
      assert (D : 0 < kDone (xKx (iKx (dSess x)))) by (destruct Ph as [(Z & _)|[(_ & Z)|[Z|Z]]]; [rewrite S in Z; discriminate|exact Z|rewrite S in Z; discriminate|rewrite S in Z; discriminate]).
      destruct KR0 as (_ & _ & _ & _ & F & _ & _ & _ & _ & C). destruct (C D) as [CL CR].
      destruct F as [(_ & [F|F])|(_ & F & _)]; [exfalso; apply CL; exact F|exfalso; apply CR; exact F|exact F]. }
    intros x [<-|[<-|[]]] S; eapply G; eauto.
Qed.
Print Assumptions C153_rekeyed_sessions.

(** With windows of 1 to 64 nothing is read twice either. *)
Theorem C153_rekeyed_once : forall verify dh blake3 sha3 stream poly1305 sign pubOf ca cb pas pbs na nb md mf ls d,
  ideal verify dh sha3 stream poly1305 sign pubOf -> honestConf ca -> honestConf cb -> cPSK (icKx ca) = cPSK (icKx cb) ->
  separate verify sign (cIdentity (icKx ca)) (cIdentity (icKx cb)) -> separate verify sign (cIdentity (icKx cb)) (cIdentity (icKx ca)) ->
  sessBytes (cSession (icKx ca)) <> sessBytes (cSession (icKx cb)) ->
  rekeyedRun verify dh blake3 sha3 stream poly1305 sign pubOf ca cb pas pbs (duoInit ca cb (Size na) (Size nb) md mf) ls d ->
  (forall net, In net [dNet (dA d); dNet (dB d)] ->
    unambiguous blake3 stream poly1305 (auxKey blake3 sha3 ca) (keyOfBoth dh blake3 sha3 pubOf (cPSK (icKx ca)) pas pbs)
      (sessBytes (cSession (icKx ca))) (sessBytes (cSession (icKx cb))) net) ->
  1 <= na <= 64 -> 1 <= nb <= 64 -> N.of_nat (length ls) < 2^64 ->
  (exists lost, Permutation (queued (dSess (dA d)) ++ lost) (dWrote (dB d))) /\
  (exists lost, Permutation (queued (dSess (dB d)) ++ lost) (dWrote (dA d))).
Proof.
  intros verify dh blake3 sha3 stream poly1305 sign pubOf ca cb pas pbs na nb md mf ls d id Ha Hb psk sA sB ids R U Na Nb HT.
  destruct (rekeyed_inv verify dh blake3 sha3 stream poly1305 sign pubOf id ca cb pas pbs Ha Hb psk sA sB ids (Size na) (Size nb) md mf ls d R) as [_ L];
    [apply U; left; reflexivity|apply U; right; left; reflexivity|].
  destruct (L HT) as [LA0 LB0]. split; eapply LRg_once; eauto using words_small; discriminate.
Qed.
Print Assumptions C153_rekeyed_once.

(** ** An instance: both draw a second pair *)

Definition twoA : list bytes := [key32 3; key32 6].
Definition twoB : list bytes := [key32 11; key32 14].

Definition drawsB (ps : list bytes) (l : slabel) : bool :=
  match l with
  | SKx (KLoopGen s t _) | SKx (KAnswerGen _ s t _) => existsb (bytes_eqb s) ps && bytes_eqb t (goodPub s)
  | SKx KCancel => false
  | _ => true
  end.

Lemma drawsB_ok : forall ps l, drawsB ps l = true -> drawsFrom goodPub ps l.
Proof.
  intros ps l H. assert (G : forall s t, existsb (bytes_eqb s) ps && bytes_eqb t (goodPub s) = true -> In s ps /\ t = goodPub s).
  { intros s t E. apply andb_true_iff in E. destruct E as [E1 E2]. apply bytes_eqb_eq in E2. apply existsb_exists in E1.
    destruct E1 as (r & Hr & Er). apply bytes_eqb_eq in Er. subst r. auto. }
  destruct l as [k| | | |]; try exact I. destruct k; try exact I; cbn [drawsB drawsFrom] in *; try (apply G; exact H). discriminate.
Qed.

Fixpoint rekeyRunB (d : duo) (ls : list alabel) : option duo :=
  match ls with
  | [] => Some d
  | l :: r =>
      if match l with
         | AStep (DA l) => drawsB twoA l | AStep (DB l) => drawsB twoB l
         | AToA raw => allowedB (dA d) (dB d) raw | AToB raw => allowedB (dB d) (dA d) raw
         end
      then match armedStep d l with Some d' => rekeyRunB d' r | None => None end
      else None
  end.

Lemma rekeyRunB_ok : forall d0 ls d d' pre,
  rekeyedRun padVerify goodDh quickHash KxProps.toyHash quickStream quickPoly padSign goodPub (armedConf 1) (armedConf 2) twoA twoB d0 pre d ->
  rekeyRunB d ls = Some d' ->
  rekeyedRun padVerify goodDh quickHash KxProps.toyHash quickStream quickPoly padSign goodPub (armedConf 1) (armedConf 2) twoA twoB d0 (pre ++ ls) d'.
Proof.
  intros d0 ls. induction ls as [|l ls IH]; intros d d' pre R E; cbn [rekeyRunB] in E.
  - injection E as <-. rewrite app_nil_r. exact R.
  - match type of E with (if ?b then _ else _) = _ => destruct b eqn:EO; [|discriminate] end.
    destruct (armedStep d l) as [d1|] eqn:Ed; [|discriminate]. replace (pre ++ l :: ls) with ((pre ++ [l]) ++ ls) by (rewrite <- app_assoc; reflexivity).
    apply (IH d1); [|exact E]. eapply rr_snoc; [exact R| |exact Ed].
    destruct l as [[l|l]|raw|raw]; [apply drawsB_ok, EO|apply drawsB_ok, EO|apply allowedB_ok, EO|apply allowedB_ok, EO].
Qed.

(** The handshake; a message each way. *)
Definition rkRun1 : list alabel := map AStep (firstn 20 duoRun ++ [DA (SWrite [1;2;3]); DB (SWrite [9]); DB (SRecv 3); DA (SRecv 2)]).
Definition rk1 : duo := Eval vm_compute in match rekeyRunB armed0 rkRun1 with Some d => d | None => armed0 end.

(** A draws a new pair and writes before the new public key is on its way. *)
Definition rkRun2 : list alabel :=
  map AStep [DA (SKx (KLoopGo 200)); DA (SKx KLoopCheck); DA (SKx (KLoopGen (key32 6) (goodPub (key32 6)) 200)); DA (SWrite [4]); DB (SRecv 4)].
Definition rk2 : duo := Eval vm_compute in match rekeyRunB rk1 rkRun2 with Some d => d | None => armed0 end.
(** The key arrives, and so does a copy of what was written; B draws a new pair. *)
Definition rkRun3 : list alabel :=
  map AStep [DA (SKx KLoopSend); DB (SRecv 5); DA (SWrite [5; 5]); DB (SRecv 6); DB (SKx (KAnswer 2 210)); DB (SKx (KAnswer 2 210)); DB (SRecv 4);
             DA (SRecv 3); DA (SKx KLoopNotified); DB (SWrite [6]); DA (SRecv 4);
             DB (SKx KLoopNotified); DB (SKx (KLoopGo 300)); DB (SKx KLoopCheck); DB (SKx (KLoopGen (key32 14) (goodPub (key32 14)) 300)); DB (SKx KLoopSend); DA (SRecv 5)].
Definition rk3 : duo := Eval vm_compute in match rekeyRunB rk2 rkRun3 with Some d => d | None => armed0 end.
Definition rkRun4 : list alabel :=
  [AToA junk; AToB (last (dNet (dB rk3)) []); AToA (last (dNet (dA rk3)) []); AStep (DB (SWrite [7])); AStep (DA (SRecv 6)); AStep (DA (SRecv 4)); AStep (DB (SRecv 4)); AStep (DA (SWrite [8])); AStep (DB (SRecv 7))].
Definition rk4 : duo := Eval vm_compute in match rekeyRunB rk3 rkRun4 with Some d => d | None => armed0 end.

(** Every checksum of the traffic fits one key only. *)
Definition rkKeys : list bytes := Eval vm_compute in
  flat_map (fun p => map (fun q => mk goodDh quickHash KxProps.toyHash (Some [7; 9]) p (goodPub q)) twoB) twoA.
Definition rkId (i : N) : bytes := sessBytes (cSession (icKx (armedConf i))).
Definition rkSealings : list (option bytes * bytes) := (armedAux, []) :: flat_map (fun k => [(Some k, rkId 1); (Some k, rkId 2)]) rkKeys.
Definition sameB (a b : option bytes * bytes) : bool :=
  match fst a, fst b with Some x, Some y => bytes_eqb x y | None, None => true | _, _ => false end && bytes_eqb (snd a) (snd b).
Definition oneKeyB (raw : bytes) : bool :=
  bytesB raw &&
  let fit := filter (fun c => fitsB (fst c) (snd c ++ idOf raw) (idOf raw) (skipn 8 raw)) rkSealings in
  forallb (fun a => forallb (sameB a) fit) fit.

Lemma sameB_ok : forall a b, sameB a b = true -> a = b.
Proof.
  intros [a1 a2] [b1 b2] H. unfold sameB in H. cbn [fst snd] in H. apply andb_true_iff in H. destruct H as [H1 H2]. apply bytes_eqb_eq in H2. subst b2.
  destruct a1, b1; try discriminate; [|reflexivity]. apply bytes_eqb_eq in H1. subst. reflexivity.
Qed.

Lemma oneKey_ok : forall net, forallb oneKeyB net = true ->
  unambiguous quickHash quickStream quickPoly armedAux (keyOfBoth goodDh quickHash KxProps.toyHash goodPub (Some [7; 9]) twoA twoB) (rkId 1) (rkId 2) net.
Proof.
  intros net H. rewrite forallb_forall in H. split.
  - apply Forall_forall. intros raw Hr. apply H in Hr. apply andb_true_iff in Hr. destruct Hr as [Hr _]. unfold bytesB in Hr. rewrite forallb_forall in Hr.
    apply Forall_forall. intros b Hb. apply N.ltb_lt, Hr, Hb.
  - intros pid body c1 c2 L Hin S1 S2 F1 F2. apply H in Hin. apply andb_true_iff in Hin. destruct Hin as [_ Hin]. destruct (idOf_wire pid body L) as [E1 E2].
    rewrite E1, E2 in Hin. cbv zeta in Hin.
    assert (G : forall c, sealing armedAux (keyOfBoth goodDh quickHash KxProps.toyHash goodPub (Some [7; 9]) twoA twoB) (rkId 1) (rkId 2) c -> In c rkSealings).
    { assert (A : forall p q k, In p twoA -> In q twoB -> k = mk goodDh quickHash KxProps.toyHash (Some [7; 9]) p (goodPub q) -> In k rkKeys).
      { intros p q k Hp Hq ->. change rkKeys with (flat_map (fun p => map (fun q => mk goodDh quickHash KxProps.toyHash (Some [7; 9]) p (goodPub q)) twoB) twoA).
        apply in_flat_map. exists p. split; [exact Hp|]. apply in_map_iff. exists q. auto. }
      intros c [-> | (k & (p & q & Hp & Hq & Hk) & Hc)]; [left; reflexivity|]. right. apply in_flat_map. exists k. split.
      - apply (A p q); auto. apply (shared_mk padVerify goodDh quickHash KxProps.toyHash quickStream quickPoly padSign goodPub good_ideal _ _ _ _ Hk).
      - destruct Hc as [-> | ->]; [left|right; left]; reflexivity. }
    rewrite forallb_forall in Hin.
    assert (I1 := proj2 (filter_In (fun c => fitsB (fst c) (snd c ++ pid) pid body) c1 rkSealings) (conj (G _ S1) (fitsB_ok _ _ _ _ F1))).
    assert (I2 := proj2 (filter_In (fun c => fitsB (fst c) (snd c ++ pid) pid body) c2 rkSealings) (conj (G _ S2) (fitsB_ok _ _ _ _ F2))).
    specialize (Hin c1 I1). rewrite forallb_forall in Hin. apply sameB_ok, (Hin c2 I2).
Qed.

Notation rkRun := (rekeyedRun padVerify goodDh quickHash KxProps.toyHash quickStream quickPoly padSign goodPub (armedConf 1) (armedConf 2) twoA twoB armed0).
Notation rkClear := (unambiguous quickHash quickStream quickPoly armedAux (keyOfBoth goodDh quickHash KxProps.toyHash goodPub (Some [7; 9]) twoA twoB) (rkId 1) (rkId 2)).

Lemma rk_run2 : rkRun (rkRun1 ++ rkRun2) rk2.
Proof. apply (rekeyRunB_ok armed0 _ armed0 rk2 []); [constructor|]. vm_compute. reflexivity. Qed.

Example C153_example :
  ideal padVerify goodDh KxProps.toyHash quickStream quickPoly padSign goodPub /\ honestConf (armedConf 1) /\ honestConf (armedConf 2) /\
  separate padVerify padSign (key32 1) (key32 2) /\ separate padVerify padSign (key32 2) (key32 1) /\ rkId 1 <> rkId 2 /\
  rkRun ((rkRun1 ++ rkRun2) ++ rkRun3 ++ rkRun4) rk4 /\
  (forall net, In net [dNet (dA rk4); dNet (dB rk4)] -> rkClear net) /\
  (length (dNet (dA rk4)), length (dNet (dB rk4))) = (8%nat, 7%nat) /\
  stateOf (dSess (dA rk4)) = SessionStateEstablished /\ stateOf (dSess (dB rk4)) = SessionStateEstablished /\
  queued (dSess (dA rk4)) = [[9]; [6]; [7]] /\ queued (dSess (dB rk4)) = [[1; 2; 3]; [5; 5]; [4]; [8]] /\
  hd None (kKeys (xKx (iKx (dSess (dA rk1))))) = nth_error rkKeys 0 /\
  map (fun x => map (fun o => match o with Some k => map (bytes_eqb k) rkKeys | None => [] end) (kKeys (xKx (iKx (dSess x))))) [dA rk4; dB rk4] =
    [[[false; false; false; true]; [false; false; true; false]; [false; true; false; false]; [true; false; false; false]];
     [[false; false; false; true]; [false; true; false; false]; [false; false; true; false]; [true; false; false; false]]].
Proof.
  split; [apply good_ideal|]. split; [repeat split; vm_compute; auto|]. split; [repeat split; vm_compute; auto|].
  split; [apply pad_separate; vm_compute; discriminate|]. split; [apply pad_separate; vm_compute; discriminate|]. split; [vm_compute; discriminate|].
  split. { apply (rekeyRunB_ok armed0 _ rk2 rk4); [apply rk_run2|]. vm_compute. reflexivity. }
  split. { intros net [<-|[<-|[]]]; apply oneKey_ok; vm_compute; reflexivity. }
  vm_compute. repeat split.
Qed.

(** What has been written does not always reach the reader, though nothing is lost and every
    packet arrives once, in order: what is written between drawing a pair and
    sending its public key is sealed with a key the other side cannot have. *)
Definition inOrder (ls : list alabel) (d : duo) : Prop :=
  flat_map (fun l => match l with AStep (DB (SRecv n)) => [n] | _ => [] end) ls = seq 0 (length (dNet (dA d))).

Theorem C154_delivery_refuted : exists ls d,
  ideal padVerify goodDh KxProps.toyHash quickStream quickPoly padSign goodPub /\ honestConf (armedConf 1) /\ honestConf (armedConf 2) /\
  rkRun ls d /\ (forall net, In net [dNet (dA d); dNet (dB d)] -> rkClear net) /\
  Forall (fun l => match l with AStep _ => True | _ => False end) ls /\ inOrder ls d /\
  stateOf (dSess (dA d)) = SessionStateEstablished /\ stateOf (dSess (dB d)) = SessionStateEstablished /\
  dWrote (dA d) = [[1; 2; 3]; [4]] /\ queued (dSess (dB d)) = [[1; 2; 3]].
Proof.
  exists (rkRun1 ++ rkRun2), rk2. split; [apply good_ideal|]. split; [repeat split; vm_compute; auto|]. split; [repeat split; vm_compute; auto|].
  split; [apply rk_run2|]. split. { intros net [<-|[<-|[]]]; apply oneKey_ok; vm_compute; reflexivity. }
  split; [unfold rkRun1, rkRun2; rewrite <- map_app; apply Forall_forall; intros l Hl; apply in_map_iff in Hl; destruct Hl as (z & <- & _); exact I|].
  vm_compute. repeat split.
Qed.
Print Assumptions C154_delivery_refuted.

(** Otherwise it does: if the key which A sends with is one of those B tries, and
    nothing with a higher ID than A's latest has arrived at B, then what A writes
    is read as soon as its packet arrives. (The full statement, without the
    condition on the key, is refuted above.) *)
Theorem C154_delivery_partial : forall verify dh blake3 sha3 stream poly1305 sign pubOf ca cb pas pbs wa wb md mf ls d pl d1 d2 k,
  ideal verify dh sha3 stream poly1305 sign pubOf -> honestConf ca -> honestConf cb -> cPSK (icKx ca) = cPSK (icKx cb) ->
  separate verify sign (cIdentity (icKx ca)) (cIdentity (icKx cb)) -> separate verify sign (cIdentity (icKx cb)) (cIdentity (icKx ca)) ->
  sessBytes (cSession (icKx ca)) <> sessBytes (cSession (icKx cb)) ->
  rekeyedRun verify dh blake3 sha3 stream poly1305 sign pubOf ca cb pas pbs (duoInit ca cb wa wb md mf) ls d ->
  dstep verify dh blake3 sha3 stream poly1305 sign ca cb d (DA (SWrite pl)) = Some d1 ->
  dstep verify dh blake3 sha3 stream poly1305 sign ca cb d1 (DB (SRecv (length (dNet (dA d))))) = Some d2 ->
  (forall net, In net [dNet (dA d1); dNet (dB d)] ->
    unambiguous blake3 stream poly1305 (auxKey blake3 sha3 ca) (keyOfBoth dh blake3 sha3 pubOf (cPSK (icKx ca)) pas pbs)
      (sessBytes (cSession (icKx ca))) (sessBytes (cSession (icKx cb))) net) ->
  N.of_nat (length ls) + 1 < 2^64 ->
  hd None (kKeys (xKx (iKx (dSess (dA d))))) = Some k -> In (Some k) (kKeys (xKx (iKx (dSess (dB d))))) ->
  (forall w, iWin (dSess (dB d)) = Some w -> latest w <= iNext (dSess (dA d))) ->
  queued (dSess (dB d2)) = queued (dSess (dB d)) ++ [pl].
Proof.
  intros verify dh blake3 sha3 stream poly1305 sign pubOf ca cb pas pbs wa wb md mf ls d pl d1 d2 k id Ha Hb psk sA sB ids R E1 E2 U HT Hk Hin HW.
  unfold dstep in E1. destruct (sideStep _ _ _ _ _ _ _ ca (dA d) (dNet (dB d)) (SWrite pl)) as [x|] eqn:Ex; [|discriminate]. injection E1 as <-. cbn [dA dB] in *.
  unfold dstep in E2. cbn [dA dB] in E2. destruct (sideStep _ _ _ _ _ _ _ cb (dB d) (dNet x) _) as [y|] eqn:Ey; [|discriminate]. injection E2 as <-. cbn [dB].
  assert (UX := U _ (or_introl eq_refl)). assert (UB := U _ (or_intror (or_introl eq_refl))).
  assert (UA := clear_incl blake3 stream poly1305 _ _ _ _ _ _ UX (side_net verify dh blake3 sha3 stream poly1305 sign _ _ _ _ _ Ex)).
  destruct (rekeyed_inv verify dh blake3 sha3 stream poly1305 sign pubOf id ca cb pas pbs Ha Hb psk sA sB ids wa wb md mf ls d R UA UB) as [[SA SB] L].
  destruct L as [_ (log & _ & _ & _ & LeT & _ & W)]; [lia|].
  assert (Hn : iNext (dSess (dA d)) + 1 < 2^64) by lia.
  assert (exists w, checkAndRemember (iWin (dSess (dB d))) (iNext (dSess (dA d)) + 1) = Ret (w, true)) as [w Ck].
  { destruct (iWin (dSess (dB d))) as [st|]; [|eexists; reflexivity]. specialize (HW st eq_refl). destruct W as (acc & own & S & _).
    destruct (push_newer st (iNext (dSess (dA d)) + 1) (s_ok _ _ _ S)) as (t & Ep & _); [lia|]. cbn [checkAndRemember]. rewrite Ep. eexists. reflexivity. }
  assert (Ax : auxKey blake3 sha3 cb = auxKey blake3 sha3 ca) by (apply aux_same; symmetry; exact psk).
  rewrite <- Ax in UX.
  eapply (delivered verify dh blake3 sha3 stream poly1305 sign pubOf id _ _ _ ids eq_refl eq_refl ca cb pas pbs (dA d) (dB d) pl x y k w); eauto.
  - apply (fitA verify dh blake3 sha3 stream poly1305 sign pubOf id ca cb pas pbs Ha Hb psk).
  - apply (fitB verify dh blake3 sha3 stream poly1305 sign pubOf id ca cb pas pbs Ha Hb psk).
  - destruct (kKeys _); [discriminate|exact Hk].
Qed.
Print Assumptions C154_delivery_partial.

(** If no packet is made up or sent back, the condition on the IDs is not needed:
    also after losses, repetitions and reorderings the message is read as soon as
    its packet arrives, provided the key is known. *)
Theorem C154_newest_partial : forall verify dh blake3 sha3 stream poly1305 sign pubOf ca cb pas pbs wa wb md mf ls d pl d1 d2 k,
  ideal verify dh sha3 stream poly1305 sign pubOf -> honestConf ca -> honestConf cb -> cPSK (icKx ca) = cPSK (icKx cb) ->
  separate verify sign (cIdentity (icKx ca)) (cIdentity (icKx cb)) -> separate verify sign (cIdentity (icKx cb)) (cIdentity (icKx ca)) ->
  sessBytes (cSession (icKx ca)) <> sessBytes (cSession (icKx cb)) ->
  rekeyedRun verify dh blake3 sha3 stream poly1305 sign pubOf ca cb pas pbs (duoInit ca cb wa wb md mf) ls d ->
  Forall (fun l => match l with AStep _ => True | _ => False end) ls ->
  dstep verify dh blake3 sha3 stream poly1305 sign ca cb d (DA (SWrite pl)) = Some d1 ->
  dstep verify dh blake3 sha3 stream poly1305 sign ca cb d1 (DB (SRecv (length (dNet (dA d))))) = Some d2 ->
  (forall net, In net [dNet (dA d1); dNet (dB d)] ->
    unambiguous blake3 stream poly1305 (auxKey blake3 sha3 ca) (keyOfBoth dh blake3 sha3 pubOf (cPSK (icKx ca)) pas pbs)
      (sessBytes (cSession (icKx ca))) (sessBytes (cSession (icKx cb))) net) ->
  N.of_nat (length ls) + 1 < 2^64 ->
  hd None (kKeys (xKx (iKx (dSess (dA d))))) = Some k -> In (Some k) (kKeys (xKx (iKx (dSess (dB d))))) ->
  queued (dSess (dB d2)) = queued (dSess (dB d)) ++ [pl].
Proof.
  intros verify dh blake3 sha3 stream poly1305 sign pubOf ca cb pas pbs wa wb md mf ls d pl d1 d2 k id Ha Hb psk sA sB ids R HS E1 E2 U HT Hk Hin.
  apply (C154_delivery_partial verify dh blake3 sha3 stream poly1305 sign pubOf ca cb pas pbs wa wb md mf ls d pl d1 d2 k); auto.
  unfold dstep in E1. destruct (sideStep _ _ _ _ _ _ _ ca (dA d) (dNet (dB d)) (SWrite pl)) as [x|] eqn:Ex; [|discriminate]. injection E1 as <-. cbn [dA dB] in *.
  assert (UX := U _ (or_introl eq_refl)). assert (UB := U _ (or_intror (or_introl eq_refl))).
  assert (UA := clear_incl blake3 stream poly1305 _ _ _ _ _ _ UX (side_net verify dh blake3 sha3 stream poly1305 sign _ _ _ _ _ Ex)).
  assert (HT' : N.of_nat (length ls) < 2^64) by lia.
  exact (proj2 (win_inv verify dh blake3 sha3 stream poly1305 sign pubOf id ca cb pas pbs Ha Hb psk sA sB ids wa wb md mf ls d R HS UA UB HT')).
Qed.
Print Assumptions C154_newest_partial.

(** After the second exchange of keys the conditions hold again (the run has no
    packets of the attacker). *)
Example C154_example :
  rkRun ((rkRun1 ++ rkRun2) ++ rkRun3) rk3 /\
  Forall (fun l => match l with AStep _ => True | _ => False end) ((rkRun1 ++ rkRun2) ++ rkRun3) /\
  exists k d1 d2,
  dstep padVerify goodDh quickHash KxProps.toyHash quickStream quickPoly padSign (armedConf 1) (armedConf 2) rk3 (DA (SWrite [8; 8])) = Some d1 /\
  dstep padVerify goodDh quickHash KxProps.toyHash quickStream quickPoly padSign (armedConf 1) (armedConf 2) d1 (DB (SRecv (length (dNet (dA rk3))))) = Some d2 /\
  forallb oneKeyB (dNet (dA d1) ++ dNet (dB rk3)) = true /\
  hd None (kKeys (xKx (iKx (dSess (dA rk3))))) = Some k /\ In (Some k) (kKeys (xKx (iKx (dSess (dB rk3))))) /\
  option_map latest (iWin (dSess (dB rk3))) = Some 11 /\ iNext (dSess (dA rk3)) = 14 /\
  queued (dSess (dB rk3)) = [[1; 2; 3]; [5; 5]; [4]] /\ queued (dSess (dB d2)) = [[1; 2; 3]; [5; 5]; [4]; [8; 8]].
Proof.
  split. { apply (rekeyRunB_ok armed0 _ rk2 rk3); [apply rk_run2|]. vm_compute. reflexivity. }
  split. { unfold rkRun1, rkRun2, rkRun3. rewrite <- !map_app. apply Forall_forall. intros l Hl. apply in_map_iff in Hl. destruct Hl as (z & <- & _). exact I. }
  destruct (dstep padVerify goodDh quickHash KxProps.toyHash quickStream quickPoly padSign (armedConf 1) (armedConf 2) rk3 (DA (SWrite [8; 8]))) as [d1|] eqn:E1; [|vm_compute in E1; discriminate].
  destruct (dstep padVerify goodDh quickHash KxProps.toyHash quickStream quickPoly padSign (armedConf 1) (armedConf 2) d1 (DB (SRecv (length (dNet (dA rk3)))))) as [d2|] eqn:E2;
    [|vm_compute in E1; injection E1 as <-; vm_compute in E2; discriminate].
  exists (nth 3 rkKeys []), d1, d2. split; [reflexivity|]. split; [exact E2|].
  vm_compute in E1. injection E1 as <-. vm_compute in E2. injection E2 as <-. split; [vm_compute; reflexivity|]. split; [vm_compute; reflexivity|]. split; [vm_compute; left; reflexivity|].
  vm_compute. repeat split.
Qed.
