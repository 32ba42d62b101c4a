(** Weaker forms of C81 (WriteMessageAsync returns), C89 (total negotiation
    timeout) and C101 (forged packets and MutualConfirmationOfIdentity), whose
    full statements are refuted in BatchProps, NegoProps and IntegProps. *)
From Coq Require Import NArith Arith List Bool Lia.
From Verif Require Import Base BaseLemmas TS MessageModel ReaderModel ReaderLoopModel BatchModel BatchProofs BatchRun BatchTrace BatchProps.
Import ListNotations.
Local Open Scope N_scope.

(** ** C81 *)

(** Inside [WriteMessageAsync], before it has a handle to return. *)
Definition calling (v : wpc) : Prop :=
  match v with WCall _ | WTry _ | WFull _ _ | WSent _ _ | WTick _ _ => True | _ => False end.

(** Steps of the sender with its timer, and of writer [w]. *)
Definition senderOr (w : nat) (l : blabel) : Prop :=
  senderLabel l \/ match l with BCheck w' _ | BTry w' _ | BAsk w' false | BIsDone w' | BTick w' _ => w' = w | _ => False end.

Lemma cexec : forall est frag cap l a b, exec (cstep est frag cap) a l = Some b -> exec (bstep est frag cap) a l = Some b.
Proof.
  intros est frag cap. induction l as [|x l IH]; intros a b; cbn [exec]; auto. unfold cstep at 1. destruct (calm a x); [|discriminate].
  destruct (bstep est frag cap a x); [auto|discriminate].
Qed.

Lemma try_empty : forall est frag cap s w m, est + 53 < 2^32 -> est + 9 <= cap -> oinv s -> bBuf s = [] -> bW s w = WTry m ->
  exists s', bstep est frag cap s (BTry w FcGo) = Some s' /\ ((exists h, bW s' w = WHave h) \/ exists e, bW s' w = WRefused e).
Proof.
  intros est frag cap s w m He Hc O Hb Hw. unfold bstep. rewrite (o_panic _ O), Hw. cbn [estSeen].
  rewrite packetSizeOf_small by lia. rewrite Hb. unfold messagesContainerHeadersSize. change (batchLen []) with 0.
  destruct (N.ltb_spec (est + 53) (44 + 0 + len m)).
  - eexists. split; [reflexivity|]. right. eexists. bcbn. apply fupd_same.
  - destruct (N.ltb_spec cap (0 + len m)); [lia|]. eexists. split; [reflexivity|]. left. eexists. bcbn. apply fupd_same.
Qed.

(** Rounds of the writer before it looks at the buffer again. *)
Definition rounds (v : wpc) : nat := match v with WTry _ => 0 | WCall _ | WTick _ _ => 1 | WSent _ _ => 2 | _ => 3 end.

Lemma back_to_try : forall est frag cap n s w, est + 53 < 2^32 -> est + 9 <= cap -> binv est cap s -> oinv s -> bBuf s = [] ->
  calling (bW s w) -> (rounds (bW s w) <= n)%nat ->
  exists ls s' m, Forall (senderOr w) ls /\ exec (bstep est frag cap) s ls = Some s' /\ oinv s' /\ bBuf s' = [] /\ bW s' w = WTry m.
Proof.
  intros est frag cap n. induction n as [|n IH]; intros s w He Hc B O Hb Hw Hn.
  - destruct (bW s w) eqn:E; cbn [calling rounds] in *; try contradiction; try lia. exists [], s, m. split; [constructor|]. split; [reflexivity|]. auto.
  - assert (G : forall l v, bstep est frag cap s l = Some (up_w s w v) -> senderOr w l -> calm s l = true -> calling v -> (rounds v <= n)%nat ->
      exists ls s' m, Forall (senderOr w) ls /\ exec (bstep est frag cap) s ls = Some s' /\ oinv s' /\ bBuf s' = [] /\ bW s' w = WTry m).
    { intros l v Hs Hl Hk Hv Hr.
      assert (B1 : binv est cap (up_w s w v)) by (eapply step_binv; eauto).
      assert (O1 : oinv (up_w s w v)).
      { apply (step_oinv est frag cap s l); auto. unfold cstep. rewrite Hk. exact Hs. }
      destruct (IH (up_w s w v) w He Hc B1 O1 Hb) as (ls & s' & m & R1 & R2 & R3 & R4 & R5).
      - cbn [up_w bW]. rewrite fupd_same. exact Hv.
      - cbn [up_w bW]. rewrite fupd_same. exact Hr.
      - exists (l :: ls), s', m. split; [constructor; auto|]. split; [cbn [exec]; rewrite Hs; exact R2|]. auto. }
    destruct (bW s w) eqn:E; cbn [calling rounds] in *; try contradiction.
    + apply (G (BCheck w FcGo) (WTry m)); [|right; reflexivity|reflexivity|exact I|cbn; lia].
      unfold bstep. rewrite (o_panic _ O), E. reflexivity.
    + exists [], s, m. split; [constructor|]. split; [reflexivity|]. auto.
    + apply (G (BAsk w false) (WSent m h)); [|right; reflexivity|reflexivity|exact I|cbn; lia].
      unfold bstep. rewrite (o_panic _ O), E, (o_chan _ O). reflexivity.
    + apply (G (BIsDone w) (WTick m h)); [|right; reflexivity|reflexivity|exact I|cbn; lia].
      unfold bstep. rewrite (o_panic _ O), E, (o_state _ O). reflexivity.
    + apply (G (BTick w TkSent) (WTry m)); [|right; reflexivity|reflexivity|exact I|cbn; lia].
      unfold bstep. rewrite (o_panic _ O), E, Hb. reflexivity.
Qed.

(** As long as nobody closes the session, a call under way can always come to
    its end: the sender and the writer alone get there, from every reachable
    state and with any message. *)
Theorem C81_undisturbed_partial : forall est frag cap ls s w, est + 53 < 2^32 -> est + 9 <= cap ->
  exec (cstep est frag cap) initBatch ls = Some s -> calling (bW s w) ->
  exists ls' s', Forall (senderOr w) ls' /\ exec (bstep est frag cap) s ls' = Some s' /\
    ((exists h, bW s' w = WHave h) \/ exists e, bW s' w = WRefused e).
Proof.
  intros est frag cap ls s w He Hc H Hw. destruct (run_calm _ _ _ _ _ He Hc H) as [B O].
  destruct (drive_run est frag cap s B O He Hc) as (l1 & s1 & R1 & R2 & B1 & O1 & [Q1 Q2] & _ & W & _).
  apply cexec in R2. rewrite <- W in Hw.
  destruct (back_to_try est frag cap _ s1 w He Hc B1 O1 Q2 Hw (Nat.le_refl _)) as (l2 & s2 & m & S1 & S2 & O2 & Q3 & W2).
  destruct (try_empty est frag cap s2 w m He Hc O2 Q3 W2) as (s3 & T1 & T2).
  exists (l1 ++ l2 ++ [BTry w FcGo]), s3. split; [|split; [|exact T2]].
  - apply Forall_app. split; [|apply Forall_app; split; [exact S1|constructor; [right; reflexivity|constructor]]].
    eapply Forall_impl; [|exact R1]. intros a Ha. left. exact Ha.
  - rewrite (exec_app _ l1 _ _ _ R2), (exec_app _ l2 _ _ _ S2). cbn [exec]. rewrite T1. reflexivity.
Qed.
Print Assumptions C81_undisturbed_partial.

(** A writer that has to wait for room gets in after the flush it asked for. *)
Example C81_undisturbed_example :
  match exec (cstep 100 false 153) initBatch
     (connected ++ [BWrite 0 7 (repeat 0 60); BCheck 0 FcGo; BTry 0 FcGo; BWrite 1 7 (repeat 1 60); BCheck 1 FcGo; BTry 1 FcGo]) with
  | Some s => calling (bW s 1%nat) /\
      match exec (bstep 100 false 153) s ([BAsk 1 true] ++ repeat (BSender FcGo) 8 ++ [BIsDone 1; BTick 1 TkSent; BTry 1 FcGo]) with
      | Some s' => exists h, bW s' 1%nat = WHave h /\ length (bWire s') = 1%nat
      | None => False
      end
  | None => False
  end.
Proof. vm_compute. split; [exact I|]. eexists. split; reflexivity. Qed.

(** ** C89 *)
From Verif Require Import NegoModel NegoProps.

(** The finalizer ends without an established size only by a step that it takes
    while it still waits for one of the two ends, the context being over. *)
Theorem C89_only_while_waiting_partial : forall ls s, exec gstep ng0 ls = Some s -> g_fin s = FDone -> g_est s = None ->
  exists ls1 ls2 s1 k, ls = ls1 ++ GFinCtx :: ls2 /\ exec gstep ng0 ls1 = Some s1 /\ g_fin s1 = FWait k /\ g_ctx s1 = true.
Proof.
  induction ls as [|l ls IH] using rev_ind; intros s H Hf He.
  - injection H as <-. discriminate.
  - apply exec_snoc in H as (s1 & H1 & H2).
    assert (C : (g_fin s1 = FDone /\ g_est s1 = None) \/ (l = GFinCtx /\ exists k, g_fin s1 = FWait k /\ g_ctx s1 = true)).
    { clear IH H1. gcases H2; auto; try discriminate; try (right; split; [reflexivity|]; eauto; fail). }
    destruct C as [[C1 C2]|[-> [k [C1 C2]]]].
    + destruct (IH s1 H1 C1 C2) as (a & b & s2 & k & -> & E). exists a, (b ++ [l]), s2, k. split; [|exact E].
      rewrite <- app_assoc. reflexivity.
    + exists ls, [], s1, k. auto.
Qed.
Print Assumptions C89_only_while_waiting_partial.

Lemma inv55 : forall s, reachable ginit (lstep gstep) s -> I55 s.
Proof.
  apply reachable_inv.
  - intros s ->. cbv. repeat split; auto; try discriminate. intros E; exfalso; apply E; reflexivity.
  - intros s s' Hi [l Hl]. exact (I55_step s l s' Hi Hl).
Qed.

(** Once both ends have been seen the timeout does no harm: the finalizer can
    finish in every continuation, and establishes the smaller of the two largest
    echoes. *)
Theorem C89_late_expiry_partial : forall s s', reachable ginit (lstep gstep) s -> g_fin s = FFinal -> steps (lstep gstep) s s' -> g_panic s' = false ->
  (g_fin s' = FFinal /\ exists s'', gstep s' GFinalize = Some s'' /\ g_fin s'' = FDone /\ g_est s'' = Some (N.min (g_local s') (g_remote s'))) \/
  (g_fin s' = FDone /\ g_est s' <> None).
Proof.
  intros s s' Hr Hf Hs Hp.
  assert (Hk : g_kx s <> 0).
  { intro K. destruct (inv55 s Hr) as [I _]. destruct (I K) as (_ & _ & I3). congruence. }
  assert (G : g_kx s' <> 0 /\ (g_fin s' = FFinal \/ (g_fin s' = FDone /\ g_est s' <> None))).
  { refine (steps_inv (lstep gstep) (fun s => g_kx s <> 0 /\ (g_fin s = FFinal \/ (g_fin s = FDone /\ g_est s <> None))) _ s s' Hs (conj Hk (or_introl Hf))).
    clear. intros s s' [K H] [l Hl]. gcases Hl; (split; [lia|]); destruct H as [H|[H H']]; try congruence; auto; try (right; split; [reflexivity|discriminate]). }
  destruct G as [_ G].
  destruct G as [G|G]; [left|right; exact G]. split; [exact G|]. eexists. unfold gstep. rewrite Hp, G. split; [reflexivity|]. split; reflexivity.
Qed.
Print Assumptions C89_late_expiry_partial.

(** Echoes of 977 bytes, both ends seen, then the timeout: 977 is established. *)
Example C89_late_expiry_example : exists s,
  exec gstep ng0 [GKx true; GMsg (MPong 977 true); GPut; GTake; GMsg (MCtl 977 true); GStageReader; GLoopEnd true; GStageLoop; GCtx; GFinalize] = Some s /\
  g_est s = Some 977 /\ g_ok s = 1.
Proof. eexists. split; [vm_compute; reflexivity|]. split; reflexivity. Qed.

(** ** C101 *)
From Verif Require Import PacketIDModel PacketIDSpec PacketModel PacketSpec PacketProofs StateModel KxModel KxSpec KxProofs KxProps
  IntegModel IntegSpec IntegProofs IntegAuth IntegSafe IntegProps.

(** Packets that none of the keys opens, fewer in a row than the limits: the
    confirmation goes on as if they had not come. *)
Theorem C101_unopened_partial : forall verify dh blake3 sha3 stream poly1305 c win md mf remote raws ls s s',
  primitives_ok stream poly1305 -> (forall x y, length (dh x y) = 32%nat) -> (forall x, length (sha3 x) = 32%nat) ->
  exec (istep verify dh blake3 sha3 stream poly1305 c) (isessInit remote win md mf) ls = Some s -> Forall bytes_ok raws ->
  Forall (fun raw => ~ opens stream blake3 poly1305 (auxKey blake3 sha3 c) (kKeys (xKx (iKx s)))
                       (option_map sessBytes (kRemoteSession (xKx (iKx s)))) raw) raws ->
  iFails s + len raws < icDetachFails c -> iFails s + len raws < 2^64 ->
  (forall k, icErrorOn c = Some k -> iFails s + len raws < k) ->
  exec (istep verify dh blake3 sha3 stream poly1305 c) s (map IPacket raws) = Some s' ->
  iResult s' = iResult s /\ stateOf s' = stateOf s /\ iOver s' = iOver s /\ iPanic s' = iPanic s /\
  iKx s' = iKx s /\ out (iRcv s') = out (iRcv s) /\ iSent s' = iSent s.
Proof.
  intros verify dh blake3 sha3 stream poly1305 c win md mf remote raws ls s s' Hp Hl Hs E HB HO Hd H64 He Est.
  revert ls s E HB HO Hd H64 He Est. induction raws as [|raw raws IH]; intros ls s E HB HO Hd H64 He Est.
  - cbn [map exec] in Est. injection Est as <-. repeat split.
  - cbn [map exec] in Est. destruct (istep _ _ _ _ _ _ c s (IPacket raw)) as [s1|] eqn:E1; [|discriminate].
    inversion HB as [|? ? HB1 HB2]; subst. inversion HO as [|? ? HO1 HO2]; subst.
    assert (Ln : len (raw :: raws) = 1 + len raws) by (unfold len; cbn [length]; lia). rewrite Ln in *.
    pose proof (kok_run verify dh blake3 sha3 stream poly1305 c Hl Hs remote win md mf ls s E) as K.
    pose proof (kok_peer blake3 sha3 c Hs s K) as P.
    destruct (opened blake3 sha3 stream poly1305 c s raw Hp P HB1) as [D|[e D]]; [contradiction|].
    assert (F : iResult s1 = iResult s /\ stateOf s1 = stateOf s /\ iOver s1 = iOver s /\ iPanic s1 = iPanic s /\
                iKx s1 = iKx s /\ out (iRcv s1) = out (iRcv s) /\ iSent s1 = iSent s /\ iFails s1 <= iFails s + 1).
    { unfold istep in E1. destruct (iPanic s) eqn:Ep; [discriminate|]. destruct (iOver s || _ || _) eqn:Eo; [discriminate|].
      apply orb_false_iff in Eo. destruct Eo as [Eo _]. apply orb_false_iff in Eo. destruct Eo as [Eo _].
      unfold iReceive, receivePacket in E1. destruct raw as [|x raw0].
      - injection E1 as <-. cbn. rewrite Ep. repeat split; lia.
      - rewrite D in E1. assert (A : add64 (iFails s) 1 = iFails s + 1) by (unfold add64; apply N.mod_small; lia).
        cbn [upPkt iFails] in E1. rewrite A in E1.
        assert (L1 : icDetachFails c <=? iFails s + 1 = false) by (apply N.leb_gt; lia). rewrite L1 in E1.
        destruct (icErrorOn c) as [k|] eqn:Ek.
        + assert (L2 : k <=? iFails s + 1 = false) by (apply N.leb_gt; specialize (He k eq_refl); lia). rewrite L2 in E1.
          injection E1 as <-. cbn. rewrite Ep. repeat split; lia.
        + injection E1 as <-. cbn. rewrite Ep. repeat split; lia. }
    destruct F as (F1 & F2 & F3 & F4 & F5 & F6 & F7 & F8).
    destruct (IH (ls ++ [IPacket raw]) s1) as (G1 & G2 & G3 & G4 & G5 & G6 & G7); auto.
    + rewrite (exec_app _ ls _ _ _ E). cbn [exec]. rewrite E1. reflexivity.
    + rewrite F5. exact HO2.
    + lia.
    + lia.
    + intros k Hk. specialize (He k Hk). lia.
    + repeat split; congruence.
Qed.
Print Assumptions C101_unopened_partial.

(** With a pre-shared key: one packet of somebody who does not know it. *)
Example C101_unopened_example :
  match exec (toyStep (Some [9]) true) (isessInit (Some (key32 2)) (Size 0) 8 65536) (startRun (key32 4) (toyPub (key32 4)) 100 200) with
  | Some s => match exec (toyStep (Some [9]) true) s (map IPacket [toyKeyless 1 [kxMessage []]]) with
              | Some s' => iFails s' = 1 /\ iResult s' = None /\ iOver s' = false /\ stateOf s' = stateOf s
              | None => False
              end
  | None => False
  end.
Proof. vm_compute. auto. Qed.

(** ** C102: such a packet is counted, and the reader ends exactly at the limit *)
Theorem C102_counted : forall verify dh blake3 sha3 stream poly1305 c win md mf remote ls s raw s',
  primitives_ok stream poly1305 -> (forall x y, length (dh x y) = 32%nat) -> (forall x, length (sha3 x) = 32%nat) ->
  exec (istep verify dh blake3 sha3 stream poly1305 c) (isessInit remote win md mf) ls = Some s -> bytes_ok raw ->
  ~ opens stream blake3 poly1305 (auxKey blake3 sha3 c) (kKeys (xKx (iKx s))) (option_map sessBytes (kRemoteSession (xKx (iKx s)))) raw ->
  raw <> [] -> iFails s + 1 < 2^64 ->
  istep verify dh blake3 sha3 stream poly1305 c s (IPacket raw) = Some s' ->
  iFails s' = iFails s + 1 /\ (iOver s' = true <-> icDetachFails c <= iFails s + 1).
Proof.
  intros verify dh blake3 sha3 stream poly1305 c win md mf remote ls s raw s' Hp Hl Hs E HB HO Hn H64 E1.
  pose proof (kok_run verify dh blake3 sha3 stream poly1305 c Hl Hs remote win md mf ls s E) as K.
  pose proof (kok_peer blake3 sha3 c Hs s K) as P.
  destruct (opened blake3 sha3 stream poly1305 c s raw Hp P HB) as [D|[e D]]; [contradiction|].
  unfold istep in E1. destruct (iPanic s) eqn:Ep; [discriminate|]. destruct (iOver s || _ || _) eqn:Eo; [discriminate|].
  apply orb_false_iff in Eo. destruct Eo as [Eo _]. apply orb_false_iff in Eo. destruct Eo as [Eo _].
  unfold iReceive, receivePacket in E1. destruct raw as [|x raw0]; [contradiction Hn; reflexivity|].
  rewrite D in E1. assert (A : add64 (iFails s) 1 = iFails s + 1) by (unfold add64; apply N.mod_small; lia).
  cbn [upPkt iFails] in E1. rewrite A in E1.
  assert (Q : forall r, (match icErrorOn c with Some k => if k <=? iFails s + 1 then reportError c r e else r | None => r end) = r \/
                        (match icErrorOn c with Some k => if k <=? iFails s + 1 then reportError c r e else r | None => r end) = reportError c r e).
  { intro r. destruct (icErrorOn c) as [k|]; [destruct (k <=? _)|]; auto. }
  match type of E1 with Some (if _ then upOver ?y else _) = _ => set (z := y) in * end.
  assert (Z : iFails z = iFails s + 1 /\ iOver z = false).
  { unfold z. match goal with |- context [match icErrorOn c with Some k => if k <=? _ then reportError c ?r e else _ | None => _ end] =>
      destruct (Q r) as [-> | ->] end; unfold reportError, closeCall; try destruct (icCloseOnError c); cbn; auto. }
  destruct Z as [Z1 Z2]. destruct (N.leb_spec (icDetachFails c) (iFails s + 1)) as [L|L]; injection E1 as <-.
  - split; [exact Z1|]. split; [auto|reflexivity].
  - split; [exact Z1|]. rewrite Z2. split; [discriminate|lia].
Qed.
Print Assumptions C102_counted.

(** Limit 2: the second such packet ends the reader. *)
Example C102_counted_example :
  match exec (toyStep (Some [9]) true) (isessInit (Some (key32 2)) (Size 0) 8 65536)
          (startRun (key32 4) (toyPub (key32 4)) 100 200 ++ map IPacket [toyKeyless 1 [kxMessage []]; toyKeyless 2 [kxMessage []]]) with
  | Some s => iFails s = 2 /\ iOver s = true
  | None => False
  end.
Proof. vm_compute. auto. Qed.
