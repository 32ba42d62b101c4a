(** Negotiation: C55, C57-C61, C88-C92.

    Refuted in the faithful model: small limits and large echoes (C57), paths on
    which the search ends without telling the peer (C58), a lying peer (C59),
    late echoes (C60), a peer without negotiation (C61), negative read timeouts
    (C88), the total timeout (C89), an early end message (C90), limits up to 150
    (C91), closing during negotiation (C92). *)
From Coq Require Import NArith ZArith List Bool Lia Sorted.
From Verif Require Import Base TS NegoModel.
Import ListNotations.
Local Open Scope N_scope.

(** Case analysis of one step. *)
Ltac gcases H :=
  match type of H with
  | gstep ?s ?l = Some _ =>
      unfold gstep, kxSuccess, handleMsg, withRd, withStage, withBuf, withClose in H;
      destruct s as [kx ca se cx lo fi rd ch bu cl on lc rm st ok er en es pa];
      cbn [g_kx g_cancel g_sess g_ctx g_loop g_fin g_rd g_ch g_buf g_cl g_once g_local g_remote g_starts g_ok g_err g_end g_est g_panic] in *;
      destruct l;
      try (match type of H with context [negb ?b] => is_var b; destruct b end);
      try (match type of H with context [?x =? 0] => destruct (N.eqb_spec x 0) end);
      cbn [andb orb negb] in H;
      repeat (match type of H with
              | context [match ?x with _ => _ end] => destruct x eqn:?
              | context [if ?x then _ else _] => destruct x eqn:?
              end; try discriminate H); subst;
      try (injection H as <-)
  end;
  cbn [g_kx g_cancel g_sess g_ctx g_loop g_fin g_rd g_ch g_buf g_cl g_once g_local g_remote g_starts g_ok g_err g_end g_est g_panic] in *.

(** ** C55: the negotiation starts once, OnConnect fires at most once *)
Definition I55 (s : ng) : Prop :=
  (g_kx s = 0 -> g_starts s = 0 /\ g_ok s = 0 /\ g_fin s = FNone) /\ (g_kx s <> 0 -> g_starts s = 1) /\
  (g_ok s = 0 \/ g_ok s = 1 /\ (g_fin s = FNone \/ g_fin s = FDone)).

Lemma I55_step : forall s l s', I55 s -> gstep s l = Some s' -> I55 s'.
Proof.
  intros s l s' (H1 & H2 & H3) H. unfold I55. gcases H; try (repeat split; auto; fail).
  all: try (split; [|split]; intros; try lia; intuition (auto; try discriminate; lia)).
Qed.

Theorem C55_once : forall s, reachable ginit (lstep gstep) s ->
  g_starts s <= 1 /\ g_ok s <= 1 /\ (g_kx s <> 0 -> g_starts s = 1).
Proof.
  intros s H. assert (I : I55 s).
  { revert s H. apply reachable_inv.
    - intros s ->. cbv. repeat split; auto; try discriminate. intros E; exfalso; apply E; reflexivity.
    - intros s s' Hi [l Hl]. exact (I55_step s l s' Hi Hl). }
  destruct I as (H1 & H2 & H3). destruct (N.eq_dec (g_kx s) 0) as [e|e].
  - destruct (H1 e) as (-> & -> & _). repeat split; lia.
  - rewrite (H2 e). repeat split; lia.
Qed.
Print Assumptions C55_once.

(** Three key exchanges, one start, one OnConnect. *)
Definition runA : list glabel :=
  [GKx true; GKx true; GMsg (MPong 1392 true); GPut; GTake; GLoopEnd true; GStageLoop;
   GMsg (MCtl 1392 false); GMsg (MCtl 1392 true); GStageReader; GMsg (MCtl 1392 true); GFinalize; GCloseGo; GKx true; GCloseShut; GCloseNil].
Example C55_example : exists s, exec gstep ng0 runA = Some s /\
  g_kx s = 3 /\ g_starts s = 1 /\ g_ok s = 1 /\ g_est s = Some 1392 /\ g_rd s = RdFree.
Proof. eexists. split; [vm_compute; reflexivity|]. repeat split. Qed.

(** ** C57: sizes of the probes *)

(** Why the float of line 295 is truncated exactly: the value in thousandths of a
    third is at least 3/3000 below and 997/3000 above an integer. *)
Lemma rounding_exact : forall x, 997 <= (2997 + 1000 * x) mod 3000 <= 2997.
Proof.
  intro x. replace (2997 + 1000 * x) with (2997 + 1000 * (x mod 3) + (x / 3) * 3000)
    by (pose proof (N.div_mod' x 3); lia).
  rewrite N.mod_add by lia. pose proof (N.mod_lt x 3 ltac:(lia)).
  generalize dependent (x mod 3). intros r Hr.
  assert (r = 0 \/ r = 1 \/ r = 2) as [->|[->| ->]] by lia; vm_compute; split; discriminate.
Qed.
Lemma probe_ceil : forall x, (2997 + 1000 * x) / 3000 = (x + 2) / 3.
Proof.
  intro x. symmetry. apply N.div_unique with (r := 997 + 1000 * ((x + 2) mod 3));
  pose proof (N.div_mod' (x + 2) 3); pose proof (N.mod_lt (x + 2) 3 ltac:(lia)).
  - generalize dependent ((x + 2) mod 3). intros. lia.
  - generalize dependent ((x + 2) mod 3). generalize dependent ((x + 2) / 3). intros. lia.
Qed.

Theorem C57_small_limit_refuted : forall limit maxIter bests, limit < 147 ->
  exists ps r, fst (search limit maxIter bests) = ps :: r /\ exists s, In s ps /\ 2 * 10^9 < s.
Proof.
  intros limit maxIter bests Hl.
  assert (E : sub32 limit 147 = limit + 4294967149) by (unfold sub32; rewrite N.mod_small; lia).
  assert (P : probeSizes negoMin limit = Some (map (probeSize 147 (limit + 4294967149)) [3; 2; 1; 0])).
  { unfold probeSizes, negoMin. rewrite E. destruct (N.leb_spec (limit + 4294967149) 3); [lia|reflexivity]. }
  exists (map (probeSize 147 (limit + 4294967149)) [3; 2; 1; 0]).
  assert (S : exists s, In s (map (probeSize 147 (limit + 4294967149)) [3; 2; 1; 0]) /\ 2 * 10^9 < s).
  { exists (probeSize 147 (limit + 4294967149) 2). split; [right; left; reflexivity|].
    unfold probeSize. rewrite probe_ceil. set (q := ((limit + 4294967149) * 2 + 2) / 3).
    assert (2863311433 <= q <= 2863311531)
      by (split; [apply N.div_le_lower_bound; lia|apply N.div_le_upper_bound; lia]).
    unfold u32, add32. rewrite (N.mod_small q) by lia. rewrite N.mod_small by lia. lia. }
  unfold search. destruct bests as [|b bests]; cbn [searchFrom]; rewrite P.
  - exists []. split; [reflexivity|exact S].
  - destruct (afterCollect limit maxIter 0 negoMin limit b) as [| |mn' mx'].
    + exists []. split; [reflexivity|exact S].
    + exists []. split; [reflexivity|exact S].
    + destruct (searchFrom limit maxIter (0 + 1) mn' mx' bests) as [q e]. exists q. split; [reflexivity|exact S].
Qed.
Print Assumptions C57_small_limit_refuted.

(** Below 69 the very first probe panics. *)
Theorem C57_tiny_limit_panics_refuted : forall limit maxIter bests, limit < 69 ->
  exists s ps r, fst (search limit maxIter bests) = (s :: ps) :: r /\ sendPing s = Panic.
Proof.
  intros limit maxIter bests Hl.
  assert (E : sub32 limit 147 = limit + 4294967149) by (unfold sub32; rewrite N.mod_small; lia).
  assert (P : probeSizes negoMin limit = Some (map (probeSize 147 (limit + 4294967149)) [3; 2; 1; 0])).
  { unfold probeSizes, negoMin. rewrite E. destruct (N.leb_spec (limit + 4294967149) 3); [lia|reflexivity]. }
  assert (S : probeSize 147 (limit + 4294967149) 3 = limit).
  { unfold probeSize. rewrite probe_ceil.
    replace ((limit + 4294967149) * 3 + 2) with (2 + (limit + 4294967149) * 3) by lia.
    rewrite N.div_add by lia. change (2 / 3) with 0. unfold u32, add32.
    rewrite (N.mod_small (0 + _)) by lia. replace (147 + (0 + (limit + 4294967149))) with (limit + 1 * 2 ^ 32) by lia.
    rewrite N.mod_add by lia. apply N.mod_small. lia. }
  assert (Q : sendPing limit = Panic).
  { unfold sendPing, pingPongSize. destruct (N.leb_spec 69 limit); [lia|reflexivity]. }
  cbn [map] in P. rewrite S in P.
  unfold search. destruct bests as [|b bests]; cbn [searchFrom]; rewrite P.
  - eexists _, _, _. split; [reflexivity|exact Q].
  - destruct (afterCollect limit maxIter 0 negoMin limit b) as [| |mn' mx'].
    + eexists _, _, _. split; [reflexivity|exact Q].
    + eexists _, _, _. split; [reflexivity|exact Q].
    + destruct (searchFrom limit maxIter (0 + 1) mn' mx' bests) as [q e]. eexists _, _, _. split; [reflexivity|exact Q].
Qed.
Print Assumptions C57_tiny_limit_panics_refuted.

(** An echo larger than anything sent (a lying peer; messages of up to 64 KiB
    arrive as fragments): the second iteration asks for probes of gigabytes. *)
Theorem C57_large_echo_refuted :
  fst (search 1392 4 [2000]) = [[1392; 977; 562; 147]; [1392; 2863313126; 1431657563; 2000]].
Proof. vm_compute. reflexivity. Qed.
Print Assumptions C57_large_echo_refuted.

Lemma probe_bounds : forall mn mx i, mn <= mx -> mx < 2^32 -> i <= 3 -> mn <= probeSize mn (mx - mn) i <= mx.
Proof.
  intros mn mx i H1 H2 H3. unfold probeSize. rewrite probe_ceil.
  assert (B : ((mx - mn) * i + 2) / 3 <= mx - mn).
  { apply N.lt_succ_r. apply N.div_lt_upper_bound; [lia|]. assert ((mx - mn) * i <= (mx - mn) * 3) by (apply N.mul_le_mono_l; auto). lia. }
  set (q := ((mx - mn) * i + 2) / 3) in *. clearbody q.
  unfold u32, add32. rewrite (N.mod_small q) by lia. rewrite N.mod_small by lia. lia.
Qed.

Lemma sizes_bounds : forall mn mx ps, mn <= mx -> mx < 2^32 -> probeSizes mn mx = Some ps ->
  Forall (fun s => mn <= s <= mx) ps.
Proof.
  intros mn mx ps H1 H2 H. unfold probeSizes in H.
  replace (sub32 mx mn) with (mx - mn) in H.
  2:{ unfold sub32. replace (mx + (2 ^ 32 - mn)) with ((mx - mn) + 1 * 2 ^ 32) by lia.
      rewrite N.mod_add by lia. rewrite N.mod_small; lia. }
  destruct (mx - mn <=? 3); [discriminate|]. injection H as <-. cbn [map].
  repeat constructor; apply probe_bounds; lia.
Qed.

Lemma after_bounds : forall limit maxIter iter mn mx best mn' mx',
  limit < 2^30 -> mn <= mx -> mx <= limit -> mn <= best -> best <= limit ->
  afterCollect limit maxIter iter mn mx best = VNext mn' mx' -> mn' = best /\ best <= mx' /\ mx' <= limit.
Proof.
  intros limit maxIter iter mn mx best mn' mx' Hl H1 H2 H3 H4 H. unfold afterCollect in H.
  replace (sub32 mx mn) with (mx - mn) in H.
  2:{ unfold sub32. replace (mx + (2 ^ 32 - mn)) with ((mx - mn) + 1 * 2 ^ 32) by lia.
      rewrite N.mod_add by lia. rewrite N.mod_small; lia. }
  destruct (best =? mn); [discriminate|]. destruct (best =? limit); [discriminate|].
  assert (B : (mx - mn) / 3 <= mx - mn) by (apply N.div_le_upper_bound; lia).
  assert (E : stepUp (mx - mn) = (mx - mn) / 3 + 1) by (unfold stepUp, u32; apply N.mod_small; lia).
  rewrite E in H. set (q := (mx - mn) / 3) in *.
  replace (add32 best (q + 1)) with (best + (q + 1)) in H by (unfold add32; rewrite N.mod_small; lia).
  replace (u32 ((best + (q + 1)) * 2)) with ((best + (q + 1)) * 2) in H by (unfold u32; rewrite N.mod_small; lia).
  replace (add32 (best + (q + 1)) 1) with (best + (q + 1) + 1) in H by (unfold add32; rewrite N.mod_small; lia).
  destruct (maxIter <=? iter + 1); [discriminate|]. injection H as <- <-.
  split; [reflexivity|].
  destruct (N.leb_spec mx (best + (q + 1)));
  [destruct (N.ltb_spec limit ((best + (q + 1)) * 2))|destruct (N.ltb_spec limit (best + (q + 1) + 1))]; lia.
Qed.

(** Weaker than C57: the limit is at least 147 (and below 1 GiB) and no echo is
    smaller than the lower bound of its iteration or larger than the limit, as
    with a peer that only echoes. *)
Theorem C57_within_limit_partial : forall limit maxIter bests,
  147 <= limit -> limit < 2^30 -> LocallySorted N.le (147 :: bests) -> Forall (fun b => b <= limit) bests ->
  Forall (Forall (fun s => 147 <= s <= limit /\ sendPing s = Ret s)) (fst (search limit maxIter bests)).
Proof.
  intros limit maxIter bests H1 H2 Hs Hb. unfold search, negoMin.
  assert (G : forall bests iter mn mx, 147 <= mn -> mn <= mx -> mx <= limit -> LocallySorted N.le (mn :: bests) ->
    Forall (fun b => b <= limit) bests ->
    Forall (Forall (fun s => 147 <= s <= limit /\ sendPing s = Ret s)) (fst (searchFrom limit maxIter iter mn mx bests))).
  { clear bests Hs Hb. induction bests as [|b bests IH]; intros iter mn mx A1 A2 A3 Hs Hb; cbn [searchFrom];
    destruct (probeSizes mn mx) as [ps|] eqn:E; try constructor.
    - pose proof (sizes_bounds mn mx ps A2 ltac:(lia) E) as F. eapply Forall_impl; [|exact F].
      cbn beta. intros a Ha. split; [lia|]. unfold sendPing, pingPongSize. destruct (N.leb_spec 69 a); [reflexivity|lia].
    - constructor.
    - assert (F : Forall (fun s => 147 <= s <= limit /\ sendPing s = Ret s) ps).
      { pose proof (sizes_bounds mn mx ps A2 ltac:(lia) E) as F. eapply Forall_impl; [|exact F].
        cbn beta. intros a Ha. split; [lia|]. unfold sendPing, pingPongSize. destruct (N.leb_spec 69 a); [reflexivity|lia]. }
      inversion Hs as [| |? ? ? Hs' Hle]; subst. inversion Hb as [|? ? Hb1 Hb2]; subst.
      destruct (afterCollect limit maxIter iter mn mx b) as [| |mn' mx'] eqn:A.
      + repeat constructor. exact F.
      + repeat constructor. exact F.
      + destruct (after_bounds limit maxIter iter mn mx b mn' mx' H2 A2 A3 Hle Hb1 A) as (-> & B1 & B2).
        specialize (IH (iter + 1) b mx' ltac:(lia) B1 B2 Hs' Hb2).
        destruct (searchFrom limit maxIter (iter + 1) b mx' bests) as [q e]. cbn [fst] in *. constructor; [exact F|exact IH]. }
  apply G; auto; lia.
Qed.
Print Assumptions C57_within_limit_partial.

Example C57_example : search 1392 4 [977; 1116; 1163; 1195] =
  ([[1392; 977; 562; 147]; [1392; 1254; 1116; 977]; [1256; 1210; 1163; 1116]; [1211; 1195; 1179; 1163]], Some false).
Proof. vm_compute. reflexivity. Qed.

(** ** C58: both sides become established *)

(** A path on which both searches end by line 380: nobody ever sends the end
    message, the session never becomes Established, and no error is reported
    either, whatever happens and however long one waits. *)
Definition mute (s : ng) : Prop :=
  g_end s = false /\ g_once s = false /\ g_rd s <> RdStage /\ g_ok s = 0 /\ g_est s = None /\ g_err s = 0 /\
  match g_fin s with
  | FNone => True
  | FWait k => match g_loop s with LDone => k = 1%nat | LNone => False | _ => k = 0%nat end
  | FFinal => False
  | FDone => True
  end.

Lemma mute_step : forall path limit maxIter r me other l me',
  pathSearch path limit maxIter = Some (false, r) -> mute me -> mute other ->
  mayDo path maxIter limit me other l = true -> gstep me l = Some me' -> mute me'.
Proof.
  intros path limit maxIter r me other l me' HP (A1 & A2 & A3 & A4 & A5 & A6 & A7) (B1 & _) HM H.
  assert (HF : l <> GLoopFail) by (intros ->; discriminate).
  assert (HC : forall m, l = GMsg m -> forall x, m = MCtl x true -> False).
  { intros m -> x ->. cbn [mayDo] in HM. rewrite B1 in HM. discriminate. }
  assert (HK : forall b, l = GKx b -> b = true) by (intros b ->; exact HM).
  assert (HL : forall b, l = GLoopEnd b -> b = false).
  { intros b ->. cbn [mayDo] in HM. rewrite HP in HM. destruct b; [discriminate|reflexivity]. }
  clear HM HP. unfold mute. gcases H; cbn [negb orb andb] in *; try congruence;
  repeat match goal with |- _ /\ _ => split end; auto; try congruence; try discriminate.
  all: try contradiction.
  all: try (specialize (HK _ eq_refl); discriminate).
  all: try (destruct fin; [exfalso; exact (HC _ eq_refl _ eq_refl)|]; auto; discriminate).
  all: try (rewrite (HL _ eq_refl); reflexivity).
  all: try (destruct lo; auto; congruence).
  all: auto; try discriminate; try (subst; discriminate).
Qed.

Theorem C58_silent_never_established_refuted : forall path limitA limitB maxIter ra rb,
  pathSearch path limitA maxIter = Some (false, ra) -> pathSearch path limitB maxIter = Some (false, rb) ->
  forall s, reachable gpinit (lstep (gstep2 path limitA limitB maxIter)) s ->
  g_est (gp_a s) = None /\ g_ok (gp_a s) = 0 /\ g_err (gp_a s) = 0 /\
  g_est (gp_b s) = None /\ g_ok (gp_b s) = 0 /\ g_err (gp_b s) = 0.
Proof.
  intros path limitA limitB maxIter ra rb HA HB s H.
  assert (I : mute (gp_a s) /\ mute (gp_b s)).
  { revert s H. apply reachable_inv.
    - intros s ->. unfold mute, gp0, ng0. cbn. repeat split; auto; discriminate.
    - intros s s' [Ia Ib] [l Hl]. unfold gstep2 in Hl. destruct l as [l|l].
      + destruct (mayDo path maxIter limitA (gp_a s) (gp_b s) l) eqn:M; [|discriminate].
        destruct (gstep (gp_a s) l) as [a|] eqn:G; [|discriminate]. injection Hl as <-. cbn [gp_a gp_b].
        split; [exact (mute_step path limitA maxIter ra (gp_a s) (gp_b s) l a HA Ia Ib M G)|exact Ib].
      + destruct (mayDo path maxIter limitB (gp_b s) (gp_a s) l) eqn:M; [|discriminate].
        destruct (gstep (gp_b s) l) as [b|] eqn:G; [|discriminate]. injection Hl as <-. cbn [gp_a gp_b].
        split; [exact Ia|exact (mute_step path limitB maxIter rb (gp_b s) (gp_a s) l b HB Ib Ia M G)]. }
  destruct I as [(_ & _ & _ & A4 & A5 & A6 & _) (_ & _ & _ & B4 & B5 & B6 & _)]. repeat split; assumption.
Qed.
Print Assumptions C58_silent_never_established_refuted.

Definition range (a b : N) : list N := map (fun k => a + N.of_nat k) (seq 0 (N.to_nat (b - a))).
Lemma range_in : forall a b x, a <= x -> x < b -> In x (range a b).
Proof.
  intros a b x H1 H2. unfold range. apply in_map_iff. exists (N.to_nat (x - a)).
  split; [lia|]. apply in_seq. lia.
Qed.

(** With the default options over UDP (limit 1392, 4 iterations) that is the case
    for these path sizes, among them 1200. *)
Theorem C58_default_options_refuted : forall path,
  (765 <= path <= 794 \/ 1179 <= path <= 1209 \/ 1316 <= path <= 1345 \/ 1362 <= path <= 1391) ->
  exists r, pathSearch path 1392 4 = Some (false, r).
Proof.
  intros path H.
  assert (F : forallb (fun p => match pathSearch p 1392 4 with Some (false, _) => true | _ => false end)
                (range 765 795 ++ range 1179 1210 ++ range 1316 1346 ++ range 1362 1392) = true) by (vm_compute; reflexivity).
  rewrite forallb_forall in F.
  assert (In path (range 765 795 ++ range 1179 1210 ++ range 1316 1346 ++ range 1362 1392)) as Hi.
  { rewrite !in_app_iff. destruct H as [H|[H|[H|H]]]; [left|right; left|right; right; left|right; right; right];
    apply range_in; lia. }
  specialize (F path Hi). destruct (pathSearch path 1392 4) as [[[|] r]|]; try discriminate. exists r. reflexivity.
Qed.
Print Assumptions C58_default_options_refuted.

(** Such a run to its very end: both loops are over, both total timeouts expired,
    both finalizers returned, and nothing has been told to anyone. *)
Definition silentSide : list glabel :=
  [GKx true; GMsg (MPong 977 true); GPut; GTake; GMsg (MPong 1195 true); GPut; GTake; GLoopEnd false; GStageLoop; GCtx; GFinCtx].
Example C58_example : exists s,
  exec (gstep2 1200 1392 1392 4) gp0 (map GA silentSide ++ map GB silentSide) = Some s /\
  g_loop (gp_a s) = LDone /\ g_fin (gp_a s) = FDone /\ g_est (gp_a s) = None /\ g_ok (gp_a s) = 0 /\ g_err (gp_a s) = 0 /\ g_sess (gp_a s) = false.
Proof. eexists. split; [vm_compute; reflexivity|]. repeat split. Qed.

(** *** Weaker than C58 *)

(** If the path carries every size up to the limit, the first iteration finds it. *)
Theorem C58_ample_path_partial : forall path limit maxIter,
  151 <= limit -> limit < 2^30 -> limit <= path -> pathSearch path limit maxIter = Some (true, limit).
Proof.
  intros path limit maxIter H1 H2 H3. unfold pathSearch.
  assert (E : sub32 limit negoMin = limit - 147).
  { unfold sub32, negoMin. replace (limit + (2 ^ 32 - 147)) with ((limit - 147) + 1 * 2 ^ 32) by lia.
    rewrite N.mod_add by lia. rewrite N.mod_small; lia. }
  assert (P : probeSizes negoMin limit = Some (map (probeSize 147 (limit - 147)) [3; 2; 1; 0])).
  { unfold probeSizes. rewrite E. destruct (N.leb_spec (limit - 147) 3); [lia|reflexivity]. }
  assert (S : probeSize 147 (limit - 147) 3 = limit).
  { unfold probeSize. rewrite probe_ceil.
    replace ((limit - 147) * 3 + 2) with (2 + (limit - 147) * 3) by lia.
    rewrite N.div_add by lia. change (2 / 3) with 0. unfold u32, add32.
    rewrite (N.mod_small (0 + _)) by lia. rewrite N.mod_small; lia. }
  pose proof (sizes_bounds 147 limit _ ltac:(lia) ltac:(lia) P) as F.
  assert (G : echoes path (map (probeSize 147 (limit - 147)) [3; 2; 1; 0]) = map (probeSize 147 (limit - 147)) [3; 2; 1; 0]).
  { unfold echoes. revert F. generalize (map (probeSize 147 (limit - 147)) [3; 2; 1; 0]). clear - H3.
    induction l as [|a l IH]; intros F; cbn [filter]; [reflexivity|]. inversion F; subst.
    destruct (N.leb_spec a path); [f_equal; auto|lia]. }
  assert (B : bestOf (map (probeSize 147 (limit - 147)) [3; 2; 1; 0]) = limit).
  { cbn [map] in *. rewrite S in *. inversion F as [|? ? _ F1]; subst. inversion F1 as [|? ? A2 F2]; subst.
    inversion F2 as [|? ? A3 F3]; subst. inversion F3 as [|? ? A4 _]; subst.
    unfold bestOf. cbn [fold_left]. lia. }
  destruct (N.to_nat maxIter) as [|f]; cbn [pathLoop]; rewrite P, G; cbn [map] in *;
  rewrite B; unfold afterCollect;
  (destruct (N.eqb_spec limit negoMin); [unfold negoMin in *; lia|]);
  rewrite N.eqb_refl; f_equal; f_equal; lia.
Qed.
Print Assumptions C58_ample_path_partial.

(** Eight iterations would be enough for the default limit, on every path that
    carries the smallest probe. *)
Theorem C58_eight_iterations_partial : forall path, 147 <= path ->
  exists r, pathSearch path 1392 8 = Some (true, r).
Proof.
  intros path H. destruct (N.le_gt_cases 1392 path) as [G|G].
  - exists 1392. apply C58_ample_path_partial; lia.
  - assert (F : forallb (fun p => match pathSearch p 1392 8 with Some (true, _) => true | _ => false end) (range 147 1392) = true)
      by (vm_compute; reflexivity).
    rewrite forallb_forall in F. specialize (F path (range_in _ _ _ H G)).
    destruct (pathSearch path 1392 8) as [[[|] r]|]; try discriminate. exists r. reflexivity.
Qed.
Print Assumptions C58_eight_iterations_partial.

(** Once both searches have ended properly, both sides become established with
    the same size and finish closing their negotiators, under every schedule, as
    long as the end messages get through and nothing else interferes. *)
Definition ngRun (r : N) : ng :=
  {| g_kx := 1; g_cancel := true; g_sess := false; g_ctx := false; g_loop := LRun; g_fin := FWait 0;
     g_rd := RdFree; g_ch := ChOpen; g_buf := 0; g_cl := ClNone; g_once := false; g_local := r; g_remote := 0;
     g_starts := 1; g_ok := 0; g_err := 0; g_end := false; g_est := None; g_panic := false |}.
Example ngRun_is_reached : exec gstep ng0 [GKx true; GMsg (MPong 1392 true); GPut; GTake] = Some (ngRun 1392).
Proof. vm_compute. reflexivity. Qed.

Definition live (me other : ng) (l : glabel) : bool :=
  match l with
  | GLoopEnd ctl => ctl
  | GStageLoop | GStageReader | GFinalize | GCloseGo | GCloseShut | GCloseNil => true
  | GMsg (MCtl rtt true) => g_end other && negb (g_once me) && (rtt =? g_local other)
  | _ => false
  end.
Definition liveStep (s : gp) (l : glab2) : option gp :=
  match l with
  | GA l => if live (gp_a s) (gp_b s) l then
              match gstep (gp_a s) l with Some a => Some {| gp_a := a; gp_b := gp_b s |} | None => None end else None
  | GB l => if live (gp_b s) (gp_a s) l then
              match gstep (gp_b s) l with Some b => Some {| gp_a := gp_a s; gp_b := b |} | None => None end else None
  end.

Definition b2n (b : bool) : nat := if b then 1%nat else 0%nat.
Definition isDone (l : lphase) : bool := match l with LDone => true | _ => false end.
Definition isRun (l : lphase) : bool := match l with LRun => true | _ => false end.
Definition isFree (r : rdphase) : bool := match r with RdFree => true | _ => false end.

Definition LI (r ro : N) (s : ng) : Prop :=
  g_local s = r /\ g_panic s = false /\ g_sess s = false /\ g_loop s <> LNone /\ g_end s = negb (isRun (g_loop s)) /\
  (g_rd s = RdFree \/ g_rd s = RdStage) /\ (g_once s = false -> g_rd s = RdFree) /\ (g_once s = true -> g_remote s = ro) /\
  match g_fin s with
  | FNone => False
  | FWait k => (k = b2n (isDone (g_loop s)) + b2n (g_once s && isFree (g_rd s)) /\ k < 2)%nat /\ g_cancel s = true /\ g_cl s = ClNone
  | FFinal => g_loop s = LDone /\ g_once s = true /\ g_rd s = RdFree /\ g_cancel s = true /\ g_cl s = ClNone
  | FDone => g_loop s = LDone /\ g_once s = true /\ g_rd s = RdFree /\ g_est s = Some (N.min r ro) /\ 0 < g_ok s /\
      ((g_cancel s = true /\ g_cl s = ClNone) \/ (g_cancel s = false /\ g_cl s <> ClNone))
  end.

Definition LM (s : ng) : nat :=
  ((match g_loop s with LRun => 2 | LStage => 1 | _ => 0 end) + (if g_once s then 0 else 3) +
   (match g_rd s with RdFree => 0 | _ => 1 end) +
   (match g_fin s with FWait O => 3 | FWait _ => 2 | FFinal => 1 | _ => 0 end) +
   (match g_cl s with ClNone => 3 | ClWait => 2 | ClShut => 1 | ClDone => 0 end))%nat.

Lemma LI_step : forall r ro me other l me', LI r ro me -> g_local other = ro ->
  live me other l = true -> gstep me l = Some me' -> LI r ro me' /\ (LM me' < LM me)%nat.
Proof.
  intros r ro me other l me' (A1 & A2 & A3 & A4 & A5 & A6 & A7 & A8 & A9) Ho HV H.
  assert (HM : forall x b, l = GMsg (MCtl x b) -> b = true /\ x = ro /\ g_once me = false).
  { intros x b ->. destruct b; [|discriminate HV]. cbn [live] in HV.
    apply andb_prop in HV as [HV E]. apply andb_prop in HV as [_ HV]. apply N.eqb_eq in E.
    destruct (g_once me); [discriminate|]. rewrite <- Ho. auto. }
  assert (HL : forall b, l = GLoopEnd b -> b = true) by (intros b ->; exact HV).
  assert (HN : match l with GLoopEnd _ | GStageLoop | GStageReader | GFinalize | GCloseGo | GCloseShut | GCloseNil | GMsg (MCtl _ _) => True | _ => False end).
  { destruct l as [| [x [|]| |] | | | | | | | | | | | | | | | ]; cbn in HV; try discriminate; exact I. }
  clear HV. unfold LI, LM.
  gcases H; try contradiction; cbn [negb orb andb b2n isDone isRun isFree] in *.
  all: try (destruct (HM _ _ eq_refl) as (-> & -> & E2); try discriminate E2; clear HM).
  all: try (pose proof (HL _ eq_refl) as E3; subst; clear HL).
  all: repeat match goal with
       | x : lphase |- _ => destruct x
       | x : fphase |- _ => destruct x
       end; cbn [negb orb andb b2n isDone isRun isFree Nat.eqb] in *; try contradiction; try congruence.
  all: repeat match goal with
       | H : _ /\ _ |- _ => destruct H
       end; subst; try discriminate.
  all: repeat match goal with
       | H : _ \/ _ |- _ => destruct H
       end; subst; try discriminate.
  all: repeat match goal with
       | H : _ /\ _ |- _ => destruct H
       end; subst; try discriminate; try congruence.
  all: try (destruct on); cbn [negb orb andb b2n isDone isRun isFree Nat.eqb plus] in *; try congruence; try lia.
  all: (split; [repeat split; auto; try congruence; try lia|lia]).
  all: try (specialize (A7 eq_refl); discriminate).
  all: try (rewrite (A8 eq_refl); reflexivity).
  all: try (right; split; [reflexivity|discriminate]).
Qed.

Lemma LI_progress : forall r ro me other, LI r ro me ->
  (exists l me', live me other l = true /\ gstep me l = Some me') \/
  (g_cl me = ClDone /\ g_est me = Some (N.min r ro) /\ g_rd me = RdFree) \/
  (g_end other = false).
Proof.
  intros r ro me other (A1 & A2 & A3 & A4 & A5 & A6 & A7 & A8 & A9).
  destruct (g_end other) eqn:Eo; [|auto].
  destruct (g_loop me) eqn:El; [congruence| | |].
  - left. eexists (GLoopEnd true), _. split; [reflexivity|]. unfold gstep. rewrite A2, El. reflexivity.
  - left. destruct (g_fin me) as [|k| |] eqn:Ef; [contradiction| |destruct A9; discriminate|destruct A9; discriminate].
    eexists GStageLoop, _. split; [reflexivity|]. unfold gstep. rewrite A2, El, Ef. reflexivity.
  - destruct (g_once me) eqn:Eq.
    2:{ left. eexists (GMsg (MCtl (g_local other) true)), _. split.
        - cbn [live]. rewrite Eo, Eq, N.eqb_refl. reflexivity.
        - unfold gstep. rewrite A2, (A7 eq_refl), A3. reflexivity. }
    destruct (g_fin me) as [|k| |] eqn:Ef; [contradiction| | |].
    + destruct A6 as [E|E]; rewrite E in A9; cbn [isDone isFree b2n andb plus] in A9; [lia|].
      left. eexists GStageReader, _. split; [reflexivity|]. unfold gstep. rewrite A2, E, Ef. reflexivity.
    + left. eexists GFinalize, _. split; [reflexivity|]. unfold gstep. rewrite A2, Ef. reflexivity.
    + destruct A9 as (_ & _ & R & E & K & C). destruct C as [[C1 C2]|[C1 C2]].
      * left. eexists GCloseGo, _. split; [reflexivity|]. unfold gstep. rewrite A2, Ef, C1.
        destruct (N.ltb_spec 0 (g_ok me)); [reflexivity|lia].
      * destruct (g_cl me) eqn:Ec; [congruence| | |].
        -- left. eexists GCloseShut, _. split; [reflexivity|]. unfold gstep. rewrite A2, Ec, El, Ef. reflexivity.
        -- left. eexists GCloseNil, _. split; [reflexivity|]. unfold gstep. rewrite A2, Ec. reflexivity.
        -- right; left. auto.
Qed.

Theorem C58_both_established_partial : forall ra rb,
  always_ends (lstep liveStep)
    (fun s => g_est (gp_a s) = Some (N.min ra rb) /\ g_est (gp_b s) = Some (N.min ra rb) /\
              g_rd (gp_a s) = RdFree /\ g_rd (gp_b s) = RdFree)
    {| gp_a := ngRun ra; gp_b := ngRun rb |}.
Proof.
  intros ra rb.
  apply ends_by_measure with (I := fun s => LI ra rb (gp_a s) /\ LI rb ra (gp_b s)) (m := fun s => (LM (gp_a s) + LM (gp_b s))%nat).
  - intros s s' [Ia Ib] [l Hl]. unfold liveStep in Hl. destruct l as [l|l].
    + destruct (live (gp_a s) (gp_b s) l) eqn:M; [|discriminate].
      destruct (gstep (gp_a s) l) as [a|] eqn:G; [|discriminate]. injection Hl as <-. cbn [gp_a gp_b].
      destruct (LI_step ra rb (gp_a s) (gp_b s) l a Ia (proj1 Ib) M G) as [L1 L2]. split; [auto|lia].
    + destruct (live (gp_b s) (gp_a s) l) eqn:M; [|discriminate].
      destruct (gstep (gp_b s) l) as [b|] eqn:G; [|discriminate]. injection Hl as <-. cbn [gp_a gp_b].
      destruct (LI_step rb ra (gp_b s) (gp_a s) l b Ib (proj1 Ia) M G) as [L1 L2]. split; [auto|lia].
  - intros s [Ia Ib].
    assert (SA : forall l a, live (gp_a s) (gp_b s) l = true -> gstep (gp_a s) l = Some a -> exists s', lstep liveStep s s').
    { intros l a M G. eexists. exists (GA l). unfold liveStep. rewrite M, G. reflexivity. }
    assert (SB : forall l a, live (gp_b s) (gp_a s) l = true -> gstep (gp_b s) l = Some a -> exists s', lstep liveStep s s').
    { intros l a M G. eexists. exists (GB l). unfold liveStep. rewrite M, G. reflexivity. }
    destruct (LI_progress ra rb (gp_a s) (gp_b s) Ia) as [(l & a & M & G)|[(C1 & C2 & C3)|E]]; [left; eauto| |].
    + destruct (LI_progress rb ra (gp_b s) (gp_a s) Ib) as [(l & b & M & G)|[(D1 & D2 & D3)|E]]; [left; eauto| |].
      * rewrite N.min_comm in D2.
        right. split; [|auto]. intros s' [l Hl].
        assert (T : forall r ro me other l me', LI r ro me -> g_cl me = ClDone -> live me other l = true -> gstep me l = Some me' -> False).
        { clear. intros r ro me other l me' (A1 & A2 & A3 & A4 & A5 & A6 & A7 & A8 & A9) C M G.
          destruct (g_fin me) as [|k| |] eqn:Ef; [contradiction|destruct A9 as (_ & _ & A9); congruence|destruct A9 as (_ & _ & _ & _ & A9); congruence|].
          destruct A9 as (B1 & B2 & B3 & B4 & B5 & B6). destruct B6 as [[_ B6]|[B6 _]]; [congruence|].
          unfold gstep in G. rewrite A2 in G.
          destruct l as [| [x [|]| |] | | | | | | | | | | | | | | | ]; cbn [live] in M; try discriminate;
          rewrite ?B1, ?B2, ?B3, ?B6, ?C, ?Ef in *; cbn in *; rewrite ?andb_false_r in *; try discriminate. }
        unfold liveStep in Hl. destruct l as [l|l].
        -- destruct (live (gp_a s) (gp_b s) l) eqn:M; [|discriminate]. destruct (gstep (gp_a s) l) as [a|] eqn:G; [|discriminate].
           exact (T _ _ _ _ _ _ Ia C1 M G).
        -- destruct (live (gp_b s) (gp_a s) l) eqn:M; [|discriminate]. destruct (gstep (gp_b s) l) as [b|] eqn:G; [|discriminate].
           exact (T _ _ _ _ _ _ Ib D1 M G).
      * exfalso. destruct Ia as (_ & _ & _ & A4 & A5 & _ & _ & _ & A9). rewrite A5 in E.
        destruct (g_loop (gp_a s)) eqn:El; try discriminate. cbn in *.
        destruct (g_fin (gp_a s)); [contradiction|destruct A9 as (_ & _ & A9)|destruct A9|destruct A9]; congruence.
    + left. destruct Ib as (A1 & A2 & A3 & A4 & A5 & _). rewrite A5 in E.
      destruct (g_loop (gp_b s)) eqn:El; try discriminate.
      assert (G : exists b, gstep (gp_b s) (GLoopEnd true) = Some b) by (unfold gstep; rewrite A2, El; eauto).
      destruct G as [b G]. exact (SB (GLoopEnd true) b eq_refl G).
  - split; unfold LI, ngRun; cbn; repeat split; auto; try discriminate; try lia.
Qed.
Print Assumptions C58_both_established_partial.

(** ** C59: the size that is established *)

(** A lying peer: an echo and a round trip larger than the limit (here 1392). *)
Theorem C59_lying_peer_refuted : exists s,
  exec gstep ng0 [GKx true; GMsg (MPong 60000 true); GPut; GTake; GMsg (MCtl 60000 true); GStageReader;
                  GLoopEnd true; GStageLoop; GFinalize] = Some s /\ g_est s = Some 60000.
Proof. eexists. split; [vm_compute; reflexivity|reflexivity]. Qed.
Print Assumptions C59_lying_peer_refuted.

(** The echoes of a run, as messages. *)
Definition echoSize (l : glabel) : N := match l with GMsg (MPong size true) => size | _ => 0 end.
Definition largestEcho (ls : list glabel) : N := fold_right (fun l m => N.max (echoSize l) m) 0 ls.

Lemma exec_snoc : forall ls l (s s' : ng), exec gstep s (ls ++ [l]) = Some s' ->
  exists s1, exec gstep s ls = Some s1 /\ gstep s1 l = Some s'.
Proof.
  induction ls as [|a ls IH]; intros l s s' H; cbn [exec app] in *.
  - destruct (gstep s l) as [s1|] eqn:E; [|discriminate]. injection H as <-. eauto.
  - destruct (gstep s a) as [s1|] eqn:E; [|discriminate]. apply IH. exact H.
Qed.
Lemma largest_snoc : forall ls l, largestEcho (ls ++ [l]) = N.max (largestEcho ls) (echoSize l).
Proof. induction ls as [|a ls IH]; intros l; cbn [largestEcho fold_right app]; [lia|]. fold (largestEcho (ls ++ [l])). rewrite IH. fold (largestEcho ls). lia. Qed.

Lemma local_bound : forall l s s', gstep s l = Some s' ->
  g_local s <= g_local s' /\ g_local s' <= N.max (g_local s) (echoSize l) /\
  (g_est s' = g_est s \/ g_est s' = Some (N.min (g_local s) (g_remote s)) /\ g_local s' = g_local s).
Proof.
  intros l s s' H.
  assert (U : forall x, u32 x <= x) by (intro x; unfold u32; apply N.mod_le; lia).
  gcases H; cbn [echoSize]; try (split; [|split]; [lia|lia|auto]; fail).
  all: try (destruct good; [|discriminate]; cbn [echoSize]; pose proof (U size); split; [|split]; [lia|lia|auto]).
Qed.

(** Weaker than C59: at most the largest echo the peer sent, so at most the limit
    if the peer only echoes probes (C57_within_limit_partial bounds those). *)
Theorem C59_at_most_largest_echo_partial : forall ls s v,
  exec gstep ng0 ls = Some s -> g_est s = Some v -> v <= largestEcho ls.
Proof.
  intros ls s v H. enough (G : g_local s <= largestEcho ls /\ forall v, g_est s = Some v -> v <= g_local s).
  { intro E. destruct G as [G1 G2]. specialize (G2 v E). lia. }
  clear v. revert s H. induction ls as [|l ls IH] using rev_ind; intros s H.
  - injection H as <-. cbn. split; [lia|discriminate].
  - apply exec_snoc in H as (s1 & H1 & H2). destruct (IH s1 H1) as [I1 I2].
    destruct (local_bound l s1 s H2) as (B1 & B2 & B3). rewrite largest_snoc. split; [lia|].
    intros v E. destruct B3 as [B3|[B3 B4]]; rewrite B3 in E.
    + specialize (I2 v E). lia.
    + injection E as <-. lia.
Qed.
Print Assumptions C59_at_most_largest_echo_partial.

Example C59_example : exists s, exec gstep ng0
  [GKx true; GMsg (MPong 562 true); GPut; GMsg (MPong 977 true); GPut; GMsg (MPong 1392 false); GTake; GTake; GLoopEnd true; GStageLoop;
   GMsg (MCtl 700 false); GMsg (MCtl 1392 true); GStageReader; GFinalize] = Some s /\ g_est s = Some 977.
Proof. eexists. split; [vm_compute; reflexivity|reflexivity]. Qed.

(** ** C60: echoes that arrive late *)

Lemma nil_forever : forall s s', g_rd s = RdNil -> steps (lstep gstep) s s' -> g_rd s' = RdNil.
Proof.
  intros s s' H Hs. revert H. apply (steps_inv (lstep gstep) (fun s => g_rd s = RdNil)); [|exact Hs].
  clear. intros s s' H [l Hl]. gcases Hl; congruence.
Qed.

(** An echo after the negotiation: the reader blocks for ever, so the session
    receives nothing any more and cannot be closed either. *)
Theorem C60_late_echo_blocks_refuted : exists s,
  exec gstep ng0 (runA ++ [GMsg (MPong 977 true)]) = Some s /\ g_est s = Some 1392 /\
  forall s', steps (lstep gstep) s s' -> g_rd s' = RdNil.
Proof.
  eexists. split; [vm_compute; reflexivity|]. split; [reflexivity|].
  intros s' H. eapply nil_forever; [|exact H]. reflexivity.
Qed.
Print Assumptions C60_late_echo_blocks_refuted.

(** An echo while the negotiator closes: a send on a closed channel. *)
Theorem C60_echo_while_closing_panics_refuted : exists s,
  exec gstep ng0 [GKx true; GMsg (MPong 1392 true); GPut; GTake; GLoopEnd true; GStageLoop; GMsg (MCtl 1392 true); GStageReader;
                  GFinalize; GCloseGo; GMsg (MPong 1392 true); GCloseShut; GPut] = Some s /\ g_panic s = true.
Proof. eexists. split; [vm_compute; reflexivity|reflexivity]. Qed.
Print Assumptions C60_echo_while_closing_panics_refuted.

(** Weaker than C60: while the search goes on the channel is open, and a reader
    that has to wait is released by the search taking an item. *)
Definition I60 (s : ng) : Prop :=
  (g_loop s = LRun -> g_ch s = ChOpen /\ (g_cl s = ClNone \/ g_cl s = ClWait)) /\ g_buf s <= recvCap /\
  (g_kx s = 0 -> g_loop s = LNone /\ g_cl s = ClNone /\ g_ch s = ChOpen /\ g_cancel s = false /\ g_fin s = FNone) /\
  (g_rd s = RdNil -> g_loop s <> LRun).
Lemma I60_step : forall s l s', I60 s -> gstep s l = Some s' -> I60 s'.
Proof.
  intros s l s' (H1 & H2 & H3 & H4) H. unfold I60, recvCap in *.
  gcases H; try (repeat split; auto; fail);
  repeat match goal with E : (_ <? _) = true |- _ => apply N.ltb_lt in E end; unfold recvCap in *;
  (split; [|split; [|split]]); intros; try lia; try congruence; auto.
  all: try (destruct (H3 eq_refl) as (X1 & X2 & X3 & X4 & X5); subst; try discriminate; auto).
  all: try (destruct H3 as (X1 & X2 & X3 & X4 & X5); auto; subst; discriminate).
  all: try (destruct (H1 eq_refl) as [X1 [X2|X2]]; auto; discriminate).
  all: try (destruct (H1 H) as [X1 [X2|X2]]; auto; discriminate).
  all: try (intro; destruct H1 as [X1 _]; auto; congruence).

Qed.

Theorem C60_during_search_partial : forall s, reachable ginit (lstep gstep) s -> g_panic s = false -> g_loop s = LRun ->
  g_rd s <> RdNil /\
  (g_rd s = RdSend -> (exists s', gstep s GPut = Some s' /\ g_rd s' = RdFree /\ g_panic s' = false) \/
                      (exists s1 s', gstep s GTake = Some s1 /\ gstep s1 GPut = Some s' /\ g_rd s' = RdFree /\ g_panic s' = false)).
Proof.
  intros s H Hp Hl. assert (I : I60 s).
  { revert s H Hp Hl. intros s H _ _. revert s H. apply reachable_inv.
    - intros s ->. unfold I60. cbn. repeat split; auto; discriminate.
    - intros s s' Hi [l Hs]. exact (I60_step s l s' Hi Hs). }
  destruct I as (I1 & I2 & I3 & I4). destruct (I1 Hl) as [Hc _].
  split; [intro E; exact (I4 E Hl)|]. intro E. destruct (N.lt_ge_cases (g_buf s) recvCap) as [B|B].
  - left. eexists. unfold gstep. rewrite Hp, E, Hc.
    destruct (N.ltb_spec (g_buf s) recvCap); [|lia]. split; [reflexivity|]. split; [reflexivity|exact Hp].
  - right. assert (B' : g_buf s = 32) by (unfold recvCap in *; lia).
    exists (withBuf s (g_buf s - 1) (g_rd s)). eexists. unfold gstep.
    cbn [withBuf g_panic g_rd g_ch g_buf]. rewrite Hp, Hl, E, Hc, B'.
    split; [reflexivity|]. split; [reflexivity|]. split; [reflexivity|exact Hp].
Qed.
Print Assumptions C60_during_search_partial.

(** 32 echoes fill the channel; the 33rd waits until one is taken. *)
Definition fill32 : list glabel := GKx true :: concat (repeat [GMsg (MPong 500 true); GPut] 32).
Example C60_example : exists s, exec gstep ng0 (fill32 ++ [GMsg (MPong 500 true)]) = Some s /\
  g_rd s = RdSend /\ gstep s GPut = None /\ exists s', exec gstep s [GTake; GPut] = Some s' /\ g_rd s' = RdFree.
Proof. eexists. split; [vm_compute; reflexivity|]. repeat split. eexists. split; vm_compute; reflexivity. Qed.

(** ** C61: negotiation on one side only *)

(** Without negotiation here, the peer's end message blocks the reader for ever
    although the session is Established. *)
Definition stageStuck (s : ng) : Prop := g_rd s = RdStage /\ g_fin s = FNone.
Lemma stage_stuck : forall s s', stageStuck s -> steps (lstep gstep) s s' -> stageStuck s'.
Proof.
  intros s s' H Hs. revert H. apply (steps_inv (lstep gstep) stageStuck); [|exact Hs].
  clear. intros s s' [H1 H2] [l Hl]. unfold stageStuck. gcases Hl; try congruence; auto.
Qed.
Theorem C61_disabled_side_blocks_refuted : forall rtt, exists s,
  exec gstep ng0 [GKx false; GMsg (MCtl rtt true)] = Some s /\ g_ok s = 1 /\
  forall s', steps (lstep gstep) s s' -> g_rd s' = RdStage.
Proof.
  intro rtt. eexists. split; [reflexivity|]. split; [reflexivity|].
  intros s' H. eapply stage_stuck in H; [exact (proj1 H)|]. split; reflexivity.
Qed.
Print Assumptions C61_disabled_side_blocks_refuted.

(** The side with negotiation gets no end message from such a peer, and without
    one it is never established. *)
Definition noEnd (l : glabel) : Prop := match l with GMsg (MCtl _ true) => False | _ => True end.
Definition I61 (s : ng) : Prop :=
  g_once s = false /\ g_rd s <> RdStage /\ g_est s = None /\ g_ok s = 0 /\
  match g_fin s with
  | FNone => g_kx s = 0
  | FWait k => g_kx s <> 0 /\ (k = b2n (isDone (g_loop s)))
  | FFinal => False
  | FDone => g_kx s <> 0
  end /\ (g_kx s = 0 -> g_loop s = LNone).
Lemma I61_step : forall s l s', noEnd l -> I61 s -> (g_kx s = 0 -> l <> GKx false) -> gstep s l = Some s' -> I61 s'.
Proof.
  intros s l s' Hn (A1 & A2 & A3 & A4 & A5 & A6) Hk H. unfold I61.
  gcases H; cbn [noEnd negb andb orb b2n isDone] in *; try congruence; try contradiction.
  all: try (destruct fin; cbn [andb orb noEnd] in *; [contradiction|]).
  all: try discriminate; auto.
  all: try (repeat match goal with |- _ /\ _ => split end; auto; try discriminate; try lia; try congruence; fail).
  all: try (exfalso; apply Hk; auto; fail).
  all: repeat match goal with |- _ /\ _ => split end; auto; try discriminate; try lia; try congruence.
  all: try (destruct fi; auto; try lia; destruct A5; split; auto; lia).
  all: try (destruct A5; subst; discriminate).
  all: intro E; specialize (A6 E); discriminate.
Qed.

Theorem C61_enabled_side_waits_refuted : forall ls s,
  Forall noEnd ls -> ~ In (GKx false) ls -> exec gstep ng0 ls = Some s -> g_est s = None /\ g_ok s = 0.
Proof.
  intros ls s Hn Hk H. enough (I : I61 s) by (destruct I as (_ & _ & A & B & _); auto).
  revert s H. induction ls as [|l ls IH] using rev_ind; intros s H.
  - injection H as <-. unfold I61, ng0. cbn. repeat split; auto; discriminate.
  - apply exec_snoc in H as (s1 & H1 & H2). apply Forall_app in Hn as [Hn1 Hn2]. inversion Hn2; subst.
    apply (I61_step s1 l s); auto.
    + apply IH; auto. intro Hi. apply Hk. apply in_or_app. auto.
    + intros _ ->. apply Hk. apply in_or_app. right. left. reflexivity.
Qed.
Print Assumptions C61_enabled_side_waits_refuted.

(** Weaker than C61: a peer that negotiates neither (no echo, no end message)
    blocks nobody; with negotiation disabled here the session is established by
    the first key exchange. *)
Definition quiet (l : glabel) : Prop := match l with GMsg (MCtl _ true) => False | GMsg (MPong _ _) => False | _ => True end.
Theorem C61_quiet_peer_partial : forall ls s, Forall quiet ls -> exec gstep ng0 ls = Some s ->
  (g_rd s = RdFree \/ g_rd s = RdClean \/ g_rd s = RdExit) /\ g_panic s = false /\
  (forall r, ls = GKx false :: r -> g_ok s >= 1).
Proof.
  intros ls s Hq H.
  assert (I : (g_rd s = RdFree \/ g_rd s = RdClean \/ g_rd s = RdExit) /\ g_panic s = false).
  { revert s H. induction ls as [|l ls IH] using rev_ind; intros s H.
    - injection H as <-. cbn. auto.
    - apply exec_snoc in H as (s1 & H1 & H2). apply Forall_app in Hq as [Hq1 Hq2]. inversion Hq2; subst.
      specialize (IH Hq1 s1 H1). destruct IH as [I1 I2]. revert I1 I2 H3 H2. clear. intros I1 I2 Q H.
      gcases H; cbn [quiet] in Q; try contradiction; try (split; auto; fail); try (destruct I1 as [|[|]]; discriminate).
      all: try (destruct fin; [contradiction|]; cbn in *; try discriminate; auto).
      }
  destruct I as [I1 I2]. split; [exact I1|]. split; [exact I2|].
  intros r ->. cbn [exec] in H. destruct (gstep ng0 (GKx false)) as [s1|] eqn:E; [|discriminate].
  vm_compute in E. injection E as <-.
  match type of H with exec gstep ?s0 _ = _ => assert (K : g_ok s0 >= 1) by (cbn; lia); revert K H; generalize s0 end.
  clear. induction r as [|l r IH]; intros s1 K H; cbn [exec] in H.
  - injection H as <-. exact K.
  - destruct (gstep s1 l) as [s2|] eqn:E; [|discriminate]. apply (IH s2); [|exact H].
    revert K E. clear. intros K H. gcases H; lia.
Qed.
Print Assumptions C61_quiet_peer_partial.

Example C61_example : exists s, exec gstep ng0 [GKx false; GMsg MPing; GMsg (MCtl 977 false); GKx false; GSessClose; GCleanup] = Some s /\
  g_ok s = 1 /\ g_rd s = RdExit.
Proof. eexists. split; [vm_compute; reflexivity|]. split; reflexivity. Qed.

(** ** C88: a negative read timeout, documented to switch the timeout off *)
Theorem C88_negative_read_timeout_refuted : forall opt w, (opt < 0)%Z -> (0 <= w)%Z -> readTimesOut opt w = true.
Proof. intros opt w H1 H2. unfold readTimesOut, readTimeoutUsed. apply Z.leb_le. lia. Qed.
Print Assumptions C88_negative_read_timeout_refuted.
(** Weaker: positive values mean what they say. *)
Theorem C88_positive_read_timeout_partial : forall opt w, (0 < opt)%Z -> (readTimesOut opt w = true <-> (opt <= w)%Z).
Proof. intros opt w H. unfold readTimesOut, readTimeoutUsed. apply Z.leb_le. Qed.
Print Assumptions C88_positive_read_timeout_partial.
Example C88_example : readTimesOut (-1) 0 = true /\ readTimesOut (60 * 10^9) (59 * 10^9) = false /\ readTimesOut (60 * 10^9) (60 * 10^9) = true.
Proof. vm_compute. auto. Qed.

(** ** C89: the total timeout, documented to fall back to the best size found *)
Definition gaveUp (s : ng) : Prop := g_fin s = FDone /\ g_est s = None /\ g_ok s = 0 /\ g_kx s <> 0.
Lemma gave_up : forall s s', gaveUp s -> steps (lstep gstep) s s' -> gaveUp s'.
Proof.
  intros s s' H Hs. revert H. apply (steps_inv (lstep gstep) gaveUp); [|exact Hs].
  clear. intros s s' (H1 & H2 & H3 & H4) [l Hl]. unfold gaveUp. gcases Hl; try congruence; repeat split; auto; lia.
Qed.
(** Echoes of 977 bytes arrived, the peer's too; then the timeout: no size is
    established, okFunc never runs, and no error has been reported. *)
Theorem C89_total_timeout_refuted : exists s,
  exec gstep ng0 [GKx true; GMsg (MPong 977 true); GPut; GTake; GMsg (MCtl 977 false); GCtx; GFinCtx] = Some s /\
  g_err s = 0 /\ g_sess s = false /\ g_local s = 977 /\ g_remote s = 977 /\
  forall s', steps (lstep gstep) s s' -> g_est s' = None /\ g_ok s' = 0.
Proof.
  eexists. split; [vm_compute; reflexivity|]. do 4 (split; [reflexivity|]).
  intros s' H. eapply gave_up in H; [destruct H as (_ & A & B & _); auto|]. repeat split; discriminate.
Qed.
Print Assumptions C89_total_timeout_refuted.

(** ** C90: the peer's end message before the local key exchange has succeeded *)
Theorem C90_early_end_blocks_refuted : forall rtt, exists s,
  exec gstep ng0 [GMsg (MCtl rtt true)] = Some s /\
  forall s', steps (lstep gstep) s s' -> g_rd s' = RdStage /\ g_starts s' = 0 /\ g_ok s' = 0.
Proof.
  intro rtt. eexists. split; [reflexivity|]. intros s' H.
  assert (G : g_rd s' = RdStage /\ g_fin s' = FNone /\ g_starts s' = 0 /\ g_ok s' = 0).
  2:{ destruct G as (A & _ & B & C). auto. }
  revert H. match goal with |- steps _ ?s0 _ -> _ => assert (K : g_rd s0 = RdStage /\ g_fin s0 = FNone /\ g_starts s0 = 0 /\ g_ok s0 = 0)
    by (repeat split); revert K; generalize s0 end.
  intros s0 K Hs. revert K.
  apply (steps_inv (lstep gstep) (fun s => g_rd s = RdStage /\ g_fin s = FNone /\ g_starts s = 0 /\ g_ok s = 0)); [|exact Hs].
  clear. intros s s' (H1 & H2 & H3 & H4) [l Hl]. gcases Hl; try congruence; auto.
Qed.
Print Assumptions C90_early_end_blocks_refuted.

(** Weaker: after Start on a side that negotiates, the end message is taken by
    the finalizer; the reader goes on. *)
Theorem C90_after_start_partial : forall s rtt, reachable ginit (lstep gstep) s ->
  g_panic s = false -> g_rd s = RdFree -> g_sess s = false -> (exists k, g_fin s = FWait k) ->
  exists s1, gstep s (GMsg (MCtl rtt true)) = Some s1 /\ g_remote s1 = rtt /\
    (g_rd s1 = RdFree \/ exists s2, gstep s1 GStageReader = Some s2 /\ g_rd s2 = RdFree).
Proof.
  intros s rtt _ Hp Hr Hs [k Hk]. eexists. unfold gstep at 1. rewrite Hp, Hr, Hs. split; [reflexivity|].
  cbn [handleMsg g_remote g_rd]. split; [reflexivity|].
  destruct (g_once s) eqn:E; cbn [andb negb orb].
  - left. exact Hr.
  - right. eexists. unfold gstep. cbn [g_panic g_rd g_fin]. rewrite Hp, Hk. split; reflexivity.
Qed.
Print Assumptions C90_after_start_partial.
Example C90_example : exists s, exec gstep ng0 [GKx true; GMsg (MCtl 977 true); GStageReader; GMsg (MCtl 977 true)] = Some s /\ g_rd s = RdFree /\ g_fin s = FWait 1.
Proof. eexists. split; [vm_compute; reflexivity|]. split; reflexivity. Qed.

(** ** C91: the established size is usable *)

(** Limits from 147 to 150: there is nothing to search for, no probe is sent, and
    both (honest) sides establish the size 0. *)
Definition runZero : list glab2 :=
  [GA (GKx true); GB (GKx true); GA (GLoopEnd true); GB (GLoopEnd true); GA (GMsg (MCtl 0 true)); GB (GMsg (MCtl 0 true));
   GA GStageReader; GA GStageLoop; GB GStageLoop; GB GStageReader; GA GFinalize; GB GFinalize].
Theorem C91_zero_size_refuted : forall limit path maxIter, 147 <= limit <= 150 -> exists s,
  exec (gstep2 path limit limit maxIter) gp0 runZero = Some s /\ g_est (gp_a s) = Some 0 /\ g_est (gp_b s) = Some 0.
Proof.
  intros limit path maxIter H.
  assert (P : pathSearch path limit maxIter = Some (true, 0)).
  { unfold pathSearch. assert (E : probeSizes negoMin limit = None).
    { assert (limit = 147 \/ limit = 148 \/ limit = 149 \/ limit = 150) as [->|[->|[->| ->]]] by lia; vm_compute; reflexivity. }
    destruct (N.to_nat maxIter); cbn [pathLoop]; rewrite E; reflexivity. }
  unfold runZero. eexists. split.
  - cbn [exec gstep2 mayDo]. cbn. rewrite P. cbn. reflexivity.
  - split; reflexivity.
Qed.
Print Assumptions C91_zero_size_refuted.
(** Weaker: where there is something to search for, the search sends probes, and
    a search that heard an echo establishes at least the smallest probe. *)
Theorem C91_probes_are_sent_partial : forall limit maxIter bests, 151 <= limit -> limit < 2^32 ->
  exists ps r, fst (search limit maxIter bests) = ps :: r /\ In 147 ps /\ In limit ps.
Proof.
  intros limit maxIter bests H1 H2.
  assert (E : sub32 limit negoMin = limit - 147).
  { unfold sub32, negoMin. replace (limit + (2 ^ 32 - 147)) with ((limit - 147) + 1 * 2 ^ 32) by lia.
    rewrite N.mod_add by lia. rewrite N.mod_small; lia. }
  assert (P : probeSizes negoMin limit = Some (map (probeSize 147 (limit - 147)) [3; 2; 1; 0])).
  { unfold probeSizes. rewrite E. destruct (N.leb_spec (limit - 147) 3); [lia|reflexivity]. }
  assert (S : probeSize 147 (limit - 147) 3 = limit).
  { unfold probeSize. rewrite probe_ceil.
    replace ((limit - 147) * 3 + 2) with (2 + (limit - 147) * 3) by lia.
    rewrite N.div_add by lia. change (2 / 3) with 0. unfold u32, add32.
    rewrite (N.mod_small (0 + _)) by lia. rewrite N.mod_small; lia. }
  assert (Z : probeSize 147 (limit - 147) 0 = 147).
  { unfold probeSize. rewrite N.mul_0_r. reflexivity. }
  cbn [map] in P. rewrite S, Z in P. unfold search.
  destruct bests as [|b bests]; cbn [searchFrom]; rewrite P.
  - eexists _, _. split; [reflexivity|]. cbn [In]. auto 6.
  - destruct (afterCollect limit maxIter 0 negoMin limit b) as [| |mn' mx'].
    + eexists _, _. split; [reflexivity|]. cbn [In]. auto 6.
    + eexists _, _. split; [reflexivity|]. cbn [In]. auto 6.
    + destruct (searchFrom limit maxIter (0 + 1) mn' mx' bests) as [q e]. eexists _, _. split; [reflexivity|]. cbn [In]. auto 6.
Qed.
Print Assumptions C91_probes_are_sent_partial.
Example C91_example : fst (search 151 4 []) = [[151; 150; 149; 147]].
Proof. vm_compute. reflexivity. Qed.

(** ** C92: closing a session that is negotiating *)
Definition closeStuck (s : ng) : Prop :=
  g_loop s = LStage /\ g_fin s = FDone /\ g_cl s = ClWait /\ g_rd s = RdClean /\ g_cancel s = false.
Lemma close_stuck : forall s s', closeStuck s -> steps (lstep gstep) s s' -> closeStuck s'.
Proof.
  intros s s' H Hs. revert H. apply (steps_inv (lstep gstep) closeStuck); [|exact Hs].
  clear. intros s s' (H1 & H2 & H3 & H4 & H5) [l Hl]. unfold closeStuck. gcases Hl; try congruence; auto.
Qed.
(** The reader waits for the ping loop, which waits to hand its result to the
    finalizer, which has returned: the session never gets to Closed. *)
Theorem C92_close_hangs_refuted : exists s,
  exec gstep ng0 [GKx true; GSessClose; GFinCtx; GLoopFail; GCleanup] = Some s /\
  forall s', steps (lstep gstep) s s' -> g_rd s' = RdClean.
Proof.
  eexists. split; [vm_compute; reflexivity|]. intros s' H.
  eapply close_stuck in H; [destruct H as (_ & _ & _ & A & _); exact A|]. repeat split.
Qed.
Print Assumptions C92_close_hangs_refuted.

(** Weaker: if the search has ended and been noticed (or was never started) by the
    time the session is closed, and the reader is in its loop, closing completes
    under every schedule. *)
Definition I92 (s : ng) : Prop :=
  (g_kx s = 0 -> g_cl s = ClNone /\ g_cancel s = false) /\ (g_cl s <> ClNone -> g_ctx s = true /\ g_cancel s = false) /\
  (g_rd s = RdClean -> g_cl s <> ClNone).
Lemma I92_step : forall s l s', I92 s -> gstep s l = Some s' -> I92 s'.
Proof.
  intros s l s' (H1 & H2 & H3) H. unfold I92. gcases H; (split; [|split]); intros; auto; try congruence; try lia.
  all: try (destruct H1 as [X1 X2]; auto; subst; discriminate).
  all: try (destruct (H1 eq_refl) as [X1 X2]; subst; congruence).
  all: try (destruct H2 as [X1 X2]; [congruence|subst; auto]; fail).
  all: try (rewrite orb_true_r; auto).
  all: try (apply H2 in H as [X1 X2]; subst; auto).
Qed.
Definition P92 (s : ng) : Prop :=
  I92 s /\ g_panic s = false /\ g_sess s = true /\ (g_loop s = LNone \/ g_loop s = LDone) /\
  (g_rd s = RdFree \/ g_rd s = RdClean \/ g_rd s = RdExit).
Definition M92 (s : ng) : nat :=
  ((if g_ctx s then 0 else 1) + (match g_fin s with FWait _ => 2 | FFinal => 1 | _ => 0 end) +
   (match g_cl s with ClNone => 3 | ClWait => 2 | ClShut => 1 | ClDone => 0 end) +
   (match g_rd s with RdFree => 2 | RdClean => 1 | _ => 0 end))%nat.
Theorem C92_close_completes_partial : forall s, reachable ginit (lstep gstep) s ->
  g_panic s = false -> g_sess s = true -> (g_loop s = LNone \/ g_loop s = LDone) ->
  (g_rd s = RdFree \/ g_rd s = RdClean \/ g_rd s = RdExit) ->
  surely (lstep gstep) (lstep gstep) (fun s => g_rd s = RdExit) s.
Proof.
  intros s H Hp Hs Hl Hr.
  assert (I : I92 s).
  { clear - H. revert s H. apply reachable_inv.
    - intros s ->. unfold I92. cbn. repeat split; auto; discriminate.
    - intros s s' Hi [l Hl]. exact (I92_step s l s' Hi Hl). }
  apply surely_by_measure with (I := P92) (m := M92).
  - clear. intros s s' (Hi & Hp & Hs & Hl & Hr) [l H]. pose proof (I92_step s l s' Hi H) as Hi'.
    assert (G : (g_panic s' = false /\ g_sess s' = true /\ (g_loop s' = LNone \/ g_loop s' = LDone) /\
      (g_rd s' = RdFree \/ g_rd s' = RdClean \/ g_rd s' = RdExit)) /\ (M92 s' < M92 s)%nat).
    { destruct Hi as (H1 & H2 & H3). clear Hi'. unfold M92.
      gcases H; try congruence; try (destruct Hl; congruence); try (destruct Hr as [|[|]]; congruence);
      (split; [repeat split; auto|]); try lia.
      all: try (destruct cx; lia).
      all: try (destruct cl; [destruct cx; lia|exfalso; destruct H2 as [_ X]; [discriminate|]; subst; cbn in *; discriminate ..]).
      all: try (destruct H2 as [X1 X2]; [discriminate|]; subst; lia).
      }
    split; [split; [exact Hi'|exact (proj1 G)]|exact (proj2 G)].
  - clear. intros s ((H1 & H2 & H3) & Hp & Hs & Hl & Hr).
    destruct Hr as [Hr|[Hr|Hr]].
    + right. eexists. exists GCleanup. unfold gstep. rewrite Hp, Hr, Hs. reflexivity.
    + right. specialize (H3 Hr). destruct (H2 H3) as [Hx _]. destruct (g_cl s) eqn:Ec; [congruence| | |].
      * destruct (g_fin s) as [|k| |] eqn:Ef.
        -- eexists. exists GCloseShut. unfold gstep. rewrite Hp, Ec, Ef. destruct Hl as [-> | ->]; reflexivity.
        -- eexists. exists GFinCtx. unfold gstep. rewrite Hp, Ef, Hx. reflexivity.
        -- eexists. exists GFinalize. unfold gstep. rewrite Hp, Ef. reflexivity.
        -- eexists. exists GCloseShut. unfold gstep. rewrite Hp, Ec, Ef. destruct Hl as [-> | ->]; reflexivity.
      * eexists. exists GCloseNil. unfold gstep. rewrite Hp, Ec. reflexivity.
      * eexists. exists GCleanupDone. unfold gstep. rewrite Hp, Hr, Ec. reflexivity.
    + left. exact Hr.
  - split; [exact I|auto].
Qed.
Print Assumptions C92_close_completes_partial.
Example C92_example : exists s, exec gstep ng0 [GKx true; GLoopEnd false; GStageLoop; GSessClose] = Some s /\
  g_loop s = LDone /\ g_rd s = RdFree /\ g_fin s = FWait 1 /\
  exists s', exec gstep s [GCleanup; GFinCtx; GCloseShut; GCloseNil; GCleanupDone] = Some s' /\ g_rd s' = RdExit.
Proof. eexists. split; [vm_compute; reflexivity|]. repeat split. eexists. split; vm_compute; reflexivity. Qed.
