(** Exact forms of C08 (grow-only mode), C59 (payload size) and C87 (session IDs). *)
From Coq Require Import NArith List Bool Lia Sorted Arith.
From Verif Require Import Base BaseLemmas TS.
From Verif Require Import PacketIDModel PacketIDSpec PacketIDProofs PacketIDRun.
From Verif Require Import NegoModel NegoProps SessionIDModel.
Import ListNotations.
Local Open Scope N_scope.

(** ** C08 *)

Lemma grow_exact : forall ids m, ids64 ids ->
  exists st vs, offer (Some {| latest := m; table := [] |}) ids = Ret (st, vs) /\ length vs = length ids /\
    forall i id v, nth_error ids i = Some id -> nth_error vs i = Some v ->
      (v = true <-> m < id /\ forall j e, (j < i)%nat -> nth_error ids j = Some e -> e < id).
Proof.
  induction ids as [|a ids IH]; intros m H.
  - eexists _, []. split; [reflexivity|]. split; [reflexivity|]. intros [|i]; discriminate.
  - inversion H; subst. cbn [offer checkAndRemember]. destruct (N.ltb_spec m a).
    + destruct (IH a H3) as (st & vs & E & L & X).
      assert (E1 : push {| latest := m; table := [] |} a = Ret ({| latest := a; table := [] |}, true)).
      { unfold push. cbn [latest table]. destruct (N.ltb_spec m a); [auto|lia]. }
      rewrite E1, E. exists st, (true :: vs). split; [reflexivity|]. split; [cbn; lia|]. intros [|i] id v Hi Hv; cbn [nth_error] in *.
      * injection Hi as <-. injection Hv as <-. split; [|reflexivity]. intros _. split; [assumption|]. intros j e Hj. lia.
      * rewrite (X i id v Hi Hv). split.
        -- intros [A B]. split; [lia|]. intros [|j] e Hj He; cbn [nth_error] in He; [injection He as <-; exact A|].
           apply (B j e); [lia|exact He].
        -- intros [A B]. split; [apply (B 0%nat a); [lia|reflexivity]|]. intros j e Hj He. apply (B (S j) e); [lia|exact He].
    + destruct (IH m H3) as (st & vs & E & L & X).
      rewrite push_stale by (unfold win, len; cbn [latest table]; simpl length; lia).
      rewrite E. exists st, (false :: vs). split; [reflexivity|]. split; [cbn; lia|]. intros [|i] id v Hi Hv; cbn [nth_error] in *.
      * injection Hi as <-. injection Hv as <-. split; [discriminate|]. intros [A _]. lia.
      * rewrite (X i id v Hi Hv). split; intros [A B]; (split; [exact A|]).
        -- intros [|j] e Hj He; cbn [nth_error] in He; [injection He as <-; lia|]. apply (B j e); [lia|exact He].
        -- intros j e Hj He. apply (B (S j) e); [lia|exact He].
Qed.

(** A packet is accepted exactly if its ID is not 0 and greater than those of
    all the packets that were offered before, accepted or not. *)
Theorem C08_exactly : forall ids, ids64 ids ->
  exists st vs, offer (sessionStorage (Size 1)) ids = Ret (st, vs) /\ length vs = length ids /\
    forall i id v, nth_error ids i = Some id -> nth_error vs i = Some v ->
      (v = true <-> 0 < id /\ forall j e, (j < i)%nat -> nth_error ids j = Some e -> e < id).
Proof. intros ids H. exact (grow_exact ids 0 H). Qed.
Print Assumptions C08_exactly.

Example C08_exactly_example : exists st, offer (sessionStorage (Size 1)) [0; 4; 2; 4; 9; 8; 10] =
  Ret (st, [false; true; false; false; true; false; true]).
Proof. eexists. vm_compute. reflexivity. Qed.

(** ** C59 *)

Lemma largest_bound : forall n ls, Forall (fun l => echoSize l <= n) ls -> largestEcho ls <= n.
Proof. intros n ls H. induction H; cbn [largestEcho fold_right]; [lia|]. fold (largestEcho l). lia. Qed.

(** Weaker than C59: a peer that only echoes. Every echo that arrives has the
    size of one of the probes this side has sent; the largest echoes the search
    saw grow and are within the limit. *)
Theorem C59_honest_partial : forall limit maxIter bests ls s v,
  147 <= limit -> limit < 2^30 -> LocallySorted N.le (147 :: bests) -> Forall (fun b => b <= limit) bests ->
  Forall (fun l => echoSize l = 0 \/ In (echoSize l) (concat (fst (search limit maxIter bests)))) ls ->
  exec gstep ng0 ls = Some s -> g_est s = Some v -> v <= limit.
Proof.
  intros limit maxIter bests ls s v H1 H2 Hs Hb He E Ev.
  pose proof (C57_within_limit_partial limit maxIter bests H1 H2 Hs Hb) as W.
  pose proof (C59_at_most_largest_echo_partial ls s v E Ev) as M.
  assert (B : largestEcho ls <= limit); [|lia].
  apply largest_bound. eapply Forall_impl; [|exact He]. cbn beta. intros l [Z|I]; [lia|].
  apply in_concat in I as (ps & Ip & Is). rewrite Forall_forall in W. specialize (W ps Ip). rewrite Forall_forall in W.
  destruct (W _ Is) as [[_ L] _]. exact L.
Qed.
Print Assumptions C59_honest_partial.

(** The premises are met by the run of [C59_example]. *)
Example C59_honest_example :
  let ls := [GKx true; GMsg (MPong 562 true); GPut; GMsg (MPong 977 true); GPut; GMsg (MPong 1392 false); GTake; GTake; GLoopEnd true; GStageLoop;
   GMsg (MCtl 700 false); GMsg (MCtl 1392 true); GStageReader; GFinalize] in
  Forall (fun l => echoSize l = 0 \/ In (echoSize l) (concat (fst (search 1392 4 [977; 1116; 1163; 1195])))) ls /\
  exists s, exec gstep ng0 ls = Some s /\ g_est s = Some 977.
Proof.
  split; [|eexists; split; [vm_compute; reflexivity|reflexivity]].
  repeat (constructor; [first [left; reflexivity|right; vm_compute; tauto]|]). constructor.
Qed.

(** ** C87 *)

(** The loop has not ended exactly if every reading so far was the last stamp. *)
Theorem C87_exactly : forall prev readings, sidGet prev readings = None <-> Forall (fun t => t mod 2^64 = prev) readings.
Proof.
  intros prev. induction readings as [|t readings IH]; cbn [sidGet]; [split; auto|].
  destruct (N.eqb_spec (u64 t) prev) as [E|E]; cbn [negb].
  - rewrite IH. split; intros H; [constructor; [exact E|exact H]|inversion H; assumption].
  - split; [discriminate|]. intros H. inversion H; subst. contradiction.
Qed.
Print Assumptions C87_exactly.

(** And if it ends: at the first other reading, with this reading if it is
    later than the last stamp and with the successor of the last stamp if not. *)
Theorem C87_result : forall prev readings at_ rest, prev + 1 < 2^64 -> sidGet prev readings = Some (at_, rest) <->
  exists same t, readings = same ++ t :: rest /\ Forall (fun t => t mod 2^64 = prev) same /\ t mod 2^64 <> prev /\
    (prev < t mod 2^64 /\ at_ = t mod 2^64 \/ t mod 2^64 < prev /\ at_ = prev + 1).
Proof.
  intros prev readings at_ rest Hp. revert at_ rest. induction readings as [|t readings IH]; intros at_ rest; cbn [sidGet].
  - split; [discriminate|]. intros (same & t & E & _). destruct same; discriminate.
  - destruct (N.eqb_spec (u64 t) prev) as [E|E]; cbn [negb].
    + rewrite IH. split.
      * intros (same & x & -> & F & N & C). exists (t :: same), x. split; [reflexivity|]. split; [constructor; [exact E|exact F]|]. auto.
      * intros (same & x & Eq & F & N & C). destruct same as [|y same]; cbn [app] in Eq; injection Eq as -> ->; [contradiction|].
        exists same, x. split; [reflexivity|]. split; [inversion F; assumption|]. auto.
    + split.
      * intros H. injection H as <- <-. exists [], t. split; [reflexivity|]. split; [constructor|]. split; [exact E|].
        fold (u64 t). destruct (N.leb_spec (u64 t) prev); [right|left].
        -- split; [lia|]. unfold u64. apply N.mod_small. exact Hp.
        -- split; [assumption|reflexivity].
      * intros (same & x & Eq & F & N & C). destruct same as [|y same]; cbn [app] in Eq; injection Eq as -> ->.
        -- f_equal. f_equal. fold (u64 x) in C. destruct (N.leb_spec (u64 x) prev); destruct C as [[C1 C2]|[C1 C2]]; try lia.
           rewrite C2. unfold u64. apply N.mod_small. exact Hp.
        -- inversion F; subst. contradiction.
Qed.
Print Assumptions C87_result.

Example C87_result_example : sidGet 101 [101; 101; 99; 250] = Some (102, [250]) /\ sidGet 101 [101; 250; 7] = Some (250, [7]).
Proof. split; reflexivity. Qed.
