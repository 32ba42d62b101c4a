(** Properties C32, C33, C34, C37, C74, C75, C76: session states. *)
From Coq Require Import NArith List Bool Lia Arith.
From Verif Require Import Base BaseLemmas TS ReaderModel ReaderLoopModel StateModel.
Import ListNotations.
Local Open Scope N_scope.

(** ** C32.  The life cycle: New -> KeyExchanging -> Negotiating -> Established
    <-> Paused, from everywhere to Closing or Closed, from Closing to Closed. *)
Inductive st := New | Closed | KeyExchanging | Negotiating | Established | Paused | Closing.
Definition code (s : st) : N :=
  match s with New => 0 | Closed => 1 | KeyExchanging => 2 | Negotiating => 3 | Established => 4 | Paused => 5 | Closing => 6 end.
Definition mayBecome (a b : st) : bool :=
  match a, b with
  | New, KeyExchanging | KeyExchanging, Negotiating | Negotiating, Established
  | Established, Paused | Paused, Established => true
  | New, Closing => true
  | (KeyExchanging | Negotiating | Established | Paused), (Closing | Closed) => true
  | Closing, Closed => true
  | _, _ => false
  end.

Notation reachableL := (reachable (fun s => s = initLife) (lstep lifestep)).

(** Which states fit the progress of the other goroutines. *)
Definition fits (pc neg : N) (connected : bool) (x : N) : Prop :=
  (pc <= 2 -> x = 0 \/ x = 6) /\ (3 <= pc -> x <> 0) /\
  (neg <= 1 -> x = 0 \/ x = 1 \/ x = 2 \/ x = 6) /\
  (2 <= neg -> connected = false -> x = 3 \/ x = 1 \/ x = 6) /\
  (connected = true -> neg = 3 /\ (x = 4 \/ x = 5 \/ x = 1 \/ x = 6)).

Record linv (s : life) : Prop := {
  l_fits : fits (lPc s) (lNeg s) (lConnected s) (lState s);
  l_pc : lPc s <= 5;
  l_neg : lNeg s <= 3 /\ (1 <= lNeg s -> 3 <= lPc s /\ 1 <= lKxCount s) /\ (lNeg s = 0 -> lKxCount s = 0);
  l_rd : lReader s <> LrNone -> lPc s = 5;
  l_kx : lKx s = true -> 4 <= lPc s;
  l_calls : forall t, lCalls s t = CCEntered \/ lCalls s t = CCReturned true ->
              (lState s = 1 \/ lState s = 6) /\
              forall t', lCalls s t' = CCEntered \/ lCalls s t' = CCReturned true -> t' = t
}.

Lemma fits_range : forall pc neg c x, fits pc neg c x -> x = 0 \/ x = 1 \/ x = 2 \/ x = 3 \/ x = 4 \/ x = 5 \/ x = 6.
Proof.
  intros pc neg c x (H1 & H2 & H3 & H4 & H5). destruct c.
  - destruct (H5 eq_refl) as [_ H]. intuition.
  - destruct (N.le_gt_cases neg 1) as [K|K]; [apply H3 in K|assert (K' : 2 <= neg) by lia; specialize (H4 K' eq_refl)]; intuition.
Qed.

Definition edge (a b : N) : Prop := exists x y, code x = a /\ code y = b /\ (x = y \/ mayBecome x y = true).
Lemma edge_refl : forall a, (a = 0 \/ a = 1 \/ a = 2 \/ a = 3 \/ a = 4 \/ a = 5 \/ a = 6) -> edge a a.
Proof.
  intros a H. unfold edge. destruct H as [->|[->|[->|[->|[->|[->| ->]]]]]];
  [exists New, New|exists Closed, Closed|exists KeyExchanging, KeyExchanging|exists Negotiating, Negotiating|exists Established, Established
  |exists Paused, Paused|exists Closing, Closing]; auto.
Qed.

Ltac fit := unfold fits in *;
  repeat match goal with b : bool |- _ => destruct b end;
  match goal with
  | F : context[lConnected ?s = true] |- _ =>
      try match goal with E : lConnected s = _ |- _ => rewrite E in F; clear E end;
      revert F; destruct (lConnected s); intros F; lia
  | _ => lia
  end.

Lemma to_closing : forall pc neg c x, fits pc neg c x ->
  let y := fst (setState x SessionStateClosing [SessionStateClosed]) in
  fits pc neg c y /\ edge x y /\ (y = 1 \/ y = 6).
Proof.
  intros pc neg c x H. pose proof (fits_range _ _ _ _ H) as R. cbn zeta.
  assert (G : x = 1 \/ x <> 1) by lia. unfold setState, memN, SessionStateClosed, SessionStateClosing. cbn [fst existsb].
  destruct G as [->|G].
  - cbn. split; [exact H|]. split; [apply edge_refl; auto|auto].
  - assert (E : (x =? 1) = false) by (apply N.eqb_neq; exact G). rewrite E. cbn [orb].
    split; [|split; [|auto]].
    + fit.
    + unfold edge. destruct R as [->|[->|[->|[->|[->|[->| ->]]]]]]; try (now contradiction G).
      * exists New, Closing; auto.
      * exists KeyExchanging, Closing; auto.
      * exists Negotiating, Closing; auto.
      * exists Established, Closing; auto.
      * exists Paused, Closing; auto.
      * exists Closing, Closing; auto.
Qed.

Lemma to_closed : forall pc neg c x, fits pc neg c x -> pc = 5 -> fits pc neg c 1 /\ edge x 1.
Proof.
  intros pc neg c x H ->. pose proof (fits_range _ _ _ _ H) as R. split.
  - fit.
  - assert (x <> 0) by fit. unfold edge. destruct R as [->|[->|[->|[->|[->|[->| ->]]]]]]; try congruence.
    + exists Closed, Closed; auto.
    + exists KeyExchanging, Closed; auto.
    + exists Negotiating, Closed; auto.
    + exists Established, Closed; auto.
    + exists Paused, Closed; auto.
    + exists Closing, Closed; auto.
Qed.

Lemma pause_fits : forall pc neg c x b, fits pc neg c x ->
  let y := fst (setPauseState x b) in fits pc neg c y /\ edge x y /\ (x = 1 \/ x = 6 -> y = x).
Proof.
  intros pc neg c x b H. pose proof (fits_range _ _ _ _ H) as R. cbn zeta.
  destruct R as [->|[->|[->|[->|[->|[->| ->]]]]]]; destruct b; vm_compute setPauseState; cbn [fst];
    try (split; [exact H|split; [apply edge_refl; auto 10|auto]]).
  - split; [|split; [exists Established, Paused; auto|intros [K|K]; discriminate]].
    fit.
  - split; [|split; [exists Paused, Established; auto|intros [K|K]; discriminate]].
    fit.
Qed.

Lemma init_linv : linv initLife.
Proof.
  constructor; cbn [lPc lState lNeg lConnected lReader lKx lKxCount lCalls initLife]; try fit; try tauto; try discriminate.
  - unfold fits, SessionStateNew. lia.
  - intros t [K|K]; discriminate.
Qed.

(** Every step keeps the invariant and moves along the life cycle. *)
Ltac linv_tac D X Hcalls :=
  constructor; cbn [lPc lState lNeg lConnected lReader lKx lKxCount lCalls withCtx withPc withPanic withKx withState withNeg
                    withConnected withReader withCloser withCall setTo]; auto;
  try fit; try (intros KK; apply D in KK; lia); try (intros KK; apply X in KK; lia); try (apply Hcalls; lia).

Lemma life_step : forall s l s', linv s -> lifestep s l = Some s' -> linv s' /\ edge (lState s) (lState s').
Proof.
  intros s l s' I H. pose proof (fits_range _ _ _ _ (l_fits _ I)) as R.
  pose proof (l_fits _ I) as F. pose proof (l_pc _ I) as P. pose proof (l_neg _ I) as G.
  pose proof (l_rd _ I) as D. pose proof (l_kx _ I) as X. pose proof (l_calls _ I) as C.
  unfold lifestep in H. destruct (lPanic s); [discriminate|].
  assert (Hcalls : forall x, (lState s = 1 \/ lState s = 6 -> x = 1 \/ x = 6) ->
     forall t, lCalls s t = CCEntered \/ lCalls s t = CCReturned true ->
       (x = 1 \/ x = 6) /\ forall t', lCalls s t' = CCEntered \/ lCalls s t' = CCReturned true -> t' = t).
  { intros x Hx t Ht. destruct (C t Ht) as [C1 C2]. auto. }
  destruct l.
  - (* LStart *) destruct (N.eqb_spec (lPc s) 0); injection H as <-; [|split; [exact I|apply edge_refl; auto]].
    split; [|apply edge_refl; auto]. linv_tac D X Hcalls.
  - (* LNegotiator *) destruct (N.eqb_spec (lPc s) 1); [|discriminate].
    destruct (lCtx s); injection H as <-; (split; [|apply edge_refl; auto]);
      linv_tac D X Hcalls.
  - (* LKxState *) destruct (N.eqb_spec (lPc s) 2) as [E|]; [|discriminate].
    assert (S : lState s = 0 \/ lState s = 6) by fit.
    destruct S as [S|S]; rewrite S in H; vm_compute (setState _ _ _) in H; cbn [memN existsb] in H;
      vm_compute (_ || _) in H; injection H as <-.
    + split; [|rewrite S; cbn; exists New, KeyExchanging; auto].
      linv_tac D X Hcalls.
    + split; [|rewrite S; cbn; exists Closing, Closing; auto].
      linv_tac D X Hcalls.
  - (* LKxBuild *) destruct (N.eqb_spec (lPc s) 3); [|discriminate].
    destruct (lCtx s); injection H as <-; (split; [|apply edge_refl; auto]);
      linv_tac D X Hcalls.
  - (* LRun *) destruct (N.eqb_spec (lPc s) 4); [|discriminate]. injection H as <-. split; [|apply edge_refl; auto].
    linv_tac D X Hcalls.
  - (* LCtxDone *) destruct (lPc s =? 0); [discriminate|]. injection H as <-. split; [|apply edge_refl; auto].
    linv_tac D X Hcalls.
  - (* LKxSuccess *) destruct (N.leb_spec 3 (lPc s)); [|discriminate].
    destruct (_ && _); [|discriminate].
    destruct (N.eqb_spec (lKxCount s) 0); injection H as <-; (split; [|apply edge_refl; auto]);
      linv_tac D X Hcalls.
  - (* LNegState *) destruct (N.eqb_spec (lNeg s) 1); [|discriminate]. injection H as <-.
    assert (S : lState s = 1 \/ lState s = 2 \/ lState s = 6) by fit.
    destruct S as [S|[S|S]]; unfold setTo; rewrite S; vm_compute (fst _);
      (split; [linv_tac D X Hcalls|]);
      cbn [lState withNeg withState]; [exists Closed, Closed|exists KeyExchanging, Negotiating|exists Closing, Closing]; auto.
  - (* LNegStart *) destruct (N.eqb_spec (lNeg s) 2); [|discriminate]. injection H as <-. split; [|apply edge_refl; auto].
    linv_tac D X Hcalls.
  - (* LConnect *) destruct (N.eqb_spec (lNeg s) 3); [|discriminate].
    destruct (lConnected s) eqn:Ec; [discriminate|]. injection H as <-.
    assert (S : lState s = 1 \/ lState s = 3 \/ lState s = 6) by fit.
    destruct S as [S|[S|S]]; unfold setTo; rewrite S; vm_compute (fst _);
      (split; [linv_tac D X Hcalls|]);
      cbn [lState withConnected withState]; [exists Closed, Closed|exists Negotiating, Established|exists Closing, Closing]; auto.
  - (* LPause *) injection H as <-. destruct (pause_fits _ _ _ _ newValue F) as (F' & E' & Q). split; [|exact E'].
    linv_tac D X Hcalls.
  - (* LBackendCloser *) destruct ((lPc s =? 5) && lCtx s && negb (lCloser s)); [|discriminate]. injection H as <-.
    destruct (to_closing _ _ _ _ F) as (F' & E' & Q). split; [|exact E'].
    linv_tac D X Hcalls.
  - (* LReaderExit *) destruct (lReader s) eqn:Er; try discriminate.
    assert (P5 : lPc s = 5) by (apply D; discriminate).
    destruct (memN _ _); injection H as <-; (split; [|apply edge_refl; auto]);
      linv_tac D X Hcalls.
  - (* LReaderClosing *) destruct (lReader s) eqn:Er; try discriminate. injection H as <-.
    assert (P5 : lPc s = 5) by (apply D; discriminate).
    destruct (to_closing _ _ _ _ F) as (F' & E' & Q). split; [|exact E'].
    linv_tac D X Hcalls.
  - (* LReaderClosed *) destruct (lReader s) eqn:Er; try discriminate. injection H as <-.
    assert (P5 : lPc s = 5) by (apply D; discriminate).
    destruct (to_closed _ _ _ _ F P5) as (F' & E'). split; [|exact E'].
    linv_tac D X Hcalls.
  - (* LClose *) destruct (lCalls s t) eqn:Et; try discriminate.
    destruct (to_closing _ _ _ _ F) as (F' & E' & Q).
    unfold setState in H. cbn zeta in H.
    change (if memN (lState s) [SessionStateClosed] then lState s else SessionStateClosing)
      with (fst (setState (lState s) SessionStateClosing [SessionStateClosed])) in H.
    set (y := fst (setState (lState s) SessionStateClosing [SessionStateClosed])) in *. clearbody y.
    destruct (memN (lState s) [SessionStateClosed; SessionStateClosing]) eqn:Em; injection H as <-; (split; [|exact E']);
      linv_tac D X Hcalls.
    + intros t1. unfold fupd. destruct (Nat.eqb_spec t1 t); [intros [K|K]; discriminate|]. intros K.
      destruct (C t1 K) as [C1 C2]. split; auto. intros t2. destruct (Nat.eqb_spec t2 t); [intros [K2|K2]; discriminate|]. apply C2.
    + assert (Hlive : ~ (lState s = 1 \/ lState s = 6)).
      { intros [K|K]; rewrite K in Em; discriminate. }
      intros t1 K1. split; auto. intros t2 K2. unfold fupd in *.
      destruct (Nat.eqb_spec t1 t); destruct (Nat.eqb_spec t2 t); try congruence;
        exfalso; apply Hlive; first [apply (C t2 K2)|apply (C t1 K1)].
  - (* LCloseGo *) destruct (lCalls s t) as [| |[|]]; try discriminate; destruct (lKx s) eqn:Ek; injection H as <-;
      (split; [|apply edge_refl; auto]); auto;
      linv_tac D X Hcalls; intros; congruence.
  - (* LCloseRet *) destruct (lCalls s t) eqn:Et; try discriminate.
    destruct (lPc s =? 0); injection H as <-; (split; [|apply edge_refl; auto]);
      linv_tac D X Hcalls.
    intros t1 K1. unfold fupd in *.
    assert (K1' : lCalls s t1 = CCEntered \/ lCalls s t1 = CCReturned true) by (destruct (Nat.eqb_spec t1 t); [subst; auto|auto]).
    destruct (C t1 K1') as [C1 C2]. split; auto. intros t2 K2.
    apply C2. destruct (Nat.eqb_spec t2 t); [subst; auto|auto].
Qed.

Lemma life_inv : forall s, reachableL s -> linv s.
Proof.
  apply reachable_inv.
  - intros s ->. exact init_linv.
  - intros s s' I (l & H). exact (proj1 (life_step s l s' I H)).
Qed.

Theorem C32_life_cycle : forall s s', reachableL s -> lstep lifestep s s' ->
  exists a b, code a = lState s /\ code b = lState s' /\ (a = b \/ mayBecome a b = true).
Proof. intros s s' H (l & Hl). exact (proj2 (life_step s l s' (life_inv s H) Hl)). Qed.
Print Assumptions C32_life_cycle.

(** Closed is for ever, and Closing only leads to Closed. *)
Theorem C32_no_resurrection : forall s s', reachableL s -> steps (lstep lifestep) s s' ->
  (lState s = code Closed -> lState s' = code Closed) /\
  (lState s = code Closing -> lState s' = code Closing \/ lState s' = code Closed).
Proof.
  intros s s' H Hs. induction Hs as [s|s s1 s2 H1 Hs IH]; [auto|].
  specialize (IH (reach_step _ _ _ _ H H1)). destruct IH as [IH1 IH2].
  destruct (C32_life_cycle s s1 H H1) as (a & b & Ea & Eb & E).
  split; intros K; rewrite K in Ea.
  - assert (a = Closed) by (destruct a; cbn in Ea; congruence). subst a.
    apply IH1. rewrite <- Eb. destruct E as [<-|E]; [reflexivity|destruct b; discriminate].
  - assert (a = Closing) by (destruct a; cbn in Ea; congruence). subst a.
    destruct E as [<-|E]; [auto|]. destruct b; try discriminate. right. apply IH1. auto.
Qed.
Print Assumptions C32_no_resurrection.

Theorem C32_established_after_key_exchange : forall s, reachableL s ->
  lState s = code Established \/ lState s = code Paused -> 1 <= lKxCount s /\ lConnected s = true.
Proof.
  intros s H K. apply life_inv in H. pose proof (l_fits _ H) as F. pose proof (l_neg _ H) as G. cbn in K.
  destruct (lConnected s) eqn:E; unfold fits in F; try rewrite E in F; lia.
Qed.
Print Assumptions C32_established_after_key_exchange.

Definition liveRun : list llabel :=
  [LStart false; LNegotiator; LKxState; LKxBuild; LRun; LKxSuccess; LNegState; LNegStart; LConnect; LPause true; LPause false].
Definition stateAfter (ls : list llabel) : option (N * bool) :=
  match exec lifestep initLife ls with Some s => Some (lState s, lPanic s) | None => None end.
Example C32_example : (* a whole life *)
  map (fun n => stateAfter (firstn n liveRun)) [0; 3; 7; 9; 10; 11]%nat =
    map (fun x => Some (code x, false)) [New; KeyExchanging; Negotiating; Established; Paused; Established] /\
  stateAfter (liveRun ++ [LClose 0; LKxSuccess; LPause true; LCloseRet 0; LReaderExit; LReaderClosing; LReaderClosed; LBackendCloser])
    = Some (code Closed, false).
Proof. vm_compute. auto. Qed.

(** ** C33 *)

Notation reachableW awaited st0 := (reachable (fun s => s = initWait st0) (lstep (waitstep awaited))).

Definition winv (awaited : list N) (s : waitSt) : Prop :=
  match wWaiter s with
  | WStart => True
  | WHasChan c => (c <= wChan s)%nat
  | WSelect c ld => (c <= wChan s)%nat /\ memN ld awaited = false /\ (c = wChan s -> wSetting s = false -> ld = wState s)
  | WReturned st byCtx => if byCtx then wCtx s = true else memN st awaited = true
  end.

Lemma wait_inv : forall awaited st0 s, reachableW awaited st0 s -> winv awaited s.
Proof.
  intros awaited st0. apply reachable_inv; [intros s ->; exact Logic.I|]. intros s s' I (l & H). unfold winv in *.
  destruct l; cbn [waitstep] in H.
  - destruct (wSetting s) eqn:E; [discriminate|]. destruct (memN (wState s) cancel); injection H as <-; [rewrite E; exact I|].
    cbn [wWaiter wChan wSetting wCtx wState]. destruct (wWaiter s) as [| | |? []]; auto. destruct I as (A & B & C). repeat split; auto. discriminate.
  - destruct (wSetting s); [|discriminate]. injection H as <-. cbn [wWaiter wChan wSetting wCtx wState].
    destruct (wWaiter s) as [| | |? []]; auto. destruct I as (A & B & C). repeat split; auto. lia.
  - injection H as <-. cbn [wWaiter wChan wSetting wCtx wState]. destruct (wWaiter s) as [| | |? []]; auto.
  - destruct (wWaiter s) as [|c|c ld|] eqn:E.
    + destruct (wSetting s); [discriminate|]. injection H as <-. cbn. lia.
    + injection H as <-. cbn [wWaiter wChan wSetting wCtx wState]. destruct (memN (wState s) awaited) eqn:Em; auto.
    + destruct (Nat.ltb c (wChan s)); [|discriminate]. injection H as <-. exact Logic.I.
    + discriminate.
  - destruct (wWaiter s) as [|c|c ld|] eqn:E; try discriminate. destruct (wCtx s) eqn:Ec; [|discriminate].
    injection H as <-. cbn. first [exact Ec|reflexivity].
Qed.

(** It returns only an awaited state, or after its context is done. *)
Theorem C33_result : forall awaited st0 s st byCtx, reachableW awaited st0 s -> wWaiter s = WReturned st byCtx ->
  if byCtx then wCtx s = true else In st awaited.
Proof.
  intros awaited st0 s st byCtx H E. apply wait_inv in H. unfold winv in H. rewrite E in H.
  destruct byCtx; auto. unfold memN in H. apply existsb_exists in H. destruct H as (x & Hx & Ex). apply N.eqb_eq in Ex. subst. exact Hx.
Qed.
Print Assumptions C33_result.

(** From every moment on in which the session is in an awaited state and no Set
    is half way, if no other state is set, the call returns after at most three
    of its own steps, whichever of them the scheduler picks. *)
Definition waiterStep (awaited : list N) (s s' : waitSt) : Prop :=
  waitstep awaited s WLStep = Some s' \/ waitstep awaited s WLByCtx = Some s'.
Theorem C33_returns : forall awaited st0 s, reachableW awaited st0 s -> wSetting s = false -> In (wState s) awaited ->
  always_ends (waiterStep awaited) (fun s' => exists st b, wWaiter s' = WReturned st b) s.
Proof.
  intros awaited st0 s H Hs Ha.
  assert (Hm : forall s1, wState s1 = wState s -> memN (wState s1) awaited = true).
  { intros s1 E. unfold memN. apply existsb_exists. exists (wState s). split; auto. rewrite E. apply N.eqb_refl. }
  apply (ends_by_measure (waiterStep awaited)
           (fun s1 => winv awaited s1 /\ wSetting s1 = false /\ wState s1 = wState s) _
           (fun s1 => match wWaiter s1 with WSelect _ _ => 3 | WStart => 2 | WHasChan _ => 1 | WReturned _ _ => 0 end%nat)).
  - intros s1 s2 (I1 & I2 & I3) [K|K]; cbn [waitstep] in K.
    + unfold winv in *. destruct (wWaiter s1) as [|c|c ld|] eqn:E.
      * rewrite I2 in K. injection K as <-. cbn. repeat split; auto.
      * rewrite (Hm s1 I3) in K. injection K as <-. cbn. repeat split; auto. 
      * destruct (Nat.ltb c (wChan s1)); [|discriminate]. injection K as <-. cbn. repeat split; auto.
      * discriminate.
    + unfold winv in *. destruct (wWaiter s1) as [|c|c ld|] eqn:E; try discriminate.
      destruct (wCtx s1) eqn:Ec; [|discriminate]. injection K as <-. cbn. repeat split; auto.
  - intros s1 (I1 & I2 & I3). unfold winv in I1. destruct (wWaiter s1) as [|c|c ld|st b] eqn:E.
    + left. eexists. left. cbn [waitstep]. rewrite E, I2. reflexivity.
    + left. eexists. left. cbn [waitstep]. rewrite E. reflexivity.
    + destruct I1 as (A & B & C). left. eexists. left. cbn [waitstep]. rewrite E.
      replace (Nat.ltb c (wChan s1)) with true; [reflexivity|]. symmetry. apply Nat.ltb_lt.
      destruct (Nat.eq_dec c (wChan s1)) as [Ec|]; [|lia]. specialize (C Ec I2). rewrite C, (Hm s1 I3) in B. discriminate.
    + right. split; [|eauto]. intros s2 [K|K]; cbn [waitstep] in K; rewrite E in K; discriminate.
  - split; [exact (wait_inv _ _ _ H)|auto].
Qed.
Print Assumptions C33_returns.

Example C33_example : (* a state change between reading the channel and the state, and between reading the state and waiting *)
  exec (waitstep [4]) (initWait 0) [WLStep; WLSet 2 []; WLStep; WLSwap; WLStep; WLStep; WLStep; WLSet 4 []; WLSwap; WLStep; WLStep; WLStep]
  = Some {| wState := 4; wChan := 2; wSetting := false; wCtx := false; wWaiter := WReturned 4 false |}.
Proof. vm_compute. reflexivity. Qed.

(** ** C34 *)
Theorem C34_pause_only_from_documented : forall s newValue,
  let (after, result) := setPauseState (code s) newValue in
  (result = true <-> (newValue = true /\ s = Established) \/ (newValue = false /\ s = Paused)) /\
  (result = true -> after = code (if newValue then Paused else Established)) /\
  (result = false -> after = code s) /\
  (forall interruptErr, result = false -> setPauseError result newValue interruptErr = true) /\
  (result = true -> setPauseError result newValue false = false).
Proof.
  intros s newValue. destruct s, newValue; vm_compute; intuition (try discriminate; auto).
Qed.
Print Assumptions C34_pause_only_from_documented.

Theorem C34_in_a_running_session : forall s s' b, reachableL s -> lifestep s (LPause b) = Some s' ->
  lState s' <> lState s -> (b = true /\ lState s = code Established /\ lState s' = code Paused) \/
                           (b = false /\ lState s = code Paused /\ lState s' = code Established).
Proof.
  intros s s' b H Hs Hne. apply life_inv in H. pose proof (fits_range _ _ _ _ (l_fits _ H)) as R.
  unfold lifestep in Hs. destruct (lPanic s); [discriminate|]. injection Hs as <-. cbn [lState withState] in *.
  destruct b, R as [R|[R|[R|[R|[R|[R|R]]]]]]; rewrite R in *; vm_compute in Hne |- *; try congruence; auto.
Qed.
Print Assumptions C34_in_a_running_session.

Example C34_example : map (fun x => setPauseState (code x) true) [New; Established; Paused; Closing] =
  [(0, false); (5, true); (5, false); (6, false)].
Proof. vm_compute. reflexivity. Qed.

(** ** C76.  Full statement: if SetPause returns an error, the session is not
    paused by it. False: if the backend cannot be interrupted, SetPause(true)
    returns an error although the state has become Paused. *)
Theorem C76_error_but_paused_refuted :
  let (after, result) := setPauseState (code Established) true in
  setPauseError result true true = true /\ after = code Paused.
Proof. vm_compute. auto. Qed.
Print Assumptions C76_error_but_paused_refuted.

Theorem C76_error_without_effect_partial : forall s newValue,
  let (after, result) := setPauseState (code s) newValue in
  setPauseError result newValue false = true -> after = code s.
Proof. intros s newValue. destruct s, newValue; vm_compute; auto; discriminate. Qed.
Print Assumptions C76_error_without_effect_partial.

(** ** C37.  Full statement: Close never panics, returns an error exactly when
    the session is already closing or closed. Refuted for sessions that are not
    (completely) started: the key exchanger does not exist yet. *)
Theorem C37_close_before_start_refuted :
  exists s, exec lifestep initLife [LClose 0; LCloseGo 0] = Some s /\ lPanic s = true.
Proof. eexists. vm_compute. eauto. Qed.
Print Assumptions C37_close_before_start_refuted.

(** Close from another goroutine while Start runs. *)
Theorem C37_close_during_start_refuted :
  exists s, exec lifestep initLife [LStart false; LNegotiator; LClose 0; LKxState; LRun; LCloseGo 0] = Some s /\ lPanic s = true.
Proof. eexists. vm_compute. eauto. Qed.
Print Assumptions C37_close_during_start_refuted.

(** After the key exchanger was made nothing here panics any more, ever. *)
Theorem C37_no_panic_partial : forall s s', reachableL s -> lKx s = true -> lPanic s = false ->
  steps (lstep lifestep) s s' -> lPanic s' = false.
Proof.
  intros s s' H Hk Hp Hs. apply life_inv in H.
  assert (G : linv s' /\ lKx s' = true /\ lPanic s' = false).
  { eapply (steps_inv (lstep lifestep) (fun x => linv x /\ lKx x = true /\ lPanic x = false)); eauto.
    clear. intros s s' (I & Hk & Hp) (l & H). pose proof (proj1 (life_step s l s' I H)) as I'. pose proof (l_kx _ I Hk) as P.
    split; [exact I'|]. unfold lifestep in H. rewrite Hp in H. destruct l.
    - destruct (N.eqb_spec (lPc s) 0); [lia|]. injection H as <-. auto.
    - destruct (N.eqb_spec (lPc s) 1); [lia|discriminate].
    - destruct (N.eqb_spec (lPc s) 2); [lia|discriminate].
    - destruct (N.eqb_spec (lPc s) 3); [lia|discriminate].
    - destruct (lPc s =? 4); [|discriminate]. injection H as <-. auto.
    - destruct (lPc s =? 0); [discriminate|]. injection H as <-. auto.
    - destruct (_ && _); [|discriminate]. destruct (lKxCount s =? 0); injection H as <-; auto.
    - destruct (lNeg s =? 1); [|discriminate]. injection H as <-. auto.
    - destruct (lNeg s =? 2); [|discriminate]. injection H as <-. auto.
    - destruct (_ && _); [|discriminate]. injection H as <-. auto.
    - injection H as <-. auto.
    - destruct (_ && _); [|discriminate]. injection H as <-. auto.
    - destruct (lReader s); try discriminate. destruct (memN _ _); injection H as <-; auto.
    - destruct (lReader s); try discriminate. injection H as <-; auto.
    - destruct (lReader s); try discriminate. injection H as <-; auto.
    - destruct (lCalls s t); try discriminate. destruct (setState _ _ _). destruct (memN _ _); injection H as <-; auto.
    - destruct (lCalls s t) as [| |[|]]; try discriminate; rewrite Hk in H; injection H as <-; auto.
    - destruct (lCalls s t); try discriminate. destruct (N.eqb_spec (lPc s) 0); [lia|]. injection H as <-; auto. }
  tauto.
Qed.
Print Assumptions C37_no_panic_partial.

(** Of any number of concurrent Close calls at most one is told that it closed
    the session, under every schedule. *)
Theorem C37_at_most_one_succeeds : forall s t t', reachableL s ->
  lCalls s t = CCReturned true -> lCalls s t' = CCReturned true -> t' = t.
Proof. intros s t t' H K1 K2. apply life_inv in H. destruct (l_calls _ H t (or_intror K1)) as [_ C]. auto. Qed.
Print Assumptions C37_at_most_one_succeeds.

(** The answer: error if and only if the session is Closing or Closed at that
    moment; otherwise the call can complete and returns nil. *)
Theorem C37_answer : forall s t s', reachableL s -> lCalls s t = CCNone -> lPanic s = false ->
  lifestep s (LClose t) = Some s' ->
  (lState s = code Closed \/ lState s = code Closing -> lCalls s' t = CCReturned false /\ lState s' = lState s) /\
  (lState s <> code Closed -> lState s <> code Closing ->
     lCalls s' t = CCEntered /\ lState s' = code Closing /\
     (lPc s <> 0 -> exists s'', lifestep s' (LCloseRet t) = Some s'' /\ lCalls s'' t = CCReturned true)).
Proof.
  intros s t s' H Hc Hp Hs. apply life_inv in H. pose proof (fits_range _ _ _ _ (l_fits _ H)) as R.
  unfold lifestep in Hs. rewrite Hp, Hc in Hs.
  split.
  - intros [K|K]; rewrite K in Hs; vm_compute (setState _ _ _) in Hs; cbn [memN existsb] in Hs; vm_compute (_ || _) in Hs;
      injection Hs as <-; cbn [lCalls withCall lState withState]; rewrite fupd_same, K; auto.
  - intros K1 K2. assert (E : setState (lState s) SessionStateClosing [SessionStateClosed] = (code Closing, lState s) /\
                              memN (lState s) [SessionStateClosed; SessionStateClosing] = false).
    { destruct R as [R|[R|[R|[R|[R|[R|R]]]]]]; rewrite R in *; try (now contradiction K1); try (now contradiction K2); vm_compute; auto. }
    destruct E as [E1 E2]. rewrite E1, E2 in Hs. injection Hs as <-. cbn [lCalls withCall lState withState]. rewrite fupd_same.
    repeat split; auto. intros Hpc. unfold lifestep. cbn [lPanic withCall withState lCalls lPc]. rewrite Hp, fupd_same.
    destruct (N.eqb_spec (lPc s) 0); [contradiction|]. eexists. split; [reflexivity|]. cbn [lCalls withCtx withCall]. apply fupd_same.
Qed.
Print Assumptions C37_answer.

(** A Close that returned nil has cancelled the session's context, which stays
    cancelled: the goroutines of the session are told to stop. *)
Theorem C37_cancels : forall s t, reachableL s -> lCalls s t = CCReturned true -> lCtx s = true.
Proof.
  intros s t H K.
  enough (I : forall s, reachableL s -> (lPc s = 0 -> forall t, lCalls s t <> CCReturned true) /\
                        forall t, lCalls s t = CCReturned true -> lCtx s = true).
  { exact (proj2 (I s H) t K). }
  clear. apply reachable_inv.
  - intros s ->. split; intros; discriminate.
  - intros s s' [I1 I2] [l Hl]. unfold lifestep, setTo in Hl.
    destruct (lPanic s); [discriminate|].
    destruct l; repeat (match type of Hl with
              | context [match ?x with _ => _ end] => destruct x eqn:?
              | context [if ?x then _ else _] => destruct x eqn:?
              end; try discriminate Hl);
    injection Hl as <-;
    cbn [lPc lCtx lCalls withState withPc withCtx withKx withNeg withConnected withReader withCloser withCall withPanic];
    repeat match goal with E : (_ =? _) = true |- _ => apply N.eqb_eq in E | E : (_ =? _) = false |- _ => apply N.eqb_neq in E end;
    (split; [intros Hz t'|intros t' Ht]); auto; try lia; try discriminate.
    all: try (exfalso; exact (I1 Heqb _ Ht)).
    all: try (exfalso; exact (I1 Heqb0 _ Ht)).
    all: try (unfold fupd in *; match goal with |- context [Nat.eqb ?a ?b] => destruct (Nat.eqb_spec a b) | H : context [Nat.eqb ?a ?b] |- _ => destruct (Nat.eqb_spec a b) end; try congruence; auto).
    all: try (apply I1; auto; fail).
    all: try (eapply I2; eauto; fail).
    all: specialize (I2 _ Ht); discriminate.
Qed.
Print Assumptions C37_cancels.

Example C37_example :
  match exec lifestep initLife (liveRun ++ [LClose 0; LClose 1; LCloseGo 0; LCloseRet 0; LReaderExit; LReaderClosing; LReaderClosed; LClose 2]) with
  | Some s => map (lCalls s) [0; 1; 2]%nat = [CCReturned true; CCReturned false; CCReturned false] /\ lPanic s = false
  | None => False
  end.
Proof. vm_compute. auto. Qed.

(** ** C74.  Full statement: OnConnect is called only for a session that became
    Established. False: Close between the end of negotiation and the state
    change leaves the state alone but OnConnect is called. *)
Theorem C74_on_connect_after_close_refuted :
  exists s ls, exec lifestep initLife ls = Some s /\ lOnConnect s = true /\ lState s = code Closing /\
    forall n s1, exec lifestep initLife (firstn n ls) = Some s1 -> lState s1 <> code Established.
Proof.
  eexists. exists [LStart false; LNegotiator; LKxState; LKxBuild; LRun; LKxSuccess; LNegState; LNegStart; LClose 0; LConnect].
  split; [vm_compute; reflexivity|]. split; [reflexivity|]. split; [reflexivity|].
  intros n s1. do 10 (destruct n as [|n]; [intros E; vm_compute in E; injection E as <-; discriminate|]).
  intros E. rewrite firstn_all2 in E by (cbn [length]; lia). vm_compute in E. injection E as <-. discriminate.
Qed.
Print Assumptions C74_on_connect_after_close_refuted.

Theorem C74_on_connect_partial : forall s s', reachableL s -> lOnConnect s = false -> lstep lifestep s s' -> lOnConnect s' = true ->
  lState s <> code Closing -> lState s <> code Closed -> lState s' = code Established.
Proof.
  intros s s' H H0 (l & Hs) H1 K1 K2. apply life_inv in H. pose proof (l_fits _ H) as F. unfold lifestep in Hs.
  destruct (lPanic s); [discriminate|].
  destruct l; try (now
    repeat match type of Hs with
    | context[let (_, _) := ?x in _] => destruct x
    | (if ?b then _ else _) = _ => destruct b
    | match ?x with _ => _ end = _ => destruct x
    end; try discriminate; injection Hs as <-; cbn in H1; congruence).
  destruct (N.eqb_spec (lNeg s) 3); [|discriminate]. destruct (lConnected s) eqn:Ec; [discriminate|]. injection Hs as <-.
  assert (S : lState s = 3) by (cbn in K1, K2; fit). unfold setTo. rewrite S. reflexivity.
Qed.
Print Assumptions C74_on_connect_partial.

(** ** C75.  Full statement: Start never panics, whatever the context. False for
    a context that is already cancelled. *)
Theorem C75_start_with_done_context_refuted :
  exists s, exec lifestep initLife [LStart true; LNegotiator] = Some s /\ lPanic s = true.
Proof. eexists. vm_compute. eauto. Qed.
Print Assumptions C75_start_with_done_context_refuted.

(** As long as the context is not done, Start can always make its next step,
    whatever the other goroutines did in between, and does not panic. *)
Definition startSteps : list llabel := [LNegotiator; LKxState; LKxBuild; LRun].
Theorem C75_start_partial : forall s, reachableL s -> lPanic s = false -> lCtx s = false -> 1 <= lPc s -> lPc s < 5 ->
  (exists l s', In l startSteps /\ lifestep s l = Some s') /\
  (forall l s', In l startSteps -> lifestep s l = Some s' -> lPanic s' = false /\ lPc s < lPc s').
Proof.
  intros s H Hp Hc P1 P5.
  assert (E : lPc s = 1 \/ lPc s = 2 \/ lPc s = 3 \/ lPc s = 4) by lia. split.
  - destruct E as [E|[E|[E|E]]]; [exists LNegotiator|exists LKxState|exists LKxBuild|exists LRun];
      unfold lifestep; rewrite Hp, E, ?Hc; cbn [N.eqb Pos.eqb]; try (destruct (setState _ _ _), (memN _ _));
      eexists; (split; [cbn; auto|reflexivity]).
  - intros l s' Hl Hs. unfold lifestep in Hs. rewrite Hp in Hs. 
    destruct Hl as [<-|[<-|[<-|[<-|[]]]]].
    + destruct (N.eqb_spec (lPc s) 1); [|discriminate]. rewrite Hc in Hs. injection Hs as <-. cbn. split; [exact Hp|lia].
    + destruct (N.eqb_spec (lPc s) 2); [|discriminate]. destruct (setState _ _ _). destruct (memN _ _); injection Hs as <-; cbn; (split; [exact Hp|lia]).
    + destruct (N.eqb_spec (lPc s) 3); [|discriminate]. rewrite Hc in Hs. injection Hs as <-. cbn. split; [exact Hp|lia].
    + destruct (N.eqb_spec (lPc s) 4); [|discriminate]. injection Hs as <-. cbn. split; [exact Hp|lia].
Qed.
Print Assumptions C75_start_partial.

Example C75_example : (* Close in the middle: no key exchanger, but no panic in Start *)
  match exec lifestep initLife [LStart false; LNegotiator; LClose 0; LKxState; LRun] with
  | Some s => (lPanic s, lKx s, lPc s, lState s) = (false, false, 5, code Closing)
  | None => False
  end.
Proof. vm_compute. reflexivity. Qed.
