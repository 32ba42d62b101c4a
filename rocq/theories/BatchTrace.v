(** Runs of the aggregation with their history: what each write call asked for,
    and what cannot happen any more once the session is closing. *)
From Coq Require Import NArith List Bool Lia Arith.
From Verif Require Import Base BaseLemmas TS MessageModel ReaderModel ReaderLoopModel BatchModel BatchProofs BatchRun.
Import ListNotations.
Local Open Scope N_scope.

Definition pending (v : wpc) : option bytes :=
  match v with WCall m | WTry m | WFull m _ | WSent m _ | WTick m _ => Some m | _ => None end.

Definition idle (v : wpc) : bool := match v with WIdle => true | _ => false end.

Lemma fstep_w : forall est s f c s' f', fstep est s f c = Some (s', f') ->
  bW s' = bW s /\ bAccepted s' = bAccepted s /\ bState s' = bState s /\ bCtx s' = bCtx s /\ bLoop s' = bLoop s /\ bCloser s' = bCloser s /\
  (bBuf s' = bBuf s \/ (exists n, f = FSwap n) /\ bBuf s' = []).
Proof.
  intros est s f c s' f' H. unfold fstep in H.
  destruct f as [|n|h b|h b|h b|h b]; try discriminate.
  - destruct c; try discriminate. injection H as <- <-. repeat split; auto.
  - destruct c; try discriminate. injection H as <- <-. repeat split; auto. right. eauto.
  - destruct b; [destruct c; try discriminate; injection H as <- <-; repeat split; auto|].
    destruct c; try discriminate.
    + cbn [estSeen] in H. destruct (_ <? _); [injection H as <- <-; repeat split; auto|].
      destruct (isDoneState _); injection H as <- <-; repeat split; auto.
    + destruct (_ && _); [|discriminate]. injection H as <- <-; repeat split; auto.
    + destruct (estSeen _ _ _); [|discriminate]. destruct (_ <? _); [injection H as <- <-; repeat split; auto|].
      destruct (isDoneState _); injection H as <- <-; repeat split; auto.
  - destruct c; try discriminate; injection H as <- <-; repeat split; auto.
  - destruct c; try discriminate. destruct (hDone _); injection H as <- <-; repeat split; auto.
Qed.

(** What one step does to the writers and to the accepted messages. *)
Definition wmove (l : blabel) (w : nat) (v v' : wpc) : Prop :=
  v' = v \/
  (idle v' = false /\
   ((exists t p, l = BWrite w t p /\ v = WIdle /\ isInternal t = false /\
       forall m, pending v' = Some m -> m = encodeMsg t (setIsConfidential 0 true) p) \/
    (idle v = false /\ forall m, pending v' = Some m -> pending v = Some m))).

Definition smove (l : blabel) (s s' : bst) : Prop :=
  (forall w, wmove l w (bW s w) (bW s' w)) /\
  (bAccepted s' = bAccepted s \/
   exists w m, pending (bW s w) = Some m /\ bAccepted s' = bAccepted s ++ [(bCur s, {| eW := w; eMsg := m |})]) /\
  (forall w t p, l = BWrite w t p -> bW s w = WIdle /\ idle (bW s' w) = false).

Lemma smove_same : forall l s s', bW s' = bW s -> bAccepted s' = bAccepted s -> (forall w t p, l <> BWrite w t p) -> smove l s s'.
Proof. intros l s s' H1 H2 H3. split; [|split]; auto. - intros w. left. rewrite H1. reflexivity. - intros w t p ->. destruct (H3 w t p eq_refl). Qed.

Lemma smove_w : forall l s s' w v, bW s' = fupd (bW s) w v -> bAccepted s' = bAccepted s -> (forall w t p, l <> BWrite w t p) ->
  idle v = false -> idle (bW s w) = false -> (forall m, pending v = Some m -> pending (bW s w) = Some m) -> smove l s s'.
Proof.
  intros l s s' w v H1 H2 H3 H4 H5 H6. split; [|split]; auto.
  - intros k. rewrite H1. unfold fupd. destruct (Nat.eqb_spec k w) as [->|]; [right|left]; auto.
  - intros k t p ->. destruct (H3 k t p eq_refl).
Qed.

Lemma step_smove : forall est frag cap s l s', bstep est frag cap s l = Some s' -> smove l s s'.
Proof.
  intros est frag cap s l s' H. unfold bstep in H. destruct (bPanic s); [discriminate|].
  destruct l.
  - destruct (bW s w) eqn:Ew; try discriminate. destruct (isInternal t) eqn:Ei; [discriminate|].
    assert (G : forall v s1, bW s1 = bW s -> bAccepted s1 = bAccepted s -> idle v = false ->
       (forall m, pending v = Some m -> m = encodeMsg t (setIsConfidential 0 true) payload) -> smove (BWrite w t payload) s (up_w s1 w v)).
    { intros v s1 E1 E2 Hv Hp. split; [|split].
      - intros k. bcbn. rewrite E1. unfold fupd. destruct (Nat.eqb_spec k w) as [->|]; [right|left]; auto. split; auto. left. exists t, payload. auto.
      - left. exact E2.
      - intros k t0 p0 K. injection K as <- <- <-. bcbn. rewrite fupd_same. auto. }
    destruct (est <? _); [destruct frag|]; inv_some; apply G; auto; try discriminate.
    intros m K. injection K as <-. reflexivity.
  - destruct (bW s w) eqn:Ew; try discriminate. destruct c; try discriminate.
    + inv_some. eapply smove_w; try reflexivity; try discriminate; rewrite Ew; auto.
    + destruct (_ && _); [|discriminate]. inv_some. eapply smove_w; try reflexivity; try discriminate; rewrite Ew; auto.
  - destruct (bW s w) eqn:Ew; try discriminate. destruct (estSeen est s c); [|discriminate].
    destruct (_ <? _).
    + destruct (bBuf s); inv_some; (eapply smove_w; try reflexivity; try discriminate; rewrite Ew; auto).
    + destruct (_ <? _); inv_some; [apply smove_same; auto; discriminate|]. split; [|split].
      * intros k. bcbn. unfold fupd. destruct (Nat.eqb_spec k w) as [->|]; [right|left]; auto. split; auto. right. rewrite Ew. split; auto. discriminate.
      * right. exists w, m. rewrite Ew. auto.
      * discriminate.
  - destruct (bW s w) eqn:Ew; try discriminate. destruct (bNowClosed s); [discriminate|].
    destruct delivered; [destruct (atSelect s); [|discriminate]|]; inv_some; (eapply smove_w; try reflexivity; try discriminate; rewrite Ew; auto).
  - destruct (bW s w) eqn:Ew; try discriminate. destruct (_ || _); [|discriminate]. inv_some. eapply smove_w; try reflexivity; try discriminate; rewrite Ew; auto.
  - destruct (bW s w) eqn:Ew; try discriminate. inv_some.
    destruct (isDoneState (bState s)); (eapply smove_w; try reflexivity; try discriminate; rewrite Ew; auto).
  - destruct (bW s w) eqn:Ew; try discriminate. destruct c.
    + destruct (bCtx s); [|discriminate]. inv_some. eapply smove_w; try reflexivity; try discriminate; rewrite Ew; auto.
    + destruct (hDone _); [|discriminate]. inv_some. eapply smove_w; try reflexivity; try discriminate; rewrite Ew; auto.
    + destruct (bBuf s); [|discriminate]. inv_some. eapply smove_w; try reflexivity; try discriminate; rewrite Ew; auto.
    + destruct (bBuf s); [discriminate|]. destruct (atSelect s); [|discriminate]. inv_some. apply smove_same; auto; discriminate.
  - destruct (bW s w) eqn:Ew; try discriminate. inv_some. eapply smove_w; try reflexivity; try discriminate; rewrite Ew; auto.
  - destruct (bW s w) eqn:Ew; try discriminate. inv_some. eapply smove_w; try reflexivity; try discriminate; rewrite Ew; auto.
  - destruct (bW s w) eqn:Ew; try discriminate. destruct (bNowClosed s); [inv_some; apply smove_same; auto; discriminate|].
    destruct (atSelect s); [|discriminate]. inv_some. eapply smove_w; try reflexivity; try discriminate; rewrite Ew; auto.
  - destruct (bW s w) eqn:Ew; try discriminate. destruct (if viaCtx then _ else _); [|discriminate]. inv_some.
    eapply smove_w; try reflexivity; try discriminate; rewrite Ew; auto.
  - destruct (_ && _); [|discriminate]. inv_some. apply smove_same; auto; discriminate.
  - destruct (bTimer s); try discriminate. inv_some. apply smove_same; auto; discriminate.
  - destruct (bLoop s); try discriminate. destruct (bTimer s); try discriminate. inv_some. apply smove_same; auto; discriminate.
  - destruct (bLoop s); try discriminate. destruct (bCtx s); [|discriminate]. inv_some. apply smove_same; auto; discriminate.
  - destruct (bLoop s) as [f| |from f|from id|h|]; try discriminate.
    + destruct f; try (match type of H with match ?x with _ => _ end = _ => destruct x as [[s1 f']|] eqn:Ex end; [|discriminate]; inv_some;
        apply fstep_w in Ex; apply smove_same; try apply Ex; discriminate).
      destruct c; try discriminate. inv_some. apply smove_same; auto; discriminate.
    + destruct f; try (match type of H with match ?x with _ => _ end = _ => destruct x as [[s1 f']|] eqn:Ex end; [|discriminate]; inv_some;
        apply fstep_w in Ex; apply smove_same; try apply Ex; discriminate).
      destruct c; try discriminate. inv_some. apply smove_same; auto; discriminate.
    + destruct c; try discriminate. inv_some. apply smove_same; try discriminate; destruct (Nat.ltb _ _); reflexivity.
    + destruct c; try discriminate. destruct (_ || _); inv_some; apply smove_same; auto; discriminate.
  - destruct (isDoneState _); [discriminate|]. inv_some. apply smove_same; auto; discriminate.
  - destruct (bCloser s) as [|f| |]; try discriminate.
    + destruct f; try (match type of H with match ?x with _ => _ end = _ => destruct x as [[s1 f']|] eqn:Ex end; [|discriminate]; inv_some;
        apply fstep_w in Ex; apply smove_same; try apply Ex; discriminate).
      destruct c; try discriminate. inv_some. apply smove_same; auto; discriminate.
    + destruct c; try discriminate. inv_some. apply smove_same; auto; discriminate.
  - destruct (isDoneState _); [discriminate|]. inv_some. apply smove_same; auto; discriminate.
  - destruct (bCtx s); [discriminate|]. inv_some. apply smove_same; auto; discriminate.
  - destruct (_ && _); [|discriminate]. inv_some. apply smove_same; auto; discriminate.
Qed.

Lemma exec_history : forall (St L : Type) (f : St -> L -> option St) (P : list L -> St -> Prop) s0, P [] s0 ->
  (forall ls s l s', exec f s0 ls = Some s -> P ls s -> f s l = Some s' -> P (ls ++ [l]) s') ->
  forall ls s, exec f s0 ls = Some s -> P ls s.
Proof.
  intros St L f P s0 H0 Hs ls. induction ls as [|l ls IH] using rev_ind; intros s H.
  - injection H as <-. exact H0.
  - assert (K : exists s1, exec f s0 ls = Some s1 /\ f s1 l = Some s).
    { clear IH Hs H0. revert s0 H. induction ls as [|a ls IH]; intros s0 H; cbn [app exec] in *.
      - exists s0. split; auto. destruct (f s0 l); [exact H|discriminate].
      - destruct (f s0 a); [apply IH; exact H|discriminate]. }
    destruct K as [s1 [K1 K2]]. eapply Hs; eauto.
Qed.

(** The message call [w] asked for. *)
Definition asked (ls : list blabel) (w : nat) (m : bytes) : Prop :=
  exists t p, In (BWrite w t p) ls /\ isInternal t = false /\ m = encodeMsg t (setIsConfidential 0 true) p.

Record hist (ls : list blabel) (s : bst) : Prop := {
  t_idle : forall w t p, bW s w = WIdle -> ~ In (BWrite w t p) ls;
  t_pend : forall w m, pending (bW s w) = Some m -> asked ls w m;
  t_acc : forall h w m, In (h, {| eW := w; eMsg := m |}) (bAccepted s) -> asked ls w m;
  t_once : forall w t p t' p', In (BWrite w t p) ls -> In (BWrite w t' p') ls -> t = t' /\ p = p'
}.

Lemma asked_more : forall ls l w m, asked ls w m -> asked (ls ++ l) w m.
Proof. intros ls l w m (t & p & H1 & H2). exists t, p. split; [apply in_or_app; auto|auto]. Qed.

Lemma run_hist : forall est frag cap ls s, exec (bstep est frag cap) initBatch ls = Some s -> hist ls s.
Proof.
  intros est frag cap. apply exec_history.
  - constructor; cbn; try discriminate; try tauto.
  - intros ls s l s' _ Hh Hs. destruct (step_smove _ _ _ _ _ _ Hs) as (M1 & M2 & M3). constructor.
    + intros w t p Hi K. apply in_app_iff in K. destruct K as [K|[K|[]]].
      * destruct (M1 w) as [E|[E _]]; rewrite Hi in E; [|discriminate]. symmetry in E. exact (t_idle _ _ Hh w t p E K).
      * destruct (M3 _ _ _ K) as [_ E]. rewrite Hi in E. discriminate.
    + intros w m Hp. destruct (M1 w) as [E|[_ [(t & p & -> & E1 & E2 & E3)|[_ E]]]].
      * apply asked_more. apply (t_pend _ _ Hh). rewrite <- E. exact Hp.
      * exists t, p. split; [apply in_or_app; right; left; reflexivity|]. split; auto.
      * apply asked_more. apply (t_pend _ _ Hh). auto.
    + intros h w m K. destruct M2 as [E|(w1 & m1 & E1 & E2)].
      * rewrite E in K. apply asked_more. eapply t_acc; eauto.
      * rewrite E2 in K. apply in_app_iff in K. destruct K as [K|[K|[]]].
        -- apply asked_more. eapply t_acc; eauto.
        -- injection K as _ <- <-. apply asked_more. eapply t_pend; eauto.
    + intros w t p t' p' K1 K2. apply in_app_iff in K1, K2.
      destruct K1 as [K1|[K1|[]]], K2 as [K2|[K2|[]]].
      * exact (t_once _ _ Hh _ _ _ _ _ K1 K2).
      * destruct (M3 _ _ _ K2) as [E _]. destruct (t_idle _ _ Hh _ _ _ E K1).
      * destruct (M3 _ _ _ K1) as [E _]. destruct (t_idle _ _ Hh _ _ _ E K2).
      * rewrite K1 in K2. injection K2 as <- <-. auto.
Qed.

Lemma run_binv : forall est frag cap ls s, est + 53 < 2^32 -> exec (bstep est frag cap) initBatch ls = Some s -> binv est cap s.
Proof.
  intros est frag cap ls s He. revert ls s. apply exec_history.
  - apply init_binv.
  - intros ls s l s' _ B H. eapply step_binv; eauto.
Qed.

Lemma run_calm : forall est frag cap ls s, est + 53 < 2^32 -> est + 9 <= cap -> exec (cstep est frag cap) initBatch ls = Some s ->
  binv est cap s /\ oinv s.
Proof.
  intros est frag cap ls s He Hc. revert ls s. apply (exec_history _ _ _ (fun ls s => binv est cap s /\ oinv s)).
  - split; [apply init_binv|apply init_oinv].
  - intros ls s l s' _ [B O] H. split; [|eapply step_oinv; eauto].
    unfold cstep in H. destruct (calm s l); [|discriminate]. eapply step_binv; eauto.
Qed.

(** ** Closing: whatever is not being written already is never written *)

Definition writing (f : fpc) : list (nat * list entry) := match f with FWrite h b => [(h, b)] | _ => [] end.

(** Compared with [s0], at most the write already under way has been made. *)
Definition lastWrite (s0 s : bst) : Prop :=
  (bWire s = bWire s0 /\ (writing (lf s) = writing (lf s0) \/ writing (lf s) = [])) \/
  (writing (lf s) = [] /\ exists h b ok, In (h, b) (writing (lf s0)) /\ bWire s = bWire s0 ++ [(h, b, ok)]).

Lemma fstep_closing : forall est s f c s' f', isDoneState (bState s) = true -> fstep est s f c = Some (s', f') ->
  (bWire s' = bWire s /\ writing f' = [] /\ writing f = []) \/
  (writing f' = [] /\ exists h b ok, f = FWrite h b /\ bWire s' = bWire s ++ [(h, b, ok)]).
Proof.
  intros est s f c s' f' Hd H. unfold fstep in H.
  destruct f as [|n|h b|h b|h b|h b]; try discriminate.
  - destruct c; try discriminate. injection H as <- <-. auto.
  - destruct c; try discriminate. injection H as <- <-. auto.
  - left. destruct b; [destruct c; try discriminate; injection H as <- <-; auto|].
    destruct c; try discriminate.
    + cbn [estSeen] in H. rewrite Hd in H. destruct (_ <? _); injection H as <- <-; auto.
    + destruct (_ && _); [|discriminate]. injection H as <- <-; auto.
    + destruct (estSeen _ _ _); [|discriminate]. rewrite Hd in H. destruct (_ <? _); injection H as <- <-; auto.
  - right. destruct c; try discriminate; injection H as <- <-; (split; [reflexivity|]); do 3 eexists; split; reflexivity.
  - left. destruct c; try discriminate. destruct (hDone _); injection H as <- <-; auto.
Qed.

Lemma done_stays : forall est frag cap s l s', isDoneState (bState s) = true -> bstep est frag cap s l = Some s' -> isDoneState (bState s') = true.
Proof.
  intros est frag cap s l s' Hd H. unfold bstep in H. destruct (bPanic s); [discriminate|].
  destruct l; try (rewrite Hd in H; discriminate);
  repeat (match type of H with
          | match bLoop s with _ => _ end = _ => destruct (bLoop s)
          | match (fstep ?e ?a ?b ?c) with _ => _ end = _ => let E := fresh in destruct (fstep e a b c) as [[? ?]|] eqn:E; [apply fstep_w in E; decompose [and] E|]
          | match ?x with _ => _ end = _ => destruct x
          end; try discriminate); inv_some; bcbn; try congruence; try reflexivity; try exact Hd;
  try (destruct (Nat.ltb _ _); bcbn; auto).
Qed.

Lemma lastWrite_same : forall s0 s s', lastWrite s0 s -> bWire s' = bWire s ->
  (writing (lf s') = writing (lf s) \/ writing (lf s') = []) -> lastWrite s0 s'.
Proof.
  intros s0 s s' [[H1 H2]|[H1 (h & b & ok & H2 & H3)]] E1 E2.
  - left. split; [congruence|]. destruct E2 as [->|E2]; auto.
  - right. split; [destruct E2; congruence|]. exists h, b, ok. split; [auto|congruence].
Qed.

Lemma lastWrite_step : forall est frag cap s0 s l s', binv est cap s -> isDoneState (bState s) = true -> lastWrite s0 s ->
  bstep est frag cap s l = Some s' -> lastWrite s0 s'.
Proof.
  intros est frag cap s0 s l s' B Hd H0 H. unfold bstep in H. destruct (bPanic s); [discriminate|].
  assert (F : forall f c s1 f' lp, fstep est s f c = Some (s1, f') -> f = lf s -> lf (up_loop s1 lp) = f' -> lastWrite s0 (up_loop s1 lp)).
  { intros f c s1 f' lp Hf -> Hl. destruct (fstep_closing _ _ _ _ _ _ Hd Hf) as [(E1 & E2 & E3)|(E1 & h & b & ok & E2 & E3)].
    - eapply lastWrite_same; eauto. right. rewrite Hl. exact E2.
    - destruct H0 as [[K1 [K2|K2]]|[K1 _]].
      + right. split; [rewrite Hl; exact E1|]. exists h, b, ok. rewrite <- K2, E2. split; [left; reflexivity|]. bcbn. congruence.
      + rewrite E2 in K2. discriminate.
      + rewrite E2 in K1. discriminate. }
  assert (R : forall s1 h, lastWrite s0 s1 -> atSelect s1 = true -> lastWrite s0 (receive s1 h)).
  { intros s1 h K1 K2. eapply lastWrite_same; eauto. right. unfold receive, lf. bcbn. destruct (Nat.leb _ _); reflexivity. }
  assert (U : forall w v, lastWrite s0 (up_w s w v)) by (intros; eapply lastWrite_same; eauto).
  destruct l.
  - destruct (bW s w) eqn:Ew; try discriminate. destruct (isInternal t); [discriminate|].
    destruct (est <? _); [destruct frag|]; inv_some; try apply U; eapply lastWrite_same; eauto.
  - destruct (bW s w) eqn:Ew; try discriminate. destruct c; try discriminate; [|destruct (_ && _); [|discriminate]]; inv_some; auto.
  - destruct (bW s w) eqn:Ew; try discriminate. destruct (estSeen est s c); [|discriminate].
    destruct (_ <? _); [destruct (bBuf s); inv_some; auto|]. destruct (_ <? _); inv_some; eapply lastWrite_same; eauto.
  - destruct (bW s w) eqn:Ew; try discriminate. destruct (bNowClosed s); [discriminate|].
    destruct delivered; [destruct (atSelect s) eqn:Es; [|discriminate]|]; inv_some; auto.
  - destruct (bW s w) eqn:Ew; try discriminate. destruct (_ || _); [|discriminate]. inv_some; auto.
  - destruct (bW s w) eqn:Ew; try discriminate. inv_some; auto.
  - destruct (bW s w) eqn:Ew; try discriminate. destruct c.
    + destruct (bCtx s); [|discriminate]. inv_some; auto.
    + destruct (hDone _); [|discriminate]. inv_some; auto.
    + destruct (bBuf s); [|discriminate]. inv_some; auto.
    + destruct (bBuf s); [discriminate|]. destruct (atSelect s) eqn:Es; [|discriminate]. inv_some; auto.
  - destruct (bW s w) eqn:Ew; try discriminate. inv_some; auto.
  - destruct (bW s w) eqn:Ew; try discriminate. inv_some; auto.
  - destruct (bW s w) eqn:Ew; try discriminate. destruct (bNowClosed s); [inv_some; eapply lastWrite_same; eauto|].
    destruct (atSelect s) eqn:Es; [|discriminate]. inv_some; auto.
  - destruct (bW s w) eqn:Ew; try discriminate. destruct (if viaCtx then _ else _); [|discriminate]. inv_some; auto.
  - destruct (_ && _); [|discriminate]. inv_some; eapply lastWrite_same; eauto.
  - destruct (bTimer s); try discriminate. inv_some; eapply lastWrite_same; eauto.
  - destruct (bLoop s) eqn:El; try discriminate. destruct (bTimer s); try discriminate. inv_some. eapply lastWrite_same; eauto.
  - destruct (bLoop s) eqn:El; try discriminate. destruct (bCtx s); [|discriminate]. inv_some. eapply lastWrite_same; eauto.
  - destruct (bLoop s) as [f| |from f|from id|h|] eqn:El; try discriminate.
    + assert (Hlf : f = lf s) by (unfold lf; rewrite El; reflexivity).
      destruct f as [|n|h b|h b|h b|h b]; try (match type of H with match ?x with _ => _ end = _ => destruct x as [[s1 f']|] eqn:Ex end; [|discriminate]; inv_some; eapply F; eauto).
      destruct c; try discriminate. inv_some. eapply lastWrite_same; eauto. right. unfold lf. bcbn. destruct b; reflexivity.
    + assert (Hlf : f = lf s) by (unfold lf; rewrite El; reflexivity).
      destruct f as [|n|h b|h b|h b|h b]; try (match type of H with match ?x with _ => _ end = _ => destruct x as [[s1 f']|] eqn:Ex end; [|discriminate]; inv_some; eapply F; eauto).
      destruct c; try discriminate. inv_some. eapply lastWrite_same; eauto.
    + destruct c; try discriminate. inv_some. eapply lastWrite_same; eauto; [destruct (Nat.ltb _ _); reflexivity|].
      right. unfold lf. bcbn. destruct from; reflexivity.
    + destruct c; try discriminate. destruct (_ || _); inv_some; eapply lastWrite_same; eauto.
  - rewrite Hd in H. discriminate.
  - assert (Cw : forall f c s1 f', bCloser s = CFlush f -> fstep est s f c = Some (s1, f') -> lastWrite s0 (up_closer s1 (CFlush f'))).
    { intros f c' s1 f' Ec Hf. destruct (fstep_w _ _ _ _ _ _ Hf) as (_ & _ & _ & _ & W5 & _).
      assert (writing (lf (up_closer s1 (CFlush f'))) = writing (lf s)) by (unfold lf; bcbn; rewrite W5; reflexivity).
      destruct (fstep_closing _ _ _ _ _ _ Hd Hf) as [(E1 & E2 & E3)|(E1 & h & b & ok & E2 & E3)].
      - eapply lastWrite_same; eauto.
      - destruct (v_cw _ _ _ B h b). unfold cf. rewrite Ec. exact E2. }
    destruct (bCloser s) as [|f| |] eqn:Ec; try discriminate.
    + destruct f as [|n|h b|h b|h b|h b]; try (match type of H with match ?x with _ => _ end = _ => destruct x as [[s1 f']|] eqn:Ex end; [|discriminate]; inv_some; eapply Cw; eauto).
      destruct c; try discriminate. inv_some. eapply lastWrite_same; eauto.
    + destruct c; try discriminate. inv_some. eapply lastWrite_same; eauto.
  - rewrite Hd in H. discriminate.
  - destruct (bCtx s); [discriminate|]. inv_some. eapply lastWrite_same; eauto.
  - destruct (_ && _); [|discriminate]. inv_some. eapply lastWrite_same; eauto.
Qed.

Lemma lastWrite_run : forall est frag cap s ls s', est + 53 < 2^32 -> binv est cap s -> isDoneState (bState s) = true ->
  exec (bstep est frag cap) s ls = Some s' -> binv est cap s' /\ isDoneState (bState s') = true /\ lastWrite s s'.
Proof.
  intros est frag cap s ls s' He B Hd. revert ls s'.
  apply (exec_history _ _ _ (fun _ s' => binv est cap s' /\ isDoneState (bState s') = true /\ lastWrite s s')).
  - split; [auto|]. split; [auto|]. left. auto.
  - intros ls s1 l s2 _ (B1 & D1 & L1) H. split; [eapply step_binv; eauto|]. split; [eapply done_stays; eauto|eapply lastWrite_step; eauto].
Qed.

(** ** Spinning writers *)

(** Nobody flushes any more. *)
Definition over (s : bst) : Prop := isDoneState (bState s) = true /\ bLoop s = LEnd /\ (bCloser s = CNone \/ bCloser s = CDone).

Definition spinning (v : wpc) (m : bytes) : Prop := v = WTry m \/ exists h, v = WFull m h \/ v = WSent m h \/ v = WTick m h.

Lemma over_step : forall est frag cap s l s', over s -> bstep est frag cap s l = Some s' ->
  over s' /\ exists more, bBuf s' = bBuf s ++ more.
Proof.
  intros est frag cap s l s' (H1 & H2 & H3) H. split.
  - split; [eapply done_stays; eauto|]. unfold bstep in H. destruct (bPanic s); [discriminate|]. unfold receive, atSelect in H.
    destruct l; try (rewrite H1 in H; discriminate); rewrite ?H2 in H; try discriminate;
    repeat (match type of H with
            | match bCloser s with _ => _ end = _ => destruct (bCloser s); [|destruct H3; discriminate|destruct H3; discriminate|]
            | match ?x with _ => _ end = _ => destruct x
            end; try discriminate); inv_some; bcbn; auto.
  - unfold bstep in H. destruct (bPanic s); [discriminate|]. unfold receive, atSelect in H.
    destruct l; try (rewrite H1 in H; discriminate); rewrite ?H2 in H; try discriminate;
    repeat (match type of H with
            | match bCloser s with _ => _ end = _ => destruct (bCloser s); [|destruct H3; discriminate|destruct H3; discriminate|]
            | match bBuf s with _ => _ end = _ => let E := fresh in destruct (bBuf s) eqn:E
            | match ?x with _ => _ end = _ => destruct x
            end; try discriminate); inv_some; bcbn; try (exists []; rewrite app_nil_r; auto; fail); eexists; reflexivity.
Qed.

Lemma spin_step : forall est frag cap s l s' w m, est + 53 < 2^32 -> over s -> bBuf s <> [] -> est + 53 < 44 + batchLen (bBuf s) + len m -> 
  spinning (bW s w) m -> bstep est frag cap s l = Some s' -> spinning (bW s' w) m.
Proof.
  intros est frag cap s l s' w m He (O1 & O2 & O3) Hne Hbig Hs H.
  unfold bstep in H. destruct (bPanic s); [discriminate|].
  destruct l.
  all: try (destruct (Nat.eq_dec w0 w) as [->|Hw];
    [|repeat (match type of H with match ?x with _ => _ end = _ => destruct x end; try discriminate); inv_some; unfold receive; bcbn;
      rewrite ?fupd_other by auto; exact Hs]).
  - destruct Hs as [Hs|[h [Hs|[Hs|Hs]]]]; rewrite Hs in H; discriminate.
  - destruct Hs as [Hs|[h [Hs|[Hs|Hs]]]]; rewrite Hs in H; discriminate.
  - destruct Hs as [Hs|[h [Hs|[Hs|Hs]]]]; rewrite Hs in H; try discriminate.
    destruct (estSeen est s c) as [e|] eqn:Ee; [|discriminate].
    assert (e = est \/ e = 0).
    { unfold estSeen in Ee. destruct c; try (injection Ee as <-; auto; fail). destruct (_ && _); [injection Ee as <-; auto|discriminate]. }
    rewrite packetSizeOf_small in H by (destruct H0; lia). unfold messagesContainerHeadersSize in H.
    destruct (N.ltb_spec (e + 53) (44 + batchLen (bBuf s) + len m)); [|destruct H0; lia].
    destruct (bBuf s); [congruence|]. inv_some. bcbn. rewrite fupd_same. right. eexists. left. reflexivity.
  - unfold atSelect in H. rewrite O2 in H. destruct Hs as [Hs|[h [Hs|[Hs|Hs]]]]; rewrite Hs in H; try discriminate.
    destruct (bNowClosed s); [discriminate|]. destruct delivered; [discriminate|]. inv_some. bcbn. rewrite fupd_same. right. eauto.
  - destruct Hs as [Hs|[h [Hs|[Hs|Hs]]]]; rewrite Hs in H; try discriminate.
    destruct (_ || _); [|discriminate]. inv_some. bcbn. rewrite fupd_same. left. reflexivity.
  - destruct Hs as [Hs|[h [Hs|[Hs|Hs]]]]; rewrite Hs in H; try discriminate. inv_some. bcbn. rewrite fupd_same, O1. left. reflexivity.
  - unfold atSelect in H. rewrite O2 in H. destruct Hs as [Hs|[h [Hs|[Hs|Hs]]]]; rewrite Hs in H; try discriminate.
    destruct c; [destruct (bCtx s); [|discriminate]|destruct (hDone _); [|discriminate]|destruct (bBuf s); [congruence|discriminate]|destruct (bBuf s); discriminate];
    inv_some; bcbn; rewrite fupd_same; left; reflexivity.
  - destruct Hs as [Hs|[h [Hs|[Hs|Hs]]]]; rewrite Hs in H; discriminate.
  - destruct Hs as [Hs|[h [Hs|[Hs|Hs]]]]; rewrite Hs in H; discriminate.
  - destruct Hs as [Hs|[h [Hs|[Hs|Hs]]]]; rewrite Hs in H; discriminate.
  - destruct Hs as [Hs|[h [Hs|[Hs|Hs]]]]; rewrite Hs in H; discriminate.
  - destruct (_ && _); [|discriminate]. inv_some. exact Hs.
  - destruct (bTimer s); try discriminate. inv_some. exact Hs.
  - rewrite O2 in H. discriminate.
  - rewrite O2 in H. discriminate.
  - rewrite O2 in H. discriminate.
  - rewrite O1 in H. discriminate.
  - destruct O3 as [O3|O3]; rewrite O3 in H; discriminate.
  - rewrite O1 in H. discriminate.
  - destruct (bCtx s); [discriminate|]. inv_some. exact Hs.
  - destruct (_ && _); [|discriminate]. inv_some. exact Hs.
Qed.

Lemma batchLen_app : forall a b, batchLen (a ++ b) = batchLen a + batchLen b.
Proof. intros. unfold batchLen. rewrite map_app, concat_app, len_app. reflexivity. Qed.

Lemma spin_run : forall est frag cap s ls s' w m, est + 53 < 2^32 -> over s -> bBuf s <> [] -> est + 53 < 44 + batchLen (bBuf s) + len m ->
  spinning (bW s w) m -> exec (bstep est frag cap) s ls = Some s' -> spinning (bW s' w) m.
Proof.
  intros est frag cap s ls s' w m He Ho Hne Hbig Hs H.
  assert (G : over s' /\ bBuf s' <> [] /\ est + 53 < 44 + batchLen (bBuf s') + len m /\ spinning (bW s' w) m); [|apply G].
  revert ls s' H.
  apply (exec_history _ _ _ (fun _ s' => over s' /\ bBuf s' <> [] /\ est + 53 < 44 + batchLen (bBuf s') + len m /\ spinning (bW s' w) m)); [exact (conj Ho (conj Hne (conj Hbig Hs)))|].
  intros ls s1 l s2 _ (K1 & K2 & K3 & K4) H. destruct (over_step _ _ _ _ _ _ K1 H) as [O2 [more E]].
  split; [auto|]. split; [rewrite E; destruct (bBuf s1); [congruence|discriminate]|].
  split; [rewrite E, batchLen_app; lia|]. exact (spin_step est frag cap s1 l s2 w m He K1 K2 K3 K4 H).
Qed.
