(** Undisturbed sessions: nobody closes or cancels, and SendNowAndWait is used
    only on handles of aggregated messages. No panics, and the sender alone
    brings every accepted message to the backend. *)
From Coq Require Import NArith List Bool Lia Arith.
From Verif Require Import Base BaseLemmas TS MessageModel ReaderModel ReaderLoopModel BatchModel BatchProofs.
Import ListNotations.
Local Open Scope N_scope.

Definition calm (s : bst) (l : blabel) : bool :=
  match l with
  | BClose | BSetClosing | BCancel | BSetClosed => false
  | BNow w => match bW s w with WHave h => negb (hFrag (bH s h)) | _ => true end
  | _ => true
  end.

Definition cstep (est : N) (frag : bool) (cap : N) (s : bst) (l : blabel) : option bst :=
  if calm s l then bstep est frag cap s l else None.

(** Handles of the aggregation. *)
Definition known (s : bst) (h : nat) : Prop := h = bCur s \/ In h (map fst (bSwaps s)).

(** Where the handle received from the channel stands. *)
Definition due (s : bst) (f : fpc) (h : nat) : Prop :=
  hDone (bH s h) = true \/
  match f with FNew | FSwap _ => h = bCur s | FSend k _ | FWrite k _ | FClose k _ => h = k | FRet _ _ => False end.

Definition newer (s : bst) (f : fpc) : Prop := match f with FSwap n => (bCur s < n)%nat | _ => True end.

Definition loopOk (s : bst) (l : lpc) : Prop :=
  match l with
  | LConn f => newer s f
  | LSelect => True
  | LFlush from f => newer s f /\ match from with Some h => known s h /\ due s f h | None => True end
  | LRearm from id => In id (map fst (bSwaps s)) /\ match from with Some h => known s h /\ hDone (bH s h) = true | None => True end
  | LRelease h => known s h /\ hDone (bH s h) = true
  | LEnd => False
  end.

Record oinv (s : bst) : Prop := {
  o_state : bState s = SessionStateEstablished;
  o_ctx : bCtx s = false;
  o_closer : bCloser s = CNone;
  o_chan : bNowClosed s = false;
  o_panic : bPanic s = false;
  o_now : forall w h, bW s w = WNow h -> hFrag (bH s h) = false;
  o_mono : forall h, In h (map fst (bSwaps s)) -> (h < bCur s)%nat;
  o_last : (bLoopLast s < bCur s)%nat;
  o_loop : loopOk s (bLoop s)
}.

Lemma init_oinv : oinv initBatch.
Proof. constructor; cbn; auto; try discriminate; try tauto. Qed.

(** Handles of the aggregation are the current one or swapped ones. *)
Lemma held_known : forall est cap s w h, binv est cap s -> holds (bW s w) = Some h -> hFrag (bH s h) = false -> known s h.
Proof.
  intros est cap s w h B H F. destruct (w_hold _ (v_w _ _ _ B) w h H) as [_ [K|[m K]]]; [congruence|].
  rewrite (a_acc _ _ _ (v_core _ _ _ B)) in K. apply in_app_iff in K. destruct K as [K|K].
  - apply in_flat_map in K. destruct K as [[k b] [K1 K2]]. unfold tagged in K2. apply in_map_iff in K2.
    destruct K2 as [e [K2 _]]. cbn in K2. injection K2 as K2 K3. subst k. right. eapply in_fst; eauto.
  - unfold tagged in K. apply in_map_iff in K. destruct K as [e [K _]]. cbn in K. injection K as K K3. left. auto.
Qed.

Lemma known_lt : forall est cap s h, binv est cap s -> known s h -> (h < bNext s)%nat.
Proof.
  intros est cap s h B [->|H]; [apply (a_cur _ _ _ (v_core _ _ _ B))|]. apply (a_swaps _ _ _ (v_core _ _ _ B)) in H. apply H.
Qed.

Lemma swaps_done : forall est cap s h, binv est cap s -> bCloser s = CNone -> owned (lf s) = None -> In h (map fst (bSwaps s)) ->
  hDone (bH s h) = true.
Proof.
  intros est cap s h B Hc Ho H. apply in_map_iff in H. destruct H as [[k b] [E H]]. cbn in E. subst.
  destruct (a_done _ _ _ (v_core _ _ _ B) h b H) as [[D _]|[D|D]]; auto; [congruence|].
  unfold cf in D. rewrite Hc in D. discriminate.
Qed.

(** Changes that respect what the sender relies on. *)
Lemma loopOk_frame : forall s s' l, loopOk s l -> bCur s' = bCur s -> bSwaps s' = bSwaps s ->
  (forall h, known s h -> hDone (bH s h) = true -> hDone (bH s' h) = true) -> loopOk s' l.
Proof.
  intros s s' l H E1 E2 Hd. unfold loopOk, newer, known, due in *. rewrite E1, E2 in *.
  destruct l as [f| |from f|from id|h|]; auto.
  - destruct H as [H1 H2]. split; auto. destruct from as [h|]; auto. destruct H2 as [K [D|D]]; auto.
  - destruct H as [H1 H2]. split; auto. destruct from as [h|]; auto. destruct H2 as [K D]; auto.
  - destruct H as [K D]. auto.
Qed.

Lemma oinv_frame : forall est cap s s', binv est cap s -> oinv s ->
  bState s' = bState s -> bCtx s' = bCtx s -> bCloser s' = bCloser s -> bNowClosed s' = bNowClosed s -> bPanic s' = false ->
  bCur s' = bCur s -> bSwaps s' = bSwaps s -> bLoopLast s' = bLoopLast s -> hle s s' ->
  (forall w h, bW s' w = WNow h -> hFrag (bH s' h) = false) -> loopOk s (bLoop s') -> oinv s'.
Proof.
  intros est cap s s' B O E1 E2 E3 E4 E5 E6 E7 E8 [L1 L2] HW HL. destruct O. constructor; try congruence; auto.
  - rewrite E6, E7. auto.
  - eapply loopOk_frame; eauto. intros h Kn D. destruct (L2 h (known_lt _ _ _ _ B Kn)) as [_ K]. rewrite K; auto.
Qed.

Lemma oinv_upw : forall est cap s w v, binv est cap s -> oinv s -> (forall h, v = WNow h -> hFrag (bH s h) = false) -> oinv (up_w s w v).
Proof.
  intros est cap s w v B O Hv. apply (oinv_frame est cap s); auto; try apply O; try reflexivity.
  - apply hle_refl; reflexivity.
  - bcbn. intros w' h. unfold fupd. destruct (Nat.eqb_spec w' w); auto. apply (o_now _ O).
Qed.

Lemma oinv_loop : forall est cap s l, binv est cap s -> oinv s -> loopOk s l -> oinv (up_loop s l).
Proof.
  intros est cap s l B O H. apply (oinv_frame est cap s); auto; try apply O; try reflexivity. apply hle_refl; reflexivity.
Qed.

Lemma oinv_receive : forall est cap s h, binv est cap s -> oinv s -> atSelect s = true -> known s h -> oinv (receive s h).
Proof.
  intros est cap s h B O Hs Hh. unfold receive. apply (oinv_loop est cap); auto. destruct (select_owned s Hs) as [Ho _].
  assert (D : h = bCur s \/ hDone (bH s h) = true).
  { destruct Hh as [|Hh]; auto. right. eapply swaps_done; eauto; [apply O|]. rewrite Ho. reflexivity. }
  destruct (Nat.leb_spec h (bLoopLast s)).
  - cbn. split; auto. destruct D as [->|]; auto. pose proof (o_last _ O). lia.
  - cbn. unfold due. tauto.
Qed.

(** A flush step of the sender. *)
Lemma fstep_due : forall est cap s f c s' f', binv est cap s -> lf s = f -> fstep est s f c = Some (s', f') ->
  (forall h, known s h -> known s' h) /\
  (newer s f -> newer s' f' /\ (bCur s <= bCur s')%nat /\
     ((forall h, In h (map fst (bSwaps s)) -> (h < bCur s)%nat) -> forall h, In h (map fst (bSwaps s')) -> (h < bCur s')%nat)) /\
  (forall h, known s h -> due s f h -> due s' f' h).
Proof.
  intros est cap s f c s' f' B Hl H.
  pose proof (v_core _ _ _ B) as C. rewrite Hl in C.
  destruct (fstep_frame _ _ _ _ _ _ _ C H) as ([_ L] & K & _).
  split; [exact K|].
  assert (Dn : forall h, known s h -> hDone (bH s h) = true -> hDone (bH s' h) = true).
  { intros h Kn D. destruct (L h (known_lt _ _ _ _ B Kn)) as [_ E]. rewrite E; auto. }
  pose proof (a_f _ _ _ C) as F.
  destruct f as [|n|h b|h b|h b|h b]; cbn [fstep] in H.
  - destruct c; try discriminate. injection H as <- <-. split.
    + intros _. cbn [newer]. bcbn. pose proof (a_cur _ _ _ C) as [Q _]. repeat split; auto.
    + intros h Kn [D|D]; [left; auto|right; exact D].
  - destruct c; try discriminate. injection H as <- <-. split.
    + cbn [newer]. bcbn. intros Q. repeat split; auto; [lia|]. intros Hm h. rewrite map_app, in_app_iff. cbn.
      intros [H|[<-|[]]]; auto. specialize (Hm _ H). lia.
    + intros h Kn [D|D]; [left; auto|right; exact D].
  - assert (G : newer s' f' /\ bCur s' = bCur s /\ bSwaps s' = bSwaps s /\ (f' = FWrite h b \/ f' = FClose h b)).
    { destruct b; [destruct c; try discriminate; injection H as <- <-; cbn; auto|]. destruct c; try discriminate.
      - cbn [estSeen] in H. destruct (_ <? _); [injection H as <- <-; cbn; auto|]. destruct (isDoneState _); injection H as <- <-; cbn; auto.
      - destruct (_ && _); [injection H as <- <-; cbn; auto|discriminate].
      - destruct (estSeen _ _ _); [|discriminate]. destruct (_ <? _); [injection H as <- <-; cbn; auto|].
        destruct (isDoneState _); injection H as <- <-; cbn; auto. }
    destruct G as (G1 & G2 & G3 & G4). rewrite G2, G3. split; [auto|].
    intros k Kn [D|D]; [left; auto|right]. destruct G4 as [->| ->]; exact D.
  - split; [destruct c; try discriminate; injection H as <- <-; cbn; auto|].
    intros k Kn [D|D]; [left; auto|right]. destruct c; try discriminate; injection H as <- <-; exact D.
  - cbn [fok] in F. destruct F as (F1 & F2 & F3). destruct c; try discriminate. rewrite F2 in H. injection H as <- <-. split; [cbn; auto|].
    intros k Kn [D|D]; [left; auto|left]. subst k. bcbn. rewrite fupd_same. reflexivity.
  - discriminate.
Qed.

Lemma step_oinv : forall est frag cap s l s', binv est cap s -> oinv s -> est + 53 < 2^32 -> est + 9 <= cap ->
  cstep est frag cap s l = Some s' -> oinv s'.
Proof.
  intros est frag cap s l s' B O Hest Hcap H. unfold cstep in H. destruct (calm s l) eqn:Hc; [|discriminate].
  unfold bstep in H. rewrite (o_panic _ O) in H. pose proof (o_loop _ O) as OL.
  destruct l; cbn [calm] in Hc; try discriminate.
  - destruct (bW s w) eqn:Ew; try discriminate. destruct (isInternal t); [discriminate|].
    destruct (est <? _); [destruct frag|]; inv_some.
    + eapply oinv_upw; [apply binv_alloc; eauto| |discriminate].
      apply (oinv_frame est cap s); auto; try apply O; try reflexivity; [apply hle_alloc|].
      bcbn. intros w' h K. rewrite fupd_other; [apply (o_now _ O) in K; auto|].
      assert ((h < bNext s)%nat); [|lia]. apply (w_hold _ (v_w _ _ _ B) w' h). rewrite K. reflexivity.
    + apply (oinv_upw est cap); auto. discriminate.
    + apply (oinv_upw est cap); auto. discriminate.
  - destruct (bW s w) eqn:Ew; try discriminate. destruct c; try discriminate.
    + inv_some. apply (oinv_upw est cap); auto. discriminate.
    + rewrite (o_state _ O) in H. discriminate.
  - destruct (bW s w) eqn:Ew; try discriminate. destruct (estSeen est s c) as [e|] eqn:Ee; [|discriminate].
    assert (He : e = est).
    { unfold estSeen in Ee. destruct c; try (injection Ee as <-; reflexivity). rewrite (o_state _ O) in Ee. discriminate. }
    subst e. rewrite packetSizeOf_small in H by lia. unfold messagesContainerHeadersSize in H.
    destruct (N.ltb_spec (est + 53) (44 + batchLen (bBuf s) + len m)).
    + destruct (bBuf s); inv_some; (apply (oinv_upw est cap); auto; discriminate).
    + destruct (N.ltb_spec cap (batchLen (bBuf s) + len m)); [lia|]. inv_some.
      apply (oinv_frame est cap s); auto; try apply O; try reflexivity; [apply hle_refl; reflexivity|].
      bcbn. intros w' h. unfold fupd. destruct (Nat.eqb_spec w' w); [discriminate|]. apply (o_now _ O).
  - destruct (bW s w) eqn:Ew; try discriminate. rewrite (o_chan _ O) in H.
    assert (O' : oinv (up_w s w (WSent m h))) by (apply (oinv_upw est cap); auto; discriminate).
    destruct delivered; [|inv_some; auto]. destruct (atSelect s) eqn:Es; [|discriminate]. inv_some.
    apply (oinv_receive est cap); auto.
    + apply (step_binv est frag cap s (BAsk w false)); auto. unfold bstep. rewrite (o_panic _ O), Ew, (o_chan _ O). reflexivity.
    + apply (w_wait _ (v_w _ _ _ B) w). rewrite Ew. reflexivity.
  - destruct (bW s w) eqn:Ew; try discriminate. destruct (_ || _); [|discriminate]. inv_some. apply (oinv_upw est cap); auto. discriminate.
  - destruct (bW s w) eqn:Ew; try discriminate. inv_some. apply (oinv_upw est cap); auto. destruct (isDoneState _); discriminate.
  - destruct (bW s w) eqn:Ew; try discriminate. destruct c.
    + destruct (bCtx s); [|discriminate]. inv_some. apply (oinv_upw est cap); auto. discriminate.
    + destruct (hDone _); [|discriminate]. inv_some. apply (oinv_upw est cap); auto. discriminate.
    + destruct (bBuf s); [|discriminate]. inv_some. apply (oinv_upw est cap); auto. discriminate.
    + destruct (bBuf s); [discriminate|]. destruct (atSelect s) eqn:Es; [|discriminate]. inv_some.
      apply (oinv_receive est cap); auto. apply (w_wait _ (v_w _ _ _ B) w). rewrite Ew. reflexivity.
  - destruct (bW s w) eqn:Ew; try discriminate. inv_some. apply (oinv_upw est cap); auto. discriminate.
  - destruct (bW s w) eqn:Ew; try discriminate. inv_some. apply (oinv_upw est cap); auto. intros k K. injection K as <-.
    destruct (hFrag _); [discriminate|reflexivity].
  - destruct (bW s w) eqn:Ew; try discriminate. rewrite (o_chan _ O) in H.
    destruct (atSelect s) eqn:Es; [|discriminate]. inv_some.
    assert (B' : binv est cap (up_w s w (WWait h))).
    { apply binv_upw; auto. apply winv_set; auto; try discriminate; [apply (v_w _ _ _ B)|]. intros k K. apply (w_hold _ (v_w _ _ _ B)).
      rewrite Ew. exact K. }
    apply (oinv_receive est cap); auto.
    + apply (oinv_upw est cap); auto. discriminate.
    + exact (held_known est cap s w h B ltac:(rewrite Ew; reflexivity) (o_now _ O w h Ew)).
  - destruct (bW s w) eqn:Ew; try discriminate. destruct (if viaCtx then _ else _); [|discriminate]. inv_some.
    apply (oinv_upw est cap); auto. discriminate.
  - destruct (Nat.ltb_spec h (bNext s)); [|discriminate]. destruct (hFrag (bH s h)) eqn:Ef; [|discriminate].
    destruct (hDone (bH s h)) eqn:Ed; [discriminate|]. cbn [negb andb] in H. inv_some.
    apply (oinv_frame est cap s); auto; try apply O; try reflexivity.
    + eapply hle_set with (h := h); bcbn; eauto.
    + bcbn. intros w k K. unfold fupd. destruct (Nat.eqb_spec k h) as [->|]; [|apply (o_now _ O w); auto].
      apply (o_now _ O) in K. congruence.
  - destruct (bTimer s); try discriminate. inv_some. apply (oinv_frame est cap s); auto; try apply O; try reflexivity.
    apply hle_refl; reflexivity.
  - destruct (bLoop s) eqn:El; try discriminate. destruct (bTimer s); try discriminate. inv_some.
    apply (oinv_frame est cap s); auto; try apply O; try reflexivity; [apply hle_refl; reflexivity|]. cbn. auto.
  - destruct (bLoop s); try discriminate. rewrite (o_ctx _ O) in H. discriminate.
  - destruct (bLoop s) as [f| |from f|from id|h|] eqn:El; try discriminate.
    + assert (Hlf : lf s = f) by (unfold lf; rewrite El; reflexivity).
      assert (G : forall s1 f', fstep est s f c = Some (s1, f') -> oinv (up_loop s1 (LConn f'))).
      { intros s1 f' K. pose proof (v_core _ _ _ B) as C. rewrite Hlf in C.
        destruct (core_fstep _ _ _ _ _ _ _ C K (o_panic _ O)) as [_ P'].
        destruct (fstep_frame _ _ _ _ _ _ _ C K) as (F1 & F2 & F3 & F4 & F5 & F6 & F7 & F8 & F9 & F10 & F11 & F12).
        destruct (fstep_due _ _ _ _ _ _ _ B Hlf K) as (D1 & D2 & D3). cbn [loopOk] in OL. destruct (D2 OL) as (D4 & D5 & D6).
        constructor; bcbn; rewrite ?F3, ?F5, ?F6, ?F10, ?F11, ?F12; try apply O; auto.
        - intros w h Q. destruct F1 as [_ F1]. rewrite (proj1 (F1 h ltac:(apply (w_hold _ (v_w _ _ _ B) w h); rewrite Q; reflexivity))).
          eapply o_now; eauto.
        - apply D6. apply (o_mono _ O).
        - pose proof (o_last _ O). lia. }
      destruct f as [|n|h b|h b|h b|h b];
        try (match type of H with match ?x with _ => _ end = _ => destruct x as [[s1 f']|] eqn:Ex end; [|discriminate]; inv_some;
             exact (G _ _ eq_refl)).
      destruct c; try discriminate. inv_some. apply (oinv_loop est cap); auto. destruct b; exact I.
    + assert (Hlf : lf s = f) by (unfold lf; rewrite El; reflexivity).
      assert (G : forall s1 f', fstep est s f c = Some (s1, f') -> oinv (up_loop s1 (LFlush from f'))).
      { intros s1 f' K. pose proof (v_core _ _ _ B) as C. rewrite Hlf in C.
        destruct (core_fstep _ _ _ _ _ _ _ C K (o_panic _ O)) as [_ P'].
        destruct (fstep_frame _ _ _ _ _ _ _ C K) as (F1 & F2 & F3 & F4 & F5 & F6 & F7 & F8 & F9 & F10 & F11 & F12).
        destruct (fstep_due _ _ _ _ _ _ _ B Hlf K) as (D1 & D2 & D3). cbn [loopOk] in OL. destruct OL as [OL1 OL2].
        destruct (D2 OL1) as (D4 & D5 & D6).
        constructor; bcbn; rewrite ?F3, ?F5, ?F6, ?F10, ?F11, ?F12; try apply O; auto.
        - intros w h Q. destruct F1 as [_ F1]. rewrite (proj1 (F1 h ltac:(apply (w_hold _ (v_w _ _ _ B) w h); rewrite Q; reflexivity))).
          eapply o_now; eauto.
        - apply D6. apply (o_mono _ O).
        - pose proof (o_last _ O). lia.
        - cbn [loopOk]. split; auto. destruct from as [h|]; auto. destruct OL2 as [Kn Du]. split; [exact (D1 h Kn)|exact (D3 h Kn Du)]. }
      destruct f as [|n|h b|h b|h b|h b];
        try (match type of H with match ?x with _ => _ end = _ => destruct x as [[s1 f']|] eqn:Ex end; [|discriminate]; inv_some;
             exact (G _ _ eq_refl)).
      destruct c; try discriminate. inv_some. apply (oinv_loop est cap); auto. cbn [loopOk] in *. destruct OL as [_ OL]. split.
      * pose proof (a_f _ _ _ (v_core _ _ _ B)) as F. rewrite Hlf in F. cbn [fok] in F. destruct F as [F _]. eapply in_fst; eauto.
      * destruct from as [k|]; auto. destruct OL as [Kn [D|[]]]. auto.
    + destruct c; try discriminate. inv_some. cbn [loopOk] in OL. destruct OL as [OL1 OL2].
      assert (Q : oinv (up_loopLast s id)).
      { pose proof (o_mono _ O id OL1). destruct O. constructor; auto. }
      assert (Q2 : oinv (if Nat.ltb id (bLast s) then up_timer s TArmed else s)).
      { destruct (Nat.ltb _ _); auto. apply (oinv_frame est cap s); auto; try apply O; try reflexivity. apply hle_refl; reflexivity. }
      pose proof (o_mono _ O id OL1) as Hid.
      assert (Q3 : loopOk s (afterRelease from)) by (destruct from; cbn; auto).
      destruct (Nat.ltb _ _); destruct O; constructor; auto; exact (loopOk_frame s _ _ Q3 eq_refl eq_refl (fun _ _ K => K)).
    + destruct c; try discriminate. cbn [loopOk] in OL. rewrite (proj2 OL) in H. cbn [orb] in H. inv_some.
      apply (oinv_loop est cap); auto. exact I.
  - rewrite (o_closer _ O) in H. discriminate.
Qed.

(** ** The sender alone finishes the job *)

Definition quiet (s : bst) : Prop := bLoop s = LSelect /\ bBuf s = [].

(** What the sender (and its timer) does next. *)
Definition drive (s : bst) : option blabel :=
  match bLoop s with
  | LSelect => match bBuf s, bTimer s with
               | [], _ => None
               | _, TArmed => Some BFire
               | _, TFired => Some BTimer
               | _, TOff => None
               end
  | LEnd => None
  | _ => Some (BSender FcGo)
  end.

Definition frank (f : fpc) : nat :=
  match f with FNew => 6 | FSwap _ => 5 | FSend _ _ => 4 | FWrite _ _ => 3 | FClose _ _ => 2 | FRet _ _ => 1 end.

Definition more {A} (l : list A) (n : nat) : nat := match l with [] => 0 | _ => n end.

Definition work (s : bst) : nat :=
  (match bLoop s with
  | LSelect => more (bBuf s) (30 + match bTimer s with TArmed => 2 | TFired => 1 | TOff => 0 end)
  | LFlush _ (FNew as f) | LFlush _ (FSwap _ as f) => 10 + frank f
  | LFlush _ f => 10 + frank f + more (bBuf s) 100
  | LRearm _ _ => 9 + more (bBuf s) 100
  | LRelease _ => 8 + more (bBuf s) 100
  | LConn (FNew as f) | LConn (FSwap _ as f) => 220 + frank f + more (bBuf s) 20
  | LConn (FSend _ b as f) | LConn (FWrite _ b as f) | LConn (FClose _ b as f) | LConn (FRet _ b as f) =>
      210 + frank f + more b 20 + more b (more (bBuf s) 30)
  | LEnd => 0
  end)%nat.

Definition quietStep (s s' : bst) : Prop :=
  (work s' < work s)%nat /\ bAccepted s' = bAccepted s /\ bW s' = bW s /\
  exists l, bWire s' = bWire s ++ l /\ forall x, In x l -> snd x = true.

Lemma quietStep_nowire : forall s s', (work s' < work s)%nat -> bAccepted s' = bAccepted s -> bW s' = bW s -> bWire s' = bWire s ->
  quietStep s s'.
Proof. intros s s' H1 H2 H3 H4. split; [|split; [|split]]; auto. exists []. rewrite app_nil_r. split; auto. Qed.

Lemma drive_step : forall est frag cap s l, binv est cap s -> oinv s -> est + 53 < 2^32 -> drive s = Some l ->
  exists s', cstep est frag cap s l = Some s' /\ quietStep s s'.
Proof.
  intros est frag cap s l B O Hest H. unfold drive in H.
  pose proof (v_core _ _ _ B) as C. pose proof (a_f _ _ _ C) as F. pose proof (o_loop _ O) as OL.
  assert (HS : forall h b, In (h, b) (bSwaps s) -> (packetSizeOf est <? add32 messagesContainerHeadersSize (u32 (batchLen b))) = false).
  { intros h b K. rewrite packetSizeOf_small by lia. destruct (v_sizes _ _ _ B) as [_ Hs]. destruct (Hs h b K) as [S1 _].
    assert (len (concat (map eMsg b)) = batchLen b) by reflexivity.
    unfold add32, u32, messagesContainerHeadersSize. rewrite (N.mod_small (batchLen b)) by lia. rewrite N.mod_small by lia.
    apply N.ltb_ge. lia. }
  destruct (bLoop s) as [f| |from f|from id|h|] eqn:El; try discriminate.
  - injection H as <-. unfold cstep, calm, bstep. rewrite (o_panic _ O), El. unfold lf in F. rewrite El in F.
    destruct f as [|n|h b|h b|h b|h b]; cbn [fstep fok] in F |- *.
    + eexists. split; [reflexivity|]. apply quietStep_nowire; try reflexivity. unfold work. rewrite El. bcbn. cbn. lia.
    + eexists. split; [reflexivity|]. apply quietStep_nowire; try reflexivity. unfold work. rewrite El. bcbn. destruct (bBuf s); cbn; lia.
    + destruct b as [|e b].
      * eexists. split; [reflexivity|]. apply quietStep_nowire; try reflexivity. unfold work. rewrite El. bcbn. cbn. lia.
      * destruct F as [F _]. cbn [estSeen]. rewrite (HS _ _ F), (o_state _ O). cbn [isDoneState].
        eexists. split; [reflexivity|]. apply quietStep_nowire; try reflexivity. unfold work. rewrite El. bcbn. cbn. lia.
    + eexists. split; [reflexivity|]. repeat split; try (exists [(h, b, true)]; split; [reflexivity|]; intros x [<-|[]]; reflexivity).
      unfold work. rewrite El. bcbn. cbn. lia.
    + destruct F as (_ & F & _). rewrite F. eexists. split; [reflexivity|]. apply quietStep_nowire; try reflexivity. unfold work. rewrite El. bcbn. cbn. lia.
    + eexists. split; [reflexivity|]. apply quietStep_nowire; try reflexivity. unfold work. rewrite El. bcbn.
      destruct b, (bBuf s), (bTimer s); cbn; lia.
  - destruct (bBuf s) eqn:Eb; [discriminate|]. destruct (bTimer s) eqn:Et; try discriminate; injection H as <-; unfold cstep, calm, bstep; rewrite (o_panic _ O), Et, ?El.
    + eexists. split; [reflexivity|]. apply quietStep_nowire; try reflexivity. unfold work. bcbn. rewrite El, Eb, Et. cbn. lia.
    + eexists. split; [reflexivity|]. apply quietStep_nowire; try reflexivity. unfold work. bcbn. rewrite El, Eb, Et. cbn. lia.
  - injection H as <-. unfold cstep, calm, bstep. rewrite (o_panic _ O), El. unfold lf in F. rewrite El in F.
    destruct f as [|n|h b|h b|h b|h b]; cbn [fstep fok] in F |- *.
    + eexists. split; [reflexivity|]. apply quietStep_nowire; try reflexivity. unfold work. rewrite El. bcbn. cbn. lia.
    + eexists. split; [reflexivity|]. apply quietStep_nowire; try reflexivity. unfold work. rewrite El. bcbn. destruct (bBuf s); cbn; lia.
    + destruct b as [|e b].
      * eexists. split; [reflexivity|]. apply quietStep_nowire; try reflexivity. unfold work. rewrite El. bcbn. cbn. lia.
      * destruct F as [F _]. cbn [estSeen]. rewrite (HS _ _ F), (o_state _ O). cbn [isDoneState].
        eexists. split; [reflexivity|]. apply quietStep_nowire; try reflexivity. unfold work. rewrite El. bcbn. cbn. lia.
    + eexists. split; [reflexivity|]. repeat split; try (exists [(h, b, true)]; split; [reflexivity|]; intros x [<-|[]]; reflexivity).
      unfold work. rewrite El. bcbn. cbn. lia.
    + destruct F as (_ & F & _). rewrite F. eexists. split; [reflexivity|]. apply quietStep_nowire; try reflexivity. unfold work. rewrite El. bcbn. cbn. lia.
    + eexists. split; [reflexivity|]. apply quietStep_nowire; try reflexivity. unfold work. rewrite El. bcbn. cbn. lia.
  - injection H as <-. unfold cstep, calm, bstep. rewrite (o_panic _ O), El.
    eexists. split; [reflexivity|]. apply quietStep_nowire; try (destruct (Nat.ltb _ _); reflexivity).
    unfold work. rewrite El. destruct (Nat.ltb _ _), from; bcbn; cbn [afterRelease]; destruct (bBuf s), (bTimer s); cbn; lia.
  - injection H as <-. unfold cstep, calm, bstep. rewrite (o_panic _ O), El. cbn [loopOk] in OL. rewrite (proj2 OL). cbn [orb].
    eexists. split; [reflexivity|]. apply quietStep_nowire; try reflexivity.
    unfold work. rewrite El. bcbn. destruct (bBuf s), (bTimer s); cbn; lia.
Qed.

Lemma drive_none : forall est cap s, binv est cap s -> oinv s -> drive s = None -> quiet s.
Proof.
  intros est cap s B O H. unfold drive in H. pose proof (o_loop _ O) as OL. unfold quiet.
  destruct (bLoop s) eqn:El; try discriminate; [|destruct OL]. split; auto.
  destruct (bBuf s) eqn:Eb; auto. destruct (v_timer _ _ _ B) as [K|K]; try congruence.
  - destruct (bTimer s); congruence.
  - rewrite El in K. discriminate.
Qed.

Definition senderLabel (l : blabel) : Prop := match l with BSender FcGo | BFire | BTimer => True | _ => False end.

Lemma drive_label : forall s l, drive s = Some l -> senderLabel l.
Proof.
  intros s l H. unfold drive in H. destruct (bLoop s); try discriminate; try (injection H as <-; exact I).
  destruct (bBuf s), (bTimer s); try discriminate; injection H as <-; exact I.
Qed.

Lemma drive_run : forall est frag cap s, binv est cap s -> oinv s -> est + 53 < 2^32 -> est + 9 <= cap ->
  exists ls s', Forall senderLabel ls /\ exec (cstep est frag cap) s ls = Some s' /\ binv est cap s' /\ oinv s' /\ quiet s' /\
    bAccepted s' = bAccepted s /\ bW s' = bW s /\ exists l, bWire s' = bWire s ++ l /\ forall x, In x l -> snd x = true.
Proof.
  intros est frag cap s B O He Hc. remember (work s) as n eqn:E. revert s B O E.
  induction n as [n IH] using (well_founded_induction lt_wf). intros s B O E.
  destruct (drive s) as [l|] eqn:Ed.
  - destruct (drive_step est frag cap s l B O He Ed) as [s1 [S1 [Q1 [Q2 [Q3 [l1 [Q4 Q5]]]]]]].
    assert (O1 : oinv s1) by (eapply step_oinv; eauto).
    assert (B1 : binv est cap s1).
    { unfold cstep in S1. destruct (calm s l); [|discriminate]. eapply step_binv; eauto. }
    destruct (IH (work s1) ltac:(lia) s1 B1 O1 eq_refl) as (ls & s' & R1 & R2 & R3 & R4 & R5 & R6 & R7 & l2 & R8 & R9).
    exists (l :: ls), s'. split; [constructor; auto; eapply drive_label; eauto|]. split; [cbn [exec]; rewrite S1; exact R2|].
    split; [auto|]. split; [auto|]. split; [auto|]. split; [congruence|]. split; [congruence|].
    exists (l1 ++ l2). split; [rewrite R8, Q4, app_assoc; reflexivity|]. intros x. rewrite in_app_iff. intros [K|K]; auto.
  - exists [], s. split; [constructor|]. split; [reflexivity|]. split; [auto|]. split; [auto|]. split; [eapply drive_none; eauto|].
    split; [auto|]. split; [auto|]. exists []. rewrite app_nil_r. split; auto.
Qed.

Lemma tagged_snd : forall l, map snd (flat_map tagged l) = flat_map snd (nonempty l).
Proof.
  induction l as [|[h b] l IH]; auto. cbn [flat_map]. rewrite map_app, IH. unfold tagged. cbn [fst snd]. rewrite map_map. cbn. rewrite map_id.
  destruct b; cbn; auto.
Qed.

Lemma quiet_all : forall est cap s, binv est cap s -> oinv s -> quiet s ->
  map snd (bAccepted s) = flat_map (fun x => snd (fst x)) (bWire s) /\
  (forall w h, holds (bW s w) = Some h -> hFrag (bH s h) = false -> hDone (bH s h) = true).
Proof.
  intros est cap s B O [Q1 Q2]. pose proof (v_core _ _ _ B) as C.
  assert (A : bAccepted s = flat_map tagged (bSwaps s)).
  { rewrite (a_acc _ _ _ C), Q2. unfold tagged at 2. cbn. apply app_nil_r. }
  split.
  - pose proof (v_exact _ _ _ B (o_state _ O)) as E. unfold exact, lf in E. rewrite Q1 in E. cbn in E. rewrite app_nil_r in E.
    rewrite A, tagged_snd, E. clear. induction (bWire s) as [|[[h b] ok] l IH]; auto. cbn. f_equal. exact IH.
  - intros w h H F. destruct (w_hold _ (v_w _ _ _ B) w h H) as [_ [K|[m K]]]; [congruence|].
    rewrite A in K. apply in_flat_map in K. destruct K as [[k b] [K1 K2]]. unfold tagged in K2. apply in_map_iff in K2.
    destruct K2 as [e [K2 _]]. cbn in K2. injection K2 as K2 K3. subst k.
    eapply swaps_done; eauto; [apply O| |eapply in_fst; eauto]. unfold lf. rewrite Q1. reflexivity.
Qed.
