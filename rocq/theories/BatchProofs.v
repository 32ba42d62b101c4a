(** Invariants of message aggregation. *)
From Coq Require Import NArith List Bool Lia Arith.
From Verif Require Import Base BaseLemmas TS MessageModel ReaderModel ReaderLoopModel BatchModel.
Import ListNotations.
Local Open Scope N_scope.

Ltac bcbn := cbn [bBuf bCur bNext bH bState bCtx bTimer bLast bLoop bLoopLast bNowClosed bCloser bW bAccepted bSwaps bWire bPanic
  up_w up_loop up_closer up_timer up_loopLast up_nowClosed up_state up_ctx up_panic up_handle alloc swap wire append
  hDone hErr hFrag newHandle fst snd eW eMsg] in *.

(** The flush in progress of the sender and of Close; [FNew] also stands for
    "none". *)
Definition lf (s : bst) : fpc := match bLoop s with LConn f | LFlush _ f => f | _ => FNew end.
Definition cf (s : bst) : fpc := match bCloser s with CFlush f => f | _ => FNew end.

Definition owned (f : fpc) : option nat :=
  match f with FSwap n => Some n | FSend h _ | FWrite h _ | FClose h _ => Some h | _ => None end.

Definition settled (s : bst) (h : nat) (b : list entry) : Prop :=
  (hErr (bH s h) = None -> b = [] \/ In (h, b, true) (bWire s)) /\
  (hErr (bH s h) <> None -> forall b', ~ In (h, b', true) (bWire s)).

Definition unsent (s : bst) (h : nat) : Prop := forall b ok, ~ In (h, b, ok) (bWire s).

Definition fok (s : bst) (f : fpc) : Prop :=
  match f with
  | FNew => True
  | FSwap n => (n < bNext s)%nat /\ n <> bCur s /\ ~ In n (map fst (bSwaps s)) /\ bH s n = newHandle false
  | FSend h b => In (h, b) (bSwaps s) /\ bH s h = newHandle false /\ unsent s h
  | FWrite h b => In (h, b) (bSwaps s) /\ bH s h = newHandle false /\ unsent s h /\ b <> []
  | FClose h b => In (h, b) (bSwaps s) /\ hDone (bH s h) = false /\ settled s h b
  | FRet h b => In (h, b) (bSwaps s) /\ hDone (bH s h) = true
  end.

Definition tagged (p : nat * list entry) : list (nat * entry) := map (fun e => (fst p, e)) (snd p).

Record core (s : bst) (f g : fpc) : Prop := {
  a_cur : (bCur s < bNext s)%nat /\ bH s (bCur s) = newHandle false;
  a_nodup : NoDup (bCur s :: map fst (bSwaps s));
  a_swaps : forall h, In h (map fst (bSwaps s)) -> (h < bNext s)%nat /\ hFrag (bH s h) = false;
  a_f : fok s f;
  a_g : fok s g;
  a_fg : forall n, owned f = Some n -> owned g <> Some n;
  a_done : forall h b, In (h, b) (bSwaps s) ->
             (hDone (bH s h) = true /\ settled s h b) \/ owned f = Some h \/ owned g = Some h;
  a_acc : bAccepted s = flat_map tagged (bSwaps s) ++ tagged (bCur s, bBuf s);
  a_wire : forall h b ok, In (h, b, ok) (bWire s) -> In (h, b) (bSwaps s);
  a_wnodup : NoDup (map (fun x => fst (fst x)) (bWire s))
}.

Lemma core_sym : forall s f g, core s f g -> core s g f.
Proof.
  intros s f g C. destruct C. constructor; auto.
  - intros n Hg Hf. eapply a_fg0; eauto.
  - intros h b H. destruct (a_done0 h b H) as [|[|]]; auto.
Qed.

Lemma NoDup_map_inj : forall A B (f : A -> B) l x y, NoDup (map f l) -> In x l -> In y l -> f x = f y -> x = y.
Proof.
  induction l as [|a l IH]; intros x y N Hx Hy E; [destruct Hx|].
  cbn in N. inversion N as [|? ? N1 N2]; subst.
  destruct Hx as [->|Hx], Hy as [->|Hy]; auto.
  - exfalso. apply N1. rewrite E. apply in_map. auto.
  - exfalso. apply N1. rewrite <- E. apply in_map. auto.
Qed.

Lemma NoDup_app_one : forall A (l : list A) x, NoDup l -> ~ In x l -> NoDup (l ++ [x]).
Proof.
  induction l as [|a l IH]; intros x N H; cbn; [constructor; auto; constructor|].
  inversion N; subst. constructor.
  - rewrite in_app_iff. cbn. intros [|[|[]]]; auto. subst. apply H. left. reflexivity.
  - apply IH; auto. intros K. apply H. right. auto.
Qed.

Lemma swaps_fun : forall s f g h b b', core s f g -> In (h, b) (bSwaps s) -> In (h, b') (bSwaps s) -> b = b'.
Proof.
  intros s f g h b b' C H H'. pose proof (a_nodup _ _ _ C) as N. inversion N; subst.
  assert (E : (h, b) = (h, b')) by (eapply NoDup_map_inj with (f := fst); eauto). congruence.
Qed.

Lemma in_fst : forall A B (a : A) (b : B) l, In (a, b) l -> In a (map fst l).
Proof. intros. change a with (fst (a, b)). apply in_map. auto. Qed.

(** Changes that the core invariant does not see. *)
Lemma core_frame : forall s s' f g, core s f g ->
  bCur s' = bCur s -> bNext s' = bNext s -> bH s' = bH s -> bSwaps s' = bSwaps s -> bBuf s' = bBuf s ->
  bAccepted s' = bAccepted s -> bWire s' = bWire s -> core s' f g.
Proof.
  intros s s' f g C E1 E2 E3 E4 E5 E6 E7.
  assert (Fok : forall x, fok s x -> fok s' x).
  { intros x. unfold fok, settled, unsent. destruct x; rewrite ?E1, ?E2, ?E3, ?E4, ?E7; auto. }
  destruct C. constructor; unfold settled in *; rewrite ?E1, ?E2, ?E3, ?E4, ?E5, ?E6, ?E7; auto.
Qed.

(** A handle nobody of the core uses changes, or a new one appears. *)
Lemma fok_handles : forall s s' x, fok s x ->
  bCur s' = bCur s -> (bNext s <= bNext s')%nat -> bSwaps s' = bSwaps s -> bWire s' = bWire s ->
  (forall h, In h (map fst (bSwaps s)) \/ owned x = Some h -> bH s' h = bH s h) -> fok s' x.
Proof.
  intros s s' x F E1 E2 E4 E7 Hh.
  destruct x; cbn [fok] in *; unfold settled, unsent in *; rewrite ?E1, ?E4, ?E7; auto.
  - destruct F as (F1 & F2 & F3 & F4). rewrite Hh by (right; reflexivity). repeat split; auto; lia.
  - destruct F as (F1 & F2 & F3). rewrite Hh by (right; reflexivity). auto.
  - destruct F as (F1 & F2 & F3). rewrite Hh by (right; reflexivity). auto.
  - destruct F as (F1 & F2 & F3). rewrite Hh by (right; reflexivity). auto.
  - destruct F as (F1 & F2). rewrite Hh by (left; eapply in_fst; eauto). auto.
Qed.

Lemma core_handles : forall s s' f g, core s f g ->
  bCur s' = bCur s -> (bNext s <= bNext s')%nat -> bSwaps s' = bSwaps s -> bBuf s' = bBuf s ->
  bAccepted s' = bAccepted s -> bWire s' = bWire s ->
  (forall h, (h = bCur s \/ In h (map fst (bSwaps s)) \/ owned f = Some h \/ owned g = Some h) -> bH s' h = bH s h) ->
  core s' f g.
Proof.
  intros s s' f g C E1 E2 E4 E5 E6 E7 Hh. destruct C. constructor.
  - rewrite E1, Hh by auto. destruct a_cur0. split; auto; lia.
  - rewrite E1, E4. auto.
  - intros h H. rewrite E4 in H. destruct (a_swaps0 h H). rewrite Hh by auto. split; auto; lia.
  - eapply fok_handles; eauto. intros h [H|H]; apply Hh; auto.
  - eapply fok_handles; eauto. intros h [H|H]; apply Hh; auto.
  - auto.
  - intros h b H. rewrite E4 in H. unfold settled. rewrite Hh by (right; left; eapply in_fst; eauto). rewrite E7. apply a_done0; auto.
  - rewrite E1, E4, E5, E6. auto.
  - intros h b ok H. rewrite E7 in H. rewrite E4. eauto.
  - rewrite E7. auto.
Qed.

Lemma owned_lt : forall s f g h, core s f g -> owned f = Some h -> (h < bNext s)%nat.
Proof.
  intros s f g h C H. pose proof (a_f _ _ _ C) as F.
  destruct f; cbn [owned fok] in *; try discriminate; injection H as ->.
  - apply F.
  - destruct F as [F _]. apply in_fst in F. apply (a_swaps _ _ _ C) in F. apply F.
  - destruct F as [F _]. apply in_fst in F. apply (a_swaps _ _ _ C) in F. apply F.
  - destruct F as [F _]. apply in_fst in F. apply (a_swaps _ _ _ C) in F. apply F.
Qed.

Lemma core_alloc : forall s f g frag, core s f g -> core (alloc s frag) f g.
Proof.
  intros s f g frag C. eapply core_handles; eauto; bcbn; auto.
  intros h H. apply fupd_other. intros ->. destruct H as [H|[H|[H|H]]].
  - destruct (a_cur _ _ _ C). lia.
  - apply (a_swaps _ _ _ C) in H. lia.
  - apply (owned_lt _ _ _ _ C) in H. lia.
  - apply core_sym in C. apply (owned_lt _ _ _ _ C) in H. lia.
Qed.

(** The handle owned by [f] changes. *)
Lemma core_own : forall s s' f g h f', core s f g -> owned f = Some h -> In h (map fst (bSwaps s)) ->
  bCur s' = bCur s -> bNext s' = bNext s -> bSwaps s' = bSwaps s -> bBuf s' = bBuf s -> bAccepted s' = bAccepted s ->
  (forall h', h' <> h -> bH s' h' = bH s h') -> hFrag (bH s' h) = false ->
  (bWire s' = bWire s \/ (unsent s h /\ exists b ok, bWire s' = bWire s ++ [(h, b, ok)] /\ In (h, b) (bSwaps s))) ->
  fok s' f' -> (owned f' = Some h \/ owned f' = None /\ (forall b, In (h, b) (bSwaps s) -> hDone (bH s' h) = true /\ settled s' h b)) ->
  core s' f' g.
Proof.
  intros s s' f g h f' C Ho Hin E1 E2 E4 E5 E6 Hh Hf Hw Hf' Ho'.
  assert (Hwin : forall h' b ok, h' <> h -> (In (h', b, ok) (bWire s') <-> In (h', b, ok) (bWire s))).
  { intros h' b ok Hne. destruct Hw as [->|(_ & b' & ok' & -> & _)]; [tauto|].
    rewrite in_app_iff. cbn [In]. split; [|auto]. intros [|[K|[]]]; auto. congruence. }
  assert (Hset : forall h' b, h' <> h -> settled s h' b -> settled s' h' b).
  { intros h' b Hne [S1 S2]. unfold settled. rewrite Hh by auto. split.
    - intros K. destruct (S1 K) as [|]; auto. right. apply Hwin; auto.
    - intros K b' K'. apply Hwin in K'; auto. eapply S2; eauto. }
  assert (Hcur : h <> bCur s).
  { intros ->. pose proof (a_nodup _ _ _ C) as N. inversion N; subst. auto. }
  assert (Hg : owned g <> Some h) by (eapply a_fg; eauto).
  constructor.
  - rewrite E1, E2, Hh by auto. apply (a_cur _ _ _ C).
  - rewrite E1, E4. apply (a_nodup _ _ _ C).
  - intros h' H. rewrite E4 in H. rewrite E2. destruct (Nat.eq_dec h' h) as [->|Hne].
    + split; auto. apply (a_swaps _ _ _ C); auto.
    + rewrite Hh by auto. apply (a_swaps _ _ _ C); auto.
  - auto.
  - pose proof (a_g _ _ _ C) as G.
    assert (Hgret : forall b, g = FRet h b -> False).
    { intros b ->. cbn [fok] in G. destruct G as [_ G]. pose proof (a_f _ _ _ C) as F.
      destruct f; cbn [owned fok] in *; try discriminate; injection Ho as ->.
      - destruct F as (_ & _ & F & _). contradiction.
      - destruct F as (_ & F & _). rewrite F in G. discriminate.
      - destruct F as (_ & F & _). rewrite F in G. discriminate.
      - destruct F as (_ & F & _). congruence. }
    assert (Huns : forall h', h' <> h -> unsent s h' -> unsent s' h').
    { intros h' Hne U b ok K. apply Hwin in K; auto. eapply U; eauto. }
    destruct g as [|n|k b|k b|k b|k b]; cbn [fok owned] in *; auto; rewrite ?E1, ?E2, ?E4.
    + rewrite Hh by congruence. auto.
    + assert (k <> h) by congruence. rewrite Hh by auto. destruct G as (G1 & G2 & G3). auto.
    + assert (k <> h) by congruence. rewrite Hh by auto. destruct G as (G1 & G2 & G3 & G4). auto.
    + assert (k <> h) by congruence. rewrite Hh by auto. destruct G as (G1 & G2 & G3). auto.
    + destruct (Nat.eq_dec k h) as [->|Hne]; [exfalso; eapply Hgret; eauto|]. rewrite Hh by auto. auto.
  - intros n Hn. destruct Ho' as [K|[K _]]; congruence.
  - intros h' b H. rewrite E4 in H. destruct (Nat.eq_dec h' h) as [->|Hne].
    + destruct Ho' as [K|[_ K]]; auto.
    + destruct (a_done _ _ _ C h' b H) as [[D S]|[D|D]]; auto.
      * left. rewrite Hh by auto. split; auto.
      * congruence.
  - rewrite E1, E4, E5, E6. apply (a_acc _ _ _ C).
  - intros h' b ok H. rewrite E4. destruct Hw as [K|(_ & b' & ok' & K & Kin)]; rewrite K in H; [apply (a_wire _ _ _ C) in H; auto|].
    apply in_app_iff in H. destruct H as [H|[H|[]]]; [apply (a_wire _ _ _ C) in H; auto|]. congruence.
  - destruct Hw as [->|(U & b' & ok' & -> & _)]; [apply (a_wnodup _ _ _ C)|].
    rewrite map_app. cbn [map fst]. apply NoDup_app_one; [apply (a_wnodup _ _ _ C)|].
    intros K. apply in_map_iff in K. destruct K as [[[h' b] ok] [K1 K2]]. cbn in K1. subst. eapply U; eauto.
Qed.

Lemma core_swap : forall s g n, core s (FSwap n) g -> core (swap s n) (FSend (bCur s) (bBuf s)) g.
Proof.
  intros s g n C. pose proof (a_f _ _ _ C) as F. cbn [fok] in F. destruct F as (F1 & F2 & F3 & F4).
  pose proof (a_cur _ _ _ C) as [K1 K2]. pose proof (a_nodup _ _ _ C) as N. inversion N as [|? ? N1 N2]; subst.
  assert (Hun : unsent s (bCur s)).
  { intros b ok H. apply (a_wire _ _ _ C) in H. apply in_fst in H. auto. }
  constructor.
  - bcbn. auto.
  - bcbn. rewrite map_app. cbn [map fst]. constructor.
    + rewrite in_app_iff. cbn. intros [|[|[]]]; auto.
    + apply NoDup_app_one; auto.
  - bcbn. intros h. rewrite map_app, in_app_iff. cbn [map fst In]. intros [H|[<-|[]]]; [apply (a_swaps _ _ _ C); auto|].
    rewrite K2. auto.
  - cbn [fok]. bcbn. rewrite in_app_iff. cbn. repeat split; auto.
  - pose proof (a_g _ _ _ C) as G. pose proof (a_fg _ _ _ C) as FG. cbn [owned] in FG.
    destruct g as [|k|k b|k b|k b|k b]; cbn [fok owned] in *; auto; unfold settled, unsent in *; bcbn; rewrite ?map_app, ?in_app_iff in *.
    + destruct G as (G1 & G2 & G3 & G4). repeat split; auto.
      * intros ->. eapply FG; reflexivity.
      * cbn. intros [|[|[]]]; auto.
    + destruct G as (G1 & G2). auto.
    + destruct G as (G1 & G2). auto.
    + destruct G as (G1 & G2). auto.
    + destruct G as (G1 & G2). auto.
  - intros k Hk Hg. cbn [owned] in Hk. injection Hk as <-. pose proof (a_g _ _ _ C) as G.
    destruct g as [|k|k b|k b|k b|k b]; cbn [fok owned] in *; try discriminate; injection Hg as ->.
    + destruct G as (_ & G & _). auto.
    + destruct G as (G & _). apply in_fst in G. auto.
    + destruct G as (G & _). apply in_fst in G. auto.
    + destruct G as (G & _). apply in_fst in G. auto.
  - bcbn. intros h b. rewrite in_app_iff. cbn [In owned]. intros [H|[H|[]]].
    + destruct (a_done _ _ _ C h b H) as [D|[D|D]]; auto. cbn [owned] in D. injection D as ->. apply in_fst in H. contradiction.
    + injection H as <- <-. auto.
  - bcbn. rewrite (a_acc _ _ _ C), flat_map_app. cbn [flat_map]. unfold tagged. cbn [fst snd map]. rewrite !app_nil_r. reflexivity.
  - bcbn. intros h b ok H. apply in_app_iff. left. eapply a_wire; eauto.
  - bcbn. apply (a_wnodup _ _ _ C).
Qed.

Lemma core_fstep : forall est s f g c s' f', core s f g -> fstep est s f c = Some (s', f') -> bPanic s = false ->
  core s' f' g /\ bPanic s' = false.
Proof.
  intros est s f g c s' f' C H P.
  assert (Hown : forall h, owned f = Some h -> hFrag (bH s h) = false).
  { intros h Ho. pose proof (a_f _ _ _ C) as F.
    destruct f as [|k|k b|k b|k b|k b]; cbn [fok owned] in *; try discriminate; injection Ho as ->.
    - destruct F as (_ & _ & _ & ->). reflexivity.
    - destruct F as (_ & -> & _). reflexivity.
    - destruct F as (_ & -> & _). reflexivity.
    - destruct F as (F & _). apply in_fst in F. apply (a_swaps _ _ _ C) in F. apply F. }
  destruct f as [|n|h b|h b|h b|h b]; cbn [fstep] in H.
  - destruct c; try discriminate. injection H as <- <-. split; [|exact P].
    pose proof (core_alloc s FNew g false C) as C'. destruct C'. constructor; auto.
    + cbn [fok]. bcbn. rewrite fupd_same. destruct (a_cur _ _ _ C). repeat split; auto; try lia.
      intros K. apply (a_swaps _ _ _ C) in K. lia.
    + intros k Hk Hg. cbn [owned] in Hk. injection Hk as <-. apply core_sym in C. apply (owned_lt _ _ _ _ C) in Hg. lia.
    + intros k b Hin. destruct (a_done0 k b Hin) as [D|[D|D]]; auto. discriminate.
  - destruct c; try discriminate. injection H as <- <-. split; [|exact P]. apply core_swap; auto.
  - pose proof (a_f _ _ _ C) as F. cbn [fok] in F. destruct F as (F1 & F2 & F3). pose proof (in_fst _ _ _ _ _ F1) as F1'.
    assert (Fail : forall e, core (up_handle s h {| hDone := hDone (bH s h); hErr := Some e; hFrag := hFrag (bH s h) |}) (FClose h b) g).
    { intros e. eapply core_own with (h := h) (f := FSend h b); eauto; bcbn; auto.
      - intros h' Hne. apply fupd_other; auto.
      - rewrite fupd_same. bcbn. apply Hown. reflexivity.
      - cbn [fok]. unfold settled. bcbn. rewrite fupd_same. bcbn. rewrite F2. bcbn. repeat split; auto; try discriminate;
        intros _ b' K; eapply F3; eauto. }
    assert (Nul : b = [] -> core s (FClose h b) g).
    { intros ->. eapply core_own with (h := h) (f := FSend h []); eauto.
      cbn [fok]. unfold settled. rewrite F2. bcbn. repeat split; auto; congruence. }
    assert (Wr : b <> [] -> core s (FWrite h b) g).
    { intros Hne. eapply core_own with (h := h) (f := FSend h b); eauto. cbn [fok]. auto. }
    destruct b as [|e0 b0]; [destruct c; try discriminate; injection H as <- <-; auto|].
    destruct c; try discriminate.
    + cbn [estSeen] in H. destruct (_ <? _); [injection H as <- <-; auto|]. destruct (isDoneState _); injection H as <- <-; auto.
      split; auto. apply Wr. discriminate.
    + destruct (_ && _); [injection H as <- <-; auto|discriminate].
    + destruct (estSeen _ _ _); [|discriminate]. destruct (_ <? _); [injection H as <- <-; auto|].
      destruct (isDoneState _); injection H as <- <-; auto. split; auto. apply Wr. discriminate.
  - pose proof (a_f _ _ _ C) as F. cbn [fok] in F. destruct F as (F1 & F2 & F3 & F4). pose proof (in_fst _ _ _ _ _ F1) as F1'.
    destruct c; try discriminate; injection H as <- <-; (split; [|exact P]);
      eapply core_own with (h := h) (f := FWrite h b); eauto; bcbn; auto.
    + right. split; auto. exists b, true. auto.
    + cbn [fok]. unfold settled. bcbn. rewrite F2. bcbn. repeat split; auto; try congruence.
      intros _. right. apply in_app_iff. right. left. reflexivity.
    + intros h' Hne. apply fupd_other; auto.
    + rewrite fupd_same. bcbn. rewrite F2. reflexivity.
    + right. split; auto. exists b, false. auto.
    + cbn [fok]. unfold settled. bcbn. rewrite fupd_same. bcbn. rewrite F2. bcbn. repeat split; auto; try discriminate;
      intros _ b' K; apply in_app_iff in K; destruct K as [K|[K|[]]]; [eapply F3; eauto|discriminate].
  - pose proof (a_f _ _ _ C) as F. cbn [fok] in F. destruct F as (F1 & F2 & F3). pose proof (in_fst _ _ _ _ _ F1) as F1'.
    destruct c; try discriminate. rewrite F2 in H. injection H as <- <-. split; [|exact P].
    assert (S : settled (up_handle s h {| hDone := true; hErr := hErr (bH s h); hFrag := hFrag (bH s h) |}) h b).
    { unfold settled in *. bcbn. rewrite fupd_same. bcbn. exact F3. }
    eapply core_own with (h := h) (f := FClose h b); eauto; bcbn; auto.
    + intros h' Hne. apply fupd_other; auto.
    + rewrite fupd_same. bcbn. apply Hown. reflexivity.
    + cbn [fok]. bcbn. rewrite fupd_same. auto.
    + right. split; [reflexivity|]. intros b' Hb'. rewrite fupd_same. bcbn. split; auto.
      assert (b' = b) by (eapply swaps_fun; eauto). subst. exact S.
  - discriminate.
Qed.

(** ** Writers *)

Definition holds (v : wpc) : option nat :=
  match v with WHave h | WNow h | WWait h | WRet h _ _ => Some h | _ => None end.
Definition waitsOn (v : wpc) : option nat :=
  match v with WFull _ h | WSent _ h | WTick _ h => Some h | _ => None end.

Record winv (s : bst) : Prop := {
  w_hold : forall w h, holds (bW s w) = Some h ->
             (h < bNext s)%nat /\ (hFrag (bH s h) = true \/ exists m, In (h, {| eW := w; eMsg := m |}) (bAccepted s));
  w_in : forall h e, In (h, e) (bAccepted s) -> holds (bW s (eW e)) <> None;
  w_once : NoDup (map (fun x => eW (snd x)) (bAccepted s));
  w_ret : forall w h r, bW s w = WRet h r false -> hDone (bH s h) = true /\ r = hErr (bH s h);
  w_wait : forall w h, waitsOn (bW s w) = Some h -> h = bCur s \/ In h (map fst (bSwaps s))
}.

(** Handles only move forward. *)
Definition hle (s s' : bst) : Prop :=
  (bNext s <= bNext s')%nat /\
  forall h, (h < bNext s)%nat -> hFrag (bH s' h) = hFrag (bH s h) /\
    (hDone (bH s h) = true -> bH s' h = bH s h).

Lemma hle_refl : forall s s', bNext s' = bNext s -> bH s' = bH s -> hle s s'.
Proof. intros s s' E1 E2. split; [lia|]. intros h _. rewrite E2. auto. Qed.

Lemma hle_alloc : forall s b, hle s (alloc s b).
Proof.
  intros s b. split; bcbn; [lia|]. intros h H. rewrite fupd_other by lia. auto.
Qed.

Lemma hle_set : forall s s' h v, (bNext s' = bNext s) -> bH s' = fupd (bH s) h v -> hDone (bH s h) = false -> hFrag v = hFrag (bH s h) ->
  hle s s'.
Proof.
  intros s s' h v E1 E2 D F. split; [lia|]. intros k _. rewrite E2. unfold fupd.
  destruct (Nat.eqb_spec k h) as [->|]; auto. split; auto. congruence.
Qed.

Definition cursOk (s s' : bst) : Prop :=
  forall h, h = bCur s \/ In h (map fst (bSwaps s)) -> h = bCur s' \/ In h (map fst (bSwaps s')).

Lemma cursOk_refl : forall s s', bCur s' = bCur s -> bSwaps s' = bSwaps s -> cursOk s s'.
Proof. intros s s' E1 E2 h H. rewrite E1, E2. exact H. Qed.

Lemma winv_frame : forall s s', winv s -> hle s s' -> cursOk s s' -> bW s' = bW s -> bAccepted s' = bAccepted s ->
  (forall w h r, bW s w = WRet h r false -> (h < bNext s)%nat) -> winv s'.
Proof.
  intros s s' I [L1 L2] K E1 E2 R. destruct I. constructor; rewrite ?E1, ?E2; auto.
  - intros w h H. destruct (w_hold0 w h H) as [X Y]. destruct (L2 h X) as [Z _]. rewrite Z. split; auto. lia.
  - intros w h r H. destruct (w_ret0 w h r H) as [X Y]. destruct (L2 h (R _ _ _ H)) as [_ Z]. rewrite Z; auto.
  - intros w h H. apply K. eauto.
Qed.

Lemma winv_lt : forall s, winv s -> forall w h r, bW s w = WRet h r false -> (h < bNext s)%nat.
Proof. intros s I w h r H. apply (w_hold _ I w h). rewrite H. reflexivity. Qed.

Lemma winv_set : forall s w v, winv s ->
  (holds (bW s w) <> None -> holds v <> None) ->
  (forall h, holds v = Some h -> (h < bNext s)%nat /\ (hFrag (bH s h) = true \/ exists m, In (h, {| eW := w; eMsg := m |}) (bAccepted s))) ->
  (forall h r, v = WRet h r false -> hDone (bH s h) = true /\ r = hErr (bH s h)) ->
  (forall h, waitsOn v = Some h -> h = bCur s \/ In h (map fst (bSwaps s))) ->
  winv (up_w s w v).
Proof.
  intros s w v I V0 V1 V2 V3. destruct I. constructor; bcbn; auto.
  - intros w' h. unfold fupd. destruct (Nat.eqb_spec w' w) as [->|]; auto.
  - intros h e H. unfold fupd. destruct (Nat.eqb_spec (eW e) w) as [E|]; [|eauto]. apply V0. rewrite <- E. eauto.
  - intros w' h r. unfold fupd. destruct (Nat.eqb_spec w' w) as [->|]; eauto.
  - intros w' h. unfold fupd. destruct (Nat.eqb_spec w' w) as [->|]; eauto.
Qed.

Lemma winv_append : forall s w m, winv s -> holds (bW s w) = None -> (bCur s < bNext s)%nat -> winv (append s w m).
Proof.
  intros s w m I Hn Hc. destruct I. constructor; bcbn.
  - intros w' h. unfold fupd. destruct (Nat.eqb_spec w' w) as [->|].
    + cbn [holds]. intros H. injection H as <-. split; auto. right. exists m. apply in_app_iff. right. left. reflexivity.
    + intros H. destruct (w_hold0 w' h H) as [X [Y|[m' Y]]]; split; auto. right. exists m'. apply in_app_iff. auto.
  - intros h e H. unfold fupd. destruct (Nat.eqb_spec (eW e) w) as [E|]; [cbn; discriminate|].
    apply in_app_iff in H. destruct H as [H|[H|[]]]; [eauto|]. injection H as <- <-. cbn in n. congruence.
  - rewrite map_app. cbn [map snd eW]. apply NoDup_app_one; auto.
    intros K. apply in_map_iff in K. destruct K as [[h e] [K1 K2]]. cbn in K1. apply w_in0 in K2. rewrite K1 in K2. auto.
  - intros w' h r. unfold fupd. destruct (Nat.eqb_spec w' w) as [->|]; [discriminate|eauto].
  - intros w' h. unfold fupd. destruct (Nat.eqb_spec w' w) as [->|]; [discriminate|eauto].
Qed.

(** What a flush step does to the rest of the state. *)
Lemma fstep_frame : forall est s f g c s' f', core s f g -> fstep est s f c = Some (s', f') ->
  hle s s' /\ cursOk s s' /\ bW s' = bW s /\ bAccepted s' = bAccepted s /\ bState s' = bState s /\ bCtx s' = bCtx s /\
  bTimer s' = bTimer s /\ bLast s' = bLast s /\ bLoop s' = bLoop s /\ bCloser s' = bCloser s /\ bLoopLast s' = bLoopLast s /\
  bNowClosed s' = bNowClosed s.
Proof.
  intros est s f g c s' f' C H. pose proof (a_f _ _ _ C) as F.
  destruct f as [|n|h b|h b|h b|h b]; cbn [fstep] in H.
  - destruct c; try discriminate. injection H as <- <-. split; [apply hle_alloc|]. split; [apply cursOk_refl; reflexivity|]. repeat split.
  - destruct c; try discriminate. injection H as <- <-. split; [apply hle_refl; reflexivity|]. split; [|repeat split].
    intros h [->|H]; right; bcbn; rewrite map_app, in_app_iff; cbn; auto.
  - cbn [fok] in F. destruct F as (F1 & F2 & F3).
    assert (Fail : forall e s1, s1 = up_handle s h {| hDone := hDone (bH s h); hErr := Some e; hFrag := hFrag (bH s h) |} -> hle s s1).
    { intros e s1 ->. eapply hle_set with (h := h); bcbn; eauto. rewrite F2. reflexivity. }
    destruct b as [|e0 b0]; [destruct c; try discriminate; injection H as <- <-; (split; [apply hle_refl; reflexivity|]; split; [apply cursOk_refl; reflexivity|]; repeat split)|].
    assert (G : forall s1 f1, fstep est s (FSend h (e0 :: b0)) c = Some (s1, f1) -> s1 = s \/ exists e, s1 = up_handle s h {| hDone := hDone (bH s h); hErr := Some e; hFrag := hFrag (bH s h) |}).
    { intros s1 f1 K. cbn [fstep] in K. destruct c; try discriminate.
      - cbn [estSeen] in K. destruct (_ <? _); [injection K as <- <-; eauto|]. destruct (isDoneState _); injection K as <- <-; eauto.
      - destruct (_ && _); [injection K as <- <-; eauto|discriminate].
      - destruct (estSeen _ _ _); [|discriminate]. destruct (_ <? _); [injection K as <- <-; eauto|].
        destruct (isDoneState _); injection K as <- <-; eauto. }
    destruct (G s' f') as [->|[e ->]]; [exact H| |].
    + split; [apply hle_refl; reflexivity|]. split; [apply cursOk_refl; reflexivity|]. repeat split.
    + split; [eapply Fail; reflexivity|]. split; [apply cursOk_refl; reflexivity|]. repeat split.
  - cbn [fok] in F. destruct F as (F1 & F2 & F3).
    destruct c; try discriminate; injection H as <- <-; (split; [|split; [apply cursOk_refl; reflexivity|repeat split]]).
    + apply hle_refl; reflexivity.
    + eapply hle_set with (h := h); bcbn; eauto. rewrite F2. reflexivity.
  - cbn [fok] in F. destruct F as (F1 & F2 & F3). destruct c; try discriminate. rewrite F2 in H. injection H as <- <-.
    split; [|split; [apply cursOk_refl; reflexivity|repeat split]]. eapply hle_set with (h := h); bcbn; eauto.
  - discriminate.
Qed.

(** ** Order of the packets *)

Inductive subseq {A} : list A -> list A -> Prop :=
| ss_nil : forall l, subseq [] l
| ss_take : forall x a b, subseq a b -> subseq (x :: a) (x :: b)
| ss_skip : forall x a b, subseq a b -> subseq a (x :: b).

Lemma subseq_app_r : forall A (a b c : list A), subseq a b -> subseq a (b ++ c).
Proof. intros A a b c H. induction H; cbn; constructor; auto. Qed.

Lemma subseq_app_l : forall A (c a b : list A), subseq a b -> subseq a (c ++ b).
Proof. induction c; intros; cbn; auto. apply ss_skip. auto. Qed.

Lemma subseq_snoc : forall A (a l1 l2 : list A) x, subseq a l1 -> subseq (a ++ [x]) (l1 ++ x :: l2).
Proof.
  intros A a l1 l2 x H. induction H; cbn.
  - apply subseq_app_l. apply ss_take. apply ss_nil.
  - apply ss_take. auto.
  - apply ss_skip. auto.
Qed.

Definition inflight (f : fpc) : list (nat * list entry) := match f with FSend h b | FWrite h b => [(h, b)] | _ => [] end.

Definition ord (s : bst) (f : fpc) : Prop :=
  match inflight f with
  | x :: _ => exists l1 l2, bSwaps s = l1 ++ x :: l2 /\ subseq (map fst (bWire s)) l1
  | [] => subseq (map fst (bWire s)) (bSwaps s)
  end.

Definition nonempty (l : list (nat * list entry)) : list (nat * list entry) :=
  filter (fun x => match snd x with [] => false | _ => true end) l.

Lemma nonempty_app : forall a b, nonempty (a ++ b) = nonempty a ++ nonempty b.
Proof. intros. apply filter_app. Qed.

Definition exact (s : bst) (f : fpc) : Prop := nonempty (bSwaps s) = map fst (bWire s) ++ nonempty (inflight f).

Definition sizeOk (est cap : N) (b : list entry) : Prop := 44 + batchLen b <= est + 53 /\ batchLen b <= cap.

Definition sizes (est cap : N) (s : bst) : Prop :=
  sizeOk est cap (bBuf s) /\ forall h b, In (h, b) (bSwaps s) -> sizeOk est cap b.

Lemma packetSizeOf_small : forall e, e + 53 < 2^32 -> packetSizeOf e = e + 53.
Proof.
  intros e H. unfold packetSizeOf, add32, messagesContainerHeadersSize, messageHeadersSize.
  rewrite (N.mod_small (e + 44)) by lia. rewrite N.mod_small by lia. lia.
Qed.

Lemma fstep_sizes : forall est cap s f c s' f', sizes est cap s -> fstep est s f c = Some (s', f') -> sizes est cap s'.
Proof.
  intros est cap s f c s' f' [Z1 Z2] H.
  destruct f as [|n|h b|h b|h b|h b]; cbn [fstep] in H.
  - destruct c; try discriminate. injection H as <- <-. split; auto.
  - destruct c; try discriminate. injection H as <- <-. split; bcbn.
    + change (batchLen []) with 0. destruct Z1. unfold sizeOk. change (batchLen []) with 0. lia.
    + intros h b H. apply in_app_iff in H. destruct H as [H|[H|[]]]; [eauto|]. injection H as <- <-. auto.
  - destruct b; [destruct c; try discriminate; injection H as <- <-; split; auto|].
    destruct c; try discriminate.
    + cbn [estSeen] in H. destruct (_ <? _); [injection H as <- <-; split; auto|]. destruct (isDoneState _); injection H as <- <-; split; auto.
    + destruct (_ && _); [injection H as <- <-; split; auto|discriminate].
    + destruct (estSeen _ _ _); [|discriminate]. destruct (_ <? _); [injection H as <- <-; split; auto|].
      destruct (isDoneState _); injection H as <- <-; split; auto.
  - destruct c; try discriminate; injection H as <- <-; split; auto.
  - destruct c; try discriminate. destruct (hDone _); injection H as <- <-; split; auto.
  - discriminate.
Qed.

Lemma fstep_ord : forall est s f c s' f', ord s f -> fstep est s f c = Some (s', f') -> ord s' f'.
Proof.
  intros est s f c s' f' O H.
  assert (Drop : forall h b, ord s (FSend h b) -> subseq (map fst (bWire s)) (bSwaps s)).
  { intros h b (l1 & l2 & E & S). rewrite E. apply subseq_app_r. auto. }
  destruct f as [|n|h b|h b|h b|h b]; cbn [fstep] in H.
  - destruct c; try discriminate. injection H as <- <-. exact O.
  - destruct c; try discriminate. injection H as <- <-. exists (bSwaps s), []. split; [reflexivity|exact O].
  - destruct b; [destruct c; try discriminate; injection H as <- <-; eapply Drop; eauto|].
    destruct c; try discriminate.
    + cbn [estSeen] in H. destruct (_ <? _); [injection H as <- <-; eapply Drop; eauto|].
      destruct (isDoneState _); injection H as <- <-; [eapply Drop; eauto|exact O].
    + destruct (_ && _); [injection H as <- <-; eapply Drop; eauto|discriminate].
    + destruct (estSeen _ _ _); [|discriminate]. destruct (_ <? _); [injection H as <- <-; eapply Drop; eauto|].
      destruct (isDoneState _); injection H as <- <-; [eapply Drop; eauto|exact O].
  - destruct O as (l1 & l2 & E & S).
    destruct c; try discriminate; injection H as <- <-; unfold ord; cbn [inflight]; bcbn; rewrite map_app, E; apply subseq_snoc; auto.
  - destruct c; try discriminate. destruct (hDone _); injection H as <- <-; exact O.
  - discriminate.
Qed.

(** Another goroutine flushes without writing. *)
Lemma fstep_ord_other : forall est s f c s' f' g, ord s g -> fstep est s f c = Some (s', f') -> (forall h b, f <> FWrite h b) -> ord s' g.
Proof.
  intros est s f c s' f' g O H NW.
  assert (K : bWire s' = bWire s /\ exists l, bSwaps s' = bSwaps s ++ l).
  { destruct f as [|n|h b|h b|h b|h b]; cbn [fstep] in H.
    - destruct c; try discriminate. injection H as <- <-. split; auto. exists []. rewrite app_nil_r. reflexivity.
    - destruct c; try discriminate. injection H as <- <-. split; auto. eexists. reflexivity.
    - split; [|exists []; rewrite app_nil_r]; (destruct b; [destruct c; try discriminate; injection H as <- <-; reflexivity|];
        destruct c; try discriminate;
        [cbn [estSeen] in H; destruct (_ <? _); [injection H as <- <-; reflexivity|]; destruct (isDoneState _); injection H as <- <-; reflexivity
        |destruct (_ && _); [injection H as <- <-; reflexivity|discriminate]
        |destruct (estSeen _ _ _); [|discriminate]; destruct (_ <? _); [injection H as <- <-; reflexivity|]; destruct (isDoneState _); injection H as <- <-; reflexivity]).
    - exfalso. eapply NW. reflexivity.
    - destruct c; try discriminate. destruct (hDone _); injection H as <- <-; split; auto; exists []; rewrite app_nil_r; reflexivity.
    - discriminate. }
  destruct K as [E [l E']]. unfold ord in *. rewrite E, E'. destruct (inflight g) as [|x r].
  - apply subseq_app_r. auto.
  - destruct O as (l1 & l2 & -> & S). exists l1, (l2 ++ l). split; auto. rewrite <- app_assoc. reflexivity.
Qed.

Lemma fstep_exact : forall est cap s f g c s' f', core s f g -> sizes est cap s -> est + 53 < 2^32 -> exact s f ->
  bState s = SessionStateEstablished -> fstep est s f c = Some (s', f') -> exact s' f'.
Proof.
  intros est cap s f g c s' f' C Z Hest X E H. pose proof (a_f _ _ _ C) as F.
  destruct f as [|n|h b|h b|h b|h b]; cbn [fstep] in H.
  - destruct c; try discriminate. injection H as <- <-. exact X.
  - destruct c; try discriminate. injection H as <- <-. unfold exact in *. cbn [inflight] in *. bcbn.
    rewrite nonempty_app, X. cbn [nonempty filter]. rewrite app_nil_r. reflexivity.
  - destruct b as [|e0 b0]; [destruct c; try discriminate; injection H as <- <-; exact X|].
    cbn [fok] in F. destruct F as [F _]. apply (proj2 Z) in F. destruct F as [F _].
    destruct c; try discriminate.
    + cbn [estSeen] in H. rewrite packetSizeOf_small in H by auto. unfold messagesContainerHeadersSize in H.
      unfold add32, u32 in H. rewrite (N.mod_small (batchLen _)) in H by lia. rewrite N.mod_small in H by lia.
      destruct (N.ltb_spec (est + 53) (44 + batchLen (e0 :: b0))); [lia|]. rewrite E in H. cbn in H. injection H as <- <-. exact X.
    + rewrite E in H. discriminate.
    + cbn [estSeen] in H. rewrite E in H. discriminate.
  - cbn [fok] in F. destruct F as (_ & _ & _ & F).
    destruct c; try discriminate; injection H as <- <-; unfold exact in *; cbn [inflight] in *; bcbn; rewrite X, map_app;
      cbn [map fst]; destruct b; try congruence; cbn [nonempty filter snd]; rewrite app_nil_r; reflexivity.
  - destruct c; try discriminate. destruct (hDone _); injection H as <- <-; exact X.
  - discriminate.
Qed.

(** ** Everything together *)

Definition aboutToSwap (l : lpc) : bool := match l with LFlush None FNew | LFlush None (FSwap _) => true | _ => false end.

Record binv (est cap : N) (s : bst) : Prop := {
  v_core : core s (lf s) (cf s);
  v_w : winv s;
  v_sizes : sizes est cap s;
  v_ord : ord s (lf s);
  v_exact : bState s = SessionStateEstablished -> exact s (lf s);
  v_state : bState s = SessionStateEstablished \/ bState s = SessionStateClosing \/ bState s = SessionStateClosed;
  v_closer : bCloser s <> CNone -> bState s <> SessionStateEstablished;
  v_cw : forall h b, cf s <> FWrite h b;
  v_timer : bBuf s <> [] -> bTimer s <> TOff \/ aboutToSwap (bLoop s) = true
}.

Lemma init_binv : forall est cap, binv est cap initBatch.
Proof.
  intros est cap. constructor; cbn.
  - constructor; cbn; auto; try tauto; try (constructor; auto; constructor); try discriminate.
  - constructor; cbn; try discriminate; try tauto. constructor.
  - split; [|cbn; tauto]. unfold sizeOk. cbn [bBuf initBatch]. change (batchLen []) with 0. lia.
  - constructor.
  - reflexivity.
  - auto.
  - congruence.
  - discriminate.
  - congruence.
Qed.

Lemma core_idle : forall s f g, core s f g -> owned f = None -> core s FNew g.
Proof.
  intros s f g C H. destruct C. constructor; auto; try exact I; try discriminate.
  intros h b K. destruct (a_done0 h b K) as [D|[D|D]]; auto. congruence.
Qed.

Lemma inflight_owned : forall f, owned f = None -> inflight f = [].
Proof. intros []; cbn; congruence. Qed.

(** Steps outside the buffer, the handles and the flushes. *)
Lemma binv_gen : forall est cap s s', binv est cap s ->
  bBuf s' = bBuf s -> bCur s' = bCur s -> bNext s' = bNext s -> bH s' = bH s -> bSwaps s' = bSwaps s ->
  bAccepted s' = bAccepted s -> bWire s' = bWire s -> bW s' = bW s ->
  (lf s' = lf s \/ lf s' = FNew /\ owned (lf s) = None) -> (cf s' = cf s \/ cf s' = FNew /\ owned (cf s) = None) ->
  (bState s' = bState s \/ bState s' = SessionStateClosing \/ bState s' = SessionStateClosed) ->
  (bCloser s' <> CNone -> bState s' <> SessionStateEstablished) ->
  (bBuf s' <> [] -> bTimer s' <> TOff \/ aboutToSwap (bLoop s') = true) -> binv est cap s'.
Proof.
  intros est cap s s' B E1 E2 E3 E4 E5 E6 E7 E8 HL HC HS HK HT.
  assert (Hin : inflight (lf s') = inflight (lf s)).
  { destruct HL as [->|[-> H]]; auto. rewrite (inflight_owned _ H). reflexivity. }
  destruct B. constructor.
  - eapply core_frame with (s := s); auto.
    destruct HL as [->|[-> HL]], HC as [->|[-> HC]]; auto.
    + apply core_sym. apply core_idle with (f := cf s); auto. apply core_sym; auto.
    + eapply core_idle; eauto.
    + apply core_idle with (f := lf s); auto. apply core_sym. apply core_idle with (f := cf s); auto. apply core_sym; auto.
  - eapply winv_frame; eauto using hle_refl, cursOk_refl, winv_lt.
  - destruct v_sizes0 as [Z1 Z2]. split; rewrite ?E1, ?E5; auto.
  - unfold ord. rewrite Hin, E5, E7. exact v_ord0.
  - intros H. unfold exact. rewrite Hin, E5, E7. apply v_exact0. destruct HS as [K|[K|K]]; rewrite K in H; auto; discriminate.
  - destruct HS as [->|[|]]; auto.
  - auto.
  - intros h b H. destruct HC as [K|[K _]]; [|congruence]. rewrite K in H. eapply v_cw0; eauto.
  - auto.
Qed.

Lemma binv_upw : forall est cap s w v, binv est cap s -> winv (up_w s w v) -> binv est cap (up_w s w v).
Proof.
  intros est cap s w v B W. destruct B. constructor; auto.
  - eapply core_frame with (s := s); auto.
Qed.

Lemma fstep_buf : forall est s f c s' f', fstep est s f c = Some (s', f') -> bBuf s' <> [] -> bBuf s' = bBuf s /\ (f = FNew \/ forall n, f <> FSwap n).
Proof.
  intros est s f c s' f' H Hb. destruct f as [|n|h b|h b|h b|h b]; cbn [fstep] in H.
  - destruct c; try discriminate. injection H as <- <-. auto.
  - destruct c; try discriminate. injection H as <- <-. bcbn. congruence.
  - split; [|right; discriminate]. destruct b; [destruct c; try discriminate; injection H as <- <-; auto|]. destruct c; try discriminate.
    + cbn [estSeen] in H. destruct (_ <? _); [injection H as <- <-; auto|]. destruct (isDoneState _); injection H as <- <-; auto.
    + destruct (_ && _); [injection H as <- <-; auto|discriminate].
    + destruct (estSeen _ _ _); [|discriminate]. destruct (_ <? _); [injection H as <- <-; auto|]. destruct (isDoneState _); injection H as <- <-; auto.
  - split; [|right; discriminate]. destruct c; try discriminate; injection H as <- <-; auto.
  - split; [|right; discriminate]. destruct c; try discriminate. destruct (hDone _); injection H as <- <-; auto.
  - discriminate.
Qed.

(** The sender flushes. *)
Lemma binv_sender : forall est cap s f c s1 f' l, binv est cap s -> est + 53 < 2^32 -> bPanic s = false ->
  lf s = f -> fstep est s f c = Some (s1, f') -> lf (up_loop s1 l) = f' ->
  (aboutToSwap (bLoop s) = true -> f = FNew -> aboutToSwap l = true) ->
  (aboutToSwap (bLoop s) = true -> f = FNew \/ exists n, f = FSwap n) ->
  binv est cap (up_loop s1 l) /\ bPanic s1 = false.
Proof.
  intros est cap s f c s1 f' l B Hest P Hf H Hl HT HT2.
  pose proof (v_core _ _ _ B) as C. rewrite Hf in C.
  destruct (core_fstep _ _ _ _ _ _ _ C H P) as [C' P'].
  destruct (fstep_frame _ _ _ _ _ _ _ C H) as (F1 & F2 & F3 & F4 & F5 & F6 & F7 & F8 & F9 & F10 & F11 & F12).
  assert (Hc : cf (up_loop s1 l) = cf s) by (unfold cf; bcbn; rewrite F10; reflexivity).
  split; auto. destruct B. constructor.
  - rewrite Hl, Hc. eapply core_frame; eauto.
  - eapply winv_frame with (s := s); eauto using winv_lt.
  - exact (fstep_sizes _ _ _ _ _ _ _ v_sizes0 H).
  - rewrite Hl. rewrite Hf in v_ord0. exact (fstep_ord _ _ _ _ _ _ v_ord0 H).
  - rewrite Hl. bcbn. rewrite F5. intros E. rewrite Hf in v_exact0. exact (fstep_exact _ _ _ _ _ _ _ _ C v_sizes0 Hest (v_exact0 E) E H).
  - bcbn. rewrite F5. auto.
  - bcbn. rewrite F5, F10. auto.
  - rewrite Hc. auto.
  - bcbn. rewrite F7. intros Hb. destruct (fstep_buf _ _ _ _ _ _ H Hb) as [E K]. rewrite E in Hb.
    destruct (v_timer0 Hb) as [|A]; auto. right. apply HT; auto. destruct (HT2 A) as [|[n E']]; auto.
    destruct K as [|K]; auto. exfalso. eapply K; eauto.
Qed.

Lemma binv_closer : forall est cap s f c s1 f', binv est cap s -> est + 53 < 2^32 -> bPanic s = false ->
  bCloser s = CFlush f -> fstep est s f c = Some (s1, f') ->
  binv est cap (up_closer s1 (CFlush f')) /\ bPanic s1 = false.
Proof.
  intros est cap s f c s1 f' B Hest P Hf H.
  pose proof (v_core _ _ _ B) as C. apply core_sym in C. unfold cf in C. rewrite Hf in C.
  destruct (core_fstep _ _ _ _ _ _ _ C H P) as [C' P'].
  destruct (fstep_frame _ _ _ _ _ _ _ C H) as (F1 & F2 & F3 & F4 & F5 & F6 & F7 & F8 & F9 & F10 & F11 & F12).
  assert (Hl : lf (up_closer s1 (CFlush f')) = lf s) by (unfold lf; bcbn; rewrite F9; reflexivity).
  assert (Hne : bState s <> SessionStateEstablished) by (apply (v_closer _ _ _ B); congruence).
  pose proof (v_cw _ _ _ B) as CW. unfold cf in CW. rewrite Hf in CW.
  split; auto. destruct B. constructor.
  - rewrite Hl. apply core_sym. eapply core_frame; eauto.
  - eapply winv_frame with (s := s); eauto using winv_lt.
  - exact (fstep_sizes _ _ _ _ _ _ _ v_sizes0 H).
  - rewrite Hl. exact (fstep_ord_other _ _ _ _ _ _ _ v_ord0 H CW).
  - bcbn. rewrite F5. congruence.
  - bcbn. rewrite F5. auto.
  - bcbn. rewrite F5. auto.
  - unfold cf. bcbn. intros h b ->.
    destruct f as [|n|h0 b0|h0 b0|h0 b0|h0 b0]; cbn [fstep] in H; try (destruct c; discriminate).
    + destruct b0; [destruct c; discriminate|]. destruct c; try discriminate.
      * cbn [estSeen] in H. destruct (_ <? _); [discriminate|].
        destruct v_state0 as [|[E|E]]; [congruence| |]; rewrite E in H; discriminate.
      * destruct (_ && _); discriminate.
      * destruct (estSeen _ _ _); [|discriminate]. destruct (_ <? _); [discriminate|].
        destruct v_state0 as [|[E|E]]; [congruence| |]; rewrite E in H; discriminate.
    + destruct c; try discriminate. destruct (hDone _); discriminate.
  - bcbn. rewrite F7, F9. intros Hb. destruct (fstep_buf _ _ _ _ _ _ H Hb) as [E K]. rewrite E in Hb. auto.
Qed.

Lemma binv_alloc : forall est cap s b, binv est cap s -> binv est cap (alloc s b).
Proof.
  intros est cap s b B. destruct B. constructor; auto.
  - change (lf (alloc s b)) with (lf s). change (cf (alloc s b)) with (cf s). apply core_alloc; auto.
  - eapply winv_frame with (s := s); eauto using hle_alloc, winv_lt. apply cursOk_refl; reflexivity.
Qed.

Lemma batchLen_snoc : forall b e, batchLen (b ++ [e]) = batchLen b + len (eMsg e).
Proof. intros. unfold batchLen. rewrite map_app, concat_app, len_app. cbn. rewrite app_nil_r. reflexivity. Qed.

Lemma tagged_snoc : forall h b e, tagged (h, b ++ [e]) = tagged (h, b) ++ [(h, e)].
Proof. intros. unfold tagged. cbn [fst snd]. rewrite map_app. reflexivity. Qed.

Lemma binv_append : forall est cap s w m, binv est cap s -> holds (bW s w) = None -> 44 + batchLen (bBuf s) + len m <= est + 53 ->
  batchLen (bBuf s) + len m <= cap -> binv est cap (append s w m).
Proof.
  intros est cap s w m B Hn Z1 Z2. destruct B.
  constructor; auto.
  - change (lf (append s w m)) with (lf s). change (cf (append s w m)) with (cf s). destruct v_core0. constructor; auto.
    bcbn. rewrite a_acc0, tagged_snoc, app_assoc. reflexivity.
  - apply winv_append; auto. apply v_core0.
  - destruct v_sizes0 as [_ K]. split; auto. unfold sizeOk. bcbn. rewrite batchLen_snoc. bcbn. lia.
  - intros _. left. bcbn. discriminate.
Qed.

Ltac fin B := try first [reflexivity | assumption | left; reflexivity | right; left; reflexivity | right; right; reflexivity
  | exact (v_closer _ _ _ B) | exact (v_timer _ _ _ B) | discriminate | solve [auto]].

(** The sender receives a handle, or changes its mind otherwise. *)
Lemma binv_loop : forall est cap s l, binv est cap s -> owned (lf s) = None -> lf (up_loop s l) = FNew ->
  (bBuf s <> [] -> bTimer s <> TOff \/ aboutToSwap l = true) -> binv est cap (up_loop s l).
Proof. intros est cap s l B H1 H2 H3. apply binv_gen with (s := s); fin B. Qed.

Lemma select_owned : forall s, atSelect s = true -> lf s = FNew /\ aboutToSwap (bLoop s) = false.
Proof. intros s H. unfold atSelect, lf in *. destruct (bLoop s); try discriminate. auto. Qed.

Lemma binv_receive : forall est cap s h, binv est cap s -> atSelect s = true -> binv est cap (receive s h).
Proof.
  intros est cap s h B H. destruct (select_owned s H) as [H1 H2]. unfold receive. apply binv_loop; auto.
  - rewrite H1. reflexivity.
  - unfold lf. bcbn. destruct (Nat.leb _ _); reflexivity.
  - intros K. destruct (v_timer _ _ _ B K) as [|K']; auto. congruence.
Qed.

Ltac inv_some := match goal with H : Some _ = Some _ |- _ => injection H; clear H; intros; subst end.

Lemma step_binv : forall est frag cap s l s', binv est cap s -> est + 53 < 2^32 -> bstep est frag cap s l = Some s' -> binv est cap s'.
Proof.
  intros est frag cap s l s' B Hest H. unfold bstep in H.
  destruct (bPanic s) eqn:P; [discriminate|].
  pose proof (v_w _ _ _ B) as W.
  assert (Wr : forall w v v', bW s w = v -> (holds v <> None -> holds v' = holds v) -> (holds v = None -> holds v' = None) ->
     (forall h r, v' = WRet h r false -> hDone (bH s h) = true /\ r = hErr (bH s h)) ->
     (forall h, waitsOn v' = Some h -> waitsOn v = Some h \/ h = bCur s) -> binv est cap (up_w s w v')).
  { intros w v v' Ev H0 H1 H2 H3. apply binv_upw; auto. apply winv_set; auto.
    - rewrite Ev. intros K. rewrite H0; auto.
    - intros h K. destruct (holds v) eqn:E.
      + assert (K' : holds v' = Some n) by (apply H0; discriminate). rewrite K in K'. injection K' as ->.
        apply (w_hold _ W). rewrite Ev. exact E.
      + rewrite H1 in K; [discriminate|reflexivity].
    - intros h K. destruct (H3 h K) as [K'|K']; auto. apply (w_wait _ W w). rewrite Ev. exact K'. }
  assert (Pan : binv est cap (up_panic s)).
  { apply binv_gen with (s := s); fin B. }
  destruct l.
  - (* BWrite *)
    destruct (bW s w) eqn:Ew; try discriminate. destruct (isInternal t); [discriminate|].
    destruct (est <? _).
    + destruct frag; inv_some.
      * pose proof (binv_alloc est cap s true B) as B'. apply binv_upw; auto. apply winv_set; auto; try discriminate.
        { apply (v_w _ _ _ B'). }
        { intros h K. cbn [holds] in K. injection K as <-. bcbn. rewrite fupd_same. split; [lia|auto]. }
      * eapply Wr; eauto; cbn; try congruence; discriminate.
    + inv_some. eapply Wr; eauto; cbn; try congruence; discriminate.
  - (* BCheck *)
    destruct (bW s w) eqn:Ew; try discriminate. destruct c; try discriminate.
    + inv_some. eapply Wr; eauto; cbn; try congruence; discriminate.
    + destruct (_ && _); [|discriminate]. inv_some. eapply Wr; eauto; cbn; try congruence; discriminate.
  - (* BTry *)
    destruct (bW s w) eqn:Ew; try discriminate. destruct (estSeen est s c) as [e|] eqn:Ee; [|discriminate].
    assert (He : e <= est).
    { unfold estSeen in Ee. destruct c; try (injection Ee as <-; lia). destruct (_ && _); [injection Ee as <-; lia|discriminate]. }
    rewrite packetSizeOf_small in H by lia. unfold messagesContainerHeadersSize in H.
    destruct (N.ltb_spec (e + 53) (44 + batchLen (bBuf s) + len m)).
    + destruct (bBuf s) eqn:Eb; inv_some; (eapply Wr; eauto; cbn; try congruence; try discriminate).
      intros h K. injection K as <-. auto.
    + destruct (N.ltb_spec cap (batchLen (bBuf s) + len m)); inv_some; auto.
      apply binv_append; auto; [rewrite Ew; reflexivity|lia].
  - (* BAsk *)
    destruct (bW s w) eqn:Ew; try discriminate. destruct (bNowClosed s); [discriminate|].
    assert (B' : binv est cap (up_w s w (WSent m h))) by (eapply Wr; eauto; cbn; try congruence; try discriminate; auto).
    destruct delivered; [|inv_some; auto]. destruct (atSelect s) eqn:Es; [|discriminate]. inv_some. apply binv_receive; auto.
  - (* BGone *)
    destruct (bW s w) eqn:Ew; try discriminate. destruct (_ || _); [|discriminate]. inv_some.
    eapply Wr; eauto; cbn; try congruence; discriminate.
  - (* BIsDone *)
    destruct (bW s w) eqn:Ew; try discriminate. inv_some.
    destruct (isDoneState _); eapply Wr; eauto; cbn; try congruence; try discriminate; auto.
  - (* BTick *)
    destruct (bW s w) eqn:Ew; try discriminate.
    assert (B' : binv est cap (up_w s w (WTry m))) by (eapply Wr; eauto; cbn; try congruence; discriminate).
    destruct c.
    + destruct (bCtx s); [inv_some; auto|discriminate].
    + destruct (hDone _); [inv_some; auto|discriminate].
    + destruct (bBuf s); [inv_some; auto|discriminate].
    + destruct (bBuf s); [discriminate|]. destruct (atSelect s) eqn:Es; [|discriminate]. inv_some. apply binv_receive; auto.
  - (* BWait *)
    destruct (bW s w) eqn:Ew; try discriminate. inv_some. eapply Wr; eauto; cbn; try congruence; discriminate.
  - (* BNow *)
    destruct (bW s w) eqn:Ew; try discriminate. inv_some. eapply Wr; eauto; cbn; try congruence; discriminate.
  - (* BNowSend *)
    destruct (bW s w) eqn:Ew; try discriminate. destruct (bNowClosed s); [inv_some; auto|].
    destruct (atSelect s) eqn:Es; [|discriminate]. inv_some. apply binv_receive; auto.
    eapply Wr; eauto; cbn; try congruence; discriminate.
  - (* BReturn *)
    destruct (bW s w) eqn:Ew; try discriminate.
    destruct (if viaCtx then _ else _) eqn:Ev; [|discriminate]. inv_some. eapply Wr; eauto; cbn; try congruence; try discriminate.
    intros h0 r K. injection K as <- <- ->. auto.
  - (* BFragDone *)
    destruct (Nat.ltb_spec h (bNext s)); [|discriminate]. destruct (hFrag (bH s h)) eqn:Ef; [|discriminate].
    destruct (hDone (bH s h)) eqn:Ed; [discriminate|]. cbn [negb andb] in H. inv_some.
    pose proof (v_core _ _ _ B) as C.
    assert (NC : h <> bCur s) by (intros ->; destruct (a_cur _ _ _ C) as [_ K]; rewrite K in Ef; discriminate).
    assert (NS : ~ In h (map fst (bSwaps s))) by (intros K; apply (a_swaps _ _ _ C) in K; destruct K; congruence).
    assert (NO : forall f g, core s f g -> owned f <> Some h).
    { intros f g C' K. pose proof (a_f _ _ _ C') as F. destruct f; cbn [owned fok] in *; try discriminate; injection K as ->.
      - destruct F as (_ & _ & _ & F). rewrite F in Ef. discriminate.
      - destruct F as (F & _). apply in_fst in F. auto.
      - destruct F as (F & _). apply in_fst in F. auto.
      - destruct F as (F & _). apply in_fst in F. auto. }
    destruct B. constructor; auto.
    + eapply core_handles with (s := s); eauto. intros k K. bcbn. apply fupd_other. intros ->.
      destruct K as [K|[K|[K|K]]]; auto; [eapply NO; eauto|]. apply core_sym in C. eapply NO; eauto.
    + eapply winv_frame with (s := s); eauto using winv_lt.
      * eapply hle_set with (h := h); bcbn; eauto.
      * apply cursOk_refl; reflexivity.
  - (* BFire *)
    destruct (bTimer s) eqn:Et; try discriminate. inv_some.
    apply binv_gen with (s := s); fin B. intros _. left. discriminate.
  - (* BTimer *)
    destruct (bLoop s) eqn:El; try discriminate. destruct (bTimer s) eqn:Et; try discriminate. inv_some.
    apply binv_gen with (s := s); fin B.
    left. unfold lf. bcbn. rewrite El. reflexivity.
  - (* BStop *)
    destruct (bLoop s) eqn:El; try discriminate. destruct (bCtx s); [|discriminate]. inv_some.
    apply binv_gen with (s := s); fin B.
    + left. unfold lf. bcbn. rewrite El. reflexivity.
    + intros K. destruct (v_timer _ _ _ B K) as [|K']; auto. rewrite El in K'. discriminate.
  - (* BSender *)
    destruct (bLoop s) eqn:El; try discriminate.
    + assert (G : forall f1 s1, f = f1 -> fstep est s f1 c = Some s1 -> binv est cap (up_loop (fst s1) (LConn (snd s1)))).
      { intros f1 [s1 f'] -> K. cbn [fst snd]. apply (binv_sender est cap s f1 c s1 f' (LConn f') B Hest P); auto.
        - unfold lf. rewrite El. reflexivity.
        - rewrite El. discriminate.
        - rewrite El. discriminate. }
      destruct f as [|n|h b|h b|h b|h b];
        try (match type of H with match ?x with _ => _ end = _ => destruct x as [[s1 f']|] eqn:Ex end; [|discriminate]; inv_some;
             exact (G _ _ eq_refl Ex)).
      destruct c; try discriminate. inv_some. apply binv_loop; auto.
      * unfold lf. rewrite El. reflexivity.
      * unfold lf. bcbn. destruct b; reflexivity.
      * intros K. destruct (v_timer _ _ _ B K) as [|K']; auto. rewrite El in K'. discriminate.
    + assert (G : forall f1 s1, f = f1 -> fstep est s f1 c = Some s1 -> binv est cap (up_loop (fst s1) (LFlush from (snd s1)))).
      { intros f1 [s1 f'] -> K. cbn [fst snd]. apply (binv_sender est cap s f1 c s1 f' (LFlush from f') B Hest P); auto.
        - unfold lf. rewrite El. reflexivity.
        - rewrite El. intros K1 ->. cbn [fstep] in K. destruct c; try discriminate. inv_some. destruct from; [discriminate|reflexivity].
        - rewrite El. destruct from; [discriminate|]. destruct f1; try discriminate; eauto. }
      destruct f as [|n|h b|h b|h b|h b];
        try (match type of H with match ?x with _ => _ end = _ => destruct x as [[s1 f']|] eqn:Ex end; [|discriminate]; inv_some;
             exact (G _ _ eq_refl Ex)).
      destruct c; try discriminate. inv_some. apply binv_loop; auto.
      * unfold lf. rewrite El. reflexivity.
      * intros K. destruct (v_timer _ _ _ B K) as [|K']; auto. rewrite El in K'. destruct from; discriminate.
    + destruct c; try discriminate. inv_some.
      assert (HT : bBuf s <> [] -> bTimer s <> TOff) by (intros K; destruct (v_timer _ _ _ B K) as [|K']; auto; rewrite El in K'; discriminate).
      destruct (Nat.ltb _ _); apply binv_gen with (s := s); fin B; try (left; unfold lf; bcbn; rewrite El; destruct from; reflexivity).
      intros _. left. discriminate.
    + destruct c; try discriminate. destruct (_ || _); inv_some; auto. apply binv_loop; auto.
      * unfold lf. rewrite El. reflexivity.
      * intros K. destruct (v_timer _ _ _ B K) as [|K']; auto. rewrite El in K'. discriminate.
  - (* BClose *)
    destruct (isDoneState (bState s)) eqn:Ed; [discriminate|]. inv_some.
    apply binv_gen with (s := s); fin B.
    + right. split; [reflexivity|]. unfold cf. destruct (bCloser s) eqn:Ec; auto. exfalso.
      assert (K : bState s <> SessionStateEstablished) by (apply (v_closer _ _ _ B); congruence).
      destruct (v_state _ _ _ B) as [E|[E|E]]; [auto| |]; rewrite E in Ed; discriminate.
  - (* BCloser *)
    destruct (bCloser s) eqn:Ec; try discriminate.
    + assert (G : forall s1, fstep est s f c = Some s1 -> binv est cap (up_closer (fst s1) (CFlush (snd s1)))).
      { intros [s1 f'] K. cbn [fst snd]. eapply binv_closer with (s := s); eauto. }
      destruct f as [|n|h b|h b|h b|h b];
        try (match type of H with match ?x with _ => _ end = _ => destruct x as [[s1 f']|] eqn:Ex end; [|discriminate]; inv_some;
             exact (G _ eq_refl)).
      destruct c; try discriminate. inv_some. apply binv_gen with (s := s); fin B.
      * right. unfold cf. bcbn. rewrite Ec. destruct b; split; reflexivity.
      * intros _. apply (v_closer _ _ _ B). congruence.
    + destruct c; try discriminate. inv_some. apply binv_gen with (s := s); fin B.
      * left. unfold cf. bcbn. rewrite Ec. reflexivity.
      * intros _. apply (v_closer _ _ _ B). congruence.
  - (* BSetClosing *)
    destruct (isDoneState _); [discriminate|]. inv_some.
    apply binv_gen with (s := s); fin B.
  - (* BCancel *)
    destruct (bCtx s); [discriminate|]. inv_some.
    apply binv_gen with (s := s); fin B.
  - (* BSetClosed *)
    destruct (_ && _); [|discriminate]. inv_some.
    apply binv_gen with (s := s); fin B.
Qed.
