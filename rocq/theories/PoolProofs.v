(** Invariant of the pool of send handles. *)
From Coq Require Import ZArith NArith List Bool Lia Arith.
From Verif Require Import Base TS PoolModel.
Import ListNotations.
Local Open Scope nat_scope.

Definition isGot (o : nat) (t : token) : bool := match t with Got k => k =? o | _ => false end.
Definition isHold (o : nat) (t : token) : bool := match t with Hold k _ => k =? o | _ => false end.
Definition isPoked (o : nat) (t : token) : bool := match t with Poked k _ => k =? o | _ => false end.
Definition isPutting (o : nat) (t : token) : bool := match t with Putting k => k =? o | _ => false end.
Definition cnt (f : token -> bool) (l : list token) : nat := length (filter f l).
Definition b2n (b : bool) : nat := if b then 1 else 0.

Lemma cnt_cons : forall f t l, cnt f (t :: l) = b2n (f t) + cnt f l.
Proof. intros. unfold cnt. cbn [filter]. destruct (f t); reflexivity. Qed.

Lemma cnt_without : forall f l i t, nth_error l i = Some t -> cnt f l = b2n (f t) + cnt f (without i l).
Proof.
  intros f. induction l as [|x l IH]; intros i t H; destruct i as [|i]; cbn [nth_error] in H; try discriminate.
  - injection H as ->. unfold without. cbn [firstn skipn app]. apply cnt_cons.
  - pose proof (IH i t H) as E. unfold without in *. change (skipn (S (S i)) (x :: l)) with (skipn (S i) l).
    cbn [firstn app]. rewrite !cnt_cons. lia.
Qed.

Lemma without_in : forall l i (t : token), In t (without i l) -> In t l.
Proof.
  induction l as [|x l IH]; intros i t H.
  - destruct i; cbn in H; contradiction.
  - destruct i as [|i]; unfold without in H.
    + right. exact H.
    + change (skipn (S (S i)) (x :: l)) with (skipn (S i) l) in H. cbn [firstn app] in H.
      destruct H as [H|H]; [left; exact H|right]. apply (IH i). exact H.
Qed.

(** One object with the numbers of tokens about it. *)
Record OI (x : sobj) (g u h k : nat) : Prop := {
  oi_dead : oLive x = false -> x = newObj /\ g = 0 /\ u = 0 /\ h = 0 /\ k = 0;
  oi_excl : b2n (oPooled x) + g + u <= 1;
  oi_ref : oRef x = (Z.of_nat h + Z.of_nat k + oLeaks x)%Z;
  oi_leaks : (0 <= oLeaks x)%Z;
  oi_free : b2n (oPooled x) + g >= 1 -> oBusy x = false /\ h = 0;
  oi_putting : u >= 1 -> oBusy x = true /\ h = 0;
  oi_held : h >= 1 -> oBusy x = true;
  oi_poked : oLeaks x = 0%Z -> k >= 1 -> oBusy x = true /\ b2n (oPooled x) + g + u = 0
}.

Definition ObjInv (s : sp) (o : nat) : Prop :=
  OI (spObj s o) (cnt (isGot o) (spTok s)) (cnt (isPutting o) (spTok s)) (cnt (isHold o) (spTok s)) (cnt (isPoked o) (spTok s)).

Record SInv (s : sp) : Prop := {
  si_obj : forall o, ObjInv s o;
  si_gen : forall o g, In (Hold o g) (spTok s) -> g = oGen (spObj s o);
  si_stale : forall o g, In (Stale o g) (spTok s) -> oLive (spObj s o) = true;
  si_next : forall o, (oGen (spObj s o) <= spNext s)%N;
  si_panic : spPanic s = None \/ spPanic s = Some PanUnfinished
}.

Lemma inv_init : SInv spInit.
Proof.
  constructor; cbn.
  - intros o. constructor; cbn; auto; try lia.
  - contradiction.
  - contradiction.
  - intros o. lia.
  - auto.
Qed.

Lemma held_cnt : forall l o g, In (Hold o g) l -> cnt (isHold o) l >= 1.
Proof.
  intros l o g Hin. apply in_split in Hin. destruct Hin as (a & b & E). rewrite E.
  unfold cnt. rewrite filter_app, app_length. cbn [filter isHold]. rewrite Nat.eqb_refl. cbn [length]. lia.
Qed.

(** Which object a token is about. *)
Definition about (t : token) : nat := match t with Got o | Hold o _ | Stale o _ | Poked o _ | Putting o => o end.

Lemma other_flags : forall t k, about t <> k ->
  isGot k t = false /\ isPutting k t = false /\ isHold k t = false /\ isPoked k t = false.
Proof.
  intros t k Hn. apply Nat.eqb_neq in Hn.
  destruct t; cbn [about isGot isHold isPoked isPutting] in *; rewrite ?Hn; auto.
Qed.

(** A step that changes one object, removes at most one token about it and adds
    at most one. *)
Definition changed (s s' : sp) (o : nat) (rm : option (nat * token)) (add : option token) : Prop :=
  (forall k, k <> o -> spObj s' k = spObj s k) /\
  (match rm with Some (i, t) => nth_error (spTok s) i = Some t /\ about t = o | None => True end) /\
  (match add with Some t => about t = o | None => True end) /\
  spTok s' = (match add with Some t => [t] | None => [] end) ++
             (match rm with Some (i, _) => without i (spTok s) | None => spTok s end).

Definition flag (f : token -> bool) (t : option token) : nat := match t with Some t => b2n (f t) | None => 0 end.

Lemma changed_cnt : forall s s' o rm add f, changed s s' o rm add ->
  cnt f (spTok s') + flag f (option_map snd rm) = cnt f (spTok s) + flag f add.
Proof.
  intros s s' o rm add f (_ & C2 & _ & C4). rewrite C4. unfold cnt at 1. rewrite filter_app, app_length. fold (cnt f).
  destruct rm as [[i t]|]; cbn [option_map snd flag].
  - destruct C2 as [C2 _]. rewrite (cnt_without f _ i t C2). unfold cnt. destruct add as [a|]; cbn [filter flag length].
    + destruct (f a); cbn [length b2n]; lia.
    + lia.
  - unfold cnt. destruct add as [a|]; cbn [filter flag length]; [destruct (f a); cbn [length b2n]; lia|lia].
Qed.

Lemma changed_other : forall s s' o rm add k, changed s s' o rm add -> k <> o ->
  ObjInv s k -> ObjInv s' k.
Proof.
  intros s s' o rm add k C Hk I. unfold ObjInv in *.
  pose proof C as (C1 & C2 & C3 & _). rewrite (C1 k Hk).
  assert (F : forall f, (forall t, about t <> k -> f t = false) -> cnt f (spTok s') = cnt f (spTok s)).
  { intros f Hf. pose proof (changed_cnt _ _ _ _ _ f C) as E.
    assert (flag f (option_map snd rm) = 0).
    { destruct rm as [[i t]|]; cbn [option_map snd flag]; [|reflexivity]. destruct C2 as [_ C2]. rewrite Hf; [reflexivity|congruence]. }
    assert (flag f add = 0). { destruct add as [t|]; cbn [flag]; [|reflexivity]. rewrite Hf; [reflexivity|congruence]. }
    lia. }
  rewrite !F by (intros t Ht; apply other_flags in Ht; tauto). exact I.
Qed.

(** What is left to show for a step: the changed object. *)
Lemma changed_inv : forall s s' o rm add, SInv s -> changed s s' o rm add ->
  spPanic s' = spPanic s -> (spNext s <= spNext s')%N -> (oGen (spObj s' o) <= spNext s')%N ->
  (forall g, In (Hold o g) (spTok s') -> g = oGen (spObj s' o)) ->
  (forall g, In (Stale o g) (spTok s') -> oLive (spObj s' o) = true) ->
  ObjInv s' o -> SInv s'.
Proof.
  intros s s' o rm add I C Ep Hn Hg H1 H2 H3. pose proof C as (C1 & C2 & C3 & C4).
  assert (T : forall t, In t (spTok s') -> about t <> o -> In t (spTok s)).
  { intros t Ht Hne. rewrite C4 in Ht. apply in_app_or in Ht. destruct Ht as [Ht|Ht].
    - destruct add as [a|]; [|contradiction]. destruct Ht as [Ht|[]]. subst t. contradiction.
    - destruct rm as [[i x]|]; [apply without_in in Ht|]; exact Ht. }
  constructor.
  - intros k. destruct (Nat.eq_dec k o) as [Hk|Hk]; [subst k; exact H3|]. eapply changed_other; eauto. apply (si_obj _ I).
  - intros k g Hin. destruct (Nat.eq_dec k o) as [Hk|Hk]; [subst k; auto|]. rewrite (C1 k Hk). apply (si_gen _ I). apply T; auto.
  - intros k g Hin. destruct (Nat.eq_dec k o) as [Hk|Hk]; [subst k; eauto|]. rewrite (C1 k Hk). apply (si_stale _ I k g). apply T; auto.
  - intros k. destruct (Nat.eq_dec k o) as [Hk|Hk]; [subst k; exact Hg|]. rewrite (C1 k Hk). pose proof (si_next _ I k). lia.
  - rewrite Ep. apply (si_panic _ I).
Qed.

(** Counters of the changed object. *)
Lemma changed_cnts : forall s s' o rm add, changed s s' o rm add ->
  let r := option_map snd rm in
  cnt (isGot o) (spTok s') + flag (isGot o) r = cnt (isGot o) (spTok s) + flag (isGot o) add /\
  cnt (isPutting o) (spTok s') + flag (isPutting o) r = cnt (isPutting o) (spTok s) + flag (isPutting o) add /\
  cnt (isHold o) (spTok s') + flag (isHold o) r = cnt (isHold o) (spTok s) + flag (isHold o) add /\
  cnt (isPoked o) (spTok s') + flag (isPoked o) r = cnt (isPoked o) (spTok s) + flag (isPoked o) add.
Proof. intros s s' o rm add C r. repeat split; apply (changed_cnt _ _ _ _ _ _ C). Qed.

Ltac counts C :=
  pose proof (changed_cnts _ _ _ _ _ C) as Cn; cbn zeta in Cn; cbn [option_map snd flag isGot isPutting isHold isPoked] in Cn;
  rewrite ?Nat.eqb_refl in Cn; cbn [b2n] in Cn; destruct Cn as (Cg & Cu & Ch & Ck).

Ltac mkchanged :=
  unfold changed; split; [intros q Hq; cbn [spObj setObj setTok]; rewrite ?fupd_other by auto; reflexivity|];
  split; [try (split; [eassumption|first [reflexivity|assumption]]); exact I|]; split; [try reflexivity; exact I|]; reflexivity.

Ltac obj O := cbn [spObj setObj setTok]; rewrite fupd_same; unfold addRef, addLeak;
  destruct O as [O1 O2 O3 O4 O5 O6 O7 O8];
  constructor; cbn [oLive oPooled oBusy oRef oDone oGen oLeaks] in *; cbn [b2n] in *.

Ltac fin := intros;
  repeat match goal with
  | H : ?P -> _ |- _ =>
      lazymatch type of P with Prop =>
        let X := fresh in assert (X : P) by (assumption || lia || reflexivity || congruence); specialize (H X); clear X end
  | H : _ /\ _ |- _ => destruct H
  | H : _ = newObj |- _ => rewrite H in *; clear H; cbn [newObj oLive oPooled oBusy oRef oDone oGen oLeaks] in *
  end; repeat split; try congruence; try lia; auto.

Lemma busy_alone : forall x g u h k, OI x g u h k -> oLeaks x = 0%Z -> h + k >= 1 ->
  oBusy x = true /\ b2n (oPooled x) + g + u = 0.
Proof.
  intros x g u h k [O1 O2 O3 O4 O5 O6 O7 O8] Hl Hk.
  destruct (Nat.eq_dec h 0) as [Hz|Hz]; [apply O8; lia|]. split; [apply O7; lia|].
  destruct (Nat.eq_dec (b2n (oPooled x) + g) 0) as [Hp|Hp]; [|destruct (O5 ltac:(lia)); lia].
  destruct (Nat.eq_dec u 0) as [Hu|Hu]; [lia|destruct (O6 ltac:(lia)); lia].
Qed.

Lemma inv_step : forall s l s', SInv s -> sstep s l = Some s' -> SInv s'.
Proof.
  intros s l s' IV E. unfold sstep in E.
  destruct (spPanic s) eqn:Ep; [discriminate|]. destruct l.
  - (* SNew *)
    destruct (oLive (spObj s o)) eqn:El; [discriminate|].
    assert (C : changed s s' o None (Some (Got o))) by (injection E as <-; mkchanged).
    counts C. pose proof (si_obj _ IV o) as O. destruct (oi_dead _ _ _ _ _ O El) as (D1 & D2 & D3 & D4 & D5).
    injection E as <-. apply (changed_inv s _ o _ _ IV C); cbn [spPanic spNext spObj spTok setObj setTok] in *; auto; try lia.
    + rewrite fupd_same. cbn. lia.
    + intros g [Hin|Hin]; [discriminate|]. apply held_cnt in Hin. lia.
    + intros g _. rewrite fupd_same. reflexivity.
    + unfold ObjInv. cbn [spTok setTok setObj]. obj O; try discriminate; lia.
  - (* SGet *)
    destruct (oPooled (spObj s o)) eqn:El; [|discriminate].
    assert (C : changed s s' o None (Some (Got o))) by (injection E as <-; mkchanged).
    counts C. pose proof (si_obj _ IV o) as O. unfold ObjInv in O.
    injection E as <-. apply (changed_inv s _ o _ _ IV C); cbn [spPanic spNext spObj spTok setObj setTok] in *; auto; try lia.
    + rewrite fupd_same. apply (si_next _ IV o).
    + intros g [Hin|Hin]; [discriminate|]. rewrite fupd_same. apply (si_gen _ IV). exact Hin.
    + intros g [Hin|Hin]; [discriminate|]. rewrite fupd_same. apply (si_stale _ IV o g). exact Hin.
    + unfold ObjInv. cbn [spTok setTok setObj]. obj O; try (rewrite El in *); cbn [b2n] in *; fin.
  - (* SSet *)
    destruct (nth_error (spTok s) i) as [[o| | | |]|] eqn:En; try discriminate.
    pose proof (si_obj _ IV o) as O. unfold ObjInv in O.
    assert (Hg : cnt (isGot o) (spTok s) >= 1) by (rewrite (cnt_without _ _ _ _ En); cbn [isGot]; rewrite Nat.eqb_refl; cbn; lia).
    destruct (oi_free _ _ _ _ _ O ltac:(lia)) as [Hb Hh]. rewrite Hb in E.
    assert (C : changed s s' o (Some (i, Got o)) (Some (Hold o (spNext s + 1)))) by (injection E as <-; mkchanged).
    counts C.
    injection E as <-. apply (changed_inv s _ o _ _ IV C); cbn [spPanic spNext spObj spTok] in *; auto; try lia.
    + rewrite fupd_same. cbn [oGen]. lia.
    + rewrite fupd_same. cbn [oGen]. intros g [Hin|Hin]; [congruence|]. apply without_in, held_cnt in Hin. lia.
    + rewrite fupd_same. cbn [oLive]. intros g [Hin|Hin]; [discriminate|]. apply without_in in Hin. apply (si_stale _ IV o g Hin).
    + unfold ObjInv. cbn [spTok]. obj O; try (rewrite El in *); cbn [b2n] in *; fin.
  - (* SShare *)
    destruct (nth_error (spTok s) i) as [[|o g0| | |]|] eqn:En; try discriminate.
    pose proof (si_obj _ IV o) as O. unfold ObjInv in O.
    assert (Hh : cnt (isHold o) (spTok s) >= 1) by (eapply held_cnt, nth_error_In; eauto).
    destruct (oRef (spObj s o) + 1 =? 1)%Z eqn:Er.
    { exfalso. apply Z.eqb_eq in Er. destruct O as [O1 O2 O3 O4 O5 O6 O7 O8]. lia. }
    assert (C : changed s s' o None (Some (Hold o (oGen (spObj s o))))) by (injection E as <-; mkchanged).
    counts C.
    injection E as <-. apply (changed_inv s _ o _ _ IV C); cbn [spPanic spNext spObj spTok setObj setTok] in *; auto; try lia.
    + rewrite fupd_same. apply (si_next _ IV o).
    + rewrite fupd_same. cbn [addRef oGen]. intros g [Hin|Hin]; [congruence|]. apply (si_gen _ IV). exact Hin.
    + rewrite fupd_same. cbn [addRef oLive]. intros g [Hin|Hin]; [discriminate|]. apply (si_stale _ IV o g). exact Hin.
    + unfold ObjInv. cbn [spTok setTok setObj]. obj O; try (rewrite El in *); cbn [b2n] in *; fin.
  - (* SFinish *)
    destruct (nth_error (spTok s) i) as [[|o g0| | |]|] eqn:En; try discriminate.
    pose proof (si_obj _ IV o) as O. unfold ObjInv in O.
    assert (Hh : cnt (isHold o) (spTok s) >= 1) by (eapply held_cnt, nth_error_In; eauto).
    destruct (oDone (spObj s o)) eqn:Ed; [discriminate|].
    assert (C : changed s s' o None None) by (injection E as <-; mkchanged).
    counts C.
    injection E as <-. apply (changed_inv s _ o _ _ IV C); cbn [spPanic spNext spObj spTok setObj setTok] in *; auto; try lia.
    + rewrite fupd_same. apply (si_next _ IV o).
    + rewrite fupd_same. cbn [oGen]. intros g Hin. apply (si_gen _ IV). exact Hin.
    + rewrite fupd_same. cbn [oLive]. intros g Hin. apply (si_stale _ IV o g). exact Hin.
    + unfold ObjInv. cbn [spTok setTok setObj]. obj O; try (rewrite El in *); cbn [b2n] in *; fin.
  - (* SPeek *)
    destruct (nth_error (spTok s) i) as [[|o g0| | |]|] eqn:En; try discriminate.
    pose proof (si_obj _ IV o) as O. unfold ObjInv in O.
    assert (Hh : cnt (isHold o) (spTok s) >= 1) by (eapply held_cnt, nth_error_In; eauto).
    assert (C : changed s s' o None (Some (Stale o g0))) by (injection E as <-; mkchanged).
    counts C.
    injection E as <-. apply (changed_inv s _ o _ _ IV C); cbn [spPanic spNext spObj spTok setObj setTok] in *; auto; try lia.
    + apply (si_next _ IV o).
    + intros g [Hin|Hin]; [discriminate|]. apply (si_gen _ IV). exact Hin.
    + intros g _. destruct (oLive (spObj s o)) eqn:El; [reflexivity|]. destruct (oi_dead _ _ _ _ _ O El). lia.
  - (* SPoke *)
    destruct (nth_error (spTok s) i) as [[| |o g0| |]|] eqn:En; try discriminate.
    pose proof (si_obj _ IV o) as O. unfold ObjInv in O.
    assert (Hl : oLive (spObj s o) = true) by (eapply (si_stale _ IV), nth_error_In; eauto).
    assert (G1 : forall s', changed s s' o (Some (i, Stale o g0)) None -> spPanic s' = spPanic s -> spNext s' = spNext s ->
              spObj s' o = addLeak (addRef (spObj s o) 1) -> SInv s').
    { intros s1 C Hp Hn Ho. counts C. apply (changed_inv s _ o _ _ IV C); rewrite ?Ho; auto; try lia.
      - rewrite Hn. apply (si_next _ IV o).
      - intros g Hin. apply (si_gen _ IV). destruct C as (_ & _ & _ & C4). rewrite C4 in Hin. cbn [app] in Hin.
        apply without_in in Hin. exact Hin.
      - unfold ObjInv. rewrite Ho. unfold addRef, addLeak. destruct O as [O1 O2 O3 O4 O5 O6 O7 O8].
        constructor; cbn [oLive oPooled oBusy oRef oDone oGen oLeaks] in *; fin.
    }
    destruct (oRef (addRef (spObj s o) 1) =? 1)%Z eqn:Er.
    + apply G1; injection E as <-; try reflexivity; [mkchanged|]. cbn [spObj setTok setObj]. apply fupd_same.
    + destruct delivered.
      * assert (C : changed s s' o (Some (i, Stale o g0)) (Some (Poked o (oGen (addRef (spObj s o) 1))))) by (injection E as <-; mkchanged).
        counts C. apply Z.eqb_neq in Er. cbn [addRef oRef] in Er.
        injection E as <-. apply (changed_inv s _ o _ _ IV C); cbn [spPanic spNext spObj spTok setObj setTok] in *; auto; try lia.
        -- rewrite fupd_same. apply (si_next _ IV o).
        -- rewrite fupd_same. cbn [addRef oGen]. intros g [Hin|Hin]; [discriminate|]. apply without_in in Hin. apply (si_gen _ IV). exact Hin.
        -- rewrite fupd_same. cbn [addRef oLive]. intros g [Hin|Hin]; [discriminate|]. exact Hl.
        -- unfold ObjInv. cbn [spTok setTok setObj].
           assert (B : oLeaks (spObj s o) = 0%Z ->
                       oBusy (spObj s o) = true /\ b2n (oPooled (spObj s o)) + cnt (isGot o) (spTok s) + cnt (isPutting o) (spTok s) = 0).
           { intros Hz. apply (busy_alone _ _ _ _ _ O Hz). pose proof (oi_ref _ _ _ _ _ O). lia. }
           obj O; fin.
      * apply G1; injection E as <-; try reflexivity; [mkchanged|]. cbn [spObj setTok setObj]. apply fupd_same.
  - (* SRelease *)
    assert (Ex : exists o t, nth_error (spTok s) i = Some t /\ about t = o /\ (isHold o t || isPoked o t = true) /\
      (if negb (oDone (spObj s o) || spCtx s) then Some (panicking s PanUnfinished)
       else let x := addRef (spObj s o) (-1) in
            if (0 <? oRef x)%Z then Some (setTok (setObj s o x) (without i (spTok s)))
            else if (oRef x <? 0)%Z then Some (panicking s PanNegative)
            else Some (setTok (setObj s o x) (Putting o :: without i (spTok s)))) = Some s').
    { destruct (nth_error (spTok s) i) as [[|o g|  |o g|]|]; try discriminate; exists o; eexists; split; try reflexivity;
        (split; [reflexivity|]); (split; [cbn [isHold isPoked]; rewrite Nat.eqb_refl; reflexivity|]); exact E. }
    clear E. destruct Ex as (o & t & En & Ha & Ht & E).
    pose proof (si_obj _ IV o) as O. unfold ObjInv in O.
    destruct (negb (oDone (spObj s o) || spCtx s)).
    { injection E as <-. destruct IV as [V1 V2 V3 V4 V5]. constructor; auto. }
    cbn zeta in E.
    assert (Fl : b2n (isHold o t) + b2n (isPoked o t) = 1 /\ isGot o t = false /\ isPutting o t = false).
    { destruct t; cbn [about isHold isPoked isGot isPutting] in *; subst; rewrite ?Nat.eqb_refl in *; cbn in *; try discriminate; auto. }
    destruct Fl as (Fl1 & Fl2 & Fl3).
    assert (Hge : cnt (isHold o) (spTok s) + cnt (isPoked o) (spTok s) >= 1).
    { rewrite (cnt_without (isHold o) _ _ _ En), (cnt_without (isPoked o) _ _ _ En). lia. }
    destruct (0 <? oRef (addRef (spObj s o) (-1)))%Z eqn:Er.
    + assert (C : changed s s' o (Some (i, t)) None) by (injection E as <-; mkchanged).
      pose proof (changed_cnts _ _ _ _ _ C) as Cn. cbn zeta in Cn. cbn [option_map snd flag] in Cn. rewrite Fl2, Fl3 in Cn. cbn [b2n] in Cn.
      destruct Cn as (Cg & Cu & Ch & Ck).
      injection E as <-. apply (changed_inv s _ o _ _ IV C); cbn [spPanic spNext spObj spTok setObj setTok] in *; auto; try lia.
      * rewrite fupd_same. apply (si_next _ IV o).
      * rewrite fupd_same. cbn [addRef oGen]. intros g Hin. apply without_in in Hin. apply (si_gen _ IV). exact Hin.
      * rewrite fupd_same. cbn [addRef oLive]. intros g Hin. apply without_in in Hin. apply (si_stale _ IV o g). exact Hin.
      * unfold ObjInv. cbn [spTok setTok setObj]. obj O; try (rewrite El in *); cbn [b2n] in *; fin.
    + apply Z.ltb_ge in Er. cbn [addRef oRef] in Er.
      destruct (oRef (addRef (spObj s o) (-1)) <? 0)%Z eqn:Er2.
      { exfalso. apply Z.ltb_lt in Er2. cbn [addRef oRef] in Er2. destruct O as [O1 O2 O3 O4 O5 O6 O7 O8]. lia. }
      assert (C : changed s s' o (Some (i, t)) (Some (Putting o))) by (injection E as <-; mkchanged).
      pose proof (changed_cnts _ _ _ _ _ C) as Cn. cbn zeta in Cn. cbn [option_map snd flag isGot isPutting isHold isPoked] in Cn.
      rewrite Fl2, Fl3, Nat.eqb_refl in Cn. cbn [b2n] in Cn. destruct Cn as (Cg & Cu & Ch & Ck).
      injection E as <-. apply (changed_inv s _ o _ _ IV C); cbn [spPanic spNext spObj spTok setObj setTok] in *; auto; try lia.
      * rewrite fupd_same. apply (si_next _ IV o).
      * rewrite fupd_same. cbn [addRef oGen]. intros g [Hin|Hin]; [discriminate|]. apply without_in in Hin. apply (si_gen _ IV). exact Hin.
      * rewrite fupd_same. cbn [addRef oLive]. intros g [Hin|Hin]; [discriminate|]. apply without_in in Hin. apply (si_stale _ IV o g). exact Hin.
      * unfold ObjInv. cbn [spTok setTok setObj].
        assert (B : oBusy (spObj s o) = true /\ b2n (oPooled (spObj s o)) + cnt (isGot o) (spTok s) + cnt (isPutting o) (spTok s) = 0).
        { apply (busy_alone _ _ _ _ _ O); [|exact Hge]. pose proof (oi_ref _ _ _ _ _ O). pose proof (oi_leaks _ _ _ _ _ O). lia. }
        destruct B as [B1 B2].
        obj O; try (rewrite El in *); cbn [b2n] in *; fin.
  - (* SPut *)
    destruct (nth_error (spTok s) i) as [[| | | |o]|] eqn:En; try discriminate.
    pose proof (si_obj _ IV o) as O. unfold ObjInv in O.
    assert (Hu : cnt (isPutting o) (spTok s) >= 1) by (rewrite (cnt_without _ _ _ _ En); cbn [isPutting]; rewrite Nat.eqb_refl; cbn; lia).
    destruct (oi_putting _ _ _ _ _ O Hu) as [Hb Hh]. rewrite Hb in E. cbn [negb] in E.
    assert (C : changed s s' o (Some (i, Putting o)) None) by (injection E as <-; mkchanged).
    counts C.
    injection E as <-. apply (changed_inv s _ o _ _ IV C); cbn [spPanic spNext spObj spTok setObj setTok] in *; auto; try lia.
    + rewrite fupd_same. apply (si_next _ IV o).
    + rewrite fupd_same. cbn [oGen]. intros g Hin. apply without_in in Hin. apply (si_gen _ IV). exact Hin.
    + rewrite fupd_same. cbn [oLive]. intros g Hin. apply without_in in Hin. apply (si_stale _ IV o g). exact Hin.
    + unfold ObjInv. cbn [spTok setTok setObj]. obj O; try (rewrite El in *); cbn [b2n] in *; fin.
  - (* SCtx *)
    injection E as <-. destruct IV as [V1 V2 V3 V4 V5]. constructor; cbn [spPanic spNext spObj spTok]; auto.
  - (* SCollect *)
    destruct (oPooled (spObj s o)) eqn:El; [|discriminate].
    assert (C : changed s s' o None None) by (injection E as <-; mkchanged).
    counts C. pose proof (si_obj _ IV o) as O. unfold ObjInv in O.
    injection E as <-. apply (changed_inv s _ o _ _ IV C); cbn [spPanic spNext spObj spTok setObj setTok] in *; auto; try lia.
    + rewrite fupd_same. apply (si_next _ IV o).
    + intros g Hin. rewrite fupd_same. apply (si_gen _ IV). exact Hin.
    + intros g Hin. rewrite fupd_same. apply (si_stale _ IV o g). exact Hin.
    + unfold ObjInv. cbn [spTok setTok setObj]. obj O; try (rewrite El in *); cbn [b2n] in *; fin.
Qed.

Lemma inv_reachable : forall s, reachable (fun s => s = spInit) (lstep sstep) s -> SInv s.
Proof.
  apply reachable_inv.
  - intros s ->. apply inv_init.
  - intros s s' I [l E]. eapply inv_step; eauto.
Qed.
