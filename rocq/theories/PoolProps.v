(** C44, C45, C83: pooled send handles and buffers. *)
From Coq Require Import ZArith NArith List Bool Lia Arith.
From Verif Require Import Base BaseLemmas TS PoolModel PoolProofs.
Import ListNotations.
Local Open Scope nat_scope.

(** ** Send handles *)

Definition spReach : sp -> Prop := reachable (fun s => s = spInit) (lstep sstep).

(** C44. As long as somebody holds a counted reference, the object is neither in
    the pool nor on its way from or to it. *)
Theorem C44_held_not_recycled : forall s o g, spReach s -> In (Hold o g) (spTok s) ->
  oPooled (spObj s o) = false /\ ~ In (Got o) (spTok s) /\ ~ In (Putting o) (spTok s) /\
  (oRef (spObj s o) >= Z.of_nat (length (filter (isHold o) (spTok s))))%Z.
Proof.
  intros s o g R Hin. pose proof (inv_reachable s R) as I. pose proof (si_obj _ I o) as O. unfold ObjInv in O.
  apply held_cnt in Hin.
  assert (Hp : b2n (oPooled (spObj s o)) + cnt (isGot o) (spTok s) = 0).
  { destruct (Nat.eq_dec (b2n (oPooled (spObj s o)) + cnt (isGot o) (spTok s)) 0) as [E|E]; [exact E|].
    destruct (oi_free _ _ _ _ _ O ltac:(lia)). lia. }
  assert (Hu : cnt (isPutting o) (spTok s) = 0).
  { destruct (Nat.eq_dec (cnt (isPutting o) (spTok s)) 0) as [E|E]; [exact E|].
    destruct (oi_putting _ _ _ _ _ O ltac:(lia)). lia. }
  split; [destruct (oPooled (spObj s o)); cbn [b2n] in Hp; [lia|reflexivity]|].
  assert (F : forall f t, In t (spTok s) -> f t = true -> cnt f (spTok s) >= 1).
  { intros f t Ht Hf. apply in_split in Ht. destruct Ht as (a & b & E). rewrite E. unfold cnt.
    rewrite filter_app, app_length. cbn [filter]. rewrite Hf. cbn [length]. lia. }
  split; [intros H; apply (F (isGot o)) in H; [lia|cbn [isGot]; apply Nat.eqb_refl]|].
  split; [intros H; apply (F (isPutting o)) in H; [lia|cbn [isPutting]; apply Nat.eqb_refl]|].
  destruct O as [O1 O2 O3 O4 O5 O6 O7 O8]. unfold cnt in O3. lia.
Qed.
Print Assumptions C44_held_not_recycled.

(** C44. All counted references to one object were given for the same send
    request: the object is never handed out to two requests at once. *)
Theorem C44_one_request : forall s o g g', spReach s ->
  In (Hold o g) (spTok s) -> In (Hold o g') (spTok s) -> g = g'.
Proof.
  intros s o g g' R H H'. pose proof (inv_reachable s R) as I.
  rewrite (si_gen _ I _ _ H), (si_gen _ I _ _ H'). reflexivity.
Qed.
Print Assumptions C44_one_request.

(** C44. An object in the pool may be taken, and taking it gives a request
    number never used before. *)
Theorem C44_fresh_request : forall s i o s', spReach s -> nth_error (spTok s) i = Some (Got o) ->
  spPanic s = None -> sstep s (SSet i) = Some s' ->
  spPanic s' = None /\ exists g, In (Hold o g) (spTok s') /\ (forall k, (oGen (spObj s k) < g)%N) /\
  (forall g', ~ In (Hold o g') (spTok s)).
Proof.
  intros s i o s' R En Hp E. pose proof (inv_reachable s R) as I. pose proof (si_obj _ I o) as O. unfold ObjInv in O.
  assert (Hg : cnt (isGot o) (spTok s) >= 1) by (rewrite (cnt_without _ _ _ _ En); cbn [isGot]; rewrite Nat.eqb_refl; cbn; lia).
  destruct (oi_free _ _ _ _ _ O ltac:(lia)) as [Hb Hh]. unfold sstep in E. rewrite Hp, En, Hb in E. injection E as <-.
  cbn [spPanic spTok]. split; [reflexivity|]. exists (spNext s + 1)%N. split; [left; reflexivity|]. split.
  - intros k. pose proof (si_next _ I k). lia.
  - intros g' Hin. apply held_cnt in Hin. lia.
Qed.
Print Assumptions C44_fresh_request.

(** C44. The self-checks of the pool never fire; the only panic left is the one
    about releasing an unfinished handle. *)
Theorem C44_no_pool_panic : forall s p, spReach s -> spPanic s = Some p -> p = PanUnfinished.
Proof.
  intros s p R E. destruct (si_panic _ (inv_reachable s R)) as [H|H]; congruence.
Qed.
Print Assumptions C44_no_pool_panic.

(** C83. A handle whose holders all released it goes back to the pool — as long
    as no bare pointers are poked. *)
Definition quiet (l : slabel) : bool := match l with SPeek _ => false | _ => true end.
Definition plain (t : token) : Prop := match t with Stale _ _ | Poked _ _ => False | _ => True end.
Definition NB (s : sp) : Prop := (forall t, In t (spTok s) -> plain t) /\ forall o, oLeaks (spObj s o) = 0%Z.

Lemma nb_obj : forall s o x l, NB s -> oLeaks x = 0%Z -> (forall t, In t l -> plain t) -> NB (setTok (setObj s o x) l).
Proof.
  intros s o x l [H1 H2] Hx Hl. split; cbn [spTok spObj setTok setObj]; [exact Hl|].
  intros k. unfold fupd. destruct (k =? o); auto.
Qed.

Lemma nb_step : forall s l s', NB s -> sstep s l = Some s' -> quiet l = true -> NB s'.
Proof.
  intros s l s' I E Q. pose proof I as [H1 H2].
  assert (W : forall i t, In t (without i (spTok s)) -> plain t) by (intros i t Ht; apply H1; eapply without_in; eauto).
  assert (W' : forall i t x, plain x -> In t (x :: without i (spTok s)) -> plain t) by (intros i t x Hx [<-|Ht]; eauto).
  assert (V' : forall t x, plain x -> In t (x :: spTok s) -> plain t) by (intros t x Hx [<-|Ht]; auto).
  assert (B : forall i t, nth_error (spTok s) i = Some t -> plain t) by (intros i t Ht; apply H1; eapply nth_error_In; eauto).
  unfold sstep in E. destruct (spPanic s) eqn:Ep; [discriminate|].
  destruct l; cbn [quiet] in Q; try discriminate Q.
  - destruct (oLive (spObj s o)); [discriminate|]. injection E as <-. apply nb_obj; auto. intros t. apply V'. exact Logic.I.
  - destruct (oPooled (spObj s o)); [|discriminate]. injection E as <-. apply nb_obj; cbn; auto. intros t. apply V'. exact Logic.I.
  - destruct (nth_error (spTok s) i) as [[o| | | |]|]; try discriminate. destruct (oBusy (spObj s o)); injection E as <-; [exact I|].
    split; cbn [spTok spObj]; [intros t; apply W'; exact Logic.I|]. intros k. unfold fupd. destruct (k =? o); cbn; auto.
  - destruct (nth_error (spTok s) i) as [[|o g| | |]|]; try discriminate. destruct (_ =? _)%Z; injection E as <-; [exact I|].
    apply nb_obj; auto; [apply H2|]. intros t. apply V'. exact Logic.I.
  - destruct (nth_error (spTok s) i) as [[|o g| | |]|]; try discriminate. destruct (oDone (spObj s o)); [discriminate|]. injection E as <-.
    split; cbn [spTok spObj setObj]; [exact H1|]. intros k. unfold fupd. destruct (k =? o); cbn; auto.
  - destruct (nth_error (spTok s) i) as [[| |o g| |]|] eqn:En; try discriminate. destruct (B _ _ En).
  - destruct (nth_error (spTok s) i) as [[|o g| |o g|]|] eqn:En; try discriminate; [|destruct (B _ _ En)].
    cbn zeta in E. destruct (negb _); [injection E as <-; exact I|].
    destruct (0 <? _)%Z; [injection E as <-; apply nb_obj; auto; [apply H2|apply W]|].
    destruct (_ <? 0)%Z; injection E as <-; [exact I|]. apply nb_obj; auto; [apply H2|]. intros t. apply W'. exact Logic.I.
  - destruct (nth_error (spTok s) i) as [[| | | |o]|]; try discriminate. destruct (negb _); injection E as <-; [exact I|].
    apply nb_obj; cbn; auto. apply W.
  - injection E as <-. exact I.
  - destruct (oPooled (spObj s o)); [|discriminate]. injection E as <-.
    split; cbn [spTok spObj setObj]; [exact H1|]. intros k. unfold fupd. destruct (k =? o); cbn; auto.
Qed.

Lemma cnt_zero : forall f l, (forall t, In t l -> f t = false) -> cnt f l = 0.
Proof.
  intros f. induction l as [|x l IH]; intros H; [reflexivity|]. rewrite cnt_cons, (H x (or_introl eq_refl)), IH; [reflexivity|].
  intros t Ht. apply H. right. exact Ht.
Qed.

Lemma cnt_unique : forall f l i, (forall j t, nth_error l j = Some t -> f t = true -> j = i) -> cnt f l <= 1.
Proof.
  intros f. induction l as [|x l IH]; intros i H; [unfold cnt; cbn; lia|]. rewrite cnt_cons. destruct (f x) eqn:Ex; cbn [b2n].
  - rewrite (cnt_zero f l); [lia|]. intros t Ht. destruct (f t) eqn:Et; [|reflexivity].
    apply In_nth_error in Ht. destruct Ht as [j Hj]. pose proof (H 0 x eq_refl Ex). pose proof (H (S j) t Hj Et). lia.
  - apply (IH (pred i)). intros j t Hj Ht. pose proof (H (S j) t Hj Ht). lia.
Qed.

Lemma nb_exec : forall ls s s', exec sstep s ls = Some s' -> forallb quiet ls = true -> NB s -> NB s'.
Proof.
  induction ls as [|l ls IH]; intros s s' E Q I; cbn [exec forallb] in *; [injection E as <-; exact I|].
  apply andb_prop in Q. destruct Q as [Q1 Q2]. destruct (sstep s l) as [s1|] eqn:E1; [|discriminate].
  apply (IH s1); auto. eapply nb_step; eauto.
Qed.

Theorem C83_returned_partial : forall ls s i o g, exec sstep spInit ls = Some s -> forallb quiet ls = true ->
  spPanic s = None -> nth_error (spTok s) i = Some (Hold o g) -> oDone (spObj s o) = true ->
  (forall j g', nth_error (spTok s) j = Some (Hold o g') -> j = i) ->
  exists s' s'', sstep s (SRelease i) = Some s' /\ sstep s' (SPut 0) = Some s'' /\ oPooled (spObj s'' o) = true /\
    oRef (spObj s'' o) = 0%Z.
Proof.
  intros ls s i o g X Q Hp En Hd U.
  assert (R : spReach s) by (eapply exec_reachable; eauto; reflexivity).
  pose proof (inv_reachable s R) as I. pose proof (si_obj _ I o) as O. unfold ObjInv in O.
  assert (N : NB s).
  { eapply nb_exec; eauto. split; [intros t []|reflexivity]. }
  destruct N as [N1 N2].
  assert (Hk : cnt (isPoked o) (spTok s) = 0).
  { apply cnt_zero. intros t Ht. apply N1 in Ht. destruct t; cbn in Ht |- *; auto; contradiction. }
  assert (Hh : cnt (isHold o) (spTok s) <= 1).
  { apply (cnt_unique _ _ i). intros j t Hj Ht. destruct t as [|k g'| | |]; cbn [isHold] in Ht; try discriminate.
    apply Nat.eqb_eq in Ht. subst k. eapply U; eauto. }
  assert (Hin : In (Hold o g) (spTok s)) by (eapply nth_error_In; eauto).
  apply held_cnt in Hin. destruct O as [O1 O2 O3 O4 O5 O6 O7 O8]. rewrite (N2 o), Hk in O3.
  assert (Hr : oRef (spObj s o) = 1%Z) by lia. assert (Hb : oBusy (spObj s o) = true) by auto.
  assert (Z1 : (0 <? oRef (addRef (spObj s o) (-1)))%Z = false) by (cbn [addRef oRef]; rewrite Hr; reflexivity).
  assert (Z2 : (oRef (addRef (spObj s o) (-1)) <? 0)%Z = false) by (cbn [addRef oRef]; rewrite Hr; reflexivity).
  eexists; eexists. split; [|split; [|split]].
  - unfold sstep. rewrite Hp, En, Hd. cbn [orb negb]. cbn zeta. rewrite Z1, Z2. reflexivity.
  - unfold sstep. cbn [spPanic setTok setObj spTok nth_error spObj]. rewrite Hp, fupd_same. cbn [addRef oBusy]. rewrite Hb. cbn [negb]. reflexivity.
  - cbn [spObj setTok setObj]. rewrite fupd_same. reflexivity.
  - cbn [spObj setTok setObj]. rewrite fupd_same. cbn [oRef addRef]. rewrite ?fupd_same. cbn [oRef]. lia.
Qed.
Print Assumptions C83_returned_partial.

(** A message is appended to the handle of the current batch (0), its sender
    gives the bare pointer to [waitForSend], the batch is sent and everybody
    releases the handle. *)
Definition oneBatch : list slabel :=
  [SNew 0; SSet 0; SShare 0; SPeek 0; SFinish 1; SRelease 1; SRelease 1; SPut 0].

Example C44_example : exists s, exec sstep spInit [SNew 0; SSet 0; SShare 0; SFinish 1; SRelease 1] = Some s /\
  spTok s = [Hold 0 1] /\ oRef (spObj s 0) = 1%Z /\ oPooled (spObj s 0) = false.
Proof. eexists. split; [vm_compute; reflexivity|]. repeat split; vm_compute; reflexivity. Qed.

Example C83_example : exists s, exec sstep spInit [SNew 0; SSet 0; SShare 0; SFinish 1; SRelease 1; SRelease 0; SPut 0] = Some s /\
  spTok s = [] /\ oPooled (spObj s 0) = true.
Proof. eexists. split; [vm_compute; reflexivity|]. split; vm_compute; reflexivity. Qed.

(** C44 is false for the pointer [waitForSend] works on: it is not counted, so
    by the time it is used the handle may belong to another request (number 2
    here). The sender then releases the unfinished handle and the process
    crashes (e.g. if request 2 is a fragmented message, whose handle the sender
    loop does not finish itself). *)
Theorem C44_bare_pointer_refuted : exists ls s, exec sstep spInit ls = Some s /\
  In (Hold 0 2%N) (spTok s) /\ In (Stale 0 1%N) (spTok s) /\
  exists s', exec sstep s [SPoke 1 true; SRelease 0] = Some s' /\ spPanic s' = Some PanUnfinished.
Proof.
  exists (oneBatch ++ [SGet 0; SSet 0]). eexists. split; [vm_compute; reflexivity|].
  split; [left; vm_compute; reflexivity|]. split; [right; left; vm_compute; reflexivity|].
  eexists. split; vm_compute; reflexivity.
Qed.
Print Assumptions C44_bare_pointer_refuted.

(** A counted reference to an object that sits in the pool: the first poke fails
    (its panic is recovered) but leaves the counter incremented, so the next one
    succeeds. *)
Theorem C44_pooled_referenced_refuted : exists ls s, exec sstep spInit ls = Some s /\
  oPooled (spObj s 0) = true /\ exists g, In (Poked 0 g) (spTok s).
Proof.
  exists [SNew 0; SSet 0; SShare 0; SPeek 0; SPeek 1; SFinish 2; SRelease 2; SRelease 2; SPut 0; SPoke 0 true; SPoke 0 true].
  eexists. split; [vm_compute; reflexivity|]. split; [vm_compute; reflexivity|]. eexists. left. vm_compute. reflexivity.
Qed.
Print Assumptions C44_pooled_referenced_refuted.

(** C83 is false with [waitForSend]: if the sender loop is busy, its increment
    is never undone, and the handle never returns to the pool. *)
Definition abandoned (s : sp) (o : nat) : Prop :=
  oLive (spObj s o) = true /\ oPooled (spObj s o) = false /\ forall t, In t (spTok s) -> about t <> o.

Ltac tk := let a := fresh "a" in let Ha := fresh "Ha" in intros a Ha;
  first [destruct Ha as [<-|Ha]; [assumption|]|idtac]; first [match goal with W : _ |- _ => apply (W _ _ Ha) end|match goal with W : _ |- _ => apply (W _ Ha) end].

Lemma abandoned_step : forall s l s' o, abandoned s o -> sstep s l = Some s' -> abandoned s' o.
Proof.
  intros s l s' o (A1 & A2 & A3) E.
  assert (F : forall k x t, k <> o -> (forall a, In a t -> about a <> o) -> abandoned (setTok (setObj s k x) t) o).
  { intros k x t Hk Ht. unfold abandoned. cbn [spObj spTok setTok setObj]. rewrite fupd_other by auto. auto. }
  assert (W : forall i a, In a (without i (spTok s)) -> about a <> o) by (intros i a Ha; apply A3; eapply without_in; eauto).
  assert (B : forall i a, nth_error (spTok s) i = Some a -> about a <> o) by (intros i a Ha; apply A3; eapply nth_error_In; eauto).
  assert (W' : forall i a b, about b <> o -> In a (b :: without i (spTok s)) -> about a <> o) by (intros i a b Hb [<-|Ha]; eauto).
  assert (V' : forall a b, about b <> o -> In a (b :: spTok s) -> about a <> o) by (intros a b Hb [<-|Ha]; eauto).
  assert (P : forall p, abandoned (panicking s p) o) by (intros p; split; auto).
  unfold sstep in E. destruct (spPanic s) eqn:Ep; [discriminate|]. destruct l.
  - destruct (oLive (spObj s o0)) eqn:El; [discriminate|]. assert (o0 <> o) by congruence. injection E as <-. apply F; [assumption|tk].
  - destruct (oPooled (spObj s o0)) eqn:El; [|discriminate]. assert (o0 <> o) by congruence. injection E as <-. apply F; [assumption|tk].
  - destruct (nth_error (spTok s) i) as [[k| | | |]|] eqn:En; try discriminate. pose proof (B _ _ En) as Bk. cbn [about] in Bk.
    destruct (oBusy (spObj s k)); injection E as <-; [apply P|].
    unfold abandoned. cbn [spObj spTok]. rewrite fupd_other by auto. split; [auto|]. split; [auto|tk].
  - destruct (nth_error (spTok s) i) as [[|k g| | |]|] eqn:En; try discriminate. pose proof (B _ _ En) as Bk. cbn [about] in Bk.
    destruct (_ =? _)%Z; injection E as <-; [apply P|]. apply F; [assumption|tk].
  - destruct (nth_error (spTok s) i) as [[|k g| | |]|] eqn:En; try discriminate. pose proof (B _ _ En) as Bk. cbn [about] in Bk.
    destruct (oDone (spObj s k)); [discriminate|]. injection E as <-. unfold abandoned. cbn [spObj spTok setObj]. rewrite fupd_other by auto. auto.
  - destruct (nth_error (spTok s) i) as [[|k g| | |]|] eqn:En; try discriminate. pose proof (B _ _ En) as Bk. cbn [about] in Bk.
    injection E as <-. split; [exact A1|]. split; [exact A2|]. intros t. apply V'. exact Bk.
  - destruct (nth_error (spTok s) i) as [[| |k g| |]|] eqn:En; try discriminate. pose proof (B _ _ En) as Bk. cbn [about] in Bk.
    cbn zeta in E. destruct (_ =? _)%Z; [injection E as <-; apply F; [assumption|tk]|]. destruct delivered; injection E as <-; (apply F; [assumption|tk]).
  - assert (Ex : exists k, k <> o /\
      (if negb (oDone (spObj s k) || spCtx s) then Some (panicking s PanUnfinished)
       else let x := addRef (spObj s k) (-1) in
            if (0 <? oRef x)%Z then Some (setTok (setObj s k x) (without i (spTok s)))
            else if (oRef x <? 0)%Z then Some (panicking s PanNegative)
            else Some (setTok (setObj s k x) (Putting k :: without i (spTok s)))) = Some s').
    { destruct (nth_error (spTok s) i) as [[|k g| |k g|]|] eqn:En; try discriminate; exists k; (split; [apply (B _ _ En)|exact E]). }
    destruct Ex as (k & Hk & Ek). cbn zeta in Ek. destruct (negb _); [injection Ek as <-; apply P|].
    destruct (0 <? _)%Z; [injection Ek as <-; apply F; [assumption|tk]|]. destruct (_ <? 0)%Z; injection Ek as <-; [apply P|apply F; [assumption|tk]].
  - destruct (nth_error (spTok s) i) as [[| | | |k]|] eqn:En; try discriminate. pose proof (B _ _ En) as Bk. cbn [about] in Bk.
    destruct (negb _); injection E as <-; [apply P|apply F; [assumption|tk]].
  - injection E as <-. split; auto.
  - destruct (oPooled (spObj s o0)) eqn:El; [|discriminate]. assert (o0 <> o) by congruence. injection E as <-.
    unfold abandoned. cbn [spObj spTok setObj]. rewrite fupd_other by auto. auto.
Qed.

Theorem C83_leak_refuted : exists ls s, exec sstep spInit ls = Some s /\ spPanic s = None /\ spTok s = [] /\
  oDone (spObj s 0) = true /\ forall s', steps (lstep sstep) s s' -> oPooled (spObj s' 0) = false.
Proof.
  exists [SNew 0; SSet 0; SShare 0; SPeek 0; SPoke 0 false; SFinish 0; SRelease 0; SRelease 0]. eexists.
  split; [vm_compute; reflexivity|]. split; [reflexivity|]. split; [reflexivity|]. split; [reflexivity|].
  intros s' S. apply (steps_inv _ (fun s => abandoned s 0)) in S; [apply S| |].
  - intros a b A [l E]. eapply abandoned_step; eauto.
  - split; [reflexivity|]. split; [reflexivity|]. intros t [].
Qed.
Print Assumptions C83_leak_refuted.

(** ** Buffers *)

(** Nobody releases what they do not own any more. *)
Definition fair (l : blabel) : bool := match l with BpReleaseAgain _ _ => false | _ => true end.
Definition bpReach (maxSize : N) (s : bp) : Prop :=
  exists ls, exec (bpstep maxSize) bpInit ls = Some s /\ forallb fair ls = true.

(** C45. After [Grow n] exactly [n] bytes are usable; what was in the array
    stays if it is big enough; the array never shrinks. *)
Theorem C45_grow : forall b n,
  len (bfBytes (bfGrow b n)) = n /\
  ((n <= bfCap b)%N -> bfBytes (bfGrow b n) = firstn (N.to_nat n) (bfBytes b ++ bfRest b)) /\
  ((n <= len (bfBytes b))%N -> bfBytes (bfGrow b n) = firstn (N.to_nat n) (bfBytes b)) /\
  (bfCap b <= bfCap (bfGrow b n))%N /\ (n <= bfCap (bfGrow b n))%N.
Proof.
  intros b n. unfold bfGrow, bfCap, len. destruct (N.ltb_spec (N.of_nat (length (bfBytes b)) + N.of_nat (length (bfRest b))) n) as [Hlt|Hge];
    cbn [bfBytes bfRest]; unfold bytes in *.
  - rewrite repeat_length. cbn [length]. repeat split; try lia.
  - rewrite firstn_length, skipn_length, app_length. repeat split; try lia.
    intros Hn. rewrite firstn_app. replace (N.to_nat n - length (bfBytes b)) with 0 by lia. cbn [firstn]. apply app_nil_r.
Qed.
Print Assumptions C45_grow.

Record BOne (maxSize : N) (s : bp) (o : nat) : Prop := {
  bo_none : bpBuf s o = None -> bpOwner s o = [] /\ bpPool s o = false;
  bo_some : forall b, bpBuf s o = Some b ->
    (maxSize <= bfCap b)%N /\
    ((bpPool s o = true /\ bpOwner s o = [] /\ bfBusy b = false /\ bfRef b = 0%Z /\ bfBytes b = []) \/
     (bpPool s o = false /\ (exists u, bpOwner s o = [u]) /\ bfBusy b = true /\ bfRef b = 1%Z))
}.
Definition BInv (maxSize : N) (s : bp) : Prop := bpPanic s = false /\ forall o, BOne maxSize s o.

Lemma bone_upd : forall m s o b' p' w',
  (forall k, k <> o -> BOne m s k) ->
  BOne m {| bpBuf := fupd (bpBuf s) o (Some b'); bpPool := fupd (bpPool s) o p'; bpOwner := fupd (bpOwner s) o w'; bpPanic := false |} o ->
  forall k, BOne m {| bpBuf := fupd (bpBuf s) o (Some b'); bpPool := fupd (bpPool s) o p'; bpOwner := fupd (bpOwner s) o w'; bpPanic := false |} k.
Proof.
  intros m s o b' p' w' H Ho k. destruct (Nat.eq_dec k o) as [Hk|Hk]; [subst k; exact Ho|].
  destruct (H k Hk) as [H1 H2]. constructor; cbn [bpBuf bpPool bpOwner]; rewrite !fupd_other by auto; auto.
Qed.

Lemma existsb_one : forall u v, existsb (Nat.eqb u) [v] = true -> u = v.
Proof. intros u v H. cbn [existsb] in H. rewrite orb_false_r in H. apply Nat.eqb_eq. exact H. Qed.

Lemma bp_step_inv : forall m s l s', BInv m s -> bpstep m s l = Some s' -> fair l = true -> BInv m s'.
Proof.
  intros m s l s' [Hp I] E F. unfold bpstep in E. rewrite Hp in E. destruct l as [u o|u o size|u o|u o]; [| | |discriminate F].
  - destruct (existsb (Nat.eqb u) (bpOwner s o)) eqn:Ew; [discriminate|]. destruct (I o) as [I1 I2].
    destruct (bpBuf s o) as [b|] eqn:Eb.
    + destruct (bpPool s o) eqn:Epo; [|discriminate].
      destruct (I2 b eq_refl) as (Hc & [(P1 & P2 & P3 & P4 & P5)|(P1 & _)]); [|congruence].
      unfold bfAcquire in E. rewrite P3 in E. injection E as <-. split; [reflexivity|]. apply bone_upd; [auto|].
      constructor; cbn [bpBuf bpPool bpOwner]; rewrite !fupd_same; [discriminate|]. intros b' [= <-]. split; [exact Hc|].
      right. cbn [bfBusy bfRef]. rewrite P2, P4. repeat split; eauto.
    + destruct (I1 eq_refl) as [J1 J2].
      assert (Hb : bfBusy (bfNew m) = false) by (unfold bfNew, bfGrow; destruct (_ <? _)%N; reflexivity).
      assert (Hr : bfRef (bfNew m) = 0%Z) by (unfold bfNew, bfGrow; destruct (_ <? _)%N; reflexivity).
      unfold bfAcquire in E. rewrite Hb in E. injection E as <-. split; [reflexivity|]. apply bone_upd; [auto|].
      constructor; cbn [bpBuf bpPool bpOwner]; rewrite !fupd_same; [discriminate|]. intros b' [= <-].
      split; [unfold bfCap at 1; cbn [bfBytes bfRest]; apply (C45_grow _ m)|].
      right. cbn [bfBusy bfRef]. rewrite J1, Hr. repeat split; eauto.
  - destruct (bpBuf s o) as [b|] eqn:Eb; [|discriminate]. destruct (existsb (Nat.eqb u) (bpOwner s o)) eqn:Ew; [|discriminate].
    injection E as <-. split; [reflexivity|]. intros k. destruct (Nat.eq_dec k o) as [Hk|Hk].
    + subst k. destruct (I o) as [I1 I2]. destruct (I2 b Eb) as (Hc & [(P1 & P2 & _)|(P1 & P2 & P3 & P4)]); [rewrite P2 in Ew; discriminate|].
      constructor; cbn [bpBuf bpPool bpOwner]; rewrite !fupd_same; [discriminate|]. intros b' [= <-].
      split; [destruct (C45_grow b size) as (_ & _ & _ & G & _); lia|]. right. split; [exact P1|]. split; [exact P2|].
      unfold bfGrow. destruct (_ <? _)%N; cbn [bfBusy bfRef]; auto.
    + destruct (I k) as [I1 I2]. constructor; cbn [bpBuf bpPool bpOwner]; rewrite !fupd_other by auto; auto.
  - destruct (bpBuf s o) as [b|] eqn:Eb; [|discriminate]. destruct (existsb (Nat.eqb u) (bpOwner s o)) eqn:Ew; [|discriminate].
    destruct (I o) as [I1 I2]. destruct (I2 b Eb) as (Hc & [(P1 & P2 & _)|(P1 & (v & P2) & P3 & P4)]); [rewrite P2 in Ew; discriminate|].
    rewrite P2 in Ew. apply existsb_one in Ew. subst v.
    unfold bpRel, bfRelease in E. cbn [bfRef bfBusy] in E. rewrite P4, P3 in E. cbn in E.
    injection E as <-. split; [reflexivity|]. apply bone_upd; [auto|].
    constructor; cbn [bpBuf bpPool bpOwner]; rewrite !fupd_same; [discriminate|]. intros b' [= <-]. split.
    + unfold bfCap in *. cbn [bfBytes bfRest]. unfold len in *. rewrite app_length. cbn [length]. lia.
    + left. rewrite P2. cbn [remove]. destruct (Nat.eq_dec u u); [|contradiction]. repeat split; reflexivity.
Qed.

Lemma bp_inv : forall m s, bpReach m s -> BInv m s.
Proof.
  intros m s (ls & E & F).
  assert (G : forall ls s s', exec (bpstep m) s ls = Some s' -> forallb fair ls = true -> BInv m s -> BInv m s').
  { clear. induction ls as [|l ls IH]; intros s s' E F I; cbn [exec forallb] in *; [injection E as <-; exact I|].
    apply andb_prop in F. destruct F as [F1 F2]. destruct (bpstep m s l) as [s1|] eqn:E1; [|discriminate].
    apply (IH s1); auto. eapply bp_step_inv; eauto. }
  apply (G ls bpInit s E F). split; [reflexivity|]. intros o. constructor; cbn; [auto|discriminate].
Qed.

(** C45. If everybody releases only what they own: a buffer has at most one
    owner, a pooled one has none and is empty, every buffer has room for
    [maxSize] bytes, and none of the checks panics. *)
Theorem C45_one_owner : forall m s o, bpReach m s ->
  bpPanic s = false /\ length (bpOwner s o) <= 1 /\
  (bpPool s o = true -> bpOwner s o = [] /\ exists b, bpBuf s o = Some b /\ bfBytes b = [] /\ (m <= bfCap b)%N) /\
  (forall b, bpBuf s o = Some b -> (m <= bfCap b)%N).
Proof.
  intros m s o R. destruct (bp_inv m s R) as [Hp I]. destruct (I o) as [I1 I2]. split; [exact Hp|].
  destruct (bpBuf s o) as [b|] eqn:Eb.
  - destruct (I2 b eq_refl) as (Hc & [(P1 & P2 & P3 & P4 & P5)|(P1 & (v & P2) & P3 & P4)]).
    + rewrite P2. split; [cbn; lia|]. split; [intros _; split; [reflexivity|]; exists b; auto|]. intros b' [= <-]. exact Hc.
    + rewrite P2. split; [cbn; lia|]. split; [congruence|]. intros b' [= <-]. exact Hc.
  - destruct (I1 eq_refl) as [J1 J2]. rewrite J1. split; [cbn; lia|]. split; [congruence|discriminate].
Qed.
Print Assumptions C45_one_owner.

(** C45. Releasing a buffer that is in the pool is detected ... *)
Theorem C45_double_release_partial : forall m s u o, bpReach m s -> bpPool s o = true ->
  exists s', bpstep m s (BpReleaseAgain u o) = Some s' /\ bpPanic s' = true.
Proof.
  intros m s u o R Hpo. destruct (bp_inv m s R) as [Hp I]. destruct (I o) as [I1 I2].
  destruct (bpBuf s o) as [b|] eqn:Eb; [|destruct (I1 eq_refl); congruence].
  destruct (I2 b eq_refl) as (Hc & [(P1 & P2 & P3 & P4 & P5)|(P1 & _)]); [|congruence].
  unfold bpstep, bpRel, bfRelease. rewrite Hp, Eb, P2. cbn [existsb bfRef bfBusy]. rewrite P4, P3. cbn. eexists. split; reflexivity.
Qed.
Print Assumptions C45_double_release_partial.

(** ... but once another user got it, the second release takes the buffer away
    from them silently, and a third user gets the same memory. *)
Theorem C45_double_release_refuted : forall m, exists s,
  exec (bpstep m) bpInit [BpAcquire 1 0; BpRelease 1 0; BpAcquire 2 0; BpReleaseAgain 1 0; BpAcquire 3 0] = Some s /\
  bpPanic s = false /\ In 2 (bpOwner s 0) /\ In 3 (bpOwner s 0).
Proof.
  intros m.
  assert (Hb : bfBusy (bfNew m) = false) by (unfold bfNew, bfGrow; destruct (_ <? _)%N; reflexivity).
  assert (Hr : bfRef (bfNew m) = 0%Z) by (unfold bfNew, bfGrow; destruct (_ <? _)%N; reflexivity).
  set (nb := bfNew m) in *. unfold exec, bpstep, bpRel, bfAcquire, bfRelease. cbn - [bfNew Z.add Z.sub]. fold nb.
  destruct nb as [by_ rest off ref busy]. cbn [bfBusy bfRef] in Hb, Hr. subst busy ref. cbn. eexists. repeat split; cbn; auto.
Qed.
Print Assumptions C45_double_release_refuted.

(** A fresh buffer comes with [maxSize] visible bytes, a recycled one with none:
    the length of an acquired buffer means nothing before [Grow]. *)
Theorem C45_acquired_length : forall m s u o s' b, bpReach m s -> bpstep m s (BpAcquire u o) = Some s' ->
  bpBuf s' o = Some b -> len (bfBytes b) = if bpPool s o then 0%N else m.
Proof.
  intros m s u o s' b R E Hb. destruct (bp_inv m s R) as [Hp I]. destruct (I o) as [I1 I2].
  unfold bpstep in E. rewrite Hp in E. destruct (existsb (Nat.eqb u) (bpOwner s o)); [discriminate|].
  destruct (bpBuf s o) as [b0|] eqn:Eb.
  - destruct (bpPool s o) eqn:Epo; [|discriminate].
    destruct (I2 b0 eq_refl) as (Hc & [(P1 & P2 & P3 & P4 & P5)|(P1 & _)]); [|congruence].
    unfold bfAcquire in E. rewrite P3 in E. injection E as <-. cbn [bpBuf] in Hb. rewrite fupd_same in Hb. injection Hb as <-.
    cbn [bfBytes]. rewrite P5. reflexivity.
  - destruct (I1 eq_refl) as [J1 J2]. rewrite J2.
    assert (Hnb : bfBusy (bfNew m) = false) by (unfold bfNew, bfGrow; destruct (_ <? _)%N; reflexivity).
    unfold bfAcquire in E. rewrite Hnb in E. injection E as <-. cbn [bpBuf] in Hb. rewrite fupd_same in Hb. injection Hb as <-.
    cbn [bfBytes]. apply (C45_grow _ m).
Qed.
Print Assumptions C45_acquired_length.

Example C45_example : exists s, exec (bpstep 4) bpInit [BpAcquire 1 0; BpUse 1 0 3; BpAcquire 2 1; BpRelease 1 0; BpAcquire 3 0; BpUse 3 0 9] = Some s /\
  bpOwner s 0 = [3] /\ bpOwner s 1 = [2] /\ option_map (fun b => len (bfBytes b)) (bpBuf s 0) = Some 9%N /\
  option_map (fun b => len (bfBytes b)) (bpBuf s 1) = Some 4%N.
Proof. eexists. split; [vm_compute; reflexivity|]. repeat split; vm_compute; reflexivity. Qed.
