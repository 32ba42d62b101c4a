(** C117, C118: setting the session's keys and waiting for them. *)
From Coq Require Import NArith List Bool Arith Lia.
From Verif Require Import Base BaseLemmas TS MessageModel KxModel KxProofs KxFineModel KxFineProofs KxProvProps IntegAuth KeyWaitModel IntegProofs.
Import ListNotations.
Local Open Scope nat_scope.

(** ** What is claimed *)

(** Four secrets of at least 32 bytes, the first of which is there: what
    [updateSecrets] hands over (key_exchanger.go 325-338). *)
Definition goodSecrets (l : kwLabel) : Prop :=
  match l with
  | KwSet _ secrets => length secrets = 4 /\ (exists b, nth 0 secrets None = Some b) /\
      forall b, In (Some b) secrets -> 32 <= length b
  | _ => True
  end.

(** Four keys, the first of which is there: what [sendMessages] relies on. *)
Definition usable (ks : cipherKeys) : Prop := length ks = 4 /\ exists k, nth 0 ks None = Some k /\ length k = 32.

(** ** Lemmas *)
Lemma gslice32 : forall b : bytes, 32 <= length b -> exists k, gslice b 0 32 = Some k /\ length k = 32.
Proof.
  intros b H. unfold gslice, len. replace ((0 <=? 32) && (32 <=? N.of_nat (length b)))%N with true.
  - eexists. split; [reflexivity|]. change (N.to_nat (32 - 0)) with 32. change (N.to_nat 0) with 0. cbn [skipn].
    rewrite firstn_length. lia.
  - symmetry. apply andb_true_iff. split; [reflexivity|]. apply N.leb_le. lia.
Qed.

Lemma cipher_total : forall secrets, (forall b, In (Some b) secrets -> 32 <= length b) ->
  exists ks, cipherKeysOf secrets = Ret ks /\ length ks = length secrets /\
    forall b, nth 0 secrets None = Some b -> exists k, nth 0 ks None = Some k /\ length k = 32.
Proof.
  induction secrets as [|o secrets IH]; intros H; [exists []; split; [reflexivity|]; split; [reflexivity|discriminate]|].
  destruct IH as (ks & E & L & _); [intros b Hb; apply H; right; exact Hb|]. cbn [cipherKeysOf]. rewrite E. destruct o as [b|].
  - destruct (gslice32 b) as (k & -> & Lk); [apply H; left; reflexivity|]. exists (Some k :: ks). split; [reflexivity|].
    split; [cbn; lia|]. intros _ _. exists k. auto.
  - exists (None :: ks). split; [reflexivity|]. split; [cbn; lia|discriminate].
Qed.

Lemma changed_nil : forall ks, ks <> [] -> changedCount ks [] <> 0.
Proof. intros [|k ks] H; [contradiction|]. cbn. discriminate. Qed.

(** The keys, the channel and the lock. *)
Record kwInv (s : kw) : Prop := {
  ivPanic : kwPanic s = false;
  ivLog : kwKeys s = hd_error (kwLog s);
  ivKeys : forall ks, In ks (kwLog s) -> usable ks;
  ivCall : forall i secrets, kwSet s i = SetCall secrets -> goodSecrets (KwSet i secrets);
  ivStored : forall i n, kwSet s i = SetStored n -> kwLock s = Some i /\ n = 4;
  ivLock : forall i, kwLock s = Some i -> kwSet s i = SetStored 4 /\ kwLog s <> [];
  ivChan : kwClosed s = true <-> (match kwLock s with None => kwLog s <> [] | Some _ => tl (kwLog s) <> [] end);
  ivLoad : forall i, kwGet s i = GetLoad -> kwClosed s = true;
  ivRet : forall i ks, kwGet s i = GetRet (Some ks) -> In ks (kwLog s);
  ivNil : forall i, kwGet s i = GetRet None -> kwDone s = true
}.

Lemma kwInv_init : kwInv kwInit.
Proof. split; try discriminate; try reflexivity; cbn; try tauto. split; [discriminate|congruence]. Qed.

Lemma closed_log : forall s, kwInv s -> kwClosed s = true -> kwLog s <> [].
Proof. intros s I H. apply (ivChan s I) in H. destruct (kwLock s); [|exact H]. destruct (kwLog s); [contradiction|discriminate]. Qed.

Ltac upd_cases := cbn [upSet upGet upKeys upClosed upDone upPanicked kwKeys kwClosed kwDone kwLock kwSet kwGet kwPanic kwLog] in *.

Lemma kwInv_step : forall s l s', kwInv s -> goodSecrets l -> kwStep s l = Some s' -> kwInv s'.
Proof.
  intros s l s' I G E. destruct I as [P L K C S1 S2 Ch Ld R Nn] eqn:EI. clear EI. unfold kwStep in E. rewrite P in E.
  assert (Fs : forall i p j q, fupd (kwSet s) i p j = q -> (j = i /\ p = q) \/ kwSet s j = q).
  { intros i p j q H. unfold fupd in H. destruct (Nat.eqb_spec j i); auto. }
  assert (Fg : forall i p j q, fupd (kwGet s) i p j = q -> (j = i /\ p = q) \/ kwGet s j = q).
  { intros i p j q H. unfold fupd in H. destruct (Nat.eqb_spec j i); auto. }
  destruct l as [i secrets|i|i|i|i|i|i|].
  - assert (Hp : kwSet s i = SetIdle \/ exists r, kwSet s i = SetRet r) by (destruct (kwSet s i); try discriminate; eauto).
    assert (Es : s' = upSet s i (SetCall secrets) (kwLock s)) by (destruct (kwSet s i); congruence). subst s'.
    assert (Nl : kwLock s <> Some i) by (intros H; destruct (S2 i H) as [H' _]; rewrite H' in Hp; destruct Hp as [Hp|[r Hp]]; discriminate).
    split; upd_cases; auto.
    + intros j x H. destruct (Fs _ _ _ _ H) as [[-> H']|H']; [injection H' as <-; exact G|exact (C j x H')].
    + intros j n H. destruct (Fs _ _ _ _ H) as [[-> H']|H']; [discriminate|exact (S1 j n H')].
    + intros j H. rewrite fupd_other by congruence. exact (S2 j H).
  - destruct (kwSet s i) as [|secrets| |] eqn:Ei; try discriminate. destruct (kwLock s) eqn:El; [discriminate|].
    destruct (C i secrets Ei) as (C1 & (b0 & C2) & C3). destruct (cipher_total secrets C3) as (ks & Ek & Lk & Hk). rewrite Ek in E.
    destruct (Nat.eqb (changedCount ks (keysNow s)) 0).
    + injection E as <-. split; upd_cases; auto.
      * intros j x H. destruct (Fs _ _ _ _ H) as [[-> H']|H']; [discriminate|exact (C j x H')].
      * intros j n H. destruct (Fs _ _ _ _ H) as [[-> H']|H']; [discriminate|]. destruct (S1 j n H'). congruence.
      * discriminate.
    + injection E as <-. split; upd_cases; auto.
      * intros x [<-|H]; [|exact (K x H)]. split; [exact (eq_trans Lk C1)|exact (Hk _ C2)].
      * intros j x H. destruct (Fs _ _ _ _ H) as [[-> H']|H']; [discriminate|exact (C j x H')].
      * intros j n H. destruct (Fs _ _ _ _ H) as [[-> H']|H']; [injection H' as <-; split; [reflexivity|exact (eq_trans Lk C1)]|]. destruct (S1 j n H'). congruence.
      * intros j H. injection H as <-. rewrite fupd_same. split; [f_equal; exact (eq_trans Lk C1)|discriminate].
      * intros j x H. right. exact (R j x H).
  - destruct (kwSet s i) as [| |n|] eqn:Ei; try discriminate. destruct (S1 i n Ei) as [El ->]. cbn [Nat.eqb] in E.
    destruct (S2 i El) as [_ Nl]. rewrite El in Ch.
    assert (X : forall r, kwInv (upSet (upClosed s) i (SetRet r) None)).
    { intros r. split; upd_cases; auto.
      - intros j x H. destruct (Fs _ _ _ _ H) as [[-> H']|H']; [discriminate|exact (C j x H')].
      - intros j n H. destruct (Fs _ _ _ _ H) as [[-> H']|H']; [discriminate|]. destruct (S1 j n H') as [H1 _]. 
        assert (j = i) by congruence. subst j. rewrite fupd_same in H. discriminate.
      - discriminate.
      - split; auto. }
    destruct (kwClosed s) eqn:Ec; injection E as <-.
    + assert (Ex : upSet s i (SetRet false) None = upSet (upClosed s) i (SetRet false) None) by (unfold upSet, upClosed; cbn; rewrite Ec; reflexivity).
      rewrite Ex. apply X.
    + apply X.
  - assert (Hs : s' = upGet s i (if Nat.eqb (length (keysNow s)) 4 && match nth 0 (keysNow s) None with Some _ => true | None => false end
                           then GetRet (Some (keysNow s)) else GetSelect)) by (destruct (kwGet s i); congruence). subst s'.
    split; upd_cases; auto.
    + intros j H. destruct (Fg _ _ _ _ H) as [[-> H']|H']; [destruct (_ && _); discriminate|exact (Ld j H')].
    + intros j x H. destruct (Fg _ _ _ _ H) as [[-> H']|H']; [|exact (R j x H')].
      destruct (_ && _) eqn:Eb; [|discriminate]. injection H' as <-. unfold keysNow in *. rewrite L in *.
      destruct (kwLog s); [cbn in Eb; discriminate|left; reflexivity].
    + intros j H. destruct (Fg _ _ _ _ H) as [[-> H']|H']; [destruct (_ && _); discriminate|exact (Nn j H')].
  - destruct (kwGet s i) eqn:Ei; try discriminate. destruct (kwClosed s) eqn:Ec; [|discriminate]. injection E as <-. split; upd_cases; auto.
    + rewrite Ec. exact Ch.
    + intros j x H. destruct (Fg _ _ _ _ H) as [[-> H']|H']; [discriminate|exact (R j x H')].
    + intros j H. destruct (Fg _ _ _ _ H) as [[-> H']|H']; [discriminate|exact (Nn j H')].
  - destruct (kwGet s i) eqn:Ei; try discriminate. destruct (kwDone s) eqn:Ec; [|discriminate]. injection E as <-. split; upd_cases; auto.
    + intros j H. destruct (Fg _ _ _ _ H) as [[-> H']|H']; [discriminate|exact (Ld j H')].
    + intros j x H. destruct (Fg _ _ _ _ H) as [[-> H']|H']; [discriminate|exact (R j x H')].
  - destruct (kwGet s i) eqn:Ei; try discriminate.
    assert (Nl : kwLog s <> []).
    { assert (H := Ld i Ei). apply Ch in H. destruct (kwLock s); [|exact H]. destruct (kwLog s); [contradiction|discriminate]. }
    rewrite L in E. destruct (kwLog s) as [|k0 r] eqn:Eg; [contradiction|]. cbn [hd_error] in E. injection E as <-. split; upd_cases; rewrite ?Eg; auto.
    + intros j H. destruct (Fg _ _ _ _ H) as [[-> H']|H']; [discriminate|exact (Ld j H')].
    + intros j x H. destruct (Fg _ _ _ _ H) as [[-> H']|H']; [injection H' as <-; left; reflexivity|exact (R j x H')].
    + intros j H. destruct (Fg _ _ _ _ H) as [[-> H']|H']; [discriminate|exact (Nn j H')].
  - injection E as <-. split; upd_cases; auto.
Qed.

Lemma kwInv_run : forall ls s, exec kwStep kwInit ls = Some s -> Forall goodSecrets ls -> kwInv s.
Proof.
  intros ls s E F. revert ls s E F. 
  apply (exec_snoc_inv _ _ kwStep (fun ls s => Forall goodSecrets ls -> kwInv s)).
  - intros _. apply kwInv_init.
  - intros ls s l s' _ IH E F. apply Forall_app in F. destruct F as [F1 F2]. inversion F2; subst. eapply kwInv_step; eauto.
Qed.

Lemma exec_none : forall ls l s, exec kwStep s ls = None -> exec kwStep s (ls ++ [l]) = None.
Proof.
  induction ls as [|x ls IH]; intros l s E; cbn [exec app] in *; [discriminate|]. destruct (kwStep s x); [apply IH; exact E|reflexivity].
Qed.

(** ** C117 *)

(** Nobody panics: neither the "should not happened" of 1423 nor a second close of
    the channel nor a short secret. *)
Theorem C117_no_panic : forall ls s, exec kwStep kwInit ls = Some s -> Forall goodSecrets ls -> kwPanic s = false.
Proof. intros ls s E F. exact (ivPanic s (kwInv_run ls s E F)). Qed.
Print Assumptions C117_no_panic.

(** What [GetCipherKeysWait] returns: usable keys that were in force at some
    moment during the call, or nil, and that only if the context is done. *)
Theorem C117_result : forall ls0 s0 i ls s r,
  exec kwStep kwInit ls0 = Some s0 -> Forall goodSecrets ls0 -> Forall goodSecrets ls ->
  exec kwStep s0 (KwGet i :: ls) = Some s -> ~ In (KwGet i) ls -> kwGet s i = GetRet r ->
  match r with
  | None => kwDone s = true
  | Some ks => usable ks /\
      exists a b s1, ls = a ++ b /\ exec kwStep s0 (KwGet i :: a) = Some s1 /\ kwKeys s1 = Some ks
  end.
Proof.
  intros ls0 s0 i ls s r E0 F0 F E Ni Er.
  assert (I : kwInv s).
  { apply (kwInv_run (ls0 ++ KwGet i :: ls)); [rewrite (exec_app _ _ _ _ _ E0); exact E|]. apply Forall_app. split; [exact F0|]. constructor; [exact Logic.I|exact F]. }
  destruct r as [ks|]; [|exact (ivNil s I i Er)]. split; [exact (ivKeys s I ks (ivRet s I i ks Er))|].
  revert ks Er. clear I.
  enough (X : forall ls s, exec kwStep s0 (KwGet i :: ls) = Some s -> Forall goodSecrets ls -> ~ In (KwGet i) ls -> forall ks, kwGet s i = GetRet (Some ks) ->
    exists a b s1, ls = a ++ b /\ exec kwStep s0 (KwGet i :: a) = Some s1 /\ kwKeys s1 = Some ks) by (intros ks Er; exact (X ls s E F Ni ks Er)).
  clear ls s F E Ni. intros ls. induction ls as [|l ls IH] using rev_ind; intros s E F Ni ks Er.
  - exists [], [], s. split; [reflexivity|]. split; [exact E|]. cbn [exec] in E. destruct (kwStep s0 (KwGet i)) as [s1|] eqn:E1; [|discriminate].
    injection E as ->. unfold kwStep in E1. destruct (kwPanic s0); [discriminate|].
    assert (Hs : s = upGet s0 i (if Nat.eqb (length (keysNow s0)) 4 && match nth 0 (keysNow s0) None with Some _ => true | None => false end
                           then GetRet (Some (keysNow s0)) else GetSelect)) by (destruct (kwGet s0 i); congruence). subst s.
    cbn [upGet kwGet kwKeys] in *. rewrite fupd_same in Er. destruct (_ && _) eqn:Eb; [|discriminate]. injection Er as <-.
    unfold keysNow in *. destruct (kwKeys s0); [reflexivity|discriminate].
  - apply Forall_app in F. destruct F as [F1 F2].
    assert (Ni1 : ~ In (KwGet i) ls /\ l <> KwGet i).
    { split; [intros H; apply Ni; apply in_or_app; auto|intros ->; apply Ni; apply in_or_app; right; left; reflexivity]. }
    destruct Ni1 as [Ni1 Ni2].
    destruct (exec kwStep s0 (KwGet i :: ls)) as [s1|] eqn:E1.
    2:{ exfalso. change (KwGet i :: ls ++ [l]) with ((KwGet i :: ls) ++ [l]) in E. rewrite (exec_none _ _ _ E1) in E. discriminate. }
    change (KwGet i :: ls ++ [l]) with ((KwGet i :: ls) ++ [l]) in E. rewrite (exec_app _ _ _ _ _ E1) in E. cbn [exec] in E.
    destruct (kwStep s1 l) as [s2|] eqn:E2; [|discriminate]. injection E as ->.
    assert (D : kwGet s1 i = GetRet (Some ks) \/ kwKeys s1 = Some ks).
    { unfold kwStep in E2. destruct (kwPanic s1); [discriminate|].
      assert (Fg : forall j p, fupd (kwGet s1) j p i = GetRet (Some ks) -> (j = i /\ p = GetRet (Some ks)) \/ kwGet s1 i = GetRet (Some ks)).
      { intros j p H. unfold fupd in H. destruct (Nat.eqb_spec i j); auto. }
      destruct l as [j secrets|j|j|j|j|j|j|].
      - left. destruct (kwSet s1 j); try discriminate; injection E2 as <-; exact Er.
      - left. destruct (kwSet s1 j); try discriminate. destruct (kwLock s1); [discriminate|]. destruct (cipherKeysOf secrets); [|injection E2 as <-; exact Er].
        destruct (Nat.eqb _ 0); injection E2 as <-; exact Er.
      - left. destruct (kwSet s1 j); try discriminate. destruct (Nat.eqb n 4); [destruct (kwClosed s1)|]; injection E2 as <-; exact Er.
      - assert (j <> i) by congruence. left. destruct (kwGet s1 j); try discriminate; injection E2 as <-; cbn [upGet kwGet] in Er; rewrite fupd_other in Er by congruence; exact Er.
      - left. destruct (kwGet s1 j) eqn:Ej; try discriminate. destruct (kwClosed s1); [|discriminate]. injection E2 as <-.
        destruct (Fg _ _ Er) as [[_ H]|H]; [discriminate|exact H].
      - left. destruct (kwGet s1 j) eqn:Ej; try discriminate. destruct (kwDone s1); [|discriminate]. injection E2 as <-.
        destruct (Fg _ _ Er) as [[_ H]|H]; [discriminate|exact H].
      - destruct (kwGet s1 j) eqn:Ej; try discriminate. destruct (kwKeys s1) as [ks'|] eqn:Ek; injection E2 as <-; [|left; exact Er].
        destruct (Fg _ _ Er) as [[_ H]|H]; [right; injection H as <-; reflexivity|left; exact H].
      - left. injection E2 as <-. exact Er. }
    destruct D as [D|D].
    + destruct (IH s1 eq_refl F1 Ni1 ks D) as (a & b & s3 & -> & X & Y). exists a, (b ++ [l]), s3. rewrite app_assoc. auto.
    + exists ls, [l], s1. auto.
Qed.
Print Assumptions C117_result.

(** A call that can go on does: as soon as keys are there, either the channel is
    closed or the goroutine that stored them is about to close it; once it is
    closed, or the context is done, two steps of its own end the call, and nothing
    that others do can take that away. *)
Definition waiting (s : kw) (i : nat) : Prop := kwGet s i = GetSelect \/ kwGet s i = GetLoad.
Definition ownStep (i : nat) (l : kwLabel) : bool :=
  match l with KwRecv j | KwDone j | KwLoad j => Nat.eqb j i | _ => false end.

Definition left (s : kw) (i : nat) : nat := match kwGet s i with GetIdle => 3 | GetSelect => 2 | GetLoad => 1 | GetRet _ => 0 end.

Lemma left_step : forall s l s' i, kwStep s l = Some s' -> l <> KwGet i -> kwPanic s' = false ->
  left s' i + (if ownStep i l then 1 else 0) <= left s i /\
  (kwClosed s = true -> kwClosed s' = true) /\ (kwDone s = true -> kwDone s' = true).
Proof.
  intros s l s' i E Hl Np. unfold kwStep in E. destruct (kwPanic s); [discriminate|]. unfold left.
  destruct l as [j secrets|j|j|j|j|j|j|]; cbn [ownStep].
  - destruct (kwSet s j); try discriminate; injection E as <-; upd_cases; (split; [lia|split; auto]).
  - destruct (kwSet s j); try discriminate. destruct (kwLock s); [discriminate|]. destruct (cipherKeysOf secrets); [|injection E as <-; discriminate].
    destruct (Nat.eqb _ 0); injection E as <-; upd_cases; (split; [lia|split; auto]).
  - destruct (kwSet s j); try discriminate. destruct (Nat.eqb n 4); [destruct (kwClosed s) eqn:Ec|]; injection E as <-; upd_cases; (split; [lia|split; auto]).
  - assert (j <> i) by congruence. destruct (kwGet s j); try discriminate; injection E as <-; cbn [upGet kwGet kwClosed kwDone]; rewrite fupd_other by congruence; split; try lia; auto.
  - destruct (kwGet s j) eqn:Ej; try discriminate. destruct (kwClosed s) eqn:Ec; [|discriminate]. injection E as <-. cbn [upGet kwGet kwClosed kwDone].
    split; [|rewrite ?Ec; auto]. unfold fupd. rewrite (Nat.eqb_sym j i). destruct (Nat.eqb_spec i j) as [->|]; [rewrite Ej|]; lia.
  - destruct (kwGet s j) eqn:Ej; try discriminate. destruct (kwDone s) eqn:Ec; [|discriminate]. injection E as <-. cbn [upGet kwGet kwClosed kwDone].
    split; [|rewrite ?Ec; auto]. unfold fupd. rewrite (Nat.eqb_sym j i). destruct (Nat.eqb_spec i j) as [->|]; [rewrite Ej|]; lia.
  - destruct (kwGet s j) eqn:Ej; try discriminate. destruct (kwKeys s); injection E as <-; [|discriminate]. cbn [upGet kwGet kwClosed kwDone].
    split; [|rewrite ?Ec; auto]. unfold fupd. rewrite (Nat.eqb_sym j i). destruct (Nat.eqb_spec i j) as [->|]; [rewrite Ej|]; lia.
  - injection E as <-. upd_cases. split; [lia|auto].
Qed.

Lemma left_run : forall ls s s' i, kwInv s -> Forall goodSecrets ls -> exec kwStep s ls = Some s' -> ~ In (KwGet i) ls ->
  left s' i + length (filter (ownStep i) ls) <= left s i /\
  (kwClosed s = true -> kwClosed s' = true) /\ (kwDone s = true -> kwDone s' = true).
Proof.
  induction ls as [|l ls IH]; intros s s' i I F E Ni; cbn [exec] in E; [injection E as <-; cbn; split; [lia|auto]|].
  destruct (kwStep s l) as [s1|] eqn:E1; [|discriminate]. inversion F as [|? ? G F']; subst.
  assert (I1 := kwInv_step _ _ _ I G E1).
  destruct (left_step s l s1 i E1) as (A & B & C); [intros ->; apply Ni; left; reflexivity|exact (ivPanic _ I1)|].
  destruct (IH s1 s' i I1 F' E) as (A' & B' & C'); [intros H; apply Ni; right; exact H|].
  split; [|split; auto]. cbn [filter]. destruct (ownStep i l); cbn [length]; lia.
Qed.

Theorem C117_woken : forall ls s i, exec kwStep kwInit ls = Some s -> Forall goodSecrets ls -> waiting s i ->
  (kwKeys s <> None -> kwClosed s = false -> exists j s', kwLock s = Some j /\ kwStep s (KwChan j) = Some s' /\ kwClosed s' = true) /\
  (kwClosed s = true \/ kwDone s = true -> exists l s', ownStep i l = true /\ kwStep s l = Some s') /\
  (forall ls' s', exec kwStep s ls' = Some s' -> Forall goodSecrets ls' -> ~ In (KwGet i) ls' ->
     (2 <= length (filter (ownStep i) ls') -> exists r, kwGet s' i = GetRet r) /\
     (kwClosed s = true -> kwClosed s' = true) /\ (kwDone s = true -> kwDone s' = true)).
Proof.
  intros ls s i E F W. assert (I := kwInv_run ls s E F). split; [|split].
  - intros Hk Hc. destruct (kwLock s) as [j|] eqn:El.
    + destruct (ivLock s I j El) as [Ej _]. exists j, (upSet (upClosed s) j (SetRet true) None). split; [reflexivity|]. split; [|reflexivity].
      unfold kwStep. rewrite (ivPanic s I), Ej. cbn [Nat.eqb]. rewrite Hc. reflexivity.
    + exfalso. assert (C := ivChan s I). rewrite El, Hc in C. assert (H := ivLog s I). destruct (kwLog s); [cbn in H; congruence|].
      assert (false = true) by (apply C; discriminate). discriminate.
  - intros H. unfold kwStep. destruct W as [W|W].
    + destruct (kwClosed s) eqn:Ec.
      * exists (KwRecv i). eexists. split; [apply Nat.eqb_refl|]. rewrite (ivPanic s I), W. reflexivity.
      * exists (KwDone i). eexists. split; [apply Nat.eqb_refl|]. rewrite (ivPanic s I), W. destruct H as [H|H]; [discriminate|]. rewrite H. reflexivity.
    + exists (KwLoad i). assert (H' := closed_log s I (ivLoad s I i W)). rewrite (ivPanic s I), W, (ivLog s I).
      destruct (kwLog s); [contradiction|]. eexists. split; [apply Nat.eqb_refl|reflexivity].
  - intros ls' s' E' F' Ni. destruct (left_run ls' s s' i I F' E' Ni) as (A & B & C). split; [|split; assumption].
    intros H. assert (L0 : left s' i = 0) by (unfold left in *; destruct W as [W|W]; rewrite W in A; lia).
    unfold left in L0. destruct (kwGet s' i); try discriminate. eauto.
Qed.
Print Assumptions C117_woken.

(** The secrets are good: in every run of the exchanger, whoever is about to hand
    over secrets (2074) has four of them, and the first is there. *)
Definition partial_ (s : fxs) (acc : partSecrets) : Prop :=
  (exists m, fHandle s = Some (m, Some acc)) \/ fLoop s = Some acc \/ exists i, fAns s i = Some acc.

Section Callers.
  Variable verify : bytes -> bytes -> bytes -> bool.
  Variable dh : bytes -> bytes -> bytes.
  Variables blake3 sha3 : bytes -> bytes.
  Variable c : kxConf.

  Lemma upd_length : forall k acc k' acc', length acc <= 4 -> updStep dh blake3 sha3 c k acc = Ret (k', Some acc') -> length acc' <= 4.
  Proof.
    intros k acc k' acc' H. unfold updStep. destruct (Nat.ltb_spec (length acc) 4).
    - destruct (secretParts _ _). destruct (generateSharedKey _ _ _ _ _ _); [|discriminate]. injection 1 as _ <-. rewrite app_length. cbn. lia.
    - destruct acc as [|[[|b0 bs]|] acc]; try discriminate. destruct (cipherKeysOf _); discriminate.
  Qed.

  Lemma part_length : forall remote ls s, exec (fstep verify dh blake3 sha3 c) (fxsInit remote) ls = Some s ->
    forall acc, partial_ s acc -> length acc <= 4.
  Proof.
    intros remote. apply (exec_snoc_inv _ _ (fstep verify dh blake3 sha3 c) (fun _ s => forall acc, partial_ s acc -> length acc <= 4)).
    - intros acc [[m H]|[H|[i H]]]; discriminate.
    - intros ls s l s' _ IH E. unfold fstep in E. destruct (xPanic (fX s)); [discriminate|].
      assert (Qu : forall k, quiet verify dh blake3 sha3 c s k = Some s' -> forall acc, partial_ s' acc -> length acc <= 4).
      { intros k Eq. unfold quiet in Eq. destruct (kstep _ _ _ _ _ _ _); [|discriminate]. injection Eq as <-. exact IH. }
      destruct l as [k| | | |i].
      + destruct k; try (match type of E with (if ?b then _ else _) = _ => destruct b; [|discriminate] end; eapply Qu; exact E).
        * destruct (flocked s); [discriminate|]. destruct (beginHandle verify c (xKx (fX s)) b) as [k [h|m]]; injection E as <-; [exact IH|].
          intros acc [[m' H]|[H|[i H]]]; [injection H as <- <-; cbn; lia|apply IH; right; left; exact H|apply IH; right; right; exists i; exact H].
        * destruct (xLoop (fX s)); try discriminate. destruct (fLoop s); [discriminate|]. injection E as <-.
          intros acc [[m' H]|[H|[i H]]]; [apply IH; left; exists m'; exact H|injection H as <-; cbn; lia|apply IH; right; right; exists i; exact H].
        * destruct (nth_error _ _) as [[]|]; try discriminate. destruct (fAns s i); [discriminate|]. injection E as <-.
          intros acc [[m' H]|[H|[j H]]]; [apply IH; left; exists m'; exact H|apply IH; right; left; exact H|].
          cbn [setFAns fAns setFx] in H. unfold fupd in H. destruct (Nat.eqb j i); [injection H as <-; cbn; lia|apply IH; right; right; exists j; exact H].
        * eapply Qu; exact E.
      + destruct (fHandle s) as [[m [acc|]]|] eqn:Eh; try discriminate. destruct (updStep _ _ _ _ _ _) as [[k a]|] eqn:Eu; injection E as <-; [|exact IH].
        intros acc' [[m' H]|[H|[i H]]]; [|apply IH; right; left; exact H|apply IH; right; right; exists i; exact H].
        cbn in H. injection H as <- ->. eapply upd_length; [|exact Eu]. apply IH. left. exists m. exact Eh.
      + destruct (fHandle s) as [[m [acc|]]|] eqn:Eh; try discriminate. destruct (endHandle c (xKx (fX s)) m) as [k h]. injection E as <-.
        intros acc' [[m' H]|[H|[i H]]]; [discriminate|apply IH; right; left; exact H|apply IH; right; right; exists i; exact H].
      + destruct (fLoop s) as [acc|] eqn:Eh; try discriminate. destruct (updStep _ _ _ _ _ _) as [[k a]|] eqn:Eu; injection E as <-; [|exact IH].
        intros acc' [[m' H]|[H|[i H]]]; [apply IH; left; exists m'; exact H| |apply IH; right; right; exists i; exact H].
        cbn in H. subst a. eapply upd_length; [|exact Eu]. apply IH. right. left. exact Eh.
      + destruct (fAns s i) as [acc|] eqn:Eh; try discriminate. destruct (updStep _ _ _ _ _ _) as [[k a]|] eqn:Eu; injection E as <-; [|exact IH].
        intros acc' [[m' H]|[H|[j H]]]; [apply IH; left; exists m'; exact H|apply IH; right; left; exact H|].
        cbn [setFAns fAns setFx] in H. unfold fupd in H. destruct (Nat.eqb j i); [|apply IH; right; right; exists j; exact H].
        subst a. eapply upd_length; [|exact Eu]. apply IH. right. right. exists i. exact Eh.
  Qed.
End Callers.

Theorem C117_callers : forall verify dh blake3 sha3 c remote ls s acc k i,
  (forall x y, length (dh x y) = 32) -> (forall x, length (sha3 x) = 32) ->
  exec (fstep verify dh blake3 sha3 c) (fxsInit remote) ls = Some s -> partial_ s acc ->
  updStep dh blake3 sha3 c (xKx (fX s)) acc = Ret (k, None) -> k <> xKx (fX s) -> goodSecrets (KwSet i acc).
Proof.
  intros verify dh blake3 sha3 c remote ls s acc k i Hl Hs E Hp Eu Hk.
  assert (L := part_length verify dh blake3 sha3 c remote ls s E acc Hp).
  destruct (prov_run verify dh blake3 sha3 c Hl Hs remote ls s E) as (_ & P1 & P2 & P3).
  assert (A : accProv verify dh blake3 sha3 c ls (xKx (fX s)) acc) by (destruct Hp as [[m H]|[H|[j H]]]; eauto).
  unfold updStep in Eu. destruct (Nat.ltb_spec (length acc) 4).
  - destruct (secretParts _ _). destruct (generateSharedKey _ _ _ _ _ _); discriminate.
  - cbn [goodSecrets]. split; [lia|]. split.
    + destruct acc as [|[[|b0 bs]|] acc]; try congruence. exists (b0 :: bs). reflexivity.
    + intros b Hb. destruct (A b Hb) as (p & x & _ & _ & M). rewrite (made_len dh blake3 sha3 c Hl _ _ _ M). lia.
Qed.
Print Assumptions C117_callers.

(** A caller waits; another stores keys; the first is woken, but before it loads
    the keys a third goroutine stores others: it gets these. *)
Definition kwSecrets (n : N) : list (option bytes) := [Some (repeat n 32); None; None; None].
Definition kwExample : list kwLabel :=
  [KwGet 0; KwSet 1 (kwSecrets 1); KwSet 2 (kwSecrets 2); KwStore 1; KwChan 1; KwRecv 0; KwStore 2; KwLoad 0].
Example C117_example :
  match exec kwStep kwInit kwExample with
  | Some s => kwGet s 0 = GetRet (Some (kwSecrets 2)) /\ kwSet s 1 = SetRet true
  | None => False
  end /\ Forall goodSecrets kwExample /\ waiting (match exec kwStep kwInit [KwGet 0] with Some s => s | None => kwInit end) 0.
Proof.
  split; [vm_compute; auto|]. split; [|left; reflexivity].
  repeat (constructor; [first [exact I|split; [reflexivity|split; [eexists; reflexivity|intros b [H|[H|[H|[H|[]]]]]; try discriminate; injection H as <-; cbn; lia]]]|]).
  constructor.
Qed.

(** Nil is the answer only to a session that was cancelled, and such a session
    answers. *)
Theorem C117_nil_cancelled : forall ls s i, exec kwStep kwInit ls = Some s -> kwGet s i = GetRet None -> In KwCancel ls.
Proof.
  intros ls s i E H.
  assert (D : forall ls s s', exec kwStep s ls = Some s' -> kwDone s = false -> (forall j, kwGet s j <> GetRet None) ->
    In KwCancel ls \/ (kwDone s' = false /\ forall j, kwGet s' j <> GetRet None)).
  { clear. induction ls as [|l ls IH]; intros s s' E D N; cbn [exec] in E; [injection E as <-; auto|].
    destruct (kwStep s l) as [x|] eqn:X; [|discriminate].
    assert (C : l = KwCancel \/ (kwDone x = false /\ forall j, kwGet x j <> GetRet None)).
    { unfold kwStep in X. destruct (kwPanic s); [discriminate|].
      destruct l as [j secrets|j|j|j|j|j|j|]; [right|right|right|right|right|right|right|left; reflexivity].
      - destruct (kwSet s j); try discriminate; injection X as <-; auto.
      - destruct (kwSet s j); try discriminate. destruct (kwLock s); [discriminate|].
        destruct (cipherKeysOf secrets); [|injection X as <-; auto]. destruct (Nat.eqb _ _); injection X as <-; auto.
      - destruct (kwSet s j); try discriminate. destruct (Nat.eqb _ _); [destruct (kwClosed s)|]; injection X as <-; auto.
      - assert (G : exists p, x = upGet s j p /\ p <> GetRet None).
        { destruct (kwGet s j); try discriminate; injection X as <-; eexists; (split; [reflexivity|]); destruct (_ && _); discriminate. }
        destruct G as (p & -> & G). split; [exact D|]. intros k. cbn [upGet kwGet]. unfold fupd. destruct (Nat.eqb k j); auto.
      - destruct (kwGet s j); try discriminate. destruct (kwClosed s); [|discriminate]. injection X as <-. split; [exact D|].
        intros k. cbn [upGet kwGet]. unfold fupd. destruct (Nat.eqb k j); auto. discriminate.
      - destruct (kwGet s j); try discriminate. rewrite D in X. discriminate.
      - destruct (kwGet s j); try discriminate. destruct (kwKeys s); injection X as <-; [|auto]. split; [exact D|].
        intros k. cbn [upGet kwGet]. unfold fupd. destruct (Nat.eqb k j); auto. discriminate. }
    destruct C as [-> |[C1 C2]]; [left; left; reflexivity|]. destruct (IH x s' E C1 C2) as [C|C]; [left; right; exact C|right; exact C]. }
  destruct (D ls kwInit s E eq_refl) as [C|[_ C]]; [discriminate|exact C|]. destruct (C i H).
Qed.
Print Assumptions C117_nil_cancelled.

Example C117_cancel_example :
  match exec kwStep kwInit [KwGet 0; KwGet 1; KwCancel; KwDone 1] with
  | Some s => kwGet s 1 = GetRet None /\ kwGet s 0 = GetSelect
  | None => False
  end /\ exec kwStep kwInit [KwGet 0; KwDone 0] = None.
Proof. vm_compute. auto. Qed.

(** ** C118: the result of [setSecrets] tells whether the keys have changed.
    Refuted: from the second change on it is false; [onReceiveSecrets] then says
    "the same as they were". *)
Theorem C118_change_reported_as_none_refuted : exists ls s,
  exec kwStep kwInit ls = Some s /\ Forall goodSecrets ls /\
  kwLog s = [kwSecrets 2; kwSecrets 1] /\ kwKeys s = Some (kwSecrets 2) /\ kwSet s 2 = SetRet false.
Proof.
  exists [KwSet 1 (kwSecrets 1); KwStore 1; KwChan 1; KwSet 2 (kwSecrets 2); KwStore 2; KwChan 2]. eexists.
  split; [vm_compute; reflexivity|]. split; [|vm_compute; auto].
  repeat (constructor; [first [exact I|split; [reflexivity|split; [eexists; reflexivity|intros b [H|[H|[H|[H|[]]]]]; try discriminate; injection H as <-; cbn; lia]]]|]).
  constructor.
Qed.
Print Assumptions C118_change_reported_as_none_refuted.

(** What holds: [true] is returned by the first change and by no other call, and a
    call that finds the same keys stores nothing and returns [false]. *)
Theorem C118_first_change_partial : forall ls s l s' i r,
  exec kwStep kwInit ls = Some s -> Forall goodSecrets ls -> kwStep s l = Some s' ->
  kwSet s' i = SetRet r -> kwSet s i <> SetRet r ->
  (r = true <-> (l = KwChan i /\ length (kwLog s') = 1)) /\
  (l = KwStore i -> r = false /\ kwKeys s' = kwKeys s /\
     exists secrets ks, kwSet s i = SetCall secrets /\ cipherKeysOf secrets = Ret ks /\ map bytesOf ks = map bytesOf (keysNow s)).
Proof.
  intros ls s l s' i r E F E1 Er Nr. assert (I := kwInv_run ls s E F). unfold kwStep in E1. rewrite (ivPanic s I) in E1.
  assert (Fs : forall j p, fupd (kwSet s) j p i = SetRet r -> j = i /\ p = SetRet r).
  { intros j p H. unfold fupd in H. destruct (Nat.eqb_spec i j); [auto|contradiction]. }
  destruct l as [j secrets|j|j|j|j|j|j|].
  - assert (Es : s' = upSet s j (SetCall secrets) (kwLock s)) by (destruct (kwSet s j); congruence). subst s'. destruct (Fs _ _ Er). discriminate.
  - destruct (kwSet s j) as [|secrets| |] eqn:Ej; try discriminate. destruct (kwLock s) eqn:El; [discriminate|].
    destruct (ivCall s I j secrets Ej) as (C1 & _ & C3). destruct (cipher_total secrets C3) as (ks & Ek & Lk & _). rewrite Ek in E1.
    destruct (Nat.eqb_spec (changedCount ks (keysNow s)) 0) as [E0|]; injection E1 as <-; destruct (Fs _ _ Er) as [-> H]; [|discriminate].
    injection H as <-. split; [split; [discriminate|intros [H _]; discriminate]|]. intros _. split; [reflexivity|]. split; [reflexivity|].
    exists secrets, ks. split; [exact Ej|]. split; [exact Ek|].
    assert (Ln : length (keysNow s) = 4).
    { unfold keysNow. rewrite (ivLog s I). destruct (kwLog s) as [|k0 t] eqn:Eg; cbn [hd_error].
      - exfalso. unfold keysNow in E0. rewrite (ivLog s I), Eg in E0. cbn [hd_error] in E0. revert E0. apply changed_nil. intros H0. assert (X := eq_trans Lk C1). rewrite H0 in X. discriminate.
      - apply (ivKeys s I k0). rewrite Eg. left. reflexivity. }
    assert (Le : length ks = length (keysNow s)) by (rewrite Ln; exact (eq_trans Lk C1)).
    revert E0 Le. generalize (keysNow s). clear. induction ks as [|k ks IH]; intros [|o old] E0 L; try discriminate; [reflexivity|].
    cbn [changedCount map length] in *. destruct (bytes_eqb (bytesOf k) (bytesOf o)) eqn:Eb; [|discriminate].
    apply bytes_eqb_eq in Eb. rewrite Eb. f_equal. apply IH; [exact E0|congruence].
  - destruct (kwSet s j) as [| |n|] eqn:Ej; try discriminate. destruct (ivStored s I j n Ej) as [El ->]. cbn [Nat.eqb] in E1.
    destruct (ivLock s I j El) as [_ Nl]. assert (Ch := ivChan s I). rewrite El in Ch.
    split; [|intros H; exfalso; revert H; clear -Er Fs E1; intros H; discriminate].
    destruct (kwClosed s) eqn:Ec; injection E1 as <-; destruct (Fs _ _ Er) as [-> H]; injection H as <-; cbn [upSet upClosed kwLog].
    + split; [discriminate|]. intros [_ H]. assert (T : tl (kwLog s) <> []) by (apply Ch; reflexivity).
      destruct (kwLog s) as [|? [|]]; [contradiction|contradiction|discriminate].
    + split; [|reflexivity]. intros _. split; [reflexivity|]. destruct (kwLog s) as [|? [|]]; [contradiction|reflexivity|].
      exfalso. assert (false = true) by (apply Ch; discriminate). discriminate.
  - assert (Es : kwSet s' = kwSet s) by (destruct (kwGet s j); try discriminate; injection E1 as <-; reflexivity). congruence.
  - destruct (kwGet s j); try discriminate. destruct (kwClosed s); [|discriminate]. injection E1 as <-. contradiction.
  - destruct (kwGet s j); try discriminate. destruct (kwDone s); [|discriminate]. injection E1 as <-. contradiction.
  - destruct (kwGet s j); try discriminate. destruct (kwKeys s); injection E1 as <-; contradiction.
  - injection E1 as <-. contradiction.
Qed.
Print Assumptions C118_first_change_partial.

Example C118_example :
  match exec kwStep kwInit [KwSet 1 (kwSecrets 1); KwStore 1; KwChan 1; KwSet 2 (kwSecrets 1); KwStore 2] with
  | Some s => kwSet s 1 = SetRet true /\ kwSet s 2 = SetRet false /\ kwLog s = [kwSecrets 1]
  | None => False
  end.
Proof. vm_compute. auto. Qed.
