(** C177: the secrets that [GetEphemeralKeys] returns and the keys in use. *)
From Coq Require Import NArith List Bool Arith Lia.
From Verif Require Import Base BaseLemmas TS KxModel KeyWaitModel KeyWaitProps EphemeralModel.
Import ListNotations.
Local Open Scope nat_scope.

(** ** What is claimed *)

(** The keys that belong to secrets: the first 32 bytes of each. *)
Definition keysFrom (secrets : list (option (list byte))) : list (option (list byte)) :=
  map (option_map (firstn 32)) secrets.

(** Four secrets, those that are there having at least 32 bytes: what
    [updateSecrets] hands over (key_exchanger.go 325-338). *)
Definition fourSecrets (l : ekLabel) : Prop :=
  match l with
  | EkSet _ secrets => length secrets = 4 /\ forall b, In (Some b) secrets -> 32 <= length b
  | _ => True
  end.

(** The full statement: whoever asks for the secrets and then for the keys while
    nobody else does anything in between gets secrets and keys that belong
    together. *)
Definition belongTogether : Prop := forall ls s i x k,
  ekRun ekInit (ls ++ [EkEphemeral i; EkCipher i]) = Some s ->
  ekGotSecrets s i = Some x -> ekGotKeys s i = Some k -> k = keysFrom x.

(** ** Lemmas *)
Lemma cipher_exact : forall secrets, (forall b, In (Some b) secrets -> 32 <= length b) ->
  cipherKeysOf secrets = Ret (keysFrom secrets).
Proof.
  induction secrets as [|o secrets IH]; intros H; [reflexivity|].
  cbn [cipherKeysOf keysFrom map]. rewrite IH by (intros b Hb; apply H; right; exact Hb).
  destruct o as [b|]; [|reflexivity].
  specialize (H b (or_introl eq_refl)). unfold gslice, len.
  replace ((0 <=? 32) && (32 <=? N.of_nat (length b)))%N with true; [reflexivity|].
  symmetry. apply andb_true_iff. split; [reflexivity|]. apply N.leb_le. lia.
Qed.

Definition sized (ks : list (option (list byte))) : Prop := forall k, In (Some k) ks -> length k = 32.

Lemma sized_from : forall secrets, (forall b, In (Some b) secrets -> 32 <= length b) -> sized (keysFrom secrets).
Proof.
  intros secrets H k Hk. unfold keysFrom in Hk. apply in_map_iff in Hk. destruct Hk as ([b|] & E & Hb); [|discriminate].
  cbn [option_map] in E. assert (k = firstn 32 b) as -> by congruence. specialize (H b Hb). rewrite firstn_length. lia.
Qed.

Lemma unchanged : forall new old, length new = length old -> sized new -> sized old -> changedCount new old = 0 -> new = old.
Proof.
  induction new as [|n new IH]; intros [|o old] L Sn So H; try discriminate; [reflexivity|].
  cbn [changedCount] in H. destruct (bytes_eqb (bytesOf n) (bytesOf o)) eqn:E; [|discriminate].
  apply bytes_eqb_eq in E. f_equal.
  - destruct n as [n|], o as [o|]; cbn [bytesOf] in E; try (subst; reflexivity).
    + subst. specialize (Sn [] (or_introl eq_refl)). discriminate.
    + subst. specialize (So [] (or_introl eq_refl)). discriminate.
  - apply IH; [cbn in L; lia| | |exact H]; intros k Hk; [apply Sn|apply So]; right; exact Hk.
Qed.

Record ekInv (s : ek) : Prop := {
  eiPanic : ekPanic s = false;
  eiSized : sized (ekKeys s);
  eiLen : ekKeys s = [] \/ length (ekKeys s) = 4;
  eiCall : forall i x, ekSet s i = EkCall x -> fourSecrets (EkSet i x);
  eiAssigned : forall i x, ekSet s i = EkAssigned x -> ekLock s = Some i /\ ekSecrets s = x /\ fourSecrets (EkSet i x);
  eiLock : forall i, ekLock s = Some i -> ekSet s i = EkAssigned (ekSecrets s);
  eiQuiet : ekLock s = None -> ekKeys s = keysFrom (ekSecrets s)
}.

Lemma ekInv_init : ekInv ekInit.
Proof. split; cbn; try discriminate; auto. intros k []. Qed.

Lemma ekInv_step : forall s l s', ekInv s -> fourSecrets l -> ekStep s l = Some s' -> ekInv s'.
Proof.
  intros s l s' [P Sz Ln Ca As Lo Qu] G H. unfold ekStep in H. rewrite P in H. destruct l as [i x|i|i|i|i].
  - destruct (ekSet s i) eqn:Ei; try discriminate. injection H as <-. split; cbn [ekAt ekPanic ekKeys ekSet ekLock ekSecrets]; auto.
    + intros j y. unfold fupd. destruct (Nat.eqb_spec j i); [|apply Ca]. intros [= <-]. exact G.
    + intros j y. unfold fupd. destruct (Nat.eqb_spec j i); [discriminate|apply As].
    + intros j Hj. specialize (Lo j Hj). unfold fupd. destruct (Nat.eqb_spec j i); [subst; congruence|exact Lo].
  - destruct (ekSet s i) eqn:Ei; try discriminate. destruct (ekLock s) eqn:El; try discriminate.
    injection H as <-. split; cbn [ekPanic ekKeys ekSet ekLock ekSecrets]; auto.
    + intros j y. unfold fupd. destruct (Nat.eqb_spec j i); [discriminate|apply Ca].
    + intros j y. unfold fupd. destruct (Nat.eqb_spec j i).
      * intros [= <-]. subst. split; [reflexivity|]. split; [reflexivity|]. exact (Ca i secrets Ei).
      * intros Hy. destruct (As j y Hy) as (? & _). discriminate.
    + intros j [= <-]. apply fupd_same.
    + discriminate.
  - destruct (ekSet s i) eqn:Ei; try discriminate. destruct (As i secrets Ei) as (El & <- & L4 & H32).
    rewrite (cipher_exact _ H32) in H. injection H as <-.
    assert (K4 : length (keysFrom (ekSecrets s)) = 4) by (unfold keysFrom; rewrite map_length; exact L4).
    assert (K : (if Nat.eqb (changedCount (keysFrom (ekSecrets s)) (ekKeys s)) 0 then ekKeys s else keysFrom (ekSecrets s)) = keysFrom (ekSecrets s)).
    { destruct (Nat.eqb_spec (changedCount (keysFrom (ekSecrets s)) (ekKeys s)) 0) as [E|E]; [|reflexivity].
      destruct Ln as [Ln|Ln].
      - rewrite Ln in E. exfalso. revert E. apply changed_nil. intros E. rewrite E in K4. discriminate.
      - symmetry. apply unchanged; auto; [exact (eq_trans K4 (eq_sym Ln))|apply sized_from; exact H32]. }
    split; cbn [ekPanic ekKeys ekSet ekLock ekSecrets]; rewrite ?K; auto.
    + apply sized_from; exact H32.
    + intros j y. unfold fupd. destruct (Nat.eqb_spec j i); [discriminate|apply Ca].
    + intros j y. unfold fupd. destruct (Nat.eqb_spec j i) as [|N]; [discriminate|]. intros Hy.
      destruct (As j y Hy) as (E & _). congruence.
    + discriminate.
  - injection H as <-. split; cbn [ekPanic ekKeys ekSet ekLock ekSecrets]; auto.
  - injection H as <-. split; cbn [ekPanic ekKeys ekSet ekLock ekSecrets]; auto.
Qed.

Lemma ekRun_app : forall a b s, ekRun s (a ++ b) = match ekRun s a with None => None | Some s' => ekRun s' b end.
Proof. induction a as [|l a IH]; intros b s; cbn [app ekRun]; [reflexivity|]. destruct (ekStep s l); [apply IH|reflexivity]. Qed.

Lemma ekInv_run : forall ls s s', ekInv s -> Forall fourSecrets ls -> ekRun s ls = Some s' -> ekInv s'.
Proof.
  induction ls as [|l ls IH]; intros s s' I F H; cbn [ekRun] in H; [congruence|].
  inversion_clear F. destruct (ekStep s l) as [e|] eqn:E; [|discriminate]. apply (IH e s'); auto. apply (ekInv_step s l e); auto.
Qed.

(** ** Theorems *)

(** In every run in which [setSecrets] gets lists of four: as long as nobody is
    inside [setSecrets], secrets and keys belong together.  *)
Theorem C177_quiet_partial : forall ls s, Forall fourSecrets ls -> ekRun ekInit ls = Some s ->
  ekLock s = None -> ekKeys s = keysFrom (ekSecrets s).
Proof. intros ls s F H. apply (eiQuiet _ (ekInv_run _ _ _ ekInv_init F H)). Qed.
Print Assumptions C177_quiet_partial.

(** A reader that asks at such a moment gets a matching pair. *)
Theorem C177_readers_partial : forall ls s0 s i x k, Forall fourSecrets ls -> ekRun ekInit ls = Some s0 -> ekLock s0 = None ->
  ekRun s0 [EkEphemeral i; EkCipher i] = Some s ->
  ekGotSecrets s i = Some x -> ekGotKeys s i = Some k -> k = keysFrom x.
Proof.
  intros ls s0 s i x k F H0 L H Hx Hk. pose proof (ekInv_run _ _ _ ekInv_init F H0) as I.
  cbn [ekRun] in H. unfold ekStep in H. rewrite (eiPanic _ I) in H. cbn [ekPanic] in H. injection H as <-.
  cbn [ekGotSecrets ekGotKeys ekSecrets ekKeys] in Hx, Hk. rewrite fupd_same in Hx, Hk. injection Hx as <-. injection Hk as <-.
  apply (eiQuiet _ I L).
Qed.
Print Assumptions C177_readers_partial.

(** Inside [setSecrets] the secrets are those of the call in progress; its next
    step is possible, does not crash, and makes them the keys in use. *)
Theorem C177_soon_in_use : forall ls s i, Forall fourSecrets ls -> ekRun ekInit ls = Some s -> ekLock s = Some i ->
  ekSet s i = EkAssigned (ekSecrets s) /\
  exists s', ekStep s (EkStore i) = Some s' /\ ekPanic s' = false /\ ekLock s' = None /\
    ekSecrets s' = ekSecrets s /\ ekKeys s' = keysFrom (ekSecrets s).
Proof.
  intros ls s i F H L. pose proof (ekInv_run _ _ _ ekInv_init F H) as I. pose proof (eiLock _ I i L) as Hi.
  split; [exact Hi|]. destruct (eiAssigned _ I i _ Hi) as (_ & _ & L4 & H32).
  pose proof (cipher_exact _ H32) as C.
  assert (E : exists s', ekStep s (EkStore i) = Some s' /\ ekPanic s' = false /\ ekLock s' = None /\ ekSecrets s' = ekSecrets s).
  { unfold ekStep. rewrite (eiPanic _ I), Hi, C. eexists. split; [reflexivity|]. repeat split. }
  destruct E as (s' & E & P & L' & S'). exists s'. repeat split; auto. rewrite <- S'.
  apply (eiQuiet _ (ekInv_step s (EkStore i) s' I Logic.I E) L').
Qed.
Print Assumptions C177_soon_in_use.

(** Nothing but nil and what was given to [setSecrets] is ever returned,
    whatever the lists. *)
Theorem C177_only_given : forall ls s, ekRun ekInit ls = Some s ->
  (forall i x, ekGotSecrets s i = Some x -> x = [] \/ exists j, In (EkSet j x) ls) /\
  (forall i k, ekGotKeys s i = Some k -> k = [] \/ exists j x, In (EkSet j x) ls /\ cipherKeysOf x = Ret k).
Proof.
  intros ls. induction ls as [|l ls IH] using rev_ind; intros s H.
  - injection H as <-. split; discriminate.
  - assert (G : forall ls s, ekRun ekInit ls = Some s ->
        (ekSecrets s = [] \/ exists j, In (EkSet j (ekSecrets s)) ls) /\
        (ekKeys s = [] \/ exists j x, In (EkSet j x) ls /\ cipherKeysOf x = Ret (ekKeys s)) /\
        (forall i x, ekSet s i = EkCall x \/ ekSet s i = EkAssigned x -> In (EkSet i x) ls)).
    { clear. intros ls. induction ls as [|l ls IH] using rev_ind; intros s H.
      - injection H as <-. cbn. repeat split; auto. intros i x [E|E]; discriminate.
      - rewrite ekRun_app in H. destruct (ekRun ekInit ls) as [s0|] eqn:E0; [|discriminate]. cbn [ekRun] in H.
        destruct (ekStep s0 l) as [s1|] eqn:E1; [|discriminate]. injection H as ->.
        specialize (IH s0 eq_refl). destruct IH as (A & B & C).
        assert (A' : ekSecrets s0 = [] \/ exists j, In (EkSet j (ekSecrets s0)) (ls ++ [l])).
        { destruct A as [A|(j & A)]; [left; exact A|right; exists j; apply in_or_app; left; exact A]. }
        assert (B' : ekKeys s0 = [] \/ exists j x, In (EkSet j x) (ls ++ [l]) /\ cipherKeysOf x = Ret (ekKeys s0)).
        { destruct B as [B|(j & x & B & B2)]; [left; exact B|right; exists j, x; split; [apply in_or_app; left; exact B|exact B2]]. }
        assert (C' : forall i x, ekSet s0 i = EkCall x \/ ekSet s0 i = EkAssigned x -> In (EkSet i x) (ls ++ [l])).
        { intros i x Hx. apply in_or_app. left. apply C. exact Hx. }
        unfold ekStep in E1. destruct (ekPanic s0); [discriminate|]. destruct l as [i x|i|i|i|i].
        + destruct (ekSet s0 i) eqn:Ei; try discriminate. injection E1 as <-. cbn [ekAt ekSecrets ekKeys ekSet].
          split; [exact A'|]. split; [exact B'|]. intros j y. unfold fupd. destruct (Nat.eqb_spec j i).
          * intros [[= <-]|[=]]. subst. apply in_or_app. right. left. reflexivity.
          * apply C'.
        + destruct (ekSet s0 i) eqn:Ei; try discriminate. destruct (ekLock s0); [discriminate|]. injection E1 as <-.
          cbn [ekSecrets ekKeys ekSet]. split; [right; exists i; apply C'; left; exact Ei|]. split; [exact B'|].
          intros j y. unfold fupd. destruct (Nat.eqb_spec j i).
          * intros [[=]|[= <-]]. subst. apply C'. left. exact Ei.
          * apply C'.
        + destruct (ekSet s0 i) eqn:Ei; try discriminate. destruct (cipherKeysOf secrets) as [ks|] eqn:Ek; injection E1 as <-;
            cbn [ekSecrets ekKeys ekSet].
          * split; [exact A'|]. split.
            { destruct (Nat.eqb _ 0); [exact B'|]. right. exists i, secrets. split; [apply C'; right; exact Ei|exact Ek]. }
            intros j y. unfold fupd. destruct (Nat.eqb_spec j i); [intros [[=]|[=]]|apply C'].
          * split; [exact A'|]. split; [exact B'|]. exact C'.
        + injection E1 as <-. split; [exact A'|]. split; [exact B'|exact C'].
        + injection E1 as <-. split; [exact A'|]. split; [exact B'|exact C']. }
    pose proof (G _ _ H) as (GA & GB & _). clear G.
    rewrite ekRun_app in H. destruct (ekRun ekInit ls) as [s0|] eqn:E0; [|discriminate]. cbn [ekRun] in H.
    destruct (ekStep s0 l) as [s1|] eqn:E1; [|discriminate]. injection H as ->.
    specialize (IH s0 eq_refl). destruct IH as (A & B).
    assert (A' : forall i x, ekGotSecrets s0 i = Some x -> x = [] \/ exists j, In (EkSet j x) (ls ++ [l])).
    { intros i x Hx. destruct (A i x Hx) as [->|(j & Hj)]; [left; reflexivity|right; exists j; apply in_or_app; left; exact Hj]. }
    assert (B' : forall i k, ekGotKeys s0 i = Some k -> k = [] \/ exists j x, In (EkSet j x) (ls ++ [l]) /\ cipherKeysOf x = Ret k).
    { intros i k Hk. destruct (B i k Hk) as [->|(j & x & Hj & Hx)]; [left; reflexivity|].
      right; exists j, x; split; [apply in_or_app; left; exact Hj|exact Hx]. }
    unfold ekStep in E1. destruct (ekPanic s0); [discriminate|]. destruct l as [i x|i|i|i|i].
    + destruct (ekSet s0 i); try discriminate. injection E1 as <-. split; [exact A'|exact B'].
    + destruct (ekSet s0 i); try discriminate. destruct (ekLock s0); [discriminate|]. injection E1 as <-. split; [exact A'|exact B'].
    + destruct (ekSet s0 i); try discriminate. destruct (cipherKeysOf secrets); injection E1 as <-; (split; [exact A'|exact B']).
    + injection E1 as <-. cbn [ekGotSecrets ekGotKeys ekSecrets] in *. split; [|exact B'].
      intros j x. unfold fupd. destruct (Nat.eqb_spec j i); [intros [= <-]; exact GA|apply A'].
    + injection E1 as <-. cbn [ekGotSecrets ekGotKeys ekKeys] in *. split; [exact A'|].
      intros j k. unfold fupd. destruct (Nat.eqb_spec j i); [intros [= <-]; exact GB|apply B'].
Qed.
Print Assumptions C177_only_given.

(** A secret of fewer than 32 bytes crashes the process: it is then that of
    [GetEphemeralKeys], but nobody gets to see it. *)
Theorem C177_short_crashes : forall s i x b, ekPanic s = false -> ekSet s i = EkAssigned x -> In (Some b) x -> length b < 32 ->
  exists s', ekStep s (EkStore i) = Some s' /\ ekPanic s' = true /\ forall l, ekStep s' l = None.
Proof.
  intros s i x b P Hi Hb L. assert (C : cipherKeysOf x = Panic).
  { clear P Hi. induction x as [|o x IH]; [destruct Hb|]. cbn [cipherKeysOf]. destruct Hb as [->|Hb].
    - unfold gslice, len. replace ((0 <=? 32) && (32 <=? N.of_nat (length b)))%N with false; [reflexivity|].
      symmetry. apply andb_false_iff. right. apply N.leb_gt. lia.
    - rewrite (IH Hb). destruct o as [c|]; [|reflexivity]. destruct (gslice c 0 32); reflexivity. }
  unfold ekStep at 1. rewrite P, Hi, C. eexists. split; [reflexivity|]. split; [reflexivity|]. reflexivity.
Qed.
Print Assumptions C177_short_crashes.

(** ** Refutation *)

Definition secretA : list (option bytes) := [Some (repeat 1%N 32); None; None; None].
Definition secretB : list (option bytes) := [Some (repeat 2%N 32); Some (repeat 1%N 32); None; None].

(** Between the two assignments a reader gets the secrets of the next keys
    together with the keys still in use. *)
Theorem C177_ahead_refuted : ~ belongTogether.
Proof.
  intros H.
  specialize (H [EkSet 0 secretA; EkAssign 0; EkStore 0; EkSet 0 secretB; EkAssign 0]
    (match ekRun ekInit ([EkSet 0 secretA; EkAssign 0; EkStore 0; EkSet 0 secretB; EkAssign 0] ++ [EkEphemeral 5; EkCipher 5]) with
     | Some s => s | None => ekInit end) 5 secretB secretA).
  assert (E : secretA = keysFrom secretB) by (apply H; vm_compute; reflexivity).
  vm_compute in E. discriminate.
Qed.
Print Assumptions C177_ahead_refuted.

(** With lists of different lengths even a quiet session differs: a list that
    begins like the keys in use is taken for no change. *)
Theorem C177_shorter_refuted : exists ls s, ekRun ekInit ls = Some s /\ ekLock s = None /\ ekKeys s <> keysFrom (ekSecrets s).
Proof.
  exists [EkSet 0 secretA; EkAssign 0; EkStore 0; EkSet 0 (firstn 2 secretA); EkAssign 0; EkStore 0].
  eexists. split; [reflexivity|]. split; [reflexivity|]. vm_compute. discriminate.
Qed.
Print Assumptions C177_shorter_refuted.

(** Two exchanges by two goroutines, then a reader: a matching pair. *)
Example C177_example :
  let ls := [EkSet 0 secretA; EkSet 1 secretB; EkAssign 0; EkStore 0; EkAssign 1; EkStore 1; EkEphemeral 7; EkCipher 7] in
  Forall fourSecrets ls /\
  exists s, ekRun ekInit ls = Some s /\ ekLock s = None /\ ekGotSecrets s 7 = Some secretB /\ ekGotKeys s 7 = Some (keysFrom secretB).
Proof.
  split.
  - repeat constructor; cbn; intros b Hb; repeat (destruct Hb as [Hb|Hb]; [try discriminate; injection Hb as <-; cbn; lia|]); destruct Hb.
  - eexists. split; [reflexivity|]. repeat split.
Qed.
Print Assumptions C177_example.
