(** C56, C87: session IDs. *)
From Coq Require Import NArith List Bool Lia Sorting.Sorted.
From Verif Require Import Base BaseLemmas SessionIDModel.
Import ListNotations.
Local Open Scope N_scope.

Lemma sidGet_increases : forall readings prev at_ rest, sidGet prev readings = Some (at_, rest) -> prev + 1 < 2^64 ->
  prev < at_ /\ (at_ = prev + 1 \/ exists t, In t readings /\ at_ = t mod 2^64) /\ exists used, readings = used ++ rest.
Proof.
  induction readings as [|t readings IH]; intros prev at_ rest E Hp; [discriminate|]. cbn [sidGet] in E.
  destruct (N.eqb_spec (u64 t) prev) as [Ep|Ep]; cbn [negb] in E.
  - destruct (IH _ _ _ E Hp) as (H1 & H2 & used & H3). split; [exact H1|]. split.
    + destruct H2 as [H2|(t' & H2 & H4)]; [left; exact H2|]. right. exists t'. split; [right; exact H2|exact H4].
    + exists (t :: used). rewrite H3. reflexivity.
  - injection E as <- <-. split; [|split; [|exists [t]; reflexivity]].
    + destruct (N.leb_spec (u64 t) prev); [|lia]. unfold u64. rewrite N.mod_small; lia.
    + destruct (N.leb_spec (u64 t) prev).
      * left. unfold u64. rewrite N.mod_small; lia.
      * right. exists t. split; [left; reflexivity|reflexivity].
Qed.

Lemma sidCalls_sorted : forall n prev readings acc l,
  sidCalls n prev readings acc = Some l -> (forall t, In t readings -> t < 2^63) -> prev + N.of_nat n < 2^64 -> N.of_nat n < 2^63 -> prev < 2^63 + N.of_nat (length acc) ->
  N.of_nat (length acc) + N.of_nat n < 2^63 ->
  StronglySorted (fun newer older => older < newer) acc -> Forall (fun a => a <= prev) acc ->
  StronglySorted (fun newer older => older < newer) l /\ length l = (n + length acc)%nat.
Proof.
  induction n as [|n IH]; intros prev readings acc l E Hr Hp Hn Hb Hlen S F; cbn [sidCalls] in E.
  - injection E as <-. auto.
  - destruct (sidGet prev readings) as [[at_ rest]|] eqn:Eg; [|discriminate].
    destruct (sidGet_increases _ _ _ _ Eg ltac:(lia)) as (H1 & H2 & used & H3).
    assert (Hb' : at_ < 2^63 + N.of_nat (length (at_ :: acc))).
    { cbn [length]. destruct H2 as [-> |(t & H2 & ->)]; [lia|]. specialize (Hr t H2). rewrite N.mod_small by (assert (2^63 < 2^64) by reflexivity; lia). lia. }
    apply IH in E.
    + destruct E as [E1 E2]. split; [exact E1|]. rewrite E2. cbn [length]. lia.
    + intros t Ht. apply Hr. rewrite H3. apply in_or_app. auto.
    + cbn [length] in Hb'. assert (2^64 = 2^63 + 2^63) by reflexivity. lia.
    + lia.
    + exact Hb'.
    + cbn [length]. lia.
    + constructor; [exact S|]. eapply Forall_impl; [|exact F]. cbn. intros. lia.
    + constructor; [lia|]. eapply Forall_impl; [|exact F]. cbn. intros. lia.
Qed.

(** All stamps made by a process are different and increasing, whatever the
    clock says (before the year 2262): it may go back or stand still. *)
Theorem C56_increasing : forall n readings l,
  sidCalls n 0 readings [] = Some l -> (forall t, In t readings -> t < 2^63) -> N.of_nat n < 2^63 ->
  StronglySorted (fun newer older => older < newer) l /\ length l = n /\ NoDup l.
Proof.
  intros n readings l E Hr Hn.
  assert (H64 : 2^64 = 2^63 + 2^63) by reflexivity.
  destruct (sidCalls_sorted n 0 readings [] l E Hr) as [S L]; [lia|lia|reflexivity|cbn [length]; lia|constructor|constructor|].
  split; [exact S|]. split; [rewrite L; cbn [length]; lia|].
  clear - S. induction S as [|a l S IH F]; constructor; [|exact IH]. intros Hin. rewrite Forall_forall in F. specialize (F _ Hin). lia.
Qed.
Print Assumptions C56_increasing.

Example C56_example : sidCalls 4 0 [100; 100; 90; 101; 101; 102; 50] [] = Some [103; 102; 101; 100].
Proof. reflexivity. Qed.

(** ** C87 (refuted): creating a session ID always terminates. While the clock shows the
    stamp of the last ID, the loop goes on, with the global lock held. *)
Theorem C87_stuck_clock_refuted : forall prev n, prev < 2^64 -> sidGet prev (repeat prev n) = None.
Proof.
  intros prev n Hp. induction n as [|n IH]; [reflexivity|]. cbn [repeat sidGet].
  unfold u64. rewrite N.mod_small by exact Hp. rewrite N.eqb_refl. exact IH.
Qed.
Print Assumptions C87_stuck_clock_refuted.

(** Reachable: the clock is set back by one and then stops there. *)
Example C87_reachable : forall n, exists prev, sidCalls 2 0 [100; 99] [] = Some [prev; 100] /\ prev = 101 /\
  sidCalls 3 0 ([100; 99] ++ repeat 101 n) [] = None.
Proof.
  intros n. exists 101. split; [reflexivity|]. split; [reflexivity|].
  pose proof (C87_stuck_clock_refuted 101 n eq_refl) as H.
  assert (A : sidGet 0 ([100; 99] ++ repeat 101 n) = Some (100, 99 :: repeat 101 n)) by reflexivity.
  assert (B : sidGet 100 (99 :: repeat 101 n) = Some (101, repeat 101 n)) by reflexivity.
  unfold sidCalls. rewrite A, B, H. reflexivity.
Qed.

(** One reading that differs is enough. *)
Theorem C87_terminates_partial : forall prev readings, (exists t, In t readings /\ t mod 2^64 <> prev) -> sidGet prev readings <> None.
Proof.
  intros prev. induction readings as [|t readings IH]; intros (t' & Hin & Hne); [destruct Hin|]. cbn [sidGet].
  destruct (N.eqb_spec (u64 t) prev) as [E|E]; cbn [negb]; [|discriminate]. apply IH. exists t'. destruct Hin as [<-|Hin]; [contradiction|auto].
Qed.
Print Assumptions C87_terminates_partial.
