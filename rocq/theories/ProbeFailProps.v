(** C179: closing a session while it negotiates is not reported as an error, and a
    failure of the backend is reported once. *)
From Coq Require Import List Bool Lia PeanoNat.
From Verif Require Import Base TS ProbeFailModel.
Import ListNotations.

(** Full statement: in every run the event handler is called at most once, and not at
    all if no write to the backend fails. Both halves are refuted below. *)

(** One probe that meets a session in Closing. *)
Definition meetsClosing : list plabel := [PlCheck; PlDone; PlReport].

Lemma closing_run : forall n g o, exists s,
  exec pstep {| p_pc := PcCheck; p_left := S n; p_closed := true; p_ctx := false; p_user := true; p_go := g; p_out := o |}
    (concat (repeat meetsClosing (S n))) = Some s /\ p_out s = repeat (PrProbe PeClosed) (S n) ++ o /\ p_pc s = PcCollect.
Proof.
  induction n as [|n IH]; intros g o.
  - eexists. split; [reflexivity|]. split; reflexivity.
  - destruct (IH (S g) (PrProbe PeClosed :: o)) as (s & E & O & P).
    exists s. split; [|split; [|exact P]].
    + change (repeat meetsClosing (S (S n))) with (meetsClosing :: repeat meetsClosing (S n)).
      cbn [concat meetsClosing app exec pstep p_pc p_ctx p_closed at_ told nextProbe flags p_left p_user p_go p_out pred]. exact E.
    + rewrite O. change (repeat (PrProbe PeClosed) (S (S n))) with (PrProbe PeClosed :: repeat (PrProbe PeClosed) (S n)).
      rewrite repeat_cons, <- app_assoc. reflexivity.
Qed.

(** The user closes the session while the probes are sent; no write fails. As long as
    Close has not cancelled the context, every probe left is reported as an error. *)
Theorem C179_close_reported_refuted : forall n, exists ls s,
  exec pstep (pst0 n) ls = Some s /\ (forall b, ~ In (PlBackend b) ls) /\ p_out s = repeat (PrProbe PeClosed) (S n).
Proof.
  intros n. destruct (closing_run n 0 []) as (s & E & O & _).
  exists (PlUserClose :: concat (repeat meetsClosing (S n))), s. split; [exact E|]. split.
  - intros b [H|H]; [discriminate|]. apply in_concat in H. destruct H as (l & Hl & Hb). apply repeat_spec in Hl. subst l.
    cbn in Hb. destruct Hb as [?|[?|[?|[]]]]; discriminate.
  - rewrite O, app_nil_r. reflexivity.
Qed.
Print Assumptions C179_close_reported_refuted.

(** A single failure of the backend is reported twice, in every iteration and
    whichever probe it hits. *)
Theorem C179_twice_refuted : forall n k, k <= n -> exists s,
  exec pstep (pst0 n) (concat (repeat [PlCheck; PlDone; PlBackend true] k) ++
    [PlCheck; PlDone; PlBackend false; PlReport; PlErrClose; PlErrCancel; PlErrReport]) = Some s /\
  p_out s = [PrErrFunc PeBackend; PrProbe PeBackend].
Proof.
  assert (G : forall k n, k <= n -> exists s,
    exec pstep (pst0 n) (concat (repeat [PlCheck; PlDone; PlBackend true] k) ++
      [PlCheck; PlDone; PlBackend false; PlReport; PlErrClose; PlErrCancel; PlErrReport]) = Some s /\
    p_out s = [PrErrFunc PeBackend; PrProbe PeBackend]).
  { induction k as [|k IH]; intros n H.
    - eexists. split; [reflexivity|]. reflexivity.
    - destruct n as [|n]; [lia|]. destruct (IH n ltac:(lia)) as (s & E & O). exists s. split; [exact E|exact O]. }
  intros n k H. exact (G k n H).
Qed.
Print Assumptions C179_twice_refuted.

(** ** What holds *)

(** Nobody but the negotiator itself closes the session. *)
Definition nobodyCloses (ls : list plabel) : Prop := ~ In PlUserClose ls.

Definition aloneInv (s : pst) : Prop :=
  p_user s = false /\ p_go s = 0 /\
  match p_pc s with
  | PcReport e => p_closed s = false /\ e = PeBackend /\ p_out s = []
  | PcErrFunc e => p_closed s = false /\ e = PeBackend /\ p_out s = [PrProbe PeBackend]
  | PcClosing e => p_closed s = true /\ e = PeBackend /\ p_out s = [PrProbe PeBackend]
  | PcErrReport e => p_closed s = true /\ p_ctx s = true /\ e = PeBackend /\ p_out s = [PrProbe PeBackend]
  | PcDone | PcBackend => p_closed s = false /\ p_ctx s = false /\ p_out s = []
  | PcCheck | PcCollect | PcReturn =>
      (p_closed s = false /\ p_out s = []) \/
      (p_closed s = true /\ p_ctx s = true /\ p_out s = [PrErrFunc PeBackend; PrProbe PeBackend])
  end.

Lemma aloneInv_step : forall s l s', aloneInv s -> l <> PlUserClose -> (p_closed s = false -> p_ctx s = false) -> pstep s l = Some s' ->
  aloneInv s' /\ (p_closed s' = false -> p_ctx s' = false).
Proof.
  intros [pc left c x u g o] l s' (U & G & I) Hl Hx H. cbn [p_pc p_left p_closed p_ctx p_user p_go p_out] in *. subst u g.
  destruct l; cbn [pstep p_pc p_user p_go p_closed] in H; try (destruct pc; discriminate); try congruence.
  - destruct pc; try discriminate. injection H as <-. unfold aloneInv, at_. cbn.
    cbn in I. destruct x; cbn.
    + split; [|exact Hx]. split; [reflexivity|]. split; [reflexivity|]. exact I.
    + destruct I as [(A & B)|(A & B & _)]; [|discriminate]. split; [|exact Hx]. split; [reflexivity|]. split; [reflexivity|]. auto.
  - destruct pc; try discriminate. injection H as <-. destruct I as (-> & -> & ->). unfold aloneInv, at_. cbn. tauto.
  - destruct pc; try discriminate. injection H as <-. destruct I as (-> & -> & ->). destruct ok; unfold aloneInv, at_, nextProbe; cbn.
    + destruct left as [|[|left]]; cbn; tauto.
    + tauto.
  - destruct pc; try discriminate. destruct I as (-> & -> & ->). injection H as <-. unfold aloneInv, at_, told. cbn. tauto.
  - destruct pc; try discriminate. destruct I as (-> & -> & ->). injection H as <-. unfold aloneInv, at_, flags. cbn.
    split; [tauto|discriminate].
  - destruct pc; try discriminate. destruct I as (-> & -> & ->). injection H as <-. unfold aloneInv, at_, flags. cbn. split; [tauto|discriminate].
  - destruct pc; try discriminate. destruct I as (-> & -> & -> & ->). injection H as <-. unfold aloneInv, nextProbe, told. cbn.
    split; [|discriminate]. destruct left as [|[|left]]; cbn; tauto.
  - destruct c; [|discriminate]. injection H as <-. unfold aloneInv, flags. cbn. split; [|discriminate].
    split; [reflexivity|]. split; [reflexivity|]. destruct pc; cbn in I |- *; try (destruct I as (I1 & I2 & I3); discriminate); tauto.
Qed.

(** A write has failed. *)
Definition hit (s : pst) : bool :=
  p_closed s || match p_pc s with PcReport _ | PcErrFunc _ => true | _ => false end.
Definition isFailure (l : plabel) : bool := match l with PlBackend false => true | _ => false end.

Lemma hit_step : forall s l s', aloneInv s -> l <> PlUserClose -> pstep s l = Some s' -> hit s' = hit s || isFailure l.
Proof.
  intros [pc left c x u g o] l s' (U & G & I) Hl H. cbn [p_pc p_left p_closed p_ctx p_user p_go p_out] in *. subst u g.
  destruct l; cbn [pstep p_pc p_user p_go p_closed] in H; try (destruct pc; discriminate); try congruence.
  - destruct pc; try discriminate. injection H as <-. unfold hit, at_. cbn. destruct x, c; reflexivity.
  - destruct pc; try discriminate. injection H as <-. destruct I as (-> & -> & ->). reflexivity.
  - destruct pc; try discriminate. injection H as <-. destruct I as (-> & -> & ->). destruct ok; [|reflexivity].
    destruct left as [|[|left]]; reflexivity.
  - destruct pc; try discriminate. destruct I as (-> & -> & ->). injection H as <-. reflexivity.
  - destruct pc; try discriminate. destruct I as (-> & -> & ->). injection H as <-. reflexivity.
  - destruct pc; try discriminate. destruct I as (-> & -> & ->). injection H as <-. reflexivity.
  - destruct pc; try discriminate. destruct I as (-> & -> & -> & ->). injection H as <-. destruct left as [|[|left]]; reflexivity.
  - destruct c; [|discriminate]. injection H as <-. reflexivity.
Qed.

Lemma alone_run : forall ls s0 s, exec pstep s0 ls = Some s -> nobodyCloses ls -> aloneInv s0 -> (p_closed s0 = false -> p_ctx s0 = false) ->
  aloneInv s /\ (p_closed s = false -> p_ctx s = false) /\ hit s = hit s0 || existsb isFailure ls.
Proof.
  induction ls as [|l ls IH]; intros s0 s H Hn I X; cbn [exec existsb] in *.
  - injection H as <-. split; [exact I|]. split; [exact X|]. rewrite orb_false_r. reflexivity.
  - destruct (pstep s0 l) as [s1|] eqn:E; [|discriminate].
    assert (L1 : l <> PlUserClose) by (intros ->; apply Hn; left; reflexivity).
    destruct (aloneInv_step s0 l s1 I L1 X E) as (I1 & X1).
    destruct (IH s1 s H ltac:(intros C; apply Hn; right; exact C) I1 X1) as (A & A2 & B). split; [exact A|]. split; [exact A2|].
    rewrite B, (hit_step s0 l s1 I L1 E), orb_assoc. reflexivity.
Qed.

(** If nobody else closes the session, a failure of the backend is reported exactly
    twice, by both functions, and ends the sending; otherwise nothing is reported and
    nothing cancelled. *)
Theorem C179_alone_partial : forall n ls s, exec pstep (pst0 n) ls = Some s -> nobodyCloses ls ->
  (p_out s = [] \/ p_out s = [PrProbe PeBackend] \/ p_out s = [PrErrFunc PeBackend; PrProbe PeBackend]) /\
  (~ In (PlBackend false) ls -> p_out s = [] /\ p_ctx s = false) /\
  (In (PlBackend false) ls -> p_pc s = PcCheck \/ p_pc s = PcCollect \/ p_pc s = PcReturn ->
     p_out s = [PrErrFunc PeBackend; PrProbe PeBackend] /\ p_ctx s = true).
Proof.
  intros n ls s H Hn.
  assert (I0 : aloneInv (pst0 n)) by (unfold aloneInv, pst0; cbn; auto).
  destruct (alone_run ls (pst0 n) s H Hn I0 ltac:(reflexivity)) as ((_ & _ & I) & X & B).
  change (hit (pst0 n)) with false in B. cbn [orb] in B. split; [|split].
  - destruct (p_pc s); tauto.
  - intros Nb. assert (E : existsb isFailure ls = false).
    { apply not_true_iff_false. intros C. apply existsb_exists in C. destruct C as (l & Hl & C). destruct l as [| |[|]| | | | | | | |]; try discriminate. contradiction. }
    rewrite E in B. unfold hit in B. apply orb_false_elim in B. destruct B as (C & P).
    split; [|exact (X C)]. destruct (p_pc s); try discriminate; intuition congruence.
  - intros Hb P. assert (E : existsb isFailure ls = true) by (apply existsb_exists; exists (PlBackend false); auto).
    rewrite E in B. unfold hit in B. destruct P as [P|[P|P]]; rewrite P in I, B; rewrite orb_false_r in B; intuition congruence.
Qed.
Print Assumptions C179_alone_partial.

(** Whoever closes the session, at most two reports are made for each probe. *)
Theorem C179_bounded : forall n ls s, exec pstep (pst0 n) ls = Some s -> length (p_out s) <= 2 * S n.
Proof.
  intros n ls s H.
  assert (G : forall ls s0 s, exec pstep s0 ls = Some s ->
    length (p_out s0) + 2 * p_left s0 <= 2 * S n + match p_pc s0 with PcErrFunc _ | PcClosing _ | PcErrReport _ => 1 | _ => 0 end ->
    (p_left s0 = 0 -> p_pc s0 = PcCollect) ->
    length (p_out s) <= 2 * S n).
  { clear. induction ls as [|l ls IH]; intros s0 s H M Z; cbn [exec] in H.
    - injection H as <-. destruct s0 as [pc left c x u g o]; cbn in *. destruct left; [rewrite (Z eq_refl) in M; lia|]. destruct pc; lia.
    - destruct (pstep s0 l) as [s1|] eqn:E; [|discriminate].
      apply (IH s1 s H); destruct s0 as [pc left c x u g o]; cbn [p_pc p_left p_closed p_ctx p_user p_go p_out] in *;
        destruct l; cbn [pstep p_pc p_user p_go p_closed] in E; try (destruct pc; discriminate);
        try (destruct pc; try discriminate); try (destruct e); try (destruct c; try discriminate); try (destruct u; try discriminate);
        try (destruct g; try discriminate); try (destruct x); try (destruct ok); injection E as <-; cbn in *;
        try (destruct left as [|[|left]]; cbn in *); try lia; try exact Z; try (intros; first [discriminate | reflexivity | (specialize (Z eq_refl); discriminate) | lia]);
        try (specialize (Z eq_refl); discriminate). }
  apply (G ls (pst0 n) s H); cbn; [lia|discriminate].
Qed.
Print Assumptions C179_bounded.

(** Once the context is done and the loop is between two probes, it ends silently. *)
Theorem C179_after_cancel_partial : forall s ls s', p_pc s = PcCheck -> p_ctx s = true -> exec pstep s ls = Some s' -> p_out s' = p_out s.
Proof.
  intros s ls s' P X H.
  assert (G : forall ls s0 s, exec pstep s0 ls = Some s -> p_ctx s0 = true -> p_pc s0 = PcCheck \/ p_pc s0 = PcReturn -> p_out s = p_out s0).
  { clear. induction ls as [|l ls IH]; intros s0 s H X P; cbn [exec] in H; [injection H as <-; reflexivity|].
    destruct (pstep s0 l) as [s1|] eqn:E; [|discriminate].
    assert (A : p_ctx s1 = true /\ (p_pc s1 = PcCheck \/ p_pc s1 = PcReturn) /\ p_out s1 = p_out s0).
    { destruct s0 as [pc left c x u g o]; cbn [p_pc p_left p_closed p_ctx p_user p_go p_out] in *. subst x.
      destruct P as [-> | ->]; destruct l; cbn [pstep p_pc p_user p_go p_closed p_ctx] in E; try discriminate;
        try (destruct c; try discriminate); try (destruct u; try discriminate); try (destruct g; try discriminate);
        injection E as <-; cbn; auto. }
    destruct A as (A1 & A2 & A3). rewrite (IH s1 s H A1 A2). exact A3. }
  exact (G ls s s' H X (or_introl P)).
Qed.
Print Assumptions C179_after_cancel_partial.

(** A full iteration of 12 probes: the session is closed during the third probe; three
    probes are reported before the context is cancelled. *)
Example C179_example : exists s,
  exec pstep (pst0 11) (concat (repeat [PlCheck; PlDone; PlBackend true] 2) ++ [PlCheck; PlUserClose] ++
    [PlDone; PlReport] ++ meetsClosing ++ meetsClosing ++ [PlUserCancel; PlNegClose; PlCheck]) = Some s /\
  p_out s = repeat (PrProbe PeClosed) 3 /\ p_pc s = PcReturn /\ p_left s = 7.
Proof. eexists. split; [vm_compute; reflexivity|]. repeat split. Qed.
(** Close between the check of 1965 and the write, which then fails: two reports. *)
Example C179_between_example : exists s,
  exec pstep (pst0 11) [PlCheck; PlDone; PlUserClose; PlBackend false; PlReport; PlErrClose; PlErrReport; PlUserCancel; PlCheck] = Some s /\
  p_out s = [PrErrFunc PeBackend; PrProbe PeBackend] /\ p_pc s = PcReturn.
Proof. eexists. split; [vm_compute; reflexivity|]. repeat split. Qed.
