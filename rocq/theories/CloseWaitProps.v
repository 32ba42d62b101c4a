(** Property C139: [CloseAndWait] waits. *)
From Coq Require Import List Bool Arith Lia.
From Verif Require Import Base TS IntegProofs ClosureModel CloseWaitModel.
Import ListNotations.

Definition returned (p : cawPc) : bool := match p with CawOk | CawErr => true | _ => false end.

(** Full statement: when a call of [CloseAndWait] has returned, all goroutines of the
    session have ended. False of every call but the one that closes the session:
    the others return at once. *)
Theorem C139_second_refuted : forall ls s, exec cwStep cwInit ls = Some s -> cDone (wCl s) = true ->
  exists s', cwStep s CwCall = Some s' /\ wCl s' = wCl s /\ nth_error (wCalls s') (length (wCalls s)) = Some CawErr.
Proof.
  intros ls s _ D. cbn [cwStep]. rewrite D. eexists. split; [reflexivity|]. split; [reflexivity|]. cbn [wCalls].
  rewrite nth_error_app2 by lia. rewrite Nat.sub_diag. reflexivity.
Qed.
Print Assumptions C139_second_refuted.

(** Two callers; the second has returned when nothing has ended yet and a write
    follows. *)
Theorem C139_running_refuted : exists s, exec cwStep cwInit
    [CwOther ClSend; CwOther (ClSender true); CwCall; CwCall; CwOther (ClSender true)] = Some s /\
  wCalls s = [CawFlush; CawErr] /\ cReader (wCl s) = RdLoop /\ cCtx (wCl s) = false /\ allEnded (wCl s) = false /\ cWrites (wCl s) = 1.
Proof. eexists. split; [vm_compute; reflexivity|]. vm_compute. auto 10. Qed.
Print Assumptions C139_running_refuted.

(** The call that closes the session keeps the promise: under every schedule, once
    it has returned the four goroutines have ended, and stay so. *)
Definition oks (s : cw) : Prop := In CawOk (wCalls s) -> allEnded (wCl s) = true.

Lemma ended_stays : forall c l c', clStep c l = Some c' -> allEnded c = true -> allEnded c' = true.
Proof.
  intros c l c' H A. unfold allEnded in *. destruct (cReader c) eqn:R; try discriminate. destruct (cSender c) eqn:S; try discriminate.
  apply andb_true_iff in A. destruct A as [A1 A2].
  assert (K : forall p c1 q ok, kxSend c p ok = Some (c1, q) -> cReader c1 = RdEnd /\ cSender c1 = SdEnd /\ cCloser c1 = true /\ cKxWait c1 = true).
  { intros p c1 q ok K. destruct p; cbn [kxSend] in K; try discriminate.
    - destruct (cDone c); injection K as <- <-; auto.
    - destruct ok; injection K as <- <-; auto.
    - destruct (cDone c); injection K as <- <-; auto. }
  assert (D : forall p c1 q, dataSend c p = Some (c1, q) -> cReader c1 = RdEnd /\ cSender c1 = SdEnd /\ cCloser c1 = true /\ cKxWait c1 = true).
  { intros p c1 q K'. destruct p; cbn [dataSend] in K'; try discriminate; injection K' as <- <-; auto. }
  destruct l; cbn [clStep] in H; rewrite ?R, ?S, ?A1, ?A2 in H; try discriminate.
  - destruct (cClosed c); [discriminate|]. injection H as <-. destruct (cDone c); cbn; rewrite R, S, A1, A2; reflexivity.
  - destruct (cFlush c); [|discriminate]. injection H as <-. cbn. rewrite R, S, A1, A2. reflexivity.
  - injection H as <-. cbn. rewrite R, S, A1, A2. reflexivity.
  - rewrite andb_false_r in H. discriminate.
  - destruct (cLoop c); try discriminate. injection H as <-. cbn. rewrite R, S, A1, A2. reflexivity.
  - destruct (cLoop c); try discriminate. destruct (kxSend c p ok) as [[c1 q]|] eqn:E; [|discriminate]. destruct (K _ _ _ _ E) as (B1 & B2 & B3 & B4).
    injection H as <-. cbn. rewrite B1, B2, B3, B4. reflexivity.
  - destruct (cLoop c); try discriminate. destruct (_ || _); [|discriminate]. injection H as <-. cbn. rewrite R, S, A1, A2. reflexivity.
  - destruct (nth_error _ _) as [p|]; [|discriminate]. destruct (kxSend c p ok) as [[c1 q]|] eqn:E; [|discriminate]. destruct (K _ _ _ _ E) as (B1 & B2 & B3 & B4).
    injection H as <-. cbn. rewrite B1, B2, B3, B4. reflexivity.
  - destruct (cClosed c); [discriminate|]. injection H as <-. cbn. rewrite R, S, A1, A2. reflexivity.
  - destruct (nth_error _ _) as [p|]; [|discriminate]. destruct (dataSend c p) as [[c1 q]|] eqn:E; [|discriminate]. destruct (D _ _ _ E) as (B1 & B2 & B3 & B4).
    injection H as <-. cbn. rewrite B1, B2, B3, B4. reflexivity.
  - destruct (cLoop c); try discriminate. rewrite andb_false_r in H. discriminate.
  - destruct (cReturned c); [discriminate|]. injection H as <-. cbn. rewrite R, S, A1, A2. reflexivity.
Qed.

Lemma in_setCall : forall s i p q, In q (setCall s i p) -> q = p \/ In q (wCalls s).
Proof.
  intros s i p q H. unfold setCall in H. apply in_app_or in H. destruct H as [H|[H|H]].
  - right. rewrite <- (firstn_skipn i). apply in_or_app. auto.
  - left. auto.
  - right. rewrite <- (firstn_skipn (S i)). apply in_or_app. auto.
Qed.

Lemma other_step : forall s l s', cwStep s (CwOther l) = Some s' -> exists c, clStep (wCl s) l = Some c /\ s' = {| wCl := c; wCalls := wCalls s |}.
Proof.
  intros s l s' H. destruct l; cbn [cwStep] in H; try discriminate; try (destruct (callerFlushes s); [discriminate|]);
    match type of H with match ?x with _ => _ end = _ => destruct x as [c|]; [|discriminate] end; injection H as <-; eauto.
Qed.

Lemma oks_step : forall s l s', oks s -> cwStep s l = Some s' -> oks s'.
Proof.
  intros s l s' A H. unfold oks in *. destruct l as [|i|i|l].
  - cbn [cwStep] in H. assert (B : In CawOk (wCalls s) -> allEnded (setFlush (setDone (wCl s)) true) = true).
    { intros X. exact (A X). }
    destruct (cDone (wCl s)); injection H as <-; cbn [wCl wCalls]; intros I; apply in_app_or in I; destruct I as [I|[I|[]]]; try discriminate; auto.
  - cbn [cwStep] in H. destruct (nth_error (wCalls s) i) as [[]|]; try discriminate.
    destruct (clStep (wCl s) ClCancel) as [c|] eqn:E; [|discriminate]. injection H as <-. cbn [wCl wCalls]. intros I.
    apply in_setCall in I. destruct I as [I|I]; [discriminate|]. eapply ended_stays; eauto.
  - cbn [cwStep] in H. destruct (nth_error (wCalls s) i) as [[]|]; try discriminate.
    destruct (allEnded (wCl s)) eqn:E; [|discriminate]. injection H as <-. cbn [wCl wCalls]. auto.
  - destruct (other_step _ _ _ H) as (c & E & ->). cbn [wCl wCalls]. intros I. eapply ended_stays; eauto.
Qed.

Theorem C139_waited_partial : forall ls s i, exec cwStep cwInit ls = Some s -> nth_error (wCalls s) i = Some CawOk ->
  cReader (wCl s) = RdEnd /\ cSender (wCl s) = SdEnd /\ cCloser (wCl s) = true /\ cKxWait (wCl s) = true.
Proof.
  intros ls s i E N.
  assert (A : oks s).
  { revert E. clear N. revert ls s. apply (exec_snoc_inv _ _ cwStep (fun _ s => oks s)); [intros []|]. intros ls s l s' _ A H. eapply oks_step; eauto. }
  apply nth_error_In in N. specialize (A N). unfold allEnded in A. destruct (cReader (wCl s)); try discriminate. destruct (cSender (wCl s)); try discriminate.
  apply andb_true_iff in A. tauto.
Qed.
Print Assumptions C139_waited_partial.

(** There is at most one such call. *)
Definition winner (p : cawPc) : bool := match p with CawErr => false | _ => true end.
Definition winners (s : cw) : nat := length (filter winner (wCalls s)).
Lemma winners_setCall : forall s i p q, nth_error (wCalls s) i = Some q -> winner q = winner p ->
  length (filter winner (setCall s i p)) = winners s.
Proof.
  intros s i p q N W. unfold winners, setCall. destruct (nth_error_split _ _ N) as (a & b & E & L). rewrite E.
  rewrite firstn_app, <- L, Nat.sub_diag, firstn_all, firstn_O, app_nil_r.
  rewrite skipn_app, skipn_all2 by lia. replace (S (length a) - length a) with 1 by lia. cbn [skipn app].
  rewrite !filter_app. cbn [filter]. rewrite W. rewrite !app_length. destruct (winner p); reflexivity.
Qed.
Lemma done_stays : forall c l c', clStep c l = Some c' -> cDone c = true -> cDone c' = true.
Proof.
  intros c l c' H D.
  assert (K : forall p c1 q ok, kxSend c p ok = Some (c1, q) -> cDone c1 = true).
  { intros p c1 q ok K. destruct p; cbn [kxSend] in K; try discriminate; [rewrite D in K|destruct ok|rewrite D in K]; injection K as <- <-; first [exact D|reflexivity]. }
  assert (F : forall p c1 q, dataSend c p = Some (c1, q) -> cDone c1 = true).
  { intros p c1 q K'. destruct p; cbn [dataSend] in K'; try discriminate; injection K' as <- <-; exact D. }
  destruct l; cbn [clStep] in H.
  - destruct (cClosed c); [discriminate|]. rewrite D in H. injection H as <-. exact D.
  - destruct (cFlush c); [|discriminate]. injection H as <-. exact D.
  - injection H as <-. exact D.
  - destruct (_ && _); [|discriminate]. injection H as <-. reflexivity.
  - destruct (cReader c); try discriminate. rewrite D in H. discriminate.
  - destruct (cReader c); try discriminate; rewrite ?D in H; injection H as <-; exact D.
  - destruct (cReader c); try discriminate. injection H as <-. reflexivity.
  - destruct (cLoop c); try discriminate. injection H as <-. exact D.
  - destruct (cLoop c); try discriminate. destruct (kxSend c p ok) as [[c1 q]|] eqn:E; [|discriminate]. injection H as <-. exact (K _ _ _ _ E).
  - destruct (cLoop c); try discriminate. destruct (_ || _); [|discriminate]. injection H as <-. exact D.
  - destruct (nth_error _ _) as [p|]; [|discriminate]. destruct (kxSend c p ok) as [[c1 q]|] eqn:E; [|discriminate]. injection H as <-. exact (K _ _ _ _ E).
  - destruct (cClosed c); [discriminate|]. injection H as <-. exact D.
  - destruct (nth_error _ _) as [p|]; [|discriminate]. destruct (dataSend c p) as [[c1 q]|] eqn:E; [|discriminate]. injection H as <-. exact (F _ _ _ E).
  - destruct (cSender c); try discriminate. injection H as <-. exact D.
  - destruct (cSender c); try discriminate. destruct (dataSend c p) as [[c1 q]|] eqn:E; [|discriminate]. injection H as <-. exact (F _ _ _ E).
  - destruct (cSender c); try discriminate. destruct (cCtx c); [|discriminate]. injection H as <-. exact D.
  - destruct (cLoop c); try discriminate. destruct (_ && _); [|discriminate]. injection H as <-. exact D.
  - destruct (cReader c), (cSender c); try discriminate. destruct (_ && _ && _); [|discriminate]. injection H as <-. exact D.
Qed.
Theorem C139_one_winner : forall ls s, exec cwStep cwInit ls = Some s -> winners s <= 1 /\ (winners s = 1 -> cDone (wCl s) = true).
Proof.
  apply (exec_snoc_inv _ _ cwStep (fun _ s => winners s <= 1 /\ (winners s = 1 -> cDone (wCl s) = true))); [cbn; split; [lia|discriminate]|].
  intros ls s l s' _ [A B] H. destruct l as [|i|i|l].
  - cbn [cwStep] in H. unfold winners in *. destruct (cDone (wCl s)) eqn:D; injection H as <-; cbn [wCl wCalls]; rewrite filter_app; cbn [filter winner]; rewrite app_length; cbn [length].
    + split; [lia|intros _; exact D].
    + assert (length (filter winner (wCalls s)) = 0) by (destruct (Nat.eq_dec (length (filter winner (wCalls s))) 1) as [X|X]; [specialize (B X); discriminate|lia]).
      split; [lia|reflexivity].
  - cbn [cwStep] in H. destruct (nth_error (wCalls s) i) as [[]|] eqn:N; try discriminate. destruct (clStep (wCl s) ClCancel) as [c|] eqn:E; [|discriminate].
    injection H as <-. unfold winners at 1 2. cbn [wCl wCalls]. rewrite (winners_setCall s i CawWait _ N eq_refl). split; [exact A|]. intros W. eapply done_stays; eauto.
  - cbn [cwStep] in H. destruct (nth_error (wCalls s) i) as [[]|] eqn:N; try discriminate. destruct (allEnded (wCl s)); [|discriminate].
    injection H as <-. unfold winners at 1 2. cbn [wCl wCalls]. rewrite (winners_setCall s i CawOk _ N eq_refl). split; [exact A|exact B].
  - destruct (other_step _ _ _ H) as (c & E & ->). cbn [wCl]. split; [exact A|]. intros W. eapply done_stays; eauto.
Qed.
Print Assumptions C139_one_winner.

(** The call that closes the session is not left behind: nobody else ends the
    flush it waits for. *)
Lemma flush_stays : forall c l c', clStep c l = Some c' -> l <> ClCancel -> cFlush c = true -> cFlush c' = true.
Proof.
  intros c l c' H N D.
  assert (K : forall p c1 q ok, kxSend c p ok = Some (c1, q) -> cFlush c1 = true).
  { intros p c1 q ok K. destruct p; cbn [kxSend] in K; try discriminate;
      repeat match type of K with context [if ?x then _ else _] => destruct x end; injection K as <- <-; cbn; auto. }
  assert (F : forall p c1 q, dataSend c p = Some (c1, q) -> cFlush c1 = true).
  { intros p c1 q K'. destruct p; cbn [dataSend] in K'; try discriminate; injection K' as <- <-; exact D. }
  destruct l; try (destruct (N eq_refl)); cbn [clStep] in H;
    repeat match type of H with
    | match kxSend ?a ?b ?d with _ => _ end = _ => let E := fresh in destruct (kxSend a b d) as [[? ?]|] eqn:E; [apply K in E|discriminate]
    | match dataSend ?a ?b with _ => _ end = _ => let E := fresh in destruct (dataSend a b) as [[? ?]|] eqn:E; [apply F in E|discriminate]
    | match ?x with _ => _ end = _ => destruct x; try discriminate
    end; injection H as <-; cbn; auto.
  all: repeat match goal with |- context [if ?x then _ else _] => destruct x end; auto.
Qed.

Definition flushing (s : cw) : Prop := In CawFlush (wCalls s) -> cFlush (wCl s) = true.

Lemma winners_flush : forall s i, nth_error (wCalls s) i = Some CawFlush -> winners s <= 1 -> ~ In CawFlush (setCall s i CawWait).
Proof.
  intros s i N W I. unfold winners in W. destruct (nth_error_split _ _ N) as (a & b & E & L). unfold setCall in I. rewrite E in *.
  rewrite firstn_app, <- L, Nat.sub_diag, firstn_all, firstn_O, app_nil_r in I.
  rewrite skipn_app, skipn_all2 in I by lia. replace (S (length a) - length a) with 1 in I by lia. cbn [skipn app] in I.
  rewrite filter_app, app_length in W. cbn [filter winner length] in W.
  assert (X : forall l, In CawFlush l -> length (filter winner l) <> 0).
  { intros l J Z. apply length_zero_iff_nil in Z. assert (J' : In CawFlush (filter winner l)) by (apply filter_In; auto). rewrite Z in J'. destruct J'. }
  apply in_app_or in I. destruct I as [I|[I|I]]; [apply X in I; lia|discriminate|apply X in I; lia].
Qed.

Theorem C139_goes_on : forall ls s i, exec cwStep cwInit ls = Some s -> nth_error (wCalls s) i = Some CawFlush ->
  exists s', cwStep s (CwFlushed i) = Some s' /\ nth_error (wCalls s') i = Some CawWait.
Proof.
  intros ls s i E N.
  assert (A : flushing s).
  { revert E. clear N. revert ls s. apply (exec_snoc_inv _ _ cwStep (fun _ s => flushing s)); [intros []|]. intros ls s l s' E A H. unfold flushing in *.
    destruct (C139_one_winner _ _ E) as [W _]. destruct l as [|j|j|l].
    - cbn [cwStep] in H. destruct (cDone (wCl s)); injection H as <-; cbn [wCl wCalls]; intros I; [|reflexivity].
      apply in_app_or in I. destruct I as [I|[I|[]]]; [auto|discriminate].
    - cbn [cwStep] in H. destruct (nth_error (wCalls s) j) as [[]|] eqn:N; try discriminate.
      destruct (clStep (wCl s) ClCancel) as [c|]; [|discriminate]. injection H as <-. cbn [wCalls]. intros I. destruct (winners_flush s j N W I).
    - cbn [cwStep] in H. destruct (nth_error (wCalls s) j) as [[]|] eqn:N; try discriminate.
      destruct (allEnded (wCl s)); [|discriminate]. injection H as <-. cbn [wCl wCalls]. intros I. apply in_setCall in I. destruct I as [I|I]; [discriminate|auto].
    - destruct (other_step _ _ _ H) as (c & E1 & ->). cbn [wCl wCalls]. intros I.
      assert (NC : l <> ClCancel).
      { intros ->. cbn [cwStep] in H. assert (X : callerFlushes s = true) by (unfold callerFlushes; apply existsb_exists; exists CawFlush; auto). rewrite X in H. discriminate. }
      eapply flush_stays; eauto. }
  assert (F := A (nth_error_In _ _ N)). cbn [cwStep]. rewrite N. cbn [clStep]. rewrite F. eexists. split; [reflexivity|]. cbn [wCalls]. unfold setCall.
  assert (L : i < length (wCalls s)) by (apply nth_error_Some; congruence).
  rewrite nth_error_app2; rewrite firstn_length, Nat.min_l by lia; [|lia]. rewrite Nat.sub_diag. reflexivity.
Qed.
Print Assumptions C139_goes_on.

(** A whole life: everything ends and the call returns. *)
Example C139_example :
  match exec cwStep cwInit
    [CwOther ClSend; CwOther (ClSender true); CwOther (ClSender true); CwCall; CwFlushed 0; CwCall; CwOther ClCloser; CwOther ClReader; CwOther ClReader;
     CwOther ClLoopEnd; CwOther ClKxWait; CwOther ClSenderEnd; CwReturn 0] with
  | Some s => wCalls s = [CawOk; CawErr] /\ allEnded (wCl s) = true /\ cWrites (wCl s) = 1
  | None => False
  end.
Proof. vm_compute. auto. Qed.

(** The session may also be closed by its exchanger; a call that comes too late
    fails and does not keep that goroutine from ending the session. *)
Example C139_exchanger_example :
  match exec cwStep cwInit
    [CwOther ClTick; CwOther (ClLoop true); CwOther (ClLoop false); CwOther (ClLoop false); CwCall; CwOther ClCancel;
     CwOther ClCloser; CwOther ClReader; CwOther ClReader; CwOther ClLoopEnd; CwOther ClKxWait; CwOther ClSenderEnd] with
  | Some s => wCalls s = [CawErr] /\ allEnded (wCl s) = true /\ cErrors (wCl s) = 1
  | None => False
  end.
Proof. vm_compute. auto. Qed.

(** ** The call that closes the session can always return: from every state the
    goroutines of the session get it there by themselves, whether the writes they
    are in fail or not. *)
Definition ownCl (ok : bool) (l : cllabel) : Prop :=
  match l with
  | ClCloser | ClReader | ClLoopEnd | ClSenderEnd | ClKxWait => True
  | ClLoop b | ClAnswer _ b | ClSender b => b = ok
  | _ => False
  end.
Definition own (ok : bool) (l : cwlabel) : Prop :=
  match l with CwCall => False | CwFlushed _ | CwReturn _ => True | CwOther l => ownCl ok l end.

Definition ending (c : cl) : Prop := cCtx c = true /\ cDone c = true.
Definition tidy (c : cl) : Prop := cLoop c <> LwAt WEnd /\ cSender c <> SdAt WEnd /\ cSender c <> SdAt WFail.

Section CanReturn.
  Variable ok : bool.

  Definition gets (c : cl) (P : cl -> Prop) : Prop := exists ls c', Forall (ownCl ok) ls /\ exec clStep c ls = Some c' /\ P c'.
  Lemma gets_now : forall c (P : cl -> Prop), P c -> gets c P.
  Proof. intros c P H. exists [], c. repeat split; auto. Qed.
  Lemma gets_step : forall c l c' P, ownCl ok l -> clStep c l = Some c' -> gets c' P -> gets c P.
  Proof. intros c l c' P O E (ls & c2 & F & X & Y). exists (l :: ls), c2. split; [auto|]. split; [cbn [exec]; rewrite E; exact X|exact Y]. Qed.
  Lemma gets_then : forall c P Q, gets c P -> (forall c', P c' -> gets c' Q) -> gets c Q.
  Proof.
    intros c P Q (ls & c1 & F & X & Y) H. destruct (H c1 Y) as (ls2 & c2 & F2 & X2 & Y2). exists (ls ++ ls2), c2.
    split; [apply Forall_app; auto|]. split; [|exact Y2]. rewrite (exec_app _ _ _ _ _ X). exact X2.
  Qed.

  Lemma reader_ends : forall c, ending c -> tidy c -> gets c (fun c' => ending c' /\ tidy c' /\ cReader c' = RdEnd).
  Proof.
    intros c [C D] T.
    assert (Z3 : forall c, ending c -> tidy c -> cReader c = RdCleanup -> gets c (fun c' => ending c' /\ tidy c' /\ cReader c' = RdEnd)).
    { intros x [C1 D1] T1 R. eapply (gets_step x ClReader); [exact I|cbn [clStep]; rewrite R; reflexivity|]. apply gets_now. split; [split; [reflexivity|exact D1]|]. split; [exact T1|reflexivity]. }
    assert (Z2 : forall c, ending c -> tidy c -> cReader c = RdLoop -> gets c (fun c' => ending c' /\ tidy c' /\ cReader c' = RdEnd)).
    { intros x [C1 D1] T1 R. eapply (gets_step x ClReader); [exact I|cbn [clStep]; rewrite R, D1; reflexivity|]. apply Z3; [split; [exact C1|exact D1]|exact T1|reflexivity]. }
    destruct (cReader c) eqn:R.
    - apply Z2; auto. split; auto.
    - eapply (gets_step c ClReader); [exact I|cbn [clStep]; rewrite R, C; reflexivity|]. apply Z2; [split; [exact C|exact D]|exact T|reflexivity].
    - eapply (gets_step c ClReader); [exact I|cbn [clStep]; rewrite R; reflexivity|]. apply Z2; [split; [exact C|exact D]|exact T|reflexivity].
    - apply Z3; auto. split; auto.
    - apply gets_now. split; [split; auto|auto].
  Qed.

  (** Under way to the end a sender of the exchanger stays in the session's state. *)
  Lemma kxSend_ending : forall c p, ending c -> p <> WEnd -> exists c' q, kxSend c p ok = Some (c', q) /\ ending c' /\
    cReader c' = cReader c /\ cSender c' = cSender c /\ cLoop c' = cLoop c /\ cAnswers c' = cAnswers c /\
    match p with WCheck => q = WFail | WWrite => q = WEnd \/ q = WFail | _ => q = WEnd end.
  Proof.
    intros c p [C D] N. destruct p; cbn [kxSend]; rewrite ?D.
    - do 2 eexists. split; [reflexivity|]. repeat split; auto.
    - destruct ok; do 2 eexists; (split; [reflexivity|]); repeat split; auto.
    - do 2 eexists. split; [reflexivity|]. repeat split; auto.
    - destruct (N eq_refl).
  Qed.

  Lemma loop_ends : forall c, ending c -> tidy c -> cReader c = RdEnd ->
    gets c (fun c' => ending c' /\ tidy c' /\ cReader c' = RdEnd /\ cLoop c' = LwEnd).
  Proof.
    set (G := fun c' : cl => ending c' /\ tidy c' /\ cReader c' = RdEnd /\ cLoop c' = LwEnd).
    assert (Z0 : forall c, ending c -> tidy c -> cReader c = RdEnd -> cLoop c = LwIdle -> gets c G).
    { intros c [C D] (T1 & T2 & T3) R L. eapply (gets_step c ClLoopEnd); [exact I|cbn [clStep]; rewrite L, C; reflexivity|]. apply gets_now.
      split; [split; auto|]. split; [|split; [exact R|reflexivity]]. split; [discriminate|split; auto]. }
    assert (Z1 : forall c, ending c -> tidy c -> cReader c = RdEnd -> cLoop c = LwAt WFail -> gets c G).
    { intros c E (T1 & T2 & T3) R L. destruct (kxSend_ending c WFail E) as (c1 & q & K & E1 & R1 & S1 & _ & _ & ->); [discriminate|].
      eapply (gets_step c (ClLoop ok)); [reflexivity|cbn [clStep]; rewrite L, K; reflexivity|]. cbn [isWEnd].
      apply Z0; [exact E1| |cbn; congruence|reflexivity]. split; [discriminate|]. cbn. rewrite S1. split; auto. }
    assert (Z2 : forall p c, (p = WCheck \/ p = WWrite) -> ending c -> tidy c -> cReader c = RdEnd -> cLoop c = LwAt p -> gets c G).
    { intros p c P E (T1 & T2 & T3) R L. destruct (kxSend_ending c p E) as (c1 & q & K & E1 & R1 & S1 & _ & _ & Q); [destruct P; congruence|].
      eapply (gets_step c (ClLoop ok)); [reflexivity|cbn [clStep]; rewrite L, K; reflexivity|].
      assert (Q' : q = WEnd \/ q = WFail) by (destruct P as [->| ->]; auto).
      destruct Q' as [->| ->]; cbn [isWEnd].
      - apply Z0; [exact E1| |cbn; congruence|reflexivity]. split; [discriminate|]. cbn. rewrite S1. split; auto.
      - apply Z1; [exact E1| |cbn; congruence|reflexivity]. split; [discriminate|]. cbn. rewrite S1. split; auto. }
    intros c E T R. destruct (cLoop c) as [|p|] eqn:L.
    - apply Z0; auto.
    - destruct p; [apply (Z2 WCheck)|apply (Z2 WWrite)|apply Z1|]; auto. destruct T as (T & _). destruct (T L).
    - apply gets_now. split; auto.
  Qed.

  Definition weight (p : wPc) : nat := match p with WCheck => 3 | WWrite => 2 | WFail => 1 | WEnd => 0 end.
  Definition weights (l : list wPc) : nat := list_sum (map weight l).
  Lemma weights_set : forall l i p q, nth_error l i = Some p -> weight q < weight p -> weights (setNthW l i q) < weights l.
  Proof.
    intros l i p q N W. unfold weights, setNthW. destruct (nth_error_split _ _ N) as (a & b & -> & L).
    rewrite firstn_app, <- L, Nat.sub_diag, firstn_all, firstn_O, app_nil_r.
    rewrite skipn_app, skipn_all2 by lia. replace (S (length a) - length a) with 1 by lia. cbn [skipn app].
    rewrite !map_app, !list_sum_app. cbn [map list_sum fold_right]. lia.
  Qed.
  Lemma not_all : forall l, forallb isWEnd l = false -> exists i p, nth_error l i = Some p /\ p <> WEnd.
  Proof.
    induction l as [|p l IH]; cbn [forallb]; intros H; [discriminate|]. destruct (isWEnd p) eqn:P.
    - destruct (IH H) as (i & q & N & X). exists (S i), q. auto.
    - exists 0, p. split; [reflexivity|]. intros ->. discriminate.
  Qed.

  Lemma answers_end : forall n c, weights (cAnswers c) <= n -> ending c -> tidy c -> cReader c = RdEnd -> cLoop c = LwEnd ->
    gets c (fun c' => ending c' /\ tidy c' /\ cReader c' = RdEnd /\ cLoop c' = LwEnd /\ forallb isWEnd (cAnswers c') = true).
  Proof.
    induction n as [|n IH]; intros c W E T R L.
    all: destruct (forallb isWEnd (cAnswers c)) eqn:A; [apply gets_now; auto|].
    all: destruct (not_all _ A) as (i & p & N & X); destruct (kxSend_ending c p E X) as (c1 & q & K & E1 & R1 & S1 & L1 & A1 & Q).
    all: assert (WQ : weight q < weight p) by (destruct p; subst; try lia; [cbn; lia|destruct Q as [->| ->]; cbn; lia|cbn; lia|destruct (X eq_refl)]).
    all: assert (V := weights_set _ _ _ q N WQ).
    - lia.
    - eapply (gets_step c (ClAnswer i ok)); [reflexivity|cbn [clStep]; rewrite N, K; reflexivity|]. rewrite A1. apply IH.
      + cbn [cAnswers setAnswers]. lia.
      + exact E1.
      + destruct T as (T1 & T2 & T3). split; [|split]; cbn; congruence.
      + cbn. congruence.
      + cbn. congruence.
  Qed.

  Lemma sender_ends : forall c, ending c -> tidy c -> cReader c = RdEnd -> cLoop c = LwEnd -> forallb isWEnd (cAnswers c) = true ->
    gets c (fun c' => ending c' /\ cReader c' = RdEnd /\ cLoop c' = LwEnd /\ forallb isWEnd (cAnswers c') = true /\ cSender c' = SdEnd).
  Proof.
    set (G := fun c' : cl => ending c' /\ cReader c' = RdEnd /\ cLoop c' = LwEnd /\ forallb isWEnd (cAnswers c') = true /\ cSender c' = SdEnd).
    assert (Z0 : forall c, ending c -> cReader c = RdEnd -> cLoop c = LwEnd -> forallb isWEnd (cAnswers c) = true -> cSender c = SdIdle -> gets c G).
    { intros c [C D] R L A S. eapply (gets_step c ClSenderEnd); [exact I|cbn [clStep]; rewrite S, C; reflexivity|]. apply gets_now.
      split; [split; auto|]. repeat split; auto. }
    intros c [C D] (T1 & T2 & T3) R L A. destruct (cSender c) as [|p|] eqn:S.
    - apply Z0; auto. split; auto.
    - destruct p; try congruence.
      + eapply (gets_step c (ClSender ok)); [reflexivity|cbn [clStep]; rewrite S; cbn [dataSend]; rewrite D; reflexivity|]. cbn [isWEnd].
        apply Z0; auto. split; auto.
      + eapply (gets_step c (ClSender ok)); [reflexivity|cbn [clStep]; rewrite S; cbn [dataSend]; reflexivity|]. cbn [isWEnd].
        apply Z0; auto. split; auto.
    - apply gets_now. split; [split; auto|]. auto.
  Qed.

  Lemma all_end : forall c, ending c -> tidy c -> gets c (fun c' => allEnded c' = true).
  Proof.
    intros c E T. eapply gets_then; [exact (reader_ends c E T)|]. intros c1 (E1 & T1 & R1).
    eapply gets_then; [exact (loop_ends c1 E1 T1 R1)|]. intros c2 (E2 & T2 & R2 & L2).
    eapply gets_then; [exact (answers_end _ c2 (Nat.le_refl _) E2 T2 R2 L2)|]. intros c3 (E3 & T3 & R3 & L3 & A3).
    eapply gets_then; [exact (sender_ends c3 E3 T3 R3 L3 A3)|]. intros c4 ([C4 D4] & R4 & L4 & A4 & S4).
    assert (Z : forall c, cReader c = RdEnd -> cLoop c = LwEnd -> forallb isWEnd (cAnswers c) = true -> cSender c = SdEnd -> cCloser c = true ->
      gets c (fun c' => allEnded c' = true)).
    { intros x R L A S K. destruct (cKxWait x) eqn:W.
      - apply gets_now. unfold allEnded. rewrite R, S, K, W. reflexivity.
      - eapply (gets_step x ClKxWait); [exact I|cbn [clStep]; rewrite L, A, W; reflexivity|]. apply gets_now. unfold allEnded. cbn. rewrite R, S, K. reflexivity. }
    destruct (cCloser c4) eqn:K.
    - apply Z; auto.
    - eapply (gets_step c4 ClCloser); [exact I|cbn [clStep]; rewrite C4, K; reflexivity|]. apply Z; auto.
  Qed.

  Lemma lift_run : forall ls c c' calls, Forall (ownCl ok) ls -> exec clStep c ls = Some c' ->
    exec cwStep {| wCl := c; wCalls := calls |} (map CwOther ls) = Some {| wCl := c'; wCalls := calls |}.
  Proof.
    induction ls as [|l ls IH]; intros c c' calls F X; cbn [exec map] in *; [congruence|].
    inversion F; subst. destruct (clStep c l) as [c1|] eqn:E; [|discriminate].
    assert (Y : cwStep {| wCl := c; wCalls := calls |} (CwOther l) = Some {| wCl := c1; wCalls := calls |}).
    { destruct l; try contradiction; cbn [cwStep wCl wCalls]; rewrite E; reflexivity. }
    rewrite Y. apply IH; auto.
  Qed.
End CanReturn.

Lemma tidy_step : forall c l c', clStep c l = Some c' -> tidy c -> tidy c'.
Proof.
  intros c l c' H (T1 & T2 & T3).
  assert (K : forall p c1 q ok, kxSend c p ok = Some (c1, q) -> cLoop c1 = cLoop c /\ cSender c1 = cSender c).
  { intros p c1 q ok K. destruct p; cbn [kxSend] in K; try discriminate;
      repeat match type of K with context [if ?x then _ else _] => destruct x end; injection K as <- <-; cbn; auto. }
  assert (F : forall p c1 q, dataSend c p = Some (c1, q) -> cLoop c1 = cLoop c /\ cSender c1 = cSender c /\ q <> WFail).
  { intros p c1 q K'. destruct p; cbn [dataSend] in K'; try discriminate; injection K' as <- <-; repeat split; try discriminate.
    destruct (cDone c); discriminate. }
  unfold tidy.
  destruct l; cbn [clStep] in H;
    repeat match type of H with
    | match kxSend ?a ?b ?d with _ => _ end = _ => let E := fresh "E" in destruct (kxSend a b d) as [[? ?]|] eqn:E; [apply K in E; destruct E as [? ?]|discriminate]
    | match dataSend ?a ?b with _ => _ end = _ => let E := fresh "E" in destruct (dataSend a b) as [[? ?]|] eqn:E; [apply F in E; destruct E as (? & ? & ?)|discriminate]
    | match ?x with _ => _ end = _ => destruct x eqn:?; try discriminate
    end; injection H as <-; cbn; auto;
    repeat match goal with |- context [if ?x then _ else _] => destruct x eqn:? end; cbn;
    repeat split; try discriminate; try congruence.
  all: intros X; injection X as ->; cbn in *; congruence.
Qed.

Definition waits (s : cw) : Prop := In CawWait (wCalls s) -> cCtx (wCl s) = true.
Lemma ctx_stays : forall c l c', clStep c l = Some c' -> cCtx c = true -> cCtx c' = true.
Proof.
  intros c l c' H D.
  assert (K : forall p c1 q ok, kxSend c p ok = Some (c1, q) -> cCtx c1 = true).
  { intros p c1 q ok K. destruct p; cbn [kxSend] in K; try discriminate;
      repeat match type of K with context [if ?x then _ else _] => destruct x end; injection K as <- <-; cbn; auto. }
  assert (F : forall p c1 q, dataSend c p = Some (c1, q) -> cCtx c1 = true).
  { intros p c1 q K'. destruct p; cbn [dataSend] in K'; try discriminate; injection K' as <- <-; exact D. }
  destruct l; cbn [clStep] in H;
    repeat match type of H with
    | match kxSend ?a ?b ?d with _ => _ end = _ => let E := fresh in destruct (kxSend a b d) as [[? ?]|] eqn:E; [apply K in E|discriminate]
    | match dataSend ?a ?b with _ => _ end = _ => let E := fresh in destruct (dataSend a b) as [[? ?]|] eqn:E; [apply F in E|discriminate]
    | match ?x with _ => _ end = _ => destruct x eqn:?; try discriminate
    end; injection H as <-; cbn; auto.
  all: repeat match goal with |- context [if ?x then _ else _] => destruct x end; cbn; auto.
Qed.

Theorem C139_can_return : forall ls s i ok, exec cwStep cwInit ls = Some s ->
  (nth_error (wCalls s) i = Some CawFlush \/ nth_error (wCalls s) i = Some CawWait) ->
  exists ls' s', Forall (own ok) ls' /\ exec cwStep s ls' = Some s' /\ nth_error (wCalls s') i = Some CawOk.
Proof.
  intros ls s i ok E0 N0.
  assert (Z : forall ls s, exec cwStep cwInit ls = Some s -> nth_error (wCalls s) i = Some CawWait ->
    exists ls' s', Forall (own ok) ls' /\ exec cwStep s ls' = Some s' /\ nth_error (wCalls s') i = Some CawOk).
  { clear. intros ls s E N.
    assert (A : waits s /\ tidy (wCl s)).
    { revert E. clear N. revert ls s. apply (exec_snoc_inv _ _ cwStep (fun _ s => waits s /\ tidy (wCl s))).
      - split; [intros []|]. repeat split; discriminate.
      - intros ls s l s' _ [A T] H. unfold waits in *. destruct l as [|j|j|l].
        + cbn [cwStep] in H. destruct (cDone (wCl s)); injection H as <-; cbn [wCl wCalls]; (split; [|exact T]); intros I;
            apply in_app_or in I; destruct I as [I|[I|[]]]; try discriminate; exact (A I).
        + cbn [cwStep] in H. destruct (nth_error (wCalls s) j) as [[]|]; try discriminate.
          destruct (clStep (wCl s) ClCancel) as [c|] eqn:X; [|discriminate]. injection H as <-. cbn [wCl wCalls].
          split; [|eapply tidy_step; eauto]. intros _. cbn [clStep] in X. destruct (cFlush (wCl s)); [|discriminate]. injection X as <-. reflexivity.
        + cbn [cwStep] in H. destruct (nth_error (wCalls s) j) as [[]|]; try discriminate.
          destruct (allEnded (wCl s)); [|discriminate]. injection H as <-. cbn [wCl wCalls]. split; [|exact T]. intros I.
          apply in_setCall in I. destruct I as [I|I]; [discriminate|auto].
        + destruct (other_step _ _ _ H) as (c & X & ->). cbn [wCl wCalls]. split; [|eapply tidy_step; eauto]. intros I. eapply ctx_stays; eauto. }
    destruct A as [A T]. assert (C := A (nth_error_In _ _ N)).
    assert (D : cDone (wCl s) = true).
    { destruct (C139_one_winner _ _ E) as [W1 W2]. apply W2. unfold winners in *.
      destruct (filter winner (wCalls s)) as [|x r] eqn:F; [|cbn [length] in *; lia].
      assert (J : In CawWait (filter winner (wCalls s))) by (apply filter_In; split; [eapply nth_error_In; eauto|reflexivity]). rewrite F in J. destruct J. }
    destruct (all_end ok (wCl s)) as (ks & c & F & X & Y); [split; auto|exact T|].
    exists (map CwOther ks ++ [CwReturn i]). destruct s as [c0 calls]. cbn [wCl wCalls] in *.
    eexists. split; [|split].
    - apply Forall_app. split; [apply Forall_map; exact F|constructor; [exact I|constructor]].
    - rewrite (exec_app _ _ _ _ _ (lift_run ok ks c0 c calls F X)). cbn [exec cwStep wCl wCalls]. rewrite N, Y. reflexivity.
    - cbn [wCalls]. unfold setCall. cbn [wCalls]. assert (L : i < length calls) by (apply nth_error_Some; congruence).
      rewrite nth_error_app2; rewrite firstn_length, Nat.min_l by lia; [|lia]. rewrite Nat.sub_diag. reflexivity. }
  destruct N0 as [N|N]; [|eapply Z; eauto].
  destruct (C139_goes_on _ _ _ E0 N) as (s1 & H1 & N1).
  destruct (Z (ls ++ [CwFlushed i]) s1) as (ls' & s' & F & X & Y); [|exact N1|].
  - rewrite (exec_app _ _ _ _ _ E0). cbn [exec]. rewrite H1. reflexivity.
  - exists (CwFlushed i :: ls'), s'. split; [constructor; [exact I|exact F]|]. split; [|exact Y]. cbn [exec]. rewrite H1. exact X.
Qed.
Print Assumptions C139_can_return.

(** In the middle of everything: the reader has accepted a request, the exchanger is
    in a write, an answer and the delayed sender as well. *)
Example C139_can_return_example :
  match exec cwStep cwInit
    [CwOther ClReceive; CwOther ClReader; CwOther ClReader; CwOther (ClAnswer 0 true); CwOther ClTick; CwOther (ClLoop true);
     CwOther ClSend; CwOther (ClSender true); CwOther ClReceive; CwOther ClReader; CwCall] with
  | Some s => wCalls s = [CawFlush] /\ cReader (wCl s) = RdAdd /\ cLoop (wCl s) = LwAt WWrite /\ cAnswers (wCl s) = [WWrite] /\ cSender (wCl s) = SdAt WWrite
  | None => False
  end.
Proof. vm_compute. auto 10. Qed.
