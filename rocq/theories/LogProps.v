(** C129: the output of information messages (model LogModel). *)
From Coq Require Import NArith List Bool Arith Lia.
From Verif Require Import Base TS LogModel.
Import ListNotations.

(** ** What is wanted, in terms of what happened only *)

(** The messages of a session that was still open. *)
Fixpoint said (ls : list logLabel) : list N :=
  match ls with
  | [] => []
  | LCall m :: r => m :: said r
  | LTake :: r => said r
  | LClose :: _ => []
  end.

(** The receiver is never 1024 messages behind. *)
Fixpoint keepsUp (behind : nat) (ls : list logLabel) : Prop :=
  match ls with
  | [] => True
  | LCall _ :: r => (behind < 1024)%nat /\ keepsUp (S behind) r
  | LTake :: r => keepsUp (pred behind) r
  | LClose :: _ => True
  end.

(** [a] is [b] with some elements left out. *)
Inductive sub : list N -> list N -> Prop :=
| sub_nil : sub [] []
| sub_keep : forall x a b, sub a b -> sub (x :: a) (x :: b)
| sub_drop : forall x a b, sub a b -> sub a (x :: b).

Lemma sub_refl : forall a, sub a a.
Proof. induction a; constructor; auto. Qed.
Lemma sub_none : forall a, sub [] a.
Proof. induction a; constructor; auto. Qed.
Lemma sub_snoc_drop : forall a b x, sub a b -> sub a (b ++ [x]).
Proof. intros a b x H. induction H; cbn [app]; try (constructor; auto). apply sub_none. Qed.
Lemma sub_head : forall p a b, sub a b -> sub (p ++ a) (p ++ b).
Proof. induction p; intros; cbn [app]; auto. constructor. auto. Qed.

(** ** Once the channel is closed *)

Lemma closed_run : forall o ls g g', exec (logStep o) g ls = Some g' -> gClosed g = true -> gGot g' ++ gQueue g' = gGot g ++ gQueue g.
Proof.
  intros o ls. induction ls as [|l ls IH]; intros g g' E C.
  - cbn in E. injection E as <-. reflexivity.
  - cbn [exec] in E. destruct (logStep o g l) as [h|] eqn:S; [|discriminate].
    assert (H : gGot h ++ gQueue h = gGot g ++ gQueue g /\ gClosed h = true).
    { destruct l; cbn [logStep] in S.
      - injection S as <-. unfold infof. cbn. rewrite C. destruct (oDebug o); auto.
      - destruct (gQueue g) as [|x q] eqn:Q; [rewrite C in S|]; injection S as <-; cbn; auto. rewrite <- app_assoc. auto.
      - rewrite C in S. discriminate. }
    destruct H as [<- C']. eauto.
Qed.

(** Nothing is invented, repeated or reordered, and nothing said after the end is
    passed on. *)
Lemma run_sub : forall o ls g g', exec (logStep o) g ls = Some g' -> gClosed g = false ->
  exists t, gGot g' ++ gQueue g' = gGot g ++ gQueue g ++ t /\ sub t (said ls).
Proof.
  intros o ls. induction ls as [|l ls IH]; intros g g' E C.
  - cbn in E. injection E as <-. exists []. rewrite app_nil_r. split; [reflexivity|constructor].
  - cbn [exec] in E. destruct (logStep o g l) as [h|] eqn:S; [|discriminate]. destruct l; cbn [logStep] in S.
    + injection S as <-. destruct (IH _ _ E C) as (t & Et & St). unfold infof in Et. cbn [gQueue gGot gClosed gEnded] in Et. rewrite C in Et.
      destruct (oDebug o); [destruct (Nat.ltb (length (gQueue g)) logCapacity)|]; cbn [negb said] in *.
      * exists (m :: t). split; [rewrite Et, <- app_assoc; reflexivity|constructor; exact St].
      * exists t. split; [exact Et|constructor; exact St].
      * exists t. split; [exact Et|constructor; exact St].
    + destruct (gQueue g) as [|x q] eqn:Q; [rewrite C in S; discriminate|]. injection S as <-.
      destruct (IH _ _ E C) as (t & Et & St). exists t. cbn in Et. split; [|exact St]. rewrite Et, <- app_assoc. reflexivity.
    + rewrite C in S. injection S as <-. exists []. cbn [said]. split; [|constructor].
      rewrite (closed_run o _ _ _ E) by reflexivity. cbn. rewrite app_nil_r. reflexivity.
Qed.

(** ** The theorems *)

(** C129 is false: what decides is [EnableDebug]. With [EnableInfo] alone nothing
    ever arrives, whatever is said and however the application receives; and
    without [EnableInfo] messages do arrive. *)
Theorem C129_enable_info_refuted :
  (forall ls g, exec (logStep {| oDebug := false; oInfo := true |}) logInit ls = Some g -> gGot g = [] /\ gQueue g = []) /\
  (forall m, exists g, exec (logStep {| oDebug := true; oInfo := false |}) logInit [LCall m; LTake] = Some g /\ gGot g = [m]).
Proof.
  split.
  - intros ls g E.
    assert (K : forall ls s s', exec (logStep {| oDebug := false; oInfo := true |}) s ls = Some s' -> gGot s = [] /\ gQueue s = [] -> gGot s' = [] /\ gQueue s' = []).
    { clear. induction ls as [|l ls IH]; intros s s' E H; cbn [exec] in E; [injection E as <-; exact H|].
      destruct (logStep _ s l) as [h|] eqn:S; [|discriminate]. apply (IH _ _ E). destruct H as [G Q].
      destruct l; cbn [logStep] in S; rewrite ?Q in S; try (destruct (gClosed s); [|discriminate]);
        try (destruct (gClosed s); [discriminate|]); injection S as <-; cbn; auto. }
    apply (K _ _ _ E). split; reflexivity.
  - intros m. eexists. split; reflexivity.
Qed.
Print Assumptions C129_enable_info_refuted.

(** What holds whatever the options: what the application has received and what
    waits for it are, in order and without repetition, things said before the
    session ended; a call of [infof] never waits and never panics. *)
Theorem C129_in_order : forall o ls g, exec (logStep o) logInit ls = Some g ->
  sub (gGot g ++ gQueue g) (said ls) /\ (forall m, exists g', logStep o g (LCall m) = Some g').
Proof.
  intros o ls g E. split; [|intros m; eexists; reflexivity].
  destruct (run_sub o ls logInit g E eq_refl) as (t & Et & St). cbn in Et. rewrite Et. exact St.
Qed.
Print Assumptions C129_in_order.

(** With [EnableDebug]: if the application is never 1024 messages behind then
    nothing is lost, and the end is announced only after everything was
    received. *)
Theorem C129_nothing_lost_partial : forall o ls g, oDebug o = true -> keepsUp 0 ls ->
  exec (logStep o) logInit ls = Some g ->
  gGot g ++ gQueue g = said ls /\ (gEnded g = true -> gGot g = said ls).
Proof.
  intros o ls g D K E.
  assert (A : forall ls s s', keepsUp (length (gQueue s)) ls -> gClosed s = false -> exec (logStep o) s ls = Some s' ->
    gGot s' ++ gQueue s' = gGot s ++ gQueue s ++ said ls).
  { clear - D. induction ls as [|l ls IH]; intros s s' K C E; cbn [exec] in E.
    - injection E as <-. cbn. rewrite app_nil_r. reflexivity.
    - destruct (logStep o s l) as [h|] eqn:S; [|discriminate]. destruct l; cbn [logStep keepsUp said] in *.
      + injection S as <-. destruct K as [K1 K2].
        assert (L : Nat.ltb (length (gQueue s)) logCapacity = true) by (apply Nat.ltb_lt; exact K1).
        rewrite (IH (infof o m s) s') by (try exact E; unfold infof; cbn [gQueue gGot gClosed gEnded]; rewrite ?D, ?C, ?L; cbn [negb]; try reflexivity; rewrite app_length, Nat.add_1_r; exact K2).
        unfold infof. cbn [gQueue gGot gClosed gEnded]. rewrite D, C, L. cbn [negb]. rewrite <- app_assoc. reflexivity.
      + destruct (gQueue s) as [|x q] eqn:Q; [rewrite C in S; discriminate|]. injection S as <-.
        match goal with E : exec _ ?h _ = _ |- _ => rewrite (IH h s' K C E) end. cbn. rewrite <- app_assoc. reflexivity.
      + rewrite C in S. injection S as <-. rewrite (closed_run o _ _ _ E) by reflexivity. cbn. rewrite app_nil_r. reflexivity. }
  assert (B : forall ls s s', exec (logStep o) s ls = Some s' -> (gEnded s = true -> gQueue s = [] /\ gClosed s = true) ->
    gEnded s' = true -> gQueue s' = [] /\ gClosed s' = true).
  { clear. induction ls as [|l ls IH]; intros s s' E H; cbn [exec] in E; [injection E as <-; exact H|].
    destruct (logStep o s l) as [h|] eqn:S; [|discriminate]. apply (IH _ _ E). destruct l; cbn [logStep] in S.
    - injection S as <-. cbn. intros F. destruct (H F) as [-> ->]. destruct (oDebug o); auto.
    - destruct (gQueue s) as [|x q] eqn:Q; [destruct (gClosed s); [|discriminate]|]; injection S as <-; cbn; auto.
      intros F. destruct (H F). discriminate.
    - destruct (gClosed s) eqn:C; [discriminate|]. injection S as <-. cbn. intros F. destruct (H F). discriminate. }
  assert (R : gGot g ++ gQueue g = said ls) by (apply (A ls logInit g K eq_refl E)).
  split; [exact R|]. intros F. destruct (B ls logInit g E) as [Q _]; [discriminate|exact F|]. rewrite Q, app_nil_r in R. exact R.
Qed.
Print Assumptions C129_nothing_lost_partial.

(** Two messages, the end of the session, a late message; the application gets the
    two and learns of the end. An application that does not receive loses the
    1025th message. *)
Example C129_example :
  (let ls := [LCall 5; LCall 6; LTake; LClose; LCall 7; LTake; LTake] in
   keepsUp 0 ls /\ said ls = [5%N; 6%N] /\
   exec (logStep {| oDebug := true; oInfo := false |}) logInit ls = Some {| gQueue := []; gClosed := true; gGot := [5%N; 6%N]; gEnded := true |}) /\
  (exists g, exec (logStep {| oDebug := true; oInfo := true |}) logInit (map (fun k => LCall (N.of_nat k)) (seq 0 1030)) = Some g /\
     gQueue g = map N.of_nat (seq 0 1024)).
Proof.
  split; [cbn zeta; split; [cbn; lia|split; reflexivity]|]. eexists. split; [vm_compute; reflexivity|vm_compute; reflexivity].
Qed.
