(** C171: in the whole exchanger, a waiting exchange is over with the next confirming
    message (C123 is the same question for the update alone). *)
From Coq Require Import NArith List Bool Lia.
From Verif Require Import Base BaseLemmas TS MessageModel KxModel KxSpec KxProofs KxRunProofs KxProps KxRunProps.
Import ListNotations.
Local Open Scope N_scope.

(** ** What should hold *)
(** The labels of the goroutine of the loop. *)
Definition byLoop (l : klabel) : bool :=
  match l with
  | KLoopGo _ | KLoopCheck | KLoopGen _ _ _ | KLoopSend | KLoopRetry | KLoopNotified | KLoopTimeout => true
  | _ => false
  end.
Definition isHandle (l : klabel) : bool := match l with KHandle _ => true | _ => false end.

Section Heard.
  Variable verify : bytes -> bytes -> bytes -> bool.
  Variable dh : bytes -> bytes -> bytes.
  Variables blake3 sha3 : bytes -> bytes.
  Variable c : kxConf.
  Notation step := (kstep verify dh blake3 sha3 c).
  Notation handle := (handleKx verify dh blake3 sha3 c).

  (** The loop waits for the key of stamp [a]; the message [b] confirms the newest
      key, which is not older; whatever the loop does next, it does not send again
      and no error is reported: the exchange is over. *)
  Definition isHeard (x : kxs) : Prop := forall a b x1 ls x2 l x3,
    xLoop x = LpWait a -> a <= kNextAt (xKx x) ->
    step x (KHandle b) = Some x1 -> kDone (xKx x1) = kDone (xKx x) + 1 ->
    exec step x1 ls = Some x2 -> forallb (fun l => negb (byLoop l)) ls = true ->
    byLoop l = true -> step x2 l = Some x3 ->
    xLoop x3 = LpIdle /\ kErrs (xKx x3) = kErrs (xKx x2) /\ kCtxDone (xKx x3) = kCtxDone (xKx x2) /\ xSent x3 = xSent x2.

  Lemma update_rest : forall s s', updateSecrets dh blake3 sha3 c s = Ret s' ->
    kNotify s' = kNotify s /\ kDone s' = kDone s /\ kNextAt s' = kNextAt s.
  Proof. intros s s' E. rewrite (update_keys _ _ _ _ _ _ E). cbn. auto. Qed.

  Lemma handle_notify : forall k b k' h, handle k b = Ret (k', h) ->
    kNextAt k' = kNextAt k /\
    (kDone k' = kDone k /\ kNotify k' = kNotify k \/
     kDone k' = kDone k + 1 /\ kNotify k' = match kNotify k with None => Some (kNextAt k) | Some n => Some n end).
  Proof.
    intros k b k' h E. destruct (handle_cases _ _ _ _ _ _ _ _ E) as [(e & H)|[H|[(m & e & _ & H & _)|(m & _ & H)]]].
    - injection H as -> _. auto.
    - injection H as -> _. auto.
    - injection H as -> _. cbn. auto.
    - symmetry in H. unfold accept in H. destruct (updateSecrets _ _ _ _ _) as [s|] eqn:Eu; [|discriminate]. apply update_rest in Eu.
      assert (R : kNotify s = kNotify k /\ kDone s = kDone k /\ kNextAt s = kNextAt k).
      { destruct Eu as (-> & -> & ->). unfold setNextRemotePublicKey. destruct (match kNextRemote _ with Some _ => _ | None => _ end); cbn; auto. }
      destruct R as (R1 & R2 & R3).
      destruct (_ || _); injection H as <- _; cbn; rewrite ?R1, ?R2, ?R3; auto.
  Qed.

  (** A step of another goroutine leaves a notification where it is. *)
  Lemma kept : forall x l x' n, step x l = Some x' -> byLoop l = false -> kNotify (xKx x) = Some n ->
    kNotify (xKx x') = Some n /\ xLoop x' = xLoop x.
  Proof.
    intros x l x' n E Hl Hn. unfold kstep in E. destruct (xPanic x); [discriminate|]. destruct l; try discriminate.
    - destruct (locked x); [discriminate|]. destruct (handle (xKx x) b) as [[k h]|] eqn:Eh; injection E as <-; [|auto].
      destruct (handle_notify _ _ _ _ Eh) as (_ & [(_ & H)|(_ & H)]); rewrite Hn in H; destruct h as [| |[]]; cbn; auto.
    - destruct (nth_error (xAnswers x) i) as [[]|]; try discriminate; injection E as <-; cbn; auto.
      unfold sendMsg. destruct (publicKeyMessage _ _ _); cbn; auto.
    - destruct (nth_error (xAnswers x) i) as [[]|]; try discriminate. unfold installLocalKey in E.
      destruct (updateSecrets _ _ _ _ _) as [k|] eqn:Eu; injection E as <-; cbn; [|auto].
      destruct (update_rest _ _ Eu) as (H & _). rewrite H. cbn. auto.
    - injection E as <-. cbn. auto.
  Qed.
  Lemma kept_run : forall ls x x' n, exec step x ls = Some x' -> forallb (fun l => negb (byLoop l)) ls = true -> kNotify (xKx x) = Some n ->
    kNotify (xKx x') = Some n /\ xLoop x' = xLoop x.
  Proof.
    induction ls as [|l ls IH]; intros x x' n E H Hn; cbn [exec] in E.
    - injection E as <-. auto.
    - cbn [forallb] in H. apply andb_prop in H. destruct H as [Hl H]. destruct (step x l) as [x1|] eqn:E1; [|discriminate].
      destruct (kept _ _ _ _ E1 ltac:(destruct (byLoop l); [discriminate|reflexivity]) Hn) as (K1 & L1).
      destruct (IH _ _ _ E H K1) as (K2 & L2). split; [exact K2|congruence].
  Qed.

  (** ** What holds *)
  (** The channel was empty when the message came. *)
  Lemma heard_empty : forall x, kNotify (xKx x) = None -> isHeard x.
  Proof.
    intros x Hn a b x1 ls x2 l x3 Hw Ha E1 Hd E2 Hls Hl E3.
    assert (K : kNotify (xKx x1) = Some (kNextAt (xKx x)) /\ xLoop x1 = LpWait a).
    { unfold kstep in E1. destruct (xPanic x); [discriminate|]. destruct (locked x); [discriminate|].
      destruct (handle (xKx x) b) as [[k h]|] eqn:Eh; injection E1 as <-.
      - destruct (handle_notify _ _ _ _ Eh) as (_ & [(D & _)|(_ & H)]).
        + exfalso. destruct h as [| |[]]; cbn in Hd; lia.
        + rewrite Hn in H. destruct h as [| |[]]; cbn; auto.
      - cbn in Hd. lia. }
    destruct K as (K1 & L1). destruct (kept_run _ _ _ _ E2 Hls K1) as (K2 & L2). rewrite L1 in L2.
    unfold kstep in E3. destruct (xPanic x2); [discriminate|]. rewrite L2, K2 in E3.
    assert (C : a <=? kNextAt (xKx x) = true) by (apply N.leb_le; exact Ha).
    destruct l; try discriminate; rewrite C in E3; injection E3 as <-; cbn; auto.
  Qed.

  (** Without a message in between nothing comes into the channel. *)
  Lemma empty_step : forall x l x', step x l = Some x' -> isHandle l = false -> kNotify (xKx x) = None -> kNotify (xKx x') = None.
  Proof.
    intros x l x' E Hl Hn. unfold kstep in E. destruct (xPanic x); [discriminate|].
    assert (Sd : forall y a, kNotify (xKx y) = None -> kNotify (xKx (sendMsg c y a)) = None).
    { intros y a Hy. unfold sendMsg. destruct (publicKeyMessage _ _ _); exact Hy. }
    destruct l; try discriminate.
    - destruct (xLoop x); try discriminate. destruct (kCtxDone _); [discriminate|]. destruct (_ <? _); injection E as <-; auto.
    - destruct (xLoop x); try discriminate. destruct (inProgress _); injection E as <-; exact Hn.
    - destruct (xLoop x); try discriminate. unfold installLocalKey in E. destruct (updateSecrets _ _ _ _ _) as [k|] eqn:Eu; injection E as <-; [|exact Hn].
      cbn. destruct (update_rest _ _ Eu) as (H & _). rewrite H. exact Hn.
    - destruct (xLoop x); try discriminate. injection E as <-. cbn. apply Sd. exact Hn.
    - destruct (xLoop x); try discriminate. rewrite Hn in E. injection E as <-. apply Sd. exact Hn.
    - destruct (xLoop x); try discriminate. rewrite Hn in E. discriminate.
    - destruct (xLoop x); try discriminate. rewrite Hn in E. injection E as <-. reflexivity.
    - destruct (nth_error (xAnswers x) i) as [[]|]; try discriminate; injection E as <-; cbn; try exact Hn. apply Sd. exact Hn.
    - destruct (nth_error (xAnswers x) i) as [[]|]; try discriminate. unfold installLocalKey in E.
      destruct (updateSecrets _ _ _ _ _) as [k|] eqn:Eu; injection E as <-; [|exact Hn]. cbn. destruct (update_rest _ _ Eu) as (H & _). rewrite H. exact Hn.
    - injection E as <-. exact Hn.
  Qed.
  Lemma empty_run : forall ls x x', exec step x ls = Some x' -> forallb (fun l => negb (isHandle l)) ls = true -> kNotify (xKx x) = None -> kNotify (xKx x') = None.
  Proof.
    induction ls as [|l ls IH]; intros x x' E H Hn; cbn [exec] in E; [injection E as <-; exact Hn|].
    cbn [forallb] in H. apply andb_prop in H. destruct H as [Hl H]. destruct (step x l) as [x1|] eqn:E1; [|discriminate].
    eapply IH; [exact E|exact H|]. eapply empty_step; [exact E1|destruct (isHandle l); [discriminate|reflexivity]|exact Hn].
  Qed.
End Heard.

(** ** What does not hold *)
(** The first key (stamp 90) was made for an answer and is confirmed just after
    the loop has emptied the channel; the loop then makes a second key. The answer
    to it comes before the loop looks at the channel, where there is no place for
    a second notification. The loop finds the notification about the first key,
    sends once more, and as no further answer comes, the session is closed. *)
Definition staleRun : list klabel :=
  [KHandle (toyWire 2 (toyMsg 2 7 11 1 false)); KAnswer 0 90; KAnswer 0 90; KAnswerGen 0 (key32 4) (toyPub (key32 4)) 90;
   KAnswer 0 90; KAnswer 0 90; KLoopGo 200; KHandle (toyWire 2 (toyMsg 2 7 11 1 true)); KLoopCheck;
   KLoopGen (key32 3) (toyPub (key32 3)) 200; KLoopSend].
Theorem C171_unheard_refuted : exists x x1 x2,
  exec toyStep (kxsInit (Some (key32 2))) staleRun = Some x /\
  reachable (fun s => s = kxsInit (Some (key32 2))) (lstep toyStep) x /\
  xLog x = [200; 90] /\ xLoop x = LpWait 200 /\ kNextAt (xKx x) = 200 /\
  exec toyStep x [KHandle (toyWire 2 (toyMsg 2 7 12 1 true))] = Some x1 /\
  kDone (xKx x1) = kDone (xKx x) + 1 /\ kLocalAt (xKx x1) = 200 /\
  exec toyStep x1 [KLoopNotified; KLoopRetry; KLoopTimeout] = Some x2 /\
  kErrs (xKx x2) = [KxTimeout] /\ kCtxDone (xKx x2) = true /\
  ~ isHeard toyVerify toyDh toyHash toyHash (toyConf None 1) x.
Proof.
  eexists. eexists. eexists. split; [vm_compute; reflexivity|]. split.
  { eapply exec_reachable with (ls := staleRun); [reflexivity|]. vm_compute. reflexivity. }
  split; [vm_compute; reflexivity|]. split; [vm_compute; reflexivity|]. split; [vm_compute; reflexivity|].
  split; [vm_compute; reflexivity|]. split; [vm_compute; reflexivity|]. split; [vm_compute; reflexivity|].
  split; [vm_compute; reflexivity|]. split; [vm_compute; reflexivity|]. split; [vm_compute; reflexivity|].
  intros H. specialize (H 200 (toyWire 2 (toyMsg 2 7 12 1 true)) _ [] _ KLoopTimeout _ eq_refl ltac:(vm_compute; discriminate)
    ltac:(vm_compute; reflexivity) ltac:(vm_compute; reflexivity) ltac:(reflexivity) eq_refl eq_refl ltac:(vm_compute; reflexivity)).
  destruct H as (_ & H & _). vm_compute in H. discriminate.
Qed.
Print Assumptions C171_unheard_refuted.

(** Exchanges with no message between the beginning and the wait: the answer is
    heard. *)
Theorem C171_heard_partial : forall verify dh blake3 sha3 c x0 now x ls x',
  kstep verify dh blake3 sha3 c x0 (KLoopGo now) = Some x -> xLoop x = LpGo ->
  exec (kstep verify dh blake3 sha3 c) x ls = Some x' -> forallb (fun l => negb (isHandle l)) ls = true ->
  isHeard verify dh blake3 sha3 c x'.
Proof.
  intros verify dh blake3 sha3 c x0 now x ls x' E Hg R Hls. apply heard_empty. eapply empty_run; [exact R|exact Hls|].
  unfold kstep in E. destruct (xPanic x0); [discriminate|]. destruct (xLoop x0) eqn:El; try discriminate.
  destruct (kCtxDone _); [discriminate|]. destruct (_ <? _); injection E as <-; [congruence|reflexivity].
Qed.
Print Assumptions C171_heard_partial.

(** In any case: once the loop has looked at the channel, the next answer is
    heard. *)
Theorem C171_second_answer_partial : forall verify dh blake3 sha3 c x0 x,
  kstep verify dh blake3 sha3 c x0 KLoopNotified = Some x \/ kstep verify dh blake3 sha3 c x0 KLoopRetry = Some x ->
  isHeard verify dh blake3 sha3 c x.
Proof.
  intros verify dh blake3 sha3 c x0 x E. apply heard_empty. unfold kstep in E. destruct (xPanic x0); [destruct E; discriminate|].
  assert (Sd : forall y a, kNotify (xKx y) = None -> kNotify (xKx (sendMsg c y a)) = None).
  { intros y a Hy. unfold sendMsg. destruct (publicKeyMessage _ _ _); exact Hy. }
  destruct E as [E|E]; destruct (xLoop x0); try discriminate; destruct (kNotify (xKx x0)) eqn:En; try discriminate; injection E as <-.
  - destruct (_ <=? _); reflexivity.
  - destruct (_ <=? _); [reflexivity|]. apply Sd. reflexivity.
  - apply Sd. exact En.
Qed.
Print Assumptions C171_second_answer_partial.

(** The run of the refutation, with one more answer after the retry. *)
Example C171_example : exists x,
  exec toyStep (kxsInit (Some (key32 2)))
    (staleRun ++ [KHandle (toyWire 2 (toyMsg 2 7 12 1 true)); KLoopNotified; KLoopRetry;
                  KHandle (toyWire 2 (toyMsg 2 7 12 1 true)); KLoopTimeout]) = Some x /\
  kErrs (xKx x) = [] /\ kCtxDone (xKx x) = false /\ xLoop x = LpIdle /\ kDone (xKx x) = 3 /\ length (xSent x) = 3%nat.
Proof. eexists. split; [vm_compute; reflexivity|]. repeat split; vm_compute; reflexivity. Qed.
