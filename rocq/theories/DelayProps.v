(** C150: how long an accepted message waits before it is sent. *)
From Coq Require Import NArith List Lia.
From Verif Require Import Base MessageModel DelayModel.
Import ListNotations.
Local Open Scope N_scope.

Local Ltac sizes := change messageHeadersSize with 9 in *; change messagesContainerHeadersSize with 44 in *.

(** Times, oldest first; none is more than [d] after the one before. *)
Inductive closeTogether (d : N) : list N -> Prop :=
| ct_one : forall a, closeTogether d [a]
| ct_more : forall a b r, a <= b -> b <= a + d -> closeTogether d (b :: r) -> closeTogether d (a :: b :: r).

(** The packet of these messages left in time: at most [d] after its last one. *)
Definition inTime (d : N) (p : list N * N) : Prop :=
  closeTogether d (fst p) /\ last (fst p) 0 <= snd p <= last (fst p) 0 + d.

Lemma closeTogether_snoc : forall d l a, closeTogether d l -> last l 0 <= a <= last l 0 + d -> closeTogether d (l ++ [a]).
Proof.
  intros d l a H. induction H; intros L.
  - cbn in *. constructor; try lia. constructor.
  - change ((a0 :: b :: r) ++ [a]) with (a0 :: b :: (r ++ [a])). constructor; auto.
Qed.

Lemma last_snoc : forall (l : list N) a, last (l ++ [a]) 0 = a.
Proof. intros. apply last_last. Qed.

Lemma closeTogether_span : forall d l, closeTogether d l -> last l 0 + d <= hd 0 l + len l * d.
Proof.
  intros d l H. induction H.
  - change (len [a]) with 1. cbn [hd last]. lia.
  - change (last (a :: b :: r) 0) with (last (b :: r) 0).
    replace (len (a :: b :: r)) with (len (b :: r) + 1) by (unfold len; cbn [length]; lia).
    rewrite N.mul_add_distr_r. cbn [hd] in *. lia.
Qed.

Definition delayInv (delay maxPacket : N) (s : delayed) : Prop :=
  Forall (inTime delay) (dSent s)
  /\ Forall (fun p => messagesContainerHeadersSize + messageHeadersSize * len (fst p) <= maxPacket) (dSent s)
  /\ (dBuf s <> [] ->
      closeTogether delay (map fst (dBuf s)) /\ last (map fst (dBuf s)) 0 <= dNow s <= last (map fst (dBuf s)) 0 + delay
      /\ dDeadline s = Some (last (map fst (dBuf s)) 0 + delay) /\ dNow s < last (map fst (dBuf s)) 0 + delay
      /\ messageHeadersSize * len (dBuf s) <= sizeOf (dBuf s) /\ messagesContainerHeadersSize + sizeOf (dBuf s) <= maxPacket).

(** Sizes are those of encoded messages. *)
Definition eventOk (e : delayEvent) : Prop := match e with EAppend n => messageHeadersSize <= n | ETick => True end.

Lemma sizeOf_app : forall a b, sizeOf (a ++ b) = sizeOf a + sizeOf b.
Proof. intros. unfold sizeOf. rewrite map_app. induction a; cbn in *; [reflexivity|]. rewrite IHa. lia. Qed.

Lemma flush_inv : forall delay maxPacket s, delayInv delay maxPacket s ->
  Forall (inTime delay) (dSent (flushNow s))
  /\ Forall (fun p => messagesContainerHeadersSize + messageHeadersSize * len (fst p) <= maxPacket) (dSent (flushNow s)).
Proof.
  intros delay mp s (S1 & S2 & B). unfold flushNow. cbn [dNow dBuf dDeadline dSent]. destruct (dBuf s) as [|e b] eqn:E; [auto|].
  destruct B as (B1 & B2 & _ & _ & B3 & B4); [discriminate|].
  split; apply Forall_app; (split; [assumption|]); constructor; auto.
  - split; assumption.
  - cbn [fst]. unfold len in *. rewrite map_length. sizes. lia.
Qed.

Lemma append_inv : forall delay maxPacket s size, 0 < delay -> messageHeadersSize <= size ->
  Forall (inTime delay) (dSent s) -> Forall (fun p => messagesContainerHeadersSize + messageHeadersSize * len (fst p) <= maxPacket) (dSent s) ->
  (dBuf s <> [] -> closeTogether delay (map fst (dBuf s)) /\ last (map fst (dBuf s)) 0 <= dNow s <= last (map fst (dBuf s)) 0 + delay
     /\ messageHeadersSize * len (dBuf s) <= sizeOf (dBuf s)) ->
  messagesContainerHeadersSize + sizeOf (dBuf s) + size <= maxPacket ->
  delayInv delay maxPacket (appendNow delay s size).
Proof.
  intros delay mp s size D Z S1 S2 B M. sizes. unfold delayInv, appendNow. sizes. cbn [dNow dBuf dDeadline dSent]. split; [exact S1|]. split; [exact S2|]. intros _.
  rewrite map_app. cbn [map fst]. rewrite last_snoc, sizeOf_app.
  replace (sizeOf [(dNow s, size)]) with size by (unfold sizeOf; cbn [map fold_right snd]; lia).
  replace (len (dBuf s ++ [(dNow s, size)])) with (len (dBuf s) + 1) by (unfold len; rewrite app_length; cbn [length]; lia).
  destruct (dBuf s) as [|e b] eqn:E.
  - change (sizeOf []) with 0 in *. change (len (@nil (N * N))) with 0. cbn [map app]. repeat split; try lia. constructor.
  - destruct B as (B1 & B2 & B3); [discriminate|].
    repeat split; try lia. apply closeTogether_snoc; assumption.
Qed.

Lemma step_inv : forall delay maxPacket s e, 0 < delay -> eventOk e -> delayInv delay maxPacket s -> delayInv delay maxPacket (delayStep delay maxPacket s e).
Proof.
  intros delay mp s e D O I. destruct e as [size|]; cbn [delayStep].
  - destruct (flush_inv _ _ _ I) as [F1 F2]. destruct I as (S1 & S2 & B).
    destruct (N.ltb_spec mp (messagesContainerHeadersSize + sizeOf (dBuf s) + size)) as [L|L].
    + destruct (N.ltb_spec mp (messagesContainerHeadersSize + size)) as [L'|L'].
      * split; [exact F1|]. split; [exact F2|]. cbn. congruence.
      * apply append_inv; auto. cbn. congruence.
    + apply append_inv; auto. intros N. destruct (B N) as (B1 & B2 & _ & _ & B3 & _). auto.
  - set (s1 := {| dNow := dNow s + 1; dBuf := dBuf s; dDeadline := dDeadline s; dSent := dSent s |}).
    cbn zeta. change (dDeadline s1) with (dDeadline s).
    assert (F : dBuf s <> [] -> dDeadline s = Some (last (map fst (dBuf s)) 0 + delay)) by (intros N; apply I; exact N).
    destruct (dDeadline s) as [d|] eqn:Ed.
    + destruct (N.leb_spec d (dNow s + 1)) as [L|L].
      * assert (J : Forall (inTime delay) (dSent (flushNow s1)) /\ Forall (fun p => messagesContainerHeadersSize + messageHeadersSize * len (fst p) <= mp) (dSent (flushNow s1))).
        { destruct I as (S1 & S2 & B). unfold flushNow, s1. cbn [dNow dBuf dDeadline dSent]. destruct (dBuf s) as [|x b] eqn:E; [auto|].
          destruct B as (B1 & B2 & _ & B5 & B3 & B4); [discriminate|].
          split; apply Forall_app; (split; [assumption|]); constructor; auto.
          - split; [assumption|]. cbn [fst snd]. lia.
          - cbn [fst]. unfold len in *. rewrite map_length. sizes. lia. }
        split; [apply J|]. split; [apply J|]. cbn. congruence.
      * destruct I as (S1 & S2 & B). split; [exact S1|]. split; [exact S2|]. intros N. cbn in *.
        destruct (B N) as (B1 & B2 & B6 & B5 & B3 & B4). injection (F N) as ->. repeat split; auto; lia.
    + destruct I as (S1 & S2 & B). split; [exact S1|]. split; [exact S2|]. intros N. exfalso. discriminate (F N).
Qed.

Lemma run_inv : forall delay maxPacket es s, 0 < delay -> Forall eventOk es -> delayInv delay maxPacket s -> delayInv delay maxPacket (delayRun delay maxPacket s es).
Proof.
  induction es as [|e es IH]; intros s D O I; [exact I|]. inversion_clear O. cbn [delayRun fold_left]. apply IH; auto. apply step_inv; auto.
Qed.

(** A packet leaves at most [SendDelay] after its last message. For the others
    the bound is [SendDelay] times the number of messages that fit into a packet. *)
Theorem C150_bounded_partial : forall delay maxPacket es p, 0 < delay -> Forall eventOk es ->
  In p (dSent (delayRun delay maxPacket delayInit es)) ->
  snd p <= last (fst p) 0 + delay
  /\ snd p <= hd 0 (fst p) + len (fst p) * delay
  /\ messagesContainerHeadersSize + messageHeadersSize * len (fst p) <= maxPacket.
Proof.
  intros delay mp es p D O H.
  assert (I : delayInv delay mp (delayRun delay mp delayInit es)).
  { apply run_inv; auto. split; [constructor|]. split; [constructor|]. cbn. congruence. }
  destruct I as (S1 & S2 & _). rewrite Forall_forall in S1, S2. destruct (S1 p H) as [C L]. specialize (S2 p H).
  pose proof (closeTogether_span _ _ C). repeat split; try lia.
Qed.

(** Without a further message the packet leaves exactly [SendDelay] after it. *)
Lemma ticks : forall delay maxPacket n s d, dDeadline s = Some d -> dNow s + N.of_nat n < d ->
  delayRun delay maxPacket s (repeat ETick n) = {| dNow := dNow s + N.of_nat n; dBuf := dBuf s; dDeadline := Some d; dSent := dSent s |}.
Proof.
  induction n as [|n IH]; intros s d E L.
  - cbn. rewrite N.add_0_r, <- E. destruct s; reflexivity.
  - cbn [repeat delayRun fold_left delayStep]. cbn [dDeadline]. rewrite E.
    destruct (N.leb_spec d (dNow s + 1)) as [L'|L']; [lia|].
    unfold delayRun in IH. rewrite (IH _ d); cbn; auto; [|lia]. f_equal. lia.
Qed.

(** One message every [delay - 1] units, n times, and then none. *)
Fixpoint trickle (delay : N) (size : N) (n : nat) : list delayEvent :=
  match n with
  | O => repeat ETick (N.to_nat delay)
  | S n => EAppend size :: match n with O => repeat ETick (N.to_nat delay) | S _ => repeat ETick (N.to_nat (delay - 1)) ++ trickle delay size n end
  end.

Lemma run_app : forall d m a b s, delayRun d m s (a ++ b) = delayRun d m (delayRun d m s a) b.
Proof. intros. unfold delayRun. apply fold_left_app. Qed.

Lemma trickle_waits : forall delay maxPacket size n s, 2 <= delay -> (n > 0)%nat ->
  messagesContainerHeadersSize + sizeOf (dBuf s) + size * N.of_nat n <= maxPacket ->
  exists later,
    dSent (delayRun delay maxPacket s (trickle delay size n))
    = dSent s ++ [(map fst (dBuf s) ++ later, dNow s + N.of_nat (n - 1) * (delay - 1) + delay)]
    /\ hd 0 later = dNow s /\ length later = n.
Proof.
  intros delay mp size n. induction n as [|n IH]; intros s D P M; [lia|].
  cbn [trickle]. cbn [delayRun fold_left delayStep].
  destruct (N.ltb_spec mp (messagesContainerHeadersSize + sizeOf (dBuf s) + size)) as [L|L]; [lia|].
  destruct n as [|n].
  - set (s1 := appendNow delay s size). replace (N.to_nat delay) with (N.to_nat (delay - 1) + 1)%nat by lia.
    rewrite repeat_app. fold (delayRun delay mp s1 (repeat ETick (N.to_nat (delay - 1)) ++ repeat ETick 1)).
    rewrite run_app. rewrite (ticks delay mp (N.to_nat (delay - 1)) s1 (dNow s + delay)); [|reflexivity|cbn; lia].
    cbn. destruct (N.leb_spec (dNow s + delay) (dNow s + N.of_nat (N.to_nat (delay - 1)) + 1)) as [L'|L']; [|lia].
    cbn. exists [dNow s]. split; [|auto]. destruct (dBuf s ++ [(dNow s, size)]) as [|x y] eqn:E; [destruct (dBuf s); discriminate|].
    rewrite <- E, map_app. cbn. f_equal. f_equal. f_equal. lia.
  - set (s1 := appendNow delay s size).
    fold (delayRun delay mp s1 (repeat ETick (N.to_nat (delay - 1)) ++ trickle delay size (S n))).
    rewrite run_app. rewrite (ticks delay mp (N.to_nat (delay - 1)) s1 (dNow s + delay)); [|reflexivity|cbn; lia].
    match goal with |- context [delayRun delay mp ?x (trickle delay size (S n))] => set (s2 := x) end.
    assert (Z : sizeOf (dBuf s2) = sizeOf (dBuf s) + size) by (unfold s2, s1; cbn [appendNow dBuf]; rewrite sizeOf_app; unfold sizeOf at 2; cbn [map fold_right snd]; lia).
    destruct (IH s2) as (later & E & H & Len); [lia|lia|rewrite Z; lia|].
    exists (dNow s :: later). split; [|split; [reflexivity|cbn; lia]].
    rewrite E. cbn [s2 dSent dBuf dNow s1 appendNow]. rewrite map_app, <- app_assoc. cbn [map fst app].
    f_equal. f_equal. f_equal. lia.
Qed.

(** So messages that keep coming hold the first one back, for as many delays
    as there are messages in the packet. *)
Theorem C150_waits_longer_refuted : forall delay maxPacket size n, 2 <= delay -> messageHeadersSize <= size -> (n > 0)%nat ->
  messagesContainerHeadersSize + size * N.of_nat n <= maxPacket ->
  exists es p, Forall eventOk es /\ In p (dSent (delayRun delay maxPacket delayInit es))
    /\ len (fst p) = N.of_nat n /\ snd p = hd 0 (fst p) + N.of_nat (n - 1) * (delay - 1) + delay.
Proof.
  intros delay mp size n D Z P M. destruct (trickle_waits delay mp size n delayInit D P) as (later & E & H & L).
  { cbn [delayInit dBuf]. change (sizeOf []) with 0. lia. }
  exists (trickle delay size n). eexists. split.
  { clear - Z P. assert (R : forall k, Forall eventOk (repeat ETick k)) by (induction k; constructor; cbn; auto).
    induction n as [|n IH]; [apply R|]. cbn [trickle]. constructor; [exact Z|].
    destruct n; [apply R|]. apply Forall_app. split; [apply R|]. apply IH. lia. }
  rewrite E. cbn [dSent dBuf delayInit map app]. split; [left; reflexivity|]. cbn [fst snd].
  rewrite H. unfold len. rewrite L. cbn [dNow delayInit]. split; [reflexivity|]. lia.
Qed.

(** The default delay of 50 microseconds and payload limit, one-byte messages:
    a third of a second. *)
Example C150_default_refuted :
  exists es p, Forall eventOk es /\ In p (dSent (delayRun 50 65269 delayInit es)) /\ snd p = hd 0 (fst p) + 319579.
Proof.
  destruct (C150_waits_longer_refuted 50 65269 10 (N.to_nat 6522)) as (es & p & A & B & _ & C); [lia|vm_compute; discriminate|lia|rewrite N2Nat.id; vm_compute; discriminate|].
  exists es, p. split; [exact A|]. split; [exact B|]. rewrite C. replace (N.of_nat (N.to_nat 6522 - 1)) with 6521 by lia. lia.
Qed.

Example C150_example :
  dSent (delayRun 5 100 delayInit ([EAppend 10; ETick; ETick; EAppend 20] ++ repeat ETick 9 ++ [EAppend 30; ETick; EAppend 40]))
  = [([0; 2], 7); ([11], 12)].
Proof. vm_compute. reflexivity. Qed.

Print Assumptions C150_bounded_partial.
Print Assumptions C150_waits_longer_refuted.
