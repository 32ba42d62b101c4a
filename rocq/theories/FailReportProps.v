(** Property C159: what the reader reports and counts. *)
From Coq Require Import NArith List Bool Lia Arith.
From Verif Require Import Base BaseLemmas MessageModel PendingChainModel ReaderModel ReaderLoopModel ReaderSpec ReaderProofs ReaderRun ReaderProps.
Import ListNotations.
Local Open Scope N_scope.

Lemma loop_app : forall n eo a b r,
  readerLoop n eo r (a ++ b) =
  match readerLoop n eo r a with RRunning r' => readerLoop n eo r' b | x => x end.
Proof.
  intros n eo. induction a as [|p a IH]; intros b r; cbn [app].
  - cbn [readerLoop]. destruct b; cbn [readerLoop]; destruct (isDoneState (sessState (rS r))) eqn:E;
      cbn [readerLoopCleanup]; rewrite ?E; reflexivity.
  - rewrite (readerLoop_cons n eo r p a), (readerLoop_cons n eo r p (a ++ b)).
    destruct (isDoneState (sessState (rS r))); [reflexivity|].
    destruct p as [i h| |e| |l content].
    + destruct (readerLoopReadError r i h) as [r' []]; [apply IH|reflexivity].
    + apply IH.
    + destruct (readerLoopDecryptError n eo r e) as [r' []]; [apply IH|reflexivity].
    + apply IH.
    + destruct (processIncomingMessages (rS r) l content); [apply IH|reflexivity|reflexivity].
Qed.

(** The reader that has consumed [input] and goes on reports the next
    undecryptable packet iff, with it, at least [k] packets could not be
    decrypted since the last accepted one; whether or not it ends the session. *)
Theorem C159_reported_from_k : forall n k s input r1 e, 0 < n ->
  isDoneState (sessState s) = false -> detachOnMessagesCount s = 0 ->
  Forall benign input -> N.of_nat (S (length input)) < 2^64 ->
  readerLoop n (Some k) (freshRdr s) input = RRunning r1 ->
  exists r2, (readerLoop n (Some k) (freshRdr s) (input ++ [PktUndecryptable e]) = RRunning r2 \/
              readerLoop n (Some k) (freshRdr s) (input ++ [PktUndecryptable e]) = RFinished r2) /\
    out (rS r2) = (if k <=? N.of_nat (badSince (map verdictOf (input ++ [PktUndecryptable e]))) then [EvError e] else [])
                  ++ out (rS r1).
Proof.
  intros n k s input r1 e Hn Hst Hd Hb Hlen H1.
  pose proof (C27_detach_exactly n (Some k) s input Hn Hst Hd Hb) as C. rewrite H1 in C.
  destruct C as (_ & Hf & Hs); [lia|].
  rewrite loop_app, H1. rewrite readerLoop_cons. rewrite Hs, Hst. unfold readerLoopDecryptError. cbn zeta.
  assert (L : (badSince (map verdictOf input) <= length input)%nat).
  { unfold badSince.
    assert (F : forall l : list verdict, (length (filter isBad (untilGood l)) <= length l)%nat).
    { induction l as [|v l IH]; [cbn; lia|]. destruct v; cbn; lia. }
    specialize (F (rev (map verdictOf input))). rewrite rev_length, map_length in F. exact F. }
  assert (A : add64 (rFails r1) 1 = N.of_nat (badSince (map verdictOf (input ++ [PktUndecryptable e])))).
  { rewrite Hf. unfold add64. rewrite N.mod_small by lia.
    unfold badSince at 2. rewrite map_app, rev_app_distr. cbn [map rev app verdictOf untilGood filter isBad length].
    unfold badSince. lia. }
  rewrite A. destruct (n <=? _).
  - cbn [negb readerLoopCleanup rS]. eexists. split; [right; reflexivity|]. cbn [rS setSessState out].
    destruct (k <=? _); reflexivity.
  - cbn [negb readerLoop rS].
    replace (isDoneState (sessState (if k <=? _ then emit (rS r1) (EvError e) else rS r1))) with false
      by (destruct (k <=? _); cbn [emit sessState]; rewrite Hs, Hst; reflexivity).
    eexists. split; [left; reflexivity|]. cbn [rS]. destruct (k <=? _); reflexivity.
Qed.
Print Assumptions C159_reported_from_k.

(** Nothing is reported if reporting is switched off (option value 0). *)
Theorem C159_switched_off : forall n s input r1 e,
  readerLoop n None (freshRdr s) input = RRunning r1 ->
  exists r2, (readerLoop n None (freshRdr s) (input ++ [PktUndecryptable e]) = RRunning r2 \/
              readerLoop n None (freshRdr s) (input ++ [PktUndecryptable e]) = RFinished r2) /\
    out (rS r2) = out (rS r1).
Proof.
  intros n s input r1 e H1. rewrite loop_app, H1. rewrite readerLoop_cons.
  destruct (isDoneState (sessState (rS r1))) eqn:E.
  - cbn [readerLoopCleanup]. eexists. split; [right; reflexivity|]. reflexivity.
  - unfold readerLoopDecryptError. cbn zeta. destruct (negb _).
    + cbn [readerLoop rS]. rewrite E. eexists. split; [left; reflexivity|reflexivity].
    + cbn [readerLoopCleanup]. eexists. split; [right; reflexivity|]. reflexivity.
Qed.
Print Assumptions C159_switched_off.

(** [GetUnexpectedPacketIDCount]: the packets dropped by the duplicate check, no
    others; whatever else arrives. *)
Definition isDuplicate (p : packet) : bool := match p with PktDuplicate => true | _ => false end.
Definition duplicates (input : list packet) : N := N.of_nat (length (filter isDuplicate input)).

Lemma duplicates_cons : forall p input, duplicates (p :: input) = (if isDuplicate p then 1 else 0) + duplicates input.
Proof. intros p input. unfold duplicates. cbn [filter]. destruct (isDuplicate p); cbn [length]; lia. Qed.

Lemma counted : forall n eo input r, rUnexpected r < 2^64 ->
  match readerLoop n eo r input with
  | RRunning r' => rUnexpected r' = (rUnexpected r + duplicates input) mod 2^64
  | RFinished r' => exists pre post, input = pre ++ post /\ rUnexpected r' = (rUnexpected r + duplicates pre) mod 2^64
  | _ => True
  end.
Proof.
  intros n eo. induction input as [|p input IH]; intros r Hr.
  - cbn [readerLoop]. destruct (isDoneState _).
    + cbn [readerLoopCleanup]. exists [], []. split; [reflexivity|]. cbn. rewrite N.add_0_r, N.mod_small; auto.
    + cbn. rewrite N.add_0_r, N.mod_small; auto.
  - rewrite readerLoop_cons. destruct (isDoneState (sessState (rS r))).
    { cbn [readerLoopCleanup]. exists [], (p :: input). split; [reflexivity|]. cbn [rUnexpected]. change (duplicates []) with 0.
      rewrite N.add_0_r, N.mod_small; auto. }
    assert (G : forall r1, rUnexpected r1 = (rUnexpected r + (if isDuplicate p then 1 else 0)) mod 2^64 ->
      match readerLoop n eo r1 input with
      | RRunning r' => rUnexpected r' = (rUnexpected r + duplicates (p :: input)) mod 2^64
      | RFinished r' => exists pre post, p :: input = pre ++ post /\ rUnexpected r' = (rUnexpected r + duplicates pre) mod 2^64
      | _ => True
      end).
    { intros r1 E1. assert (B : rUnexpected r1 < 2^64) by (rewrite E1; apply N.mod_lt; discriminate).
      specialize (IH r1 B). destruct (readerLoop n eo r1 input) as [r'|r'| |]; auto.
      - rewrite IH, E1, duplicates_cons, N.add_mod_idemp_l by discriminate. f_equal. lia.
      - destruct IH as (pre & post & -> & E2). exists (p :: pre), post. split; [reflexivity|].
        rewrite E2, E1, duplicates_cons, N.add_mod_idemp_l by discriminate. f_equal. lia. }
    assert (Z : forall r', rUnexpected r' = rUnexpected r -> isDuplicate p = false ->
      exists pre post, p :: input = pre ++ post /\ rUnexpected r' = (rUnexpected r + duplicates pre) mod 2^64).
    { intros r' E1 E2. exists [p], input. split; [reflexivity|]. rewrite duplicates_cons, E2. change (duplicates []) with 0.
      rewrite !N.add_0_r, N.mod_small; auto. }
    assert (Y : forall x, (x + 0) mod 2^64 = x mod 2^64) by (intros; rewrite N.add_0_r; reflexivity).
    destruct p as [i h| |e| |l content]; cbn [isDuplicate] in G; rewrite ?Y in G.
    + unfold readerLoopReadError. destruct (isDoneState _); [cbn [readerLoopCleanup]; apply Z; reflexivity|].
      destruct i; apply G; cbn [rUnexpected]; rewrite N.mod_small; auto.
    + apply G. rewrite N.mod_small; auto.
    + unfold readerLoopDecryptError. cbn zeta. destruct (negb _).
      * apply G. cbn [rUnexpected]. rewrite N.mod_small; auto.
      * cbn [readerLoopCleanup]. apply Z; reflexivity.
    + apply G. reflexivity.
    + destruct (processIncomingMessages _ _ _); auto. apply G. cbn [rUnexpected]. rewrite N.mod_small; auto.
Qed.

Theorem C159_unexpected_exact : forall n eo s input r, readerLoop n eo (freshRdr s) input = RRunning r ->
  rUnexpected r = duplicates input mod 2^64.
Proof.
  intros n eo s input r H. pose proof (counted n eo input (freshRdr s) eq_refl) as C. rewrite H in C. exact C.
Qed.
Print Assumptions C159_unexpected_exact.

(** Limit 2: the first failure of each run is silent, the second one is
    reported, the limit 3 for ending the session is reached with the last
    packet, which is reported too; a duplicate does not end a run of failures. *)
Example C159_example :
  let s := freshRcv 8 65536 0 [(7, true)] [] in
  let bad := PktUndecryptable ErrCannotDecrypt in
  let good := PktAccepted 10 (encodeMsg 7 1 [5]) in
  match readerLoop 3 (Some 2) (freshRdr s) [bad; PktDuplicate; bad; good; bad; RdEmpty; PktDuplicate] with
  | RRunning r => rev (out (rS r)) = [EvError ErrCannotDecrypt; EvHandler 7 [5]] /\ rUnexpected r = 2
  | _ => False
  end /\
  match readerLoop 3 (Some 2) (freshRdr s) [bad; bad; good; bad; bad; bad; PktDuplicate] with
  | RFinished r => rev (out (rS r)) = [EvError ErrCannotDecrypt; EvHandler 7 [5]; EvError ErrCannotDecrypt; EvError ErrCannotDecrypt] /\
      rUnexpected r = 0
  | _ => False
  end.
Proof. vm_compute. auto. Qed.

(** ** C160.  Full statement: when undecryptable packets end the session, the
    error handler has been told. False with the default options (report from
    the third failure on, end of the session at "0"): the first packet that
    cannot be decrypted ends it and nothing is reported. *)
Theorem C160_silent_end_refuted : forall n k s e rest, n <= 1 -> 1 < k ->
  isDoneState (sessState s) = false ->
  exists r, readerLoop n (Some k) (freshRdr s) (PktUndecryptable e :: rest) = RFinished r /\
    sessState (rS r) = SessionStateClosed /\ out (rS r) = out s.
Proof.
  intros n k s e rest Hn Hk H. rewrite readerLoop_cons. cbn [freshRdr rS]. rewrite H. unfold readerLoopDecryptError. cbn zeta.
  change (add64 (rFails (freshRdr s)) 1) with 1.
  replace (n <=? 1) with true by (symmetry; apply N.leb_le; lia).
  replace (k <=? 1) with false by (symmetry; apply N.leb_gt; lia).
  cbn [negb readerLoopCleanup]. eexists. split; [reflexivity|]. split; reflexivity.
Qed.
Print Assumptions C160_silent_end_refuted.

(** What holds: with a limit [n] that is not below the number [k] to report from,
    the last packet of the session was reported. *)
Theorem C160_reported_end_partial : forall n k s input r, 0 < n -> k <= n ->
  isDoneState (sessState s) = false -> detachOnMessagesCount s = 0 ->
  Forall benign input -> N.of_nat (S (length input)) < 2^64 ->
  readerLoop n (Some k) (freshRdr s) input = RFinished r ->
  exists pre e post before, input = pre ++ PktUndecryptable e :: post /\ out (rS r) = EvError e :: before.
Proof.
  intros n k s input r Hn Hk Hst Hd Hb Hlen H.
  pose proof (C27_detach_exactly n (Some k) s input Hn Hst Hd Hb) as C. rewrite H in C.
  destruct C as (_ & pre & e & post & Ei & En & Hp & Hall); [lia|].
  exists pre, e, post.
  assert (Hb1 : Forall benign pre) by (rewrite Ei in Hb; apply Forall_app in Hb; tauto).
  assert (Hl1 : (length pre < length input)%nat) by (rewrite Ei, app_length; cbn [length]; lia).
  specialize (Hall []). rewrite loop_app in Hall.
  destruct (readerLoop n (Some k) (freshRdr s) pre) as [r1|r1| |] eqn:E1; try discriminate.
  - destruct (C159_reported_from_k n k s pre r1 e Hn Hst Hd Hb1) as (r2 & F & O); [lia|exact E1|].
    rewrite loop_app, E1, Hall in F. destruct F as [F|F]; [discriminate|]. injection F as <-.
    exists (out (rS r1)). split; [exact Ei|]. rewrite O, En. replace (k <=? n) with true by (symmetry; apply N.leb_le; exact Hk). reflexivity.
  - pose proof (C27_detach_exactly n (Some k) s pre Hn Hst Hd Hb1) as C. rewrite E1 in C.
    destruct C as (_ & pre0 & e0 & post0 & Ei0 & En0 & _ & _); [lia|].
    specialize (Hp (pre0 ++ [PktUndecryptable e0]) post0). rewrite <- app_assoc in Hp. specialize (Hp Ei0). lia.
Qed.
Print Assumptions C160_reported_end_partial.

(** Default options: closed by one packet, nothing reported. Limits 2 and 2: reported. *)
Example C160_example :
  let s := freshRcv 8 65536 0 [(7, true)] [] in
  let bad := PktUndecryptable ErrCannotDecrypt in
  match readerLoop 0 (Some 3) (freshRdr s) [bad; bad; bad] with
  | RFinished r => out (rS r) = [] /\ sessState (rS r) = SessionStateClosed
  | _ => False
  end /\
  match readerLoop 2 (Some 2) (freshRdr s) [bad; bad; bad] with
  | RFinished r => out (rS r) = [EvError ErrCannotDecrypt]
  | _ => False
  end.
Proof. vm_compute. auto. Qed.
