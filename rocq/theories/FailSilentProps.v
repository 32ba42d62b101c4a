(** C160 completed (every limit below the number to report from ends the session
    silently) and C104 completed (which calls of [Read] keep the contract). *)
From Coq Require Import NArith ZArith List Bool Lia.
From Verif Require Import Base TS QueueModel QueueProps ApiModel ApiProps MessageModel PendingChainModel ReaderModel ReaderLoopModel ReaderRun.
Import ListNotations.
Local Open Scope N_scope.

Lemma silent_run : forall n k e, n < k -> k < 2^64 -> forall m r,
  isDoneState (sessState (rS r)) = false -> rFails r + N.of_nat (S m) = n ->
  exists r', readerLoop n (Some k) r (repeat (PktUndecryptable e) (S m)) = RFinished r' /\
    sessState (rS r') = SessionStateClosed /\ out (rS r') = out (rS r).
Proof.
  intros n k e Hn Hk. induction m as [|m IH]; intros r H E; cbn [repeat]; rewrite readerLoop_cons, H;
    unfold readerLoopDecryptError; cbv zeta; unfold add64; rewrite N.mod_small by lia.
  - replace (k <=? rFails r + 1) with false by (symmetry; apply N.leb_gt; lia).
    replace (n <=? rFails r + 1) with true by (symmetry; apply N.leb_le; lia).
    cbn [negb readerLoopCleanup]. eexists. repeat split.
  - replace (k <=? rFails r + 1) with false by (symmetry; apply N.leb_gt; lia).
    replace (n <=? rFails r + 1) with false by (symmetry; apply N.leb_gt; lia).
    cbn [negb]. apply (IH {| rS := rS r; rFails := rFails r + 1; rUnexpected := rUnexpected r |}); cbn [rS rFails]; [exact H|lia].
Qed.

(** Together with [C160_reported_end_partial] (limit not below the number): the
    session may be ended silently exactly for the limits below it, by as many
    packets as the limit says. *)
Theorem C160_silent_below_refuted : forall n k s e, 0 < n -> n < k -> k < 2^64 ->
  isDoneState (sessState s) = false ->
  exists r, readerLoop n (Some k) (freshRdr s) (repeat (PktUndecryptable e) (N.to_nat n)) = RFinished r /\
    sessState (rS r) = SessionStateClosed /\ out (rS r) = out s.
Proof.
  intros n k s e H0 Hn Hk H. destruct (N.to_nat n) as [|m] eqn:E; [lia|].
  apply (silent_run n k e Hn Hk m (freshRdr s)); [exact H|]. cbn [freshRdr rFails]. lia.
Qed.
Print Assumptions C160_silent_below_refuted.

Example C160_below_example :
  let s := freshRcv 8 65536 0 [(7, true)] [] in
  let bad := PktUndecryptable ErrCannotDecrypt in
  match readerLoop 2 (Some 3) (freshRdr s) [bad; bad] with
  | RFinished r => out (rS r) = [] /\ sessState (rS r) = SessionStateClosed
  | _ => False
  end.
Proof. vm_compute. auto. Qed.

(** Every [Read] that returns an error violates the contract of io.Reader, and only
    those do; bufio.Reader panics exactly then. *)
Theorem C104_exactly : forall limit capacity q t size r,
  reachableQ limit capacity q -> qReads q t = RRet size r ->
  (reader_contract size (readReturns r) <-> rErr (readReturns r) = false) /\
  (bufioFill (readReturns r) = Panic <-> r = ReadClosed \/ r = ReadTooBig).
Proof.
  intros limit capacity q t size r H Hr. split.
  - split.
    + destruct r; cbn; auto; unfold reader_contract; cbn; lia.
    + intros E. exact (proj1 (C104_success_partial _ _ _ _ _ _ H Hr E)).
  - unfold bufioFill. destruct r as [d| |]; cbn [readReturns rN].
    + replace (Z.of_N (len d) <? 0)%Z with false by (symmetry; apply Z.ltb_ge; lia).
      split; [discriminate|]. intros [E|E]; discriminate.
    + split; auto.
    + split; auto.
Qed.
Print Assumptions C104_exactly.
