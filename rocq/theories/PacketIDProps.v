(** Properties C07-C10: the duplicate/replay check of a session. *)
From Coq Require Import NArith List Bool Lia.
From Verif Require Import Base PacketIDModel PacketIDSpec PacketIDProofs PacketIDRun.
Import ListNotations.
Open Scope N_scope.

(** ** C07.  Full statement:
    [forall n ids, ids64 ids -> exists st vs,
       offer (sessionStorage (Size n)) ids = Ret (st, vs) /\ NoDup (accepted ids vs)].

    It is false of the code, for the default window and for every configured
    window above 64: a forward jump of more than 64 (and less than the window)
    wipes the whole table, see packetid_storage.go 48-56. *)
Theorem C07_replay_refuted : forall n, n = 0 \/ 64 < n ->
  exists ids, ids64 ids /\
  exists st vs, offer (sessionStorage (Size n)) ids = Ret (st, vs) /\ ~ NoDup (accepted ids vs).
Proof.
  intros n Hn. destruct (replay_refuted n Hn) as (st & E).
  exists [1; 66; 1]. split. { repeat constructor. }
  exists st, [true; true; true]. split; [exact E|].
  intro H. inversion H as [|x l Hin _]; subst. apply Hin. simpl. auto.
Qed.
Print Assumptions C07_replay_refuted.

(** It holds for every window option from 1 to 64, all histories. *)
Theorem C07_replay_small_windows_partial : forall n ids, 1 <= n <= 64 -> ids64 ids ->
  exists st vs, offer (sessionStorage (Size n)) ids = Ret (st, vs) /\ NoDup (accepted ids vs).
Proof.
  intros n ids Hn H. apply replay_partial; auto. apply gaps_ok_small.
  pose proof (window_small n Hn). lia.
Qed.
Print Assumptions C07_replay_small_windows_partial.

(** It holds for every window option and all histories in which the newest ID
    never jumps forward by more than 64 and less than the window. Missing for
    the full statement: exactly the histories with such jumps. *)
Theorem C07_replay_partial : forall n ids, ids64 ids -> gaps_ok (window n) 0 ids ->
  exists st vs, offer (sessionStorage (Size n)) ids = Ret (st, vs) /\ NoDup (accepted ids vs).
Proof. exact replay_partial. Qed.
Print Assumptions C07_replay_partial.

Example C07_partial_nonvacuous :
  let ids := [3; 1; 67; 3; 2; 5; 5; 131; 67; 400; 399; 131; 399] in
  ids64 ids /\ gaps_ok (window 0) 0 ids /\
  offer (sessionStorage (Size 0)) ids =
    Ret (Some {| latest := 400; table := [3; 0; 0; 0] |},
         [true; true; true; false; true; true; false; true; false; true; true; false; false]).
Proof.
  split; [repeat constructor|]. split.
  - cbn [gaps_ok window]. vm_compute. intuition discriminate.
  - vm_compute. reflexivity.
Qed.

(** The witness of the refutation for the default options, computed. *)
Example C07_default_witness :
  offer (sessionStorage (Size 0)) [10; 100; 10] =
    Ret (Some {| latest := 100; table := [1; 2^26; 0; 0] |}, [true; true; true]).
Proof. vm_compute. reflexivity. Qed.

(** ** C08.  Grow-only mode. *)
Theorem C08_grow_only : forall ids, ids64 ids ->
  exists st vs, offer (sessionStorage (Size 1)) ids = Ret (st, vs) /\
    increasing_from 0 (accepted ids vs).
Proof. intros ids H. exact (grow_only ids 0 H). Qed.
Print Assumptions C08_grow_only.

Example C08_nonvacuous :
  let ids := [4; 2; 4; 9; 8; 10] in
  exists st vs, offer (sessionStorage (Size 1)) ids = Ret (st, vs) /\ accepted ids vs = [4; 9; 10].
Proof. eexists _, _. split; vm_compute; reflexivity. Qed.

(** ** C09.  No false rejections. *)
Theorem C09_fresh_accepted : forall n ids id st vs, ids64 ids -> id < 2^64 ->
  offer (sessionStorage (Size n)) ids = Ret (st, vs) ->
  ~ In id ids -> id <> 0 ->
  (maxl (accepted ids vs) < id \/ maxl (accepted ids vs) - id < window n) ->
  exists st', checkAndRemember st id = Ret (st', true).
Proof. exact fresh_accepted. Qed.
Print Assumptions C09_fresh_accepted.

Example C09_nonvacuous :
  let ids := [5; 300; 7; 299] in
  exists st vs, offer (sessionStorage (Size 0)) ids = Ret (st, vs) /\
    ~ In 45 ids /\ maxl (accepted ids vs) - 45 < window 0 /\ 300 - 45 = 255.
Proof. eexists _, _. split; [vm_compute; reflexivity|]. vm_compute. intuition discriminate. Qed.

(** ** C10.  Stale packets are rejected, newer ones accepted, and the check
    itself never panics. *)
Theorem C10_stale_rejected : forall n ids id st vs, ids64 ids ->
  offer (sessionStorage (Size n)) ids = Ret (st, vs) ->
  id < maxl (accepted ids vs) -> window n <= maxl (accepted ids vs) - id ->
  checkAndRemember st id = Ret (st, false).
Proof. exact stale_rejected. Qed.
Print Assumptions C10_stale_rejected.

Theorem C10_newer_accepted : forall n ids id st vs, ids64 ids -> id < 2^64 ->
  offer (sessionStorage (Size n)) ids = Ret (st, vs) ->
  maxl (accepted ids vs) < id ->
  exists st', checkAndRemember st id = Ret (st', true).
Proof. exact newer_accepted. Qed.
Print Assumptions C10_newer_accepted.

Theorem C10_no_panic : forall n ids, ids64 ids ->
  exists st vs, offer (sessionStorage (Size n)) ids = Ret (st, vs) /\ length vs = length ids.
Proof. exact offer_total. Qed.
Print Assumptions C10_no_panic.

Example C10_nonvacuous :
  let ids := [5; 261] in
  exists st vs, offer (sessionStorage (Size 200)) ids = Ret (st, vs) /\
    5 < maxl (accepted ids vs) /\ window 200 <= maxl (accepted ids vs) - 5.
Proof. eexists _, _. split; [vm_compute; reflexivity|]. vm_compute. intuition discriminate. Qed.

(** A negative option disables the check, as documented. *)
Theorem C07_disabled : forall ids,
  offer (sessionStorage NegSize) ids = Ret (None, map (fun _ => true) ids).
Proof. exact disabled_accepts_all. Qed.
Print Assumptions C07_disabled.
