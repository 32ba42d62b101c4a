(** Independent vocabulary for fragmentation: how a message is cut, and what a
    receiver ought to report for a sequence of arrivals. *)
From Coq Require Import NArith List Bool Lia.
Import ListNotations.
Open Scope N_scope.

(** A fragment on the wire: start position and content. *)
Notation frag := (N * list N)%type (only parsing).

(** Cutting a message into consecutive pieces, the first starting at [off]. *)
Fixpoint tiles (off : N) (pieces : list (list N)) : list frag :=
  match pieces with
  | [] => []
  | p :: r => (off, p) :: tiles (off + N.of_nat (length p)) r
  end.

(** What the receiver of a message should do on each arrival. *)
Inductive report := Delivered (m : list N) | Waiting | Duplicate.

(** Was the fragment starting at [s] among [seen]? *)
Definition arrived (seen : list frag) (s : N) : bool := existsb (fun f => fst f =? s) seen.
(** Have all of [all] arrived? *)
Definition complete (all seen : list frag) : bool :=
  forallb (fun f => arrived seen (fst f)) all.

(** The ideal reassembly of message [m] cut into [all]: silent until the last
    missing fragment arrives, then the message, then nothing but duplicates. *)
Fixpoint ideal (m : list N) (all seen arr : list frag) : list report :=
  match arr with
  | [] => []
  | x :: r =>
      (if complete all seen then Duplicate
       else if complete all (x :: seen) then Delivered m else Waiting)
      :: ideal m all (x :: seen) r
  end.

(** All pieces non-empty; all but the last at least [k] bytes long. *)
Definition nonempty_pieces (pieces : list (list N)) : Prop :=
  Forall (fun p => p <> []) pieces.
Definition pieces_at_least (k : nat) (pieces : list (list N)) : Prop :=
  Forall (fun p => (k <= length p)%nat) (removelast pieces).
