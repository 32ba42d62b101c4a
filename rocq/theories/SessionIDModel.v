(** Session IDs: session.go 355-377, 392-396. *)
From Coq Require Import NArith List.
From Verif Require Import Base.
Import ListNotations.
Local Open Scope N_scope.

(** session.go 361-374: the readings of the clock (nanoseconds) while the lock is
    held; the time stamp and the readings not used. [None]: still in the loop
    after all of them. The random half (375)
    is in SidRaceModel. *)
Fixpoint sidGet (prev : N) (readings : list N) : option (N * list N) :=
  match readings with
  | [] => None
  | t :: rest =>
      let at_ := u64 t in
      if negb (at_ =? prev) then Some (if at_ <=? prev then u64 (prev + 1) else at_, rest)
      else sidGet prev rest
  end.

(** [n] calls one after another (the lock makes them so): the stamps, newest
    first. [None]: one of them is still in the loop. *)
Fixpoint sidCalls (n : nat) (prev : N) (readings : list N) (acc : list N) : option (list N) :=
  match n with
  | O => Some acc
  | S n =>
      match sidGet prev readings with
      | None => None
      | Some (at_, rest) => sidCalls n at_ rest (at_ :: acc)
      end
  end.
