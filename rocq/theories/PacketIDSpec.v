(** What "replay protection" means, independent of the bit table. *)
From Coq Require Import NArith List Bool.
From Verif Require Import Base.
Import ListNotations.
Open Scope N_scope.

(** The offered IDs that got verdict [true], in order. *)
Fixpoint accepted (ids : list N) (verdicts : list bool) : list N :=
  match ids, verdicts with
  | i :: ids', true :: vs => i :: accepted ids' vs
  | _ :: ids', false :: vs => accepted ids' vs
  | _, _ => []
  end.

Fixpoint maxl (l : list N) : N :=
  match l with [] => 0 | x :: r => N.max x (maxl r) end.

(** The documented window for option value [n]: 256 for the zero value, none
    for 1 ("PacketID is allowed to grow only"), otherwise rounded up to 64. *)
Definition window (n : N) : N :=
  if n =? 0 then 256 else if n =? 1 then 0 else 64 * ((n + 63) / 64).

(** No arriving ID is ahead of everything before it by more than 64 and less
    than the window. [m] is the largest ID that arrived so far. *)
Fixpoint gaps_ok (w m : N) (ids : list N) : Prop :=
  match ids with
  | [] => True
  | i :: r => (i <= m \/ i - m <= 64 \/ w <= i - m) /\ gaps_ok w (N.max m i) r
  end.

Fixpoint increasing_from (m : N) (l : list N) : Prop :=
  match l with [] => True | x :: r => m < x /\ increasing_from x r end.

(** IDs are 64-bit. *)
Definition ids64 (ids : list N) : Prop := Forall (fun i => i < 2^64) ids.
