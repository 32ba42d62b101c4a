(** The output of information messages, session.go 160-161, 331-334, 444-445,
    842-843 and 1989-2005. A message is a number; the channel is its queue. The
    callers, the receiver and the clean-up of the reader loop each take one step
    at a time: a [select] with [default] and a receive are atomic in Go. *)
From Coq Require Import NArith List Bool.
From Verif Require Import Base TS.
Import ListNotations.

(** session.go 194-206, the two options that matter. *)
Record logOptions := { oDebug : bool; oInfo : bool }.

Record logChan := {
  gQueue : list N;       (* what the channel holds, oldest first *)
  gClosed : bool;
  gGot : list N;         (* ghost: what the application received, in order *)
  gEnded : bool          (* ghost: the application was told that the channel is closed *)
}.

(** session.go 445. *)
Definition logCapacity : nat := 1024.
Definition logInit : logChan := {| gQueue := []; gClosed := false; gGot := []; gEnded := false |}.

(** One call of [infof], session.go 1997-2005 with [ifInfo], 1989-1995. What
    [ifInfo] asks is [EnableDebug]. Sending to a closed channel panics, which the
    deferred function recovers from. *)
Definition infof (o : logOptions) (m : N) (g : logChan) : logChan :=
  {| gQueue := if negb (oDebug o) then gQueue g else if gClosed g then gQueue g
               else if Nat.ltb (length (gQueue g)) logCapacity then gQueue g ++ [m] else gQueue g;
     gClosed := gClosed g; gGot := gGot g; gEnded := gEnded g |}.

(** [infof], a receive by the application (331-334), the clean-up of the reader
    loop (843). *)
Inductive logLabel := LCall (m : N) | LTake | LClose.

Definition logStep (o : logOptions) (g : logChan) (l : logLabel) : option logChan :=
  match l with
  | LCall m => Some (infof o m g)
  | LTake =>
      match gQueue g with
      | m :: q => Some {| gQueue := q; gClosed := gClosed g; gGot := gGot g ++ [m]; gEnded := gEnded g |}
      | [] => if gClosed g then Some {| gQueue := []; gClosed := true; gGot := gGot g; gEnded := true |}
              else None (* the receiver waits *)
      end
  | LClose => (* once: the reader loop ends once *)
      if gClosed g then None
      else Some {| gQueue := gQueue g; gClosed := true; gGot := gGot g; gEnded := gEnded g |}
  end.
