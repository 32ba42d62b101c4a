(** One iteration of the negotiation on both sides, as a question of who waits
    for whom: negotiator.go 294-311 (the pings of an iteration), 450-484
    ([handlePingPongMessage]: the goroutine that reads writes the pong, and after
    a pong a control message), session.go 901-947 (the reader).

    Two sessions, connected by a backend that holds up to [cap] packets per
    direction; [Some 0]: a write ends when the other side reads, as with net.Pipe;
    [None]: a write never waits.  One step is one call of the backend.
    Simplifications: packets are not lost; contents are left out (sizes and
    checksums: NegoModel.v); [recvChan] has room (12 pings per iteration, 32
    places; see C60 for what happens otherwise). *)
From Coq Require Import List Bool Arith.
From Verif Require Import Base TS.
Import ListNotations.

Inductive nwire := NPing | NPong | NControl.

(** [NrWrite w]: the reader is inside backend.Write. *)
Inductive nreader := NrRead | NrWrite (w : nwire).

Record nside := { nReader : nreader; nLeft : nat (* pings still to be sent *) }.
Record nst := { nA : nside; nB : nside; nFromA : list nwire; nFromB : list nwire }.

Definition nInit (a b : nat) : nst :=
  {| nA := {| nReader := NrRead; nLeft := a |}; nB := {| nReader := NrRead; nLeft := b |}; nFromA := []; nFromB := [] |}.

Inductive nlabel :=
| NlPing (p : bool)      (* the pinger of side [p] ([true]: A) writes a ping *)
| NlRead (p : bool)      (* backend.Read returns *)
| NlWrote (p : bool).    (* the reader's backend.Write returns *)

Definition nOf (s : nst) (p : bool) : nside := if p then nA s else nB s.
Definition nChan (s : nst) (p : bool) : list nwire := if p then nFromA s else nFromB s.
Definition nSet (s : nst) (p : bool) (x : nside) : nst :=
  if p then {| nA := x; nB := nB s; nFromA := nFromA s; nFromB := nFromB s |}
  else {| nA := nA s; nB := x; nFromA := nFromA s; nFromB := nFromB s |}.
Definition nSetChan (s : nst) (p : bool) (l : list nwire) : nst :=
  if p then {| nA := nA s; nB := nB s; nFromA := l; nFromB := nFromB s |}
  else {| nA := nA s; nB := nB s; nFromA := nFromA s; nFromB := l |}.

(** negotiator.go 450-484. *)
Definition nHandle (x : nside) (w : nwire) : nside :=
  {| nReader := match w with NPing => NrWrite NPong | NPong => NrWrite NControl | NControl => NrRead end; nLeft := nLeft x |}.

Section Pong.
  Variable cap : option nat.

  Definition nRoom (s : nst) (p : bool) : bool :=
    match cap with None => true | Some k => Nat.ltb (length (nChan s p)) k end.
  Definition nReads (x : nside) : bool := match nReader x with NrRead => true | _ => false end.

  Definition nDeliver (s : nst) (p : bool) (w : nwire) : option nst :=
    if nRoom s p then Some (nSetChan s p (nChan s p ++ [w]))
    else if match nChan s p with [] => nReads (nOf s (negb p)) | _ => false end
    then Some (nSet s (negb p) (nHandle (nOf s (negb p)) w))
    else None.

  Definition nStep (s : nst) (l : nlabel) : option nst :=
    match l with
    | NlPing p =>
        match nLeft (nOf s p) with
        | O => None
        | S n => nDeliver (nSet s p {| nReader := nReader (nOf s p); nLeft := n |}) p NPing
        end
    | NlRead p =>
        match nChan s (negb p) with
        | w :: rest => if nReads (nOf s p) then Some (nSetChan (nSet s p (nHandle (nOf s p) w)) (negb p) rest) else None
        | [] => None
        end
    | NlWrote p =>
        match nReader (nOf s p) with
        | NrWrite w => nDeliver (nSet s p {| nReader := NrRead; nLeft := nLeft (nOf s p) |}) p w
        | NrRead => None
        end
    end.
End Pong.
