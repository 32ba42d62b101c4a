(** Small helpers: utils.go, names (session_state.go 59-77, key_exchanger.go
    71-83, message.go 165-170), [WriteTo] of packet headers (message.go
    366-388) and [Read] of buffers (buffer_pool.go 42-46). *)
From Coq Require Import ZArith NArith List Bool String.
From Verif Require Import Base MessageModel MiscModel PoolModel.
Import ListNotations.
Local Open Scope N_scope.

(** utils.go 3-41: [min], [umin], [u32min], [u64min] are the same text at four
    types; [ltb] is the comparison [<] of the type. [args[0]] of nothing is a
    run-time panic. *)
Fixpoint minLoop {A} (ltb : A -> A -> bool) (result : A) (args : list A) : A :=
  match args with
  | [] => result
  | arg :: args => minLoop ltb (if ltb arg result then arg else result) args
  end.
Definition minOf {A} (ltb : A -> A -> bool) (args : list A) : outcome A :=
  match args with
  | [] => Panic
  | a :: r => Ret (minLoop ltb a r)
  end.
Definition minInt : list Z -> outcome Z := minOf Z.ltb.
Definition umin : list N -> outcome N := minOf N.ltb.

(** session_state.go 14-44: the values of [iota]. *)
Definition stNew : N := 0.
Definition stClosed : N := 1.
Definition stKeyExchanging : N := 2.
Definition stNegotiating : N := 3.
Definition stEstablished : N := 4.
Definition stPaused : N := 5.
Definition stClosing : N := 6.

(** session_state.go 59-77 *)
Definition stateString (s : N) : string :=
  if s =? stNew then "new"
  else if s =? stClosed then "closed"
  else if s =? stKeyExchanging then "key_exchanging"
  else if s =? stNegotiating then "negotiating"
  else if s =? stEstablished then "established"
  else if s =? stPaused then "paused"
  else if s =? stClosing then "closing"
  else "unknown".

(** key_exchanger.go 61-83 *)
Definition secretIDString (s : N) : string :=
  if s =? 0 then "recent_both"
  else if s =? 1 then "recent_local"
  else if s =? 2 then "recent_remote"
  else if s =? 3 then "previous"
  else showN s.

(** message.go 162-170; [None] is the nil pointer. *)
Definition packetIDString (id : option bytes) : string :=
  match id with
  | None => ""
  | Some id => showN (packetIDValue id)
  end.

(** A writer: what it returns for the bytes it is given. *)
Definition writer := bytes -> Z * bool (* failed *).

(** message.go 366-388. [pooled] is the buffer the pool gives out: 44 bytes of
    whatever was in it. The result: count, whether an error is returned, and what
    was given to the writer. *)
Definition contWriteTo (pooled : bytes) (h : contHdr) (w : writer) : Z * bool * list bytes :=
  match contWrite h pooled with
  | Err _ => (0%Z, true, [])
  | Ok (n0, buf) =>
      let '(n1, failed) := w buf in
      if failed then (n1, true, [buf]) else ((Z.of_N n0 + n1)%Z, false, [buf])
  end.

(** buffer_pool.go 42-46: [Read] into a slice of [n] bytes: what gets copied, and
    the count returned. [buf.Bytes[buf.Offset:]] panics behind the length. *)
Definition bfRead (b : buf) (n : N) : outcome (buf * bytes * N) :=
  match gslice (bfBytes b) (bfOffset b) (len (bfBytes b)) with
  | None => Panic
  | Some rest =>
      Ret ({| bfBytes := bfBytes b; bfRest := bfRest b; bfOffset := (bfOffset b + n) mod 2^64; bfRef := bfRef b; bfBusy := bfBusy b |},
           firstn (N.to_nat n) rest, n)
  end.
