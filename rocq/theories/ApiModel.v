(** What [Read], [Write], [WriteMessageSingle] and their like return, and when
    the fragments of a message are taken out of the caller's memory.
    session.go 1360-1391, 1469-1544, 1546-1572, 1934-1957, 2167-2192;
    messenger.go 36-56. *)
From Coq Require Import NArith ZArith List Bool.
From Verif Require Import Base MessageModel PacketModel BatchModel SendModel QueueModel.
Import ListNotations.
Local Open Scope N_scope.

(** A Go result [(int, error)]; only whether the error is nil is kept. *)
Record ioResult := { rN : Z; rErr : bool }.

(** session.go 2167-2181. *)
Definition readReturns (r : readResult) : ioResult :=
  match r with
  | ReadOk d => {| rN := Z.of_N (len d); rErr := false |}
  | ReadClosed => {| rN := -1; rErr := true |}
  | ReadTooBig => {| rN := -1; rErr := true |}
  end.

(** session.go 1371-1374: [err] is the [Err] field of the handle. *)
Definition writeMessageReturns (payload : bytes) (err : bool) : ioResult :=
  if negb err then {| rN := Z.of_N (len payload); rErr := false |}
  else {| rN := 0; rErr := true |}.

(** An application that reads through bufio.Reader (bufio.go, [fill]): a negative
    count is a panic. *)
Definition bufioFill (r : ioResult) : outcome Z := if (rN r <? 0)%Z then Panic else Ret (rN r).

Section Single.
  Variable stream : bytes -> bytes -> nat -> N.
  Variable blake3 : bytes -> bytes.
  Variable poly1305 : bytes -> bytes -> bytes.
  (** The backend's [Write]. *)
  Variable backendWrite : bytes -> ioResult.

  (** session.go 1853-1987 to its end: the backend's count is returned as it is.
      Waiting and closing are left out, as in [SendModel]. *)
  Definition sendMessagesReturns (est : N) (p : peer) (u : unit_) : peer * outcome ioResult :=
    match sendUnit stream blake3 poly1305 est p u with
    | (p, Panic) => (p, Panic)
    | (p, Ret (Err _)) => (p, Ret {| rN := 0; rErr := true |})
    | (p, Ret (Ok raw)) => (p, Ret (backendWrite raw))
    end.

  (** session.go 1380-1391, 1546-1572; messenger.go 53-55. *)
  Definition writeMessageSingleReturns (est : N) (p : peer) (t : N) (payload : bytes) : peer * outcome ioResult :=
    sendMessagesReturns est p (singleUnit t (singleFlags t) payload).
End Single.

(** ** The memory of the caller

    One fragmented message. A goroutine per fragment copies its part of the
    caller's slice into a buffer of its own (1531) and sends it (1543); another
    one closes the handle when all are through (1503-1508). The caller waits for
    the handle or the context ([Wait], send_info.go 140-147) in [Write], or does
    not wait at all after [WriteMessageAsync]; having returned, it may use the
    slice for something else. *)
Inductive fragPc :=
| FpNew
| FpCopied (b : bytes)
| FpDone (sent : bool).

Record fw := {
  wMem : bytes;                        (* the caller's slice *)
  wParts : list (nat * nat * fragPc);  (* position, length, where the goroutine is *)
  wWire : list (nat * bytes);          (* position and content of what went to the backend *)
  wDone : bool;                        (* the handle is closed *)
  wCtx : bool;                         (* the session's context is done *)
  wClosing : bool;                     (* the state is Closing or Closed *)
  wReturned : bool
}.

Definition fwInit (payload : bytes) (parts : list (nat * nat)) : fw :=
  {| wMem := payload; wParts := map (fun p => (fst p, snd p, FpNew)) parts; wWire := []; wDone := false; wCtx := false;
     wClosing := false; wReturned := false |}.

Inductive fwlabel :=
| FwCopy (i : nat)
| FwSend (i : nat)       (* to the backend if the session is not done (1953-1957) *)
| FwFinish               (* 1504-1507 *)
| FwCancel
| FwClosing              (* startBackendCloser 645, after the context *)
| FwReturn
| FwReuse (b : bytes).   (* the caller writes something else into its slice *)

Definition setPart (s : fw) (i : nat) (x : nat * nat * fragPc) (wire : list (nat * bytes)) : fw :=
  {| wMem := wMem s; wParts := firstn i (wParts s) ++ [x] ++ skipn (S i) (wParts s); wWire := wire; wDone := wDone s;
     wCtx := wCtx s; wClosing := wClosing s; wReturned := wReturned s |}.

Definition isDonePart (x : nat * nat * fragPc) : bool := match snd x with FpDone _ => true | _ => false end.

Section FwStep.
  (** [true]: Write, which waits; [false]: WriteMessageAsync. *)
  Variable waits : bool.

  Definition fwStep (s : fw) (l : fwlabel) : option fw :=
    match l with
    | FwCopy i =>
        match nth_error (wParts s) i with
        | Some (pos, n, FpNew) => Some (setPart s i (pos, n, FpCopied (firstn n (skipn pos (wMem s)))) (wWire s))
        | _ => None
        end
    | FwSend i =>
        match nth_error (wParts s) i with
        | Some (pos, n, FpCopied b) =>
            if wClosing s then Some (setPart s i (pos, n, FpDone false) (wWire s))
            else Some (setPart s i (pos, n, FpDone true) (wWire s ++ [(pos, b)]))
        | _ => None
        end
    | FwFinish =>
        if forallb isDonePart (wParts s) && negb (wDone s)
        then Some {| wMem := wMem s; wParts := wParts s; wWire := wWire s; wDone := true; wCtx := wCtx s;
                     wClosing := wClosing s; wReturned := wReturned s |}
        else None
    | FwCancel =>
        Some {| wMem := wMem s; wParts := wParts s; wWire := wWire s; wDone := wDone s; wCtx := true;
                wClosing := wClosing s; wReturned := wReturned s |}
    | FwClosing =>
        if wCtx s
        then Some {| wMem := wMem s; wParts := wParts s; wWire := wWire s; wDone := wDone s; wCtx := true;
                     wClosing := true; wReturned := wReturned s |}
        else None
    | FwReturn =>
        if (negb waits || wDone s || wCtx s) && negb (wReturned s)
        then Some {| wMem := wMem s; wParts := wParts s; wWire := wWire s; wDone := wDone s; wCtx := wCtx s;
                     wClosing := wClosing s; wReturned := true |}
        else None
    | FwReuse b =>
        if wReturned s && (len b =? len (wMem s))
        then Some {| wMem := b; wParts := wParts s; wWire := wWire s; wDone := wDone s; wCtx := wCtx s;
                     wClosing := wClosing s; wReturned := true |}
        else None
    end.
End FwStep.
