(** How long the aggregation keeps a message: session.go 455-461, 501-504,
    1605-1634, 1699-1735, 1808-1850.

    The interleavings of writers and sender are the subject of BatchModel; here
    the session is idle otherwise and everything but waiting takes no time, so
    that what is left is the timer. One unit of time is one [ETick]. Sizes are
    those of encoded messages, with the message headers. *)
From Coq Require Import NArith List.
From Verif Require Import Base MessageModel.
Import ListNotations.
Local Open Scope N_scope.

Record delayed := {
  dNow : N;
  dBuf : list (N * N);          (* delayedWriteBuf: when the message was appended, its size *)
  dDeadline : option N;         (* delayedSenderTimer *)
  dSent : list (list N * N)     (* per packet: when its messages were appended, when it was sent *)
}.

Definition delayInit : delayed := {| dNow := 0; dBuf := []; dDeadline := None; dSent := [] |}.

Definition sizeOf (b : list (N * N)) : N := fold_right N.add 0 (map snd b).

(** session.go 1738-1778; an empty buffer sends nothing. *)
Definition flushNow (s : delayed) : delayed :=
  {| dNow := dNow s; dBuf := []; dDeadline := dDeadline s;
     dSent := match dBuf s with [] => dSent s | _ => dSent s ++ [(map fst (dBuf s), dNow s)] end |}.

(** session.go 1699-1735: the message is appended and the timer set anew
    ([Stop], then [Reset]). *)
Definition appendNow (delay : N) (s : delayed) (size : N) : delayed :=
  {| dNow := dNow s; dBuf := dBuf s ++ [(dNow s, size)]; dDeadline := Some (dNow s + delay); dSent := dSent s |}.

Inductive delayEvent := EAppend (size : N) | ETick.

(** [maxPacket]: GetEstablishedPacketSize. A message that does not fit behind
    the others asks the sender to send these now, session.go 1611-1627, 1640-1650,
    1819; one that does not fit at all is refused. *)
Definition delayStep (delay maxPacket : N) (s : delayed) (e : delayEvent) : delayed :=
  match e with
  | EAppend size =>
      if maxPacket <? messagesContainerHeadersSize + sizeOf (dBuf s) + size
      then if maxPacket <? messagesContainerHeadersSize + size then flushNow s
           else appendNow delay (flushNow s) size
      else appendNow delay s size
  | ETick =>
      let now := dNow s + 1 in
      let s := {| dNow := now; dBuf := dBuf s; dDeadline := dDeadline s; dSent := dSent s |} in
      match dDeadline s with
      | Some d =>
          if d <=? now
          then let s := flushNow s in {| dNow := dNow s; dBuf := dBuf s; dDeadline := None; dSent := dSent s |}
          else s
      | None => s
      end
  end.

Definition delayRun (delay maxPacket : N) (s : delayed) (es : list delayEvent) : delayed :=
  fold_left (delayStep delay maxPacket) es s.
