(** Which way a written message goes and what the backend gets for it:
    session.go 1360-1391, 1432-1572, 1853-1987.

    Simplifications:
    - the session is established and not closed (waiting and closing are the
      subject of BatchModel and StateModel); [est] is the value of
      establishedPayloadSize seen by every step of one call;
    - the fragments of one message are sent by goroutines of their own in any
      order; the model gives them in the order of their positions, each with the
      packet ID taken in that order;
    - what the backend does with the bytes is left out. *)
From Coq Require Import NArith List Bool.
From Verif Require Import Base MessageModel ReaderModel ReaderLoopModel PacketModel FragmentSendModel BatchModel.
Import ListNotations.
Local Open Scope N_scope.

Record sendOptions := {
  soEst : N;              (* establishedPayloadSize *)
  soFragmentation : bool; (* SessionOptions.EnableFragmentation *)
  soDelay : bool          (* SessionOptions.SendDelay != nil *)
}.

(** One call of [sendMessages]: flags and messages. *)
Record unit_ := { uConfidential : bool; uInternal : bool; uMsgs : bytes }.

Inductive plan :=
| PlanRefuse (e : gerr)          (* finished handle with an error *)
| PlanUnits (us : list unit_)    (* packets sent right away *)
| PlanAggregate (msg : bytes)    (* [writeMessageAsync]: to the aggregation buffer *)
| PlanForever.                   (* fragmentation makes no progress *)

(** session.go 1546-1572 with message.go 272-283: header and payload. *)
Definition singleUnit (t flags : N) (payload : bytes) : unit_ :=
  {| uConfidential := isConfidential flags; uInternal := isInternal t; uMsgs := encodeMsg t flags payload |}.

(** session.go 1388, 1453. *)
Definition singleFlags (t : N) : N := setIsConfidential 0 (negb (t =? messageTypeKeyExchange)).

(** session.go 1469-1510; [chainID] is the result of getNextChainID. *)
Definition fragmentUnits (est chainID t : N) (payload : bytes) : plan :=
  match splitMessage est payload with
  | SplitDone fs =>
      PlanUnits (map (fun f => let '(t', fl, body) := fragmentMessage chainID (len payload) t f in
                               singleUnit t' fl body) fs)
  | SplitForever => PlanForever
  | SplitFuel => PlanForever
  end.

(** session.go 1432-1467. *)
Definition writeMessageAsyncPlan (o : sendOptions) (chainID t : N) (payload : bytes) : plan :=
  if (soEst o <? u32 (len payload)) && negb (isInternal t) then
    if soFragmentation o then fragmentUnits (soEst o) chainID t payload
    else PlanRefuse ErrPayloadTooBig
  else if negb (isConfidential (singleFlags t)) || negb (soDelay o)
  then PlanUnits [singleUnit t (singleFlags t) payload]
  else PlanAggregate (encodeMsg t (singleFlags t) payload).

(** session.go 1380-1391. *)
Definition writeMessageSinglePlan (t : N) (payload : bytes) : plan :=
  PlanUnits [singleUnit t (singleFlags t) payload].

(** session.go 1764-1770: a full aggregation buffer. *)
Definition batchUnit (msgs : list bytes) : unit_ :=
  {| uConfidential := true; uInternal := false; uMsgs := concat msgs |}.

Section Crypto.
  Variable stream : bytes -> bytes -> nat -> N.
  Variable blake3 : bytes -> bytes.
  Variable poly1305 : bytes -> bytes -> bytes.

  (** session.go 1853-1987: the packet ID is taken in any case; then the size
      check (line 1904, uint32 arithmetic), sealing, and the bytes for the
      backend. *)
  Definition sendUnit (est : N) (p : peer) (u : unit_) : peer * outcome (res bytes) :=
    if negb (uInternal u) &&
       (packetSizeOf est <? add32 messagesContainerHeadersSize (u32 (len (uMsgs u))))
    then (fst (takePacketID p), Ret (Err ErrPayloadTooBig))
    else sendPacket stream blake3 poly1305 p (uConfidential u) (uMsgs u).

  Fixpoint sendUnits (est : N) (p : peer) (us : list unit_) : peer * list (outcome (res bytes)) :=
    match us with
    | [] => (p, [])
    | u :: r =>
        let (p', o) := sendUnit est p u in
        let (p'', os) := sendUnits est p' r in (p'', o :: os)
    end.
End Crypto.
