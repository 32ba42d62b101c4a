(** A message written before the session is established: session.go 1432-1460
    ([WriteMessageAsync] looks at establishedPayloadSize at once), 1479-1480 and
    586-600 (the fragmenting function waits for the negotiated size), 1594-1620
    ([writeMessageAsync] waits, then checks), 1895-1909 ([sendMessages] waits,
    then checks).

    [soEst o] is the size at the moment of the call ([PayloadSizeLimit], session.go
    490, until the negotiation changes it), [est] the size with which the session
    gets established. The session does get established and is not closed
    meanwhile. A message for a full aggregation buffer waits until the buffer was
    sent and is then checked against the empty one, so the buffer is left out. *)
From Coq Require Import NArith List Bool.
From Verif Require Import Base MessageModel ReaderModel ReaderLoopModel PacketModel FragmentSendModel BatchModel SendModel.
Import ListNotations.
Local Open Scope N_scope.

(** 1432-1467, with the fragments made of the negotiated size. *)
Definition earlyPlan (o : sendOptions) (est chainID t : N) (payload : bytes) : plan :=
  if (soEst o <? u32 (len payload)) && negb (isInternal t) then
    if soFragmentation o then fragmentUnits est chainID t payload
    else PlanRefuse ErrPayloadTooBig
  else if negb (isConfidential (singleFlags t)) || negb (soDelay o)
  then PlanUnits [singleUnit t (singleFlags t) payload]
  else PlanAggregate (encodeMsg t (singleFlags t) payload).

(** 1904. *)
Definition fitsPacket (est : N) (u : unit_) : bool :=
  uInternal u || negb (packetSizeOf est <? add32 messagesContainerHeadersSize (u32 (len (uMsgs u)))).

(** What is sent in the end, and whether the caller gets an error. *)
Inductive written :=
| Written (sent : list unit_) (failed : bool)
| WrittenNever.            (* the call does not come to an end *)
Definition carried (est : N) (p : plan) : written :=
  match p with
  | PlanRefuse _ => Written [] true
  | PlanUnits us => Written (filter (fitsPacket est) us) (negb (forallb (fitsPacket est) us))
  | PlanAggregate msg =>
      (* 1603-1611: uint arithmetic; [msg] has the nine bytes of its header *)
      if packetSizeOf est <? messagesContainerHeadersSize + len msg then Written [] true
      else Written [batchUnit [msg]] false
  | PlanForever => WrittenNever
  end.
