(** One session put together: reader loop, opening of packets, duplicate check,
    parser, dispatch, key exchanger, start of the session, and what
    [MutualConfirmationOfIdentity] (identity.go 277-347) does with it.

    Simplifications:
    - one incoming packet is one step (the reader handles it from [Read] to
      [containerHdr.Release] before the next one); exchanger steps come between
      packets;
    - the negotiator is switched off (negotiator.go 178-183), messages for it
      are dropped; NegoModel has the rest;
    - packets are not longer than the input buffer (session.go 904);
    - aggregation of outgoing messages is left out: a message is sealed and
      handed over in one step (BatchModel has the rest);
    - pausing is left out (PauseModel). *)
From Coq Require Import Ascii String NArith Arith List Bool.
From Verif Require Import Base MessageModel PendingChainModel PacketIDModel ReaderModel ReaderLoopModel PacketModel
  StateModel KxModel.
Import ListNotations.
Local Open Scope list_scope.
Local Open Scope N_scope.

(** session.go 510. *)
Definition auxPurpose : bytes := ascii_bytes "auxCipherKey".

(** Options and the application's error handler. *)
Record iconf := {
  icKx : kxConf;
  icDetachFails : N;         (* DetachOnSequentialDecryptFailsCount *)
  icErrorOn : option N;      (* ErrorOnSequentialDecryptFailsCount *)
  icCloseOnError : bool      (* eventHandler.Error calls sess.Close (identity.go 296-306) *)
}.

(** What [MutualConfirmationOfIdentity] returns. *)
Inductive confirmation := CfOk (keys : list (option bytes)) | CfErr.

Record isess := {
  iKx : kxs;
  iNext : N;                 (* nextPacketID *)
  iWin : option storage;     (* receivedPacketIDs *)
  iRcv : rcv;                (* dispatch; [sessState] is the state of the session *)
  iFails : N;                (* sequentialDecryptFailsCount *)
  iUnexpected : N;           (* unexpectedPacketIDCount *)
  iOver : bool;              (* the reader has left its loop *)
  iSent : list bytes;        (* confidential packets handed to the backend, newest first *)
  iWritten : bool;           (* Write(nil) has returned without error *)
  iTaken : nat;              (* messages taken by Read *)
  iResult : option confirmation;
  iPanic : bool
}.

Definition upKx (s : isess) (x : kxs) : isess :=
  {| iKx := x; iNext := iNext s; iWin := iWin s; iRcv := iRcv s; iFails := iFails s; iUnexpected := iUnexpected s;
     iOver := iOver s; iSent := iSent s; iWritten := iWritten s; iTaken := iTaken s; iResult := iResult s; iPanic := iPanic s |}.
Definition upRcv (s : isess) (r : rcv) : isess :=
  {| iKx := iKx s; iNext := iNext s; iWin := iWin s; iRcv := r; iFails := iFails s; iUnexpected := iUnexpected s;
     iOver := iOver s; iSent := iSent s; iWritten := iWritten s; iTaken := iTaken s; iResult := iResult s; iPanic := iPanic s |}.
Definition upPkt (s : isess) (next : N) (win : option storage) : isess :=
  {| iKx := iKx s; iNext := next; iWin := win; iRcv := iRcv s; iFails := iFails s; iUnexpected := iUnexpected s;
     iOver := iOver s; iSent := iSent s; iWritten := iWritten s; iTaken := iTaken s; iResult := iResult s; iPanic := iPanic s |}.
Definition upFails (s : isess) (f u : N) : isess :=
  {| iKx := iKx s; iNext := iNext s; iWin := iWin s; iRcv := iRcv s; iFails := f; iUnexpected := u;
     iOver := iOver s; iSent := iSent s; iWritten := iWritten s; iTaken := iTaken s; iResult := iResult s; iPanic := iPanic s |}.
Definition upOver (s : isess) : isess :=
  {| iKx := iKx s; iNext := iNext s; iWin := iWin s; iRcv := iRcv s; iFails := iFails s; iUnexpected := iUnexpected s;
     iOver := true; iSent := iSent s; iWritten := iWritten s; iTaken := iTaken s; iResult := iResult s; iPanic := iPanic s |}.
Definition upSent (s : isess) (next : N) (raw : bytes) : isess :=
  {| iKx := iKx s; iNext := next; iWin := iWin s; iRcv := iRcv s; iFails := iFails s; iUnexpected := iUnexpected s;
     iOver := iOver s; iSent := raw :: iSent s; iWritten := true; iTaken := iTaken s; iResult := iResult s; iPanic := iPanic s |}.
Definition upResult (s : isess) (t : nat) (r : confirmation) : isess :=
  {| iKx := iKx s; iNext := iNext s; iWin := iWin s; iRcv := iRcv s; iFails := iFails s; iUnexpected := iUnexpected s;
     iOver := iOver s; iSent := iSent s; iWritten := iWritten s; iTaken := t; iResult := Some r; iPanic := iPanic s |}.
Definition upPanic (s : isess) : isess :=
  {| iKx := iKx s; iNext := iNext s; iWin := iWin s; iRcv := iRcv s; iFails := iFails s; iUnexpected := iUnexpected s;
     iOver := iOver s; iSent := iSent s; iWritten := iWritten s; iTaken := iTaken s; iResult := iResult s; iPanic := true |}.

(** A session after [Start] (session.go 415-518, 600-620): two messengers with
    handlers, one read queue; no limit on the number of messages. *)
Definition isessInit (remote : option bytes) (win : sizeOption) (maxDiff maxFrag : N) : isess :=
  {| iKx := kxsInit remote; iNext := 0; iWin := sessionStorage win;
     iRcv := setSessState (freshRcv maxDiff maxFrag 0 [(messageTypeKeyExchange, true); (messageTypeNegotiation, true)]
                             [messageTypeKeyExchange; messageTypeNegotiation; MessageTypeReadWrite])
               SessionStateKeyExchanging;
     iFails := 0; iUnexpected := 0; iOver := false; iSent := []; iWritten := false; iTaken := 0; iResult := None; iPanic := false |}.

Section Integ.
  Variable verify : bytes -> bytes -> bytes -> bool.
  Variable dh : bytes -> bytes -> bytes.
  Variable blake3 sha3 : bytes -> bytes.
  Variable stream : bytes -> bytes -> nat -> N.
  Variable poly1305 : bytes -> bytes -> bytes.
  Variable c : iconf.

  (** session.go 510-513. *)
  Definition auxKey : option bytes :=
    match cPSK (icKx c) with
    | None => None
    | Some p => Some (firstn 32 (hash blake3 sha3 p [Salt; auxPurpose]))
    end.

  (** The fields [decrypt] and [sendMessages] look at. *)
  Definition peerOf (s : isess) : peer :=
    {| pAux := auxKey; pKeys := kKeys (xKx (iKx s)); pRemoteID := option_map sessBytes (kRemoteSession (xKx (iKx s)));
       pOwnID := sessBytes (cSession (icKx c)); pNext := iNext s |}.

  Definition stateOf (s : isess) : N := sessState (iRcv s).

  (** session.go 2253-2260: the state change; what follows is left out. *)
  Definition closeCall (s : isess) : isess :=
    upRcv s (setSessState (iRcv s) (fst (setState (stateOf s) SessionStateClosing [SessionStateClosed]))).

  (** eventHandler.Error. *)
  Definition reportError (s : isess) (e : gerr) : isess :=
    let s := upRcv s (emit (iRcv s) (EvError e)) in
    if icCloseOnError c then closeCall s else s.

  (** session.go 2057-2072 for the first success, with the negotiator switched
      off: [Start] calls [onConnect] (2018-2027) at once. *)
  Definition connect (s : isess) : isess :=
    let st := fst (setState (stateOf s) SessionStateNegotiating
      [SessionStateClosed; SessionStateClosing; SessionStateNew; SessionStateEstablished; SessionStateNegotiating]) in
    let st := fst (setState st SessionStateEstablished
      [SessionStateClosed; SessionStateClosing; SessionStateNew; SessionStateEstablished]) in
    upRcv s (setSessState (iRcv s) st).

  (** What the exchanger's callbacks do to the session: [errFunc] (session.go
      2097-2101) closes it, the first [doneFunc] connects it. *)
  Definition afterKx (s : isess) (x : kxs) : isess :=
    let before := xKx (iKx s) in
    let s := upKx s x in
    let s := if (Nat.ltb (length (kErrs before)) (length (kErrs (xKx x)))) then reportError (closeCall s) ErrBackend else s in
    if (kDone before =? 0) && (0 <? kDone (xKx x)) then connect s else s.

  (** session.go 1074-1080 for the handler of key-exchange messages, and
      messenger.go 53-61. Errors of [Handle] go to eventHandler.Error. *)
  Definition handleEvent (s : isess) (e : event) : outcome isess :=
    match e with
    | EvHandler t payload =>
        if t =? messageTypeKeyExchange then
          match handleKx verify dh blake3 sha3 (icKx c) (xKx (iKx s)) payload with
          | Panic => Panic
          | Ret (k, h) =>
              let x := setX (iKx s) k in
              match h with
              | HErr _ => Ret (reportError (afterKx s x) ErrBackend)
              | HIgnored => Ret (afterKx s x)
              | HDone answer => Ret (afterKx s (if answer then addAnswer x else x))
              end
          end
        else Ret s
    | EvError _ => Ret (if icCloseOnError c then closeCall s else s)
    | _ => Ret s
    end.

  (** session.go 983-1013 with the handler's effects; [handleOne] emits at most
      one event. *)
  Definition iHandle (s : isess) (hdr : msgHdr) (msg : bytes) : outcome (isess * option N) :=
    match handleOne (iRcv s) hdr msg with
    | Panic => Panic
    | Ret (r, cnt, x) =>
        match (if Nat.ltb (length (out (iRcv s))) (length (out r))
               then match out r with e :: _ => handleEvent (upRcv s r) e | [] => Ret (upRcv s r) end
               else Ret (upRcv s r)) with
        | Panic => Panic
        | Ret s =>
            match x with
            | None => Ret (s, None)
            | Some newLen =>
                if (0 <? cnt) && (detachOnMessagesCount (iRcv s) <=? cnt)
                then if (stateOf s =? SessionStateKeyExchanging) && (cMode (icKx c) =? AnswersModeAnswerAndWait)
                     then Ret (s, None)
                     else Ret (closeCall s, None)
                else Ret (s, Some newLen)
            end
        end
    end.

  (** session.go 908-948: one packet. *)
  Definition iReceive (s : isess) (raw : bytes) : outcome isess :=
    match receivePacket stream blake3 poly1305 (peerOf s) (iWin s) raw with
    | Panic => Panic
    | Ret (p, win, pk) =>
        let s := upPkt s (pNext p) win in
        match pk with
        | PktAccepted l content =>
            match runLoop reportError iHandle (upFails s 0 (iUnexpected s)) l content with
            | LoopEnd s => Ret s
            | _ => Panic
            end
        | PktDuplicate => Ret (upFails s (iFails s) (add64 (iUnexpected s) 1))
        | PktUndecryptable e =>
            let n := add64 (iFails s) 1 in
            let s := upFails s n (iUnexpected s) in
            let s := match icErrorOn c with
                     | Some k => if k <=? n then reportError s e else s
                     | None => s
                     end in
            Ret (if icDetachFails c <=? n then upOver s else s)
        | _ => Ret s
        end
    end.

  (** What [Read] finds: the payloads queued for it, oldest first. *)
  Definition queued (s : isess) : list bytes :=
    flat_map (fun e => match e with EvQueue t p => if t =? MessageTypeReadWrite then [p] else [] | _ => [] end)
      (rev (out (iRcv s))).

  Inductive ilabel :=
  | IPacket (raw : bytes)     (* the backend yields these bytes *)
  | IKx (l : klabel)          (* the exchanger's own goroutines *)
  | IWrite                    (* identity.go 326: Write(nil) goes through *)
  | IRead                     (* identity.go 332-343 *)
  | ICleanup                  (* session.go 819-846 *)
  | IFail.                    (* Write or Read fail after the end of the session *)

  Definition isHandle (l : klabel) : bool := match l with KHandle _ => true | _ => false end.

  Definition istep (s : isess) (l : ilabel) : option isess :=
    if iPanic s then None
    else
    match l with
    | IPacket raw =>
        if iOver s || isDoneState (stateOf s) || locked (iKx s) then None
        else match iReceive s raw with Panic => Some (upPanic s) | Ret s => Some s end
    | IKx l =>
        if isHandle l then None
        else
          match kstep verify dh blake3 sha3 (icKx c) (iKx s) l with
          | None => None
          | Some x => Some (if xPanic x then upPanic (afterKx s x) else afterKx s x)
          end
    | IWrite =>
        if iWritten s || negb (stateOf s =? SessionStateEstablished) then None
        else
          match sendPacket stream blake3 poly1305 (peerOf s) true
                  (encodeMsg MessageTypeReadWrite (setIsConfidential 0 true) []) with
          | (p, Ret (Ok raw)) => Some (upSent s (pNext p) raw)
          | (_, Ret (Err _)) => None
          | (_, Panic) => Some (upPanic s)
          end
    | IRead =>
        match iWritten s, iResult s, nth_error (queued s) (iTaken s) with
        | true, None, Some payload =>
            Some (upResult s (S (iTaken s))
              (match payload with
               | [] => if Nat.eqb (length (kKeys (xKx (iKx s)))) secretIDs then CfOk (kKeys (xKx (iKx s))) else CfErr
               | _ :: _ => CfErr       (* the buffer is empty: session.go 2173 *)
               end))
        | _, _, _ => None
        end
    | ICleanup =>
        if iOver s || isDoneState (stateOf s)
        then Some (upOver (upKx (upRcv s (setSessState (iRcv s) SessionStateClosed)) (setX (iKx s) (setCtx (xKx (iKx s))))))
        else None
    | IFail =>
        match iResult s with
        | None => if stateOf s =? SessionStateClosed then Some (upResult s (iTaken s) CfErr) else None
        | Some _ => None
        end
    end.
End Integ.
