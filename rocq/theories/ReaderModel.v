(** The receive path behind decryption: session.go 952-1101
    ([processIncomingMessages], [processIncomingMessageFragment],
    [processIncomingMessage]). *)
From Coq Require Import NArith List Bool.
From Verif Require Import Base MessageModel PendingChainModel.
Import ListNotations.
Open Scope N_scope.

(** session_state.go 17-55. *)
Definition SessionStateNew : N := 0.
Definition SessionStateClosed : N := 1.
Definition SessionStateKeyExchanging : N := 2.
Definition SessionStateNegotiating : N := 3.
Definition SessionStateEstablished : N := 4.
Definition SessionStatePaused : N := 5.
Definition SessionStateClosing : N := 6.

(** What the reader does with a payload, as seen from outside. *)
Inductive event :=
| EvHandler (t : N) (payload : bytes)   (* Messenger.handle -> Handler.Handle *)
| EvQueue (t : N) (payload : bytes)     (* put into readChan[t] *)
| EvError (e : gerr)                    (* eventHandler.Error *)
| EvClose.                              (* sess.Close() called by the reader *)

(** The parts of [Session] used here. [messengers]: type and whether the
    messenger's [handler] is set (messenger.go 16-22, SetHandler 79-81);
    [readChans]: types having a non-nil channel. Simplified: the channel is
    unbounded here (its capacity only delays the reader; see QueueModel). *)
Record rcv := {
  maxChainIDDiff : N;              (* options.MaxChainIDDiff *)
  maxFragmentedMessageSize : N;    (* options.MaxFragmentedMessageSize *)
  detachOnMessagesCount : N;       (* options.DetachOnMessagesCount *)
  answerAndWait : bool;            (* keyExchanger.options.AnswersMode == AnswerAndWait *)
  messengers : list (N * bool);
  readChans : list N;
  sessState : N;
  lastRemoteChainID : N;
  pendingChains : list chain;
  receivedMessagesCount : N;
  out : list event                 (* everything observable so far, newest first *)
}.

Definition emit (s : rcv) (e : event) : rcv :=
  {| maxChainIDDiff := maxChainIDDiff s; maxFragmentedMessageSize := maxFragmentedMessageSize s;
     detachOnMessagesCount := detachOnMessagesCount s; answerAndWait := answerAndWait s;
     messengers := messengers s; readChans := readChans s; sessState := sessState s;
     lastRemoteChainID := lastRemoteChainID s; pendingChains := pendingChains s;
     receivedMessagesCount := receivedMessagesCount s; out := e :: out s |}.
Definition setCount (s : rcv) (n : N) : rcv :=
  {| maxChainIDDiff := maxChainIDDiff s; maxFragmentedMessageSize := maxFragmentedMessageSize s;
     detachOnMessagesCount := detachOnMessagesCount s; answerAndWait := answerAndWait s;
     messengers := messengers s; readChans := readChans s; sessState := sessState s;
     lastRemoteChainID := lastRemoteChainID s; pendingChains := pendingChains s;
     receivedMessagesCount := n; out := out s |}.
Definition setChains (s : rcv) (last : N) (cs : list chain) : rcv :=
  {| maxChainIDDiff := maxChainIDDiff s; maxFragmentedMessageSize := maxFragmentedMessageSize s;
     detachOnMessagesCount := detachOnMessagesCount s; answerAndWait := answerAndWait s;
     messengers := messengers s; readChans := readChans s; sessState := sessState s;
     lastRemoteChainID := last; pendingChains := cs;
     receivedMessagesCount := receivedMessagesCount s; out := out s |}.
Definition setSessState (s : rcv) (st : N) : rcv :=
  {| maxChainIDDiff := maxChainIDDiff s; maxFragmentedMessageSize := maxFragmentedMessageSize s;
     detachOnMessagesCount := detachOnMessagesCount s; answerAndWait := answerAndWait s;
     messengers := messengers s; readChans := readChans s; sessState := st;
     lastRemoteChainID := lastRemoteChainID s; pendingChains := pendingChains s;
     receivedMessagesCount := receivedMessagesCount s; out := out s |}.

Fixpoint lookup {A} (k : N) (l : list (N * A)) : option A :=
  match l with
  | [] => None
  | (k', v) :: r => if k =? k' then Some v else lookup k r
  end.
Definition memN (k : N) (l : list N) : bool := existsb (N.eqb k) l.

(** session.go 1074-1101. A nil handler makes [messenger.handler.Handle]
    panic (messenger.go 59-61). What the handler itself does is not modelled. *)
Definition processIncomingMessage (s : rcv) (hdr : msgHdr) (payload : bytes) : outcome rcv :=
  match lookup (mType hdr) (messengers s) with
  | Some hasHandler =>
      match gslice payload 0 (mLength hdr) with
      | None => Panic
      | Some p => if hasHandler then Ret (emit s (EvHandler (mType hdr) p)) else Panic
      end
  | None =>
      match gslice payload 0 (mLength hdr) with
      | None => Panic
      | Some p => if memN (mType hdr) (readChans s) then Ret (emit s (EvQueue (mType hdr) p)) else Ret s
      end
  end.

Fixpoint setNth {A} (l : list A) (i : nat) (x : A) : list A :=
  match l, i with
  | [], _ => []
  | _ :: r, O => x :: r
  | y :: r, S j => y :: setNth r j x
  end.

(** session.go 1020-1072. The new value of [hdr.Length] is returned (the
    function writes it through the pointer). Index out of range and modulo by
    zero panic. The inner [else] branch of lines 1031-1036 is dead code. *)
Definition processIncomingMessageFragment (s : rcv) (hdr : msgHdr) (fh : fragHdr) (payload : bytes)
  : outcome (rcv * N) :=
  let s :=
    if lastRemoteChainID s <? fChainID fh
    then setChains s (fChainID fh) (map chainReset (pendingChains s))
    else s in
  let diff := sub64 (lastRemoteChainID s) (fChainID fh) in
  if maxChainIDDiff s <? diff then Ret (s, mLength hdr)
  else if maxChainIDDiff s =? 0 then Panic
  else
    let i := N.to_nat (fChainID fh mod maxChainIDDiff s) in
    match nth_error (pendingChains s) i with
    | None => Panic
    | Some c =>
        if (expected c =? 0) && (maxFragmentedMessageSize s <? fTotal fh)
        then Ret (s, mLength hdr)
        else
          let c := if expected c =? 0 then chainInit c (fTotal fh) else c in
          match chainMerge c fh payload with
          | Panic => Panic
          | Ret (c', r) =>
              let s := setChains s (lastRemoteChainID s) (setNth (pendingChains s) i c') in
              match r with
              | Err _ => Ret (s, mLength hdr)
              | Ok None => Ret (s, mLength hdr)
              | Ok (Some msg) =>
                  let hdr' := {| mType := mType hdr; mLength := u32 (len msg); mFlags := mFlags hdr |} in
                  match processIncomingMessage s hdr' msg with
                  | Panic => Panic
                  | Ret s => Ret (s, mLength hdr')
                  end
              end
          end
    end.

(** Result of the parsing loop. [LoopFuel] is only there to make the function
    total; lemma [procLoop_no_fuel] shows it is never returned. *)
Inductive loopResult (St : Type) := LoopEnd (s : St) | LoopPanic | LoopFuel.
Arguments LoopEnd {St} _.
Arguments LoopPanic {St}.
Arguments LoopFuel {St}.

(** session.go 966-1016: the loop itself, for an arbitrary treatment [handle]
    of one message (lines 983-1013). [handle] returns [None] to leave the loop,
    or the value of [hdr.Length] used to advance [i]. [onErr] is
    [eventHandler.Error]. *)
Section Loop.
  Context {St : Type}.
  Variable onErr : St -> gerr -> St.
  Variable handle : St -> msgHdr -> bytes -> outcome (St * option N).

  Fixpoint procLoop (fuel : nat) (s : St) (mb : bytes) (l i : N) : loopResult St :=
    if i <? l then
      match fuel with
      | O => LoopFuel
      | S fuel' =>
          if l - i <? messageHeadersSize
          then LoopEnd (onErr s (ErrTooShort messageHeadersSize (l - i)))
          else
            match gslice mb i (i + messageHeadersSize) with
            | None => LoopPanic
            | Some hb =>
                match hdrRead hb with
                | Err e => LoopEnd (onErr s e)
                | Ok (_, hdr) =>
                    if l - i <? messageHeadersSize + mLength hdr
                    then LoopEnd (onErr s (ErrTooShort (messageHeadersSize + mLength hdr) (l - i)))
                    else
                      match gslice mb (i + messageHeadersSize) (i + messageHeadersSize + mLength hdr) with
                      | None => LoopPanic
                      | Some msg =>
                          match handle s hdr msg with
                          | Panic => LoopPanic
                          | Ret (s, None) => LoopEnd s
                          | Ret (s, Some newLen) => procLoop fuel' s mb l (i + messageHeadersSize + newLen)
                          end
                      end
                end
            end
      end
    else LoopEnd s.

  (** session.go 952-1018 *)
  Definition runLoop (s : St) (containerLength : N) (mb : bytes) : loopResult St :=
    procLoop (length mb) s mb (N.min (len mb) containerLength) 0.
End Loop.

(** session.go 983-1003: count, cut the message out, hand it over. Returns the
    count value obtained (0 if not counted) and the final [hdr.Length]. *)
Definition handleOne (s : rcv) (hdr : msgHdr) (msg : bytes) : outcome (rcv * N * option N) :=
  let counted := (0 <? detachOnMessagesCount s)
                 && negb (mType hdr =? messageTypeKeyExchange)
                 && negb (mType hdr =? messageTypeNegotiation) in
  let s := if counted then setCount s (add64 (receivedMessagesCount s) 1) else s in
  let cnt := if counted then receivedMessagesCount s else 0 in
  if isFragmented (mFlags hdr)
  then
    match fragRead msg with
    | Err e => Ret (emit s (EvError e), cnt, None)
    | Ok (n, fh) =>
        match gslice msg n (len msg) with
        | None => Panic
        | Some p =>
            match processIncomingMessageFragment s hdr fh p with
            | Panic => Panic
            | Ret (s, l) => Ret (s, cnt, Some l)
            end
        end
    end
  else
    match processIncomingMessage s hdr msg with
    | Panic => Panic
    | Ret s => Ret (s, cnt, Some (mLength hdr))
    end.

(** session.go 983-1013: one iteration, including the detach check. The session
    state is read through [sessState] (handlers of internal messages may change
    it; that is modelled elsewhere). *)
Definition handleMsg (s : rcv) (hdr : msgHdr) (msg : bytes) : outcome (rcv * option N) :=
  match handleOne s hdr msg with
  | Panic => Panic
  | Ret (s, cnt, None) => Ret (s, None)
  | Ret (s, cnt, Some newLen) =>
      if (0 <? cnt) && (detachOnMessagesCount s <=? cnt)
      then
        if (sessState s =? SessionStateKeyExchanging) && answerAndWait s
        then Ret (s, None)
        else Ret (setSessState (emit s EvClose) SessionStateClosing, None)
      else Ret (s, Some newLen)
  end.

(** session.go 952-1018. *)
Definition processIncomingMessages (s : rcv) (containerLength : N) (mb : bytes) : loopResult rcv :=
  runLoop (fun s e => emit s (EvError e)) handleMsg s containerLength mb.

(** A session that has just been created (session.go 415-518): default options,
    a read queue for [MessageTypeReadWrite]. *)
Definition freshRcv (maxDiff maxFrag detach : N) (ms : list (N * bool)) (qs : list N) : rcv :=
  {| maxChainIDDiff := maxDiff; maxFragmentedMessageSize := maxFrag;
     detachOnMessagesCount := detach; answerAndWait := true;
     messengers := ms; readChans := qs; sessState := SessionStateEstablished;
     lastRemoteChainID := 0; pendingChains := repeat emptyChain (N.to_nat maxDiff);
     receivedMessagesCount := 0; out := [] |}.
