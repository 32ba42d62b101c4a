(** Session states: session_state.go, and everything in session.go that changes
    the state (lines 602-680, 713-760, 819-846, 2020-2110, 2231-2260). *)
From Coq Require Import NArith List Bool.
From Verif Require Import Base TS ReaderModel ReaderLoopModel.
Import ListNotations.
Local Open Scope N_scope.

(** session_state.go 104-120: the whole critical section; new and old state. *)
Definition setState (st new : N) (cancelOnStates : list N) : N * N :=
  (if memN st cancelOnStates then st else new, st).

(** session.go 717-723. *)
Definition badStates : list N :=
  [SessionStateNew; SessionStateClosing; SessionStateClosed; SessionStateKeyExchanging; SessionStateNegotiating].

(** session.go 728-742: state after the critical section and [result]. *)
Definition setPauseState (st : N) (newValue : bool) : N * bool :=
  if newValue then
    let (st', old) := setState st SessionStatePaused badStates in (st', old =? SessionStateEstablished)
  else
    let (st', old) := setState st SessionStateEstablished badStates in (st', old =? SessionStatePaused).

(** What [SetPause] returns (lines 744-750); [interruptErr]: [interruptRead]
    returned an error. *)
Definition setPauseError (result newValue interruptErr : bool) : bool :=
  if negb result then true else newValue && interruptErr.

(** ** Life cycle of a session with all its goroutines *)

Inductive closeCall :=
| CCNone
| CCEntered                 (* state set by this call, [startClosing] entered *)
| CCReturned (ok : bool).

Inductive readerEndPhase :=
| LrNone                    (* not started *)
| LrLoop                    (* inside the loop *)
| LrCleanup                 (* at line 826 *)
| LrFinal                   (* at line 840 *)
| LrOver.

Record life := {
  lState : N;
  lPc : N;           (* progress of Start: 0 not called, 1 ctx set (607-613), 2 negotiator made (619),
                        3 state set to KeyExchanging (2084), 4 key exchanger made or skipped, 5 reader and
                        backend closer running *)
  lCtx : bool;       (* ctx is cancelled *)
  lKx : bool;        (* sess.keyExchanger != nil *)
  lKxCount : N;      (* keyExchangeCount *)
  lNeg : N;          (* onKeyExchangeSuccess: 0 not begun, 1 counter taken, 2 state set, 3 negotiator started *)
  lConnected : bool; (* isEstablished closed *)
  lOnConnect : bool; (* eventHandler.OnConnect called *)
  lReader : readerEndPhase;
  lCloser : bool;    (* backend closer has set its state *)
  lCalls : nat -> closeCall;  (* Close calls, by number *)
  lPanic : bool
}.

Definition initLife : life :=
  {| lState := SessionStateNew; lPc := 0; lCtx := false; lKx := false; lKxCount := 0; lNeg := 0; lConnected := false;
     lOnConnect := false; lReader := LrNone; lCloser := false; lCalls := fun _ => CCNone; lPanic := false |}.

Inductive llabel :=
| LStart (cancelled : bool)  (* [cancelled]: the caller's context is already cancelled *)
| LNegotiator | LKxState | LKxBuild | LRun
| LCtxDone                   (* the caller's context ends, or cancelFunc is called *)
| LKxSuccess | LNegState | LNegStart
| LConnect
| LPause (newValue : bool)
| LBackendCloser
| LReaderExit | LReaderClosing | LReaderClosed
| LClose (t : nat)           (* Close: the state change, line 2254 *)
| LCloseGo (t : nat)         (* the goroutine of startClosing reads keyExchanger.options, line 2236 *)
| LCloseRet (t : nat).       (* cancelFunc and return, lines 2247-2259 *)

Definition withState (s : life) (st : N) : life :=
  {| lState := st; lPc := lPc s; lCtx := lCtx s; lKx := lKx s; lKxCount := lKxCount s; lNeg := lNeg s; lConnected := lConnected s;
     lOnConnect := lOnConnect s; lReader := lReader s; lCloser := lCloser s; lCalls := lCalls s; lPanic := lPanic s |}.
Definition withPc (s : life) (pc : N) : life :=
  {| lState := lState s; lPc := pc; lCtx := lCtx s; lKx := lKx s; lKxCount := lKxCount s; lNeg := lNeg s; lConnected := lConnected s;
     lOnConnect := lOnConnect s; lReader := lReader s; lCloser := lCloser s; lCalls := lCalls s; lPanic := lPanic s |}.
Definition withCtx (s : life) (b : bool) : life :=
  {| lState := lState s; lPc := lPc s; lCtx := b; lKx := lKx s; lKxCount := lKxCount s; lNeg := lNeg s; lConnected := lConnected s;
     lOnConnect := lOnConnect s; lReader := lReader s; lCloser := lCloser s; lCalls := lCalls s; lPanic := lPanic s |}.
Definition withKx (s : life) : life :=
  {| lState := lState s; lPc := lPc s; lCtx := lCtx s; lKx := true; lKxCount := lKxCount s; lNeg := lNeg s; lConnected := lConnected s;
     lOnConnect := lOnConnect s; lReader := lReader s; lCloser := lCloser s; lCalls := lCalls s; lPanic := lPanic s |}.
Definition withNeg (s : life) (cnt neg : N) : life :=
  {| lState := lState s; lPc := lPc s; lCtx := lCtx s; lKx := lKx s; lKxCount := cnt; lNeg := neg; lConnected := lConnected s;
     lOnConnect := lOnConnect s; lReader := lReader s; lCloser := lCloser s; lCalls := lCalls s; lPanic := lPanic s |}.
Definition withConnected (s : life) : life :=
  {| lState := lState s; lPc := lPc s; lCtx := lCtx s; lKx := lKx s; lKxCount := lKxCount s; lNeg := lNeg s; lConnected := true;
     lOnConnect := true; lReader := lReader s; lCloser := lCloser s; lCalls := lCalls s; lPanic := lPanic s |}.
Definition withReader (s : life) (r : readerEndPhase) : life :=
  {| lState := lState s; lPc := lPc s; lCtx := lCtx s; lKx := lKx s; lKxCount := lKxCount s; lNeg := lNeg s; lConnected := lConnected s;
     lOnConnect := lOnConnect s; lReader := r; lCloser := lCloser s; lCalls := lCalls s; lPanic := lPanic s |}.
Definition withCloser (s : life) : life :=
  {| lState := lState s; lPc := lPc s; lCtx := lCtx s; lKx := lKx s; lKxCount := lKxCount s; lNeg := lNeg s; lConnected := lConnected s;
     lOnConnect := lOnConnect s; lReader := lReader s; lCloser := true; lCalls := lCalls s; lPanic := lPanic s |}.
Definition withCall (s : life) (t : nat) (c : closeCall) : life :=
  {| lState := lState s; lPc := lPc s; lCtx := lCtx s; lKx := lKx s; lKxCount := lKxCount s; lNeg := lNeg s; lConnected := lConnected s;
     lOnConnect := lOnConnect s; lReader := lReader s; lCloser := lCloser s; lCalls := fupd (lCalls s) t c; lPanic := lPanic s |}.
Definition withPanic (s : life) : life :=
  {| lState := lState s; lPc := lPc s; lCtx := lCtx s; lKx := lKx s; lKxCount := lKxCount s; lNeg := lNeg s; lConnected := lConnected s;
     lOnConnect := lOnConnect s; lReader := lReader s; lCloser := lCloser s; lCalls := lCalls s; lPanic := true |}.

Definition setTo (s : life) (new : N) (cancel : list N) : life := withState s (fst (setState (lState s) new cancel)).

Definition lifestep (s : life) (l : llabel) : option life :=
  if lPanic s then None else
  match l with
  | LStart cancelled =>            (* 604-616; a second Start returns an error *)
      if lPc s =? 0 then Some (withCtx (withPc s 1) cancelled) else Some s
  | LNegotiator =>                 (* 619, 2044-2056: NewMessenger returns nil on a done context *)
      if lPc s =? 1 then if lCtx s then Some (withPanic s) else Some (withPc s 2) else None
  | LKxState =>                    (* 2084-2087 *)
      if lPc s =? 2 then
        let (st, old) := setState (lState s) SessionStateKeyExchanging [SessionStateClosing; SessionStateClosed] in
        let s' := withState s st in
        if memN old [SessionStateKeyExchanging; SessionStateClosing; SessionStateClosed]
        then Some (withPc s' 4) else Some (withPc s' 3)
      else None
  | LKxBuild =>                    (* 2091-2104 *)
      if lPc s =? 3 then if lCtx s then Some (withPanic s) else Some (withKx (withPc s 4)) else None
  | LRun =>                        (* 621-622 *)
      if lPc s =? 4 then Some (withReader (withPc s 5) LrLoop) else None
  | LCtxDone => if lPc s =? 0 then None else Some (withCtx s true)
  | LKxSuccess =>                  (* 2063-2066; the exchanger runs from inside newKeyExchanger on *)
      if (3 <=? lPc s) && ((lPc s =? 3) || lKx s) then
        if lKxCount s =? 0 then Some (withNeg s 1 1) else Some (withNeg s (lKxCount s + 1) (lNeg s))
      else None
  | LNegState =>                   (* 2068-2070 *)
      if lNeg s =? 1 then
        Some (withNeg (setTo s SessionStateNegotiating
                [SessionStateClosed; SessionStateClosing; SessionStateNew; SessionStateEstablished; SessionStateNegotiating])
                (lKxCount s) 2)
      else None
  | LNegStart => if lNeg s =? 2 then Some (withNeg s (lKxCount s) 3) else None   (* 2072 *)
  | LConnect =>                    (* 2024-2030: once per negotiator *)
      if (lNeg s =? 3) && negb (lConnected s) then
        Some (withConnected (setTo s SessionStateEstablished
                [SessionStateClosed; SessionStateClosing; SessionStateNew; SessionStateEstablished]))
      else None
  | LPause b => Some (withState s (fst (setPauseState (lState s) b)))
  | LBackendCloser =>              (* 637-646 *)
      if (lPc s =? 5) && lCtx s && negb (lCloser s)
      then Some (withCloser (setTo s SessionStateClosing [SessionStateClosed])) else None
  | LReaderExit =>                 (* the loop ends; 822-828: which branch *)
      match lReader s with
      | LrLoop => if memN (lState s) [SessionStateKeyExchanging; SessionStateNegotiating]
                  then Some (withReader s LrFinal) else Some (withReader s LrCleanup)
      | _ => None
      end
  | LReaderClosing =>
      match lReader s with
      | LrCleanup => Some (withCtx (withReader (setTo s SessionStateClosing [SessionStateClosed]) LrFinal) true)
      | _ => None
      end
  | LReaderClosed =>               (* 840 *)
      match lReader s with LrFinal => Some (withReader (setTo s SessionStateClosed []) LrOver) | _ => None end
  | LClose t =>                    (* 2253-2257 *)
      match lCalls s t with
      | CCNone =>
          let (st, old) := setState (lState s) SessionStateClosing [SessionStateClosed] in
          let s' := withState s st in
          if memN old [SessionStateClosed; SessionStateClosing] then Some (withCall s' t (CCReturned false))
          else Some (withCall s' t CCEntered)
      | _ => None
      end
  | LCloseGo t =>
      match lCalls s t with
      | CCNone => None
      | CCReturned false => None
      | _ => if lKx s then Some s else Some (withPanic s)
      end
  | LCloseRet t =>
      match lCalls s t with
      | CCEntered => if lPc s =? 0 then Some (withPanic s)   (* cancelFunc is nil *)
                     else Some (withCtx (withCall s t (CCReturned true)) true)
      | _ => None
      end
  end.

(** ** WaitFor against Set, session_state.go 79-120, in small steps *)

Inductive waiter :=
| WStart                      (* before RLockDo *)
| WHasChan (c : nat)          (* changeChan number c fetched *)
| WSelect (c : nat) (loaded : N)
| WReturned (st : N) (byCtx : bool).

Record waitSt := {
  wState : N;
  wChan : nat;                (* number of the current changeChan; smaller numbers are closed *)
  wSetting : bool;            (* a Set has stored the state and not yet replaced the channel *)
  wCtx : bool;                (* the waiter's context is done *)
  wWaiter : waiter
}.
Definition initWait (st : N) : waitSt := {| wState := st; wChan := 0; wSetting := false; wCtx := false; wWaiter := WStart |}.

Inductive wlabel := WLSet (new : N) (cancel : list N) | WLSwap | WLCtx | WLStep (* the waiter *) | WLByCtx (* select takes ctx.Done *).

Definition waitstep (awaited : list N) (s : waitSt) (l : wlabel) : option waitSt :=
  match l with
  | WLSet new cancel =>       (* 105-114, holding the lock *)
      if wSetting s then None
      else if memN (wState s) cancel then Some s
      else Some {| wState := new; wChan := wChan s; wSetting := true; wCtx := wCtx s; wWaiter := wWaiter s |}
  | WLSwap =>                 (* 116-117 and unlock *)
      if wSetting s then Some {| wState := wState s; wChan := S (wChan s); wSetting := false; wCtx := wCtx s; wWaiter := wWaiter s |}
      else None
  | WLCtx => Some {| wState := wState s; wChan := wChan s; wSetting := wSetting s; wCtx := true; wWaiter := wWaiter s |}
  | WLStep =>
      match wWaiter s with
      | WStart => if wSetting s then None   (* RLock waits for the writer *)
                  else Some {| wState := wState s; wChan := wChan s; wSetting := wSetting s; wCtx := wCtx s; wWaiter := WHasChan (wChan s) |}
      | WHasChan c =>
          Some {| wState := wState s; wChan := wChan s; wSetting := wSetting s; wCtx := wCtx s;
                  wWaiter := if memN (wState s) awaited then WReturned (wState s) false else WSelect c (wState s) |}
      | WSelect c _ => if Nat.ltb c (wChan s)
                       then Some {| wState := wState s; wChan := wChan s; wSetting := wSetting s; wCtx := wCtx s; wWaiter := WStart |}
                       else None
      | WReturned _ _ => None
      end
  | WLByCtx =>
      match wWaiter s with
      | WSelect _ st => if wCtx s then Some {| wState := wState s; wChan := wChan s; wSetting := wSetting s; wCtx := wCtx s;
                                               wWaiter := WReturned st true |} else None
      | _ => None
      end
  end.
