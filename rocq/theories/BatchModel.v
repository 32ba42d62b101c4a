(** Aggregation of messages into packets ("send delay"): session.go 1360-1375,
    1432-1467, 1574-1850, 2020-2042, 2231-2260; send_info.go 100-147.

    Goroutines: any number of writers, the sender ([onConnect] followed by
    [delayedSenderLoop], which it starts), and the goroutine inside [Close].
    One step is one atomic action; critical sections of [delayedWriteBufLocker]
    are one step.

    Simplifications:
    - the session has been established (isEstablished is closed, the first key
      exchange is done, so [GetCipherKeysWait] does not wait); Paused and
      Established are the same thing for sending, because every wait in the
      Paused state is a wait for isEstablished;
    - SendInfo objects are numbered by sendID and never recycled; recycling and
      reference counts are the subject of PoolModel. The panic of
      [incRefCount() == 1] in [waitForSend] (recovered there) is the label
      [BGone];
    - encryption is left out (PacketModel); a packet is the list of messages in
      it;
    - the timer may fire at any moment once it is armed;
    - a handle of [writeMessageAsyncAsFragmented] is finished by its own
      goroutines at any moment with any result ([BFragDone]). *)
From Coq Require Import NArith List Bool.
From Verif Require Import Base TS MessageModel ReaderModel ReaderLoopModel.
Import ListNotations.
Local Open Scope N_scope.

(** send_info.go 12-27. [hFrag]: made by [writeMessageAsyncAsFragmented]. *)
Record handle := { hDone : bool; hErr : option gerr; hFrag : bool }.

(** A message in the aggregation buffer: header and payload; [eW] is the number
    of the write call (ghost). *)
Record entry := { eW : nat; eMsg : bytes }.

(** Inside [sendDelayedNow] (session.go 1738-1778). *)
Inductive fpc :=
| FNew                             (* line 1746 *)
| FSwap (n : nat)                  (* line 1752, [newSendInfo] is n *)
| FSend (h : nat) (b : list entry) (* line 1764 and the checks of [sendMessages] *)
| FWrite (h : nat) (b : list entry)(* line 1967: [backend.Write] *)
| FClose (h : nat) (b : list entry)(* line 1768 *)
| FRet (h : nat) (b : list entry). (* line 1773 *)

Inductive lpc :=
| LConn (f : fpc)                        (* onConnect, lines 2033-2038 *)
| LSelect                                (* line 1818 *)
| LFlush (from : option nat) (f : fpc)   (* line 1833; [from]: received from sendDelayedNowChan *)
| LRearm (from : option nat) (id : nat)  (* line 1834 *)
| LRelease (h : nat)                     (* the deferred [Release] of line 1820 *)
| LEnd.

Inductive cpc := CNone | CFlush (f : fpc) | CCancel | CDone.

(** One call of [WriteMessage]/[WriteMessageAsync] (non-internal type). *)
Inductive wpc :=
| WIdle
| WCall (m : bytes)            (* line 1594 *)
| WTry (m : bytes)             (* line 1606 *)
| WFull (m : bytes) (h : nat)  (* line 1641 *)
| WSent (m : bytes) (h : nat)  (* line 1652: [sess.isDone()] *)
| WTick (m : bytes) (h : nat)  (* line 1663 *)
| WHave (h : nat)              (* got a handle *)
| WNow (h : nat)               (* SendNowAndWait, send_info.go 136 *)
| WWait (h : nat)              (* send_info.go 143 *)
| WRet (h : nat) (r : option gerr) (viaCtx : bool)  (* session.go 1368 *)
| WRefused (e : gerr).         (* the handle was returned finished, with an error *)

Inductive timer := TOff | TArmed | TFired.

Record bst := {
  bBuf : list entry;        (* delayedWriteBuf *)
  bCur : nat;               (* delayedSendInfo *)
  bNext : nat;              (* nextSendID *)
  bH : nat -> handle;
  bState : N;
  bCtx : bool;              (* ctx is cancelled *)
  bTimer : timer;           (* delayedSenderTimer *)
  bLast : nat;              (* lastSendInfoSendID *)
  bLoop : lpc;
  bLoopLast : nat;          (* lastSendID of delayedSenderLoop *)
  bNowClosed : bool;        (* sendDelayedNowChan is closed *)
  bCloser : cpc;
  bW : nat -> wpc;
  bAccepted : list (nat * entry);              (* ghost: appended messages, with their handle *)
  bSwaps : list (nat * list entry);            (* ghost: batches in the order of line 1754 *)
  bWire : list (nat * list entry * bool);      (* calls of backend.Write and whether they succeeded *)
  bPanic : bool
}.

Definition newHandle (frag : bool) : handle := {| hDone := false; hErr := None; hFrag := frag |}.

(** Right after [close(sess.isEstablished)] in [onConnect]. *)
Definition initBatch : bst :=
  {| bBuf := []; bCur := 1; bNext := 2; bH := fun _ => newHandle false; bState := SessionStateEstablished; bCtx := false;
     bTimer := TOff; bLast := 0; bLoop := LConn FNew; bLoopLast := 0; bNowClosed := false; bCloser := CNone;
     bW := fun _ => WIdle; bAccepted := []; bSwaps := []; bWire := []; bPanic := false |}.

Definition up_w (s : bst) (w : nat) (v : wpc) : bst :=
  {| bBuf := bBuf s; bCur := bCur s; bNext := bNext s; bH := bH s; bState := bState s; bCtx := bCtx s; bTimer := bTimer s;
     bLast := bLast s; bLoop := bLoop s; bLoopLast := bLoopLast s; bNowClosed := bNowClosed s; bCloser := bCloser s;
     bW := fupd (bW s) w v; bAccepted := bAccepted s; bSwaps := bSwaps s; bWire := bWire s; bPanic := bPanic s |}.
Definition up_loop (s : bst) (v : lpc) : bst :=
  {| bBuf := bBuf s; bCur := bCur s; bNext := bNext s; bH := bH s; bState := bState s; bCtx := bCtx s; bTimer := bTimer s;
     bLast := bLast s; bLoop := v; bLoopLast := bLoopLast s; bNowClosed := bNowClosed s; bCloser := bCloser s;
     bW := bW s; bAccepted := bAccepted s; bSwaps := bSwaps s; bWire := bWire s; bPanic := bPanic s |}.
Definition up_closer (s : bst) (v : cpc) : bst :=
  {| bBuf := bBuf s; bCur := bCur s; bNext := bNext s; bH := bH s; bState := bState s; bCtx := bCtx s; bTimer := bTimer s;
     bLast := bLast s; bLoop := bLoop s; bLoopLast := bLoopLast s; bNowClosed := bNowClosed s; bCloser := v;
     bW := bW s; bAccepted := bAccepted s; bSwaps := bSwaps s; bWire := bWire s; bPanic := bPanic s |}.
Definition up_timer (s : bst) (v : timer) : bst :=
  {| bBuf := bBuf s; bCur := bCur s; bNext := bNext s; bH := bH s; bState := bState s; bCtx := bCtx s; bTimer := v;
     bLast := bLast s; bLoop := bLoop s; bLoopLast := bLoopLast s; bNowClosed := bNowClosed s; bCloser := bCloser s;
     bW := bW s; bAccepted := bAccepted s; bSwaps := bSwaps s; bWire := bWire s; bPanic := bPanic s |}.
Definition up_loopLast (s : bst) (v : nat) : bst :=
  {| bBuf := bBuf s; bCur := bCur s; bNext := bNext s; bH := bH s; bState := bState s; bCtx := bCtx s; bTimer := bTimer s;
     bLast := bLast s; bLoop := bLoop s; bLoopLast := v; bNowClosed := bNowClosed s; bCloser := bCloser s;
     bW := bW s; bAccepted := bAccepted s; bSwaps := bSwaps s; bWire := bWire s; bPanic := bPanic s |}.
Definition up_nowClosed (s : bst) : bst :=
  {| bBuf := bBuf s; bCur := bCur s; bNext := bNext s; bH := bH s; bState := bState s; bCtx := bCtx s; bTimer := bTimer s;
     bLast := bLast s; bLoop := bLoop s; bLoopLast := bLoopLast s; bNowClosed := true; bCloser := bCloser s;
     bW := bW s; bAccepted := bAccepted s; bSwaps := bSwaps s; bWire := bWire s; bPanic := bPanic s |}.
Definition up_state (s : bst) (v : N) : bst :=
  {| bBuf := bBuf s; bCur := bCur s; bNext := bNext s; bH := bH s; bState := v; bCtx := bCtx s; bTimer := bTimer s;
     bLast := bLast s; bLoop := bLoop s; bLoopLast := bLoopLast s; bNowClosed := bNowClosed s; bCloser := bCloser s;
     bW := bW s; bAccepted := bAccepted s; bSwaps := bSwaps s; bWire := bWire s; bPanic := bPanic s |}.
Definition up_ctx (s : bst) : bst :=
  {| bBuf := bBuf s; bCur := bCur s; bNext := bNext s; bH := bH s; bState := bState s; bCtx := true; bTimer := bTimer s;
     bLast := bLast s; bLoop := bLoop s; bLoopLast := bLoopLast s; bNowClosed := bNowClosed s; bCloser := bCloser s;
     bW := bW s; bAccepted := bAccepted s; bSwaps := bSwaps s; bWire := bWire s; bPanic := bPanic s |}.
Definition up_panic (s : bst) : bst :=
  {| bBuf := bBuf s; bCur := bCur s; bNext := bNext s; bH := bH s; bState := bState s; bCtx := bCtx s; bTimer := bTimer s;
     bLast := bLast s; bLoop := bLoop s; bLoopLast := bLoopLast s; bNowClosed := bNowClosed s; bCloser := bCloser s;
     bW := bW s; bAccepted := bAccepted s; bSwaps := bSwaps s; bWire := bWire s; bPanic := true |}.
Definition up_handle (s : bst) (h : nat) (v : handle) : bst :=
  {| bBuf := bBuf s; bCur := bCur s; bNext := bNext s; bH := fupd (bH s) h v; bState := bState s; bCtx := bCtx s;
     bTimer := bTimer s; bLast := bLast s; bLoop := bLoop s; bLoopLast := bLoopLast s; bNowClosed := bNowClosed s;
     bCloser := bCloser s; bW := bW s; bAccepted := bAccepted s; bSwaps := bSwaps s; bWire := bWire s; bPanic := bPanic s |}.
(** send_info.go 53-64. *)
Definition alloc (s : bst) (frag : bool) : bst :=
  {| bBuf := bBuf s; bCur := bCur s; bNext := S (bNext s); bH := fupd (bH s) (bNext s) (newHandle frag); bState := bState s;
     bCtx := bCtx s; bTimer := bTimer s; bLast := bLast s; bLoop := bLoop s; bLoopLast := bLoopLast s;
     bNowClosed := bNowClosed s; bCloser := bCloser s; bW := bW s; bAccepted := bAccepted s; bSwaps := bSwaps s;
     bWire := bWire s; bPanic := bPanic s |}.
(** session.go 1752-1755. *)
Definition swap (s : bst) (n : nat) : bst :=
  {| bBuf := []; bCur := n; bNext := bNext s; bH := bH s; bState := bState s; bCtx := bCtx s; bTimer := bTimer s;
     bLast := bLast s; bLoop := bLoop s; bLoopLast := bLoopLast s; bNowClosed := bNowClosed s; bCloser := bCloser s;
     bW := bW s; bAccepted := bAccepted s; bSwaps := bSwaps s ++ [(bCur s, bBuf s)]; bWire := bWire s; bPanic := bPanic s |}.
Definition wire (s : bst) (h : nat) (b : list entry) (ok : bool) : bst :=
  {| bBuf := bBuf s; bCur := bCur s; bNext := bNext s; bH := bH s; bState := bState s; bCtx := bCtx s; bTimer := bTimer s;
     bLast := bLast s; bLoop := bLoop s; bLoopLast := bLoopLast s; bNowClosed := bNowClosed s; bCloser := bCloser s;
     bW := bW s; bAccepted := bAccepted s; bSwaps := bSwaps s; bWire := bWire s ++ [(h, b, ok)]; bPanic := bPanic s |}.
(** session.go 1699-1735. *)
Definition append (s : bst) (w : nat) (m : bytes) : bst :=
  {| bBuf := bBuf s ++ [{| eW := w; eMsg := m |}]; bCur := bCur s; bNext := bNext s; bH := bH s; bState := bState s;
     bCtx := bCtx s; bTimer := TArmed; bLast := bCur s; bLoop := bLoop s; bLoopLast := bLoopLast s;
     bNowClosed := bNowClosed s; bCloser := bCloser s; bW := fupd (bW s) w (WHave (bCur s));
     bAccepted := bAccepted s ++ [(bCur s, {| eW := w; eMsg := m |})]; bSwaps := bSwaps s; bWire := bWire s;
     bPanic := bPanic s |}.

(** Length of the buffer's content. *)
Definition batchLen (b : list entry) : N := len (concat (map eMsg b)).


Inductive fchoice :=
| FcGo
| FcCtx    (* a select takes the ctx.Done() branch *)
| FcZero   (* GetEstablishedPayloadSize takes the ctx.Done() branch *)
| FcFail.  (* backend.Write fails *)

Inductive tickChoice := TkCtx | TkClosed | TkSent | TkAsk.

Inductive blabel :=
| BWrite (w : nat) (t : N) (payload : bytes)
| BCheck (w : nat) (c : fchoice)
| BTry (w : nat) (c : fchoice)
| BAsk (w : nat) (delivered : bool)  (* line 1645-1648 *)
| BGone (w : nat)                    (* panic in lines 1642-1646, recovered *)
| BIsDone (w : nat)
| BTick (w : nat) (c : tickChoice)
| BWait (w : nat)
| BNow (w : nat)
| BNowSend (w : nat)
| BReturn (w : nat) (viaCtx : bool)
| BFragDone (h : nat) (e : option gerr)
| BFire
| BTimer              (* the sender takes the timer branch *)
| BStop               (* the sender takes the ctx.Done() branch *)
| BSender (c : fchoice)
| BClose              (* Close, lines 2254-2257 *)
| BCloser (c : fchoice)
| BSetClosing         (* the reader or the backend closer sets Closing *)
| BCancel             (* cancelFunc by anybody else, or the parent context *)
| BSetClosed.         (* readerLoopCleanup, line 840 *)

Section Batch.
  (** establishedPayloadSize, EnableFragmentation, capacity of the buffers. *)
  Variable est : N.
  Variable fragmentation : bool.
  Variable bufCap : N.

  (** session.go 582-586 (uint32 arithmetic). *)
  Definition packetSizeOf (e : N) : N := add32 (add32 e messagesContainerHeadersSize) messageHeadersSize.

  (** session.go 590-600: the payload size seen with choice [c]; [None]: this
      choice is not possible now. *)
  Definition estSeen (s : bst) (c : fchoice) : option N :=
    match c with
    | FcZero => if (bState s =? SessionStateClosed) && bCtx s then Some 0 else None
    | _ => Some est
    end.

  (** session.go 1738-1778 with 1853-1987. *)
  Definition fstep (s : bst) (f : fpc) (c : fchoice) : option (bst * fpc) :=
    match f with
    | FNew => match c with FcGo => Some (alloc s false, FSwap (bNext s)) | _ => None end
    | FSwap n => match c with FcGo => Some (swap s n, FSend (bCur s) (bBuf s)) | _ => None end
    | FSend h b =>
        let fail e := Some (up_handle s h {| hDone := hDone (bH s h); hErr := Some e; hFrag := hFrag (bH s h) |}, FClose h b) in
        match b with
        | [] => match c with FcGo => Some (s, FClose h b) | _ => None end
        | _ :: _ =>
            match c with
            | FcFail => None
            | FcCtx => (* lines 1897-1902 *)
                if negb (bState s =? SessionStateEstablished) && bCtx s then fail ErrAlreadyClosed else None
            | _ =>
                match estSeen s c with
                | None => None
                | Some e =>
                    if packetSizeOf e <? add32 messagesContainerHeadersSize (u32 (batchLen b)) then fail ErrPayloadTooBig
                    else if isDoneState (bState s) then fail ErrAlreadyClosed
                    else Some (s, FWrite h b)
                end
            end
        end
    | FWrite h b =>
        match c with
        | FcGo => Some (wire s h b true, FClose h b)
        | FcFail =>
            Some (up_handle (wire s h b false) h
                    {| hDone := hDone (bH s h); hErr := Some ErrBackend; hFrag := hFrag (bH s h) |}, FClose h b)
        | _ => None
        end
    | FClose h b =>
        match c with
        | FcGo =>
            if hDone (bH s h) then Some (up_panic s, FRet h b)  (* close of closed channel *)
            else Some (up_handle s h {| hDone := true; hErr := hErr (bH s h); hFrag := hFrag (bH s h) |}, FRet h b)
        | _ => None
        end
    | FRet h b => None
    end.

  (** The sender receives [h] from sendDelayedNowChan: session.go 1819-1826. *)
  Definition receive (s : bst) (h : nat) : bst :=
    up_loop s (if Nat.leb h (bLoopLast s) then LRelease h else LFlush (Some h) FNew).

  Definition atSelect (s : bst) : bool := match bLoop s with LSelect => true | _ => false end.

  Definition afterRelease (from : option nat) : lpc := match from with Some h => LRelease h | None => LSelect end.

  Definition bstep (s : bst) (l : blabel) : option bst :=
    if bPanic s then None else
    match l with
    | BWrite w t payload =>
        match bW s w with
        | WIdle =>
            if isInternal t then None
            else if est <? u32 (len payload) then   (* session.go 1441-1449 *)
              if fragmentation then Some (up_w (alloc s true) w (WHave (bNext s)))
              else Some (up_w s w (WRefused ErrPayloadTooBig))
            else Some (up_w s w (WCall (encodeMsg t (setIsConfidential 0 true) payload)))
        | _ => None
        end
    | BCheck w c =>   (* session.go 1594-1603 *)
        match bW s w with
        | WCall m =>
            match c with
            | FcGo => Some (up_w s w (WTry m))
            | FcCtx => if negb (bState s =? SessionStateEstablished) && bCtx s
                       then Some (up_w s w (WRefused ErrAlreadyClosed)) else None
            | _ => None
            end
        | _ => None
        end
    | BTry w c =>     (* session.go 1607-1627 *)
        match bW s w, estSeen s c with
        | WTry m, Some e =>
            if packetSizeOf e <? messagesContainerHeadersSize + batchLen (bBuf s) + len m then
              match bBuf s with
              | [] => Some (up_w s w (WRefused ErrPayloadTooBig))
              | _ :: _ => Some (up_w s w (WFull m (bCur s)))
              end
            else if bufCap <? batchLen (bBuf s) + len m then Some (up_panic s)
            else Some (append s w m)
        | _, _ => None
        end
    | BAsk w delivered =>
        match bW s w with
        | WFull m h =>
            if bNowClosed s then None
            else if delivered then
              if atSelect s then Some (receive (up_w s w (WSent m h)) h) else None
            else Some (up_w s w (WSent m h))
        | _ => None
        end
    | BGone w =>
        match bW s w with
        | WFull m h => if hDone (bH s h) || bNowClosed s then Some (up_w s w (WTry m)) else None
        | _ => None
        end
    | BIsDone w =>
        match bW s w with
        | WSent m h => Some (up_w s w (if isDoneState (bState s) then WTry m else WTick m h))
        | _ => None
        end
    | BTick w c =>    (* session.go 1662-1689 *)
        match bW s w with
        | WTick m h =>
            match c with
            | TkCtx => if bCtx s then Some (up_w s w (WTry m)) else None
            | TkClosed => if hDone (bH s h) then Some (up_w s w (WTry m)) else None
            | TkSent => match bBuf s with [] => Some (up_w s w (WTry m)) | _ => None end
            | TkAsk => match bBuf s with
                       | [] => None
                       | _ => if atSelect s then Some (receive s h) else None
                       end
            end
        | _ => None
        end
    | BWait w => match bW s w with WHave h => Some (up_w s w (WWait h)) | _ => None end
    | BNow w => match bW s w with WHave h => Some (up_w s w (WNow h)) | _ => None end
    | BNowSend w =>
        match bW s w with
        | WNow h =>
            if bNowClosed s then Some (up_panic s)   (* send on closed channel *)
            else if atSelect s then Some (receive (up_w s w (WWait h)) h)
            else None
        | _ => None
        end
    | BReturn w viaCtx =>
        match bW s w with
        | WWait h =>
            if (if viaCtx then bCtx s else hDone (bH s h)) then Some (up_w s w (WRet h (hErr (bH s h)) viaCtx)) else None
        | _ => None
        end
    | BFragDone h e =>
        if Nat.ltb h (bNext s) && hFrag (bH s h) && negb (hDone (bH s h))
        then Some (up_handle s h {| hDone := true; hErr := e; hFrag := true |}) else None
    | BFire => match bTimer s with TArmed => Some (up_timer s TFired) | _ => None end
    | BTimer =>
        match bLoop s, bTimer s with
        | LSelect, TFired => Some (up_loop (up_timer s TOff) (LFlush None FNew))
        | _, _ => None
        end
    | BStop =>
        match bLoop s with
        | LSelect => if bCtx s then Some (up_loop (up_nowClosed s) LEnd) else None
        | _ => None
        end
    | BSender c =>
        match bLoop s with
        | LConn (FRet h b) =>   (* lines 2034-2041 *)
            match c with FcGo => Some (up_loop s (match b with [] => LSelect | _ => LConn FNew end)) | _ => None end
        | LConn f => match fstep s f c with Some (s', f') => Some (up_loop s' (LConn f')) | None => None end
        | LFlush from (FRet h b) => match c with FcGo => Some (up_loop s (LRearm from h)) | _ => None end
        | LFlush from f => match fstep s f c with Some (s', f') => Some (up_loop s' (LFlush from f')) | None => None end
        | LRearm from id =>     (* lines 1834-1848 *)
            match c with
            | FcGo => Some (up_loop (up_loopLast (if Nat.ltb id (bLast s) then up_timer s TArmed else s) id) (afterRelease from))
            | _ => None
            end
        | LRelease h =>         (* send_info.go 107-113 *)
            match c with
            | FcGo => if hDone (bH s h) || bCtx s then Some (up_loop s LSelect) else Some (up_panic s)
            | _ => None
            end
        | _ => None
        end
    | BClose =>
        if isDoneState (bState s) then None   (* ErrAlreadyClosed, nothing happens *)
        else Some (up_closer (up_state s SessionStateClosing) (CFlush FNew))
    | BCloser c =>
        match bCloser s with
        | CFlush (FRet h b) =>
            match c with FcGo => Some (up_closer s (match b with [] => CCancel | _ => CFlush FNew end)) | _ => None end
        | CFlush f => match fstep s f c with Some (s', f') => Some (up_closer s' (CFlush f')) | None => None end
        | CCancel => match c with FcGo => Some (up_closer (up_ctx s) CDone) | _ => None end
        | _ => None
        end
    | BSetClosing => if isDoneState (bState s) then None else Some (up_state s SessionStateClosing)
    | BCancel => if bCtx s then None else Some (up_ctx s)
    | BSetClosed => if bCtx s && (bState s =? SessionStateClosing) then Some (up_state s SessionStateClosed) else None
    end.
End Batch.
