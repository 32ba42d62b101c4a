(** The end of a session: which goroutines [WaitForClosure] waits for, and what
    they do with the backend.
    session.go 609-700, 819-846, 1478-1510, 1797-1852, 1950-1957, 2083-2110,
    2231-2277; key_exchanger.go 433-488, 536-559, 625-716, 752-755.

    Left out: the negotiator (its goroutines are waited for by its [Close], which
    the reader's clean-up calls), the goroutines of the messengers (they end with
    the clean-up of the reader), pauses, and the content of packets. *)
From Coq Require Import NArith List Bool Arith.
From Verif Require Import Base.
Import ListNotations.

(** A goroutine on its way through [sendMessages]. *)
Inductive wPc :=
| WCheck     (* before [isDone], 1951 *)
| WWrite     (* before [backend.Write], 1955 *)
| WFail      (* the write failed: key_exchanger.go 705-711, after [kx.Close] *)
| WEnd.

(** [keyExchanger.loop]. *)
Inductive lwPc := LwIdle | LwAt (p : wPc) | LwEnd.

Inductive rdPc :=
| RdLoop       (* the condition of the loop, 908 *)
| RdHandle     (* a request was received; key_exchanger.go 449 *)
| RdAdd        (* the context was checked; 479 *)
| RdCleanup    (* 819-827: the state is Closing or Closed *)
| RdEnd.

(** [delayedSenderLoop]. *)
Inductive sdPc := SdIdle | SdAt (p : wPc) | SdEnd.

Record cl := {
  cDone : bool;            (* the state is Closing or Closed *)
  cFlush : bool;           (* inside [startClosing] *)
  cCtx : bool;             (* the context of the session is done *)
  cKxCtx : bool;           (* the exchanger was closed *)
  cReader : rdPc;
  cLoop : lwPc;
  cAnswers : list wPc;
  cFrags : list wPc;
  cSender : sdPc;
  cCloser : bool;          (* [startBackendCloser] has finished *)
  cKxWait : bool;          (* the goroutine of 2106-2109 has finished *)
  cClosed : bool;          (* the application has called [CloseAndWait] *)
  cReturned : bool;        (* [WaitForClosure] has returned *)
  cWrites : nat;           (* calls of [backend.Write] *)
  cLate : nat;             (* those made after [WaitForClosure] returned *)
  cErrors : nat            (* calls of [eventHandler.Error] *)
}.

Definition clInit : cl :=
  {| cDone := false; cFlush := false; cCtx := false; cKxCtx := false; cReader := RdLoop; cLoop := LwIdle; cAnswers := [];
     cFrags := []; cSender := SdIdle; cCloser := false; cKxWait := false; cClosed := false; cReturned := false;
     cWrites := 0; cLate := 0; cErrors := 0 |}.

Definition setDone (s : cl) : cl :=
  {| cDone := true; cFlush := cFlush s; cCtx := cCtx s; cKxCtx := cKxCtx s; cReader := cReader s; cLoop := cLoop s;
     cAnswers := cAnswers s; cFrags := cFrags s; cSender := cSender s; cCloser := cCloser s; cKxWait := cKxWait s;
     cClosed := cClosed s; cReturned := cReturned s; cWrites := cWrites s; cLate := cLate s; cErrors := cErrors s |}.
Definition setFlush (s : cl) (v : bool) : cl :=
  {| cDone := cDone s; cFlush := v; cCtx := cCtx s; cKxCtx := cKxCtx s; cReader := cReader s; cLoop := cLoop s;
     cAnswers := cAnswers s; cFrags := cFrags s; cSender := cSender s; cCloser := cCloser s; cKxWait := cKxWait s;
     cClosed := cClosed s; cReturned := cReturned s; cWrites := cWrites s; cLate := cLate s; cErrors := cErrors s |}.
Definition setCtxDone (s : cl) : cl :=
  {| cDone := cDone s; cFlush := cFlush s; cCtx := true; cKxCtx := cKxCtx s; cReader := cReader s; cLoop := cLoop s;
     cAnswers := cAnswers s; cFrags := cFrags s; cSender := cSender s; cCloser := cCloser s; cKxWait := cKxWait s;
     cClosed := cClosed s; cReturned := cReturned s; cWrites := cWrites s; cLate := cLate s; cErrors := cErrors s |}.
Definition setKxCtx (s : cl) : cl :=
  {| cDone := cDone s; cFlush := cFlush s; cCtx := cCtx s; cKxCtx := true; cReader := cReader s; cLoop := cLoop s;
     cAnswers := cAnswers s; cFrags := cFrags s; cSender := cSender s; cCloser := cCloser s; cKxWait := cKxWait s;
     cClosed := cClosed s; cReturned := cReturned s; cWrites := cWrites s; cLate := cLate s; cErrors := cErrors s |}.
Definition setReader (s : cl) (p : rdPc) : cl :=
  {| cDone := cDone s; cFlush := cFlush s; cCtx := cCtx s; cKxCtx := cKxCtx s; cReader := p; cLoop := cLoop s;
     cAnswers := cAnswers s; cFrags := cFrags s; cSender := cSender s; cCloser := cCloser s; cKxWait := cKxWait s;
     cClosed := cClosed s; cReturned := cReturned s; cWrites := cWrites s; cLate := cLate s; cErrors := cErrors s |}.
Definition setLoopPc (s : cl) (p : lwPc) : cl :=
  {| cDone := cDone s; cFlush := cFlush s; cCtx := cCtx s; cKxCtx := cKxCtx s; cReader := cReader s; cLoop := p;
     cAnswers := cAnswers s; cFrags := cFrags s; cSender := cSender s; cCloser := cCloser s; cKxWait := cKxWait s;
     cClosed := cClosed s; cReturned := cReturned s; cWrites := cWrites s; cLate := cLate s; cErrors := cErrors s |}.
Definition setAnswers (s : cl) (l : list wPc) : cl :=
  {| cDone := cDone s; cFlush := cFlush s; cCtx := cCtx s; cKxCtx := cKxCtx s; cReader := cReader s; cLoop := cLoop s;
     cAnswers := l; cFrags := cFrags s; cSender := cSender s; cCloser := cCloser s; cKxWait := cKxWait s;
     cClosed := cClosed s; cReturned := cReturned s; cWrites := cWrites s; cLate := cLate s; cErrors := cErrors s |}.
Definition setFrags (s : cl) (l : list wPc) : cl :=
  {| cDone := cDone s; cFlush := cFlush s; cCtx := cCtx s; cKxCtx := cKxCtx s; cReader := cReader s; cLoop := cLoop s;
     cAnswers := cAnswers s; cFrags := l; cSender := cSender s; cCloser := cCloser s; cKxWait := cKxWait s;
     cClosed := cClosed s; cReturned := cReturned s; cWrites := cWrites s; cLate := cLate s; cErrors := cErrors s |}.
Definition setSender (s : cl) (p : sdPc) : cl :=
  {| cDone := cDone s; cFlush := cFlush s; cCtx := cCtx s; cKxCtx := cKxCtx s; cReader := cReader s; cLoop := cLoop s;
     cAnswers := cAnswers s; cFrags := cFrags s; cSender := p; cCloser := cCloser s; cKxWait := cKxWait s;
     cClosed := cClosed s; cReturned := cReturned s; cWrites := cWrites s; cLate := cLate s; cErrors := cErrors s |}.
Definition setCloser (s : cl) : cl :=
  {| cDone := cDone s; cFlush := cFlush s; cCtx := cCtx s; cKxCtx := cKxCtx s; cReader := cReader s; cLoop := cLoop s;
     cAnswers := cAnswers s; cFrags := cFrags s; cSender := cSender s; cCloser := true; cKxWait := cKxWait s;
     cClosed := cClosed s; cReturned := cReturned s; cWrites := cWrites s; cLate := cLate s; cErrors := cErrors s |}.
Definition setKxWait (s : cl) : cl :=
  {| cDone := cDone s; cFlush := cFlush s; cCtx := cCtx s; cKxCtx := cKxCtx s; cReader := cReader s; cLoop := cLoop s;
     cAnswers := cAnswers s; cFrags := cFrags s; cSender := cSender s; cCloser := cCloser s; cKxWait := true;
     cClosed := cClosed s; cReturned := cReturned s; cWrites := cWrites s; cLate := cLate s; cErrors := cErrors s |}.
Definition setClosed (s : cl) : cl :=
  {| cDone := cDone s; cFlush := cFlush s; cCtx := cCtx s; cKxCtx := cKxCtx s; cReader := cReader s; cLoop := cLoop s;
     cAnswers := cAnswers s; cFrags := cFrags s; cSender := cSender s; cCloser := cCloser s; cKxWait := cKxWait s;
     cClosed := true; cReturned := cReturned s; cWrites := cWrites s; cLate := cLate s; cErrors := cErrors s |}.
Definition setReturned (s : cl) : cl :=
  {| cDone := cDone s; cFlush := cFlush s; cCtx := cCtx s; cKxCtx := cKxCtx s; cReader := cReader s; cLoop := cLoop s;
     cAnswers := cAnswers s; cFrags := cFrags s; cSender := cSender s; cCloser := cCloser s; cKxWait := cKxWait s;
     cClosed := cClosed s; cReturned := true; cWrites := cWrites s; cLate := cLate s; cErrors := cErrors s |}.
Definition addWrite (s : cl) : cl :=
  {| cDone := cDone s; cFlush := cFlush s; cCtx := cCtx s; cKxCtx := cKxCtx s; cReader := cReader s; cLoop := cLoop s;
     cAnswers := cAnswers s; cFrags := cFrags s; cSender := cSender s; cCloser := cCloser s; cKxWait := cKxWait s;
     cClosed := cClosed s; cReturned := cReturned s; cWrites := S (cWrites s);
     cLate := if cReturned s then S (cLate s) else cLate s; cErrors := cErrors s |}.
Definition addError (s : cl) : cl :=
  {| cDone := cDone s; cFlush := cFlush s; cCtx := cCtx s; cKxCtx := cKxCtx s; cReader := cReader s; cLoop := cLoop s;
     cAnswers := cAnswers s; cFrags := cFrags s; cSender := cSender s; cCloser := cCloser s; cKxWait := cKxWait s;
     cClosed := cClosed s; cReturned := cReturned s; cWrites := cWrites s; cLate := cLate s; cErrors := S (cErrors s) |}.

Inductive cllabel :=
| ClClose                         (* the application: [Close], 2253-2260, to the flush *)
| ClCancel                        (* the end of [startClosing], 2246 *)
| ClParent                        (* the context given to [Start] ends *)
| ClCloser                        (* 642-645 and the rest *)
| ClReceive                       (* the reader receives a key exchange request *)
| ClReader                        (* its next step otherwise *)
| ClDetach                        (* the reader leaves its loop by itself *)
| ClTick                          (* key_exchanger.go 555-556, 544: the loop is about to send *)
| ClLoop (ok : bool)              (* the next step of the loop; [ok]: how a write ends *)
| ClLoopEnd
| ClAnswer (i : nat) (ok : bool)
| ClAsync (n : nat)               (* the application: [WriteMessageAsync] of n fragments *)
| ClFrag (i : nat) (ok : bool)
| ClSend                          (* the delayed sender has something to send *)
| ClSender (ok : bool)
| ClSenderEnd
| ClKxWait                        (* [kx.wg] is zero *)
| ClReturn.                       (* [stopWaitGroup] is zero *)

Definition isWEnd (p : wPc) : bool := match p with WEnd => true | _ => false end.
Definition setNthW (l : list wPc) (i : nat) (p : wPc) : list wPc := firstn i l ++ [p] ++ skipn (S i) l.

(** A step of a goroutine that sends an exchange message. A session that is done
    gives an error, like a failing backend: [mustSendPublicKey] closes the
    exchanger, then the session, and reports the error. *)
Definition kxSend (s : cl) (p : wPc) (ok : bool) : option (cl * wPc) :=
  match p with
  | WCheck => Some (if cDone s then (setKxCtx s, WFail) else (s, WWrite))
  | WWrite => Some (if ok then (addWrite s, WEnd) else (setKxCtx (addWrite s), WFail))
  | WFail => Some (addError (if cDone s then s else setFlush (setDone s) true), WEnd)
  | WEnd => None
  end.

(** Other data: the error goes to the handle. *)
Definition dataSend (s : cl) (p : wPc) : option (cl * wPc) :=
  match p with
  | WCheck => Some (s, if cDone s then WEnd else WWrite)
  | WWrite => Some (addWrite s, WEnd)
  | _ => None
  end.

Definition clStep (s : cl) (l : cllabel) : option cl :=
  match l with
  | ClClose =>
      if cClosed s then None
      else Some (setClosed (if cDone s then s else setFlush (setDone s) true))
  | ClCancel => if cFlush s then Some (setCtxDone (setFlush s false)) else None
  | ClParent => Some (setCtxDone s)
  | ClCloser => if cCtx s && negb (cCloser s) then Some (setCloser (setDone s)) else None
  | ClReceive =>
      match cReader s with RdLoop => if cDone s then None else Some (setReader s RdHandle) | _ => None end
  | ClReader =>
      match cReader s with
      | RdLoop => if cDone s then Some (setReader s RdCleanup) else None
      | RdHandle => Some (setReader s (if cCtx s || cKxCtx s then RdLoop else RdAdd))
      | RdAdd => Some (setReader (setAnswers s (cAnswers s ++ [WCheck])) RdLoop)
      | RdCleanup => Some (setReader (setCtxDone s) RdEnd)
      | RdEnd => None
      end
  | ClDetach => match cReader s with RdLoop => Some (setReader (setDone s) RdCleanup) | _ => None end
  | ClTick => match cLoop s with LwIdle => Some (setLoopPc s (LwAt WCheck)) | _ => None end
  | ClLoop ok =>
      match cLoop s with
      | LwAt p =>
          match kxSend s p ok with
          | Some (s, p) => Some (setLoopPc s (if isWEnd p then LwIdle else LwAt p))
          | None => None
          end
      | _ => None
      end
  | ClLoopEnd => match cLoop s with LwIdle => if cCtx s || cKxCtx s then Some (setLoopPc s LwEnd) else None | _ => None end
  | ClAnswer i ok =>
      match nth_error (cAnswers s) i with
      | Some p => match kxSend s p ok with Some (s, p) => Some (setAnswers s (setNthW (cAnswers s) i p)) | None => None end
      | None => None
      end
  | ClAsync n => if cClosed s then None else Some (setFrags s (cFrags s ++ repeat WCheck n))
  | ClFrag i ok =>
      match nth_error (cFrags s) i with
      | Some p => match dataSend s p with Some (s, p) => Some (setFrags s (setNthW (cFrags s) i p)) | None => None end
      | None => None
      end
  | ClSend => match cSender s with SdIdle => Some (setSender s (SdAt WCheck)) | _ => None end
  | ClSender ok =>
      match cSender s with
      | SdAt p => match dataSend s p with Some (s, p) => Some (setSender s (if isWEnd p then SdIdle else SdAt p)) | None => None end
      | _ => None
      end
  | ClSenderEnd => match cSender s with SdIdle => if cCtx s then Some (setSender s SdEnd) else None | _ => None end
  | ClKxWait =>
      match cLoop s with
      | LwEnd => if forallb isWEnd (cAnswers s) && negb (cKxWait s) then Some (setKxWait s) else None
      | _ => None
      end
  | ClReturn =>
      match cReader s, cSender s with
      | RdEnd, SdEnd => if cCloser s && cKxWait s && negb (cReturned s) then Some (setReturned s) else None
      | _, _ => None
      end
  end.
