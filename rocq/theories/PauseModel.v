(** Pausing, and closing, against the reader loop: session.go 637-680 (backend
    closer), 713-806 (SetPause, waitForUnpause, resetReadDeadline), 819-880,
    901-950 (reader loop), 2218-2260 (interruptRead, Close).

    The session is Established at the beginning. One step is one critical section
    of a mutex or one atomic access. Simplifications: [sess.lockDo] in SetPause is
    left out (nothing else holds that lock while waiting for anything here);
    decryption and processing of a packet is one step; DetachOn* options are 0;
    the cleanup of the reader is one step up to 843 and one step for 844. *)
From Coq Require Import NArith List Bool.
From Verif Require Import Base TS ReaderModel ReaderLoopModel StateModel.
Import ListNotations.
Local Open Scope N_scope.

(** A call of SetPause(b); [c] numbers the channel it made. *)
Inductive pcall :=
| PNone
| PWant (b : bool)            (* at pauseLocker.Lock *)
| PIn (b : bool)              (* holds pauseLocker *)
| PWaitLock (c : nat)         (* at line 732, the state is set *)
| PUnl                        (* at line 739, the state is set *)
| PIntr (c : nat)             (* at line 749 *)
| PDl (c : nat)               (* inside interruptRead, requested counted *)
| PWaiting (c : nat) (err : bool)  (* at line 754 *)
| PRet (ok : bool).

Inductive rphase :=
| RTop          (* 908: isDone? *)
| RSet          (* 909 *)
| RCheck        (* 763 *)
| RPL           (* 768: at pauseLocker.Lock *)
| RPC           (* 769-773, holding it *)
| RReset        (* 775 *)
| RPW           (* 776: at pauseWaitLocker.Lock *)
| RPU           (* 777 *)
| RRead         (* 912 *)
| RGot          (* 913 after data *)
| RProc
| RErr (timeout : bool)    (* 913 after an error *)
| RErrH (timeout : bool)   (* readerLoopReadError *)
| REnd          (* readerLoopCleanup *)
| RFin          (* 844: its resetReadDeadline *)
| RDone.

(** pauseWaitLocker; who locked it is not known to Go, it is kept for the proofs. *)
Inductive wlock := WFree | WPaused | WReader.
Inductive owner := OwnCall (t : nat) | OwnReader.

Record pst := {
  p_state : N;
  p_chan : option nat;        (* pauseStartChan *)
  p_next : nat;               (* channels made so far *)
  p_closed : nat -> bool;     (* closed channels *)
  p_lock : option owner;      (* pauseLocker *)
  p_wait : wlock;
  p_reading : bool;           (* isReadingValue *)
  p_req : N;                  (* readInterruptsRequested *)
  p_hap : N;                  (* readInterruptsHappened *)
  p_dl : bool;                (* the read deadline of the backend is in the past *)
  p_ctx : bool;
  p_closer : N;               (* backend closer: 0 waits for ctx, 1 at 646..., 2 before setting the deadline, 3 over *)
  p_bclosed : bool;           (* the backend is closed *)
  p_reader : rphase;
  p_calls : nat -> pcall;
  p_errors : N;               (* calls of the error handler from readerLoopReadError *)
  p_panic : bool
}.

Definition initPause : pst :=
  {| p_state := SessionStateEstablished; p_chan := None; p_next := 0; p_closed := fun _ => false; p_lock := None;
     p_wait := WFree; p_reading := false; p_req := 0; p_hap := 0; p_dl := false; p_ctx := false; p_closer := 0;
     p_bclosed := false; p_reader := RTop; p_calls := fun _ => PNone; p_errors := 0; p_panic := false |}.

Inductive plabel :=
| PLCall (t : nat) (b : bool)
| PLock (t : nat) | PSet (t : nat) | PWLock (t : nat) | PUnlock (t : nat) | PInterrupt (t : nat) | PDeadline (t : nat)
| PReturn (t : nat)
| RStep                        (* the reader's next step, where it has no choice *)
| RData                        (* Read returns data *)
| RTimeout                     (* Read returns because of the deadline *)
| RFail                        (* Read returns another error, for reasons of its own *)
| RClosedErr                   (* Read returns because the backend is closed *)
| RHandle (handled : bool)     (* readerLoopReadError; the event handler's answer if it is asked *)
| PLClose                      (* Close by anybody: the state change *)
| PLCancel                     (* cancelFunc, or the user's context ends *)
| CStep.                       (* the backend closer *)

(* one-field updates *)
Definition up_state (s : pst) v := {| p_state := v; p_chan := p_chan s; p_next := p_next s; p_closed := p_closed s; p_lock := p_lock s;
  p_wait := p_wait s; p_reading := p_reading s; p_req := p_req s; p_hap := p_hap s; p_dl := p_dl s; p_ctx := p_ctx s; p_closer := p_closer s;
  p_bclosed := p_bclosed s; p_reader := p_reader s; p_calls := p_calls s; p_errors := p_errors s; p_panic := p_panic s |}.
Definition up_chan (s : pst) ch nx cl := {| p_state := p_state s; p_chan := ch; p_next := nx; p_closed := cl; p_lock := p_lock s;
  p_wait := p_wait s; p_reading := p_reading s; p_req := p_req s; p_hap := p_hap s; p_dl := p_dl s; p_ctx := p_ctx s; p_closer := p_closer s;
  p_bclosed := p_bclosed s; p_reader := p_reader s; p_calls := p_calls s; p_errors := p_errors s; p_panic := p_panic s |}.
Definition up_lock (s : pst) v := {| p_state := p_state s; p_chan := p_chan s; p_next := p_next s; p_closed := p_closed s; p_lock := v;
  p_wait := p_wait s; p_reading := p_reading s; p_req := p_req s; p_hap := p_hap s; p_dl := p_dl s; p_ctx := p_ctx s; p_closer := p_closer s;
  p_bclosed := p_bclosed s; p_reader := p_reader s; p_calls := p_calls s; p_errors := p_errors s; p_panic := p_panic s |}.
Definition up_wait (s : pst) v := {| p_state := p_state s; p_chan := p_chan s; p_next := p_next s; p_closed := p_closed s; p_lock := p_lock s;
  p_wait := v; p_reading := p_reading s; p_req := p_req s; p_hap := p_hap s; p_dl := p_dl s; p_ctx := p_ctx s; p_closer := p_closer s;
  p_bclosed := p_bclosed s; p_reader := p_reader s; p_calls := p_calls s; p_errors := p_errors s; p_panic := p_panic s |}.
Definition up_reading (s : pst) v := {| p_state := p_state s; p_chan := p_chan s; p_next := p_next s; p_closed := p_closed s; p_lock := p_lock s;
  p_wait := p_wait s; p_reading := v; p_req := p_req s; p_hap := p_hap s; p_dl := p_dl s; p_ctx := p_ctx s; p_closer := p_closer s;
  p_bclosed := p_bclosed s; p_reader := p_reader s; p_calls := p_calls s; p_errors := p_errors s; p_panic := p_panic s |}.
Definition up_intr (s : pst) rq hp dl := {| p_state := p_state s; p_chan := p_chan s; p_next := p_next s; p_closed := p_closed s; p_lock := p_lock s;
  p_wait := p_wait s; p_reading := p_reading s; p_req := rq; p_hap := hp; p_dl := dl; p_ctx := p_ctx s; p_closer := p_closer s;
  p_bclosed := p_bclosed s; p_reader := p_reader s; p_calls := p_calls s; p_errors := p_errors s; p_panic := p_panic s |}.
Definition up_closer (s : pst) ctx cl bc := {| p_state := p_state s; p_chan := p_chan s; p_next := p_next s; p_closed := p_closed s; p_lock := p_lock s;
  p_wait := p_wait s; p_reading := p_reading s; p_req := p_req s; p_hap := p_hap s; p_dl := p_dl s; p_ctx := ctx; p_closer := cl;
  p_bclosed := bc; p_reader := p_reader s; p_calls := p_calls s; p_errors := p_errors s; p_panic := p_panic s |}.
Definition up_reader (s : pst) v := {| p_state := p_state s; p_chan := p_chan s; p_next := p_next s; p_closed := p_closed s; p_lock := p_lock s;
  p_wait := p_wait s; p_reading := p_reading s; p_req := p_req s; p_hap := p_hap s; p_dl := p_dl s; p_ctx := p_ctx s; p_closer := p_closer s;
  p_bclosed := p_bclosed s; p_reader := v; p_calls := p_calls s; p_errors := p_errors s; p_panic := p_panic s |}.
Definition up_call (s : pst) t v := {| p_state := p_state s; p_chan := p_chan s; p_next := p_next s; p_closed := p_closed s; p_lock := p_lock s;
  p_wait := p_wait s; p_reading := p_reading s; p_req := p_req s; p_hap := p_hap s; p_dl := p_dl s; p_ctx := p_ctx s; p_closer := p_closer s;
  p_bclosed := p_bclosed s; p_reader := p_reader s; p_calls := fupd (p_calls s) t v; p_errors := p_errors s; p_panic := p_panic s |}.
Definition up_errors (s : pst) := {| p_state := p_state s; p_chan := p_chan s; p_next := p_next s; p_closed := p_closed s; p_lock := p_lock s;
  p_wait := p_wait s; p_reading := p_reading s; p_req := p_req s; p_hap := p_hap s; p_dl := p_dl s; p_ctx := p_ctx s; p_closer := p_closer s;
  p_bclosed := p_bclosed s; p_reader := p_reader s; p_calls := p_calls s; p_errors := p_errors s + 1; p_panic := p_panic s |}.
Definition up_panic (s : pst) := {| p_state := p_state s; p_chan := p_chan s; p_next := p_next s; p_closed := p_closed s; p_lock := p_lock s;
  p_wait := p_wait s; p_reading := p_reading s; p_req := p_req s; p_hap := p_hap s; p_dl := p_dl s; p_ctx := p_ctx s; p_closer := p_closer s;
  p_bclosed := p_bclosed s; p_reader := p_reader s; p_calls := p_calls s; p_errors := p_errors s; p_panic := true |}.

(** 682-689 *)
Definition isDoneState (st : N) : bool := memN st [SessionStateClosed; SessionStateClosing].

(** [canDeadline]: the backend has a working SetReadDeadline or SetDeadline. *)
Definition setDeadline (canDeadline : bool) (s : pst) (past : bool) : pst :=
  if canDeadline then up_intr s (p_req s) (p_hap s) past else s.

(** 796-806 *)
Definition resetDeadline (canDeadline : bool) (s : pst) : pst :=
  if p_req s <=? p_hap s then s
  else let s1 := setDeadline canDeadline s false in up_intr s1 (p_req s1) (p_req s1) (p_dl s1).

Definition closeState (s : pst) : pst := up_state s (fst (setState (p_state s) SessionStateClosing [SessionStateClosed])).

Definition isFree (w : wlock) : bool := match w with WFree => true | _ => false end.

Definition pstep (canDeadline : bool) (s : pst) (l : plabel) : option pst :=
  if p_panic s then None else
  match l with
  | PLCall t b => match p_calls s t with PNone => Some (up_call s t (PWant b)) | _ => None end
  | PLock t =>
      match p_calls s t, p_lock s with
      | PWant b, None => Some (up_lock (up_call s t (PIn b)) (Some (OwnCall t)))
      | _, _ => None
      end
  | PSet t =>
      match p_calls s t with
      | PIn true =>        (* 730-736 *)
          let c := p_next s in
          let s1 := up_chan s (Some c) (S c) (p_closed s) in
          let (st, old) := setState (p_state s) SessionStatePaused badStates in
          if old =? SessionStateEstablished then Some (up_call (up_state s1 st) t (PWaitLock c))
          else Some (up_lock (up_call (up_state (up_chan s1 None (S c) (p_closed s)) st) t (PRet false)) None)
      | PIn false =>       (* 738-741 *)
          let (st, old) := setState (p_state s) SessionStateEstablished badStates in
          if old =? SessionStatePaused then Some (up_call (up_state s st) t PUnl)
          else Some (up_lock (up_call (up_state s st) t (PRet false)) None)
      | _ => None
      end
  | PWLock t =>
      match p_calls s t with
      | PWaitLock c => if isFree (p_wait s) then Some (up_call (up_wait s WPaused) t (PIntr c)) else None
      | _ => None
      end
  | PUnlock t =>           (* unlocking an unlocked mutex is a fatal error *)
      match p_calls s t with
      | PUnl => if isFree (p_wait s) then Some (up_panic s) else Some (up_lock (up_call (up_wait s WFree) t (PRet true)) None)
      | _ => None
      end
  | PInterrupt t =>        (* 2221-2228 *)
      match p_calls s t with
      | PIntr c => if p_reading s then Some (up_call (up_intr s (p_req s + 1) (p_hap s) (p_dl s)) t (PDl c))
                   else Some (up_lock (up_call s t (PWaiting c false)) None)
      | _ => None
      end
  | PDeadline t =>         (* 2229 *)
      match p_calls s t with
      | PDl c => Some (up_lock (up_call (setDeadline canDeadline s true) t (PWaiting c (negb canDeadline))) None)
      | _ => None
      end
  | PReturn t =>
      match p_calls s t with
      | PWaiting c err => if p_closed s c then Some (up_call s t (PRet (negb err))) else None
      | _ => None
      end
  | RStep =>
      match p_reader s with
      | RTop => Some (up_reader s (if isDoneState (p_state s) then REnd else RSet))
      | RSet => Some (up_reader (up_reading s true) RCheck)
      | RCheck => Some (up_reader s (if p_state s =? SessionStatePaused then RPL else RRead))
      | RPL => match p_lock s with None => Some (up_reader (up_lock s (Some OwnReader)) RPC) | Some _ => None end
      | RPC => match p_chan s with
               | None => Some (up_reader (up_lock s None) RReset)
               | Some c => if p_closed s c then Some (up_panic s)
                           else Some (up_reader (up_lock (up_chan s None (p_next s) (fupd (p_closed s) c true)) None) RReset)
               end
      | RReset => Some (up_reader (resetDeadline canDeadline s) RPW)
      | RPW => if isFree (p_wait s) then Some (up_reader (up_wait s WReader) RPU) else None
      | RPU => Some (up_reader (up_wait s WFree) RRead)
      | RGot => Some (up_reader (up_reading s false) RProc)
      | RProc => Some (up_reader s RTop)
      | RErr b => Some (up_reader (up_reading s false) (RErrH b))
      | REnd => Some (up_reader (up_closer (up_state s SessionStateClosed) true (p_closer s) (p_bclosed s)) RFin)
      | RFin => Some (up_reader (resetDeadline canDeadline s) RDone)
      | RRead | RErrH _ | RDone => None
      end
  | RData => match p_reader s with RRead => if p_bclosed s then None else Some (up_reader s RGot) | _ => None end
  | RTimeout => match p_reader s with RRead => if p_dl s then Some (up_reader s (RErr true)) else None | _ => None end
  | RFail => match p_reader s with RRead => Some (up_reader s (RErr false)) | _ => None end
  | RClosedErr => match p_reader s with RRead => if p_bclosed s then Some (up_reader s (RErr false)) else None | _ => None end
  | RHandle handled =>     (* 848-880 *)
      match p_reader s with
      | RErrH timeout =>
          if isDoneState (p_state s) then Some (up_reader s REnd)
          else
            let interrupted := timeout && (p_hap s <? p_req s) in
            let s1 := if interrupted then let s1 := setDeadline canDeadline s false in up_intr s1 (p_req s1) (p_req s1) (p_dl s1) else s in
            if interrupted && canDeadline then Some (up_reader s1 RTop)
            else if handled then Some (up_errors (up_reader s1 RTop))
            else Some (up_errors (up_reader (closeState s1) RTop))
      | _ => None
      end
  | PLClose => Some (closeState s)
  | PLCancel => Some (up_closer s true (p_closer s) (p_bclosed s))
  | CStep =>               (* 637-680 *)
      match p_closer s with
      | 0 => if p_ctx s then Some (up_closer (closeState s) (p_ctx s) 1 (p_bclosed s)) else None
      | 1 => if p_reading s then Some (up_closer (up_intr s (p_req s + 1) (p_hap s) (p_dl s)) (p_ctx s) 2 (p_bclosed s))
             else Some (up_closer s (p_ctx s) 3 (p_bclosed s))
      | 2 => let s1 := setDeadline canDeadline s true in Some (up_closer s1 (p_ctx s1) 3 (if canDeadline then p_bclosed s1 else true))
      | _ => None
      end
  end.
