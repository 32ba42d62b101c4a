(** One key update after the other, with retries and time-out: key_exchanger.go
    208-244 ([successNotifyChan] and the goroutine that closes it), 436-488
    ([Handle], the part that announces success), 490-523
    ([sendSuccessNotifications]), 561-599 ([updateLocalKey]), 601-651
    ([makeSuccessNotifyChanEmpty], [getNextKeyCreatedAt], [KeyUpdateSendWait]),
    653-711 ([retryUntilSuccessOrTimeout], [mustSendPublicKey]).

    One step is one critical section of [kx.locker] or [keyLocker], one operation
    on a channel or one sent message. Go's [select] takes any ready case.
    Simplifications: keys are left out, only their creation stamps are kept;
    [keyUpdateLocker] is left out because only one goroutine updates keys here;
    key generation does not fail; [skipKeyUpdateUntil] is in the past; answers
    that this side sends are left out; ticker and timer may fire at any time. *)
From Coq Require Import NArith List Bool.
From Verif Require Import Base TS.
Import ListNotations.
Local Open Scope N_scope.

(** [KeyUpdateSendWait]; [k]: [nextKeyCreatedAt]. *)
Inductive upPc :=
| UpIdle
| UpEmpty            (* 601: emptying the channel *)
| UpKey              (* 643: at [getNextKeyCreatedAt] *)
| UpSend (k : N)     (* 649 *)
| UpWait (k : N).    (* 676: the select *)

(** [Handle] of a message that means success. *)
Inductive hdPc :=
| HdIdle
| HdLocked           (* holds kx.locker, the context was checked *)
| HdNotify (v : N)   (* 499: [localKeyCreatedAt] is set; before the select *)
| HdDone.            (* 522: [doneFunc] *)

Record rt := {
  tNext : N;             (* nextLocalKeyCreatedAt *)
  tLocal : N;            (* localKeyCreatedAt *)
  tChan : option N;      (* successNotifyChan, capacity 1 *)
  tChanClosed : bool;
  tCtx : bool;           (* kx.ctx is done *)
  tUp : upPc;
  tHd : hdPc;
  tUpdates : nat;        (* calls of [getNextKeyCreatedAt] *)
  tSent : nat;           (* requests sent *)
  tTimeouts : nat;       (* time-outs reported *)
  tSendErrors : nat;     (* failed sends reported *)
  tSuccess : nat         (* calls of [doneFunc] *)
}.

Definition rtInit : rt :=
  {| tNext := 0; tLocal := 0; tChan := None; tChanClosed := false; tCtx := false; tUp := UpIdle; tHd := HdIdle;
     tUpdates := 0; tSent := 0; tTimeouts := 0; tSendErrors := 0; tSuccess := 0 |}.

(** The case that the select of 511 takes. *)
Inductive ncase :=
| NcSend               (* the value fits into the channel *)
| NcSkip               (* the context is done, or [default]: the channel is full *)
| NcPanic.             (* a send on the closed channel; recovered, 498-509 *)

Inductive rtlabel :=
| TlStart                  (* [KeyUpdateSendWait] is called *)
| TlEmpty                  (* 603-613: the select, a value or nothing *)
| TlEmptyEnd               (* the same, when context or channel are closed *)
| TlKey (now : N)
| TlSend (ok : bool)
| TlRecv                   (* 678-685 *)
| TlCtx                    (* 675-677 *)
| TlTick (ok : bool)       (* 686-692; [ok]: the write succeeds, if it takes place *)
| TlTimer                  (* 693-701 *)
| TlHandle                 (* 443-454 *)
| TlHandleSet              (* 493-497 *)
| TlNotify (c : ncase)      (* 511-518 *)
| TlHandleEnd              (* 522 and the unlock *)
| TlClosed                 (* 238-239 *)
| TlCancel.                (* the session ends *)

Definition setChanT (s : rt) (c : option N) : rt :=
  {| tNext := tNext s; tLocal := tLocal s; tChan := c; tChanClosed := tChanClosed s; tCtx := tCtx s; tUp := tUp s; tHd := tHd s;
     tUpdates := tUpdates s; tSent := tSent s; tTimeouts := tTimeouts s; tSendErrors := tSendErrors s; tSuccess := tSuccess s |}.
Definition setUp (s : rt) (p : upPc) : rt :=
  {| tNext := tNext s; tLocal := tLocal s; tChan := tChan s; tChanClosed := tChanClosed s; tCtx := tCtx s; tUp := p; tHd := tHd s;
     tUpdates := tUpdates s; tSent := tSent s; tTimeouts := tTimeouts s; tSendErrors := tSendErrors s; tSuccess := tSuccess s |}.
Definition setHd (s : rt) (p : hdPc) : rt :=
  {| tNext := tNext s; tLocal := tLocal s; tChan := tChan s; tChanClosed := tChanClosed s; tCtx := tCtx s; tUp := tUp s; tHd := p;
     tUpdates := tUpdates s; tSent := tSent s; tTimeouts := tTimeouts s; tSendErrors := tSendErrors s; tSuccess := tSuccess s |}.
Definition setCtxT (s : rt) : rt :=
  {| tNext := tNext s; tLocal := tLocal s; tChan := tChan s; tChanClosed := tChanClosed s; tCtx := true; tUp := tUp s; tHd := tHd s;
     tUpdates := tUpdates s; tSent := tSent s; tTimeouts := tTimeouts s; tSendErrors := tSendErrors s; tSuccess := tSuccess s |}.
Definition setChanClosed (s : rt) : rt :=
  {| tNext := tNext s; tLocal := tLocal s; tChan := tChan s; tChanClosed := true; tCtx := tCtx s; tUp := tUp s; tHd := tHd s;
     tUpdates := tUpdates s; tSent := tSent s; tTimeouts := tTimeouts s; tSendErrors := tSendErrors s; tSuccess := tSuccess s |}.
Definition setStamps (s : rt) (next local : N) : rt :=
  {| tNext := next; tLocal := local; tChan := tChan s; tChanClosed := tChanClosed s; tCtx := tCtx s; tUp := tUp s; tHd := tHd s;
     tUpdates := tUpdates s; tSent := tSent s; tTimeouts := tTimeouts s; tSendErrors := tSendErrors s; tSuccess := tSuccess s |}.
Definition count (s : rt) (u n t e d : nat) : rt :=
  {| tNext := tNext s; tLocal := tLocal s; tChan := tChan s; tChanClosed := tChanClosed s; tCtx := tCtx s; tUp := tUp s; tHd := tHd s;
     tUpdates := u + tUpdates s; tSent := n + tSent s; tTimeouts := t + tTimeouts s; tSendErrors := e + tSendErrors s;
     tSuccess := d + tSuccess s |}.

(** 561-599: the stamp of the key that is now the newest. *)
Definition nextStamp (s : rt) (now : N) : N :=
  if tLocal s <? tNext s then tNext s
  else if now <=? tLocal s then tLocal s + 1 else now.

(** 705-711. *)
Definition mustSend (s : rt) (ok : bool) : rt :=
  if ok then count s 0 1 0 0 0 else setCtxT (count s 0 0 0 1 0).

(** 658-669: the state afterwards, and the answer. *)
Definition checkChan (s : rt) (k : N) : rt * bool :=
  match tChan s with
  | Some v => (setChanT s None, k <=? v)
  | None => (s, tChanClosed s)
  end.

Definition lockFree (s : rt) : bool := match tHd s with HdIdle => true | _ => false end.

Definition rtStep (s : rt) (l : rtlabel) : option rt :=
  match l with
  | TlStart => match tUp s with UpIdle => Some (setUp s UpEmpty) | _ => None end
  | TlEmpty =>
      match tUp s with
      | UpEmpty =>
          match tChan s with
          | Some _ => Some (setChanT s None)
          | None => if tCtx s || tChanClosed s then None else Some (setUp s UpKey)
          end
      | _ => None
      end
  | TlEmptyEnd =>
      match tUp s with
      | UpEmpty =>
          if tCtx s || (tChanClosed s && match tChan s with None => true | _ => false end) then Some (setUp s UpIdle) else None
      | _ => None
      end
  | TlKey now =>
      match tUp s with
      | UpKey =>
          if lockFree s then
            let k := nextStamp s now in
            Some (count (setUp (setStamps s k (tLocal s)) (UpSend k)) 1 0 0 0 0)
          else None
      | _ => None
      end
  | TlSend ok => match tUp s with UpSend k => Some (mustSend (setUp s (UpWait k)) ok) | _ => None end
  | TlRecv =>
      match tUp s with
      | UpWait k =>
          match tChan s with
          | Some v => Some (setUp (setChanT s None) (if k <=? v then UpIdle else UpWait k))
          | None => if tChanClosed s then Some (setUp s UpIdle) else None
          end
      | _ => None
      end
  | TlCtx => match tUp s with UpWait _ => if tCtx s then Some (setUp s UpIdle) else None | _ => None end
  | TlTick ok =>
      match tUp s with
      | UpWait k => let (s, found) := checkChan s k in Some (if found then setUp s UpIdle else mustSend s ok)
      | _ => None
      end
  | TlTimer =>
      match tUp s with
      | UpWait k =>
          let (s, found) := checkChan s k in
          Some (setUp (if found then s else setCtxT (count s 0 0 1 0 0)) UpIdle)
      | _ => None
      end
  | TlHandle =>              (* without a local key [updateSecrets] fails, 474-478 *)
      match tHd s with HdIdle => if tCtx s || (tNext s =? 0) then None else Some (setHd s HdLocked) | _ => None end
  | TlHandleSet => match tHd s with HdLocked => Some (setHd (setStamps s (tNext s) (tNext s)) (HdNotify (tNext s))) | _ => None end
  | TlNotify c =>
      match tHd s with
      | HdNotify v =>
          match c with
          | NcSend => if tChanClosed s then None else match tChan s with None => Some (setHd (setChanT s (Some v)) HdDone) | Some _ => None end
          | NcSkip => if tCtx s || match tChan s with None => false | Some _ => true end then Some (setHd s HdDone) else None
          | NcPanic => if tChanClosed s then Some (setHd s HdDone) else None
          end
      | _ => None
      end
  | TlHandleEnd => match tHd s with HdDone => Some (count (setHd s HdIdle) 0 0 0 0 1) | _ => None end
  | TlClosed => if tCtx s then Some (setChanClosed s) else None
  | TlCancel => Some (setCtxT s)
  end.
