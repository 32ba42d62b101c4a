(** Callbacks of the application under the lock of the session: session.go
    2112-2123 ([setMessenger]), messenger.go 63-76 ([Close]), and those who want the
    lock meanwhile: 610-618 ([Start]), 728 ([SetPause]), 2013-2018
    ([GetRemoteIdentity]), 2126 ([setSecrets], by the goroutine that handles a
    key-exchange message), key_exchanger.go 404.

    A callback is the list of the session's methods it calls. Simplifications: the
    lock is a mutex (a reader of [sync.RWMutex] waits for a writer just so); the
    methods do nothing else here. *)
From Coq Require Import List Bool Arith.
From Verif Require Import Base TS.
Import ListNotations.

Inductive method :=
| MGetRemoteIdentity | MNewMessenger | MSetHandlerFuncs | MSetPause | MStart   (* take sess.locker *)
| MGetState | MClose | MWrite | MID | MGetEphemeralKeys.                       (* do not *)

Definition takesLock (m : method) : bool :=
  match m with
  | MGetRemoteIdentity | MNewMessenger | MSetHandlerFuncs | MSetPause | MStart => true
  | _ => false
  end.

(** The handler of the messenger that is replaced (a [Handler] that may have
    [Close], messenger.go 67-70) and the event handler. *)
Record callbacks := {
  cbClose : option (list method);    (* [None]: no messenger yet, or no [Close] *)
  cbFails : bool;                    (* [Close] returns an error *)
  cbError : list method              (* eventHandler.Error *)
}.

Inductive gpc :=
| GCall                     (* before 2113 *)
| GClosing (l : list method)   (* in [handler.Close], lock held; what it still calls *)
| GError (l : list method)     (* in [eventHandler.Error], 2117, lock held *)
| GStore                    (* 2120 *)
| GEnd.

(** Somebody else who wants the lock once. *)
Inductive opc := OWait | OIn | OEnd.

Record cb := { bLock : bool; bReg : gpc; bOther : opc }.
Definition cbInit : cb := {| bLock := false; bReg := GCall; bOther := OWait |}.

Inductive cblabel := BReg | BOther.

Definition cbStep (c : callbacks) (s : cb) (l : cblabel) : option cb :=
  match l with
  | BReg =>
      match bReg s with
      | GCall =>
          if bLock s then None
          else Some {| bLock := true; bReg := match cbClose c with Some l => GClosing l | None => GStore end; bOther := bOther s |}
      | GClosing (m :: r) => if takesLock m then None (* for the lock held by this very goroutine *)
                             else Some {| bLock := true; bReg := GClosing r; bOther := bOther s |}
      | GClosing [] => Some {| bLock := true; bReg := if cbFails c then GError (cbError c) else GStore; bOther := bOther s |}
      | GError (m :: r) => if takesLock m then None else Some {| bLock := true; bReg := GError r; bOther := bOther s |}
      | GError [] => Some {| bLock := true; bReg := GStore; bOther := bOther s |}
      | GStore => Some {| bLock := false; bReg := GEnd; bOther := bOther s |}
      | GEnd => None
      end
  | BOther =>
      match bOther s with
      | OWait => if bLock s then None else Some {| bLock := true; bReg := bReg s; bOther := OIn |}
      | OIn => Some {| bLock := false; bReg := bReg s; bOther := OEnd |}
      | OEnd => None
      end
  end.
