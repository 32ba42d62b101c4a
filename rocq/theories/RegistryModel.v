(** Registration of message handlers while a session runs: session.go 1307-1358
    ([NewMessenger], [SetHandlerFuncs]), 2112-2123 ([setMessenger]), 1074-1101
    ([processIncomingMessage]), 828-838 (the two loops of [readerLoopCleanup]),
    2167-2172 ([read] up to the receive); messenger.go.

    Simplifications:
    - one message type; the maps [sess.messenger] and [sess.readChan] have at
      most one entry for it, which is all the code uses of them;
    - the two maps are written one after the other under the lock (2120, 2121);
      here this is one interval between [GWrite] and [GWritten];
    - the Go runtime ends the process when a map is read or iterated during a
      write (it checks a flag at the start of a read); the opposite order goes
      unnoticed;
    - handlers set by [SetHandlerFuncs] have no [Close], so closing a messenger is
      one step (see [MiscModel] for the general case). *)
From Coq Require Import List Bool Arith.
From Verif Require Import TS.
Import ListNotations.
Local Open Scope nat_scope.

Inductive crash :=
| NilHandler        (* messenger.go 60: [messenger.handler.Handle] on a nil interface *)
| NilMessenger      (* session.go 1357: [SetHandler] on the nil result of NewMessenger *)
| MapRace.          (* concurrent map read/iteration and map write *)

(** A call of [SetHandlerFuncs]; [m] is the messenger it made. *)
Inductive regpc :=
| RgIdle
| RgMade (m : nat)       (* 1313-1318 done: messenger made, goroutine waiting for it started *)
| RgLocked (m : nat)     (* 2113 *)
| RgWriting (m : nat)    (* 2114-2119 done, inside 2120-2121 *)
| RgStored (m : nat)     (* before 1357 *)
| RgDone.

(** The reader goroutine between two messages. *)
Inductive rdpc := RdOff | RdIdle | RdEnd.

(** A call of [Read]. *)
Inductive readpc :=
| ReIdle
| ReWaits (c : nat)      (* has taken channel [c] from the map, at 2169 *)
| ReGot (x : nat)
| ReClosed.

Record reg := {
  gTable : option nat;        (* sess.messenger[t] *)
  gWriting : bool;            (* the runtime's flag: a map write is going on *)
  gLock : option nat;         (* who holds sess.locker *)
  gMade : nat;                (* messengers made so far: 0 .. gMade-1 *)
  gHandler : nat -> bool;     (* messenger.handler is set *)
  gClosed : nat -> bool;      (* messenger is closed *)
  gReleased : nat -> bool;    (* the goroutine of 1314-1317 has returned *)
  gChan : option nat;         (* sess.readChan[t] *)
  gChans : nat;               (* channels made so far *)
  gShut : nat -> bool;        (* channel is closed *)
  gQueue : nat -> list nat;   (* what is in the channel *)
  gCtx : bool;                (* sess.ctx is done *)
  gReader : rdpc;
  gRegs : nat -> regpc;
  gReads : nat -> readpc;
  gCrash : option crash;
  gDelivered : list (nat * nat);   (* ghost: messenger, message *)
  gEventErr : nat;            (* calls of eventHandler.Error *)
  gOnError : nat              (* calls of the onError function of SetHandlerFuncs *)
}.

(** [rw]: the type is MessageTypeReadWrite, which has a channel from the start
    (session.go 508). *)
Definition regInit (rw : bool) : reg :=
  {| gTable := None; gWriting := false; gLock := None; gMade := 0; gHandler := fun _ => false;
     gClosed := fun _ => false; gReleased := fun _ => false;
     gChan := if rw then Some 0 else None; gChans := if rw then 1 else 0; gShut := fun _ => false;
     gQueue := fun _ => []; gCtx := false; gReader := RdOff; gRegs := fun _ => RgIdle; gReads := fun _ => ReIdle;
     gCrash := None; gDelivered := []; gEventErr := 0; gOnError := 0 |}.

Inductive glabel :=
| GReg (r : nat)            (* 1310-1318 *)
| GLock (r : nat)           (* 2113 *)
| GWrite (r : nat)          (* 2114-2119, start of the map writes *)
| GWritten (r : nat)        (* 2120-2121 done, unlock *)
| GSet (r : nat)            (* 1357 *)
| GStart                    (* startReader *)
| GMsg (x : nat) (err : bool)   (* a message arrives; [err]: the handler returns an error *)
| GCancel                   (* Close or the end of the caller's context *)
| GClean                    (* readerLoopCleanup 828-838 *)
| GRelease (m : nat)        (* the goroutine of 1314-1317 returns *)
| GRead (a : nat)           (* 2168 *)
| GRecv (a : nat).          (* 2169 *)

Definition crashed (s : reg) (c : crash) : reg :=
  {| gTable := gTable s; gWriting := gWriting s; gLock := gLock s; gMade := gMade s; gHandler := gHandler s;
     gClosed := gClosed s; gReleased := gReleased s; gChan := gChan s; gChans := gChans s; gShut := gShut s;
     gQueue := gQueue s; gCtx := gCtx s; gReader := gReader s; gRegs := gRegs s; gReads := gReads s; gCrash := Some c;
     gDelivered := gDelivered s; gEventErr := gEventErr s; gOnError := gOnError s |}.

(** Registrars *)
Definition regUpd (s : reg) (r : nat) (pc : regpc) (writing : bool) (lock : option nat) : reg :=
  {| gTable := gTable s; gWriting := writing; gLock := lock; gMade := gMade s; gHandler := gHandler s;
     gClosed := gClosed s; gReleased := gReleased s; gChan := gChan s; gChans := gChans s; gShut := gShut s;
     gQueue := gQueue s; gCtx := gCtx s; gReader := gReader s; gRegs := fupd (gRegs s) r pc; gReads := gReads s;
     gCrash := gCrash s; gDelivered := gDelivered s; gEventErr := gEventErr s; gOnError := gOnError s |}.

Definition doReg (s : reg) (r : nat) : reg :=
  if gCtx s then crashed s NilMessenger                (* 1310-1312, then 1357 *)
  else
    {| gTable := gTable s; gWriting := gWriting s; gLock := gLock s; gMade := S (gMade s); gHandler := gHandler s;
       gClosed := gClosed s; gReleased := gReleased s; gChan := gChan s; gChans := gChans s; gShut := gShut s;
       gQueue := gQueue s; gCtx := gCtx s; gReader := gReader s; gRegs := fupd (gRegs s) r (RgMade (gMade s));
       gReads := gReads s; gCrash := gCrash s; gDelivered := gDelivered s; gEventErr := gEventErr s;
       gOnError := gOnError s |}.

(** 2114-2119: the old messenger is closed; then the map write starts. *)
Definition doWrite (s : reg) (r m : nat) : reg :=
  {| gTable := gTable s; gWriting := true; gLock := gLock s; gMade := gMade s; gHandler := gHandler s;
     gClosed := match gTable s with Some old => fupd (gClosed s) old true | None => gClosed s end;
     gReleased := gReleased s; gChan := gChan s; gChans := gChans s; gShut := gShut s;
     gQueue := gQueue s; gCtx := gCtx s; gReader := gReader s; gRegs := fupd (gRegs s) r (RgWriting m);
     gReads := gReads s; gCrash := gCrash s; gDelivered := gDelivered s; gEventErr := gEventErr s;
     gOnError := gOnError s |}.

Definition doWritten (s : reg) (r m : nat) : reg :=
  {| gTable := Some m; gWriting := false; gLock := None; gMade := gMade s; gHandler := gHandler s;
     gClosed := gClosed s; gReleased := gReleased s; gChan := Some (gChans s); gChans := S (gChans s); gShut := gShut s;
     gQueue := gQueue s; gCtx := gCtx s; gReader := gReader s; gRegs := fupd (gRegs s) r (RgStored m);
     gReads := gReads s; gCrash := gCrash s; gDelivered := gDelivered s; gEventErr := gEventErr s;
     gOnError := gOnError s |}.

Definition doSet (s : reg) (r m : nat) : reg :=
  {| gTable := gTable s; gWriting := gWriting s; gLock := gLock s; gMade := gMade s; gHandler := fupd (gHandler s) m true;
     gClosed := gClosed s; gReleased := gReleased s; gChan := gChan s; gChans := gChans s; gShut := gShut s;
     gQueue := gQueue s; gCtx := gCtx s; gReader := gReader s; gRegs := fupd (gRegs s) r RgDone;
     gReads := gReads s; gCrash := gCrash s; gDelivered := gDelivered s; gEventErr := gEventErr s;
     gOnError := gOnError s |}.

(** 1075-1080: the handler runs; its error goes to the session's event handler.
    Nobody calls [HandleError] (1339), i.e. the user's [onError]. *)
Definition doHandle (s : reg) (m x : nat) (err : bool) : reg :=
  {| gTable := gTable s; gWriting := gWriting s; gLock := gLock s; gMade := gMade s; gHandler := gHandler s;
     gClosed := gClosed s; gReleased := gReleased s; gChan := gChan s; gChans := gChans s; gShut := gShut s;
     gQueue := gQueue s; gCtx := gCtx s; gReader := gReader s; gRegs := gRegs s; gReads := gReads s;
     gCrash := gCrash s; gDelivered := gDelivered s ++ [(m, x)];
     gEventErr := if err then S (gEventErr s) else gEventErr s; gOnError := gOnError s |}.

Definition doQueue (s : reg) (c : nat) (l : list nat) : reg :=
  {| gTable := gTable s; gWriting := gWriting s; gLock := gLock s; gMade := gMade s; gHandler := gHandler s;
     gClosed := gClosed s; gReleased := gReleased s; gChan := gChan s; gChans := gChans s; gShut := gShut s;
     gQueue := fupd (gQueue s) c l; gCtx := gCtx s; gReader := gReader s; gRegs := gRegs s; gReads := gReads s;
     gCrash := gCrash s; gDelivered := gDelivered s; gEventErr := gEventErr s; gOnError := gOnError s |}.

Definition doReader (s : reg) (pc : rdpc) (ctx : bool) : reg :=
  {| gTable := gTable s; gWriting := gWriting s; gLock := gLock s; gMade := gMade s; gHandler := gHandler s;
     gClosed := gClosed s; gReleased := gReleased s; gChan := gChan s; gChans := gChans s; gShut := gShut s;
     gQueue := gQueue s; gCtx := ctx; gReader := pc; gRegs := gRegs s; gReads := gReads s;
     gCrash := gCrash s; gDelivered := gDelivered s; gEventErr := gEventErr s; gOnError := gOnError s |}.

Definition doClean (s : reg) : reg :=
  {| gTable := gTable s; gWriting := gWriting s; gLock := gLock s; gMade := gMade s; gHandler := gHandler s;
     gClosed := match gTable s with Some m => fupd (gClosed s) m true | None => gClosed s end;
     gReleased := gReleased s; gChan := gChan s; gChans := gChans s;
     gShut := match gChan s with Some c => fupd (gShut s) c true | None => gShut s end;
     gQueue := gQueue s; gCtx := gCtx s; gReader := RdEnd; gRegs := gRegs s; gReads := gReads s;
     gCrash := gCrash s; gDelivered := gDelivered s; gEventErr := gEventErr s; gOnError := gOnError s |}.

Definition doRelease (s : reg) (m : nat) : reg :=
  {| gTable := gTable s; gWriting := gWriting s; gLock := gLock s; gMade := gMade s; gHandler := gHandler s;
     gClosed := gClosed s; gReleased := fupd (gReleased s) m true; gChan := gChan s; gChans := gChans s; gShut := gShut s;
     gQueue := gQueue s; gCtx := gCtx s; gReader := gReader s; gRegs := gRegs s; gReads := gReads s;
     gCrash := gCrash s; gDelivered := gDelivered s; gEventErr := gEventErr s; gOnError := gOnError s |}.

Definition doRead (s : reg) (a : nat) (pc : readpc) : reg :=
  {| gTable := gTable s; gWriting := gWriting s; gLock := gLock s; gMade := gMade s; gHandler := gHandler s;
     gClosed := gClosed s; gReleased := gReleased s; gChan := gChan s; gChans := gChans s; gShut := gShut s;
     gQueue := gQueue s; gCtx := gCtx s; gReader := gReader s; gRegs := gRegs s; gReads := fupd (gReads s) a pc;
     gCrash := gCrash s; gDelivered := gDelivered s; gEventErr := gEventErr s; gOnError := gOnError s |}.

Section Step.
  (** messageQueueLength in the code *)
  Variable capacity : nat.

  Definition regStep (s : reg) (l : glabel) : option reg :=
    match gCrash s with
    | Some _ => None                                  (* the process is gone *)
    | None =>
      match l with
      | GReg r => match gRegs s r with RgIdle => Some (doReg s r) | _ => None end
      | GLock r =>
          match gRegs s r, gLock s with
          | RgMade m, None => Some (regUpd s r (RgLocked m) (gWriting s) (Some r))
          | _, _ => None
          end
      | GWrite r => match gRegs s r with RgLocked m => Some (doWrite s r m) | _ => None end
      | GWritten r => match gRegs s r with RgWriting m => Some (doWritten s r m) | _ => None end
      | GSet r => match gRegs s r with RgStored m => Some (doSet s r m) | _ => None end
      | GStart => match gReader s with RdOff => Some (doReader s RdIdle (gCtx s)) | _ => None end
      | GMsg x err =>
          match gReader s with
          | RdIdle =>
              if gWriting s then Some (crashed s MapRace)
              else match gTable s with
                   | Some m => if gHandler s m then Some (doHandle s m x err) else Some (crashed s NilHandler)
                   | None =>
                       match gLock s, gChan s with
                       | Some _, _ => None                         (* 1093: RLock waits *)
                       | None, None => Some s                      (* 1096-1098: dropped *)
                       | None, Some c =>
                           if length (gQueue s c) <? capacity then Some (doQueue s c (gQueue s c ++ [x])) else None
                       end
                   end
          | _ => None
          end
      | GCancel => Some (doReader s (gReader s) true)
      | GClean =>
          match gReader s with
          | RdIdle =>
              if gCtx s then (if gWriting s then Some (crashed s MapRace) else Some (doClean s)) else None
          | _ => None
          end
      | GRelease m =>
          if (m <? gMade s) && gClosed s m && negb (gReleased s m) then Some (doRelease s m) else None
      | GRead a =>
          match gReads s a with
          | ReIdle =>
              if gWriting s then Some (crashed s MapRace)
              else match gChan s with
                   | Some c => Some (doRead s a (ReWaits c))
                   | None => None
                   end
          | _ => None
          end
      | GRecv a =>
          match gReads s a with
          | ReWaits c =>
              match gQueue s c with
              | x :: q => Some (doRead (doQueue s c q) a (ReGot x))
              | [] => if gShut s c then Some (doRead s a ReClosed) else None
              end
          | _ => None
          end
      end
    end.
End Step.
