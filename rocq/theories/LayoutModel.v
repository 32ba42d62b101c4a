(** Where the 64-bit counters of a session lie in memory: session.go 108-178
    ([Session]), send_info.go 12-27 ([SendInfo]), session_state.go 50-54
    ([sessionStateStorage]), and the atomic accesses to them: session.go 323, 532,
    538, 648-649, 787, 796, 886, 941-944, 985, 1731, 1793, 1834, 2059, send_info.go
    96, 114, session_state.go 101, 114.

    [w] is the size of a machine word in bytes: 8 on amd64 and arm64, 4 on 386, arm
    and mips. The Go compiler puts the fields of a structure in the order of their
    declaration, each at the next multiple of its alignment; a uint64 is aligned to
    a word. On the platforms with 32-bit words the functions of sync/atomic panic
    ("unaligned 64-bit atomic operation") if the address is not a multiple of 8; the
    first word of an allocated structure is one (documentation of sync/atomic).

    The fields of [Session] before lastSendInfoSendID are a parameter: the sizes of
    some of them depend on the version of Go and of the library "spinlock". *)
From Coq Require Import NArith List Bool String.
Import ListNotations.
Local Open Scope N_scope.

Inductive kind :=
| KPtr                       (* pointer, channel, map, function *)
| KIface                     (* interface: two words *)
| KSlice                     (* slice: three words *)
| KInt                       (* int *)
| KU64                       (* uint64, int64 *)
| KU32
| KBool
| KMutex                     (* sync.Mutex: int32, uint32 *)
| KOther (size align : N).   (* any other structure *)

Definition sizeOf (w : N) (k : kind) : N :=
  match k with
  | KPtr | KInt => w
  | KIface => 2 * w
  | KSlice => 3 * w
  | KU64 | KMutex => 8
  | KU32 => 4
  | KBool => 1
  | KOther size _ => size
  end.
Definition alignOf (w : N) (k : kind) : N :=
  match k with
  | KPtr | KIface | KSlice | KInt | KU64 => w
  | KU32 | KMutex => 4
  | KBool => 1
  | KOther _ align => align
  end.

(** The next multiple of [a]. *)
Definition roundUp (n a : N) : N := (n + a - 1) / a * a.

Definition fieldDecl := (string * kind)%type.
(** Offset of the field called [name]; [off] is the end of the previous field. *)
Fixpoint offsetFrom (w off : N) (fs : list fieldDecl) (name : string) : option N :=
  match fs with
  | [] => None
  | (n, k) :: rest =>
      let here := roundUp off (alignOf w k) in
      if String.eqb n name then Some here
      else offsetFrom w (here + sizeOf w k) rest name
  end.
Definition offsetOf (w : N) (fs : list fieldDecl) (name : string) : option N := offsetFrom w 0 fs name.

Local Open Scope string_scope.
(** send_info.go 12-27. *)
Definition sendInfoFields : list fieldDecl :=
  [("Err", KIface); ("N", KInt); ("sendID", KU64); ("c", KPtr); ("ctx", KIface);
   ("refCount", KU64); ("isBusy", KBool); ("sess", KPtr); ("pool", KPtr)].
(** session_state.go 50-54. *)
(* sync.RWMutex: a sync.Mutex and four words of 32 bits *)
Definition stateStorageFields : list fieldDecl := [("SessionState", KU64); ("changeChan", KPtr); ("changeChanLocker", KOther 24 4)].
(** session.go 151-178; [spin] is a spinlock.Locker. *)
Definition sessionTail (spin : kind) : list fieldDecl :=
  [("lastSendInfoSendID", KU64);
   ("keyExchangeCount", KU64); ("sentMessagesCount", KU64); ("receivedMessagesCount", KU64);
   ("sequentialDecryptFailsCount", KU64); ("unexpectedPacketIDCount", KU64);
   ("delayedSenderLoopCount", KU32);
   ("infoOutputChan", KPtr); ("debugOutputChan", KPtr);
   ("receivedPacketIDs", KPtr); ("nextPacketID", KU64);
   ("pendingChains", KSlice); ("lastRemoteChainID", KU64); ("nextLocalChainID", KU64);
   ("pauseWaitLocker", KMutex); ("pauseLocker", spin); ("isReadingValue", KU64); ("pauseStartChan", KPtr);
   ("readDeadlineLocker", spin); ("readInterruptsRequested", KU64); ("readInterruptsHappened", KU64);
   ("remoteSessionID", KPtr)].
Definition sessionFields (before : list fieldDecl) (spin : kind) : list fieldDecl := (before ++ sessionTail spin)%list.

(** The fields that are used with the 64-bit functions of sync/atomic. *)
Definition atomicFields : list string :=
  ["lastSendInfoSendID"; "keyExchangeCount"; "sentMessagesCount"; "receivedMessagesCount";
   "sequentialDecryptFailsCount"; "unexpectedPacketIDCount"; "nextPacketID"; "nextLocalChainID"; "isReadingValue"].

Local Close Scope string_scope.

(** An atomic access to the field [name] of a structure at [base]. *)
Inductive access := AccessDone | AccessPanics | NoSuchField.
Definition atomicAccess (w base : N) (fs : list fieldDecl) (name : string) : access :=
  match offsetOf w fs name with
  | None => NoSuchField
  | Some off => if (base + off) mod 8 =? 0 then AccessDone else AccessPanics
  end.
(** 531-541. *)
Definition getNextPacketIDAccess (w base : N) (before : list fieldDecl) (spin : kind) : access :=
  atomicAccess w base (sessionFields before spin) "nextPacketID"%string.
Definition getNextChainIDAccess (w base : N) (before : list fieldDecl) (spin : kind) : access :=
  atomicAccess w base (sessionFields before spin) "nextLocalChainID"%string.
