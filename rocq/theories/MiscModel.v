(** Small stand-alone pieces: message types (message.go), options and their
    defaults (session.go 415-513, key_exchanger.go 221-234, negotiator.go
    options), [Messenger.Close] (messenger.go 66-88), error handler wrapping
    (event_handler.go, errors.go) and [roundSize] (session.go 75-77). *)
From Coq Require Import Ascii String DecimalString NArith ZArith Arith List Bool.
From Verif Require Import Base TS PacketIDModel.
Import ListNotations.
Local Open Scope list_scope.
Local Open Scope N_scope.

(** ** Message types *)

(** message.go 59-82; [iota] starts at 1 for the key exchange type. *)
Definition mtUndefined : N := 0.
Definition mtKeyExchange : N := 2^32 - 1 - 1.
Definition mtNegotiation : N := 2^32 - 1 - 2.
Definition mtReadWrite : N := 2^32 - 1 - 3.
Definition mtReservedAbove : N := 2^32 - 1 - 18.

(** message.go 84-90 *)
Definition isInternal (t : N) : bool := (t =? mtKeyExchange) || (t =? mtNegotiation).

(** message.go 94-99: both additions are of uint32. *)
Definition messageTypeChannel (channelID : N) : outcome N :=
  if mtReservedAbove <=? add32 channelID 1 then Panic
  else Ret (add32 channelID 1).

(** [%d] of an unsigned number *)
Definition showN (n : N) : string := NilZero.string_of_uint (N.to_uint n).

(** message.go 101-113 *)
Definition typeString (t : N) : string :=
  if t =? mtUndefined then "undefined"
  else if t =? mtKeyExchange then "key_exchange"
  else if t =? mtReadWrite then "read_write"
  else if (1 <=? t) && (t <? mtReservedAbove) then
    "channel" ++ showN (u8 (sub32 t mtReadWrite))
  else "unknown".

(** ** Rounding *)

(** session.go 75-77: [(size + (blockSize - 1)) & ^(blockSize - 1)] on uint32. *)
Definition roundSize (size blockSize : N) : N :=
  N.land (add32 size (sub32 blockSize 1)) (N.lxor (sub32 blockSize 1) (2^32 - 1)).

(** ** Options *)

Definition containerHeadersSize : N := 44.
Definition msgHeadersSize : N := 9.

(** message.go 32-49: the two process-wide defaults; both setters clear the low
    four bits. *)
Definition setLimit (newSize : N) : N := N.land newSize (N.lxor (16 - 1) (2^32 - 1)).
Definition initialLimit : N := setLimit (2^16 - 256 - containerHeadersSize - msgHeadersSize).
Definition initialLossyLimit : N := setLimit (1500 - 48 - containerHeadersSize - msgHeadersSize).

(** The options [init] touches. Durations are signed; [PacketIDStorageSize] is
    an [int]. *)
Record kxOptions := {
  kUpdate : Z; kRetry : Z; kTimeout : Z; kAnswers : N
}.
Record sessOptions := {
  oErrorOn : option N;        (* ErrorOnSequentialDecryptFailsCount *)
  oSendDelay : option Z;      (* nanoseconds *)
  oStorageSize : Z;
  oPayloadLimit : N;
  oMaxChainDiff : N;
  oMaxFragmented : N;
  oPSK : option bytes;
  oKx : kxOptions
}.
Definition zeroKx : kxOptions := {| kUpdate := 0; kRetry := 0; kTimeout := 0; kAnswers := 0 |}.
Definition zeroOptions : sessOptions :=
  {| oErrorOn := None; oSendDelay := None; oStorageSize := 0; oPayloadLimit := 0; oMaxChainDiff := 0;
     oMaxFragmented := 0; oPSK := None; oKx := zeroKx |}.

(** key_exchanger.go 218-234 *)
Definition kxDefaults (o : kxOptions) : kxOptions :=
  {| kUpdate := if (kUpdate o =? 0)%Z then 60000000000 else kUpdate o;
     kRetry := if (kRetry o =? 0)%Z then 1000000000 else kRetry o;
     kTimeout := if (kTimeout o =? 0)%Z then 60000000000 else kTimeout o;
     kAnswers := if kAnswers o =? 0 then 1 else kAnswers o |}.

(** is_lossy_writer.go 10-29: what the type switch looks at. *)
Inductive addrKind := AddrTCP | AddrUDP | AddrUnix | AddrOther.
Inductive backendKind :=
| BackendUDPConn                        (* *net.UDPConn *)
| BackendWithAddr (a : addrKind)        (* has LocalAddr() *)
| BackendOther.
Definition isLossyWriter (b : backendKind) : bool :=
  match b with
  | BackendUDPConn => true
  | BackendWithAddr AddrUDP => true
  | BackendWithAddr _ => false
  | BackendOther => false
  end.

(** What [init] leaves behind. [sErrorOn = None]: never; [sDelay = None]: no
    aggregation; [sStorage = None]: packet IDs are not checked. *)
Record sessInit := {
  sErrorOn : option N;
  sDelay : option Z;
  sStorage : option storage;
  sPayloadLimit : N;
  sPacketLimit : N;
  sEstablished : N;
  sMaxChainDiff : N;
  sMaxFragmented : N;
  sHasAux : bool;
  sKx : kxOptions
}.

(** session.go 415-513; [opts = None]: a nil pointer. [lim] and [lossy] are the
    process-wide defaults. The nil checks come first and the zero checks see
    their result, as in the code. *)
Definition initSession (lim lossyLim : N) (b : backendKind) (opts : option sessOptions) : sessInit :=
  let o := match opts with Some o => o | None => zeroOptions end in
  let errorOn := match oErrorOn o with Some n => n | None => 3 end in
  let delay := match oSendDelay o with Some d => d | None => 50000%Z end in
  let size := if (oStorageSize o =? 0)%Z then 256%Z else oStorageSize o in
  let limit := if oPayloadLimit o =? 0 then (if isLossyWriter b then lossyLim else lim) else oPayloadLimit o in
  {| sErrorOn := if errorOn =? 0 then None else Some errorOn;
     sDelay := if (delay <=? 0)%Z then None else Some delay;
     sStorage := if (0 <? size)%Z
                 then Some (newStorage (if (size =? 1)%Z then 0 else Z.to_N size))
                 else None;
     sPayloadLimit := limit;
     sPacketLimit := add32 (add32 limit containerHeadersSize) msgHeadersSize;
     sEstablished := limit;
     sMaxChainDiff := if oMaxChainDiff o =? 0 then 8 else oMaxChainDiff o;
     sMaxFragmented := if oMaxFragmented o =? 0 then 65536 else oMaxFragmented o;
     sHasAux := match oPSK o with Some _ => true | None => false end;
     sKx := kxDefaults (oKx o) |}.

(** session.go 580-584 *)
Definition packetSizeOf (payloadSize : N) : N := add32 (add32 payloadSize containerHeadersSize) msgHeadersSize.

(** ** Error handlers *)

Section Errors.
  Variable E : Type.

  (** An [EventHandler] seen through its [Error] method. *)
  Inductive eventHandler :=
  | Dummy                                                   (* event_handler.go 14-18 *)
  | User (id : nat) (f : E -> bool)                          (* anything given by the user *)
  | Wrapper (inner : eventHandler) (id : nat) (f : E -> bool). (* 20-23 *)

  (** event_handler.go 25-33 *)
  Definition wrapErrorHandler (h : option eventHandler) (id : nat) (f : E -> bool) : eventHandler :=
    match h with
    | None => Wrapper Dummy id f
    | Some h => Wrapper h id f
    end.

  (** event_handler.go 35-40: the result and the functions called, in order. *)
  Fixpoint errorCall (h : eventHandler) (e : E) : bool * list nat :=
    match h with
    | Dummy => (false, [])
    | User id f => (f e, [id])
    | Wrapper inner id f =>
        let (r, l) := errorCall inner e in
        if negb r then (f e, l ++ [id]) else (true, l)
    end.

  (** errors.go 12-19; [wrap] is the library's [errors.Wrap] together with the
      counter of line 17. *)
  Variable wrap : E -> E.
  Definition wrapError (err : option E) : option E :=
    match err with
    | None => None
    | Some e => Some (wrap e)
    end.
End Errors.
Arguments Dummy {E}.
Arguments User {E}.
Arguments Wrapper {E}.
Arguments wrapErrorHandler {E}.
Arguments errorCall {E}.
Arguments wrapError {E}.

(** ** Closing a messenger (messenger.go 66-88) *)

Inductive closer :=
| ClIdle
| ClHandler      (* inside [closer.Close()], 72 *)
| ClDone         (* before [wg.Done()], 74 *)
| ClReturned.

Record msgr := {
  mClosed : bool;            (* isClosed *)
  mWg : Z;                   (* the counter of [wg]; 1 after newMessenger (29) *)
  mHasClose : bool;          (* the handler has a Close method *)
  mCalls : nat -> closer;    (* every call of Close, from any goroutine *)
  mRuns : nat;               (* how often the handler's Close was entered *)
  mFinished : nat;           (* ... and left *)
  mWaiting : nat -> bool     (* calls of WaitForClosure that returned *)
}.

Inductive mlabel :=
| MCall (c : nat)            (* the swap of line 67 *)
| MHandlerReturns (c : nat)
| MWgDone (c : nat)
| MWaitReturns (w : nat).    (* 86; possible only at counter 0 *)

Definition setCall (s : msgr) (c : nat) (x : closer) (closed : bool) (wg : Z) (runs fin : nat) : msgr :=
  {| mClosed := closed; mWg := wg; mHasClose := mHasClose s; mCalls := fupd (mCalls s) c x; mRuns := runs;
     mFinished := fin; mWaiting := mWaiting s |}.

Definition msgrStep (s : msgr) (l : mlabel) : option msgr :=
  match l with
  | MCall c =>
      match mCalls s c with
      | ClIdle =>
          if mClosed s then Some (setCall s c ClReturned true (mWg s) (mRuns s) (mFinished s))
          else if mHasClose s then Some (setCall s c ClHandler true (mWg s) (S (mRuns s)) (mFinished s))
          else Some (setCall s c ClDone true (mWg s) (mRuns s) (mFinished s))
      | _ => None
      end
  | MHandlerReturns c =>
      match mCalls s c with
      | ClHandler => Some (setCall s c ClDone (mClosed s) (mWg s) (mRuns s) (S (mFinished s)))
      | _ => None
      end
  | MWgDone c =>
      match mCalls s c with
      | ClDone => Some (setCall s c ClReturned (mClosed s) (mWg s - 1) (mRuns s) (mFinished s))
      | _ => None
      end
  | MWaitReturns w =>
      if (mWg s =? 0)%Z && negb (mWaiting s w)
      then Some {| mClosed := mClosed s; mWg := mWg s; mHasClose := mHasClose s; mCalls := mCalls s;
                   mRuns := mRuns s; mFinished := mFinished s; mWaiting := fupd (mWaiting s) w true |}
      else None
  end.

Definition msgrInit (hasClose : bool) : msgr :=
  {| mClosed := false; mWg := 1; mHasClose := hasClose; mCalls := fun _ => ClIdle; mRuns := 0; mFinished := 0;
     mWaiting := fun _ => false |}.

(** ** Asking for the established size (session.go 588-600) *)

Inductive sessState := SNew | SKx | SNego | SEstablished | SPaused | SClosing | SClosed.

(** What a call can do in an unchanging session. [GBlocks]: it waits; it panics
    on the nil [sess.ctx] before [Start]. When both channels are ready, [select]
    takes either. *)
Inductive gres := GPanics | GBlocks | GReturns (n : N).
Definition getEstablishedPayloadSize (st : sessState) (ctx : option bool) (established : bool) (size : N)
  (r : gres) : Prop :=
  match st with
  | SEstablished | SClosing => r = GReturns size
  | _ =>
      match ctx with
      | None => r = GPanics
      | Some done =>
          (done = true /\ r = GReturns 0) \/
          (established = true /\ r = GReturns size) \/
          (done = false /\ established = false /\ r = GBlocks)
      end
  end.
