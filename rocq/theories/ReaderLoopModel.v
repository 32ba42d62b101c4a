(** The reader goroutine: session.go 682-689 ([isDone]), 819-950
    ([readerLoopCleanup], [readerLoopReadError], [readerLoopDecryptError],
    [readerLoop]). *)
From Coq Require Import NArith List Bool.
From Verif Require Import Base MessageModel PendingChainModel ReaderModel.
Import ListNotations.
Open Scope N_scope.

(** session.go 682-689. *)
Definition isDoneState (st : N) : bool :=
  negb ((st =? SessionStateNew) || (st =? SessionStateKeyExchanging) || (st =? SessionStateNegotiating)
        || (st =? SessionStateEstablished) || (st =? SessionStatePaused)).

(** What one [backend.Read] followed by [decrypt] and the duplicate check
    yields. Decryption is modelled in PacketModel, the duplicate check in
    PacketIDModel; here only their verdicts matter. *)
Inductive packet :=
| RdError (interrupt handled : bool)
    (* Read failed; [interrupt]: it is a requested i/o timeout whose deadline
       was reset successfully; [handled]: what eventHandler.Error returns *)
| RdEmpty                                       (* n == 0 *)
| PktUndecryptable (e : gerr)
| PktDuplicate                                  (* checkAndRememberPacketID = false *)
| PktAccepted (containerLength : N) (content : bytes).

Record rdr := {
  rS : rcv;
  rFails : N;        (* sequentialDecryptFailsCount *)
  rUnexpected : N    (* unexpectedPacketIDCount *)
}.

Inductive readerEnd :=
| RRunning (r : rdr)     (* all input consumed, the loop waits for more *)
| RFinished (r : rdr)    (* the goroutine is over, cleanup included *)
| RPanic
| RFuel.

Section Reader.
  Variable detachFails : N.          (* options.DetachOnSequentialDecryptFailsCount *)
  Variable errorOn : option N.       (* options.ErrorOnSequentialDecryptFailsCount *)

  (** session.go 819-846. Simplified: flushing ([startClosing]) and closing of
      messengers and queues are modelled elsewhere; only the final state is kept. *)
  Definition readerLoopCleanup (r : rdr) : readerEnd :=
    RFinished {| rS := setSessState (rS r) SessionStateClosed; rFails := rFails r; rUnexpected := rUnexpected r |}.

  (** session.go 848-880: [false] in the result means "leave the loop". *)
  Definition readerLoopReadError (r : rdr) (interrupt handled : bool) : rdr * bool :=
    if isDoneState (sessState (rS r)) then (r, false)
    else if interrupt then (r, true)
    else
      let s := emit (rS r) (EvError ErrBackend) in
      let s := if handled then s else setSessState (emit s EvClose) SessionStateClosing in
      ({| rS := s; rFails := rFails r; rUnexpected := rUnexpected r |}, true).

  (** session.go 882-899. *)
  Definition readerLoopDecryptError (r : rdr) (e : gerr) : rdr * bool :=
    let c := add64 (rFails r) 1 in
    let s := match errorOn with
             | None => rS r
             | Some k => if k <=? c then emit (rS r) (EvError e) else rS r
             end in
    ({| rS := s; rFails := c; rUnexpected := rUnexpected r |}, negb (detachFails <=? c)).

  (** session.go 901-950. Pausing is modelled in PauseModel. *)
  Fixpoint readerLoop (r : rdr) (input : list packet) : readerEnd :=
    if isDoneState (sessState (rS r)) then readerLoopCleanup r
    else
      match input with
      | [] => RRunning r
      | RdError i h :: rest =>
          let (r', cont) := readerLoopReadError r i h in
          if cont then readerLoop r' rest else readerLoopCleanup r'
      | RdEmpty :: rest => readerLoop r rest
      | PktUndecryptable e :: rest =>
          let (r', cont) := readerLoopDecryptError r e in
          if cont then readerLoop r' rest else readerLoopCleanup r'
      | PktDuplicate :: rest =>
          readerLoop {| rS := rS r; rFails := rFails r; rUnexpected := add64 (rUnexpected r) 1 |} rest
      | PktAccepted l content :: rest =>
          match processIncomingMessages (rS r) l content with
          | LoopPanic => RPanic
          | LoopFuel => RFuel
          | LoopEnd s => readerLoop {| rS := s; rFails := 0; rUnexpected := rUnexpected r |} rest
          end
      end.
End Reader.

Definition freshRdr (s : rcv) : rdr := {| rS := s; rFails := 0; rUnexpected := 0 |}.
