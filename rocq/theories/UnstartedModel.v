(** Writing to a session that may not have been started: session.go 409-519 (a new
    session has no context), 608-629 ([Start] makes it), 588-600
    ([GetEstablishedPayloadSize]), 1361-1395 ([WriteMessage], [WriteMessageSingle]),
    1410-1427 ([GetCipherKeysWait]), 1433-1480 ([WriteMessageAsync] and fragments),
    1587-1602 ([writeMessageAsync]), 1845-1905 ([sendMessages]), send_info.go
    104-124 ([Release]), 142-147 ([Wait]).

    The operands of a select statement are evaluated first, so a select with
    [ctx.Done()] panics if [ctx] is a nil interface, whatever the other cases are.
    Messages are those of the application (not internal ones). *)
From Coq Require Import NArith List Bool.
Import ListNotations.
Local Open Scope N_scope.

Inductive werr := WTooBig | WClosed.

Record ws := {
  wCtx : option bool;        (* None: not started; Some b: [b] tells whether it is cancelled *)
  wEstablished : bool;       (* state Established, isEstablished closed, keys there *)
  wDelay : bool;             (* options.SendDelay != nil *)
  wFrag : bool;              (* options.EnableFragmentation *)
  wSize : N                  (* establishedPayloadSize *)
}.

(** How a call (up to the point where the message is on its way) ends. *)
Inductive reply :=
| Replied (e : option werr)  (* for the asynchronous call: the handle it returns is finished with [e] *)
| OnItsWay                   (* to be encrypted and sent, or put into the buffer *)
| Waiting                    (* until the session is established or closed *)
| Crashed.

(** [if state != Established { select { case <-sess.ctx.Done(): ... case <-sess.isEstablished: } }];
    a select with both cases ready takes either: established sessions skip it. *)
Definition untilEstablished (s : ws) (rest : reply) : reply :=
  if wEstablished s then rest
  else match wCtx s with
       | None => Crashed
       | Some true => Replied (Some WClosed)
       | Some false => Waiting
       end.

(** 1361-1395, 1545-1573, 1845-1905: the keys are waited for first (1410-1419),
    then the establishment (1895-1903). *)
Definition writeSingle (s : ws) (size : N) : reply :=
  untilEstablished s (if wSize s <? size then Replied (Some WTooBig) else OnItsWay).

(** 1433-1480, 1587-1602. *)
Definition writeAsync (s : ws) (size : N) : reply :=
  if wSize s <? size then
    if wFrag s then untilEstablished s OnItsWay
    else Replied (Some WTooBig)
  else if wDelay s then untilEstablished s OnItsWay
  else writeSingle s size.

(** send_info.go 142-147 and 104-124 on a handle: [finished] tells whether its channel is
    closed. [Release] of an unfinished handle is not considered. *)
Definition waitHandle (s : ws) (finished : bool) : reply :=
  match wCtx s with
  | None => Crashed
  | Some c => if finished || c then Replied None else Waiting
  end.
Definition releaseHandle (s : ws) : reply :=
  match wCtx s with None => Crashed | Some _ => Replied None end.

(** 1361-1378: [WriteMessage], [Write] and [Messenger.Write]. *)
Definition writeMessage (s : ws) (size : N) : reply :=
  match writeAsync s size with
  | Replied e =>
      match waitHandle s true with
      | Replied _ => match releaseHandle s with Replied _ => Replied e | r => r end
      | r => r
      end
  | r => r
  end.

(** 588-600 and 1410-1427. *)
Definition getEstablishedSize (s : ws) : reply := untilEstablished s (Replied None).
Definition getKeysWait (s : ws) : reply := untilEstablished s (Replied None).

(** 409-519: what [NewSession] returns. *)
Definition created (delay frag : bool) (size : N) : ws :=
  {| wCtx := None; wEstablished := false; wDelay := delay; wFrag := frag; wSize := size |}.
(** 608-629. *)
Definition started (s : ws) : ws :=
  {| wCtx := Some false; wEstablished := wEstablished s; wDelay := wDelay s; wFrag := wFrag s; wSize := wSize s |}.
