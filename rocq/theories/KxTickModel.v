(** The tickers of the key exchanger: key_exchanger.go 218-234 (the defaults,
    [kxDefaults] of MiscModel), 544-559 ([loop]) and 653-673 (the begin of
    [retryUntilSuccessOrTimeout]), around the machine of KxRetryModel.

    [time.NewTicker] panics if the interval is not positive; nothing recovers, so
    the process ends. [time.NewTimer] takes any value. The simplifications of
    KxRetryModel apply; times are left out, so tickers and timers fire at any
    time once they exist. *)
From Coq Require Import NArith ZArith List Bool.
From Verif Require Import Base TS MessageModel MiscModel KxRetryModel.
Import ListNotations.
Local Open Scope N_scope.

Inductive loopPc :=
| LoFirst        (* before 545 *)
| LoUpdate       (* in the [KeyUpdateSendWait] of 545 *)
| LoRun          (* the loop of 550-558, its ticker exists; also while it updates *)
| LoEnd.         (* 552-554 *)

Record tks := { kRt : rt; kLoop : loopPc; kPanic : bool }.
Definition tksInit : tks := {| kRt := rtInit; kLoop := LoFirst; kPanic := false |}.

Inductive tklabel :=
| TkFirst                (* 545 is called *)
| TkIn (l : rtlabel)     (* a step of an update, of [Handle] or of the session; not [TlStart] *)
| TkTicker               (* 547 *)
| TkTick                 (* 555-556 *)
| TkEnd.                 (* 552-554 *)

Definition isIdle (r : rt) : bool := match tUp r with UpIdle => true | _ => false end.
(** [time.NewTicker] panics. *)
Definition tickerPanics (d : Z) : bool := (d <=? 0)%Z.

(** [opts]: the options the user gave. *)
Definition tkStep (opts : kxOptions) (s : tks) (l : tklabel) : option tks :=
  let o := kxDefaults opts in
  let r := kRt s in
  if kPanic s then None else
  match l with
  | TkFirst =>
      match kLoop s, rtStep r TlStart with
      | LoFirst, Some r => Some {| kRt := r; kLoop := LoUpdate; kPanic := false |}
      | _, _ => None
      end
  | TkIn TlStart => None
  | TkIn (TlSend ok) =>                 (* 649, then 670-671 *)
      match rtStep r (TlSend ok) with
      | Some r => Some {| kRt := r; kLoop := kLoop s; kPanic := tickerPanics (kRetry o) |}
      | None => None
      end
  | TkIn l =>
      match rtStep r l with
      | Some r => Some {| kRt := r; kLoop := kLoop s; kPanic := false |}
      | None => None
      end
  | TkTicker =>
      match kLoop s with
      | LoUpdate => if isIdle r then Some {| kRt := r; kLoop := LoRun; kPanic := tickerPanics (kUpdate o) |} else None
      | _ => None
      end
  | TkTick =>
      match kLoop s, rtStep r TlStart with
      | LoRun, Some r => Some {| kRt := r; kLoop := LoRun; kPanic := false |}
      | _, _ => None
      end
  | TkEnd =>
      match kLoop s with
      | LoRun => if isIdle r && tCtx r then Some {| kRt := r; kLoop := LoEnd; kPanic := false |} else None
      | _ => None
      end
  end.
