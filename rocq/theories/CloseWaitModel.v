(** Any number of callers of [CloseAndWait] (session.go 2250-2277) on top of the
    goroutines of ClosureModel. *)
From Coq Require Import List Bool Arith.
From Verif Require Import Base ClosureModel.
Import ListNotations.

Inductive cawPc :=
| CawFlush     (* 2258: in [startClosing] *)
| CawWait      (* 2268: in [WaitForClosure] *)
| CawOk        (* returned nil *)
| CawErr.      (* returned the error of [Close] *)

Record cw := { wCl : cl; wCalls : list cawPc }.
Definition cwInit : cw := {| wCl := clInit; wCalls := [] |}.

Inductive cwlabel :=
| CwCall                 (* 2265 with 2254-2257 *)
| CwFlushed (i : nat)    (* 2258 is through *)
| CwReturn (i : nat)     (* the wait group is zero *)
| CwOther (l : cllabel). (* everybody else *)

Definition setCall (s : cw) (i : nat) (p : cawPc) : list cawPc := firstn i (wCalls s) ++ [p] ++ skipn (S i) (wCalls s).

(** [stopWaitGroup] is zero: the reader, the delayed sender, the backend closer and
    the goroutine that waits for the exchanger have ended. *)
Definition allEnded (s : cl) : bool :=
  match cReader s, cSender s with
  | RdEnd, SdEnd => cCloser s && cKxWait s
  | _, _ => false
  end.

(** The caller whose [Close] succeeded runs [startClosing] itself; if the session
    was closed by the exchanger, that goroutine does. *)
Definition callerFlushes (s : cw) : bool := existsb (fun p => match p with CawFlush => true | _ => false end) (wCalls s).

Definition cwStep (s : cw) (l : cwlabel) : option cw :=
  match l with
  | CwCall =>
      if cDone (wCl s) then Some {| wCl := wCl s; wCalls := wCalls s ++ [CawErr] |}
      else Some {| wCl := setFlush (setDone (wCl s)) true; wCalls := wCalls s ++ [CawFlush] |}
  | CwFlushed i =>
      match nth_error (wCalls s) i with
      | Some CawFlush =>
          match clStep (wCl s) ClCancel with
          | Some c => Some {| wCl := c; wCalls := setCall s i CawWait |}
          | None => None
          end
      | _ => None
      end
  | CwReturn i =>
      match nth_error (wCalls s) i with
      | Some CawWait => if allEnded (wCl s) then Some {| wCl := wCl s; wCalls := setCall s i CawOk |} else None
      | _ => None
      end
  | CwOther ClClose => None   (* the callers are modelled here *)
  | CwOther ClCancel =>
      if callerFlushes s then None
      else match clStep (wCl s) ClCancel with Some c => Some {| wCl := c; wCalls := wCalls s |} | None => None end
  | CwOther l => match clStep (wCl s) l with Some c => Some {| wCl := c; wCalls := wCalls s |} | None => None end
  end.
