(** What is reported when the probes of a negotiation cannot be sent:
    negotiator.go 294-312 (the sending part of [pingSenderLoop]), 240-267
    ([sendPing]), session.go 1965-1969 (the end of [sendMessages]), 2044-2056 (the
    function [errFunc] of the negotiator), 2231-2260 ([startClosing], [Close]) and
    2007-2009 ([error]).

    One goroutine sends the probes of an iteration; others may close the session at
    any moment. Simplifications: the cipher keys are there (the key exchange is
    over), the type of the messages is internal, so [sendMessages] does not wait for
    the state; what [sendDelayedNow] sends (2241-2246) is left out; the handler of
    the user (Error) returns; the end of the reader (session.go 827) and the timeout
    of the negotiation, which cancel the context too, are left out. The part of the loop behind line 312 is [PcCollect]. *)
From Coq Require Import List Bool.
From Verif Require Import Base.
Import ListNotations.

Inductive perr :=
| PeClosed      (* ErrAlreadyClosed, session.go 1966 *)
| PeBackend.    (* an error of the backend *)

(** Calls of the event handler. *)
Inductive preport :=
| PrProbe (e : perr)      (* negotiator.go 305 *)
| PrErrFunc (e : perr).   (* session.go 2053 *)

Inductive ppc :=
| PcCheck                 (* 297 *)
| PcDone                  (* session.go 1965 *)
| PcBackend               (* session.go 1969 *)
| PcReport (e : perr)     (* 305-310 *)
| PcErrFunc (e : perr)    (* session.go 2052: Close *)
| PcClosing (e : perr)    (* ... in startClosing, before 2247 *)
| PcErrReport (e : perr)  (* session.go 2053 *)
| PcCollect               (* 313: all probes are done *)
| PcReturn.               (* 299 *)

Record pst := {
  p_pc : ppc;
  p_left : nat;           (* probes of the iteration, with the present one *)
  p_closed : bool;        (* the state of the session is Closing or Closed *)
  p_ctx : bool;           (* the context of the negotiator is done *)
  p_user : bool;          (* another goroutine is in startClosing, before 2247 *)
  p_go : nat;             (* goroutines started at 307 that have not run *)
  p_out : list preport }. (* newest first *)

(** An iteration of [n+1] probes; there are 12 in the code: four sizes, each three
    times (282-296). *)
Definition pst0 (n : nat) : pst :=
  {| p_pc := PcCheck; p_left := S n; p_closed := false; p_ctx := false; p_user := false; p_go := 0; p_out := [] |}.

Inductive plabel :=
| PlCheck
| PlDone
| PlBackend (ok : bool)
| PlReport
| PlErrClose
| PlErrCancel
| PlErrReport
| PlUserClose             (* another goroutine calls Close: 2254 *)
| PlUserCancel            (* ... and gets to 2247 *)
| PlTimeout               (* 2236-2237, for any Close *)
| PlNegClose.             (* a goroutine started at 307 runs 516-523 *)

Definition at_ (s : pst) (pc : ppc) : pst :=
  {| p_pc := pc; p_left := p_left s; p_closed := p_closed s; p_ctx := p_ctx s; p_user := p_user s; p_go := p_go s; p_out := p_out s |}.
Definition told (s : pst) (r : preport) : pst :=
  {| p_pc := p_pc s; p_left := p_left s; p_closed := p_closed s; p_ctx := p_ctx s; p_user := p_user s; p_go := p_go s; p_out := r :: p_out s |}.
Definition flags (s : pst) (closed ctx user : bool) (go : nat) : pst :=
  {| p_pc := p_pc s; p_left := p_left s; p_closed := closed; p_ctx := ctx; p_user := user; p_go := go; p_out := p_out s |}.
(** The loops of 294 and 296. *)
Definition nextProbe (s : pst) : pst :=
  {| p_pc := match p_left s with S (S _) => PcCheck | _ => PcCollect end; p_left := pred (p_left s);
     p_closed := p_closed s; p_ctx := p_ctx s; p_user := p_user s; p_go := p_go s; p_out := p_out s |}.

Definition pstep (s : pst) (l : plabel) : option pst :=
  match l, p_pc s with
  | PlCheck, PcCheck => Some (at_ s (if p_ctx s then PcReturn else PcDone))
  | PlDone, PcDone => Some (at_ s (if p_closed s then PcReport PeClosed else PcBackend))
  | PlBackend ok, PcBackend => Some (if ok then nextProbe s else at_ s (PcReport PeBackend))
  | PlReport, PcReport e =>
      let s := told s (PrProbe e) in
      match e with
      | PeClosed => Some (nextProbe (flags s (p_closed s) (p_ctx s) (p_user s) (S (p_go s))))
      | PeBackend => Some (at_ s (PcErrFunc e))
      end
  | PlErrClose, PcErrFunc e =>
      if p_closed s then Some (at_ s (PcErrReport e))
      else Some (at_ (flags s true (p_ctx s) (p_user s) (p_go s)) (PcClosing e))
  | PlErrCancel, PcClosing e => Some (at_ (flags s (p_closed s) true (p_user s) (p_go s)) (PcErrReport e))
  | PlErrReport, PcErrReport e => Some (nextProbe (told s (PrErrFunc e)))
  | PlUserClose, _ => if p_closed s then None else Some (flags s true (p_ctx s) true (p_go s))
  | PlUserCancel, _ => if p_user s then Some (flags s (p_closed s) true false (p_go s)) else None
  | PlTimeout, _ => if p_closed s then Some (flags s (p_closed s) true (p_user s) (p_go s)) else None
  | PlNegClose, _ => match p_go s with O => None | S g => Some (flags s (p_closed s) true (p_user s) g) end
  | _, _ => None
  end.
