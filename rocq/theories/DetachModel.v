(** Detaching from the backend and closing, for all values of
    DetachOnMessagesCount and DetachOnSequentialDecryptFailsCount: session.go
    637-680 (backend closer), 799-809, 819-950 (reader loop), 983-1013 (counting),
    2189-2260 (deadlines, interruptRead, Close).

    One step is one atomic access or one critical section. Simplifications: no
    pausing (PauseModel); duplicates, and messages that are not counted, are left
    out, so a packet is the number of its messages of the application;
    [startClosing] is the cancellation at its end (for the flush before it see
    BatchModel); negotiation is left out, so that a session is exchanging keys or
    established. *)
From Coq Require Import NArith List Bool.
From Verif Require Import Base TS.
Import ListNotations.
Local Open Scope N_scope.

Record dconf := {
  dcMsgs : N;          (* DetachOnMessagesCount *)
  dcFails : N;         (* DetachOnSequentialDecryptFailsCount *)
  dcWait : bool;       (* AnswersMode == KeyExchangeAnswersModeAnswerAndWait *)
  dcDeadlines : bool   (* the backend has SetReadDeadline or SetDeadline *)
}.

(** What a call of [backend.Read] has brought. *)
Inductive got := GMsgs (n : nat) | GBad | GErr (timeout : bool).

Inductive dphase :=
| DTop                   (* 908: isDone? *)
| DFlag                  (* 909 *)
| DRead                  (* 912 *)
| DGot (g : got)         (* 913 *)
| DMsgs (n : nat)        (* 966: messages of the packet still to be handled *)
| DBad                   (* readerLoopDecryptError *)
| DErr (timeout : bool)  (* readerLoopReadError *)
| DClosing               (* inside Close, the state is changed *)
| DEnd                   (* readerLoopCleanup *)
| DFin                   (* 844 *)
| DDone.

Inductive kphase :=
| KWait                  (* 642 *)
| KState                 (* 646 *)
| KLoad                  (* 648 *)
| KLoad2 (c : N)         (* 649 *)
| KCheck (detach : bool) (* 657, 667 or 673: inside interruptRead, 2220 *)
| KInt (detach : bool)   (* 2225 *)
| KSet (detach : bool)   (* 2228 *)
| KDone.

Record dst := {
  d_kx : bool;           (* SessionStateKeyExchanging *)
  d_done : bool;         (* Closing or Closed *)
  d_ctx : bool;          (* the context is done *)
  d_count : N;           (* receivedMessagesCount *)
  d_fails : N;           (* sequentialDecryptFailsCount *)
  d_reading : bool;      (* isReadingValue *)
  d_req : N;             (* readInterruptsRequested *)
  d_hap : N;             (* readInterruptsHappened *)
  d_expired : bool;      (* the backend's read deadline is in the past *)
  d_open : bool;         (* backend.Close has not been called *)
  d_errs : N;            (* errors of the closer, 658 and 668 *)
  d_reader : dphase;
  d_closer : kphase
}.

Definition detachInit : dst :=
  {| d_kx := true; d_done := false; d_ctx := false; d_count := 0; d_fails := 0; d_reading := false; d_req := 0; d_hap := 0;
     d_expired := false; d_open := true; d_errs := 0; d_reader := DTop; d_closer := KWait |}.

Definition toReader (s : dst) (r : dphase) : dst :=
  {| d_kx := d_kx s; d_done := d_done s; d_ctx := d_ctx s; d_count := d_count s; d_fails := d_fails s; d_reading := d_reading s;
     d_req := d_req s; d_hap := d_hap s; d_expired := d_expired s; d_open := d_open s; d_errs := d_errs s; d_reader := r; d_closer := d_closer s |}.
Definition toCloser (s : dst) (k : kphase) : dst :=
  {| d_kx := d_kx s; d_done := d_done s; d_ctx := d_ctx s; d_count := d_count s; d_fails := d_fails s; d_reading := d_reading s;
     d_req := d_req s; d_hap := d_hap s; d_expired := d_expired s; d_open := d_open s; d_errs := d_errs s; d_reader := d_reader s; d_closer := k |}.
Definition setFlags (s : dst) (kx done ctx : bool) : dst :=
  {| d_kx := kx; d_done := done; d_ctx := ctx; d_count := d_count s; d_fails := d_fails s; d_reading := d_reading s;
     d_req := d_req s; d_hap := d_hap s; d_expired := d_expired s; d_open := d_open s; d_errs := d_errs s; d_reader := d_reader s; d_closer := d_closer s |}.
Definition setCounts (s : dst) (c f : N) : dst :=
  {| d_kx := d_kx s; d_done := d_done s; d_ctx := d_ctx s; d_count := c; d_fails := f; d_reading := d_reading s;
     d_req := d_req s; d_hap := d_hap s; d_expired := d_expired s; d_open := d_open s; d_errs := d_errs s; d_reader := d_reader s; d_closer := d_closer s |}.
Definition setBackend (s : dst) (reading : bool) (req hap : N) (expired open : bool) (errs : N) : dst :=
  {| d_kx := d_kx s; d_done := d_done s; d_ctx := d_ctx s; d_count := d_count s; d_fails := d_fails s; d_reading := reading;
     d_req := req; d_hap := hap; d_expired := expired; d_open := open; d_errs := errs; d_reader := d_reader s; d_closer := d_closer s |}.
Definition setReading (s : dst) (v : bool) : dst := setBackend s v (d_req s) (d_hap s) (d_expired s) (d_open s) (d_errs s).

Inductive detachLabel :=
| LNext                     (* the reader's next step, where it has no choice *)
| LData (n : nat)           (* Read returns a packet with n messages of the application *)
| LGarbage                  (* Read returns a packet no key opens *)
| LTimeout                  (* Read returns because of the deadline *)
| LFail                     (* Read returns another error *)
| LAnswer (handled : bool)  (* readerLoopReadError: the event handler's answer if it is asked *)
| LCloser                   (* the backend closer's next step *)
| LClose                    (* Close by somebody else: the state change *)
| LCancel                   (* the context ends, by Close or by itself *)
| LEstablish.               (* the key exchange is over *)

(** The reader calls Close, session.go 2253-2260. *)
Definition closeByReader (s : dst) : dst :=
  if d_done s then toReader s DTop else toReader (setFlags s (d_kx s) true (d_ctx s)) DClosing.

Section Step.
  Variable c : dconf.

  (** session.go 983-1013 for one message of the application. *)
  Definition oneMessage (s : dst) (left : nat) : dst :=
    if dcMsgs c =? 0 then toReader s (DMsgs left)
    else
      let s := setCounts s (add64 (d_count s) 1) (d_fails s) in
      if dcMsgs c <=? d_count s
      then if d_kx s && dcWait c then toReader s DTop else closeByReader s
      else toReader s (DMsgs left).

  Definition readerNext (s : dst) : option dst :=
    match d_reader s with
    | DTop => Some (toReader s (if d_done s then DEnd else DFlag))
    | DFlag => Some (toReader (setReading s true) DRead)
    | DRead => None
    | DGot (GMsgs n) => Some (toReader (setCounts (setReading s false) (d_count s) 0) (DMsgs n))
    | DGot GBad => Some (toReader (setReading s false) DBad)
    | DGot (GErr t) => Some (toReader (setReading s false) (DErr t))
    | DMsgs O => Some (toReader s DTop)
    | DMsgs (S n) => Some (oneMessage s n)
    | DBad =>   (* 883-899 *)
        let f := add64 (d_fails s) 1 in
        Some (toReader (setCounts s (d_count s) f) (if dcFails c <=? f then DEnd else DTop))
    | DErr t =>   (* 849-867 *)
        if d_done s then Some (toReader s DEnd)
        else if t && (d_hap s <? d_req s)
        then if dcDeadlines c then Some (toReader (setBackend s (d_reading s) (d_req s) (d_req s) false (d_open s) (d_errs s)) DTop) else None
        else None
    | DClosing => Some (toReader (setFlags s (d_kx s) (d_done s) true) DTop)
    | DEnd => Some (toReader (setFlags s (d_kx s) true true) DFin)
    | DFin =>   (* 799-809 *)
        Some (toReader (if d_hap s <? d_req s
                        then setBackend s (d_reading s) (d_req s) (d_req s) (if dcDeadlines c then false else d_expired s) (d_open s) (d_errs s)
                        else s) DDone)
    | DDone => None
    end.

  Definition closerNext (s : dst) : option dst :=
    match d_closer s with
    | KWait => if d_ctx s then Some (toCloser s KState) else None
    | KState => Some (toCloser (setFlags s (d_kx s) true (d_ctx s)) KLoad)
    | KLoad => Some (toCloser s (KLoad2 (d_count s)))
    | KLoad2 n =>
        Some (toCloser s (KCheck ((negb (dcMsgs c =? 0) && (n =? dcMsgs c)) || (negb (dcFails c =? 0) && (d_fails s =? dcFails c)))))
    | KCheck d => Some (toCloser s (if d_reading s then KInt d else KDone))
    | KInt d => Some (toCloser (setBackend s (d_reading s) (d_req s + 1) (d_hap s) (d_expired s) (d_open s) (d_errs s)) (KSet d))
    | KSet d =>
        Some (toCloser
          (if dcDeadlines c then setBackend s (d_reading s) (d_req s) (d_hap s) true (d_open s) (d_errs s)
           else if d then setBackend s (d_reading s) (d_req s) (d_hap s) (d_expired s) (d_open s) (d_errs s + 1)
           else setBackend s (d_reading s) (d_req s) (d_hap s) (d_expired s) false (d_errs s)) KDone)
    | KDone => None
    end.

  Definition detachStep (s : dst) (l : detachLabel) : option dst :=
    match l with
    | LNext => readerNext s
    | LData n => match d_reader s with DRead => if d_open s then Some (toReader s (DGot (GMsgs n))) else None | _ => None end
    | LGarbage => match d_reader s with DRead => if d_open s then Some (toReader s (DGot GBad)) else None | _ => None end
    | LTimeout => match d_reader s with DRead => if d_expired s then Some (toReader s (DGot (GErr true))) else None | _ => None end
    | LFail => match d_reader s with DRead => Some (toReader s (DGot (GErr false))) | _ => None end
    | LAnswer h =>   (* 869-880 *)
        match d_reader s with
        | DErr t =>
            if d_done s || (t && (d_hap s <? d_req s) && dcDeadlines c) then None
            else if h then Some (toReader s DTop) else Some (closeByReader s)
        | _ => None
        end
    | LCloser => closerNext s
    | LClose => if d_done s then None else Some (setFlags s (d_kx s) true (d_ctx s))
    | LCancel => if d_ctx s then None else Some (setFlags s (d_kx s) (d_done s) true)
    | LEstablish => if d_kx s && negb (d_done s) then Some (setFlags s false (d_done s) (d_ctx s)) else None
    end.
End Step.
