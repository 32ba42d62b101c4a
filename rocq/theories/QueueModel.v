(** The queue between the reader goroutine and [Session.Read]: session.go
    834-842, 1074-1101, 2167-2185; read_item.go. *)
From Coq Require Import NArith List Bool.
From Verif Require Import Base TS.
Import ListNotations.
Local Open Scope N_scope.

(** session.go 62. *)
Definition messageQueueLength : nat := 1024.

(** read_item.go 7-13. *)
Record ritem := { iBusy : bool; iOneTime : bool; iCap : N; iData : bytes }.

Inductive readResult := ReadOk (data : bytes) | ReadClosed | ReadTooBig.

(** A [Read] call with a buffer of [size] bytes. *)
Inductive reading :=
| RNone                                            (* not called yet *)
| RWait (size : N)                                 (* at [<-ch], line 2169 *)
| RGot (size : N) (item : nat)                     (* received, line 2173 *)
| RCopied (size : N) (data : bytes) (item : nat)   (* line 2178 *)
| RRet (size : N) (r : readResult).

Inductive readerPhase :=
| RpIdle                 (* between messages *)
| RpSending (item : nat) (* at [ch <- item], line 1099 *)
| RpDone.                (* cleanup done *)

Record queue := {
  qItems : nat -> ritem;      (* all items ever allocated, by number *)
  qNext : nat;                (* number of items allocated *)
  qPool : list nat;           (* readItemPool.storage *)
  qChan : list nat;           (* buffered items of readChan[MessageTypeReadWrite] *)
  qClosed : bool;             (* close(ch) done *)
  qReader : readerPhase;
  qReads : nat -> reading;    (* Read calls, by number *)
  qArrivals : list bytes;     (* ghost: payloads the reader got for this queue *)
  qReceived : list nat;       (* ghost: Read calls in the order of their receive from the channel *)
  qPanic : bool
}.

Definition initQueue : queue :=
  {| qItems := fun _ => {| iBusy := false; iOneTime := false; iCap := 0; iData := [] |}; qNext := 0; qPool := [];
     qChan := []; qClosed := false; qReader := RpIdle; qReads := fun _ => RNone;
     qArrivals := []; qReceived := []; qPanic := false |}.

Inductive qlabel :=
| QArrive (payload : bytes) (reuse : option nat)
    (* lines 1082-1090: the reader acquires an item and fills it; [reuse]: the
       pooled item sync.Pool happens to return *)
| QPut                     (* line 1099 *)
| QFinish                  (* readerLoopCleanup 836-838 *)
| QCall (t : nat) (size : N)
| QRecv (t : nat)
| QCopy (t : nat)
| QRelease (t : nat)
| QDrop (item : nat).      (* sync.Pool forgets a pooled item *)

Section Queue.
  Variable packetSizeLimit : N.
  (** messageQueueLength in the code. *)
  Variable capacity : nat.

  Definition removeItem (i : nat) (l : list nat) : list nat := filter (fun j => negb (Nat.eqb j i)) l.
  Definition isPooled (i : nat) (l : list nat) : bool := existsb (Nat.eqb i) l.

  Definition panicked (q : queue) : queue :=
    {| qItems := qItems q; qNext := qNext q; qPool := qPool q; qChan := qChan q; qClosed := qClosed q; qReader := qReader q;
       qReads := qReads q; qArrivals := qArrivals q; qReceived := qReceived q; qPanic := true |}.

  (** read_item.go 31-48 and session.go 1082-1090. [isOneTimeUse] only chooses
      between a new and a pooled item; the item's own flag is never set. *)
  Definition acquireAndFill (it : ritem) (payload : bytes) : option ritem :=
    let maxSize := if packetSizeLimit <? len payload then len payload else packetSizeLimit in
    if iBusy it then None
    else
      let c := if iCap it <? maxSize then maxSize else iCap it in
      if c <? len payload then None   (* item.Data[0:hdr.Length] out of range *)
      else Some {| iBusy := true; iOneTime := iOneTime it; iCap := c; iData := payload |}.

  Definition freshItem : ritem := {| iBusy := false; iOneTime := false; iCap := 0; iData := [] |}.

  Definition qstep (q : queue) (l : qlabel) : option queue :=
    if qPanic q then None else
    match l with
    | QArrive payload reuse =>
        match qReader q with
        | RpIdle =>
            let oneTime := packetSizeLimit <? len payload in
            match (if oneTime then None else reuse) with
            | Some i =>
                if isPooled i (qPool q) then
                  match acquireAndFill (qItems q i) payload with
                  | None => Some (panicked q)
                  | Some it =>
                      Some {| qItems := fupd (qItems q) i it; qNext := qNext q; qPool := removeItem i (qPool q);
                              qChan := qChan q; qClosed := qClosed q; qReader := RpSending i; qReads := qReads q;
                              qArrivals := qArrivals q ++ [payload]; qReceived := qReceived q; qPanic := false |}
                  end
                else None
            | None =>
                match acquireAndFill freshItem payload with
                | None => Some (panicked q)
                | Some it =>
                    Some {| qItems := fupd (qItems q) (qNext q) it; qNext := S (qNext q); qPool := qPool q;
                            qChan := qChan q; qClosed := qClosed q; qReader := RpSending (qNext q); qReads := qReads q;
                            qArrivals := qArrivals q ++ [payload]; qReceived := qReceived q; qPanic := false |}
                end
            end
        | _ => None
        end
    | QPut =>
        match qReader q with
        | RpSending i =>
            if qClosed q then Some (panicked q)   (* send on closed channel *)
            else if Nat.ltb (length (qChan q)) capacity then
              Some {| qItems := qItems q; qNext := qNext q; qPool := qPool q; qChan := qChan q ++ [i]; qClosed := qClosed q;
                      qReader := RpIdle; qReads := qReads q; qArrivals := qArrivals q; qReceived := qReceived q; qPanic := false |}
            else None
        | _ => None
        end
    | QFinish =>
        match qReader q with
        | RpIdle => Some {| qItems := qItems q; qNext := qNext q; qPool := qPool q; qChan := qChan q; qClosed := true;
                      qReader := RpDone; qReads := qReads q; qArrivals := qArrivals q; qReceived := qReceived q; qPanic := false |}
        | _ => None
        end
    | QCall t size =>
        match qReads q t with
        | RNone => Some {| qItems := qItems q; qNext := qNext q; qPool := qPool q; qChan := qChan q; qClosed := qClosed q;
                      qReader := qReader q; qReads := fupd (qReads q) t (RWait size); qArrivals := qArrivals q;
                      qReceived := qReceived q; qPanic := false |}
        | _ => None
        end
    | QRecv t =>
        match qReads q t with
        | RWait size =>
            match qChan q with
            | i :: r => Some {| qItems := qItems q; qNext := qNext q; qPool := qPool q; qChan := r; qClosed := qClosed q;
                      qReader := qReader q; qReads := fupd (qReads q) t (RGot size i); qArrivals := qArrivals q;
                      qReceived := qReceived q ++ [t]; qPanic := false |}
            | [] => if qClosed q then
                      Some {| qItems := qItems q; qNext := qNext q; qPool := qPool q; qChan := []; qClosed := qClosed q;
                      qReader := qReader q; qReads := fupd (qReads q) t (RRet size ReadClosed); qArrivals := qArrivals q;
                      qReceived := qReceived q; qPanic := false |}
                    else None
            end
        | _ => None
        end
    | QCopy t =>
        match qReads q t with
        | RGot size i =>
            let d := iData (qItems q i) in
            let r := if size <? len d then RRet size ReadTooBig else RCopied size d i in
            Some {| qItems := qItems q; qNext := qNext q; qPool := qPool q; qChan := qChan q; qClosed := qClosed q;
                    qReader := qReader q; qReads := fupd (qReads q) t r; qArrivals := qArrivals q;
                    qReceived := qReceived q; qPanic := false |}
        | _ => None
        end
    | QRelease t =>
        match qReads q t with
        | RCopied size d i =>
            let it := qItems q i in
            if negb (iBusy it) then Some (panicked q)
            else if iOneTime it then
              Some {| qItems := qItems q; qNext := qNext q; qPool := qPool q; qChan := qChan q; qClosed := qClosed q;
                    qReader := qReader q; qReads := fupd (qReads q) t (RRet size (ReadOk d)); qArrivals := qArrivals q;
                    qReceived := qReceived q; qPanic := false |}
            else
              Some {| qItems := fupd (qItems q) i {| iBusy := false; iOneTime := false; iCap := iCap it; iData := [] |};
                    qNext := qNext q; qPool := i :: qPool q; qChan := qChan q; qClosed := qClosed q;
                    qReader := qReader q; qReads := fupd (qReads q) t (RRet size (ReadOk d)); qArrivals := qArrivals q;
                    qReceived := qReceived q; qPanic := false |}
        | _ => None
        end
    | QDrop i =>
        Some {| qItems := qItems q; qNext := qNext q; qPool := removeItem i (qPool q); qChan := qChan q; qClosed := qClosed q;
                qReader := qReader q; qReads := qReads q; qArrivals := qArrivals q; qReceived := qReceived q; qPanic := false |}
    end.
End Queue.
