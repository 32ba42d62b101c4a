(** The end of the key exchange seen by the goroutine that reads: key_exchanger.go
    470-523 ([Handle] calls [doneFunc]), session.go 2020-2042 ([onConnect]) and
    2058-2071 ([onKeyExchangeSuccess]), negotiator.go 167-188 ([Start] without
    negotiation: [okFunc] is called at once), session.go 1738-1774
    ([sendDelayedNow]), 1808-1851 ([delayedSenderLoop]), 901-912 (the reader) and
    637-680, 2218-2252 (closing).

    Two sessions, connected by a backend that has read deadlines (as net.Conn
    has) and that holds up to [cap] packets per direction; [Some 0]: a write ends
    when the other side reads, as with net.Pipe; [None]: a write never waits.

    At the start each side has handled the request of the other and a goroutine of
    its own is about to send the answer (key_exchanger.go 482).  One step is one
    call of the backend, one critical section of [delayedWriteBufLocker] or one
    close of [isEstablished].
    Simplifications: messages are numbered only by how many they are, all that
    wait fit into one packet, no further key exchange takes place, and incoming
    data finds room in its queue. *)
From Coq Require Import List Bool Arith.
From Verif Require Import Base TS.
Import ListNotations.

Inductive wire := WAnswer | WData (n : nat).

Inductive creader :=
| CrRead                 (* 908-912, waiting for a packet *)
| CrConn                 (* [Handle] calls [doneFunc]; 2020-2030 *)
| CrFlush                (* 2034: [sendDelayedNow] *)
| CrWrite (n : nat)      (* inside backend.Write, called from there *)
| CrExit.

Inductive csender := CsOff | CsIdle | CsWrite (n : nat) | CsEnd.

Record peer := {
  pReader : creader;
  pAnswer : bool;        (* the answer is still to be sent *)
  pEst : bool;           (* [isEstablished] is closed *)
  pWait : nat;           (* messages whose writers wait for that, 1594-1603 *)
  pBuf : nat;            (* messages in [delayedWriteBuf] *)
  pSender : csender;
  pDone : bool           (* Close was called: the state is Closing and the context is cancelled *)
}.

Record cn := { cA : peer; cB : peer; cFromA : list wire; cFromB : list wire }.

Definition peerInit : peer :=
  {| pReader := CrRead; pAnswer := true; pEst := false; pWait := 0; pBuf := 0; pSender := CsOff; pDone := false |}.
Definition cnInit : cn := {| cA := peerInit; cB := peerInit; cFromA := []; cFromB := [] |}.

Inductive clabel :=
| CnCall (p : bool)        (* the application writes a message; [true]: side A *)
| CnWake (p : bool)        (* a writer goes on after [isEstablished] or the end of the context *)
| CnClose (p : bool)
| CnAnswer (p : bool)      (* the answer is written *)
| CnRead (p : bool)        (* backend.Read returns *)
| CnReader (p : bool)      (* the reader, when it neither reads nor writes *)
| CnReaderWrite (p : bool) (* its backend.Write returns *)
| CnSender (p : bool)      (* 1818-1833 *)
| CnSenderWrite (p : bool).

Definition side (s : cn) (p : bool) : peer := if p then cA s else cB s.
Definition chan (s : cn) (p : bool) : list wire := if p then cFromA s else cFromB s.   (* from [p] to the other *)
Definition setSide (s : cn) (p : bool) (x : peer) : cn :=
  if p then {| cA := x; cB := cB s; cFromA := cFromA s; cFromB := cFromB s |}
  else {| cA := cA s; cB := x; cFromA := cFromA s; cFromB := cFromB s |}.
Definition setChan (s : cn) (p : bool) (l : list wire) : cn :=
  if p then {| cA := cA s; cB := cB s; cFromA := l; cFromB := cFromB s |}
  else {| cA := cA s; cB := cB s; cFromA := cFromA s; cFromB := l |}.

Definition setReader (x : peer) (r : creader) : peer :=
  {| pReader := r; pAnswer := pAnswer x; pEst := pEst x; pWait := pWait x; pBuf := pBuf x; pSender := pSender x;
     pDone := pDone x |}.
Definition setSender (x : peer) (d : csender) : peer :=
  {| pReader := pReader x; pAnswer := pAnswer x; pEst := pEst x; pWait := pWait x; pBuf := pBuf x; pSender := d;
     pDone := pDone x |}.
Definition setBuf (x : peer) (w b : nat) : peer :=
  {| pReader := pReader x; pAnswer := pAnswer x; pEst := pEst x; pWait := w; pBuf := b; pSender := pSender x;
     pDone := pDone x |}.
Definition setAnswered (x : peer) : peer :=
  {| pReader := pReader x; pAnswer := false; pEst := pEst x; pWait := pWait x; pBuf := pBuf x; pSender := pSender x;
     pDone := pDone x |}.
Definition setEst (x : peer) : peer :=
  {| pReader := pReader x; pAnswer := pAnswer x; pEst := true; pWait := pWait x; pBuf := pBuf x; pSender := pSender x;
     pDone := pDone x |}.
Definition setDone (x : peer) : peer :=
  {| pReader := pReader x; pAnswer := pAnswer x; pEst := pEst x; pWait := pWait x; pBuf := 0; pSender := pSender x;
     pDone := true |}.

(** What the reader does with a packet. *)
Definition gotPacket (x : peer) (w : wire) : peer :=
  match w with WAnswer => setReader x CrConn | WData _ => x end.

Section Connect.
  Variable cap : option nat.

  Definition hasRoom (s : cn) (p : bool) : bool :=
    match cap with None => true | Some k => Nat.ltb (length (chan s p)) k end.
  Definition reading (x : peer) : bool := match pReader x with CrRead => negb (pDone x) | _ => false end.

  (** backend.Write by side [p] returns: there is room, or the other side reads. *)
  Definition deliver (s : cn) (p : bool) (w : wire) : option cn :=
    if hasRoom s p then Some (setChan s p (chan s p ++ [w]))
    else if match chan s p with [] => reading (side s (negb p)) | _ => false end
    then Some (setSide s (negb p) (gotPacket (side s (negb p)) w))
    else None.

  Definition cnStep (s : cn) (l : clabel) : option cn :=
    match l with
    | CnCall p =>
        let x := side s p in
        if pDone x then None
        else Some (setSide s p (if pEst x then setBuf x (pWait x) (S (pBuf x)) else setBuf x (S (pWait x)) (pBuf x)))
    | CnWake p =>
        let x := side s p in
        match pWait x with
        | O => None
        | S w => if pEst x then Some (setSide s p (setBuf x w (S (pBuf x))))
                 else if pDone x then Some (setSide s p (setBuf x w (pBuf x)))
                 else None
        end
    | CnClose p => let x := side s p in if pDone x then None else Some (setSide s p (setDone x))
    | CnAnswer p =>
        if pAnswer (side s p) then
          let s := setSide s p (setAnswered (side s p)) in
          if pDone (side s p) then Some s else deliver s p WAnswer
        else None
    | CnRead p =>
        match chan s (negb p) with
        | w :: rest =>
            if reading (side s p) then Some (setChan (setSide s p (gotPacket (side s p) w)) (negb p) rest) else None
        | [] => None
        end
    | CnReader p =>
        let x := side s p in
        match pReader x with
        | CrRead => if pDone x then Some (setSide s p (setReader x CrExit)) else None    (* interrupted *)
        | CrConn => Some (setSide s p (setEst (setReader x CrFlush)))
        | CrFlush =>
            match pBuf x with
            | O => Some (setSide s p (setSender (setReader x CrRead) CsIdle))
            | S _ => Some (setSide s p (setBuf (setReader x (if pDone x then CrFlush else CrWrite (pBuf x))) (pWait x) 0))
            end
        | _ => None
        end
    | CnReaderWrite p =>
        match pReader (side s p) with
        | CrWrite n => deliver (setSide s p (setReader (side s p) CrFlush)) p (WData n)
        | _ => None
        end
    | CnSender p =>
        let x := side s p in
        match pSender x with
        | CsIdle =>
            if pDone x then Some (setSide s p (setSender x CsEnd))
            else match pBuf x with
                 | O => None
                 | S _ => Some (setSide s p (setBuf (setSender x (CsWrite (pBuf x))) (pWait x) 0))
                 end
        | _ => None
        end
    | CnSenderWrite p =>
        match pSender (side s p) with
        | CsWrite n => deliver (setSide s p (setSender (side s p) CsIdle)) p (WData n)
        | _ => None
        end
    end.
End Connect.
