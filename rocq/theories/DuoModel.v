(** Two whole sessions (IntegModel) and the network between them. Every packet
    either of them has sent may arrive at the other at any later time, any number
    of times, in any order, or never; nothing else arrives.

    Beyond what IntegModel leaves out: a key-exchange message goes out in the step
    that makes it (key_exchanger.go 730-747 with session.go 1451-1465, 1546-1573,
    1853-1987), and so does an unfragmented message of the application, once
    the session is established (session.go 1594-1602, 1868-1884 wait for that). *)
From Coq Require Import NArith Arith List Bool.
From Verif Require Import Base MessageModel PacketIDModel PacketModel ReaderModel ReaderLoopModel StateModel KxModel KxPairModel IntegModel.
Import ListNotations.
Local Open Scope N_scope.

Record side := {
  dSess : isess;
  dNet : list bytes;       (* packets handed to the backend, oldest first *)
  dWrote : list bytes      (* ghost: what the application has written, oldest first *)
}.

Record duo := { dA : side; dB : side }.

Inductive slabel :=
| SKx (l : klabel)           (* the exchanger's own goroutines *)
| SRecv (n : nat)            (* packet number n of the other side arrives *)
| SWrite (payload : bytes)   (* one unfragmented message of the application *)
| SClose                     (* the application calls Close *)
| SCleanup.                  (* session.go 819-846 *)

Inductive dlabel := DA (l : slabel) | DB (l : slabel).

Section Duo.
  Variable verify : bytes -> bytes -> bytes -> bool.
  Variable dh : bytes -> bytes -> bytes.
  Variable blake3 sha3 : bytes -> bytes.
  Variable stream : bytes -> bytes -> nat -> N.
  Variable poly1305 : bytes -> bytes -> bytes.
  Variable sign : bytes -> bytes -> bytes.
  Variables ca cb : iconf.

  Definition sideInit (remote : bytes) (win : sizeOption) (md mf : N) : side :=
    {| dSess := isessInit (Some remote) win md mf; dNet := []; dWrote := [] |}.

  (** session.go 1853-1987: next packet ID, sealing, backend. *)
  Definition handOver (c : iconf) (x : side) (s : isess) (confidential : bool) (msg wrote : list bytes) : option side :=
    match sendPacket stream blake3 poly1305 (peerOf blake3 sha3 c s) confidential (concat msg) with
    | (p, Ret (Ok raw)) =>
        Some {| dSess := upPkt s (pNext p) (iWin s); dNet := dNet x ++ [raw]; dWrote := dWrote x ++ wrote |}
    | (_, Ret (Err _)) => None
    | (_, Panic) => Some {| dSess := upPanic s; dNet := dNet x; dWrote := dWrote x |}
    end.

  Definition sideStep (c : iconf) (x : side) (net : list bytes) (l : slabel) : option side :=
    let s := dSess x in
    match l with
    | SKx k =>
        match istep verify dh blake3 sha3 stream poly1305 c s (IKx k) with
        | None => None
        | Some s' =>
            if Nat.ltb (length (xSent (iKx s))) (length (xSent (iKx s'))) && negb (isDoneState (stateOf s'))
            then match xSent (iKx s') with
                 | m :: _ => handOver c x s' false [encodeMsg messageTypeKeyExchange 0 (signedWire sign (icKx c) m)] []
                 | [] => None
                 end
            else Some {| dSess := s'; dNet := dNet x; dWrote := dWrote x |}
        end
    | SRecv n =>
        match nth_error net n with
        | None => None
        | Some raw =>
            match istep verify dh blake3 sha3 stream poly1305 c s (IPacket raw) with
            | None => None
            | Some s' => Some {| dSess := s'; dNet := dNet x; dWrote := dWrote x |}
            end
        end
    | SWrite payload =>
        if iPanic s || negb (stateOf s =? SessionStateEstablished) || (2^32 <=? len payload + 53) then None
        else handOver c x s true [encodeMsg MessageTypeReadWrite (setIsConfidential 0 true) payload] [payload]
    | SClose => if iPanic s then None else Some {| dSess := closeCall s; dNet := dNet x; dWrote := dWrote x |}
    | SCleanup =>
        match istep verify dh blake3 sha3 stream poly1305 c s ICleanup with
        | None => None
        | Some s' => Some {| dSess := s'; dNet := dNet x; dWrote := dWrote x |}
        end
    end.

  Definition dstep (d : duo) (l : dlabel) : option duo :=
    match l with
    | DA l => match sideStep ca (dA d) (dNet (dB d)) l with Some x => Some {| dA := x; dB := dB d |} | None => None end
    | DB l => match sideStep cb (dB d) (dNet (dA d)) l with Some x => Some {| dA := dA d; dB := x |} | None => None end
    end.
End Duo.
