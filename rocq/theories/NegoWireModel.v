(** Negotiation messages as bytes: negotiator.go 240-267, 389-509 and
    negotiation_message.go. SHA-512 is a parameter. *)
From Coq Require Import NArith List Bool.
From Verif Require Import Base MessageModel NegoModel.
Import ListNotations.
Local Open Scope N_scope.

Section Wire.
  Variable sha512 : bytes -> bytes.

  (** The body of a ping, lines 247-249: byte [idx] is [uint8(idx)]. *)
  Definition pingFill (n : nat) : bytes := map (fun i => N.of_nat i mod 256) (seq 0 n).

  (** sendPing, 240-259: the buffer handed to [WriteSingle]. The struct is written
      over the first 69 bytes with an empty checksum (251); the checksum of
      everything from byte 65 on replaces the 64 bytes from byte 1 on (256-257).
      [Panic]: [buf[msgSize:]] of a shorter buffer. *)
  Definition pingBytes (iter size : N) : outcome bytes :=
    if size <? pingPongSize then Panic
    else
      let rest := le_enc 4 iter ++ pingFill (N.to_nat (size - pingPongSize)) in
      Ret ([1] ++ firstn 64 (sha512 rest) ++ rest).

  (** sendControl, 389-402. *)
  Definition ctlBytes (largest : N) (fin : bool) : bytes :=
    negEncode {| nSub := 0; nLargest := largest; nFlags := if fin then 1 else 0 |}.

  Inductive nerr := NeShort (want got : N) | NeChecksum | NeSubType (t : N).

  (** What a message makes the negotiator do. *)
  Inductive naction :=
  | NControl (largest : N) (fin : bool)   (* 431-442 *)
  | NEcho (b : bytes)                     (* 454-456: this message is sent *)
  | NCount (size iter : N)                (* 473-482 *)
  | NError (e : nerr).                     (* the error is returned *)

  (** parseMessage, 414-421, for [negotiationPingPongMessage]. The length the error
      asks for is that of a control message (418). *)
  Definition pongDecode (b : bytes) : option (bytes * N) :=
    if len b <? pingPongSize then None
    else Some (firstn 64 (skipn 1 b), le_dec (firstn 4 (skipn 65 b))).

  (** Handle, 494-509, with 423-484. *)
  Definition negoHandle (b : bytes) : outcome naction :=
    match b with
    | [] => Ret (NError (NeShort 1 0))
    | t :: r =>
        if t =? 0 then
          match negDecode b with
          | Err _ => Ret (NError (NeShort negCtlSize (len b)))
          | Ok m => Ret (NControl (nLargest m) (negIsEnd (nFlags m)))
          end
        else if t =? 1 then Ret (NEcho (2 :: r))
        else if t =? 2 then
          match pongDecode b with
          | None => Ret (NError (NeShort negCtlSize (len b)))
          | Some (sum, iter) =>
              if len b <? 65 then Panic   (* 466: b[65:] *)
              else if bytes_eqb sum (sha512 (skipn 65 b)) then Ret (NCount (u32 (len b)) iter)
              else Ret (NError NeChecksum)
          end
        else Ret (NError (NeSubType t))
    end.
End Wire.
