(** Two whole sessions (DuoModel) and a network which, besides delaying,
    repeating and losing packets, hands a session bytes of its own choice
    (session.go 895-948 for what happens to them). *)
From Coq Require Import NArith List Bool.
From Verif Require Import Base MessageModel PacketModel KxModel IntegModel DuoModel.
Import ListNotations.
Local Open Scope N_scope.

Inductive alabel :=
| AStep (l : dlabel)        (* as in DuoModel *)
| AToA (raw : bytes)        (* these bytes arrive at A *)
| AToB (raw : bytes).

Section Attack.
  Variable verify : bytes -> bytes -> bytes -> bool.
  Variable dh : bytes -> bytes -> bytes.
  Variable blake3 sha3 : bytes -> bytes.
  Variable stream : bytes -> bytes -> nat -> N.
  Variable poly1305 : bytes -> bytes -> bytes.
  Variable sign : bytes -> bytes -> bytes.
  Variables ca cb : iconf.

  Definition arrive (c : iconf) (x : side) (raw : bytes) : option side :=
    match istep verify dh blake3 sha3 stream poly1305 c (dSess x) (IPacket raw) with
    | None => None
    | Some s => Some {| dSess := s; dNet := dNet x; dWrote := dWrote x |}
    end.

  Definition astep (d : duo) (l : alabel) : option duo :=
    match l with
    | AStep l => dstep verify dh blake3 sha3 stream poly1305 sign ca cb d l
    | AToA raw => match arrive ca (dA d) raw with Some x => Some {| dA := x; dB := dB d |} | None => None end
    | AToB raw => match arrive cb (dB d) raw with Some x => Some {| dA := dA d; dB := x |} | None => None end
    end.
End Attack.
