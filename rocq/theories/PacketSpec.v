(** What it means that a packet carries a valid seal, independent of the order
    in which the receiver tries its keys. *)
From Coq Require Import NArith List Bool.
From Verif Require Import Base MessageModel PacketModel.
Import ListNotations.
Local Open Scope N_scope.

Section Spec.
  Variable stream : bytes -> bytes -> nat -> N.
  Variable blake3 : bytes -> bytes.
  Variable poly1305 : bytes -> bytes -> bytes.

  (** Sizes of the primitives' outputs. *)
  Definition primitives_ok : Prop :=
    (forall k iv n, stream k iv n < 256) /\ (forall k m, length (poly1305 k m) = 16%nat).

  (** The plaintext of a packet's body under a key ([None]: not encrypted). *)
  Definition plainOf (k : option bytes) (iv body : bytes) : bytes :=
    match k with Some key => xorStream stream key iv body | None => body end.

  (** Both tags, for a packet ID, a length field and a content. *)
  Definition tags (k : option bytes) (pid : bytes) (l : N) (m : bytes) : bytes :=
    poly1305 (calculatePoly1305Key blake3 pid k) (le_enc 4 l) ++
    poly1305 (calculatePoly1305Key blake3 pid k) m.

  (** The body is a valid seal of (pid, l, m) under k. *)
  Definition sealed (k : option bytes) (iv pid body : bytes) (l : N) (m : bytes) : Prop :=
    plainOf k iv body = tags k pid l m ++ le_enc 4 l ++ m.

  (** The first tag happens to fit key [k]. *)
  Definition firstTagFits (k : option bytes) (iv pid body : bytes) : Prop :=
    firstn 16 (plainOf k iv body) =
    poly1305 (calculatePoly1305Key blake3 pid k) (firstn 4 (skipn 32 (plainOf k iv body))).

  (** The packet ID on the wire is either plain or encrypted with the first 8
      bytes of a fixed key stream. *)
  Definition idOnWire (aux : option bytes) (pid : bytes) : bytes :=
    match aux with Some a => xorStream stream a emptyIV pid | None => pid end.

  Definition key_ok (k : option bytes) : Prop := match k with Some b => length b = 32%nat | None => True end.
  Definition peer_ok (p : peer) : Prop :=
    key_ok (pAux p) /\ Forall key_ok (pKeys p) /\ length (pOwnID p) = 16%nat /\
    match pRemoteID p with Some i => length i = 16%nat | None => Forall (fun k => k = None) (pKeys p) end.
End Spec.
