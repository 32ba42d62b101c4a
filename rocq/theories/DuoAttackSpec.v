(** C151: what an attacker may do who knows no key, and what is asked of the
    primitives. *)
From Coq Require Import NArith List.
From Verif Require Import Base MessageModel PacketModel PacketSpec ReaderModel KxModel KxPairModel IntegModel IntegSpec DuoModel DuoSpec DuoAttackModel.
Import ListNotations.
Local Open Scope N_scope.

Section Spec.
  Variable verify : bytes -> bytes -> bytes -> bool.
  Variable dh : bytes -> bytes -> bytes.
  Variable blake3 sha3 : bytes -> bytes.
  Variable stream : bytes -> bytes -> nat -> N.
  Variable poly1305 : bytes -> bytes -> bytes.
  Variable sign : bytes -> bytes -> bytes.
  Variable pubOf : bytes -> bytes.

  (** Nothing that opens at [x] was made by the attacker: bytes which open are a
      packet one of the two sessions has sent, [x] itself included. (With a
      pre-shared key everything else is a forged checksum.) *)
  Definition notForged (c : iconf) (x y : side) (raw : bytes) : Prop :=
    bytes_ok raw /\
    (opens stream blake3 poly1305 (auxKey blake3 sha3 c) (kKeys (xKx (iKx (dSess x)))) (option_map sessBytes (kRemoteSession (xKx (iKx (dSess x))))) raw ->
     In raw (dNet x) \/ In raw (dNet y)).

  Inductive attackedRun (ca cb : iconf) (pa pb : bytes) (d0 : duo) : list alabel -> duo -> Prop :=
  | ar_nil : attackedRun ca cb pa pb d0 [] d0
  | ar_snoc : forall ls d l d', attackedRun ca cb pa pb d0 ls d ->
      match l with
      | AStep (DA l) => onePair pubOf pa (dA d) l
      | AStep (DB l) => onePair pubOf pb (dB d) l
      | AToA raw => notForged ca (dA d) (dB d) raw
      | AToB raw => notForged cb (dB d) (dA d) raw
      end ->
      astep verify dh blake3 sha3 stream poly1305 sign ca cb d l = Some d' ->
      attackedRun ca cb pa pb d0 (ls ++ [l]) d'.

  (** No packet carries a checksum valid under the session key [k] with the nonce
      of the session [id], which has not made it. *)
  Definition foreign (aux : option bytes) (k id : bytes) (net : list bytes) : Prop :=
    forall pid body, length pid = 8%nat -> In (idOnWire stream aux pid ++ body) net ->
      ~ firstTagFits stream blake3 poly1305 (Some k) (id ++ pid) pid body.

  (** A signature of [a] on a key-exchange message (82 bytes) does not verify as
      one of [b]. *)
  Definition separate (a b : bytes) : Prop := forall m, length m = 82%nat -> verify b (sign a m) m = false.
End Spec.
