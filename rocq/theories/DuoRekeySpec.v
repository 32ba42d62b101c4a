(** C153: two sessions which draw new key pairs again and again. *)
From Coq Require Import NArith List.
From Verif Require Import Base MessageModel PacketIDModel PacketModel PacketSpec ReaderModel KxModel KxPairModel IntegModel DuoModel DuoSpec DuoProps DuoAttackModel DuoAttackSpec.
Import ListNotations.
Local Open Scope N_scope.

Section Spec.
  Variable verify : bytes -> bytes -> bytes -> bool.
  Variable dh : bytes -> bytes -> bytes.
  Variable blake3 sha3 : bytes -> bytes.
  Variable stream : bytes -> bytes -> nat -> N.
  Variable poly1305 : bytes -> bytes -> bytes.
  Variable sign : bytes -> bytes -> bytes.
  Variable pubOf : bytes -> bytes.

  (** Whenever a pair is drawn, its private key is one of [ps]. ([KCancel] is
      part of [SCleanup].) *)
  Definition drawsFrom (ps : list bytes) (l : slabel) : Prop :=
    match l with
    | SKx (KLoopGen s t _) | SKx (KAnswerGen _ s t _) => In s ps /\ t = pubOf s
    | SKx KCancel => False
    | _ => True
    end.

  (** As [attackedRun], with any number of key pairs. *)
  Inductive rekeyedRun (ca cb : iconf) (pas pbs : list bytes) (d0 : duo) : list alabel -> duo -> Prop :=
  | rr_nil : rekeyedRun ca cb pas pbs d0 [] d0
  | rr_snoc : forall ls d l d', rekeyedRun ca cb pas pbs d0 ls d ->
      match l with
      | AStep (DA l) => drawsFrom pas l
      | AStep (DB l) => drawsFrom pbs l
      | AToA raw => notForged blake3 sha3 stream poly1305 ca (dA d) (dB d) raw
      | AToB raw => notForged blake3 sha3 stream poly1305 cb (dB d) (dA d) raw
      end ->
      astep verify dh blake3 sha3 stream poly1305 sign ca cb d l = Some d' ->
      rekeyedRun ca cb pas pbs d0 (ls ++ [l]) d'.

  (** A key made of one pair of each side. *)
  Definition keyOfBoth (psk : option bytes) (pas pbs : list bytes) (k : bytes) : Prop :=
    exists p q, In p pas /\ In q pbs /\ sharedKey dh blake3 sha3 psk p (pubOf q) k.

  (** A key with the prefix of its nonces: the key for messages which are not
      confidential, or a key of both with the ID of either session. *)
  Definition sealing (aux : option bytes) (K : bytes -> Prop) (ia ib : bytes) (c : option bytes * bytes) : Prop :=
    c = (aux, []) \/ exists k, K k /\ (c = (Some k, ia) \/ c = (Some k, ib)).

  (** Bytes are bytes, and a packet carries a checksum valid under one key only
      (for random tags of 128 bits everything else is a coincidence). *)
  Definition unambiguous (aux : option bytes) (K : bytes -> Prop) (ia ib : bytes) (net : list bytes) : Prop :=
    Forall bytes_ok net /\
    forall pid body c1 c2, length pid = 8%nat -> In (idOnWire stream aux pid ++ body) net ->
      sealing aux K ia ib c1 -> sealing aux K ia ib c2 ->
      firstTagFits stream blake3 poly1305 (fst c1) (snd c1 ++ pid) pid body ->
      firstTagFits stream blake3 poly1305 (fst c2) (snd c2 ++ pid) pid body -> c1 = c2.
End Spec.

(** The newest packet number a session remembers does not move by more than 64 at
    once. *)
Definition steady (x x' : side) : Prop :=
  forall a b, iWin (dSess x) = Some a -> iWin (dSess x') = Some b -> latest b <= latest a + 64.
