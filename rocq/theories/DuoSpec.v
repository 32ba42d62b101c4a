(** C130: what two honest sessions owe each other, and which runs are meant. *)
From Coq Require Import NArith List.
From Verif Require Import Base MessageModel PacketModel PacketSpec ReaderModel KxModel KxPairModel IntegModel DuoModel.
Import ListNotations.
Local Open Scope N_scope.

Section Spec.
  Variable verify : bytes -> bytes -> bytes -> bool.
  Variable dh : bytes -> bytes -> bytes.
  Variable blake3 sha3 : bytes -> bytes.
  Variable stream : bytes -> bytes -> nat -> N.
  Variable poly1305 : bytes -> bytes -> bytes.
  Variable sign : bytes -> bytes -> bytes.
  Variable pubOf : bytes -> bytes.

  (** Ideal arithmetic: lengths as documented, Diffie-Hellman agrees and is never
      zero, genuine signatures verify. *)
  Record ideal : Prop := {
    id_prim : primitives_ok stream poly1305;
    id_dh_len : forall a b, length (dh a b) = 32%nat;
    id_sha3_len : forall b, length (sha3 b) = 32%nat;
    id_dh_nonzero : forall a b, dh a b <> zeroKey;
    id_dh_comm : forall a b, dh a (pubOf b) = dh b (pubOf a);
    id_sign_len : forall id m, length (sign id m) = 64%nat;
    id_sign_ok : forall id m, verify id (sign id m) m = true;
    id_pub_len : forall p, length (pubOf p) = 32%nat;
    id_pub_nonzero : forall p, pubOf p <> zeroKey
  }.

  (** Side [x], whose only key pair is the one of [p], may do [l]: it draws no
      second pair. ([KCancel] is part of [SCleanup].) *)
  Definition onePair (p : bytes) (x : side) (l : slabel) : Prop :=
    match l with
    | SKx (KLoopGen s t _) | SKx (KAnswerGen _ s t _) => s = p /\ t = pubOf p /\ kNextLocal (xKx (iKx (dSess x))) = None
    | SKx KCancel => False
    | _ => True
    end.

  (** A run in which each side draws at most one key pair. *)
  Inductive firstKeysRun (ca cb : iconf) (pa pb : bytes) (d0 : duo) : list dlabel -> duo -> Prop :=
  | fk_nil : firstKeysRun ca cb pa pb d0 [] d0
  | fk_snoc : forall ls d l d', firstKeysRun ca cb pa pb d0 ls d ->
      match l with DA l => onePair pa (dA d) l | DB l => onePair pb (dB d) l end ->
      dstep verify dh blake3 sha3 stream poly1305 sign ca cb d l = Some d' ->
      firstKeysRun ca cb pa pb d0 (ls ++ [l]) d'.

  (** Bytes are bytes, and no packet carries a checksum valid under both the key
      for messages which are not confidential ([aux]) and the session key [k] of
      the session [id] (for random tags of 128 bits a coincidence). *)
  Definition plainTraffic (aux : option bytes) (k id : bytes) (net : list bytes) : Prop :=
    Forall bytes_ok net /\
    forall pid body, length pid = 8%nat -> In (idOnWire stream aux pid ++ body) net ->
      firstTagFits stream blake3 poly1305 aux pid pid body -> ~ firstTagFits stream blake3 poly1305 (Some k) (id ++ pid) pid body.

  (** What the application and the monitoring of one side see when nothing is wrong. *)
  Definition untroubled (x y : side) : Prop :=
    iPanic (dSess x) = false /\ iFails (dSess x) = 0 /\
    incl (queued (dSess x)) (dWrote y) /\
    ((forall e, ~ In (EvError e) (out (iRcv (dSess x)))) \/ In KxTimeout (kErrs (xKx (iKx (dSess x))))).
End Spec.
