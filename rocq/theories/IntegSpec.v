(** Where the keys of a session should come from. *)
From Coq Require Import NArith List.
From Verif Require Import Base MessageModel ReaderModel ReaderSpec PacketModel PacketSpec KxModel KxSpec IntegModel.
Import ListNotations.
Local Open Scope N_scope.

(** A public key taken from a key-exchange message with a valid signature of
    [id], among the payloads handed to the handlers. *)
Definition heard (verify : bytes -> bytes -> bytes -> bool) (id : bytes) (events : list event) (x : bytes) : Prop :=
  exists b sig body tail m, In (EvHandler messageTypeKeyExchange b) events /\ wire sig body tail b /\ verify id sig body = true /\
    kxDecode body = Some m /\ kPub m = x.

(** A private key drawn by this session. *)
Definition drawn (ls : list ilabel) (p : bytes) : Prop :=
  exists pub now, In (IKx (KLoopGen p pub now)) ls \/ exists i, In (IKx (KAnswerGen i p pub now)) ls.

(** The shared key of a private and a public key, masked by the pre-shared key. *)
Definition madeOf (dh : bytes -> bytes -> bytes) (mask : option bytes) (p x k : bytes) : Prop :=
  match mask with None => k = dh p x | Some m => xored (dh p x) m k end.

(** The packets a session was given. *)
Fixpoint packetsOf (ls : list ilabel) : list bytes :=
  match ls with
  | [] => []
  | IPacket raw :: r => raw :: packetsOf r
  | _ :: r => packetsOf r
  end.

(** A content with a fragment whose position is beyond the 64-bit range. *)
Definition wraps (content : bytes) : Prop :=
  exists off m, range content off (length m) = m /\ (24 <= length m)%nat /\ 2^64 <= le_dec (range m 8 8) + N.of_nat (length m).

(** What was handed to a handler or to a reader. *)
Definition deliveries (events : list event) : list event :=
  filter (fun e => match e with EvHandler _ _ | EvQueue _ _ => true | _ => false end) events.

(** A packet opens under one of the keys: [aux] for what is not confidential,
    [ks] with the nonce prefix [rid] for what is. *)
Definition opens (stream : bytes -> bytes -> nat -> N) (blake3 : bytes -> bytes) (poly1305 : bytes -> bytes -> bytes)
    (aux : option bytes) (ks : list (option bytes)) (rid : option bytes) (raw : bytes) : Prop :=
  exists pid l m, idOnWire stream aux pid = firstn 8 raw /\
    (sealed stream blake3 poly1305 aux pid pid (skipn 8 raw) l m \/
     exists k id, In (Some k) ks /\ rid = Some id /\ sealed stream blake3 poly1305 (Some k) (id ++ pid) pid (skipn 8 raw) l m).
