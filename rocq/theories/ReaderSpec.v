(** Independent description of what a packet's content means. *)
From Coq Require Import NArith List Bool.
From Verif Require Import CodecSpec.
Import ListNotations.
Open Scope N_scope.

(** A message as the application sees it: type, flag byte, payload. *)
Record wireMsg := { wType : N; wFlags : N; wPayload : list N }.

Definition wireMsg_ok (m : wireMsg) : Prop :=
  wType m < 2^32 /\ wFlags m < 2^8 /\ N.of_nat (length (wPayload m)) < 2^32.

(** Its bytes: 4 bytes type, 4 bytes length, flags, payload. *)
Definition wireBytes (m : wireMsg) : list N :=
  map (le_byte (wType m)) [0;1;2;3]%nat ++
  map (le_byte (N.of_nat (length (wPayload m)))) [0;1;2;3]%nat ++
  [wFlags m] ++ wPayload m.

(** Byte range [from, from+size) of [b]. *)
Definition range (b : list N) (from size : nat) : list N := firstn size (skipn from b).

(** [pieces_of b lim calls from]: the calls (type, flags, payload) come from
    consecutive or later, pairwise disjoint ranges of [b] below [lim], the
    first not before [from]. *)
Fixpoint disjoint_ranges (b : list N) (lim : nat) (payloads : list (list N)) (from : nat) : Prop :=
  match payloads with
  | [] => True
  | p :: r => exists off, (from <= off)%nat /\ (off + length p <= lim)%nat /\
                range b off (length p) = p /\ disjoint_ranges b lim r (off + length p)
  end.

(** Where a message should go, given the types with a handler and the types
    with a read queue. *)
Inductive delivery := ToHandler (t : N) (p : list N) | ToQueue (t : N) (p : list N).
Definition route (handlers queues : list N) (m : wireMsg) : list delivery :=
  if existsb (N.eqb (wType m)) handlers then [ToHandler (wType m) (wPayload m)]
  else if existsb (N.eqb (wType m)) queues then [ToQueue (wType m) (wPayload m)]
  else [].

(** Bit 1 of the flags marks fragments. *)
Definition isPlain (m : wireMsg) : Prop := N.testbit (wFlags m) 1 = false.

(** Key exchange and negotiation messages are not application messages. *)
Definition isControl (m : wireMsg) : bool := (wType m =? 2^32 - 2) || (wType m =? 2^32 - 3).
Definition appCount (ms : list wireMsg) : nat := length (filter (fun m => negb (isControl m)) ms).

(** The shortest prefix holding [n] application messages. *)
Fixpoint firstApp (n : nat) (ms : list wireMsg) : list wireMsg :=
  match n, ms with
  | O, _ => []
  | _, [] => []
  | S k, m :: r => m :: firstApp (if isControl m then n else k) r
  end.

(** What the reader thinks of an incoming packet. *)
Inductive verdict := VBad | VGood | VOther.
Definition isBad (v : verdict) : bool := match v with VBad => true | _ => false end.
Fixpoint untilGood (vs : list verdict) : list verdict :=
  match vs with
  | [] => []
  | VGood :: _ => []
  | v :: r => v :: untilGood r
  end.
(** Number of undecryptable packets since the last accepted one. *)
Definition badSince (vs : list verdict) : nat := length (filter isBad (untilGood (rev vs))).
