(** What the key exchange is expected to do, stated without the model's helpers. *)
From Coq Require Import NArith List.
From Verif Require Import Base MessageModel.
Import ListNotations.
Local Open Scope N_scope.

(** A message on the wire: signature, signed part, anything. *)
Definition wire (sig body tail b : bytes) : Prop :=
  b = sig ++ body ++ tail /\ length sig = 64%nat /\ length body = 82%nat.

(** [b] carries a valid signature of [id]. *)
Definition signedBy (verify : bytes -> bytes -> bytes -> bool) (id b : bytes) : Prop :=
  exists sig body tail, wire sig body tail b /\ verify id sig body = true.

(** [b] is a genuine message of the owner of [id] saying [m]. *)
Definition genuine (verify : bytes -> bytes -> bytes -> bool) (id : bytes) (m : kxMsg) (b : bytes) : Prop :=
  exists sig tail, wire sig (kxEncode m) tail b /\ verify id sig (kxEncode m) = true.

(** Diffie-Hellman works. *)
Definition dh_agrees (dh : bytes -> bytes -> bytes) (pub : bytes -> bytes) : Prop :=
  forall a b, dh a (pub b) = dh b (pub a).

(** Byte-wise XOR of strings of the same length. *)
Definition xored (a b r : bytes) : Prop :=
  length a = length r /\ length b = length r /\
  forall i, (i < length r)%nat -> nth i r 0 = N.lxor (nth i a 0) (nth i b 0).

(** The same secret under the same name seen from the other side: the slot
    "recent local" of one is "recent remote" of the other. *)
Definition slots_match {A} (a b : list A) : Prop :=
  exists both local remote prev, a = [both; local; remote; prev] /\ b = [both; remote; local; prev].
