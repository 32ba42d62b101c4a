(** Independent description of the wire formats: which byte stands where.
    Nothing here mentions the model's encoders. *)
From Coq Require Import NArith List.
Import ListNotations.
Open Scope N_scope.

(** Byte [i] of the little-endian form of [v]. *)
Definition le_byte (v : N) (i : nat) : N := (v / 256 ^ N.of_nat i) mod 256.
(** [v] occupies [k] bytes starting at offset [off] of [b]. *)
Definition field_at (b : list N) (off k : nat) (v : N) : Prop :=
  forall i, (i < k)%nat -> nth_error b (off + i) = Some (le_byte v i).
(** the raw string [x] stands at offset [off] of [b]. *)
Definition raw_at (b : list N) (off : nat) (x : list N) : Prop :=
  forall i, (i < length x)%nat -> nth_error b (off + i) = nth_error x i.
(** [b'] agrees with [b] from offset [off] on. *)
Definition same_from (off : nat) (b b' : list N) : Prop :=
  length b = length b' /\ forall i, (off <= i)%nat -> nth_error b i = nth_error b' i.
