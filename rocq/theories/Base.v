(** Common vocabulary: fixed-width integers, bytes, slices, outcomes.

    Nothing here is specific to secureio; it is the small part of Go's
    semantics that the models share. *)
From Coq Require Import NArith List Lia Bool.
Import ListNotations.
Open Scope N_scope.

(** ** Fixed-width unsigned integers (Go's [uint8], [uint32], [uint64]). *)
Definition u8  (x : N) : N := x mod 2^8.
Definition u32 (x : N) : N := x mod 2^32.
Definition u64 (x : N) : N := x mod 2^64.

(** Go's wrapping subtraction on [uint64] / [uint32]. *)
Definition sub64 (x y : N) : N := (x + (2^64 - y)) mod 2^64.
Definition sub32 (x y : N) : N := (x + (2^32 - y)) mod 2^32.
Definition add64 (x y : N) : N := (x + y) mod 2^64.
Definition add32 (x y : N) : N := (x + y) mod 2^32.

(** Go's shifts on [uint64]: a shift count >= 64 gives 0. *)
Definition shl64 (v k : N) : N := if 64 <=? k then 0 else (v * 2^k) mod 2^64.
Definition shr64 (v k : N) : N := if 64 <=? k then 0 else v / 2^k.

(** ** Bytes *)
Definition byte := N.
Definition bytes := list N.
Definition byte_ok (b : N) : Prop := b < 256.
Definition bytes_ok (bs : bytes) : Prop := Forall byte_ok bs.

Definition len {A} (l : list A) : N := N.of_nat (length l).

(** Little-endian encodings ([binary.LittleEndian], key_exchanger.go 51). *)
Fixpoint le_enc (k : nat) (n : N) : bytes :=
  match k with
  | O => []
  | S k' => (n mod 256) :: le_enc k' (n / 256)
  end.
Fixpoint le_dec (bs : bytes) : N :=
  match bs with
  | [] => 0
  | b :: r => b + 256 * le_dec r
  end.

(** Go slice expression [l[i:j]]; [None] is the run-time panic
    "slice bounds out of range" (capacity equals length here unless a model
    says otherwise). *)
Definition gslice {A} (l : list A) (i j : N) : option (list A) :=
  if (i <=? j) && (j <=? len l)
  then Some (firstn (N.to_nat (j - i)) (skipn (N.to_nat i) l))
  else None.

(** Outcomes of a Go call: normal result, or a run-time panic. *)
Inductive outcome (A : Type) : Type :=
| Ret (a : A)
| Panic.
Arguments Ret {A} _.
Arguments Panic {A}.

(** Byte-wise XOR of two strings, as long as the shorter one. *)
Fixpoint xorb_bytes (a b : bytes) : bytes :=
  match a, b with
  | x :: a', y :: b' => N.lxor x y :: xorb_bytes a' b'
  | _, _ => []
  end.

Fixpoint bytes_eqb (a b : bytes) : bool :=
  match a, b with
  | [], [] => true
  | x :: a', y :: b' => (x =? y) && bytes_eqb a' b'
  | _, _ => false
  end.
