(** X25519 as in RFC 7748, section 5, which github.com/aead/ecdh computes
    ([kx.ecdh], key_exchanger.go 213, 306, 573). The library is outside /repo;
    this is its specification, checked against the test vector of the RFC. *)
From Coq Require Import ZArith NArith List Bool.
From Verif Require Import Base.
Import ListNotations.
Local Open Scope Z_scope.

Definition p25519 : Z := 2^255 - 19.
Definition fadd (a b : Z) : Z := (a + b) mod p25519.
Definition fsub (a b : Z) : Z := (a - b) mod p25519.
Definition fmul (a b : Z) : Z := (a * b) mod p25519.

Fixpoint fpow (a : Z) (n : positive) : Z :=
  match n with
  | xH => a mod p25519
  | xO m => let r := fpow a m in fmul r r
  | xI m => let r := fpow a m in fmul (fmul r r) a
  end.
Definition finv (a : Z) : Z := fpow a (Z.to_pos (p25519 - 2)).

(** One step of the ladder on (x2 : z2), (x3 : z3). *)
Definition ladderOp (x1 : Z) (s : (Z * Z) * (Z * Z)) : (Z * Z) * (Z * Z) :=
  let '((x2, z2), (x3, z3)) := s in
  let a := fadd x2 z2 in
  let aa := fmul a a in
  let b := fsub x2 z2 in
  let bb := fmul b b in
  let e := fsub aa bb in
  let c := fadd x3 z3 in
  let d := fsub x3 z3 in
  let da := fmul d a in
  let cb := fmul c b in
  ((fmul aa bb, fmul e (fadd aa (fmul 121665 e))),
   (let t := fadd da cb in fmul t t, let t := fsub da cb in fmul x1 (fmul t t))).
Definition swap2 (s : (Z * Z) * (Z * Z)) : (Z * Z) * (Z * Z) := (snd s, fst s).
Definition ladderStep (x1 : Z) (bit : bool) (s : (Z * Z) * (Z * Z)) : (Z * Z) * (Z * Z) :=
  if bit then swap2 (ladderOp x1 (swap2 s)) else ladderOp x1 s.

(** Bits of the scalar, [n] of them, the highest first. *)
Fixpoint bitsDown (k : N) (n : nat) : list bool :=
  match n with O => [] | S m => N.testbit k (N.of_nat m) :: bitsDown k m end.

Definition ladder (x1 : Z) (bits : list bool) : (Z * Z) * (Z * Z) :=
  fold_left (fun s b => ladderStep x1 b s) bits ((1, 0), (x1, 1)).

(** decodeScalar25519: the three low bits cleared, bit 255 cleared, bit 254 set. *)
Definition clamp (k : N) : N := N.lor (N.land k (2^255 - 8)) (2^254).

Definition x25519 (priv pub : bytes) : bytes :=
  let k := clamp (le_dec priv) in
  let u := Z.of_N (N.land (le_dec pub) (2^255 - 1)) mod p25519 in
  let '((x2, z2), _) := ladder u (bitsDown k 255) in
  le_enc 32 (Z.to_N (fmul x2 (finv z2))).

(** The public key of a private key. *)
Definition basePoint : bytes := (9 :: repeat 0 31)%N.
Definition x25519Pub (priv : bytes) : bytes := x25519 priv basePoint.
