(** The test vector of RFC 7748 for [x25519], by a quicker evaluation of the same
    function: reduction modulo 2^255-19 by folding. *)
From Coq Require Import ZArith NArith List Bool Lia.
From Verif Require Import Base X25519Model.
Import ListNotations.
Local Open Scope Z_scope.

Definition qfold (x : Z) : Z := Z.land x (2^255 - 1) + 19 * Z.shiftr x 255.
Definition qred (x : Z) : Z :=
  let r := qfold (qfold x) in
  if (0 <=? r) && (r <? p25519) then r
  else let r := r - p25519 in if (0 <=? r) && (r <? p25519) then r else x mod p25519.

Lemma qfold_mod : forall x, (qfold x) mod p25519 = x mod p25519.
Proof.
  intros x. unfold qfold. change (2^255 - 1) with (Z.ones 255). rewrite Z.land_ones by lia. rewrite Z.shiftr_div_pow2 by lia.
  rewrite (Z.div_mod x (2^255)) at 3 by lia. set (q := x / 2^255). set (r := x mod 2^255). clearbody q r.
  replace (2^255 * q + r) with (r + 19 * q + q * p25519) by (unfold p25519; lia). rewrite Z.mod_add by (unfold p25519; lia). reflexivity.
Qed.

Lemma qred_ok : forall x, qred x = x mod p25519.
Proof.
  intros x. unfold qred. assert (E : qfold (qfold x) mod p25519 = x mod p25519) by (rewrite !qfold_mod; reflexivity).
  cbv zeta. set (r := qfold (qfold x)) in *. clearbody r. destruct ((0 <=? r) && (r <? p25519)) eqn:C.
  - apply andb_true_iff in C. destruct C as [C1 C2]. apply Z.leb_le in C1. apply Z.ltb_lt in C2. rewrite <- E. symmetry. apply Z.mod_small. auto.
  - destruct ((0 <=? r - p25519) && (r - p25519 <? p25519)) eqn:C'; [|reflexivity].
    apply andb_true_iff in C'. destruct C' as [C1 C2]. apply Z.leb_le in C1. apply Z.ltb_lt in C2. rewrite <- E.
    replace r with (r - p25519 + 1 * p25519) at 2 by lia. rewrite Z.mod_add by (unfold p25519; lia). symmetry. apply Z.mod_small. auto.
Qed.

Definition qadd (a b : Z) : Z := qred (a + b).
(** Of reduced numbers; [+ p25519] keeps it from being negative. *)
Definition qsub (a b : Z) : Z := qred (a - b + p25519).
Definition qmul (a b : Z) : Z := qred (a * b).
Lemma qadd_ok : forall a b, qadd a b = fadd a b.
Proof. intros. apply qred_ok. Qed.
Lemma qsub_ok : forall a b, qsub a b = fsub a b.
Proof.
  intros a b. unfold qsub, fsub. rewrite qred_ok. replace (a - b + p25519) with (a - b + 1 * p25519) by lia. apply Z.mod_add. unfold p25519. lia.
Qed.
Lemma qmul_ok : forall a b, qmul a b = fmul a b.
Proof. intros. apply qred_ok. Qed.

Fixpoint qpow (a : Z) (n : positive) : Z :=
  match n with
  | xH => qred a
  | xO m => let r := qpow a m in qmul r r
  | xI m => let r := qpow a m in qmul (qmul r r) a
  end.
Lemma qpow_ok : forall n a, qpow a n = fpow a n.
Proof. induction n as [n IH|n IH|]; intros a; cbn [qpow fpow]; cbv zeta; rewrite ?qmul_ok, ?IH; [reflexivity|reflexivity|apply qred_ok]. Qed.

Definition qladderOp (x1 : Z) (s : (Z * Z) * (Z * Z)) : (Z * Z) * (Z * Z) :=
  let '((x2, z2), (x3, z3)) := s in
  let a := qadd x2 z2 in
  let aa := qmul a a in
  let b := qsub x2 z2 in
  let bb := qmul b b in
  let e := qsub aa bb in
  let c := qadd x3 z3 in
  let d := qsub x3 z3 in
  let da := qmul d a in
  let cb := qmul c b in
  ((qmul aa bb, qmul e (qadd aa (qmul 121665 e))),
   (let t := qadd da cb in qmul t t, let t := qsub da cb in qmul x1 (qmul t t))).
Lemma qladderOp_ok : forall x1 s, qladderOp x1 s = ladderOp x1 s.
Proof. intros x1 [[x2 z2] [x3 z3]]. unfold qladderOp, ladderOp. cbv zeta. rewrite !qmul_ok, !qadd_ok, !qsub_ok, ?qmul_ok. reflexivity. Qed.

Definition qladder (x1 : Z) (bits : list bool) : (Z * Z) * (Z * Z) :=
  fold_left (fun s (b : bool) => if b then swap2 (qladderOp x1 (swap2 s)) else qladderOp x1 s) bits ((1, 0), (x1, 1)).
Lemma qladder_ok : forall x1 bits, qladder x1 bits = ladder x1 bits.
Proof.
  intros x1 bits. unfold qladder, ladder. generalize ((1, 0), (x1, 1)). induction bits as [|b bits IH]; intros s; [reflexivity|]. cbn [fold_left].
  rewrite !qladderOp_ok. apply IH.
Qed.

(** What is left to compute for a given result. *)
Lemma by_ladder : forall priv pub x2 z2 q r,
  qladder (Z.of_N (N.land (le_dec pub) (2^255 - 1)) mod p25519) (bitsDown (clamp (le_dec priv)) 255) = ((x2, z2), q) ->
  qmul x2 (qpow z2 (Z.to_pos (p25519 - 2))) = r -> x25519 priv pub = le_enc 32 (Z.to_N r).
Proof.
  intros priv pub x2 z2 q r H1 H2. unfold x25519. rewrite <- qladder_ok. cbv zeta. rewrite H1. unfold finv. rewrite <- qpow_ok, <- qmul_ok, H2. reflexivity.
Qed.

(** RFC 7748, 5.2, first test vector. *)
Definition unhex (n : N) : bytes := rev (le_enc 32 n).
Definition qx25519 (priv pub : bytes) : bytes :=
  let '((x2, z2), _) := qladder (Z.of_N (N.land (le_dec pub) (2^255 - 1)) mod p25519) (bitsDown (clamp (le_dec priv)) 255) in
  le_enc 32 (Z.to_N (qmul x2 (qpow z2 (Z.to_pos (p25519 - 2))))).
Lemma qx25519_ok : forall priv pub, qx25519 priv pub = x25519 priv pub.
Proof.
  intros priv pub. unfold qx25519. destruct (qladder _ _) as [[x2 z2] q] eqn:E. symmetry. eapply by_ladder; eauto.
Qed.

Example x25519_rfc7748 :
  x25519 (unhex 0xa546e36bf0527c9d3b16154b82465edd62144c0ac1fc5a18506a2244ba449ac4)
         (unhex 0xe6db6867583030db3594c1a424b15f7c726624ec26b3353b10a903a6d0ab1c4c)
  = unhex 0xc3da55379de9c6908e94ea4df28d084f32eccf03491c71f754b4075577a28552.
Proof. rewrite <- qx25519_ok. vm_compute. reflexivity. Qed.
