(** C173: a session can be created with every value of the options for sizes. *)
From Coq Require Import NArith ZArith List Bool Lia.
From Verif Require Import Base CreateModel.
Import ListNotations.
Local Open Scope N_scope.

(** ** What should hold *)
(** The values an option can have. *)
Definition optionRange (o : sizeOptions) : Prop :=
  oMaxChainIDDiff o < 2^64 /\ (- 2^63 <= oPacketIDStorageSize o < 2^63)%Z.
Definition canBeCreated (o : sizeOptions) : Prop := createSizes o <> Panic.

Lemma chains_spec : forall d, makeChains d = if 2^42 <? d then Panic else Ret (64 * d).
Proof.
  intros d. unfold makeChains, makeSlice, maxAlloc, pendingChainSize. change (24 + 24 + 8 + 8) with 64.
  destruct (N.ltb_spec (2^42) d) as [H|H].
  - replace (2^48 <? 64 * d) with true by (symmetry; apply N.ltb_lt; lia). rewrite orb_true_r. reflexivity.
  - replace (2^48 <? 64 * d) with false by (symmetry; apply N.ltb_ge; lia).
    replace (2^63 <=? d) with false by (symmetry; apply N.leb_gt; lia). reflexivity.
Qed.
Lemma words_bound : forall d, d < 2^63 -> (storageWords d <= 2^45 <-> d <= 2^51) /\ storageWords d <= d / 64 + 1 /\ d <= 64 * storageWords d.
Proof.
  intros d H. unfold storageWords. rewrite N.mod_small by lia.
  assert (Q := N.div_mod (d + 63) 64 ltac:(discriminate)). assert (R := N.mod_lt (d + 63) 64 ltac:(discriminate)).
  assert (Q2 := N.div_mod d 64 ltac:(discriminate)). assert (R2 := N.mod_lt d 64 ltac:(discriminate)).
  set (q := (d + 63) / 64) in *. set (r := (d + 63) mod 64) in *. set (q2 := d / 64) in *. set (r2 := d mod 64) in *.
  clearbody q r q2 r2. repeat split; intros; lia.
Qed.
Lemma storage_spec : forall size, (size < 2^63)%Z ->
  makeStorage size = (if (2^51 <? size)%Z then Panic
                      else Ret (if (0 <? size)%Z then Some (if (size =? 1)%Z then 0 else 8 * storageWords (Z.to_N size)) else None)).
Proof.
  intros size H. unfold makeStorage. destruct (Z.ltb_spec 0 size) as [P|P].
  - destruct (Z.eqb_spec size 1) as [->|N1]; [reflexivity|].
    replace (0 <? Z.to_N size) with true by (symmetry; apply N.ltb_lt; lia).
    destruct (words_bound (Z.to_N size) ltac:(lia)) as (B & B2 & _). unfold makeSlice, maxAlloc.
    destruct (Z.ltb_spec (2^51) size) as [L|L].
    + replace (2^48 <? 8 * storageWords (Z.to_N size)) with true by (symmetry; apply N.ltb_lt; lia). rewrite orb_true_r. reflexivity.
    + assert (L2 : storageWords (Z.to_N size) <= 2^45) by (apply B; lia).
      replace (2^48 <? 8 * storageWords (Z.to_N size)) with false by (symmetry; apply N.ltb_ge; lia).
      replace (2^63 <=? storageWords (Z.to_N size)) with false by (symmetry; apply N.leb_gt; lia). reflexivity.
  - replace (2^51 <? size)%Z with false by (symmetry; apply Z.ltb_ge; lia). reflexivity.
Qed.

(** ** What does not hold *)
(** Exactly the options above these limits make [NewSession] panic; it has no way
    to return an error. "Never forget a chain" cannot be asked for with the
    largest number. *)
Theorem C173_limits_refuted : forall o, optionRange o ->
  (createSizes o = Panic <-> 2^42 < oMaxChainIDDiff o \/ (2^51 < oPacketIDStorageSize o)%Z).
Proof.
  intros o (_ & H). unfold createSizes, withSizes. cbn [oMaxChainIDDiff oPacketIDStorageSize].
  rewrite storage_spec by (unfold DefaultPacketIDStorageSize; destruct (Z.eqb_spec (oPacketIDStorageSize o) 0); lia).
  assert (E1 : (2^51 <? (if (oPacketIDStorageSize o =? 0)%Z then DefaultPacketIDStorageSize else oPacketIDStorageSize o))%Z = (2^51 <? oPacketIDStorageSize o)%Z).
  { destruct (Z.eqb_spec (oPacketIDStorageSize o) 0) as [->|]; reflexivity. }
  assert (E2 : (2^42 <? (if oMaxChainIDDiff o =? 0 then DefaultMaxChainIDDiff else oMaxChainIDDiff o)) = (2^42 <? oMaxChainIDDiff o)).
  { destruct (N.eqb_spec (oMaxChainIDDiff o) 0) as [->|]; reflexivity. }
  rewrite E1. destruct (Z.ltb_spec (2^51) (oPacketIDStorageSize o)) as [L|L]; [split; auto|].
  rewrite chains_spec, E2. destruct (N.ltb_spec (2^42) (oMaxChainIDDiff o)) as [M|M]; [split; auto|].
  split; [discriminate|]. intros [C|C]; lia.
Qed.
Print Assumptions C173_limits_refuted.
Theorem C173_created_refuted :
  ~ (forall o, optionRange o -> canBeCreated o) /\
  ~ canBeCreated {| oMaxChainIDDiff := 2^64 - 1; oPacketIDStorageSize := 0 |} /\
  ~ canBeCreated {| oMaxChainIDDiff := 0; oPacketIDStorageSize := 2^63 - 1 |}.
Proof.
  split; [|split].
  - intros H. apply (H {| oMaxChainIDDiff := 2^64 - 1; oPacketIDStorageSize := 0 |}); [unfold optionRange; cbn; lia|vm_compute; reflexivity].
  - intros H. apply H. vm_compute. reflexivity.
  - intros H. apply H. vm_compute. reflexivity.
Qed.
Print Assumptions C173_created_refuted.

(** ** What holds *)
(** Below the limits it does not, and the memory is the sum of what both options
    ask for, a bit per remembered packet ID (rounded up to 64) and 64 bytes per
    chain. *)
Theorem C173_memory_partial : forall o, optionRange o -> 0 < oMaxChainIDDiff o -> (1 < oPacketIDStorageSize o)%Z ->
  oMaxChainIDDiff o <= 2^42 -> (oPacketIDStorageSize o <= 2^51)%Z ->
  exists b, createSizes o = Ret b /\
    64 * oMaxChainIDDiff o + Z.to_N (oPacketIDStorageSize o) / 8 <= b <= 64 * oMaxChainIDDiff o + Z.to_N (oPacketIDStorageSize o) / 8 + 8.
Proof.
  intros o (_ & H) Hd Hs Ld Ls. unfold createSizes, withSizes. cbn [oMaxChainIDDiff oPacketIDStorageSize].
  replace (oMaxChainIDDiff o =? 0) with false by (symmetry; apply N.eqb_neq; lia).
  replace (oPacketIDStorageSize o =? 0)%Z with false by (symmetry; apply Z.eqb_neq; lia).
  rewrite storage_spec by lia. replace (2^51 <? oPacketIDStorageSize o)%Z with false by (symmetry; apply Z.ltb_ge; lia).
  replace (0 <? oPacketIDStorageSize o)%Z with true by (symmetry; apply Z.ltb_lt; lia).
  replace (oPacketIDStorageSize o =? 1)%Z with false by (symmetry; apply Z.eqb_neq; lia).
  rewrite chains_spec. replace (2^42 <? oMaxChainIDDiff o) with false by (symmetry; apply N.ltb_ge; lia).
  eexists. split; [reflexivity|]. set (d := Z.to_N (oPacketIDStorageSize o)) in *.
  assert (D : d < 2^63) by (unfold d; lia). unfold storageWords. rewrite N.mod_small by lia.
  assert (Q := N.div_mod (d + 63) 64 ltac:(discriminate)). assert (R := N.mod_lt (d + 63) 64 ltac:(discriminate)).
  assert (Q2 := N.div_mod d 8 ltac:(discriminate)). assert (R2 := N.mod_lt d 8 ltac:(discriminate)).
  set (q := (d + 63) / 64) in *. set (r := (d + 63) mod 64) in *. set (q2 := d / 8) in *. set (r2 := d mod 8) in *.
  clearbody d q r q2 r2. lia.
Qed.
Print Assumptions C173_memory_partial.

(** The defaults, the switched-off check, and the grow-only check always work. *)
Theorem C173_defaults :
  createSizes {| oMaxChainIDDiff := 0; oPacketIDStorageSize := 0 |} = Ret 544 /\
  (forall z, (z < 0)%Z -> createSizes {| oMaxChainIDDiff := 0; oPacketIDStorageSize := z |} = Ret 512) /\
  createSizes {| oMaxChainIDDiff := 0; oPacketIDStorageSize := 1 |} = Ret 512.
Proof.
  split; [vm_compute; reflexivity|]. split; [|vm_compute; reflexivity].
  intros z Hz. unfold createSizes, withSizes. cbn [oMaxChainIDDiff oPacketIDStorageSize].
  replace (z =? 0)%Z with false by (symmetry; apply Z.eqb_neq; lia). unfold makeStorage.
  replace (0 <? z)%Z with false by (symmetry; apply Z.ltb_ge; lia). vm_compute. reflexivity.
Qed.
Print Assumptions C173_defaults.

Example C173_example :
  createSizes {| oMaxChainIDDiff := 2^42; oPacketIDStorageSize := 256 |} = Ret (2^48 + 32) /\
  createSizes {| oMaxChainIDDiff := 2^42 + 1; oPacketIDStorageSize := 256 |} = Panic /\
  createSizes {| oMaxChainIDDiff := 8; oPacketIDStorageSize := 2^51 |} = Ret (512 + 2^48) /\
  createSizes {| oMaxChainIDDiff := 8; oPacketIDStorageSize := 2^51 + 1 |} = Panic /\
  createSizes {| oMaxChainIDDiff := 3; oPacketIDStorageSize := 65 |} = Ret 208.
Proof. vm_compute. repeat split; reflexivity. Qed.
