(** The memory a session allocates according to its options when it is created:
    session.go 463-472 (storage of packet IDs), 482-487 and 515 (pending chains),
    packetid_storage.go 12-18, pending_chain.go 154-159.

    Words have 64 bits. [make([]T, n)] panics ("len out of range") if [n] does not
    fit into an int or the memory exceeds what the run-time system can address
    (runtime/slice.go [makeslice]; 2^48 bytes on linux/amd64). Below that the
    memory is reserved; whether the machine has it is not part of the model. *)
From Coq Require Import NArith ZArith List Bool.
From Verif Require Import Base.
Import ListNotations.
Local Open Scope N_scope.

Definition maxAlloc : N := 2^48.
(** Bytes taken by [make([]T, n)] with elements of [elem] bytes. *)
Definition makeSlice (elem n : N) : outcome N :=
  if (2^63 <=? n) || (maxAlloc <? elem * n) then Panic else Ret (elem * n).

Record sizeOptions := {
  oMaxChainIDDiff : N;          (* uint64 *)
  oPacketIDStorageSize : Z      (* int *)
}.

(** session.go 463-465, 482-484; constants: session.go 38-56. *)
Definition DefaultPacketIDStorageSize : Z := 256.
Definition DefaultMaxChainIDDiff : N := 8.
Definition withSizes (o : sizeOptions) : sizeOptions :=
  {| oMaxChainIDDiff := if oMaxChainIDDiff o =? 0 then DefaultMaxChainIDDiff else oMaxChainIDDiff o;
     oPacketIDStorageSize := if (oPacketIDStorageSize o =? 0)%Z then DefaultPacketIDStorageSize else oPacketIDStorageSize o |}.

(** packetid_storage.go 12-18: words of the table. The sum is a uint. *)
Definition storageWords (depth : N) : N := ((depth + 63) mod 2^64) / 64.
(** session.go 466-472. [None]: no storage at all. *)
Definition makeStorage (size : Z) : outcome (option N) :=
  if (0 <? size)%Z then
    let depth := if (size =? 1)%Z then 0 else Z.to_N size in
    if 0 <? depth
    then match makeSlice 8 (storageWords depth) with Panic => Panic | Ret b => Ret (Some b) end
    else Ret (Some 0)
  else Ret None.
(** session.go 515; pending_chain.go 154-159: two slices and two uint64. *)
Definition pendingChainSize : N := 24 + 24 + 8 + 8.
Definition makeChains (diff : N) : outcome N := makeSlice pendingChainSize diff.

(** Both, in the order of [init]: bytes allocated. *)
Definition createSizes (o : sizeOptions) : outcome N :=
  let o := withSizes o in
  match makeStorage (oPacketIDStorageSize o) with
  | Panic => Panic
  | Ret st =>
      match makeChains (oMaxChainIDDiff o) with
      | Panic => Panic
      | Ret b => Ret (b + match st with Some x => x | None => 0 end)
      end
  end.
