(** Model of packetid_storage.go for a given size of Go's machine word: [uint]
    and [int] have 32 or 64 bits. [PacketIDModel] is about 64 bits; here [W] is
    2^32 or 2^64, the number of values of a [uint]. Only what depends on the
    word is written again. *)
From Coq Require Import NArith List Bool.
From Verif Require Import Base PacketIDModel.
Import ListNotations.
Open Scope N_scope.

Section Word.
  Variable W : N.

  (** Go's conversion [uint(x)] of a [uint64]. *)
  Definition toUint (x : N) : N := x mod W.

  (** packetid_storage.go 48-56: [shiftValue]; [64 - bitsAmount] is a wrapping
      subtraction of [uint]s, the shifted values have 64 bits. *)
  Fixpoint shiftLoopW (bitsAmount r : N) (tbl : list N) : list N :=
    match tbl with
    | [] => []
    | v :: tbl' =>
        N.lor r (shl64 v bitsAmount)
        :: shiftLoopW bitsAmount (shr64 v ((64 + (W - bitsAmount)) mod W)) tbl'
    end.

  (** packetid_storage.go 33: [uint64(len(stor.table)<<6)]; the shift is one of
      [int]s, and the conversion of a negative [int] extends the sign. *)
  Definition windowBits (tbl : list N) : N :=
    let x := (len tbl * 64) mod W in
    if x <? W / 2 then x else 2^64 - (W - x).

  (** packetid_storage.go 20-46: [Push]. *)
  Definition pushW (st : storage) (packetID : N) : outcome (storage * bool) :=
    if latest st <? packetID then
      match table st with
      | [] => Ret ({| latest := packetID; table := [] |}, true)
      | _ :: _ =>
          match setAtOffset 0 (shiftLoopW (toUint (packetID - latest st)) 0 (table st)) with
          | Some t' => Ret ({| latest := packetID; table := t' |}, true)
          | None => Panic
          end
      end
    else if packetID =? latest st then Ret (st, false)
    else if windowBits (table st) <=? latest st - packetID then Ret (st, false)
    else
      let offset := toUint (latest st - packetID) in
      match getAtOffset offset (table st) with
      | None => Panic
      | Some true => Ret (st, false)
      | Some false =>
          match setAtOffset offset (table st) with
          | None => Panic
          | Some t' => Ret ({| latest := latest st; table := t' |}, true)
          end
      end.

  (** session.go 811-817 and 901-950, as [checkAndRemember] and [offer]. The
      storage of a session is [sessionStorage]: for options that are an [int] of
      this platform [depth+63] does not overflow. *)
  Definition checkW (st : option storage) (packetID : N) : outcome (option storage * bool) :=
    match st with
    | None => Ret (None, true)
    | Some s => match pushW s packetID with
                | Ret (s', b) => Ret (Some s', b)
                | Panic => Panic
                end
    end.
  Fixpoint offerW (st : option storage) (ids : list N) : outcome (option storage * list bool) :=
    match ids with
    | [] => Ret (st, [])
    | i :: rest =>
        match checkW st i with
        | Panic => Panic
        | Ret (st', b) =>
            match offerW st' rest with
            | Panic => Panic
            | Ret (st'', bs) => Ret (st'', b :: bs)
            end
        end
    end.
End Word.
