(** Model of packetid_storage.go: the duplicate/replay window. *)
From Coq Require Import NArith List Bool.
From Verif Require Import Base.
Import ListNotations.
Open Scope N_scope.

(** packetid_storage.go 3-10: [type packetIDStorage].  A nil table and an
    empty table are indistinguishable to the code below ([stor.table != nil]
    can only be false when no table was made, lines 14-16). *)
Record storage := { latest : N; table : list N }.

(** packetid_storage.go 12-18: [newPacketIDStorage]. *)
Definition newStorage (depth : N) : storage :=
  {| latest := 0;
     table := if 0 <? depth then repeat 0 (N.to_nat ((depth + 63) / 64)) else [] |}.

(** packetid_storage.go 48-56: [shiftValue]; [r] is the loop-carried
    variable, the recursion is the loop over [idx].  [64 - bitsAmount] is an
    unsigned (wrapping) subtraction, shifts by >= 64 give 0. *)
Fixpoint shiftLoop (bitsAmount r : N) (tbl : list N) : list N :=
  match tbl with
  | [] => []
  | v :: tbl' =>
      N.lor r (shl64 v bitsAmount)
      :: shiftLoop bitsAmount (shr64 v (sub64 64 bitsAmount)) tbl'
  end.
Definition shiftValue (bitsAmount : N) (tbl : list N) : list N :=
  shiftLoop bitsAmount 0 tbl.

(** Replacing one element, [None] when the index is out of range (panic). *)
Fixpoint update {A} (l : list A) (n : nat) (f : A -> A) : option (list A) :=
  match l, n with
  | [], _ => None
  | x :: l', O => Some (f x :: l')
  | x :: l', S n' => match update l' n' f with Some l'' => Some (x :: l'') | None => None end
  end.

(** packetid_storage.go 58-66: [setAtOffset(offset, true)] (the only way it is
    called); [None] is the index-out-of-range panic. *)
Definition setAtOffset (offset : N) (tbl : list N) : option (list N) :=
  update tbl (N.to_nat (N.shiftr offset 6))
         (fun w => N.lor w (N.shiftl 1 (N.land offset 63))).

(** packetid_storage.go 68-72: [getAtOffset]. *)
Definition getAtOffset (offset : N) (tbl : list N) : option bool :=
  match nth_error tbl (N.to_nat (N.shiftr offset 6)) with
  | Some w => Some (negb (N.land w (N.shiftl 1 (N.land offset 63)) =? 0))
  | None => None
  end.

(** packetid_storage.go 20-46: [Push].  [Panic] if a table access is out of
    range. *)
Definition push (st : storage) (packetID : N) : outcome (storage * bool) :=
  if latest st <? packetID then
    match table st with
    | [] => Ret ({| latest := packetID; table := [] |}, true)
    | _ :: _ =>
        match setAtOffset 0 (shiftValue (packetID - latest st) (table st)) with
        | Some t' => Ret ({| latest := packetID; table := t' |}, true)
        | None => Panic
        end
    end
  else if packetID =? latest st then Ret (st, false)
  else if len (table st) * 64 <=? latest st - packetID then Ret (st, false)
  else
    let offset := latest st - packetID in
    match getAtOffset offset (table st) with
    | None => Panic
    | Some true => Ret (st, false)
    | Some false =>
        match setAtOffset offset (table st) with
        | None => Panic
        | Some t' => Ret ({| latest := latest st; table := t' |}, true)
        end
    end.

(** session.go 462-471: the storage a session creates for a given
    [SessionOptions.PacketIDStorageSize]; [None] means "checking disabled".
    The option is a signed integer: [NegSize] stands for every negative one. *)
Inductive sizeOption := NegSize | Size (n : N).
Definition sessionStorage (o : sizeOption) : option storage :=
  match o with
  | NegSize => None
  | Size n =>
      let n := if n =? 0 then 256 else n in
      let depth := if n =? 1 then 0 else n in
      Some (newStorage depth)
  end.

(** session.go 811-817: [checkAndRememberPacketID]. *)
Definition checkAndRemember (st : option storage) (packetID : N)
  : outcome (option storage * bool) :=
  match st with
  | None => Ret (None, true)
  | Some s => match push s packetID with
              | Ret (s', b) => Ret (Some s', b)
              | Panic => Panic
              end
  end.

(** A receiver offered a sequence of packet IDs, as the loop of
    session.go 901-950 does; result: final storage and the verdicts. *)
Fixpoint offer (st : option storage) (ids : list N) : outcome (option storage * list bool) :=
  match ids with
  | [] => Ret (st, [])
  | i :: rest =>
      match checkAndRemember st i with
      | Panic => Panic
      | Ret (st', b) =>
          match offer st' rest with
          | Panic => Panic
          | Ret (st'', bs) => Ret (st'', b :: bs)
          end
      end
  end.
