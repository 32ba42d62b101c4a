(** The pools of headers: message.go 209-255 (message headers) and 405-440
    (packet headers), message_fragment_headers.go 28-52 and 84-101 (fragment
    headers), with their users: session.go 1380-1392 and 1449-1468 (a message),
    1510-1544 (a fragment), 1874-1879 (sealing a packet), 918-947 and 1203-1222
    (opening one).

    [sync.Pool.Get] returns any pooled object, or a new one; the runtime may drop
    pooled objects at any time. Each step is one call of a goroutine. *)
From Coq Require Import NArith List Bool.
From Verif Require Import Base MessageModel.
Import ListNotations.
Open Scope N_scope.

(** A pooled message header: the fields of [messageHeaders]. *)
Record hobj := { ho : msgHdr; ho_busy : bool }.
(** message.go 219-228: made by the pool's New. *)
Definition newHobj : hobj := {| ho := {| mType := 0; mLength := 0; mFlags := 0 |}; ho_busy := false |}.

(** message.go 235-242. *)
Definition acquireHdr (o : hobj) : outcome hobj :=
  if ho_busy o then Panic else Ret {| ho := ho o; ho_busy := true |}.
(** message.go 230-233: flags are left as they are. *)
Definition setHdr (o : hobj) (t : N) (payload : bytes) : hobj :=
  {| ho := {| mType := t; mLength := u32 (len payload); mFlags := mFlags (ho o) |}; ho_busy := ho_busy o |}.
(** message.go 209-213. *)
Definition resetHdr (o : hobj) : hobj :=
  {| ho := {| mType := messageTypeUndefined; mLength := 0; mFlags := 0 |}; ho_busy := ho_busy o |}.
(** message.go 244-255. *)
Definition releaseHdr (o : hobj) : outcome hobj :=
  if negb (ho_busy o) then Panic
  else let o := resetHdr o in Ret {| ho := ho o; ho_busy := false |}.
(** message.go 131-158 on the object. *)
Definition withFlags (o : hobj) (f : N) : hobj :=
  {| ho := {| mType := mType (ho o); mLength := mLength (ho o); mFlags := f |}; ho_busy := ho_busy o |}.

(** A call: a message of type [t] (WriteMessageSingle, WriteMessageAsync), or a
    fragment of one ([payload] includes the fragment header). *)
Inductive call := CMsg (t : N) (payload : bytes) | CFrag (t : N) (payload : bytes).

(** Where the goroutine of a call is: about to call Set, to set the flag, to
    write the header (and hand it on), to call the deferred Release. *)
Inductive hpc := HSet | HFlag | HWrite | HRelease.
Record hthread := { ht_call : call; ht_obj : hobj; ht_pc : hpc }.

Record hps := {
  hp_pool : list hobj;
  hp_run : list hthread;
  hp_wire : list (call * msgHdr);  (* headers written, newest first *)
  hp_made : N;                     (* message headers made by New *)
  hp_dropped : N;                  (* message headers dropped by the runtime *)
  hp_frags : N;                    (* fragment headers acquired (session.go 1528) *)
  hp_fragBack : N;                 (* fragment headers given back *)
  hp_panic : bool }.

Definition hps0 : hps :=
  {| hp_pool := []; hp_run := []; hp_wire := []; hp_made := 0; hp_dropped := 0;
     hp_frags := 0; hp_fragBack := 0; hp_panic := false |}.

Fixpoint takeNth {A} (i : nat) (l : list A) : option (A * list A) :=
  match l, i with
  | [], _ => None
  | x :: r, O => Some (x, r)
  | x :: r, S j => match takeNth j r with Some (y, r') => Some (y, x :: r') | None => None end
  end.

Inductive hlabel :=
| HCall (c : call) (pick : option nat)  (* a goroutine acquires: pooled object or a new one *)
| HStep (i : nat)                       (* the i-th goroutine goes on *)
| HDrop (i : nat).                      (* the runtime drops a pooled object *)

Definition isFragCall (c : call) : bool := match c with CFrag _ _ => true | CMsg _ _ => false end.

(** Set, then: SetIsConfidential of a message (1388, 1455), SetIsFragmented of a
    fragment (1541; the other flag is not touched). *)
Definition callSet (c : call) (o : hobj) : hobj :=
  match c with CMsg t p | CFrag t p => setHdr o t p end.
Definition callFlag (c : call) (o : hobj) : hobj :=
  match c with
  | CMsg t _ => withFlags o (setIsConfidential (mFlags (ho o)) (negb (t =? messageTypeKeyExchange)))
  | CFrag _ _ => withFlags o (setIsFragmented (mFlags (ho o)) true)
  end.

Definition hpanic (s : hps) : hps :=
  {| hp_pool := hp_pool s; hp_run := hp_run s; hp_wire := hp_wire s; hp_made := hp_made s;
     hp_dropped := hp_dropped s; hp_frags := hp_frags s; hp_fragBack := hp_fragBack s; hp_panic := true |}.

Definition hpstep (s : hps) (l : hlabel) : option hps :=
  if hp_panic s then None else
  match l with
  | HCall c pick =>
      match (match pick with
             | None => Some (newHobj, hp_pool s, 1)
             | Some i => match takeNth i (hp_pool s) with Some (o, r) => Some (o, r, 0) | None => None end
             end) with
      | None => None
      | Some (o, rest, new) =>
          match acquireHdr o with
          | Panic => Some (hpanic s)
          | Ret o => Some
              {| hp_pool := rest; hp_run := {| ht_call := c; ht_obj := o; ht_pc := HSet |} :: hp_run s;
                 hp_wire := hp_wire s; hp_made := hp_made s + new; hp_dropped := hp_dropped s;
                 (* 1528: a fragment header too *)
                 hp_frags := hp_frags s + (if isFragCall c then 1 else 0);
                 hp_fragBack := hp_fragBack s; hp_panic := false |}
          end
      end
  | HStep i =>
      match takeNth i (hp_run s) with
      | None => None
      | Some (th, rest) =>
          let go o pc wire := Some
            {| hp_pool := hp_pool s; hp_run := {| ht_call := ht_call th; ht_obj := o; ht_pc := pc |} :: rest;
               hp_wire := wire; hp_made := hp_made s; hp_dropped := hp_dropped s; hp_frags := hp_frags s;
               hp_fragBack := hp_fragBack s; hp_panic := false |} in
          match ht_pc th with
          | HSet => go (callSet (ht_call th) (ht_obj th)) HFlag (hp_wire s)
          | HFlag => go (callFlag (ht_call th) (ht_obj th)) HWrite (hp_wire s)
          | HWrite => go (ht_obj th) HRelease ((ht_call th, ho (ht_obj th)) :: hp_wire s)
          | HRelease =>
              (* the fragment header is not released: there is no such call *)
              match releaseHdr (ht_obj th) with
              | Panic => Some (hpanic s)
              | Ret o => Some
                  {| hp_pool := o :: hp_pool s; hp_run := rest; hp_wire := hp_wire s; hp_made := hp_made s;
                     hp_dropped := hp_dropped s; hp_frags := hp_frags s; hp_fragBack := hp_fragBack s; hp_panic := false |}
              end
          end
      end
  | HDrop i =>
      match takeNth i (hp_pool s) with
      | None => None
      | Some (_, rest) => Some
          {| hp_pool := rest; hp_run := hp_run s; hp_wire := hp_wire s; hp_made := hp_made s;
             hp_dropped := hp_dropped s + 1; hp_frags := hp_frags s; hp_fragBack := hp_fragBack s; hp_panic := false |}
      end
  end.

Definition hpinit (s : hps) : Prop := s = hps0.

(** ** Packet headers *)

(** message.go 189-203: the fields of [messagesContainerHeaders]. *)
Record cobj := { co_id : bytes; co_hsum : bytes; co_msum : bytes; co_len : N; co_busy : bool }.
Definition newCobj : cobj :=
  {| co_id := repeat 0 8; co_hsum := repeat 0 16; co_msum := repeat 0 16; co_len := 0; co_busy := false |}.

(** 405-413: a new packet ID is put in at once. *)
Definition acquireCont (o : cobj) (nextID : N) : outcome cobj :=
  if co_busy o then Panic
  else Ret {| co_id := packetIDBytes nextID; co_hsum := co_hsum o; co_msum := co_msum o; co_len := co_len o; co_busy := true |}.
(** 432-436: the packet ID stays. *)
Definition resetCont (o : cobj) : cobj :=
  {| co_id := co_id o; co_hsum := repeat 0 16; co_msum := repeat 0 16; co_len := 0; co_busy := co_busy o |}.
(** 415-422, 438-440. *)
Definition releaseCont (o : cobj) : outcome cobj :=
  if negb (co_busy o) then Panic
  else let o := resetCont o in
       Ret {| co_id := co_id o; co_hsum := co_hsum o; co_msum := co_msum o; co_len := co_len o; co_busy := false |}.

(** Senders (session.go 1874-1890) and the reader (918-947, 1186-1265). The key is
    fixed; [hsum] and [msum] stand for the two tags. [cp_lost]: objects acquired that
    nobody refers to any more. *)
Record csender := { cs_msgs : bytes; cs_taken : N; cs_obj : cobj; cs_set : bool; cs_written : bool }.
Record cps := {
  cp_pool : list cobj;
  cp_run : list csender;
  cp_reader : option cobj;
  cp_next : N;                    (* nextPacketID *)
  cp_wire : list (bytes * N * contHdr);  (* content, packet ID taken, header written *)
  cp_made : N;
  cp_dropped : N;
  cp_lost : list cobj;
  cp_panic : bool }.
Definition cps0 : cps :=
  {| cp_pool := []; cp_run := []; cp_reader := None; cp_next := 0; cp_wire := []; cp_made := 0; cp_dropped := 0;
     cp_lost := []; cp_panic := false |}.

(** How [decrypt] and the duplicate check end. *)
Inductive rcase := RFails | RDup | RGood.

Inductive clabel :=
| CSend (msgs : bytes) (pick : option nat)    (* 1874 *)
| CStep (i : nat)                             (* Set, Write, deferred Release of a sender *)
| COpen (pick : option nat)                   (* 1222 *)
| CRead (id hs ms : bytes) (l : N)            (* 1228 and the reads of tryDecrypt *)
| CEnd (c : rcase)
| CDrop (i : nat).

Section Packets.
  Variable hsum : bytes -> N -> bytes.
  Variable msum : bytes -> bytes -> bytes.

  Definition pickCont (s : cps) (pick : option nat) : option (cobj * list cobj * N) :=
    match pick with
    | None => Some (newCobj, cp_pool s, 1)
    | Some i => match takeNth i (cp_pool s) with Some (o, r) => Some (o, r, 0) | None => None end
    end.

  (** message.go 424-430. *)
  Definition setCont (o : cobj) (msgs : bytes) : cobj :=
    let l := u32 (len msgs) in
    {| co_id := co_id o; co_hsum := hsum (co_id o) l; co_msum := msum (co_id o) msgs; co_len := l; co_busy := co_busy o |}.

  Definition contOf (o : cobj) : contHdr :=
    {| cPacketID := co_id o; cHdrSum := co_hsum o; cMsgSum := co_msum o; cLength := co_len o |}.

  Definition cpanic (s : cps) : cps :=
    {| cp_pool := cp_pool s; cp_run := cp_run s; cp_reader := cp_reader s; cp_next := cp_next s; cp_wire := cp_wire s;
       cp_made := cp_made s; cp_dropped := cp_dropped s; cp_lost := cp_lost s; cp_panic := true |}.

  Definition cpstep (s : cps) (l : clabel) : option cps :=
    if cp_panic s then None else
    match l with
    | CSend msgs pick =>
        match pickCont s pick with
        | None => None
        | Some (o, rest, new) =>
            let id := add64 (cp_next s) 1 in
            match acquireCont o id with
            | Panic => Some (cpanic s)
            | Ret o => Some
                {| cp_pool := rest;
                   cp_run := {| cs_msgs := msgs; cs_taken := id; cs_obj := o; cs_set := false; cs_written := false |} :: cp_run s;
                   cp_reader := cp_reader s; cp_next := id; cp_wire := cp_wire s; cp_made := cp_made s + new;
                   cp_dropped := cp_dropped s; cp_lost := cp_lost s; cp_panic := false |}
            end
        end
    | CStep i =>
        match takeNth i (cp_run s) with
        | None => None
        | Some (th, rest) =>
            let go o set written wire := Some
              {| cp_pool := cp_pool s;
                 cp_run := {| cs_msgs := cs_msgs th; cs_taken := cs_taken th; cs_obj := o; cs_set := set; cs_written := written |} :: rest;
                 cp_reader := cp_reader s; cp_next := cp_next s; cp_wire := wire; cp_made := cp_made s;
                 cp_dropped := cp_dropped s; cp_lost := cp_lost s; cp_panic := false |} in
            if negb (cs_set th) then go (setCont (cs_obj th) (cs_msgs th)) true false (cp_wire s)
            else if negb (cs_written th)
            then go (cs_obj th) true true ((cs_msgs th, cs_taken th, contOf (cs_obj th)) :: cp_wire s)
            else
              match releaseCont (cs_obj th) with
              | Panic => Some (cpanic s)
              | Ret o => Some
                  {| cp_pool := o :: cp_pool s; cp_run := rest; cp_reader := cp_reader s; cp_next := cp_next s;
                     cp_wire := cp_wire s; cp_made := cp_made s; cp_dropped := cp_dropped s; cp_lost := cp_lost s; cp_panic := false |}
              end
        end
    | COpen pick =>
        match cp_reader s, pickCont s pick with
        | None, Some (o, rest, new) =>
            let id := add64 (cp_next s) 1 in
            match acquireCont o id with
            | Panic => Some (cpanic s)
            | Ret o => Some
                {| cp_pool := rest; cp_run := cp_run s; cp_reader := Some o; cp_next := id; cp_wire := cp_wire s;
                   cp_made := cp_made s + new; cp_dropped := cp_dropped s; cp_lost := cp_lost s; cp_panic := false |}
            end
        | _, _ => None
        end
    | CRead id hs ms l =>
        match cp_reader s with
        | None => None
        | Some o => Some
            {| cp_pool := cp_pool s; cp_run := cp_run s;
               cp_reader := Some {| co_id := id; co_hsum := hs; co_msum := ms; co_len := l; co_busy := co_busy o |};
               cp_next := cp_next s; cp_wire := cp_wire s; cp_made := cp_made s; cp_dropped := cp_dropped s;
               cp_lost := cp_lost s; cp_panic := false |}
        end
    | CEnd c =>
        match cp_reader s with
        | None => None
        | Some o =>
            match c with
            | RDup => Some  (* 942: the next round of the loop overwrites the variable *)
                {| cp_pool := cp_pool s; cp_run := cp_run s; cp_reader := None; cp_next := cp_next s; cp_wire := cp_wire s;
                   cp_made := cp_made s; cp_dropped := cp_dropped s; cp_lost := o :: cp_lost s; cp_panic := false |}
            | RFails | RGood =>
                match releaseCont o with
                | Panic => Some (cpanic s)
                | Ret o => Some
                    {| cp_pool := o :: cp_pool s; cp_run := cp_run s; cp_reader := None; cp_next := cp_next s;
                       cp_wire := cp_wire s; cp_made := cp_made s; cp_dropped := cp_dropped s; cp_lost := cp_lost s; cp_panic := false |}
                end
            end
        end
    | CDrop i =>
        match takeNth i (cp_pool s) with
        | None => None
        | Some (_, rest) => Some
            {| cp_pool := rest; cp_run := cp_run s; cp_reader := cp_reader s; cp_next := cp_next s; cp_wire := cp_wire s;
               cp_made := cp_made s; cp_dropped := cp_dropped s + 1; cp_lost := cp_lost s; cp_panic := false |}
        end
    end.
End Packets.

Definition cpinit (s : cps) : Prop := s = cps0.
