(** The two reference counted pools: send_info.go 30-147 with the places of
    session.go that take and drop references (1640-1691 [waitForSend],
    1718-1721, 1738-1778, 1808-1850), and buffer_pool.go.

    Simplifications:
    - [sync.Pool] is a set of objects; [Get] returns any of them or a new one;
      the garbage collector may drop any of them at any moment;
    - who holds a reference is kept as a bag of tokens, so any number of
      goroutines is covered; one step is one atomic operation (or operations on
      memory nobody else can reach). *)
From Coq Require Import ZArith NArith List Bool.
From Verif Require Import Base TS.
Import ListNotations.

(** ** Send handles *)

(** send_info.go 12-27. [oLive]: allocated by [New]; [oPooled]: in the storage.
    [oLeaks] is ghost: increments nobody will ever undo. *)
Record sobj := {
  oLive : bool; oPooled : bool; oBusy : bool; oRef : Z; oDone : bool; oGen : N; oLeaks : Z
}.
Definition newObj : sobj :=
  {| oLive := false; oPooled := false; oBusy := false; oRef := 0; oDone := false; oGen := 0; oLeaks := 0 |}.

(** What a goroutine may have in its hands. *)
Inductive token :=
| Got (o : nat)              (* inside [AcquireSendInfo], after [storage.Get] *)
| Hold (o : nat) (gen : N)   (* a counted reference; [gen] is the sendID it was given for *)
| Stale (o : nat) (gen : N)  (* a bare pointer, as in [waitForSend] before line 1642 *)
| Poked (o : nat) (gen : N)  (* a reference counted starting from a bare pointer, with the
                                sendID the object has at that moment *)
| Putting (o : nat).         (* inside [Release], after the counter got 0 *)

Inductive ppanic :=
| PanBusy        (* send_info.go 55-57 *)
| PanPut         (* send_info.go 67-70 *)
| PanNegative    (* send_info.go 118-121 *)
| PanShare       (* session.go 1719-1721, send_info.go 133-135: incRefCount() == 1 *)
| PanUnfinished. (* send_info.go 111-112 *)

Record sp := {
  spObj : nat -> sobj;
  spTok : list token;
  spNext : N;              (* nextSendID *)
  spCtx : bool;            (* ctx is done *)
  spPanic : option ppanic
}.
Definition spInit : sp :=
  {| spObj := fun _ => newObj; spTok := []; spNext := 0; spCtx := false; spPanic := None |}.

Definition setObj (s : sp) (o : nat) (x : sobj) : sp :=
  {| spObj := fupd (spObj s) o x; spTok := spTok s; spNext := spNext s; spCtx := spCtx s; spPanic := spPanic s |}.
Definition setTok (s : sp) (l : list token) : sp :=
  {| spObj := spObj s; spTok := l; spNext := spNext s; spCtx := spCtx s; spPanic := spPanic s |}.
Definition panicking (s : sp) (p : ppanic) : sp :=
  {| spObj := spObj s; spTok := spTok s; spNext := spNext s; spCtx := spCtx s; spPanic := Some p |}.
Definition addRef (x : sobj) (d : Z) : sobj :=
  {| oLive := oLive x; oPooled := oPooled x; oBusy := oBusy x; oRef := oRef x + d; oDone := oDone x; oGen := oGen x;
     oLeaks := oLeaks x |}.
Definition addLeak (x : sobj) : sobj :=
  {| oLive := oLive x; oPooled := oPooled x; oBusy := oBusy x; oRef := oRef x; oDone := oDone x; oGen := oGen x;
     oLeaks := oLeaks x + 1 |}.

(** The token list without its i-th element. *)
Definition without (i : nat) (l : list token) : list token := firstn i l ++ skipn (S i) l.

Inductive slabel :=
| SNew (o : nat)        (* [Get] calls [New] *)
| SGet (o : nat)        (* [Get] takes a pooled one *)
| SSet (i : nat)        (* lines 55-62 by the owner of token i *)
| SShare (i : nat)      (* a further reference, taken while token i is held *)
| SFinish (i : nat)     (* the result is there: [close(sendInfo.c)] *)
| SPeek (i : nat)       (* the bare pointer gets to [waitForSend] (session.go 1619) *)
| SPoke (i : nat) (delivered : bool)
    (* session.go 1642-1648: [delivered]: the sender received it and will
       release it (1820); otherwise the default branch *)
| SRelease (i : nat)    (* lines 108-121 *)
| SPut (i : nat)        (* lines 66-74 *)
| SCtx                  (* the context is cancelled *)
| SCollect (o : nat).   (* the garbage collector empties the pool *)

Definition sstep (s : sp) (l : slabel) : option sp :=
  match spPanic s with
  | Some _ => None
  | None =>
  match l with
  | SNew o =>
      if oLive (spObj s o) then None
      else Some (setTok (setObj s o {| oLive := true; oPooled := false; oBusy := false; oRef := 0; oDone := false;
                                       oGen := 0; oLeaks := 0 |}) (Got o :: spTok s))
  | SGet o =>
      let x := spObj s o in
      if oPooled x then
        Some (setTok (setObj s o {| oLive := oLive x; oPooled := false; oBusy := oBusy x; oRef := oRef x;
                                    oDone := oDone x; oGen := oGen x; oLeaks := oLeaks x |}) (Got o :: spTok s))
      else None
  | SSet i =>
      match nth_error (spTok s) i with
      | Some (Got o) =>
          let x := spObj s o in
          if oBusy x then Some (panicking s PanBusy)
          else
            let g := (spNext s + 1)%N in
            Some {| spObj := fupd (spObj s) o {| oLive := oLive x; oPooled := oPooled x; oBusy := true; oRef := oRef x + 1;
                                                 oDone := false; oGen := g; oLeaks := oLeaks x |};
                    spTok := Hold o g :: without i (spTok s); spNext := g; spCtx := spCtx s; spPanic := spPanic s |}
      | _ => None
      end
  | SShare i =>
      match nth_error (spTok s) i with
      | Some (Hold o g) =>
          if (oRef (spObj s o) + 1 =? 1)%Z then Some (panicking s PanShare)
          else Some (setTok (setObj s o (addRef (spObj s o) 1)) (Hold o (oGen (spObj s o)) :: spTok s))
      | _ => None
      end
  | SFinish i =>
      match nth_error (spTok s) i with
      | Some (Hold o g) =>
          let x := spObj s o in
          if oDone x then None
          else Some (setObj s o {| oLive := oLive x; oPooled := oPooled x; oBusy := oBusy x; oRef := oRef x; oDone := true;
                                   oGen := oGen x; oLeaks := oLeaks x |})
      | _ => None
      end
  | SPeek i =>
      match nth_error (spTok s) i with
      | Some (Hold o g) => Some (setTok s (Stale o g :: spTok s))
      | _ => None
      end
  | SPoke i delivered =>
      match nth_error (spTok s) i with
      | Some (Stale o g) =>
          let x := addRef (spObj s o) 1 in
          if (oRef x =? 1)%Z
          then (* panic, recovered in line 1639-1641; the increment stays *)
            Some (setTok (setObj s o (addLeak x)) (without i (spTok s)))
          else if delivered
          then Some (setTok (setObj s o x) (Poked o (oGen x) :: without i (spTok s)))
          else Some (setTok (setObj s o (addLeak x)) (without i (spTok s)))
      | _ => None
      end
  | SRelease i =>
      match nth_error (spTok s) i with
      | Some (Hold o _) | Some (Poked o _) =>
          let x := spObj s o in
          if negb (oDone x || spCtx s) then Some (panicking s PanUnfinished)
          else
            let x := addRef x (-1) in
            if (0 <? oRef x)%Z then Some (setTok (setObj s o x) (without i (spTok s)))
            else if (oRef x <? 0)%Z then Some (panicking s PanNegative)
            else Some (setTok (setObj s o x) (Putting o :: without i (spTok s)))
      | _ => None
      end
  | SPut i =>
      match nth_error (spTok s) i with
      | Some (Putting o) =>
          let x := spObj s o in
          if negb (oBusy x) then Some (panicking s PanPut)
          else Some (setTok (setObj s o {| oLive := oLive x; oPooled := true; oBusy := false; oRef := oRef x;
                                           oDone := oDone x; oGen := oGen x; oLeaks := oLeaks x |})
                            (without i (spTok s)))
      | _ => None
      end
  | SCtx => Some {| spObj := spObj s; spTok := spTok s; spNext := spNext s; spCtx := true; spPanic := spPanic s |}
  | SCollect o =>
      let x := spObj s o in
      if oPooled x then
        Some (setObj s o {| oLive := oLive x; oPooled := false; oBusy := oBusy x; oRef := oRef x; oDone := oDone x;
                            oGen := oGen x; oLeaks := oLeaks x |})
      else None
  end
  end.

(** ** Buffers *)

(** buffer_pool.go 9-23. The backing array has [cap] bytes; [bBytes] is the
    visible part. *)
Record buf := { bfBytes : bytes; bfRest : bytes (* the array behind it *); bfOffset : N; bfRef : Z; bfBusy : bool }.
Definition bfCap (b : buf) : N := len (bfBytes b) + len (bfRest b).
(** buffer_pool.go 63-65 (uint arithmetic, 64 bits). *)
Definition bfLen (b : buf) : N := (len (bfBytes b) + (2^64 - bfOffset b)) mod 2^64.

(** buffer_pool.go 48-52. *)
Definition bfReset (b : buf) : buf :=
  {| bfBytes := []; bfRest := bfBytes b ++ bfRest b; bfOffset := 0; bfRef := bfRef b; bfBusy := bfBusy b |}.

(** buffer_pool.go 54-61. *)
Definition bfGrow (b : buf) (size : N) : buf :=
  if (bfCap b <? size)%N
  then {| bfBytes := repeat 0%N (N.to_nat size); bfRest := []; bfOffset := bfOffset b; bfRef := bfRef b; bfBusy := bfBusy b |}
  else {| bfBytes := firstn (N.to_nat size) (bfBytes b ++ bfRest b);
          bfRest := skipn (N.to_nat size) (bfBytes b ++ bfRest b);
          bfOffset := bfOffset b; bfRef := bfRef b; bfBusy := bfBusy b |}.

(** buffer_pool.go 75-87. *)
Definition bfNew (maxSize : N) : buf :=
  bfGrow {| bfBytes := []; bfRest := []; bfOffset := 0; bfRef := 0; bfBusy := false |} maxSize.

(** buffer_pool.go 89-98, after [storage.Get]. *)
Definition bfAcquire (b : buf) : outcome buf :=
  if bfBusy b then Panic
  else Ret {| bfBytes := bfBytes b; bfRest := bfRest b; bfOffset := bfOffset b; bfRef := bfRef b + 1; bfBusy := true |}.

(** buffer_pool.go 109-123: [true]: the buffer goes to the pool. *)
Definition bfRelease (b : buf) : outcome (buf * bool) :=
  let b := {| bfBytes := bfBytes b; bfRest := bfRest b; bfOffset := bfOffset b; bfRef := bfRef b - 1; bfBusy := bfBusy b |} in
  if (0 <? bfRef b)%Z then Ret (b, false)
  else if (bfRef b <? 0)%Z || negb (bfBusy b) then Panic
  else
    let b := bfReset b in
    Ret ({| bfBytes := bfBytes b; bfRest := bfRest b; bfOffset := bfOffset b; bfRef := bfRef b; bfBusy := false |}, true).

(** The pool and its users. [bpOwner o]: who may use buffer [o], a list of
    users. Simplified: [Release] is one step. *)
Record bp := {
  bpBuf : nat -> option buf;       (* allocated buffers *)
  bpPool : nat -> bool;            (* in the storage *)
  bpOwner : nat -> list nat;       (* acquired and not yet released by these *)
  bpPanic : bool
}.
Definition bpInit : bp := {| bpBuf := fun _ => None; bpPool := fun _ => false; bpOwner := fun _ => []; bpPanic := false |}.

Inductive blabel :=
| BpAcquire (u o : nat)          (* user u gets buffer o: pooled or new *)
| BpUse (u o : nat) (size : N)   (* Grow and writing, by an owner *)
| BpRelease (u o : nat)          (* by an owner: one release per acquisition *)
| BpReleaseAgain (u o : nat).    (* by somebody who is not an owner any more *)

Section Bp.
  Variable maxSize : N.

  Definition bpRel (s : bp) (u o : nat) (b : buf) : option bp :=
    match bfRelease b with
    | Panic => Some {| bpBuf := bpBuf s; bpPool := bpPool s; bpOwner := bpOwner s; bpPanic := true |}
    | Ret (b', put) =>
        Some {| bpBuf := fupd (bpBuf s) o (Some b'); bpPool := if put then fupd (bpPool s) o true else bpPool s;
                bpOwner := fupd (bpOwner s) o (remove Nat.eq_dec u (bpOwner s o)); bpPanic := false |}
    end.

  Definition bpstep (s : bp) (l : blabel) : option bp :=
    if bpPanic s then None
    else
    match l with
    | BpAcquire u o =>
        if existsb (Nat.eqb u) (bpOwner s o) then None
        else
        match (match bpBuf s o with None => Some (bfNew maxSize) | Some b => if bpPool s o then Some b else None end) with
        | None => None
        | Some b =>
            match bfAcquire b with
            | Panic => Some {| bpBuf := bpBuf s; bpPool := bpPool s; bpOwner := bpOwner s; bpPanic := true |}
            | Ret b' => Some {| bpBuf := fupd (bpBuf s) o (Some b'); bpPool := fupd (bpPool s) o false;
                                bpOwner := fupd (bpOwner s) o (u :: bpOwner s o); bpPanic := false |}
            end
        end
    | BpUse u o size =>
        match bpBuf s o with
        | Some b => if existsb (Nat.eqb u) (bpOwner s o)
                    then Some {| bpBuf := fupd (bpBuf s) o (Some (bfGrow b size)); bpPool := bpPool s;
                                 bpOwner := bpOwner s; bpPanic := false |}
                    else None
        | None => None
        end
    | BpRelease u o =>
        match bpBuf s o with
        | Some b => if existsb (Nat.eqb u) (bpOwner s o) then bpRel s u o b else None
        | None => None
        end
    | BpReleaseAgain u o =>
        match bpBuf s o with
        | Some b => if existsb (Nat.eqb u) (bpOwner s o) then None else bpRel s u o b
        | None => None
        end
    end.
End Bp.
