(** Sessions created by several goroutines: session.go 355-377
    ([sessionIDGetterType.Get]) as a state machine. The time stamp is made under a
    lock, the random number (375) outside of it, by the source of math/rand:

      func (rng *rngSource) Uint64() uint64 {
        rng.tap--
        if rng.tap < 0 { rng.tap += rngLen }
        rng.feed--
        if rng.feed < 0 { rng.feed += rngLen }
        x := rng.vec[rng.feed] + rng.vec[rng.tap]
        rng.vec[rng.feed] = x
        return uint64(x)
      }

    (src/math/rand/rng.go; rngLen = 607, rngTap = 273; [mathrand.NewSource] is
    documented not to be safe for concurrent use.)

    Simplifications: one step is one load or one store, in the order of the source
    text (sequentially consistent memory; an optimising compiler may merge some
    loads); the contents of [vec] made from the seed is arbitrary. A goroutine that
    finds the clock at the last stamp tries again; others may come in between. *)
From Coq Require Import NArith ZArith List Bool.
From Verif Require Import Base MessageModel.
Import ListNotations.
Open Scope Z_scope.

Definition rngLen : Z := 607.
Definition rngTap : Z := 273.

Record rng := { rTap : Z; rFeed : Z; rVec : Z -> N }.
(** [Seed]: tap = 0, feed = rngLen - rngTap. *)
Definition seeded (vec : Z -> N) : rng := {| rTap := 0; rFeed := rngLen - rngTap; rVec := vec |}.
Definition setTap (r : rng) (t : Z) : rng := {| rTap := t; rFeed := rFeed r; rVec := rVec r |}.
Definition setFeed (r : rng) (f : Z) : rng := {| rTap := rTap r; rFeed := f; rVec := rVec r |}.
Definition setVec (r : rng) (i : Z) (x : N) : rng :=
  {| rTap := rTap r; rFeed := rFeed r; rVec := fun j => if j =? i then x else rVec r j |}.
(** An index is in range. *)
Definition inRange (i : Z) : bool := (0 <=? i) && (i <? rngLen).

(** Where a goroutine is. *)
Inductive gpc :=
| GStamp               (* 362-373 *)
| GTap0                (* load of tap-- *)
| GTap1 (t : Z)        (* its store *)
| GTap2                (* tap < 0 *)
| GTap3                (* load of tap += rngLen *)
| GTap4 (t : Z)        (* its store *)
| GFeed0 | GFeed1 (t : Z) | GFeed2 | GFeed3 | GFeed4 (t : Z)
| GX1                  (* load of feed *)
| GX2 (f : Z)          (* vec[feed] *)
| GX3 (a : N)          (* load of tap *)
| GX4 (a : N) (t : Z)  (* vec[tap] *)
| GX5 (x : N)          (* load of feed *)
| GX6 (x : N) (f : Z)  (* vec[feed] = x, return *)
| GDone (x : N).

Record gthread := { g_pc : gpc; g_stamp : N }.
Record gst := {
  gs_prev : N;              (* prevTime *)
  gs_rng : rng;
  gs_threads : list gthread;
  gs_outs : list N;         (* random numbers returned, newest first *)
  gs_panic : bool }.
Definition gst0 (vec : Z -> N) : gst :=
  {| gs_prev := 0; gs_rng := seeded vec; gs_threads := []; gs_outs := []; gs_panic := false |}.

Inductive glabel :=
| GNew                       (* a goroutine calls NewSession *)
| GClock (i : nat) (now : N) (* one round of 363-373 *)
| GStep (i : nat).

Definition setThread (l : list gthread) (i : nat) (th : gthread) : list gthread :=
  firstn i l ++ th :: skipn (S i) l.

(** One load or store of the generator by one goroutine; [None]: out of range. *)
Definition rngStep (r : rng) (pc : gpc) : option (rng * gpc) :=
  match pc with
  | GTap0 => Some (r, GTap1 (rTap r))
  | GTap1 t => Some (setTap r (t - 1), GTap2)
  | GTap2 => Some (r, if rTap r <? 0 then GTap3 else GFeed0)
  | GTap3 => Some (r, GTap4 (rTap r))
  | GTap4 t => Some (setTap r (t + rngLen), GFeed0)
  | GFeed0 => Some (r, GFeed1 (rFeed r))
  | GFeed1 t => Some (setFeed r (t - 1), GFeed2)
  | GFeed2 => Some (r, if rFeed r <? 0 then GFeed3 else GX1)
  | GFeed3 => Some (r, GFeed4 (rFeed r))
  | GFeed4 t => Some (setFeed r (t + rngLen), GX1)
  | GX1 => Some (r, GX2 (rFeed r))
  | GX2 f => if inRange f then Some (r, GX3 (rVec r f)) else None
  | GX3 a => Some (r, GX4 a (rTap r))
  | GX4 a t => if inRange t then Some (r, GX5 (add64 a (rVec r t))) else None
  | GX5 x => Some (r, GX6 x (rFeed r))
  | GX6 x f => if inRange f then Some (setVec r f x, GDone x) else None
  | GStamp | GDone _ => Some (r, pc)
  end.

Definition gstep (s : gst) (l : glabel) : option gst :=
  if gs_panic s then None else
  match l with
  | GNew => Some {| gs_prev := gs_prev s; gs_rng := gs_rng s;
                    gs_threads := gs_threads s ++ [{| g_pc := GStamp; g_stamp := 0 |}];
                    gs_outs := gs_outs s; gs_panic := false |}
  | GClock i now =>
      match nth_error (gs_threads s) i with
      | Some {| g_pc := GStamp |} =>
          if N.eqb (u64 now) (gs_prev s) then Some s
          else
            let at_ := if N.leb (u64 now) (gs_prev s) then u64 (gs_prev s + 1) else u64 now in
            Some {| gs_prev := at_; gs_rng := gs_rng s;
                    gs_threads := setThread (gs_threads s) i {| g_pc := GTap0; g_stamp := at_ |};
                    gs_outs := gs_outs s; gs_panic := false |}
      | _ => None
      end
  | GStep i =>
      match nth_error (gs_threads s) i with
      | None | Some {| g_pc := GStamp |} | Some {| g_pc := GDone _ |} => None
      | Some th =>
          match rngStep (gs_rng s) (g_pc th) with
          | None => Some {| gs_prev := gs_prev s; gs_rng := gs_rng s; gs_threads := gs_threads s;
                            gs_outs := gs_outs s; gs_panic := true |}
          | Some (r, pc) => Some
              {| gs_prev := gs_prev s; gs_rng := r;
                 gs_threads := setThread (gs_threads s) i {| g_pc := pc; g_stamp := g_stamp th |};
                 gs_outs := match pc with GDone x => x :: gs_outs s | _ => gs_outs s end; gs_panic := false |}
          end
      end
  end.
