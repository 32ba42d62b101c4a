(** A wait group to which goroutines are added while others may wait for it:
    [kx.wg] (key_exchanger.go 449-454 the check of the context, 479-484 the answer,
    536-542 the loop, 753-755 and session.go 2106-2109 the waiting) and in the same
    way [stopWaitGroup] (session.go 1310-1318: the check of [isDoneSlow], then
    [Add] and a goroutine; 630-642; 2274-2276).

    [sync.WaitGroup] as in its source (src/sync/waitgroup.go):

      func (wg *WaitGroup) Add(delta int) {
        state := wg.state.Add(uint64(delta) << 32)
        v := int32(state >> 32); w := uint32(state)
        if v < 0 { panic("sync: negative WaitGroup counter") }
        if w != 0 && delta > 0 && v == int32(delta) { panic("... Add called concurrently with Wait") }
        if v > 0 || w == 0 { return }
        if wg.state.Load() != state { panic("... Add called concurrently with Wait") }
        wg.state.Store(0)
        for ; w != 0; w-- { runtime_Semrelease(&wg.sema, false, 0) }
      }
      func (wg *WaitGroup) Wait() {
        for {
          state := wg.state.Load()
          if int32(state >> 32) == 0 { return }
          if wg.state.CompareAndSwap(state, state+1) {
            runtime_Semacquire(&wg.sema)
            if wg.state.Load() != 0 { panic("... reused before previous Wait has returned") }
            return
          }
        }
      }

    One step is one atomic access to the state or the semaphore; a
    CompareAndSwap that fails changes nothing and is left out. The numbers do not
    get near 2^31.

    Worker 0 is the goroutine that lasts as long as the context (the loop of the
    exchanger; the reader of the session). All other workers are added by the
    function that checks the context first ([Handle], one call at a time because
    of [kx.locker]; [NewMessenger]), and may end at any time. *)
From Coq Require Import List Bool Arith.
From Verif Require Import Base TS.
Import ListNotations.

(** A worker, at the end in its [Done]. *)
Inductive dpc :=
| DRun
| DLoad (w : nat)      (* has made the counter zero and has seen [w] waiters *)
| DStore (w : nat)     (* the second look has given the same *)
| DRelease (n : nat)   (* still [n] waiters to wake *)
| DEnd.
Inductive wtpc := WtNew | WtSleep | WtCheck | WtRet.
Inductive whichPanic := PNegative | PConcurrent | PReused.

Record wgs := {
  gV : nat;              (* the counter *)
  gW : nat;              (* waiters *)
  gSem : nat;
  gCtx : bool;           (* the context is done *)
  gAdding : bool;        (* between the check of the context and [Add] *)
  gWorkers : list dpc;
  gWaiters : list wtpc;
  gPanic : option whichPanic }.
Definition wgs0 : wgs :=
  {| gV := 1; gW := 0; gSem := 0; gCtx := false; gAdding := false; gWorkers := [DRun]; gWaiters := []; gPanic := None |}.

Inductive wglabel :=
| LgCancel
| LgCheck              (* a message that needs an answer comes *)
| LgAdd
| LgWork (i : nat)     (* the next step of a worker that is to end *)
| LgWaiter             (* somebody calls [WaitForClosure] *)
| LgWait (i : nat).

Definition gset {A} (l : list A) (i : nat) (x : A) : list A := firstn i l ++ x :: skipn (S i) l.
Definition gPanics (s : wgs) (p : whichPanic) : wgs :=
  {| gV := gV s; gW := gW s; gSem := gSem s; gCtx := gCtx s; gAdding := gAdding s; gWorkers := gWorkers s;
     gWaiters := gWaiters s; gPanic := Some p |}.
Definition gWg (s : wgs) (v w sem : nat) : wgs :=
  {| gV := v; gW := w; gSem := sem; gCtx := gCtx s; gAdding := gAdding s; gWorkers := gWorkers s;
     gWaiters := gWaiters s; gPanic := gPanic s |}.
Definition gWorker (s : wgs) (i : nat) (d : dpc) : wgs :=
  {| gV := gV s; gW := gW s; gSem := gSem s; gCtx := gCtx s; gAdding := gAdding s; gWorkers := gset (gWorkers s) i d;
     gWaiters := gWaiters s; gPanic := gPanic s |}.
Definition gWaiterTo (s : wgs) (i : nat) (p : wtpc) : wgs :=
  {| gV := gV s; gW := gW s; gSem := gSem s; gCtx := gCtx s; gAdding := gAdding s; gWorkers := gWorkers s;
     gWaiters := gset (gWaiters s) i p; gPanic := gPanic s |}.

Definition wgStep (s : wgs) (l : wglabel) : option wgs :=
  match gPanic s with Some _ => None | None =>
  match l with
  | LgCancel => Some {| gV := gV s; gW := gW s; gSem := gSem s; gCtx := true; gAdding := gAdding s; gWorkers := gWorkers s;
                        gWaiters := gWaiters s; gPanic := None |}
  | LgCheck =>
      if gCtx s || gAdding s then None
      else Some {| gV := gV s; gW := gW s; gSem := gSem s; gCtx := gCtx s; gAdding := true; gWorkers := gWorkers s;
                   gWaiters := gWaiters s; gPanic := None |}
  | LgAdd =>
      if gAdding s then
        let s' := {| gV := S (gV s); gW := gW s; gSem := gSem s; gCtx := gCtx s; gAdding := false;
                     gWorkers := gWorkers s ++ [DRun]; gWaiters := gWaiters s; gPanic := None |} in
        Some (if negb (gW s =? 0) && (S (gV s) =? 1) then gPanics s' PConcurrent else s')
      else None
  | LgWork i =>
      match nth_error (gWorkers s) i with
      | Some DRun =>
          if (i =? 0) && negb (gCtx s) then None
          else match gV s with
               | O => Some (gPanics s PNegative)
               | S v => Some (gWorker (gWg s v (gW s) (gSem s)) i
                                (if negb (v =? 0) || (gW s =? 0) then DEnd else DLoad (gW s)))
               end
      | Some (DLoad w) =>
          Some (if (gV s =? 0) && (gW s =? w) then gWorker s i (DStore w) else gPanics s PConcurrent)
      | Some (DStore w) => Some (gWorker (gWg s 0 0 (gSem s)) i (DRelease w))
      | Some (DRelease (S n)) => Some (gWorker (gWg s (gV s) (gW s) (S (gSem s))) i (DRelease n))
      | Some (DRelease O) => Some (gWorker s i DEnd)
      | Some DEnd | None => None
      end
  | LgWaiter => Some {| gV := gV s; gW := gW s; gSem := gSem s; gCtx := gCtx s; gAdding := gAdding s; gWorkers := gWorkers s;
                        gWaiters := gWaiters s ++ [WtNew]; gPanic := None |}
  | LgWait i =>
      match nth_error (gWaiters s) i with
      | Some WtNew =>
          match gV s with
          | O => Some (gWaiterTo s i WtRet)
          | S _ => Some (gWaiterTo (gWg s (gV s) (S (gW s)) (gSem s)) i WtSleep)
          end
      | Some WtSleep =>
          match gSem s with
          | O => None
          | S n => Some (gWaiterTo (gWg s (gV s) (gW s) n) i WtCheck)
          end
      | Some WtCheck =>
          Some (if (gV s =? 0) && (gW s =? 0) then gWaiterTo s i WtRet else gPanics s PReused)
      | Some WtRet | None => None
      end
  end
  end.
