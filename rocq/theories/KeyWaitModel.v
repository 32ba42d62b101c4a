(** Setting the session's keys and waiting for the first of them:
    session.go 1393-1426 ([GetCipherKeys], [GetCipherKeysWait]) and 2125-2165
    ([setSecrets]).

    Any number of goroutines call either function, again and again.  One step is
    one access to shared memory that others can see: [setSecrets] runs under
    [sess.lock], but the readers do not take that lock, so storing the keys (2146)
    and closing the channel (2159) are separate steps.  A receive from a channel
    on which nothing is ever sent succeeds iff it is closed.
    Simplification: [currentSecrets] (2127), which none of these functions
    reads, is left out; it is in [EphemeralModel]. *)
From Coq Require Import NArith List Bool Arith.
From Verif Require Import Base TS KxModel.
Import ListNotations.

Definition cipherKeys := list (option bytes).

Inductive setPc :=
| SetIdle
| SetCall (secrets : list (option bytes))     (* waiting for the lock *)
| SetStored (n : nat)                         (* after 2146; there are [n] keys *)
| SetRet (result : bool).

Inductive getPc :=
| GetIdle
| GetSelect                                   (* 1416 *)
| GetLoad                                     (* 1421 *)
| GetRet (r : option cipherKeys).

Record kw := {
  kwKeys : option cipherKeys;      (* [None]: nil, as at the start (434) *)
  kwClosed : bool;                 (* [waitForCipherKeyChan] *)
  kwDone : bool;                   (* [ctx] *)
  kwLock : option nat;             (* who holds [sess.lock] *)
  kwSet : nat -> setPc;
  kwGet : nat -> getPc;
  kwPanic : bool;
  kwLog : list cipherKeys          (* everything stored so far, newest first; only recorded *)
}.

Definition kwInit : kw :=
  {| kwKeys := None; kwClosed := false; kwDone := false; kwLock := None; kwSet := fun _ => SetIdle;
     kwGet := fun _ => GetIdle; kwPanic := false; kwLog := [] |}.

Inductive kwLabel :=
| KwSet (i : nat) (secrets : list (option bytes))   (* the call *)
| KwStore (i : nat)                                 (* 2126-2146 *)
| KwChan (i : nat)                                  (* 2148-2161 *)
| KwGet (i : nat)                                   (* the call, 1411-1414 *)
| KwRecv (i : nat)                                  (* 1417 *)
| KwDone (i : nat)                                  (* 1418 *)
| KwLoad (i : nat)                                  (* 1421-1425 *)
| KwCancel.

Definition upSet (s : kw) (i : nat) (p : setPc) (lock : option nat) : kw :=
  {| kwKeys := kwKeys s; kwClosed := kwClosed s; kwDone := kwDone s; kwLock := lock; kwSet := fupd (kwSet s) i p;
     kwGet := kwGet s; kwPanic := kwPanic s; kwLog := kwLog s |}.
Definition upGet (s : kw) (i : nat) (p : getPc) : kw :=
  {| kwKeys := kwKeys s; kwClosed := kwClosed s; kwDone := kwDone s; kwLock := kwLock s; kwSet := kwSet s;
     kwGet := fupd (kwGet s) i p; kwPanic := kwPanic s; kwLog := kwLog s |}.
Definition upKeys (s : kw) (ks : cipherKeys) : kw :=
  {| kwKeys := Some ks; kwClosed := kwClosed s; kwDone := kwDone s; kwLock := kwLock s; kwSet := kwSet s;
     kwGet := kwGet s; kwPanic := kwPanic s; kwLog := ks :: kwLog s |}.
Definition upClosed (s : kw) : kw :=
  {| kwKeys := kwKeys s; kwClosed := true; kwDone := kwDone s; kwLock := kwLock s; kwSet := kwSet s;
     kwGet := kwGet s; kwPanic := kwPanic s; kwLog := kwLog s |}.
Definition upDone (s : kw) : kw :=
  {| kwKeys := kwKeys s; kwClosed := kwClosed s; kwDone := true; kwLock := kwLock s; kwSet := kwSet s;
     kwGet := kwGet s; kwPanic := kwPanic s; kwLog := kwLog s |}.
Definition upPanicked (s : kw) : kw :=
  {| kwKeys := kwKeys s; kwClosed := kwClosed s; kwDone := kwDone s; kwLock := kwLock s; kwSet := kwSet s;
     kwGet := kwGet s; kwPanic := true; kwLog := kwLog s |}.

Definition bytesOf (o : option bytes) : bytes := match o with None => [] | Some b => b end.

(** 2130-2140; [bytes.Compare] does not tell nil from empty. *)
Fixpoint changedCount (new old : cipherKeys) : nat :=
  match new, old with
  | [], _ => 0
  | n :: new, o :: old => (if bytes_eqb (bytesOf n) (bytesOf o) then 0 else 1) + changedCount new old
  | _ :: new, [] => 1 + changedCount new []
  end.

Definition keysNow (s : kw) : cipherKeys := match kwKeys s with None => [] | Some ks => ks end.

Definition kwStep (s : kw) (l : kwLabel) : option kw :=
  if kwPanic s then None
  else
  match l with
  | KwSet i secrets =>
      match kwSet s i with
      | SetIdle | SetRet _ => Some (upSet s i (SetCall secrets) (kwLock s))
      | _ => None
      end
  | KwStore i =>
      match kwSet s i, kwLock s with
      | SetCall secrets, None =>
          match cipherKeysOf secrets with
          | Panic => Some (upPanicked s)
          | Ret ks =>
              if Nat.eqb (changedCount ks (keysNow s)) 0 then Some (upSet s i (SetRet false) None)
              else Some (upSet (upKeys s ks) i (SetStored (length ks)) (Some i))
          end
      | _, _ => None
      end
  | KwChan i =>
      match kwSet s i with
      | SetStored n =>
          if Nat.eqb n 4 then
            if kwClosed s then Some (upSet s i (SetRet false) None)
            else Some (upSet (upClosed s) i (SetRet true) None)
          else Some (upSet s i (SetRet true) None)
      | _ => None
      end
  | KwGet i =>
      match kwGet s i with
      | GetIdle | GetRet _ =>
          let ks := keysNow s in
          Some (upGet s i (if Nat.eqb (length ks) 4 && match nth 0 ks None with Some _ => true | None => false end
                           then GetRet (Some ks) else GetSelect))
      | _ => None
      end
  | KwRecv i => match kwGet s i with GetSelect => if kwClosed s then Some (upGet s i GetLoad) else None | _ => None end
  | KwDone i => match kwGet s i with GetSelect => if kwDone s then Some (upGet s i (GetRet None)) else None | _ => None end
  | KwLoad i =>
      match kwGet s i with
      | GetLoad => match kwKeys s with None => Some (upPanicked s) | Some ks => Some (upGet s i (GetRet (Some ks))) end
      | _ => None
      end
  | KwCancel => Some (upDone s)
  end.
