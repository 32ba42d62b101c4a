(** The two copies of the keys of a session: session.go 2125-2165 ([setSecrets]),
    2278-2283 ([GetEphemeralKeys], which reads [currentSecrets]) and 1393-1406
    ([GetCipherKeys], which reads [cipherKeys]).

    Any number of goroutines call any of the three, again and again.  [setSecrets]
    runs under [sess.lock]; the readers do not take it, so the two assignments
    (2127 and 2146) are separate steps.  A slice assignment is one step here, as
    in a run in which no reader sees half of it.
    Left out: the channel closed at 2159 and the result, see [KeyWaitModel]. *)
From Coq Require Import NArith List Bool Arith.
From Verif Require Import Base TS KxModel KeyWaitModel.
Import ListNotations.

Definition secretList := list (option bytes).

Inductive ekPc :=
| EkIdle
| EkCall (secrets : secretList)        (* waiting for the lock *)
| EkAssigned (secrets : secretList).   (* after 2127 *)

Record ek := {
  ekSecrets : secretList;              (* [currentSecrets]; nil at the start *)
  ekKeys : cipherKeys;                 (* [*sess.cipherKeys]; nil at the start (434) *)
  ekLock : option nat;
  ekSet : nat -> ekPc;
  ekGotSecrets : nat -> option secretList;   (* what a reader has got last *)
  ekGotKeys : nat -> option cipherKeys;
  ekPanic : bool
}.

Definition ekInit : ek :=
  {| ekSecrets := []; ekKeys := []; ekLock := None; ekSet := fun _ => EkIdle;
     ekGotSecrets := fun _ => None; ekGotKeys := fun _ => None; ekPanic := false |}.

Inductive ekLabel :=
| EkSet (i : nat) (secrets : secretList)   (* the call of [setSecrets] *)
| EkAssign (i : nat)                       (* 2126-2127 *)
| EkStore (i : nat)                        (* 2128-2163 *)
| EkEphemeral (i : nat)                    (* [GetEphemeralKeys] *)
| EkCipher (i : nat).                      (* [GetCipherKeys] *)

Definition ekAt (s : ek) (i : nat) (p : ekPc) : ek :=
  {| ekSecrets := ekSecrets s; ekKeys := ekKeys s; ekLock := ekLock s; ekSet := fupd (ekSet s) i p;
     ekGotSecrets := ekGotSecrets s; ekGotKeys := ekGotKeys s; ekPanic := ekPanic s |}.

Definition ekStep (s : ek) (l : ekLabel) : option ek :=
  if ekPanic s then None
  else
  match l with
  | EkSet i secrets => match ekSet s i with EkIdle => Some (ekAt s i (EkCall secrets)) | _ => None end
  | EkAssign i =>
      match ekSet s i, ekLock s with
      | EkCall secrets, None =>
          Some {| ekSecrets := secrets; ekKeys := ekKeys s; ekLock := Some i;
                  ekSet := fupd (ekSet s) i (EkAssigned secrets);
                  ekGotSecrets := ekGotSecrets s; ekGotKeys := ekGotKeys s; ekPanic := false |}
      | _, _ => None
      end
  | EkStore i =>
      match ekSet s i with
      | EkAssigned secrets =>
          match cipherKeysOf secrets with
          | Panic =>
              Some {| ekSecrets := ekSecrets s; ekKeys := ekKeys s; ekLock := ekLock s; ekSet := ekSet s;
                      ekGotSecrets := ekGotSecrets s; ekGotKeys := ekGotKeys s; ekPanic := true |}
          | Ret ks =>
              Some {| ekSecrets := ekSecrets s;
                      ekKeys := if Nat.eqb (changedCount ks (ekKeys s)) 0 then ekKeys s else ks;
                      ekLock := None; ekSet := fupd (ekSet s) i EkIdle;
                      ekGotSecrets := ekGotSecrets s; ekGotKeys := ekGotKeys s; ekPanic := false |}
          end
      | _ => None
      end
  | EkEphemeral i =>
      Some {| ekSecrets := ekSecrets s; ekKeys := ekKeys s; ekLock := ekLock s; ekSet := ekSet s;
              ekGotSecrets := fupd (ekGotSecrets s) i (Some (ekSecrets s)); ekGotKeys := ekGotKeys s; ekPanic := false |}
  | EkCipher i =>
      Some {| ekSecrets := ekSecrets s; ekKeys := ekKeys s; ekLock := ekLock s; ekSet := ekSet s;
              ekGotSecrets := ekGotSecrets s; ekGotKeys := fupd (ekGotKeys s) i (Some (ekKeys s)); ekPanic := false |}
  end.

Fixpoint ekRun (s : ek) (ls : list ekLabel) : option ek :=
  match ls with
  | [] => Some s
  | l :: rest => match ekStep s l with None => None | Some s' => ekRun s' rest end
  end.
