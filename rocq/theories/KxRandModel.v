(** The key exchanger with a random source that may fail: key_exchanger.go
    572-577 (the error branch of [updateLocalKey]), added to the machine of
    KxModel. The error is given to [errFunc]; what the session makes of it is not
    part of this model. *)
From Coq Require Import NArith List Bool.
From Verif Require Import Base MessageModel KxModel.
Import ListNotations.
Local Open Scope N_scope.

Record rks := {
  rkX : kxs;
  rkErrs : N    (* "unable to generate ECDH keys" given to errFunc *)
}.
Definition rksInit (remote : option bytes) : rks := {| rkX := kxsInit remote; rkErrs := 0 |}.

Inductive rklabel :=
| RkStep (l : klabel)
| RkLoopFails              (* 572-577 on the way from 643 *)
| RkAnswerFails (i : nat). (* 572-577 on the way from 715 *)

Section Rand.
  Variable verify : bytes -> bytes -> bytes -> bool.
  Variable dh : bytes -> bytes -> bytes.
  Variable blake3 : bytes -> bytes.
  Variable sha3 : bytes -> bytes.

  Definition rkstep (c : kxConf) (s : rks) (l : rklabel) : option rks :=
    let x := rkX s in
    match l with
    | RkStep l =>
        match kstep verify dh blake3 sha3 c x l with Some x => Some {| rkX := x; rkErrs := rkErrs s |} | None => None end
    | RkLoopFails =>
        (* kx.Close, errFunc, return 0; [KeyUpdateSendWait] returns (639) *)
        if xPanic x then None
        else match xLoop x with
             | LpGen => Some {| rkX := setLoop (setX x (setCtx (xKx x))) LpIdle; rkErrs := rkErrs s + 1 |}
             | _ => None
             end
    | RkAnswerFails i =>
        (* the result is not looked at (715) *)
        if xPanic x then None
        else match nth_error (xAnswers x) i with
             | Some ApGen => Some {| rkX := setAnswer (setX x (setCtx (xKx x))) i ApSkip; rkErrs := rkErrs s + 1 |}
             | _ => None
             end
    end.
End Rand.
