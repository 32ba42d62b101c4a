(** Two key exchangers and the network between them (key_exchanger.go 433-749 on
    both sides). Everything ever sent may be delivered at any later time, any
    number of times, in any order, or never; nothing else is delivered. *)
From Coq Require Import NArith List.
From Verif Require Import Base MessageModel KxModel.
Import ListNotations.
Local Open Scope N_scope.

Record pair := { pA : kxs; pB : kxs }.

Inductive plabel :=
| PA (l : klabel)      (* a step of A's goroutines *)
| PB (l : klabel)
| PToA (n : nat)       (* A gets the n-th message B has sent *)
| PToB (n : nat).

Section Pair.
  Variable verify : bytes -> bytes -> bytes -> bool.
  Variable dh : bytes -> bytes -> bytes.
  Variables blake3 sha3 : bytes -> bytes.
  Variable sign : bytes -> bytes -> bytes.    (* owner's public key, message *)
  Variables ca cb : kxConf.

  (** key_exchanger.go 730-741. *)
  Definition signedWire (c : kxConf) (m : kxMsg) : bytes := sign (cIdentity c) (kxEncode m) ++ kxEncode m.

  Definition pairInit (ra rb : option bytes) : pair := {| pA := kxsInit ra; pB := kxsInit rb |}.

  Definition isHandle (l : klabel) : bool := match l with KHandle _ => true | _ => false end.
  Definition stepA (s : pair) (l : klabel) : option pair :=
    match kstep verify dh blake3 sha3 ca (pA s) l with Some x => Some {| pA := x; pB := pB s |} | None => None end.
  Definition stepB (s : pair) (l : klabel) : option pair :=
    match kstep verify dh blake3 sha3 cb (pB s) l with Some x => Some {| pA := pA s; pB := x |} | None => None end.

  Definition pstep (s : pair) (l : plabel) : option pair :=
    match l with
    | PA l => if isHandle l then None else stepA s l
    | PB l => if isHandle l then None else stepB s l
    | PToA n => match nth_error (rev (xSent (pB s))) n with Some m => stepA s (KHandle (signedWire cb m)) | None => None end
    | PToB n => match nth_error (rev (xSent (pA s))) n with Some m => stepB s (KHandle (signedWire ca m)) | None => None end
    end.
End Pair.
