(** Reassembly of fragmented messages: pending_chain.go, and the fragment part
    of session.go. *)
From Coq Require Import NArith List Bool.
From Verif Require Import Base MessageModel.
Import ListNotations.
Open Scope N_scope.

(** [bits.OnesCount64] *)
Fixpoint popP (p : positive) : N :=
  match p with
  | xH => 1
  | xO q => popP q
  | xI q => 1 + popP q
  end.
Definition onesCount (x : N) : N := match x with N0 => 0 | Npos p => popP p end.

(** pending_chain.go 9-14. *)
Definition pendingChainIsSetSet (oldValue addValue : N) : N * N :=
  let newValue := N.lor oldValue addValue in
  let diff := N.lxor newValue oldValue in
  (newValue, onesCount diff).

(** pending_chain.go 16-150: the literal table of [setLeadingOnes64]
    (generated from the source text, not from a formula). *)
Definition leadingOnesTable : list N :=
  [0; 9223372036854775808; 13835058055282163712; 16140901064495857664; 
   17293822569102704640; 17870283321406128128; 18158513697557839872; 
   18302628885633695744; 18374686479671623680; 18410715276690587648; 
   18428729675200069632; 18437736874454810624; 18442240474082181120; 
   18444492273895866368; 18445618173802708992; 18446181123756130304; 
   18446462598732840960; 18446603336221196288; 18446673704965373952; 
   18446708889337462784; 18446726481523507200; 18446735277616529408; 
   18446739675663040512; 18446741874686296064; 18446742974197923840; 
   18446743523953737728; 18446743798831644672; 18446743936270598144; 
   18446744004990074880; 18446744039349813248; 18446744056529682432; 
   18446744065119617024; 18446744069414584320; 18446744071562067968; 
   18446744072635809792; 18446744073172680704; 18446744073441116160; 
   18446744073575333888; 18446744073642442752; 18446744073675997184; 
   18446744073692774400; 18446744073701163008; 18446744073705357312; 
   18446744073707454464; 18446744073708503040; 18446744073709027328; 
   18446744073709289472; 18446744073709420544; 18446744073709486080; 
   18446744073709518848; 18446744073709535232; 18446744073709543424; 
   18446744073709547520; 18446744073709549568; 18446744073709550592; 
   18446744073709551104; 18446744073709551360; 18446744073709551488; 
   18446744073709551552; 18446744073709551584; 18446744073709551600; 
   18446744073709551608; 18446744073709551612; 18446744073709551614].
Definition setLeadingOnes64 (v : N) : N :=
  nth (N.to_nat v) leadingOnesTable (2^64 - 1).

(** pending_chain.go 152-157. *)
Record chain := { isSet : list N; cdata : bytes; expected : N; received : N }.

(** A zero value, as in [make([]pendingChain, n)]. *)
Definition emptyChain : chain := {| isSet := []; cdata := []; expected := 0; received := 0 |}.

(** pending_chain.go 159-166. *)
Definition chainReset (c : chain) : chain :=
  {| isSet := map (fun _ => 0) (isSet c); cdata := cdata c; expected := 0; received := 0 |}.

(** pending_chain.go 168-177. *)
Definition chainInit (c : chain) (expectedLength : N) : chain :=
  let c := chainReset c in
  if expectedLength <=? len (cdata c)
  then {| isSet := isSet c; cdata := cdata c; expected := expectedLength; received := 0 |}
  else {| isSet := repeat 0 (N.to_nat (add64 expectedLength 63 / 64));
          cdata := repeat 0 (N.to_nat expectedLength);
          expected := expectedLength; received := 0 |}.

(** [copy(dst[pos:], b)]; [None] is the slicing panic. *)
Definition copyAt (dst : bytes) (pos : N) (b : bytes) : option bytes :=
  if len dst <? pos then None
  else
    let p := N.to_nat pos in
    let n := Nat.min (length dst - p) (length b) in
    Some (firstn p dst ++ firstn n b ++ skipn (p + n) dst).

(** [isSet[i], n = pendingChainIsSetSet(isSet[i], v)]; [None]: index panic. *)
Fixpoint orAt (l : list N) (i : nat) (v : N) : option (list N * N) :=
  match l, i with
  | [], _ => None
  | x :: r, O => let (nv, n) := pendingChainIsSetSet x v in Some (nv :: r, n)
  | x :: r, S j => match orAt r j v with
                   | None => None
                   | Some (r', n) => Some (x :: r', n)
                   end
  end.

(** pending_chain.go 201-205: [k] iterations starting at word [i]. *)
Fixpoint setWords (l : list N) (i k : nat) : option (list N * N) :=
  match k with
  | O => Some (l, 0)
  | S k' =>
      match orAt l i (2^64 - 1) with
      | None => None
      | Some (l1, n1) =>
          match setWords l1 (S i) k' with
          | None => None
          | Some (l2, n2) => Some (l2, n1 + n2)
          end
      end
  end.

(** pending_chain.go 206-213: the partial last word. *)
Definition setTail (l : list N) (endPos : N) : option (list N * N) :=
  let pos := N.land endPos (2^64 - 64) in
  if pos <? endPos
  then orAt l (N.to_nat (N.shiftr endPos 6)) (setLeadingOnes64 (endPos - pos))
  else Some (l, 0).

(** pending_chain.go 179-220. *)
Definition chainMerge (c : chain) (h : fragHdr) (b : bytes)
  : outcome (chain * res (option bytes)) :=
  if expected c <=? received c then Ret (c, Err ErrDuplicateChain)
  else
    let lastPos := add64 (len b) (fStartPos h) in
    if expected c <? lastPos then Ret (c, Err ErrOutOfRange)
    else
      match copyAt (cdata c) (fStartPos h) b with
      | None => Panic
      | Some d =>
          let endPos := add64 (fStartPos h) (len b) in
          let w0 := N.shiftr (fStartPos h) 6 in
          let w1 := N.shiftr endPos 6 in
          match setWords (isSet c) (N.to_nat w0) (N.to_nat (w1 - w0)) with
          | None => Panic
          | Some (l1, n1) =>
              match setTail l1 endPos with
              | None => Panic
              | Some (l2, n2) =>
                  let r := add64 (received c) (n1 + n2) in
                  let c' := {| isSet := l2; cdata := d; expected := expected c; received := r |} in
                  if expected c <=? r then Ret (c', Ok (Some d)) else Ret (c', Ok None)
              end
          end
      end.

(** Feeding a sequence of fragments (start position, content) to one chain. *)
Fixpoint mergeAll (c : chain) (arr : list (N * bytes)) : outcome (chain * list (res (option bytes))) :=
  match arr with
  | [] => Ret (c, [])
  | (s, b) :: r =>
      match chainMerge c {| fChainID := 0; fStartPos := s; fTotal := 0 |} b with
      | Panic => Panic
      | Ret (c1, o) =>
          match mergeAll c1 r with
          | Panic => Panic
          | Ret (c2, os) => Ret (c2, o :: os)
          end
      end
  end.
