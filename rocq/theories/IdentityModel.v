(** Identities: identity.go 26-243 (keys, their files, constructors), with the
    part of Go's encoding/pem and encoding/base64 that the key files use.

    The file system is one directory with the two key files. A write may stop
    after any number of bytes (an error, or the death of the process). Opening
    for writing does not truncate (line 146), so a write replaces a prefix. *)
From Coq Require Import Ascii String NArith List Bool.
From Verif Require Import Base.
Import ListNotations.
Local Open Scope list_scope.
Local Open Scope N_scope.

Definition txt (s : string) : bytes := map N_of_ascii (list_ascii_of_string s).

(** ** base64.StdEncoding *)
Definition b64char (v : N) : N :=
  if v <? 26 then 65 + v            (* A-Z *)
  else if v <? 52 then 97 + (v - 26)  (* a-z *)
  else if v <? 62 then 48 + (v - 52)  (* 0-9 *)
  else if v =? 62 then 43 else 47.    (* + / *)
Definition b64val (c : N) : option N :=
  if (65 <=? c) && (c <=? 90) then Some (c - 65)
  else if (97 <=? c) && (c <=? 122) then Some (c - 97 + 26)
  else if (48 <=? c) && (c <=? 57) then Some (c - 48 + 52)
  else if c =? 43 then Some 62
  else if c =? 47 then Some 63
  else None.
Definition padChar : N := 61.
Definition nl : N := 10.

Fixpoint b64enc (bs : bytes) : bytes :=
  match bs with
  | [] => []
  | [a] => [b64char (a / 4); b64char (a mod 4 * 16); padChar; padChar]
  | [a; b] => [b64char (a / 4); b64char (a mod 4 * 16 + b / 16); b64char (b mod 16 * 4); padChar]
  | a :: b :: c :: r =>
      b64char (a / 4) :: b64char (a mod 4 * 16 + b / 16) :: b64char (b mod 16 * 4 + c / 64) :: b64char (c mod 64) :: b64enc r
  end.

Fixpoint b64dec (cs : bytes) : option bytes :=
  match cs with
  | [] => Some []
  | w :: x :: y :: z :: r =>
      match b64val w, b64val x with
      | Some w', Some x' =>
          if y =? padChar then
            if (z =? padChar) && match r with [] => true | _ => false end then Some [w' * 4 + x' / 16] else None
          else
            match b64val y with
            | None => None
            | Some y' =>
                if z =? padChar then
                  match r with [] => Some [w' * 4 + x' / 16; x' mod 16 * 16 + y' / 4] | _ => None end
                else
                  match b64val z, b64dec r with
                  | Some z', Some t => Some (w' * 4 + x' / 16 :: x' mod 16 * 16 + y' / 4 :: y' mod 4 * 64 + z' :: t)
                  | _, _ => None
                  end
            end
      | _, _ => None
      end
  | _ => None
  end.

(** ** pem.Encode without headers *)

(** A line break after every 64 characters and at the end of a shorter last line;
    [k] characters are left on the current line. *)
Fixpoint breakLines (k : nat) (cs : bytes) : bytes :=
  match cs with
  | [] => if Nat.eqb k 64 then [] else [nl]
  | c :: r => match k with
              | S O => c :: nl :: breakLines 64 r
              | _ => c :: breakLines (pred k) r
              end
  end.
Definition pemBegin : bytes := txt "-----BEGIN ".
Definition pemEnd : bytes := txt "-----END ".
Definition pemEol : bytes := txt "-----".
Definition pemEncode (ty key : bytes) : bytes :=
  pemBegin ++ ty ++ pemEol ++ [nl] ++ breakLines 64 (b64enc key) ++ pemEnd ++ ty ++ pemEol ++ [nl].

(** ** pem.Decode, for input that begins with the block: text before the first
    block, headers inside it, and white space other than line breaks are not
    modelled (the files written by this package have none). [None]: Decode
    returns a nil block. *)
Fixpoint stripPrefix (p s : bytes) : option bytes :=
  match p, s with
  | [], _ => Some s
  | a :: p', b :: s' => if a =? b then stripPrefix p' s' else None
  | _, [] => None
  end.
Fixpoint cutLine (s : bytes) : bytes * bytes :=     (* up to the first line break; the rest *)
  match s with
  | [] => ([], [])
  | c :: r => if c =? nl then ([], r) else let '(a, b) := cutLine r in (c :: a, b)
  end.
Definition stripSuffix (p s : bytes) : option bytes :=
  match stripPrefix (rev p) (rev s) with Some r => Some (rev r) | None => None end.
Fixpoint cutAt (p s : bytes) : option (bytes * bytes) :=  (* first occurrence of [p] *)
  match stripPrefix p s with
  | Some r => Some ([], r)
  | None => match s with
            | [] => None
            | c :: s' => match cutAt p s' with Some (a, b) => Some (c :: a, b) | None => None end
            end
  end.
Definition pemDecode (s : bytes) : option bytes :=
  match stripPrefix pemBegin s with
  | None => None
  | Some s1 =>
      let '(line, s2) := cutLine s1 in
      match stripSuffix pemEol line with
      | None => None
      | Some ty =>
          match cutAt (nl :: pemEnd) s2 with
          | None => None
          | Some (body, s3) =>
              match stripPrefix (ty ++ pemEol) s3 with
              | None => None
              | Some s4 =>
                  if match fst (cutLine s4) with [] => true | _ => false end
                  then b64dec (filter (fun c => negb (c =? nl)) body)
                  else None
              end
          end
      end
  end.

(** ** Keys (ed25519 of Go: a private key is the seed and the public key) *)
Definition publicKeySize : N := 32.
Definition privateKeySize : N := 64.
Record keys := { kPublic : bytes; kPrivate : bytes }.
Definition publicHalf (priv : bytes) : bytes := firstn 32 (skipn 32 priv).

Inductive idResult := IdOk (k : keys) | IdErr | IdPanic.

(** 80-92, 114-125 *)
Definition newIdentityFromPrivateKey (priv : bytes) : idResult :=
  if negb (len priv =? privateKeySize) then IdErr
  else IdOk {| kPublic := publicHalf priv; kPrivate := priv |}.
Definition newRemoteIdentityFromPublicKey (pub : bytes) : idResult :=
  if negb (len pub =? publicKeySize) then IdErr
  else IdOk {| kPublic := pub; kPrivate := [] |}.

(** 188-214: the content of a key file, [None]: it cannot be read. The block is
    dereferenced without a check. *)
Definition loadKey (size : N) (file : option bytes) : outcome (option bytes) :=
  match file with
  | None => Ret None
  | Some content =>
      match pemDecode content with
      | None => Panic
      | Some b => if negb (len b =? size) then Ret None else Ret (Some b)
      end
  end.

(** 100-107 *)
Definition newRemoteIdentity (file : option bytes) : idResult :=
  match loadKey publicKeySize file with
  | Panic => IdPanic
  | Ret None => IdErr
  | Ret (Some b) => IdOk {| kPublic := b; kPrivate := [] |}
  end.

(** ** The directory *)
Record fs := { f_dir : bool; f_priv : option bytes; f_pub : option bytes }.

(** What the operating system lets fail; a failing write has written [n] bytes. *)
Inductive iop := OMkdir | OStatPriv | OReadPriv | OStatPub | OOpenPriv | OWritePriv | OOpenPub | OWritePub.
Definition faults := iop -> option nat.
Definition noFaults : faults := fun _ => None.

Definition privType : bytes := txt "ED25519 PRIVATE KEY".
Definition pubType : bytes := txt "ED25519 PUBLIC KEY".

(** The first [n] bytes of [new] written over [old]. *)
Definition overwrite (old : option bytes) (new : bytes) (n : nat) : bytes :=
  firstn n new ++ skipn (length (firstn n new)) (match old with Some o => o | None => [] end).

(** All states while [new] is written, from the empty or old file on. *)
Definition writeTrace (old : option bytes) (new : bytes) (upTo : nat) : list bytes :=
  map (overwrite old new) (seq 0 (S upTo)).

Definition withPriv (s : fs) (c : bytes) : fs := {| f_dir := f_dir s; f_priv := Some c; f_pub := f_pub s |}.
Definition withPub (s : fs) (c : bytes) : fs := {| f_dir := f_dir s; f_priv := f_priv s; f_pub := Some c |}.

(** saveKeyToPemFile, 145-163: the states in between, and the final one with the
    answer. *)
Definition savePub (flt : faults) (s : fs) (pub : bytes) : list fs * (fs * bool) :=
  match flt OOpenPub with
  | Some _ => ([], (s, false))
  | None =>
      let new := pemEncode pubType pub in
      match flt OWritePub with
      | Some n => (map (withPub s) (writeTrace (f_pub s) new n), (withPub s (overwrite (f_pub s) new n), false))
      | None => (map (withPub s) (writeTrace (f_pub s) new (length new)), (withPub s (overwrite (f_pub s) new (length new)), true))
      end
  end.
Definition savePriv (flt : faults) (s : fs) (priv : bytes) : list fs * (fs * bool) :=
  match flt OOpenPriv with
  | Some _ => ([], (s, false))
  | None =>
      let new := pemEncode privType priv in
      match flt OWritePriv with
      | Some n => (map (withPriv s) (writeTrace (f_priv s) new n), (withPriv s (overwrite (f_priv s) new n), false))
      | None => (map (withPriv s) (writeTrace (f_priv s) new (length new)), (withPriv s (overwrite (f_priv s) new (length new)), true))
      end
  end.

(** NewIdentity: 70-73, 172-186, 216-243. [gen] is the private key that
    ed25519.GenerateKey would return. Result: the states of the directory at
    which the process may die, the last state, the answer. (On an error the
    returned identity is not nil; nothing is known about it.) *)
Definition newIdentity (flt : faults) (gen : bytes) (s : fs) : list fs * (fs * idResult) :=
  match flt OMkdir with
  | Some _ => ([], (s, IdErr))
  | None =>
      let s0 := {| f_dir := true; f_priv := f_priv s; f_pub := f_pub s |} in
      let privMissing := match f_priv s0, flt OStatPriv with None, None => true | _, _ => false end in
      if privMissing then
        let '(t1, (s1, ok1)) := savePriv flt s0 gen in
        if ok1 then
          let '(t2, (s2, ok2)) := savePub flt s1 (publicHalf gen) in
          (s0 :: t1 ++ t2, (s2, if ok2 then IdOk {| kPublic := publicHalf gen; kPrivate := gen |} else IdErr))
        else (s0 :: t1, (s1, IdErr))
      else
        let file := match flt OReadPriv with Some _ => None | None => f_priv s0 end in
        match loadKey privateKeySize file with
        | Panic => ([s0], (s0, IdPanic))
        | Ret None => ([s0], (s0, IdErr))
        | Ret (Some priv) =>
            let k := {| kPublic := publicHalf priv; kPrivate := priv |} in
            let pubMissing := match f_pub s0, flt OStatPub with None, None => true | _, _ => false end in
            if pubMissing then
              let '(t, (s1, ok)) := savePub flt s0 (publicHalf priv) in
              (s0 :: t, (s1, if ok then IdOk k else IdErr))
            else ([s0], (s0, IdOk k))
        end
  end.
