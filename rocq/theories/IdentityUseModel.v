(** What a session does with the identities it is given: identity.go 349-361
    ([VerifySignature], [Sign]), key_exchanger.go 343-359 ([parseAndCheck] up to the
    signature), 385-409 ([setRemoteIdentityFromPublicKey]), 704-748 ([sendPublicKey],
    [send] up to the signature), and what [NewIdentity] (identity.go 70-73) returns
    together with an error.

    An identity is a pointer: [None] is nil. Go's [ed25519.Sign] and
    [ed25519.Verify] panic if the private, respectively the public key has a wrong
    length; otherwise they are oracles. *)
From Coq Require Import NArith List Bool.
From Verif Require Import Base IdentityModel.
Import ListNotations.
Open Scope N_scope.

Definition signatureSize : N := 64.

Section Oracles.
  Variable edSign : bytes -> bytes -> bytes.          (* private key, data *)
  Variable edVerify : bytes -> bytes -> bytes -> bool. (* public key, data, signature *)
  (** [keySeedUpdateMessageSignedSize]; key_exchanger.go. *)
  Variable signedSize : N.

  (** identity.go 357-361. *)
  Definition idSign (k : keys) (data : bytes) : outcome bytes :=
    if len (kPrivate k) =? privateKeySize then Ret (edSign (kPrivate k) data) else Panic.
  (** identity.go 349-355: [true] means no error. *)
  Definition idVerify (k : keys) (signature data : bytes) : outcome bool :=
    if len (kPublic k) =? publicKeySize then Ret (edVerify (kPublic k) data signature) else Panic.

  (** key_exchanger.go 713-738: the own exchange message, which every started
      session sends; [body] is its content after the identity's public key was put
      into it. *)
  Definition ownMessage (local : option keys) (body : bytes -> bytes) : outcome bytes :=
    match local with
    | None => Panic
    | Some k =>
        match idSign k (body (kPublic k)) with
        | Panic => Panic
        | Ret sg => Ret (sg ++ body (kPublic k))
        end
    end.

  Inductive judged := JTooShort | JBadSignature | JSigned.

  (** key_exchanger.go 343-359 and, for an unknown peer, 385-402: is the message
      signed by the remote identity? [announced] picks the public key out of it. *)
  Definition judge (remote : option keys) (announced : bytes -> bytes) (b : bytes) : outcome judged :=
    if len b <? signedSize then Ret JTooShort
    else
      let sg := firstn (N.to_nat signatureSize) b in
      let body := skipn (N.to_nat signatureSize) (firstn (N.to_nat signedSize) b) in
      let decide k := match idVerify k sg body with
                      | Panic => Panic
                      | Ret true => Ret JSigned
                      | Ret false => Ret JBadSignature
                      end in
      match remote with
      | Some k => decide k
      | None =>
          match newRemoteIdentityFromPublicKey (announced body) with
          | IdOk k => decide k
          | _ => Ret JBadSignature
          end
      end.
End Oracles.

(** identity.go 70-73: [return i, i.prepareKeys(keysDir)] gives the identity with
    an error, too; this is its content after [newIdentity]. *)
Definition noKeys : keys := {| kPublic := []; kPrivate := [] |}.
Definition keptKeys (flt : faults) (gen : bytes) (s : fs) : keys :=
  match flt OMkdir with
  | Some _ => noKeys
  | None =>
      match f_priv s, flt OStatPriv with
      | None, None => {| kPublic := publicHalf gen; kPrivate := gen |}
      | _, _ =>
          match loadKey privateKeySize (match flt OReadPriv with Some _ => None | None => f_priv s end) with
          | Ret (Some priv) => {| kPublic := publicHalf priv; kPrivate := priv |}
          | _ => noKeys
          end
      end
  end.
