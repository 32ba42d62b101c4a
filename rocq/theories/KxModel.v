(** The key exchanger: key_exchanger.go 196-749, with hash.go and
    session.go 2063-2165.

    The primitives (Ed25519 verification, X25519, Blake3, SHA3) are oracles.
    Simplifications:
    - pointers to keys are option values;
    - one step of the machine at the end is one critical section or one access
      to shared memory; [updateSecrets] together with [setSecrets] is one step
      (the code takes the lock once per secret);
    - debug output is dropped. *)
From Coq Require Import NArith List Bool Ascii String.
From Verif Require Import Base MessageModel.
Import ListNotations.
Local Open Scope N_scope.

Definition ascii_bytes (s : string) : bytes := map N_of_ascii (list_ascii_of_string s).

(** key_exchanger.go 54-56, 309. *)
Definition Salt : bytes := ascii_bytes "xaionaro-go/secureio.KeyExchanger".
Definition purpose : bytes := ascii_bytes "cipherKey".

(** key_exchanger.go 174-195. *)
Definition AnswersModeAnswerAndWait : N := 1.
Definition AnswersModeAnswer : N := 2.
Definition AnswersModeDisable : N := 3.

Inductive kxErr :=
| KxTooShort (want got : N)
| KxWrongSignature
| KxModeMismatch (want got : N)
| KxInvalidPublicKey
| KxAlreadyClosed
| KxTimeout.

(** key_exchanger.go 85-116. [kKeys] is [sess.cipherKeys], [kErrs] what was
    given to [errFunc] (which closes the session), [kDone] the number of
    [doneFunc] calls; [kNotify] is [successNotifyChan] (room for one). *)
Record kx := {
  kRemoteIdentity : option bytes;
  kRemoteSession : option sessID;
  kPrevRemote : option bytes;
  kNextRemote : option bytes;
  kPrevLocal : option bytes;
  kNextLocal : option bytes;
  kNextLocalPub : option bytes;
  kLocalAt : N;
  kNextAt : N;
  kNotify : option N;
  kSkipUntil : N;
  kCtxDone : bool;
  kKeys : list (option bytes);
  kErrs : list kxErr;
  kDone : N
}.

(** What does not change: options and the local side. *)
Record kxConf := {
  cPSK : option bytes;
  cMode : N;
  cIdentity : bytes;     (* the local public key *)
  cSession : sessID;
  cInterval : N          (* KeyUpdateInterval *)
}.

(** key_exchanger.go 196-240. *)
Definition newKx (remote : option bytes) : kx :=
  {| kRemoteIdentity := remote; kRemoteSession := None; kPrevRemote := None; kNextRemote := None;
     kPrevLocal := None; kNextLocal := None; kNextLocalPub := None; kLocalAt := 0; kNextAt := 0;
     kNotify := None; kSkipUntil := 0; kCtxDone := false; kKeys := []; kErrs := []; kDone := 0 |}.

(** Field updates. *)
Definition setRemote (s : kx) (id : option bytes) (sess : option sessID) : kx :=
  {| kRemoteIdentity := id; kRemoteSession := sess; kPrevRemote := kPrevRemote s; kNextRemote := kNextRemote s;
     kPrevLocal := kPrevLocal s; kNextLocal := kNextLocal s; kNextLocalPub := kNextLocalPub s;
     kLocalAt := kLocalAt s; kNextAt := kNextAt s; kNotify := kNotify s; kSkipUntil := kSkipUntil s;
     kCtxDone := kCtxDone s; kKeys := kKeys s; kErrs := kErrs s; kDone := kDone s |}.
Definition setRemoteKeys (s : kx) (prev next : option bytes) : kx :=
  {| kRemoteIdentity := kRemoteIdentity s; kRemoteSession := kRemoteSession s; kPrevRemote := prev; kNextRemote := next;
     kPrevLocal := kPrevLocal s; kNextLocal := kNextLocal s; kNextLocalPub := kNextLocalPub s;
     kLocalAt := kLocalAt s; kNextAt := kNextAt s; kNotify := kNotify s; kSkipUntil := kSkipUntil s;
     kCtxDone := kCtxDone s; kKeys := kKeys s; kErrs := kErrs s; kDone := kDone s |}.
Definition setLocalKeys (s : kx) (prev next pub : option bytes) (at_ : N) : kx :=
  {| kRemoteIdentity := kRemoteIdentity s; kRemoteSession := kRemoteSession s; kPrevRemote := kPrevRemote s;
     kNextRemote := kNextRemote s; kPrevLocal := prev; kNextLocal := next; kNextLocalPub := pub;
     kLocalAt := kLocalAt s; kNextAt := at_; kNotify := kNotify s; kSkipUntil := kSkipUntil s;
     kCtxDone := kCtxDone s; kKeys := kKeys s; kErrs := kErrs s; kDone := kDone s |}.
Definition setKeys (s : kx) (keys : list (option bytes)) : kx :=
  {| kRemoteIdentity := kRemoteIdentity s; kRemoteSession := kRemoteSession s; kPrevRemote := kPrevRemote s;
     kNextRemote := kNextRemote s; kPrevLocal := kPrevLocal s; kNextLocal := kNextLocal s;
     kNextLocalPub := kNextLocalPub s; kLocalAt := kLocalAt s; kNextAt := kNextAt s; kNotify := kNotify s;
     kSkipUntil := kSkipUntil s; kCtxDone := kCtxDone s; kKeys := keys; kErrs := kErrs s; kDone := kDone s |}.
Definition setNotify (s : kx) (n : option N) : kx :=
  {| kRemoteIdentity := kRemoteIdentity s; kRemoteSession := kRemoteSession s; kPrevRemote := kPrevRemote s;
     kNextRemote := kNextRemote s; kPrevLocal := kPrevLocal s; kNextLocal := kNextLocal s;
     kNextLocalPub := kNextLocalPub s; kLocalAt := kLocalAt s; kNextAt := kNextAt s; kNotify := n;
     kSkipUntil := kSkipUntil s; kCtxDone := kCtxDone s; kKeys := kKeys s; kErrs := kErrs s; kDone := kDone s |}.
Definition setSkip (s : kx) (t : N) : kx :=
  {| kRemoteIdentity := kRemoteIdentity s; kRemoteSession := kRemoteSession s; kPrevRemote := kPrevRemote s;
     kNextRemote := kNextRemote s; kPrevLocal := kPrevLocal s; kNextLocal := kNextLocal s;
     kNextLocalPub := kNextLocalPub s; kLocalAt := kLocalAt s; kNextAt := kNextAt s; kNotify := kNotify s;
     kSkipUntil := t; kCtxDone := kCtxDone s; kKeys := kKeys s; kErrs := kErrs s; kDone := kDone s |}.
Definition setCtx (s : kx) : kx :=
  {| kRemoteIdentity := kRemoteIdentity s; kRemoteSession := kRemoteSession s; kPrevRemote := kPrevRemote s;
     kNextRemote := kNextRemote s; kPrevLocal := kPrevLocal s; kNextLocal := kNextLocal s;
     kNextLocalPub := kNextLocalPub s; kLocalAt := kLocalAt s; kNextAt := kNextAt s; kNotify := kNotify s;
     kSkipUntil := kSkipUntil s; kCtxDone := true; kKeys := kKeys s; kErrs := kErrs s; kDone := kDone s |}.
Definition addErr (s : kx) (e : kxErr) : kx :=
  {| kRemoteIdentity := kRemoteIdentity s; kRemoteSession := kRemoteSession s; kPrevRemote := kPrevRemote s;
     kNextRemote := kNextRemote s; kPrevLocal := kPrevLocal s; kNextLocal := kNextLocal s;
     kNextLocalPub := kNextLocalPub s; kLocalAt := kLocalAt s; kNextAt := kNextAt s; kNotify := kNotify s;
     kSkipUntil := kSkipUntil s; kCtxDone := kCtxDone s; kKeys := kKeys s; kErrs := e :: kErrs s; kDone := kDone s |}.
Definition confirmed (s : kx) (notify : option N) : kx :=
  {| kRemoteIdentity := kRemoteIdentity s; kRemoteSession := kRemoteSession s; kPrevRemote := kPrevRemote s;
     kNextRemote := kNextRemote s; kPrevLocal := kPrevLocal s; kNextLocal := kNextLocal s;
     kNextLocalPub := kNextLocalPub s; kLocalAt := kNextAt s; kNextAt := kNextAt s; kNotify := notify;
     kSkipUntil := kSkipUntil s; kCtxDone := kCtxDone s; kKeys := kKeys s; kErrs := kErrs s; kDone := kDone s + 1 |}.

Section Kx.
  Variable verify : bytes -> bytes -> bytes -> bool.   (* public key, signature, message *)
  Variable dh : bytes -> bytes -> bytes.               (* X25519: private key, public key *)
  Variable blake3 : bytes -> bytes.
  Variable sha3 : bytes -> bytes.

  (** hash.go 11-28. *)
  Definition hash (input : bytes) (salts : list bytes) : bytes :=
    let preHash := blake3 (input ++ List.concat salts) in
    sha3 (preHash ++ List.concat salts).

  (** key_exchanger.go 309-312: [key[i] ^= pskXORer[i]] for every index of the
      second; an index out of range panics. *)
  Fixpoint xorInto (key mask : bytes) : outcome bytes :=
    match mask, key with
    | [], _ => Ret key
    | _ :: _, [] => Panic
    | m :: mask', k :: key' =>
        match xorInto key' mask' with Panic => Panic | Ret r => Ret (N.lxor k m :: r) end
    end.

  Definition zeroKey : bytes := repeat 0 32.

  (** key_exchanger.go 293-317; [Ret None]: one of the keys is missing. *)
  Definition generateSharedKey (psk : option bytes) (priv pub : option bytes) : outcome (option bytes) :=
    match priv, pub with
    | None, _ | _, None => Ret None
    | Some l, Some r =>
        let key := dh l r in
        if bytes_eqb key zeroKey then Panic
        else
          match psk with
          | None => Ret (Some key)
          | Some p =>
              match xorInto key (hash p [Salt; purpose]) with
              | Panic => Panic
              | Ret k => Ret (Some k)
              end
          end
    end.

  (** key_exchanger.go 259-291: which keys secret [i] is made of. *)
  Definition secretParts (s : kx) (i : N) : option bytes * option bytes :=
    if i =? 0 then (kNextLocal s, kNextRemote s)
    else if i =? 1 then (kNextLocal s, kPrevRemote s)
    else if i =? 2 then (kPrevLocal s, kNextRemote s)
    else (kPrevLocal s, kPrevRemote s).

  Fixpoint generateAll (psk : option bytes) (parts : list (option bytes * option bytes)) : outcome (list (option bytes)) :=
    match parts with
    | [] => Ret []
    | (l, r) :: rest =>
        match generateSharedKey psk l r with
        | Panic => Panic
        | Ret k => match generateAll psk rest with Panic => Panic | Ret ks => Ret (k :: ks) end
        end
    end.

  (** session.go 2125-2165: the first 32 bytes of every secret. *)
  Fixpoint cipherKeysOf (secrets : list (option bytes)) : outcome (list (option bytes)) :=
    match secrets with
    | [] => Ret []
    | x :: rest =>
        match (match x with
               | None => Ret None
               | Some b => match gslice b 0 32 with None => Panic | Some k => Ret (Some k) end
               end), cipherKeysOf rest with
        | Ret k, Ret ks => Ret (k :: ks)
        | _, _ => Panic
        end
    end.

  (** key_exchanger.go 322-341 with session.go 2074-2082. *)
  Definition updateSecrets (c : kxConf) (s : kx) : outcome kx :=
    match generateAll (cPSK c) (map (secretParts s) [0; 1; 2; 3]) with
    | Panic => Panic
    | Ret secrets =>
        match secrets with
        | Some (_ :: _) :: _ =>
            match cipherKeysOf secrets with Panic => Panic | Ret ks => Ret (setKeys s ks) end
        | _ => Ret s
        end
    end.

  (** key_exchanger.go 343-380. The error goes to the caller; errors that also
      go to [errFunc] are added to [kErrs]. *)
  Definition parseAndCheck (c : kxConf) (s : kx) (b : bytes) : kx * (kxErr + kxMsg) :=
    if len b <? kxSignedSize then (s, inl (KxTooShort kxSignedSize (len b)))
    else
      let signature := firstn 64 b in
      let msgBytes := firstn 82 (skipn 64 b) in
      let checked := match kRemoteIdentity s with Some id => verify id signature msgBytes | None => true end in
      if negb checked then (s, inl KxWrongSignature)
      else
        match kxDecode msgBytes with
        | None => (s, inl (KxTooShort kxMsgSize (len msgBytes)))
        | Some m =>
            if negb (kMode m =? cMode c)
            then (addErr s (KxModeMismatch (cMode c) (kMode m)), inl (KxModeMismatch (cMode c) (kMode m)))
            else if bytes_eqb (kPub m) zeroKey
            then (addErr s KxInvalidPublicKey, inl KxInvalidPublicKey)
            else (s, inr m)
        end.

  (** key_exchanger.go 382-408; the key has 32 bytes, so the constructor does
      not fail, and the length was checked before. *)
  Definition setRemoteIdentityFromPublicKey (s : kx) (b pub : bytes) : option kx :=
    if verify pub (firstn 64 b) (firstn 82 (skipn 64 b)) then Some (setRemote s (Some pub) (kRemoteSession s)) else None.

  (** key_exchanger.go 416-431. *)
  Definition setNextRemotePublicKey (s : kx) (pub : bytes) : kx :=
    if match kNextRemote s with Some k => bytes_eqb k pub | None => false end then s
    else setRemoteKeys s (kNextRemote s) (Some pub).

  (** key_exchanger.go 490-523: the notification is dropped if there is one
      already. *)
  Definition sendSuccessNotifications (s : kx) : kx :=
    confirmed s (match kNotify s with None => Some (kNextAt s) | Some n => Some n end).

  (** What [Handle] leaves to be done by a new goroutine. *)
  Inductive handled := HErr (e : kxErr) | HIgnored | HDone (answer : bool).

  (** key_exchanger.go 433-488. *)
  Definition handleKx (c : kxConf) (s : kx) (b : bytes) : outcome (kx * handled) :=
    let '(s, r) := parseAndCheck c s b in
    match r with
    | inl e => Ret (s, HErr e)
    | inr m =>
        if kCtxDone s then Ret (s, HErr KxAlreadyClosed)
        else
          match (match kRemoteIdentity s with
                 | Some _ => Some s
                 | None => setRemoteIdentityFromPublicKey s b (kIdentity m)
                 end) with
          | None => Ret (s, HIgnored)
          | Some s =>
              let s := match kRemoteSession s with
                       | Some _ => s
                       | None => setRemote s (kRemoteIdentity s) (Some (kSess m))
                       end in
              let s := setNextRemotePublicKey s (kPub m) in
              match updateSecrets c s with
              | Panic => Panic
              | Ret s =>
                  let s := if kxIsAnswer (kFlags m) || negb (cMode c =? AnswersModeAnswerAndWait)
                           then sendSuccessNotifications s else s in
                  Ret (s, HDone (negb (kxIsAnswer (kFlags m)) && negb (cMode c =? AnswersModeDisable)))
              end
          end
    end.

  (** key_exchanger.go 561-570. *)
  Definition inProgress (s : kx) : bool := kLocalAt s <? kNextAt s.

  (** key_exchanger.go 572-598: a new pair and the clock (nanoseconds, as
      uint64) are given. *)
  Definition installLocalKey (c : kxConf) (s : kx) (priv pub : bytes) (now : N) : outcome kx :=
    let at_ := u64 now in
    let at_ := if at_ <=? kLocalAt s then u64 (kLocalAt s + 1) else at_ in
    updateSecrets c (setLocalKeys s (kNextLocal s) (Some priv) (Some pub) at_).

  (** key_exchanger.go 719-728: what is signed and sent; a missing key is a nil
      pointer. *)
  Definition publicKeyMessage (c : kxConf) (s : kx) (isAnswer : bool) : outcome kxMsg :=
    match kNextLocalPub s with
    | None => Panic
    | Some pub => Ret {| kSess := cSession c; kIdentity := cIdentity c; kPub := pub; kMode := cMode c;
                         kFlags := kxSetIsAnswer 0 isAnswer |}
    end.

  (** ** The exchanger of one session as a machine *)

  (** [loop] and [KeyUpdateSendWait], key_exchanger.go 545-559, 625-703. *)
  Inductive loopPc :=
  | LpIdle                   (* waiting for the first call or the ticker *)
  | LpGo                     (* 628-637 passed *)
  | LpGen                    (* inside [updateLocalKey], 571; holds [kx.locker] *)
  | LpSend (at_ : N)         (* 645 *)
  | LpWait (at_ : N).        (* 648 *)

  (** A goroutine started by [Handle] (477-483) running [sendPublicKey(true)]. *)
  Inductive answerPc :=
  | ApNew        (* 714 *)
  | ApCheck      (* 715, 561 *)
  | ApGen        (* 571 *)
  | ApSkip       (* 716 *)
  | ApSend       (* 719 *)
  | ApDone.

  Record kxs := {
    xKx : kx;
    xLoop : loopPc;
    xAnswers : list answerPc;
    xSent : list kxMsg;       (* newest first *)
    xLog : list N;            (* creation stamps of the installed keys, newest first *)
    xPanic : bool
  }.
  Definition kxsInit (remote : option bytes) : kxs :=
    {| xKx := newKx remote; xLoop := LpIdle; xAnswers := []; xSent := []; xLog := []; xPanic := false |}.

  Inductive klabel :=
  | KHandle (b : bytes)
  | KLoopGo (now : N)              (* 628-637; [now]: the clock *)
  | KLoopCheck                     (* 561-570 *)
  | KLoopGen (priv pub : bytes) (now : N)
  | KLoopSend
  | KLoopRetry
  | KLoopNotified
  | KLoopTimeout
  | KAnswer (i : nat) (now : N)      (* the next step of answer goroutine i, except the generation *)
  | KAnswerGen (i : nat) (priv pub : bytes) (now : N)
  | KCancel.                       (* the session is being closed *)

  Definition setX (s : kxs) (k : kx) : kxs :=
    {| xKx := k; xLoop := xLoop s; xAnswers := xAnswers s; xSent := xSent s; xLog := xLog s; xPanic := xPanic s |}.
  Definition setLoop (s : kxs) (p : loopPc) : kxs :=
    {| xKx := xKx s; xLoop := p; xAnswers := xAnswers s; xSent := xSent s; xLog := xLog s; xPanic := xPanic s |}.
  Definition setAnswer (s : kxs) (i : nat) (p : answerPc) : kxs :=
    {| xKx := xKx s; xLoop := xLoop s; xAnswers := firstn i (xAnswers s) ++ [p] ++ skipn (S i) (xAnswers s);
       xSent := xSent s; xLog := xLog s; xPanic := xPanic s |}.
  Definition addAnswer (s : kxs) : kxs :=
    {| xKx := xKx s; xLoop := xLoop s; xAnswers := xAnswers s ++ [ApNew]; xSent := xSent s; xLog := xLog s; xPanic := xPanic s |}.
  Definition addSent (s : kxs) (m : kxMsg) : kxs :=
    {| xKx := xKx s; xLoop := xLoop s; xAnswers := xAnswers s; xSent := m :: xSent s; xLog := xLog s; xPanic := xPanic s |}.
  Definition addLog (s : kxs) (at_ : N) : kxs :=
    {| xKx := xKx s; xLoop := xLoop s; xAnswers := xAnswers s; xSent := xSent s; xLog := at_ :: xLog s; xPanic := xPanic s |}.
  Definition crash (s : kxs) : kxs :=
    {| xKx := xKx s; xLoop := xLoop s; xAnswers := xAnswers s; xSent := xSent s; xLog := xLog s; xPanic := true |}.

  Definition locked (s : kxs) : bool := match xLoop s with LpGen => true | _ => false end.

  Definition sendMsg (c : kxConf) (s : kxs) (isAnswer : bool) : kxs :=
    match publicKeyMessage c (xKx s) isAnswer with Panic => crash s | Ret m => addSent s m end.

  Definition kstep (c : kxConf) (s : kxs) (l : klabel) : option kxs :=
    if xPanic s then None
    else
    match l with
    | KHandle b =>
        if locked s then None
        else
          match handleKx c (xKx s) b with
          | Panic => Some (crash s)
          | Ret (k, h) => let s := setX s k in Some (match h with HDone true => addAnswer s | _ => s end)
          end
    | KLoopGo now =>
        match xLoop s with
        | LpIdle =>
            if kCtxDone (xKx s) then None
            else if now <? kSkipUntil (xKx s) then Some s
            else Some (setLoop (setX s (setNotify (xKx s) None)) LpGo)
        | _ => None
        end
    | KLoopCheck =>
        match xLoop s with
        | LpGo => if inProgress (xKx s) then Some (setLoop s (LpSend (kNextAt (xKx s)))) else Some (setLoop s LpGen)
        | _ => None
        end
    | KLoopGen priv pub now =>
        match xLoop s with
        | LpGen =>
            match installLocalKey c (xKx s) priv pub now with
            | Panic => Some (crash s)
            | Ret k =>
                let s := addLog (setX s k) (kNextAt k) in
                Some (setLoop s (if kNextAt k =? 0 then LpIdle else LpSend (kNextAt k)))
            end
        | _ => None
        end
    | KLoopSend =>
        match xLoop s with LpSend a => Some (setLoop (sendMsg c s false) (LpWait a)) | _ => None end
    | KLoopRetry =>
        match xLoop s with
        | LpWait a =>
            match kNotify (xKx s) with
            | Some n =>
                let s := setX s (setNotify (xKx s) None) in
                Some (if a <=? n then setLoop s LpIdle else sendMsg c s false)
            | None => Some (sendMsg c s false)
            end
        | _ => None
        end
    | KLoopNotified =>
        match xLoop s, kNotify (xKx s) with
        | LpWait a, Some n =>
            let s := setX s (setNotify (xKx s) None) in
            Some (if a <=? n then setLoop s LpIdle else s)
        | _, _ => None
        end
    | KLoopTimeout =>
        match xLoop s with
        | LpWait a =>
            let s' := setX s (setNotify (xKx s) None) in
            Some (if match kNotify (xKx s) with Some n => a <=? n | None => false end then setLoop s' LpIdle
                  else setLoop (setX s' (setCtx (addErr (xKx s') KxTimeout))) LpIdle)
        | _ => None
        end
    | KAnswer i now =>
        match nth_error (xAnswers s) i with
        | Some ApNew => Some (setAnswer s i (match kNextLocalPub (xKx s) with None => ApCheck | Some _ => ApSend end))
        | Some ApCheck => Some (setAnswer s i (if inProgress (xKx s) then ApSkip else ApGen))
        | Some ApSkip => Some (setAnswer (setX s (setSkip (xKx s) (now + cInterval c))) i ApSend)
        | Some ApSend => Some (setAnswer (sendMsg c s true) i ApDone)
        | _ => None
        end
    | KAnswerGen i priv pub now =>
        match nth_error (xAnswers s) i with
        | Some ApGen =>
            match installLocalKey c (xKx s) priv pub now with
            | Panic => Some (crash s)
            | Ret k =>
                let s := addLog (setX s k) (kNextAt k) in
                Some (setAnswer s i ApSkip)
            end
        | _ => None
        end
    | KCancel => Some (setX s (setCtx (xKx s)))
    end.
End Kx.
