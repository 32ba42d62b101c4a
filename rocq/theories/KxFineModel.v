(** The key exchanger with [updateSecrets] taken apart: key_exchanger.go
    322-341, called from [Handle] (465) and [updateLocalKey] (592).

    KxModel.v does all of [updateSecrets] and [setSecrets] at once.  In the code
    each of the four secrets is computed from keys read in a critical section of
    [keyLocker] of its own (265-283), and the secrets are then handed to the
    session under [sess.lock] (session.go 2125-2165).  [Handle] and the loop do
    this holding [kx.locker]; a goroutine that answers calls [updateLocalKey]
    without it (715).

    Everything else is as in KxModel.v, whose record is used for what is shared
    and for how far the goroutines are.  Simplification: of [Handle], all before
    [updateSecrets] is one step and all after it is one step (only [Handle]
    writes the remote identity, the remote session ID and the remote keys, and
    only it reads the first two). *)
From Coq Require Import NArith List Bool.
From Verif Require Import Base TS MessageModel KxModel.
Import ListNotations.
Local Open Scope N_scope.

(** The secrets computed so far by a goroutine that is inside
    [updateSecrets]. *)
Definition partSecrets := list (option bytes).

Record fxs := {
  fX : kxs;
  (** [Handle] is past [setNextRemotePublicKey]; second: [None] after
      [updateSecrets]. *)
  fHandle : option (kxMsg * option partSecrets);
  (** The loop has installed a key; [xLoop] is where it goes on afterwards. *)
  fLoop : option partSecrets;
  (** The same for the goroutines that answer. *)
  fAns : nat -> option partSecrets
}.
Definition fxsInit (remote : option bytes) : fxs :=
  {| fX := kxsInit remote; fHandle := None; fLoop := None; fAns := fun _ => None |}.

Inductive flabel :=
| FStep (l : klabel)        (* as in KxModel.v; the three that update: up to [updateSecrets] *)
| FHandleUpd                (* the next step of [updateSecrets] *)
| FHandleEnd                (* 470-484 *)
| FLoopUpd
| FAnswerUpd (i : nat).

Definition isNone {A} (o : option A) : bool := match o with None => true | Some _ => false end.

Section Fine.
  Variable verify : bytes -> bytes -> bytes -> bool.
  Variable dh : bytes -> bytes -> bytes.
  Variable blake3 : bytes -> bytes.
  Variable sha3 : bytes -> bytes.
  Variable c : kxConf.

  (** key_exchanger.go 433-463: [inl]: [Handle] ends here. *)
  Definition beginHandle (s : kx) (b : bytes) : kx * (handled + kxMsg) :=
    let '(s, r) := parseAndCheck verify c s b in
    match r with
    | inl e => (s, inl (HErr e))
    | inr m =>
        if kCtxDone s then (s, inl (HErr KxAlreadyClosed))
        else
          match (match kRemoteIdentity s with
                 | Some _ => Some s
                 | None => setRemoteIdentityFromPublicKey verify s b (kIdentity m)
                 end) with
          | None => (s, inl HIgnored)
          | Some s =>
              let s := match kRemoteSession s with
                       | Some _ => s
                       | None => setRemote s (kRemoteIdentity s) (Some (kSess m))
                       end in
              (setNextRemotePublicKey s (kPub m), inr m)
          end
    end.

  (** key_exchanger.go 470-484. *)
  Definition endHandle (s : kx) (m : kxMsg) : kx * handled :=
    (if kxIsAnswer (kFlags m) || negb (cMode c =? AnswersModeAnswerAndWait) then sendSuccessNotifications s else s,
     HDone (negb (kxIsAnswer (kFlags m)) && negb (cMode c =? AnswersModeDisable))).

  (** key_exchanger.go 572-590: [updateLocalKey] up to [updateSecrets]. *)
  Definition beginInstall (s : kx) (priv pub : bytes) (now : N) : kx :=
    let at_ := u64 now in
    let at_ := if at_ <=? kLocalAt s then u64 (kLocalAt s + 1) else at_ in
    setLocalKeys s (kNextLocal s) (Some priv) (Some pub) at_.

  (** key_exchanger.go 325-340: one secret more, or the end. *)
  Definition updStep (s : kx) (acc : partSecrets) : outcome (kx * option partSecrets) :=
    if Nat.ltb (length acc) 4 then
      let '(l, r) := secretParts s (N.of_nat (length acc)) in
      match generateSharedKey dh blake3 sha3 (cPSK c) l r with
      | Panic => Panic
      | Ret k => Ret (s, Some (acc ++ [k]))
      end
    else
      match acc with
      | Some (_ :: _) :: _ =>
          match cipherKeysOf acc with Panic => Panic | Ret ks => Ret (setKeys s ks, None) end
      | _ => Ret (s, None)
      end.

  (** [kx.locker] is held. *)
  Definition flocked (s : fxs) : bool := locked (fX s) || negb (isNone (fHandle s)) || negb (isNone (fLoop s)).

  Definition setFx (s : fxs) (x : kxs) : fxs :=
    {| fX := x; fHandle := fHandle s; fLoop := fLoop s; fAns := fAns s |}.
  Definition setFHandle (s : fxs) (h : option (kxMsg * option partSecrets)) : fxs :=
    {| fX := fX s; fHandle := h; fLoop := fLoop s; fAns := fAns s |}.
  Definition setFLoop (s : fxs) (a : option partSecrets) : fxs :=
    {| fX := fX s; fHandle := fHandle s; fLoop := a; fAns := fAns s |}.
  Definition setFAns (s : fxs) (i : nat) (a : option partSecrets) : fxs :=
    {| fX := fX s; fHandle := fHandle s; fLoop := fLoop s; fAns := fupd (fAns s) i a |}.

  Definition quiet (s : fxs) (l : klabel) : option fxs :=
    match kstep verify dh blake3 sha3 c (fX s) l with Some x => Some (setFx s x) | None => None end.

  Definition fstep (s : fxs) (l : flabel) : option fxs :=
    if xPanic (fX s) then None
    else
    match l with
    | FStep (KHandle b) =>
        if flocked s then None
        else
          let '(k, r) := beginHandle (xKx (fX s)) b in
          let s := setFx s (setX (fX s) k) in
          Some (match r with inl _ => s | inr m => setFHandle s (Some (m, Some [])) end)
    | FHandleUpd =>
        match fHandle s with
        | Some (m, Some acc) =>
            match updStep (xKx (fX s)) acc with
            | Panic => Some (setFx s (crash (fX s)))
            | Ret (k, acc) => Some (setFHandle (setFx s (setX (fX s) k)) (Some (m, acc)))
            end
        | _ => None
        end
    | FHandleEnd =>
        match fHandle s with
        | Some (m, None) =>
            let '(k, h) := endHandle (xKx (fX s)) m in
            let x := setX (fX s) k in
            Some (setFHandle (setFx s (match h with HDone true => addAnswer x | _ => x end)) None)
        | _ => None
        end
    | FStep (KLoopGen priv pub now) =>
        match xLoop (fX s), fLoop s with
        | LpGen, None =>
            let k := beginInstall (xKx (fX s)) priv pub now in
            let x := addLog (setX (fX s) k) (kNextAt k) in
            Some (setFLoop (setFx s (setLoop x (if kNextAt k =? 0 then LpIdle else LpSend (kNextAt k)))) (Some []))
        | _, _ => None
        end
    | FLoopUpd =>
        match fLoop s with
        | Some acc =>
            match updStep (xKx (fX s)) acc with
            | Panic => Some (setFx s (crash (fX s)))
            | Ret (k, acc) => Some (setFLoop (setFx s (setX (fX s) k)) acc)
            end
        | None => None
        end
    | FStep (KAnswerGen i priv pub now) =>
        match nth_error (xAnswers (fX s)) i, fAns s i with
        | Some ApGen, None =>
            let k := beginInstall (xKx (fX s)) priv pub now in
            let x := addLog (setX (fX s) k) (kNextAt k) in
            Some (setFAns (setFx s (setAnswer x i ApSkip)) i (Some []))
        | _, _ => None
        end
    | FAnswerUpd i =>
        match fAns s i with
        | Some acc =>
            match updStep (xKx (fX s)) acc with
            | Panic => Some (setFx s (crash (fX s)))
            | Ret (k, acc) => Some (setFAns (setFx s (setX (fX s) k)) i acc)
            end
        | None => None
        end
    | FStep KLoopCheck => if isNone (fHandle s) && isNone (fLoop s) then quiet s KLoopCheck else None
    | FStep (KAnswer i now) => if isNone (fAns s i) then quiet s (KAnswer i now) else None
    | FStep KCancel => quiet s KCancel
    | FStep l => if isNone (fLoop s) then quiet s l else None    (* the other steps of the loop *)
    end.
End Fine.

(** Nobody is inside [updateSecrets], or handling a message. *)
Definition settled (s : fxs) : Prop := fHandle s = None /\ fLoop s = None /\ forall i, fAns s i = None.
