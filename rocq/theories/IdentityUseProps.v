(** Property C176: an identity that a constructor has returned can be given to a
    session without crashing the process. *)
From Coq Require Import NArith Arith List Bool Lia.
From Verif Require Import Base IdentityModel IdentityUseModel.
Import ListNotations.
Open Scope N_scope.

(** ** What is asked for: in the role of the local (remote) identity nothing panics,
    whatever the oracles, the messages and their sizes are. *)
Definition okLocal (k : keys) : Prop :=
  forall sg body, ownMessage sg (Some k) body <> Panic.
Definition okRemote (k : option keys) : Prop :=
  forall ver size ann b, judge ver size k ann b <> Panic.

Lemma okLocal_iff : forall k, okLocal k <-> len (kPrivate k) = 64.
Proof.
  intros k. unfold okLocal, ownMessage, idSign, privateKeySize. destruct (N.eqb_spec (len (kPrivate k)) 64) as [E|E].
  - split; auto. intros; discriminate.
  - split; [|contradiction]. intros H. exfalso. apply (H (fun _ _ => []) (fun _ => [])). reflexivity.
Qed.
Lemma okRemote_iff : forall k, okRemote (Some k) <-> len (kPublic k) = 32.
Proof.
  intros k. unfold okRemote, judge, idVerify, publicKeySize. destruct (N.eqb_spec (len (kPublic k)) 32) as [E|E].
  - split; auto. intros _ ver size ann b. destruct (len b <? size); [discriminate|]. destruct (ver _ _ _); discriminate.
  - split; [|contradiction]. intros H. exfalso. apply (H (fun _ _ _ => true) 0 (fun b => b) []). reflexivity.
Qed.

Lemma half_len : forall p, len p = 64 -> len (publicHalf p) = 32.
Proof.
  intros p H. unfold publicHalf, len in *. rewrite firstn_length, skipn_length. lia.
Qed.
Lemma loadKey_len : forall n f b, loadKey n f = Ret (Some b) -> len b = n.
Proof.
  intros n [c|] b; cbn [loadKey]; [|discriminate]. destruct (pemDecode c) as [x|]; [|discriminate].
  destruct (N.eqb_spec (len x) n); cbn [negb]; [|discriminate]. intros E. injection E as <-. auto.
Qed.

(** ** What does not hold *)
(** Every identity of a remote party crashes the session whose local identity it is,
    with its first own message: there is no key to sign with. So does nil. *)
Theorem C176_local_refuted :
  (forall pub k, newRemoteIdentityFromPublicKey pub = IdOk k -> forall sg body, ownMessage sg (Some k) body = Panic) /\
  (forall file k, newRemoteIdentity file = IdOk k -> forall sg body, ownMessage sg (Some k) body = Panic) /\
  (forall sg body, ownMessage sg None body = Panic) /\
  exists pub k, newRemoteIdentityFromPublicKey pub = IdOk k.
Proof.
  repeat split.
  - intros pub k. unfold newRemoteIdentityFromPublicKey. destruct (negb _); [discriminate|].
    intros E. injection E as <-. reflexivity.
  - intros file k. unfold newRemoteIdentity. destruct (loadKey publicKeySize file) as [[b|]|]; try discriminate.
    intros E. injection E as <-. reflexivity.
  - exists (repeat 7 32). eexists. vm_compute. reflexivity.
Qed.
Print Assumptions C176_local_refuted.

(** What [NewIdentity] returns beside an error may have no keys at all. As a remote
    identity it is worse than nil: the first message that is long enough, signed by
    nobody, crashes the process. *)
Theorem C176_remote_refuted : forall flt gen s, (exists n, flt OMkdir = Some n) ->
  snd (snd (newIdentity flt gen s)) = IdErr /\
  forall ver size ann b, size <= len b -> judge ver size (Some (keptKeys flt gen s)) ann b = Panic.
Proof.
  intros flt gen s (n & E). split.
  - unfold newIdentity. rewrite E. reflexivity.
  - intros ver size ann b H. unfold keptKeys, judge. rewrite E. destruct (N.ltb_spec (len b) size); [lia|]. reflexivity.
Qed.
Print Assumptions C176_remote_refuted.

(** ** What holds *)
(** Without an error every constructor gives an identity that is fine in the roles
    its documentation names. *)
Theorem C176_private_both : forall priv k, newIdentityFromPrivateKey priv = IdOk k -> okLocal k /\ okRemote (Some k).
Proof.
  intros priv k. unfold newIdentityFromPrivateKey. destruct (N.eqb_spec (len priv) privateKeySize) as [H|]; cbn [negb]; [|discriminate].
  intros E. injection E as <-. rewrite okLocal_iff, okRemote_iff. cbn [kPrivate kPublic]. split; [exact H|]. apply half_len, H.
Qed.
Print Assumptions C176_private_both.

Theorem C176_remote_constructors :
  (forall pub k, newRemoteIdentityFromPublicKey pub = IdOk k -> okRemote (Some k) /\ kPublic k = pub) /\
  (forall file k, newRemoteIdentity file = IdOk k -> okRemote (Some k)) /\
  okRemote None.
Proof.
  split; [|split].
  - intros pub k. unfold newRemoteIdentityFromPublicKey. destruct (N.eqb_spec (len pub) publicKeySize) as [H|]; cbn [negb]; [|discriminate].
    intros E. injection E as <-. split; [|reflexivity]. apply okRemote_iff. exact H.
  - intros file k. unfold newRemoteIdentity. destruct (loadKey publicKeySize file) as [[b|]|] eqn:L; try discriminate.
    intros E. injection E as <-. apply okRemote_iff. exact (loadKey_len _ _ _ L).
  - intros ver size ann b. unfold judge. destruct (len b <? size); [discriminate|].
    unfold newRemoteIdentityFromPublicKey. destruct (N.eqb_spec (len (ann (skipn (N.to_nat signatureSize) (firstn (N.to_nat size) b)))) publicKeySize) as [H|]; cbn [negb]; [|discriminate].
    unfold idVerify. cbn [kPublic]. rewrite H, N.eqb_refl. destruct (ver _ _ _); discriminate.
Qed.
Print Assumptions C176_remote_constructors.

(** [NewIdentity] without an error: whatever was in the directory and whatever
    failed; the generator gives keys of the right length. *)
Theorem C176_new_identity : forall flt gen s k, len gen = 64 -> snd (snd (newIdentity flt gen s)) = IdOk k ->
  k = keptKeys flt gen s /\ okLocal k /\ okRemote (Some k).
Proof.
  intros flt gen s k Hg E.
  assert (G : k = keptKeys flt gen s /\ len (kPrivate k) = 64 /\ kPublic k = publicHalf (kPrivate k)).
  { unfold newIdentity in E. unfold keptKeys. destruct (flt OMkdir); [discriminate|]. cbn [f_priv f_pub] in E.
    assert (Load : forall f, snd (snd (match loadKey privateKeySize f with
        | Panic => ([{| f_dir := true; f_priv := f_priv s; f_pub := f_pub s |}], ({| f_dir := true; f_priv := f_priv s; f_pub := f_pub s |}, IdPanic))
        | Ret None => ([{| f_dir := true; f_priv := f_priv s; f_pub := f_pub s |}], ({| f_dir := true; f_priv := f_priv s; f_pub := f_pub s |}, IdErr))
        | Ret (Some priv) =>
            let k := {| kPublic := publicHalf priv; kPrivate := priv |} in
            let pubMissing := match f_pub s, flt OStatPub with None, None => true | _, _ => false end in
            if pubMissing then
              let '(t, (s1, ok)) := savePub flt {| f_dir := true; f_priv := f_priv s; f_pub := f_pub s |} (publicHalf priv) in
              ({| f_dir := true; f_priv := f_priv s; f_pub := f_pub s |} :: t, (s1, if ok then IdOk k else IdErr))
            else ([{| f_dir := true; f_priv := f_priv s; f_pub := f_pub s |}], ({| f_dir := true; f_priv := f_priv s; f_pub := f_pub s |}, IdOk k))
        end)) = IdOk k ->
      k = (match loadKey privateKeySize f with Ret (Some priv) => {| kPublic := publicHalf priv; kPrivate := priv |} | _ => noKeys end)
      /\ len (kPrivate k) = 64 /\ kPublic k = publicHalf (kPrivate k)).
    { clear E. intros f E. destruct (loadKey privateKeySize f) as [[p|]|] eqn:L; try discriminate.
      pose proof (loadKey_len _ _ _ L) as Lp. cbv zeta in E.
      destruct (match f_pub s, flt OStatPub with None, None => true | _, _ => false end).
      - destruct (savePub flt _ (publicHalf p)) as [t [s1 []]]; cbn [snd] in E; [|discriminate].
        injection E as <-. auto.
      - cbn [snd] in E. injection E as <-. auto. }
    destruct (f_priv s) as [c|] eqn:Ep.
    - apply Load. exact E.
    - destruct (flt OStatPriv) eqn:Es. { apply Load. exact E. }
      cbv beta iota zeta in E. destruct (savePriv flt _ gen) as [t1 [s1 []]]; [|discriminate].
      destruct (savePub flt s1 (publicHalf gen)) as [t2 [s2 []]]; cbn [snd] in E; [|discriminate].
      injection E as <-. auto. }
  destruct G as (G1 & G2 & G3). split; auto. rewrite okLocal_iff, okRemote_iff, G3. split; auto. apply half_len; auto.
Qed.
Print Assumptions C176_new_identity.

(** With an error it is fine in both roles or in none. *)
Theorem C176_kept_partial : forall flt gen s, len gen = 64 ->
  (okLocal (keptKeys flt gen s) /\ okRemote (Some (keptKeys flt gen s))) \/ keptKeys flt gen s = noKeys.
Proof.
  intros flt gen s Hg. unfold keptKeys. destruct (flt OMkdir); auto.
  assert (K : forall p, len p = 64 -> okLocal {| kPublic := publicHalf p; kPrivate := p |} /\ okRemote (Some {| kPublic := publicHalf p; kPrivate := p |})).
  { intros p H. rewrite okLocal_iff, okRemote_iff. cbn [kPrivate kPublic]. split; auto. apply half_len; auto. }
  assert (L : forall f, (okLocal (match loadKey privateKeySize f with Ret (Some p) => {| kPublic := publicHalf p; kPrivate := p |} | _ => noKeys end)
      /\ okRemote (Some (match loadKey privateKeySize f with Ret (Some p) => {| kPublic := publicHalf p; kPrivate := p |} | _ => noKeys end)))
      \/ match loadKey privateKeySize f with Ret (Some p) => {| kPublic := publicHalf p; kPrivate := p |} | _ => noKeys end = noKeys).
  { intros f. destruct (loadKey privateKeySize f) as [[p|]|] eqn:E; auto. left. apply K. exact (loadKey_len _ _ _ E). }
  destruct (f_priv s), (flt OStatPriv); auto.
Qed.
Print Assumptions C176_kept_partial.

(** The verdict of a usable remote identity is that of its key on the signed part;
    a tail does not matter. An own message is signed with the private key and passes
    at a peer that has the public one. *)
Theorem C176_judged : forall ver k ann sg body tail, len (kPublic k) = 32 -> len sg = 64 ->
  judge ver (64 + len body) (Some k) ann (sg ++ body ++ tail)
  = Ret (if ver (kPublic k) body sg then JSigned else JBadSignature).
Proof.
  intros ver k ann sg body tail Hk Hs. unfold judge, idVerify, publicKeySize, signatureSize.
  assert (L : length sg = 64%nat) by (unfold len in Hs; lia).
  assert (Lb : N.to_nat (64 + len body) = (length sg + length body)%nat) by (unfold len; lia).
  destruct (N.ltb_spec (len (sg ++ body ++ tail)) (64 + len body)) as [H|_].
  { unfold len in H. rewrite !app_length in H. lia. }
  rewrite Hk, Lb. change (N.to_nat 64) with 64%nat. rewrite <- L. cbn [N.eqb Pos.eqb].
  assert (F1 : firstn (length sg) (sg ++ body ++ tail) = sg).
  { rewrite firstn_app, firstn_all, Nat.sub_diag, firstn_O. apply app_nil_r. }
  assert (F2 : firstn (length sg + length body) (sg ++ body ++ tail) = sg ++ body).
  { rewrite firstn_app_2. f_equal. rewrite firstn_app, firstn_all, Nat.sub_diag, firstn_O. apply app_nil_r. }
  assert (F3 : skipn (length sg) (sg ++ body) = body).
  { rewrite skipn_app, skipn_all, Nat.sub_diag. reflexivity. }
  rewrite F1, F2, F3.
  destruct (ver _ _ _); reflexivity.
Qed.
Print Assumptions C176_judged.

Theorem C176_understood : forall sign ver ann local remote body m,
  (forall p d, len p = 64 -> len (sign p d) = 64 /\ ver (publicHalf p) d (sign p d) = true) ->
  kPublic local = publicHalf (kPrivate local) -> kPublic remote = kPublic local -> len (kPublic remote) = 32 ->
  ownMessage sign (Some local) body = Ret m ->
  judge ver (64 + len (body (kPublic local))) (Some remote) ann m = Ret JSigned.
Proof.
  intros sign ver ann local remote body m O Hp Hr H32. unfold ownMessage, idSign, privateKeySize.
  destruct (N.eqb_spec (len (kPrivate local)) 64) as [H|]; [|discriminate]. intros E.
  assert (Em : m = sign (kPrivate local) (body (kPublic local)) ++ body (kPublic local) ++ []) by (rewrite app_nil_r; injection E; auto).
  destruct (O (kPrivate local) (body (kPublic local)) H) as [O1 O2]. rewrite Em, C176_judged by auto.
  rewrite Hr, Hp in *. rewrite O2. reflexivity.
Qed.
Print Assumptions C176_understood.

(** A directory that can be made, but not written to: the keys exist all the same.
    And a message judged by a usable identity. *)
Example C176_example :
  let gen := repeat 3 32 ++ repeat 9 32 in
  let flt := fun o => match o with OOpenPriv => Some O | _ => None end in
  let s := {| f_dir := false; f_priv := None; f_pub := None |} in
  snd (snd (newIdentity flt gen s)) = IdErr /\
  keptKeys flt gen s = {| kPublic := repeat 9 32; kPrivate := gen |} /\
  ownMessage (fun p d => firstn 2 p ++ d) (Some (keptKeys flt gen s)) (fun pub => firstn 1 pub) = Ret [3; 3; 9; 9] /\
  judge (fun p d g => bytes_eqb g (repeat 1 64) && bytes_eqb d [4; 5]) 66 (Some (keptKeys flt gen s)) (fun b => b)
    (repeat 1 64 ++ [4; 5; 6]) = Ret JSigned /\
  judge (fun _ _ _ => true) 66 (Some noKeys) (fun b => b) (repeat 1 66) = Panic.
Proof. vm_compute. repeat split; reflexivity. Qed.
