(** C46-C49, C51, C53, C84, C85: handling of key-exchange messages. *)
From Coq Require Import Ascii String NArith List Bool Lia.
From Verif Require Import Base BaseLemmas TS MessageModel CodecProofs KxModel KxSpec KxProofs X25519Model X25519Proofs.
Import ListNotations.
Local Open Scope list_scope.
Local Open Scope N_scope.

(** ** A toy instance of the primitives, for examples *)

(** The "signature" of a message by [id] is the first 32 bytes of it twice,
    with [id] added byte by byte. *)
Definition toySign (id body : bytes) : bytes :=
  let x := map (fun p => (fst p + snd p) mod 256) (combine id (firstn 32 (skipn 48 body))) in x ++ x.
Definition toyVerify (id sig body : bytes) : bool := bytes_eqb sig (toySign id body).
Definition toyDh (priv pub : bytes) : bytes := le_enc 32 ((le_dec priv * le_dec pub) mod (2^255 - 19)).
Definition toyPub (priv : bytes) : bytes := le_enc 32 ((le_dec priv * 9) mod (2^255 - 19)).
Definition toyHash (b : bytes) : bytes := firstn 32 (b ++ repeat 7 32).
Definition key32 (n : N) : bytes := le_enc 32 n.
Definition toyMsg (id session priv mode : N) (answer : bool) : kxMsg :=
  {| kSess := {| sCreatedAt := session; sRandom := 1 |}; kIdentity := key32 id; kPub := toyPub (key32 priv);
     kMode := mode; kFlags := if answer then 1 else 0 |}.
Definition toyWire (id : N) (m : kxMsg) : bytes := toySign (key32 id) (kxEncode m) ++ kxEncode m.
Definition toyConf (psk : option bytes) (id : N) : kxConf :=
  {| cPSK := psk; cMode := 1; cIdentity := key32 id; cSession := {| sCreatedAt := 5; sRandom := 6 |}; cInterval := 60 |}.
Definition toyHandle (psk : option bytes) (id : N) := handleKx toyVerify toyDh toyHash toyHash (toyConf psk id).

(** ** C46 *)

(** The remote identity is known: a message it did not sign changes nothing at
    all, in any state. *)
Theorem C46_unsigned_ignored : forall verify dh blake3 sha3 c s b id,
  kRemoteIdentity s = Some id -> ~ signedBy verify id b ->
  exists e, handleKx verify dh blake3 sha3 c s b = Ret (s, HErr e).
Proof. intros. eapply handle_wrong_signature; eauto. Qed.
Print Assumptions C46_unsigned_ignored.

(** The same for the running exchanger: not even a goroutine is started. *)
Theorem C46_no_step : forall verify dh blake3 sha3 c x b id x',
  kRemoteIdentity (xKx x) = Some id -> ~ signedBy verify id b ->
  kstep verify dh blake3 sha3 c x (KHandle b) = Some x' -> x' = x.
Proof.
  intros verify dh blake3 sha3 c x b id x' Hi Hs E. unfold kstep in E. destruct (xPanic x) eqn:Ep; [discriminate|].
  destruct (locked x); [discriminate|].
  destruct (handle_wrong_signature verify dh blake3 sha3 c (xKx x) b id Hi Hs) as [e He]. rewrite He in E.
  injection E as <-. unfold setX. rewrite Ep. destruct x; cbn in *. subst. reflexivity.
Qed.
Print Assumptions C46_no_step.

Example C46_example :
  exists s h, toyHandle None 1 (newKx (Some (key32 2))) (toyWire 2 (toyMsg 2 7 11 1 false)) = Ret (s, h) /\
    kNextRemote s = Some (toyPub (key32 11)) /\ h = HDone true /\
    toyHandle None 1 (newKx (Some (key32 2))) (toyWire 3 (toyMsg 2 7 11 1 false)) = Ret (newKx (Some (key32 2)), HErr KxWrongSignature).
Proof. eexists; eexists. split; [vm_compute; reflexivity|]. repeat split; vm_compute; reflexivity. Qed.

(** ** C47 *)

(** Nobody known yet: the first well-formed self-signed message sets the
    identity and its session. *)
Theorem C47_first_pins : forall verify dh blake3 sha3 c s m b s' h,
  kRemoteIdentity s = None -> kCtxDone s = false ->
  kxMsg_ok m -> kMode m = cMode c -> kPub m <> repeat 0 32 -> genuine verify (kIdentity m) m b ->
  handleKx verify dh blake3 sha3 c s b = Ret (s', h) ->
  kRemoteIdentity s' = Some (kIdentity m) /\ kNextRemote s' = Some (kPub m) /\
  (kRemoteSession s = None -> kRemoteSession s' = Some (kSess m)).
Proof.
  intros verify dh blake3 sha3 c s m b s' h Hi Hc Hm Hmode Hz (sig & tail & W & V) E.
  assert (A : acceptable verify c s m b).
  { destruct (wire_parts _ _ _ _ W) as (_ & W2 & _). split.
    - rewrite W2. pose proof (kx_rt m [] Hm) as R. rewrite app_nil_r in R. exact R.
    - split; [exact Hmode|]. split; [exact Hz|]. split; [exact Hc|]. rewrite Hi. exists sig, (kxEncode m), tail. auto. }
  rewrite (handle_accept verify dh blake3 sha3 c s m b A) in E. apply accept_fields in E. destruct E as (F1 & F2 & F3 & _).
  rewrite Hi in F1. split; [exact F1|]. split; [exact F3|]. intros Hn. rewrite Hn in F2. exact F2.
Qed.
Print Assumptions C47_first_pins.

(** Only a self-signed message can do that. *)
Theorem C47_only_self_signed : forall verify dh blake3 sha3 c s b s' h id,
  kRemoteIdentity s = None -> handleKx verify dh blake3 sha3 c s b = Ret (s', h) -> kRemoteIdentity s' = Some id ->
  signedBy verify id b /\ exists m, kxDecode (firstn 82 (skipn 64 b)) = Some m /\ kIdentity m = id.
Proof.
  intros verify dh blake3 sha3 c s b s' h id Hi E Hs.
  destruct (handle_cases verify dh blake3 sha3 c s b _ E) as [[e R]|[R|[(m & e & D & R & _)|(m & A & R)]]].
  - injection R as -> _. congruence.
  - injection R as -> _. congruence.
  - injection R as -> _. cbn [addErr kRemoteIdentity] in Hs. congruence.
  - symmetry in R. apply accept_fields in R. destruct R as (F1 & _). rewrite Hi in F1. destruct A as (D & _ & _ & _ & S).
    rewrite Hi in S. assert (kIdentity m = id) by congruence. subst id. split; [exact S|]. exists m. auto.
Qed.
Print Assumptions C47_only_self_signed.

Lemma identity_handle : forall verify dh blake3 sha3 c s b s' h id,
  handleKx verify dh blake3 sha3 c s b = Ret (s', h) -> kRemoteIdentity s = Some id -> kRemoteIdentity s' = Some id.
Proof.
  intros verify dh blake3 sha3 c s b s' h id E Hi.
  destruct (handle_cases verify dh blake3 sha3 c s b _ E) as [[e R]|[R|[(m & e & D & R & _)|(m & A & R)]]].
  - injection R as -> _. exact Hi.
  - injection R as -> _. exact Hi.
  - injection R as -> _. exact Hi.
  - symmetry in R. apply accept_fields in R. destruct R as (F1 & _). rewrite Hi in F1. exact F1.
Qed.

Lemma identity_install : forall dh blake3 sha3 c s priv pub now s',
  installLocalKey dh blake3 sha3 c s priv pub now = Ret s' -> kRemoteIdentity s' = kRemoteIdentity s.
Proof.
  intros dh blake3 sha3 c s priv pub now s' E. unfold installLocalKey in E. apply update_keys in E. rewrite E. reflexivity.
Qed.

Lemma sendMsg_kx : forall c s a, xKx (sendMsg c s a) = xKx s.
Proof. intros c s a. unfold sendMsg. destruct (publicKeyMessage c (xKx s) a); reflexivity. Qed.

(** Once set, it stays, whatever happens. *)
Theorem C47_pinned_for_ever : forall verify dh blake3 sha3 c x x' id,
  steps (lstep (kstep verify dh blake3 sha3 c)) x x' -> kRemoteIdentity (xKx x) = Some id -> kRemoteIdentity (xKx x') = Some id.
Proof.
  intros verify dh blake3 sha3 c x x' id S. revert x x' S. apply steps_inv.
  intros x x' Hi [l E]. unfold kstep in E. destruct (xPanic x); [discriminate|]. destruct l.
  - destruct (locked x); [discriminate|]. destruct (handleKx verify dh blake3 sha3 c (xKx x) b) as [[k h]|] eqn:Eh.
    + injection E as <-. destruct h as [| |[]]; cbn [xKx setX addAnswer]; eapply identity_handle; eauto.
    + injection E as <-. exact Hi.
  - destruct (xLoop x); try discriminate. destruct (kCtxDone (xKx x)); [discriminate|].
    destruct (_ <? _); injection E as <-; exact Hi.
  - destruct (xLoop x); try discriminate. destruct (inProgress _); injection E as <-; exact Hi.
  - destruct (xLoop x); try discriminate. destruct (installLocalKey _ _ _ _ _ _ _ _) as [k|] eqn:Ei; injection E as <-; [|exact Hi].
    cbn [xKx setLoop addLog setX]. rewrite (identity_install _ _ _ _ _ _ _ _ _ Ei). exact Hi.
  - destruct (xLoop x); try discriminate. injection E as <-. cbn [xKx setLoop]. rewrite sendMsg_kx. exact Hi.
  - destruct (xLoop x); try discriminate. destruct (kNotify (xKx x)).
    + injection E as <-. destruct (_ <=? _); [exact Hi|]. rewrite sendMsg_kx. exact Hi.
    + injection E as <-. rewrite sendMsg_kx. exact Hi.
  - destruct (xLoop x); try discriminate. destruct (kNotify (xKx x)); [|discriminate]. injection E as <-. destruct (_ <=? _); exact Hi.
  - destruct (xLoop x); try discriminate. injection E as <-. destruct (match kNotify (xKx x) with Some n => _ | None => _ end); exact Hi.
  - destruct (nth_error (xAnswers x) i) as [[]|]; try discriminate; injection E as <-.
    + exact Hi.
    + exact Hi.
    + exact Hi.
    + unfold setAnswer. cbn [xKx]. rewrite sendMsg_kx. exact Hi.
  - destruct (nth_error (xAnswers x) i) as [[]|]; try discriminate. destruct (installLocalKey _ _ _ _ _ _ _ _) as [k|] eqn:Ei; injection E as <-; [|exact Hi].
    cbn [xKx setAnswer addLog setX setSkip kRemoteIdentity]. rewrite (identity_install _ _ _ _ _ _ _ _ _ Ei). exact Hi.
  - injection E as <-. exact Hi.
Qed.
Print Assumptions C47_pinned_for_ever.

Example C47_example : exists s h,
  toyHandle None 1 (newKx None) (toyWire 2 (toyMsg 2 7 11 1 false)) = Ret (s, h) /\ kRemoteIdentity s = Some (key32 2) /\
  toyHandle None 1 (newKx None) (toyWire 3 (toyMsg 2 7 11 1 false)) = Ret (newKx None, HIgnored).
Proof. eexists; eexists. split; [vm_compute; reflexivity|]. split; vm_compute; reflexivity. Qed.

(** ** C84 (refuted): as long as the remote identity is unknown, a message
    without any valid signature makes the session close: it is enough that its
    answers mode differs, or that its key is all zeros. *)
Theorem C84_unsigned_closes_refuted : forall verify dh blake3 sha3 c s sig m tail,
  kRemoteIdentity s = None -> kxMsg_ok m -> length sig = 64%nat -> kMode m <> cMode c ->
  exists s' e, handleKx verify dh blake3 sha3 c s (sig ++ kxEncode m ++ tail) = Ret (s', HErr e) /\ kErrs s' = e :: kErrs s.
Proof.
  intros verify dh blake3 sha3 c s sig m tail Hi Hm Hs Hmode.
  assert (W : wire sig (kxEncode m) tail (sig ++ kxEncode m ++ tail)) by (split; [reflexivity|split; [exact Hs|apply kx_len; exact Hm]]).
  destruct (wire_parts _ _ _ _ W) as (W1 & W2 & W3).
  pose proof (kx_rt m [] Hm) as R. rewrite app_nil_r in R.
  unfold handleKx, parseAndCheck. rewrite W3, W2, R, Hi. cbn [negb]. destruct (N.eqb_spec (kMode m) (cMode c)); [contradiction|].
  cbn [negb]. eexists; eexists. split; reflexivity.
Qed.
Print Assumptions C84_unsigned_closes_refuted.

(** A signature of zeros. *)
Example C84_example : exists s,
  toyHandle None 1 (newKx None) (repeat 0 64 ++ kxEncode (toyMsg 2 7 11 2 false)) = Ret (s, HErr (KxModeMismatch 1 2)) /\
  kErrs s = [KxModeMismatch 1 2].
Proof. eexists. split; vm_compute; reflexivity. Qed.

(** With a known identity this cannot happen: the signature is checked first. *)
Theorem C84_known_identity_partial : forall verify dh blake3 sha3 c s b s' h,
  handleKx verify dh blake3 sha3 c s b = Ret (s', h) -> kErrs s' <> kErrs s ->
  forall id, kRemoteIdentity s = Some id -> signedBy verify id b.
Proof.
  intros verify dh blake3 sha3 c s b s' h E He id Hi.
  destruct (handle_cases verify dh blake3 sha3 c s b _ E) as [[e R]|[R|[(m & e & D & R & _ & Sg)|(m & A & R)]]].
  - injection R as -> _. contradiction.
  - injection R as -> _. contradiction.
  - auto.
  - symmetry in R. apply accept_fields in R. destruct R as (_ & _ & _ & _ & _ & _ & _ & _ & _ & F). contradiction.
Qed.
Print Assumptions C84_known_identity_partial.

(** ** C48 *)

(** The two sides remember each other's keys: [remote] of one is the public
    half of [local] of the other. *)
Definition remembers (pub : bytes -> bytes) (local remote : option bytes) : Prop := remote = option_map pub local.

(** Both sides computed their secrets (none of them was zero): the session keys
    are the same, under the same numbers, 1 and 2 being exchanged. *)
Theorem C48_same_keys : forall dh blake3 sha3 pub ca cb a b a' b',
  dh_agrees dh pub -> (forall x y, length (dh x y) = 32%nat) -> (forall x, length (sha3 x) = 32%nat) ->
  cPSK ca = cPSK cb ->
  remembers pub (kNextLocal a) (kNextRemote b) -> remembers pub (kPrevLocal a) (kPrevRemote b) ->
  remembers pub (kNextLocal b) (kNextRemote a) -> remembers pub (kPrevLocal b) (kPrevRemote a) ->
  kNextLocal a <> None -> kNextLocal b <> None ->
  updateSecrets dh blake3 sha3 ca a = Ret a' -> updateSecrets dh blake3 sha3 cb b = Ret b' ->
  slots_match (kKeys a') (kKeys b') /\ exists k, nth 0 (kKeys a') None = Some k /\ length k = 32%nat.
Proof.
  intros dh blake3 sha3 pub ca cb a b a' b' Hdh Hl Hs Hp R1 R2 R3 R4 Na Nb Ea Eb. unfold remembers in *.
  rewrite (update_spec dh blake3 sha3 Hl Hs) in Ea, Eb. rewrite R3, R4 in Ea. rewrite R1, R2, <- Hp in Eb.
  assert (Sym : forall l l', generateSharedKey dh blake3 sha3 (cPSK ca) l (option_map pub l') =
                             generateSharedKey dh blake3 sha3 (cPSK ca) l' (option_map pub l)).
  { intros [x|] [y|]; cbn [option_map generateSharedKey]; try reflexivity. rewrite (Hdh x y). reflexivity. }
  rewrite (Sym (kNextLocal b) (kNextLocal a)), (Sym (kNextLocal b) (kPrevLocal a)) in Eb.
  rewrite (Sym (kPrevLocal b) (kNextLocal a)), (Sym (kPrevLocal b) (kPrevLocal a)) in Eb.
  destruct (generateSharedKey dh blake3 sha3 (cPSK ca) (kNextLocal a) (option_map pub (kNextLocal b))) as [k0|] eqn:E0; [|discriminate].
  destruct (generateSharedKey dh blake3 sha3 (cPSK ca) (kNextLocal a) (option_map pub (kPrevLocal b))) as [k1|] eqn:E1; [|discriminate].
  destruct (generateSharedKey dh blake3 sha3 (cPSK ca) (kPrevLocal a) (option_map pub (kNextLocal b))) as [k2|] eqn:E2; [|discriminate].
  destruct (generateSharedKey dh blake3 sha3 (cPSK ca) (kPrevLocal a) (option_map pub (kPrevLocal b))) as [k3|] eqn:E3; [|discriminate].
  destruct k0 as [k0|].
  2:{ exfalso. destruct (kNextLocal a) as [x|]; [|congruence]. destruct (kNextLocal b) as [y|]; [|congruence].
      destruct (gsk_spec dh blake3 sha3 Hl Hs (cPSK ca) (Some x) (option_map pub (Some y))) as [(? & ? & _ & _ & _ & E)|[(? & ? & ? & _ & _ & _ & E & _)|([E|E] & _)]]; cbn [option_map] in *; congruence. }
  injection Ea as <-. injection Eb as <-. cbn [kKeys setKeys]. split.
  - exists (Some k0), k1, k2, k3. split; reflexivity.
  - exists k0. split; [reflexivity|]. eapply gsk_len; eauto.
Qed.
Print Assumptions C48_same_keys.

(** Every key is the Diffie-Hellman secret masked with the hashed pre-shared
    key. *)
Theorem C48_what_the_keys_are : forall dh blake3 sha3 c s s' l r,
  (forall x y, length (dh x y) = 32%nat) -> (forall x, length (sha3 x) = 32%nat) ->
  kNextLocal s = Some l -> kNextRemote s = Some r -> updateSecrets dh blake3 sha3 c s = Ret s' ->
  length (kKeys s') = 4%nat /\
  forall i lk rk, In (i, lk, rk) [(0%nat, kNextLocal s, kNextRemote s); (1%nat, kNextLocal s, kPrevRemote s);
                                  (2%nat, kPrevLocal s, kNextRemote s); (3%nat, kPrevLocal s, kPrevRemote s)] ->
  match lk, rk with
  | Some x, Some y =>
      exists k, nth i (kKeys s') None = Some k /\ dh x y <> repeat 0 32 /\
        match cPSK c with
        | None => k = dh x y
        | Some p => let t := ascii_bytes "xaionaro-go/secureio.KeyExchangercipherKey" in
                    xored (dh x y) (sha3 (blake3 (p ++ t) ++ t)) k
        end
  | _, _ => nth i (kKeys s') None = None
  end.
Proof.
  intros dh blake3 sha3 c s s' l r Hl Hs El Er E. rewrite (update_spec dh blake3 sha3 Hl Hs) in E.
  assert (G : forall lk rk k, generateSharedKey dh blake3 sha3 (cPSK c) lk rk = Ret k ->
    match lk, rk with
    | Some x, Some y => exists k', k = Some k' /\ dh x y <> repeat 0 32 /\
        match cPSK c with
        | None => k' = dh x y
        | Some p => let t := ascii_bytes "xaionaro-go/secureio.KeyExchangercipherKey" in
                    xored (dh x y) (sha3 (blake3 (p ++ t) ++ t)) k'
        end
    | _, _ => k = None
    end).
  { intros [x|] [y|] k Ek; try (cbn in Ek; congruence).
    destruct (gsk_spec dh blake3 sha3 Hl Hs (cPSK c) (Some x) (Some y)) as [(? & ? & _ & _ & _ & E1)|[(x' & y' & k' & Ex & Ey & Z & E1 & X)|([E1|E1] & _)]]; try congruence.
    injection Ex as <-. injection Ey as <-. exists k'. split; [congruence|]. split; [exact Z|]. destruct (cPSK c) as [p|].
    - exact X.
    - cbn [generateSharedKey] in E1. destruct (bytes_eqb (dh x y) zeroKey); [discriminate|]. congruence. }
  destruct (generateSharedKey dh blake3 sha3 (cPSK c) (kNextLocal s) (kNextRemote s)) as [k0|] eqn:E0; [|discriminate].
  destruct (generateSharedKey dh blake3 sha3 (cPSK c) (kNextLocal s) (kPrevRemote s)) as [k1|] eqn:E1; [|discriminate].
  destruct (generateSharedKey dh blake3 sha3 (cPSK c) (kPrevLocal s) (kNextRemote s)) as [k2|] eqn:E2; [|discriminate].
  destruct (generateSharedKey dh blake3 sha3 (cPSK c) (kPrevLocal s) (kPrevRemote s)) as [k3|] eqn:E3; [|discriminate].
  assert (E0' := G _ _ _ E0). rewrite El, Er in E0'. destruct E0' as (k' & -> & _). injection E as <-. cbn [kKeys setKeys].
  split; [reflexivity|]. intros i lk rk [H|[H|[H|[H|[]]]]]; injection H as <- <- <-; cbn [nth].
  - apply G in E0. destruct (kNextLocal s), (kNextRemote s); try congruence; try discriminate.
    destruct E0 as (k & Ek & R). exists k. split; [exact Ek|exact R].
  - apply G in E1. destruct (kNextLocal s), (kPrevRemote s); try congruence; try discriminate.
    destruct E1 as (k & -> & R). exists k. split; [reflexivity|exact R].
  - apply G in E2. destruct (kPrevLocal s), (kNextRemote s); try congruence; try discriminate.
    destruct E2 as (k & -> & R). exists k. split; [reflexivity|exact R].
  - apply G in E3. destruct (kPrevLocal s), (kPrevRemote s); try congruence; try discriminate.
    destruct E3 as (k & -> & R). exists k. split; [reflexivity|exact R].
Qed.
Print Assumptions C48_what_the_keys_are.

Lemma toyDh_len : forall x y, length (toyDh x y) = 32%nat.
Proof. intros. unfold toyDh. apply le_enc_length. Qed.
Lemma toyHash_len : forall x, length (toyHash x) = 32%nat.
Proof. intros. unfold toyHash. rewrite firstn_length, app_length, repeat_length. lia. Qed.

(** Two peers with a pre-shared key after one rotation on either side. *)
Definition toyPeer (l0 l1 r0 r1 : N) : kx :=
  setRemoteKeys (setLocalKeys (newKx None) (Some (key32 l0)) (Some (key32 l1)) (Some (toyPub (key32 l1))) 1)
    (Some (toyPub (key32 r0))) (Some (toyPub (key32 r1))).
Definition toyUpdate (psk : option bytes) (s : kx) : outcome kx := updateSecrets toyDh toyHash toyHash (toyConf psk 1) s.

Example C48_example : exists a b,
  toyUpdate (Some [1;2;3]) (toyPeer 3 4 5 6) = Ret a /\ toyUpdate (Some [1;2;3]) (toyPeer 5 6 3 4) = Ret b /\
  nth 1 (kKeys a) None = nth 2 (kKeys b) None /\ nth 1 (kKeys a) None <> nth 1 (kKeys b) None /\
  nth 0 (kKeys a) None <> nth 3 (kKeys a) None.
Proof.
  eexists; eexists. split; [vm_compute; reflexivity|]. split; [vm_compute; reflexivity|].
  split; [vm_compute; reflexivity|]. split; vm_compute; discriminate.
Qed.

(** ** C49 *)

(** Different masks, same Diffie-Hellman secret: different keys, in every slot
    where there is a key at all. *)
Theorem C49_different_psk_different_keys : forall dh blake3 sha3 ca cb s a' b' la ra i k,
  (forall x y, length (dh x y) = 32%nat) -> (forall x, length (sha3 x) = 32%nat) ->
  kNextLocal s = Some la -> kNextRemote s = Some ra ->
  (let t := ascii_bytes "xaionaro-go/secureio.KeyExchangercipherKey" in
   let mask c := match cPSK c with None => repeat 0 32 | Some p => sha3 (blake3 (p ++ t) ++ t) end in mask ca <> mask cb) ->
  updateSecrets dh blake3 sha3 ca s = Ret a' -> updateSecrets dh blake3 sha3 cb s = Ret b' ->
  nth i (kKeys a') None = Some k -> nth i (kKeys b') None <> Some k.
Proof.
  intros dh blake3 sha3 ca cb s a' b' la ra i k Hl Hs El Er Hm Ea Eb Ka Kb.
  destruct (C48_what_the_keys_are dh blake3 sha3 ca s a' la ra Hl Hs El Er Ea) as [La Fa].
  destruct (C48_what_the_keys_are dh blake3 sha3 cb s b' la ra Hl Hs El Er Eb) as [Lb Fb].
  assert (P : exists lk rk, In (i, lk, rk) [(0%nat, kNextLocal s, kNextRemote s); (1%nat, kNextLocal s, kPrevRemote s);
                                  (2%nat, kPrevLocal s, kNextRemote s); (3%nat, kPrevLocal s, kPrevRemote s)]).
  { destruct i as [|[|[|[|i]]]]; [do 2 eexists; left; reflexivity|do 2 eexists; right; left; reflexivity|
      do 2 eexists; right; right; left; reflexivity|do 2 eexists; right; right; right; left; reflexivity|].
    rewrite nth_overflow in Ka; [discriminate|]. rewrite La. lia. }
  destruct P as (lk & rk & P). specialize (Fa _ _ _ P). specialize (Fb _ _ _ P).
  destruct lk as [x|]; [|congruence]. destruct rk as [y|]; [|congruence].
  destruct Fa as (ka & Ka' & _ & Xa). destruct Fb as (kb & Kb' & _ & Xb).
  assert (ka = k) by congruence. assert (kb = k) by congruence. subst ka kb.
  apply Hm. cbn zeta. apply (xored_mask_inj (dh x y) _ _ k).
  - destruct (cPSK ca); [exact Xa|]. rewrite Xa. apply xored_zero, Hl.
  - destruct (cPSK cb); [exact Xb|]. rewrite Xb. apply xored_zero, Hl.
Qed.
Print Assumptions C49_different_psk_different_keys.

Example C49_example : exists a b,
  toyUpdate (Some [1;2;3]) (toyPeer 3 4 5 6) = Ret a /\ toyUpdate (Some [1;2;4]) (toyPeer 3 4 5 6) = Ret b /\
  nth 0 (kKeys a) None <> nth 0 (kKeys b) None.
Proof. eexists; eexists. split; [vm_compute; reflexivity|]. split; [vm_compute; reflexivity|]. vm_compute; discriminate. Qed.

(** ** C51 (refuted) *)

(** Every genuine message ever made by the peer is accepted again, by any later
    session, in any state: the session ID in it is not looked at, and neither is
    the age of the key. *)
Theorem C51_replay_accepted_refuted : forall verify dh blake3 sha3 c s m b,
  (forall x y, length (dh x y) = 32%nat) -> (forall x, length (sha3 x) = 32%nat) -> (forall x y, dh x y <> repeat 0 32) ->
  kRemoteIdentity s = Some (kIdentity m) -> kCtxDone s = false ->
  kxMsg_ok m -> kMode m = cMode c -> kPub m <> repeat 0 32 -> genuine verify (kIdentity m) m b ->
  exists s' h, handleKx verify dh blake3 sha3 c s b = Ret (s', HDone h) /\
    kNextRemote s' = Some (kPub m) /\
    (kRemoteSession s = None -> kRemoteSession s' = Some (kSess m)) /\
    (forall l, kNextLocal s = Some l -> cPSK c = None -> nth 0 (kKeys s') None = Some (dh l (kPub m))).
Proof.
  intros verify dh blake3 sha3 c s m b Hl Hs Hz Hi Hc Hm Hmode Hpz (sig & tail & W & V).
  assert (A : acceptable verify c s m b).
  { destruct (wire_parts _ _ _ _ W) as (_ & W2 & _). split.
    - rewrite W2. pose proof (kx_rt m [] Hm) as R. rewrite app_nil_r in R. exact R.
    - split; [exact Hmode|]. split; [exact Hpz|]. split; [exact Hc|]. rewrite Hi. exists sig, (kxEncode m), tail. auto. }
  rewrite (handle_accept verify dh blake3 sha3 c s m b A). unfold accept. rewrite Hi.
  set (s1 := setRemote s _ _). destruct (update_total dh blake3 sha3 Hl Hs Hz c (setNextRemotePublicKey s1 (kPub m))) as [s2 E].
  rewrite E. eexists; eexists. split; [reflexivity|].
  pose proof (update_keys dh blake3 sha3 _ _ _ E) as F. pose proof (setNextRemote_fields s1 (kPub m)) as (F1 & F2 & F3 & F4 & _).
  assert (S : forall k x, kNextRemote (if (k : bool) then sendSuccessNotifications x else x) = kNextRemote x /\
                kRemoteSession (if k then sendSuccessNotifications x else x) = kRemoteSession x /\
                kKeys (if k then sendSuccessNotifications x else x) = kKeys x) by (intros [] x; repeat split).
  destruct (S (kxIsAnswer (kFlags m) || negb (cMode c =? AnswersModeAnswerAndWait)) s2) as (S1 & S2 & S3). rewrite S1, S2, S3.
  split; [rewrite F; cbn [setKeys kNextRemote]; exact F1|]. split.
  - intros Hn. rewrite F. cbn [setKeys kRemoteSession]. rewrite F3. unfold s1. cbn [setRemote kRemoteSession]. rewrite Hn. reflexivity.
  - intros l El Hp.
    assert (El' : kNextLocal (setNextRemotePublicKey s1 (kPub m)) = Some l) by (rewrite F4; exact El).
    destruct (C48_what_the_keys_are dh blake3 sha3 c _ s2 l (kPub m) Hl Hs El' F1 E) as [_ K].
    specialize (K 0%nat _ _ (or_introl eq_refl)). rewrite El', F1, Hp in K. destruct K as (k & Kk & _ & ->). exact Kk.
Qed.
Print Assumptions C51_replay_accepted_refuted.

(** The peer's message of session 7, recorded, then played to a session that has
    already agreed on keys with session 9 of the peer: the current key is
    replaced by one the peer has forgotten, and the remembered one of the peer
    becomes the previous. A second recorded message pushes that out, too. *)
Example C51_example :
  exists s1 s2 s3, let s0 := setLocalKeys (newKx (Some (key32 2))) None (Some (key32 4)) (Some (toyPub (key32 4))) 1 in
  toyHandle None 1 s0 (toyWire 2 (toyMsg 2 9 30 1 true)) = Ret (s1, HDone false) /\
  nth 0 (kKeys s1) None = Some (toyDh (key32 30) (toyPub (key32 4))) /\
  toyHandle None 1 s1 (toyWire 2 (toyMsg 2 7 20 1 true)) = Ret (s2, HDone false) /\
  toyHandle None 1 s2 (toyWire 2 (toyMsg 2 7 21 1 true)) = Ret (s3, HDone false) /\
  ~ In (Some (toyDh (key32 30) (toyPub (key32 4)))) (kKeys s3).
Proof.
  do 3 eexists. cbv zeta. split; [vm_compute; reflexivity|]. split; [vm_compute; reflexivity|].
  split; [vm_compute; reflexivity|]. split; [vm_compute; reflexivity|].
  vm_compute. intros H. repeat (destruct H as [H|H]; [discriminate|]). exact H.
Qed.

(** ** C53 *)

(** Public key 1 and its variants: with real X25519 the process panics as soon as
    the receiver has any own key. The sender needs the expected identity, or no
    identity at all if none is expected. *)
Theorem C53_small_order_point_panics_refuted : forall verify blake3 sha3 c s m b l,
  (kRemoteIdentity s = None \/ kRemoteIdentity s = Some (kIdentity m)) -> kCtxDone s = false -> kNextLocal s = Some l ->
  kxMsg_ok m -> kMode m = cMode c -> N.land (le_dec (kPub m)) (2^255 - 1) = 1 -> genuine verify (kIdentity m) m b ->
  handleKx verify x25519 blake3 sha3 c s b = Panic.
Proof.
  intros verify blake3 sha3 c s m b l Hi Hc El Hm Hmode H1 (sig & tail & W & V).
  assert (A : acceptable verify c s m b).
  { destruct (wire_parts _ _ _ _ W) as (_ & W2 & _). split.
    - rewrite W2. pose proof (kx_rt m [] Hm) as R. rewrite app_nil_r in R. exact R.
    - split; [exact Hmode|]. split; [intros Z; rewrite Z in H1; vm_compute in H1; discriminate|]. split; [exact Hc|].
      destruct Hi as [-> | ->]; exists sig, (kxEncode m), tail; auto. }
  rewrite (handle_accept verify x25519 blake3 sha3 c s m b A). unfold accept.
  set (s1 := setRemote s _ _). pose proof (setNextRemote_fields s1 (kPub m)) as (F1 & F2 & F3 & F4 & _).
  unfold updateSecrets. cbn [map]. change (secretParts (setNextRemotePublicKey s1 (kPub m)) 0) with
    (kNextLocal (setNextRemotePublicKey s1 (kPub m)), kNextRemote (setNextRemotePublicKey s1 (kPub m))).
  rewrite F4, F1. change (kNextLocal s1) with (kNextLocal s). rewrite El. cbn [generateAll generateSharedKey].
  rewrite (x25519_order4 _ _ H1). change (bytes_eqb (repeat 0 32) zeroKey) with true. reflexivity.
Qed.
Print Assumptions C53_small_order_point_panics_refuted.

(** An attacker nobody has heard of kills a process that accepts any identity. *)
Example C53_example :
  let m := {| kSess := {| sCreatedAt := 0; sRandom := 0 |}; kIdentity := key32 66; kPub := 1 :: repeat 0 31; kMode := 1; kFlags := 0 |} in
  handleKx toyVerify x25519 toyHash toyHash (toyConf None 1)
    (setLocalKeys (newKx None) None (Some (key32 4)) (Some (key32 4)) 1) (toyWire 66 m) = Panic.
Proof.
  cbv zeta. set (m := Build_kxMsg _ _ _ _ _). apply (C53_small_order_point_panics_refuted _ _ _ _ _ m _ (key32 4)).
  - left. reflexivity.
  - reflexivity.
  - reflexivity.
  - unfold kxMsg_ok, sessID_ok. cbn. repeat split; try (vm_compute; reflexivity); try (repeat constructor; vm_compute; reflexivity).
  - reflexivity.
  - vm_compute. reflexivity.
  - exists (toySign (key32 66) (kxEncode m)), []. split.
    + split; [rewrite app_nil_r; reflexivity|]. split; vm_compute; reflexivity.
    + vm_compute. reflexivity.
Qed.

(** If no secret is ever zero, handling never panics, whatever arrives. *)
Theorem C53_no_panic_partial : forall verify dh blake3 sha3 c s b,
  (forall x y, length (dh x y) = 32%nat) -> (forall x, length (sha3 x) = 32%nat) -> (forall x y, dh x y <> repeat 0 32) ->
  exists s' h, handleKx verify dh blake3 sha3 c s b = Ret (s', h).
Proof.
  intros verify dh blake3 sha3 c s b Hl Hs Hz.
  destruct (handle_cases verify dh blake3 sha3 c s b _ eq_refl) as [[e R]|[R|[(m & e & D & R & _)|(m & A & R)]]]; rewrite R.
  - eexists; eexists; reflexivity.
  - eexists; eexists; reflexivity.
  - eexists; eexists; reflexivity.
  - unfold accept. set (s1 := setRemote s _ _).
    destruct (update_total dh blake3 sha3 Hl Hs Hz c (setNextRemotePublicKey s1 (kPub m))) as [s2 ->]. eexists; eexists; reflexivity.
Qed.
Print Assumptions C53_no_panic_partial.

(** ** C85 (refuted): a message is not accepted by its own author. *)
Theorem C85_reflection_accepted_refuted : forall verify dh blake3 sha3 c s a m b s' h,
  kRemoteIdentity s = None -> kCtxDone s = false -> publicKeyMessage c s a = Ret m ->
  kxMsg_ok m -> kPub m <> repeat 0 32 -> genuine verify (cIdentity c) m b ->
  handleKx verify dh blake3 sha3 c s b = Ret (s', h) ->
  kRemoteIdentity s' = Some (cIdentity c) /\ kNextRemote s' = kNextLocalPub s.
Proof.
  intros verify dh blake3 sha3 c s a m b s' h Hi Hc E Hm Hz G H. unfold publicKeyMessage in E.
  destruct (kNextLocalPub s) as [p|] eqn:Ep; [|discriminate]. injection E as <-.
  destruct (C47_first_pins _ _ _ _ _ _ _ _ _ _ Hi Hc Hm eq_refl Hz G H) as (R1 & R2 & _). split; [exact R1|exact R2].
Qed.
Print Assumptions C85_reflection_accepted_refuted.

Example C85_example :
  let s := setLocalKeys (newKx None) None (Some (key32 4)) (Some (toyPub (key32 4))) 1 in
  let m := {| kSess := {| sCreatedAt := 5; sRandom := 6 |}; kIdentity := key32 1; kPub := toyPub (key32 4); kMode := 1; kFlags := 0 |} in
  publicKeyMessage (toyConf None 1) s false = Ret m /\
  exists s', toyHandle None 1 s (toyWire 1 m) = Ret (s', HDone true) /\ kRemoteIdentity s' = Some (cIdentity (toyConf None 1)).
Proof. cbv zeta. split; [reflexivity|]. eexists. split; [vm_compute; reflexivity|]. reflexivity. Qed.
