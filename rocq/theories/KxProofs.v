(** Lemmas about the key exchanger. *)
From Coq Require Import NArith List Bool Lia.
From Verif Require Import Base BaseLemmas MessageModel CodecProofs KxModel KxSpec.
Import ListNotations.
Local Open Scope N_scope.

Lemma wire_parts : forall sig body tail b, wire sig body tail b ->
  firstn 64 b = sig /\ firstn 82 (skipn 64 b) = body /\ len b <? kxSignedSize = false.
Proof.
  intros sig body tail b (E & H1 & H2). subst b.
  rewrite firstn_app_l by auto. rewrite skipn_app_l by auto. rewrite firstn_app_l by auto.
  repeat split; auto. apply N.ltb_ge. unfold kxSignedSize. rewrite !len_app. unfold len. lia.
Qed.

Lemma wire_split : forall b, len b <? kxSignedSize = false ->
  wire (firstn 64 b) (firstn 82 (skipn 64 b)) (skipn 82 (skipn 64 b)) b.
Proof.
  intros b H. apply N.ltb_ge in H. unfold kxSignedSize, len in H. unfold wire. rewrite !firstn_skipn.
  rewrite !firstn_length, skipn_length. repeat split; lia.
Qed.

Lemma setNextRemote_fields : forall s pub,
  kNextRemote (setNextRemotePublicKey s pub) = Some pub /\
  kRemoteIdentity (setNextRemotePublicKey s pub) = kRemoteIdentity s /\
  kRemoteSession (setNextRemotePublicKey s pub) = kRemoteSession s /\
  kNextLocal (setNextRemotePublicKey s pub) = kNextLocal s /\
  kPrevLocal (setNextRemotePublicKey s pub) = kPrevLocal s /\
  kNextLocalPub (setNextRemotePublicKey s pub) = kNextLocalPub s /\
  kLocalAt (setNextRemotePublicKey s pub) = kLocalAt s /\ kNextAt (setNextRemotePublicKey s pub) = kNextAt s.
Proof.
  intros s pub. unfold setNextRemotePublicKey. destruct (kNextRemote s) as [k|] eqn:E.
  - destruct (bytes_eqb k pub) eqn:Eb; [|cbn; auto 10]. apply bytes_eqb_eq in Eb. subst k. auto 10.
  - cbn; auto 10.
Qed.

Section Facts.
  Variable verify : bytes -> bytes -> bytes -> bool.
  Variable dh : bytes -> bytes -> bytes.
  Variables blake3 sha3 : bytes -> bytes.

  Notation handle := (handleKx verify dh blake3 sha3).
  Notation update := (updateSecrets dh blake3 sha3).

  (** [updateSecrets] touches nothing but the keys of the session. *)
  Lemma update_keys : forall c s s', update c s = Ret s' -> s' = setKeys s (kKeys s').
  Proof.
    intros c s s' E. unfold updateSecrets in E. destruct (generateAll _ _ _ _ _) as [ks|]; [|discriminate].
    assert (Hs : s = setKeys s (kKeys s)) by (destruct s; reflexivity).
    destruct ks as [|[[|x r]|] ks']; try (injection E as <-; exact Hs).
    destruct (cipherKeysOf _) as [ck|]; [|discriminate]. injection E as <-. reflexivity.
  Qed.

  Lemma handle_wrong_signature : forall c s b id, kRemoteIdentity s = Some id -> ~ signedBy verify id b ->
    exists e, handle c s b = Ret (s, HErr e).
  Proof.
    intros c s b id Hid Hn. unfold handleKx, parseAndCheck.
    destruct (len b <? kxSignedSize) eqn:El; [eexists; reflexivity|]. rewrite Hid.
    destruct (verify id (firstn 64 b) (firstn 82 (skipn 64 b))) eqn:Ev; [|eexists; reflexivity].
    exfalso. apply Hn. apply wire_split in El. exists (firstn 64 b), (firstn 82 (skipn 64 b)), (skipn 82 (skipn 64 b)). auto.
  Qed.

  (** What [Handle] did, if it went all the way. *)
  Definition accept (c : kxConf) (s : kx) (m : kxMsg) : outcome (kx * handled) :=
    let s := setRemote s (Some (match kRemoteIdentity s with Some id => id | None => kIdentity m end))
               (Some (match kRemoteSession s with Some i => i | None => kSess m end)) in
    let s := setNextRemotePublicKey s (kPub m) in
    match update c s with
    | Panic => Panic
    | Ret s =>
        let s := if kxIsAnswer (kFlags m) || negb (cMode c =? AnswersModeAnswerAndWait)
                 then sendSuccessNotifications s else s in
        Ret (s, HDone (negb (kxIsAnswer (kFlags m)) && negb (cMode c =? AnswersModeDisable)))
    end.

  Definition acceptable (c : kxConf) (s : kx) (m : kxMsg) (b : bytes) : Prop :=
    kxDecode (firstn 82 (skipn 64 b)) = Some m /\ kMode m = cMode c /\ kPub m <> zeroKey /\ kCtxDone s = false /\
    signedBy verify (match kRemoteIdentity s with Some id => id | None => kIdentity m end) b.

  Lemma signed_parts : forall id b, signedBy verify id b ->
    len b <? kxSignedSize = false /\ verify id (firstn 64 b) (firstn 82 (skipn 64 b)) = true.
  Proof.
    intros id b (sig & body & tail & W & V). destruct (wire_parts _ _ _ _ W) as (E1 & E2 & E3).
    rewrite E1, E2. auto.
  Qed.

  Lemma setRemote_same : forall s, setRemote s (kRemoteIdentity s) (kRemoteSession s) = s.
  Proof. destruct s; reflexivity. Qed.

  Lemma handle_accept : forall c s m b, acceptable c s m b -> handle c s b = accept c s m.
  Proof.
    intros c s m b (D & M & Z & C & S). apply signed_parts in S. destruct S as [El V].
    unfold handleKx, parseAndCheck, accept. rewrite El, D, M, N.eqb_refl. cbn [negb].
    apply bytes_eqb_neq in Z. rewrite Z. destruct (kRemoteIdentity s) as [id|] eqn:Ei.
    - rewrite V. cbn [negb]. rewrite C, Ei.
      destruct (kRemoteSession s) as [i|] eqn:Es.
      + rewrite <- Ei, <- Es, setRemote_same. reflexivity.
      + rewrite Ei. reflexivity.
    - cbn [negb]. rewrite C, Ei. unfold setRemoteIdentityFromPublicKey. rewrite V.
      cbn [kRemoteSession setRemote kRemoteIdentity]. destruct (kRemoteSession s) as [i|] eqn:Es; reflexivity.
  Qed.

  (** All the ways [Handle] can end. *)
  Lemma handle_cases : forall c s b r, handle c s b = r ->
    (exists e, r = Ret (s, HErr e)) \/ r = Ret (s, HIgnored) \/
    (exists m e, kxDecode (firstn 82 (skipn 64 b)) = Some m /\ r = Ret (addErr s e, HErr e) /\
       ((e = KxModeMismatch (cMode c) (kMode m) /\ kMode m <> cMode c) \/ (e = KxInvalidPublicKey /\ kPub m = zeroKey)) /\
       (forall id, kRemoteIdentity s = Some id -> signedBy verify id b)) \/
    (exists m, acceptable c s m b /\ r = accept c s m).
  Proof.
    intros c s b r <-.
    destruct (len b <? kxSignedSize) eqn:El.
    { left. unfold handleKx, parseAndCheck. rewrite El. eexists. reflexivity. }
    assert (W : forall id, verify id (firstn 64 b) (firstn 82 (skipn 64 b)) = true -> signedBy verify id b).
    { intros id V. apply wire_split in El. exists (firstn 64 b), (firstn 82 (skipn 64 b)), (skipn 82 (skipn 64 b)). auto. }
    destruct (match kRemoteIdentity s with Some id => verify id (firstn 64 b) (firstn 82 (skipn 64 b)) | None => true end) eqn:Ev.
    2:{ left. unfold handleKx, parseAndCheck. rewrite El, Ev. eexists. reflexivity. }
    assert (D : exists m, kxDecode (firstn 82 (skipn 64 b)) = Some m).
    { unfold kxDecode. destruct (len (firstn 82 (skipn 64 b)) <? kxMsgSize) eqn:E2; [|eexists; reflexivity].
      exfalso. apply N.ltb_lt in E2. apply N.ltb_ge in El. unfold kxMsgSize, kxSignedSize, len in *. rewrite firstn_length, skipn_length in E2. lia. }
    destruct D as [m D].
    assert (Sg : forall id, kRemoteIdentity s = Some id -> signedBy verify id b) by (intros id Hi; rewrite Hi in Ev; auto).
    destruct (N.eqb_spec (kMode m) (cMode c)) as [Em|Em].
    2:{ right. right. left. exists m, (KxModeMismatch (cMode c) (kMode m)). split; [exact D|]. split; [|split; [left; auto|exact Sg]].
        unfold handleKx, parseAndCheck. rewrite El, Ev, D. destruct (N.eqb_spec (kMode m) (cMode c)); [contradiction|]. reflexivity. }
    destruct (bytes_eqb (kPub m) zeroKey) eqn:Ez.
    { right. right. left. exists m, KxInvalidPublicKey. split; [exact D|]. split; [|split; [right; split; [reflexivity|apply bytes_eqb_eq; exact Ez]|exact Sg]].
      unfold handleKx, parseAndCheck. rewrite El, Ev, D, Em, N.eqb_refl, Ez. reflexivity. }
    destruct (kCtxDone s) eqn:Ec.
    { left. unfold handleKx, parseAndCheck. rewrite El, Ev, D, Em, N.eqb_refl, Ez. cbn [negb]. rewrite Ec. eexists. reflexivity. }
    destruct (kRemoteIdentity s) as [id|] eqn:Ei.
    - right. right. right. exists m.
      assert (A : acceptable c s m b).
      { split; [exact D|]. split; [exact Em|]. split; [apply bytes_eqb_neq; exact Ez|]. split; [exact Ec|]. rewrite Ei. auto. }
      split; [exact A|]. apply handle_accept. exact A.
    - destruct (verify (kIdentity m) (firstn 64 b) (firstn 82 (skipn 64 b))) eqn:Ev2.
      + right. right. right. exists m.
        assert (A : acceptable c s m b).
        { split; [exact D|]. split; [exact Em|]. split; [apply bytes_eqb_neq; exact Ez|]. split; [exact Ec|]. rewrite Ei. auto. }
        split; [exact A|]. apply handle_accept. exact A.
      + right. left. unfold handleKx, parseAndCheck. rewrite El, Ei, D, Em, N.eqb_refl, Ez. cbn [negb]. rewrite Ec, Ei.
        unfold setRemoteIdentityFromPublicKey. rewrite Ev2. reflexivity.
  Qed.

  (** Fields after an accepted message. *)
  Lemma accept_fields : forall c s m s' h, accept c s m = Ret (s', h) ->
    kRemoteIdentity s' = Some (match kRemoteIdentity s with Some id => id | None => kIdentity m end) /\
    kRemoteSession s' = Some (match kRemoteSession s with Some i => i | None => kSess m end) /\
    kNextRemote s' = Some (kPub m) /\
    kNextLocal s' = kNextLocal s /\ kPrevLocal s' = kPrevLocal s /\ kNextLocalPub s' = kNextLocalPub s /\
    kNextAt s' = kNextAt s /\ (kLocalAt s' = kLocalAt s \/ kLocalAt s' = kNextAt s) /\ kSkipUntil s' = kSkipUntil s /\ kErrs s' = kErrs s.
  Proof.
    intros c s m s' h E. unfold accept in E.
    set (s1 := setRemote s _ _) in E. pose proof (setNextRemote_fields s1 (kPub m)) as (F1 & F2 & F3 & F4 & F5 & F6 & F7 & F8).
    assert (G : kSkipUntil (setNextRemotePublicKey s1 (kPub m)) = kSkipUntil s /\ kErrs (setNextRemotePublicKey s1 (kPub m)) = kErrs s).
    { unfold setNextRemotePublicKey. destruct (match kNextRemote s1 with Some k => bytes_eqb k (kPub m) | None => false end); split; reflexivity. }
    destruct G as [G1 G2].
    destruct (update c (setNextRemotePublicKey s1 (kPub m))) as [s2|] eqn:Eu; [|discriminate].
    apply update_keys in Eu. injection E as <- _. rewrite Eu.
    destruct (_ || _); cbn [sendSuccessNotifications confirmed setKeys kRemoteIdentity kRemoteSession kNextRemote kNextLocal kPrevLocal
      kNextLocalPub kNextAt kLocalAt kSkipUntil kErrs]; rewrite ?F1, ?F2, ?F3, ?F4, ?F5, ?F6, ?F7, ?F8, ?G1, ?G2; repeat split; auto.
  Qed.
End Facts.

(** ** Derived keys *)
Section Derive.
  Variable dh : bytes -> bytes -> bytes.
  Variables blake3 sha3 : bytes -> bytes.
  Hypothesis dh_len : forall a b, length (dh a b) = 32%nat.
  Hypothesis sha3_len : forall b, length (sha3 b) = 32%nat.

  Lemma xorInto_spec : forall mask key, length mask = length key -> exists r, xorInto key mask = Ret r /\ xored key mask r.
  Proof.
    induction mask as [|m mask IH]; intros key Hl.
    - destruct key; [|discriminate]. exists []. split; [reflexivity|]. split; [reflexivity|]. split; [reflexivity|].
      cbn. intros i Hi. lia.
    - destruct key as [|k key]; [discriminate|]. injection Hl as Hl. destruct (IH key Hl) as (r & E & L1 & L2 & X).
      exists (N.lxor k m :: r). cbn [xorInto]. rewrite E. split; [reflexivity|]. unfold xored. cbn [length]. unfold bytes in *. split; [lia|]. split; [lia|].
      intros i Hi. destruct i; [reflexivity|]. cbn [nth]. apply X. lia.
  Qed.

  (** The mask a pre-shared key stands for; no key is the zero mask. *)
  Definition pskMask (psk : option bytes) : bytes :=
    match psk with None => repeat 0 32 | Some p => hash blake3 sha3 p [Salt; purpose] end.

  Lemma pskMask_len : forall psk, length (pskMask psk) = 32%nat.
  Proof. intros [p|]; cbn [pskMask]; [apply sha3_len|reflexivity]. Qed.

  Lemma xored_zero : forall k, length k = 32%nat -> xored k (repeat 0 32) k.
  Proof.
    intros k Hk. split; [reflexivity|]. rewrite repeat_length. split; [symmetry; exact Hk|]. intros i _.
    rewrite nth_repeat, N.lxor_0_r. reflexivity.
  Qed.

  (** Secret of a pair of keys, if both are there. *)
  Lemma gsk_spec : forall psk l r,
    (exists a b, l = Some a /\ r = Some b /\ dh a b = zeroKey /\ generateSharedKey dh blake3 sha3 psk l r = Panic) \/
    (exists a b k, l = Some a /\ r = Some b /\ dh a b <> zeroKey /\ generateSharedKey dh blake3 sha3 psk l r = Ret (Some k) /\
       xored (dh a b) (pskMask psk) k) \/
    ((l = None \/ r = None) /\ generateSharedKey dh blake3 sha3 psk l r = Ret None).
  Proof.
    intros psk [a|] [b|]; try (right; right; split; [auto|reflexivity]). cbn [generateSharedKey].
    destruct (bytes_eqb (dh a b) zeroKey) eqn:Ez.
    - left. exists a, b. apply bytes_eqb_eq in Ez. auto.
    - right. left. apply bytes_eqb_neq in Ez. destruct psk as [p|].
      + destruct (xorInto_spec (hash blake3 sha3 p [Salt; purpose]) (dh a b)) as (k & E & X).
        { rewrite dh_len. apply sha3_len. }
        rewrite E. exists a, b, k. auto.
      + exists a, b, (dh a b). repeat split; auto. apply xored_zero, dh_len.
  Qed.

  Lemma gsk_len : forall psk l r k, generateSharedKey dh blake3 sha3 psk l r = Ret (Some k) -> length k = 32%nat.
  Proof.
    intros psk l r k E. destruct (gsk_spec psk l r) as [(a & b & _ & _ & _ & E1)|[(a & b & k' & _ & _ & _ & E1 & X)|(_ & E1)]]; rewrite E1 in E; try discriminate.
    injection E as <-. destruct X as [X _]. rewrite <- X. apply dh_len.
  Qed.

  Lemma gslice_all : forall k : bytes, length k = 32%nat -> gslice k 0 32 = Some k.
  Proof.
    intros k Hk. unfold gslice, len. rewrite Hk. cbn [N.leb andb N.of_nat N.to_nat]. 
    change ((0 <=? 32) && (32 <=? N.of_nat 32)) with true. cbn [andb].
    cbn [skipn]. f_equal. rewrite firstn_all2; [reflexivity|]. rewrite Hk. cbn. lia.
  Qed.

  Lemma cipherKeys_same : forall ks, (forall k, In (Some k) ks -> length k = 32%nat) -> cipherKeysOf ks = Ret ks.
  Proof.
    induction ks as [|[k|] ks IH]; intros H; cbn [cipherKeysOf]; [reflexivity| |].
    - rewrite gslice_all by (apply H; left; reflexivity). rewrite IH; [reflexivity|]. intros k' Hk. apply H. right. exact Hk.
    - rewrite IH; [reflexivity|]. intros k' Hk. apply H. right. exact Hk.
  Qed.

  Notation gsk := (generateSharedKey dh blake3 sha3).
  Notation update := (updateSecrets dh blake3 sha3).

  (** [updateSecrets] in closed form. *)
  Lemma update_spec : forall c s,
    update c s =
    match gsk (cPSK c) (kNextLocal s) (kNextRemote s), gsk (cPSK c) (kNextLocal s) (kPrevRemote s),
          gsk (cPSK c) (kPrevLocal s) (kNextRemote s), gsk (cPSK c) (kPrevLocal s) (kPrevRemote s) with
    | Ret k0, Ret k1, Ret k2, Ret k3 => Ret (match k0 with Some _ => setKeys s [k0; k1; k2; k3] | None => s end)
    | _, _, _, _ => Panic
    end.
  Proof.
    intros c s. unfold updateSecrets. cbn [map generateAll secretParts N.eqb Pos.eqb].
    destruct (gsk (cPSK c) (kNextLocal s) (kNextRemote s)) as [k0|] eqn:E0; [|reflexivity].
    destruct (gsk (cPSK c) (kNextLocal s) (kPrevRemote s)) as [k1|] eqn:E1; [|reflexivity].
    destruct (gsk (cPSK c) (kPrevLocal s) (kNextRemote s)) as [k2|] eqn:E2; [|reflexivity].
    destruct (gsk (cPSK c) (kPrevLocal s) (kPrevRemote s)) as [k3|] eqn:E3; [|reflexivity].
    destruct k0 as [k0|]; [|reflexivity]. pose proof (gsk_len _ _ _ _ E0) as L0. destruct k0 as [|x k0]; [discriminate|].
    rewrite cipherKeys_same; [reflexivity|].
    intros k [H|[H|[H|[H|[]]]]].
    - injection H as <-. exact L0.
    - subst k1. eapply gsk_len; eauto.
    - subst k2. eapply gsk_len; eauto.
    - subst k3. eapply gsk_len; eauto.
  Qed.

  (** It panics exactly if one of the four secrets is the zero key. *)
  Lemma update_total : (forall a b, dh a b <> zeroKey) -> forall c s, exists s', update c s = Ret s'.
  Proof.
    intros Hz c s. rewrite update_spec.
    assert (G : forall l r, exists k, gsk (cPSK c) l r = Ret k).
    { intros l r. destruct (gsk_spec (cPSK c) l r) as [(a & b & _ & _ & Z & _)|[(a & b & k' & _ & _ & _ & E1 & _)|(_ & E1)]].
      - exfalso. eapply Hz; eauto.
      - eexists; eauto.
      - eexists; eauto. }
    destruct (G (kNextLocal s) (kNextRemote s)) as [k0 ->]. destruct (G (kNextLocal s) (kPrevRemote s)) as [k1 ->].
    destruct (G (kPrevLocal s) (kNextRemote s)) as [k2 ->]. destruct (G (kPrevLocal s) (kPrevRemote s)) as [k3 ->].
    eexists. reflexivity.
  Qed.
End Derive.

Lemma xored_mask_inj : forall a m1 m2 k, xored a m1 k -> xored a m2 k -> m1 = m2.
Proof.
  intros a m1 m2 k (_ & L1 & X1) (_ & L2 & X2). unfold bytes in *. apply (nth_ext _ _ 0 0); [lia|]. intros i Hi.
  assert (Hk : (i < length k)%nat) by lia. pose proof (X1 i Hk) as E1. pose proof (X2 i Hk) as E2. rewrite E1 in E2.
  apply (f_equal (N.lxor (nth i a 0))) in E2. rewrite <- !N.lxor_assoc, !N.lxor_nilpotent, !N.lxor_0_l in E2. exact E2.
Qed.
