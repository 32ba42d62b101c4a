(** Lemmas for C115: a calm run of KxFineModel.v is a run of KxModel.v. *)
From Coq Require Import NArith List Bool Lia Arith.
From Verif Require Import Base BaseLemmas TS MessageModel KxModel KxProofs KxRunProofs KxPairModel KxFineModel KxFineSpec IntegProofs.
Import ListNotations.
Local Open Scope N_scope.

(** The fields that steps without an update can change. *)
Definition adj (k : kx) (n : option N) (t : N) (d : bool) (e : list kxErr) : kx :=
  {| kRemoteIdentity := kRemoteIdentity k; kRemoteSession := kRemoteSession k; kPrevRemote := kPrevRemote k;
     kNextRemote := kNextRemote k; kPrevLocal := kPrevLocal k; kNextLocal := kNextLocal k;
     kNextLocalPub := kNextLocalPub k; kLocalAt := kLocalAt k; kNextAt := kNextAt k; kNotify := n;
     kSkipUntil := t; kCtxDone := d; kKeys := kKeys k; kErrs := e; kDone := kDone k |}.
(** [k'] as far as the steps without an update are concerned. *)
Definition adjTo (k k' : kx) : kx := adj k (kNotify k') (kSkipUntil k') (kCtxDone k') (kErrs k').

(** Equal but for the remote side and the session's keys. *)
Definition agree (k k' : kx) : Prop :=
  kNextLocalPub k' = kNextLocalPub k /\ kLocalAt k' = kLocalAt k /\ kNextAt k' = kNextAt k /\
  kNotify k' = kNotify k /\ kSkipUntil k' = kSkipUntil k /\ kCtxDone k' = kCtxDone k /\ kErrs k' = kErrs k.
Lemma agree_refl : forall k, agree k k.
Proof. unfold agree. auto 10. Qed.

Lemma agree_trans : forall a b c, agree a b -> agree b c -> agree a c.
Proof. unfold agree. intuition congruence. Qed.
Lemma agree_sym : forall a b, agree a b -> agree b a.
Proof. unfold agree. intuition congruence. Qed.

Lemma adjTo_self : forall k, adjTo k k = k.
Proof. intros []. reflexivity. Qed.
Lemma adjTo_agree : forall k k', agree k k' -> adjTo k' k = k'.
Proof. intros k [] (A & B & C & D & E & F & G). unfold adjTo, adj. cbn in *. congruence. Qed.

Definition isUpd (l : klabel) : bool :=
  match l with KHandle _ | KLoopGen _ _ _ | KAnswerGen _ _ _ _ => true | _ => false end.
Definition isStop (l : klabel) : bool := match l with KCancel | KLoopTimeout => true | _ => false end.

Lemma setX_same : forall x, setX x (xKx x) = x.
Proof. intros []. reflexivity. Qed.

Section FineProofs.
  Variable verify : bytes -> bytes -> bytes -> bool.
  Variable dh : bytes -> bytes -> bytes.
  Variables blake3 sha3 : bytes -> bytes.
  Variable c : kxConf.
  Notation step := (kstep verify dh blake3 sha3 c).
  Notation fstep := (fstep verify dh blake3 sha3 c).
  Notation update := (updateSecrets dh blake3 sha3 c).
  Notation genAll := (generateAll dh blake3 sha3 (cPSK c)).
  Notation upd := (updStep dh blake3 sha3 c).
  Notation bHandle := (beginHandle verify c).

  Lemma sendMsg_setX : forall x k a, kNextLocalPub k = kNextLocalPub (xKx x) ->
    sendMsg c (setX x k) a = setX (sendMsg c x a) k.
  Proof.
    intros x k a H. unfold sendMsg, publicKeyMessage. cbn [setX xKx]. rewrite H.
    destruct (kNextLocalPub (xKx x)); reflexivity.
  Qed.

  (** A step without an update does the same whatever the remote side and the
      session's keys are. *)
  Lemma quiet_sim : forall x l x' k, isUpd l = false -> step x l = Some x' -> agree (xKx x) k ->
    xKx x' = adjTo (xKx x) (xKx x') /\ step (setX x k) l = Some (setX x' (adjTo k (xKx x'))) /\
    (isStop l = false -> kCtxDone (xKx x') = kCtxDone (xKx x) /\ kErrs (xKx x') = kErrs (xKx x)) /\
    (locked x = false -> l <> KLoopCheck -> locked x' = false).
  Proof.
    intros x l x' k Hl E A. pose proof A as (A1 & A2 & A3 & A4 & A5 & A6 & A7).
    assert (S0 : adjTo (xKx x) (xKx x) = xKx x) by apply adjTo_self.
    assert (S1 : adjTo k (xKx x) = k) by (apply adjTo_agree; exact A).
    assert (M : forall a, xKx (sendMsg c x a) = xKx x).
    { intros a. unfold sendMsg. destruct (publicKeyMessage c (xKx x) a); reflexivity. }
    assert (ML : forall a, xLoop (sendMsg c x a) = xLoop x).
    { intros a. unfold sendMsg. destruct (publicKeyMessage c (xKx x) a); reflexivity. }
    unfold kstep in E |- *. cbn [setX xPanic xLoop xAnswers xKx]. destruct (xPanic x); [discriminate|].
    destruct l; try discriminate; unfold locked.
    - destruct (xLoop x) eqn:El; try discriminate. rewrite A6, A5. destruct (kCtxDone (xKx x)) eqn:Ed; [discriminate|]. destruct (_ <? _).
      + injection E as <-. rewrite S0, S1, El. auto.
      + injection E as <-. cbn [setLoop setX xKx xLoop]. split; [unfold adjTo, adj, setNotify; cbn; reflexivity|].
        split; [|cbn; auto]. unfold adjTo, adj, setNotify, setLoop, setX; cbn. rewrite A5, A6, A7, ?Ed. reflexivity.
    - destruct (xLoop x) eqn:El; try discriminate. unfold inProgress in *. rewrite A2, A3.
      destruct (_ <? _); injection E as <-; cbn [setLoop xKx xLoop]; rewrite S0, S1; (split; [reflexivity|]); (split; [reflexivity|]); (split; [auto|]); congruence.
    - destruct (xLoop x) eqn:El; try discriminate. injection E as <-. cbn [setLoop xKx xLoop]. rewrite !M, S0, S1, (sendMsg_setX _ _ _ A1).
      split; [reflexivity|]. split; [reflexivity|]. auto.
    - destruct (xLoop x) eqn:El; try discriminate. rewrite A4. destruct (kNotify (xKx x)) as [n|] eqn:En.
      + injection E as <-. destruct (at_ <=? n).
        * cbn [setLoop setX xKx xLoop]. split; [unfold adjTo, adj, setNotify; cbn; reflexivity|].
          split; [|cbn; auto]. unfold adjTo, adj, setNotify, setLoop, setX; cbn. rewrite A5, A6, A7. reflexivity.
        * set (y := setX x (setNotify (xKx x) None)).
          assert (Ey : xKx (sendMsg c y false) = setNotify (xKx x) None) by (unfold sendMsg; destruct (publicKeyMessage c (xKx y) false); reflexivity).
          rewrite Ey. split; [unfold adjTo, adj, setNotify; cbn; reflexivity|]. split.
          -- change (setX (setX x k) (setNotify k None)) with (setX y (setNotify k None)).
             rewrite (sendMsg_setX y (setNotify k None) false) by exact A1. unfold adjTo, adj, setNotify; cbn. rewrite A5, A6, A7. reflexivity.
          -- split; [cbn; auto|]. intros _ _. unfold sendMsg. destruct (publicKeyMessage c (xKx y) false); cbn; rewrite El; reflexivity.
      + injection E as <-. rewrite M, ML, S0, S1, (sendMsg_setX _ _ _ A1), ?El. auto.
    - destruct (xLoop x) eqn:El; try discriminate. rewrite A4. destruct (kNotify (xKx x)) as [n|] eqn:En; [|discriminate].
      injection E as <-. destruct (at_ <=? n); cbn [setLoop setX xKx xLoop]; (split; [unfold adjTo, adj, setNotify; cbn; reflexivity|]);
        (split; [unfold adjTo, adj, setNotify, setLoop, setX; cbn; rewrite ?A5, ?A6, ?A7; reflexivity|]); cbn; rewrite ?El; auto.
    - destruct (xLoop x) eqn:El; try discriminate. rewrite A4. injection E as <-.
      destruct (match kNotify (xKx x) with Some n => _ | None => _ end); cbn [setLoop setX xKx xLoop]; (split; [unfold adjTo, adj, setNotify, setCtx, addErr; cbn; reflexivity|]);
        (split; [unfold adjTo, adj, setNotify, setCtx, addErr, setLoop, setX; cbn; rewrite ?A5, ?A6, ?A7; reflexivity|]); split; [discriminate|auto|discriminate|auto].
    - destruct (nth_error (xAnswers x) i) as [[]|]; try discriminate; injection E as <-.
      + cbn [setAnswer xKx xLoop]. rewrite S0, S1, A1. auto.
      + cbn [setAnswer xKx xLoop]. unfold inProgress. rewrite S0, S1, A2, A3. auto.
      + cbn [setAnswer setX xKx xLoop]. split; [unfold adjTo, adj, setSkip; cbn; reflexivity|].
        split; [|cbn; auto]. unfold adjTo, adj, setSkip, setAnswer, setX; cbn. rewrite A4, A6, A7. reflexivity.
      + cbn [setAnswer xKx xLoop]. rewrite M, ML, S0, S1, (sendMsg_setX _ _ _ A1). auto.
    - injection E as <-. cbn [setX xKx xLoop]. split; [unfold adjTo, adj, setCtx; cbn; reflexivity|].
      split; [unfold adjTo, adj, setCtx, setX; cbn; rewrite A4, A5, A7; reflexivity|]. split; [discriminate|auto].
  Qed.

  (** *** [updateSecrets] in pieces *)
  Lemma genAll_app : forall a b, genAll (a ++ b) =
    match genAll a with Panic => Panic | Ret x => match genAll b with Panic => Panic | Ret y => Ret (x ++ y) end end.
  Proof.
    induction a as [|[l r] a IH]; intros b; cbn [app generateAll].
    - destruct (genAll b); reflexivity.
    - destruct (generateSharedKey dh blake3 sha3 (cPSK c) l r); [|reflexivity]. rewrite IH.
      destruct (genAll a); [|reflexivity]. destruct (genAll b); reflexivity.
  Qed.

  Definition consistent (k : kx) (acc : partSecrets) : Prop :=
    (length acc <= 4)%nat /\ genAll (map (secretParts k) (firstn (length acc) [0; 1; 2; 3])) = Ret acc.

  Lemma consistent_nil : forall k, consistent k [].
  Proof. intros k. split; [cbn; lia|reflexivity]. Qed.

  Lemma upd_sound : forall k acc, consistent k acc ->
    match upd k acc with
    | Panic => update k = Panic
    | Ret (k', Some acc') => k' = k /\ consistent k acc'
    | Ret (k', None) => update k = Ret k'
    end.
  Proof.
    intros k acc [L G]. unfold updStep. destruct (Nat.ltb_spec (length acc) 4) as [H|H].
    - assert (F : firstn (S (length acc)) [0; 1; 2; 3] = firstn (length acc) [0; 1; 2; 3] ++ [N.of_nat (length acc)] /\
                  exists rest, [0; 1; 2; 3] = firstn (length acc) [0; 1; 2; 3] ++ N.of_nat (length acc) :: rest).
      { destruct (length acc) as [|[|[|[|]]]]; try lia; (split; [reflexivity|eexists; reflexivity]). }
      destruct F as [F [rest R]]. destruct (secretParts k (N.of_nat (length acc))) as [l r] eqn:Ep.
      destruct (generateSharedKey dh blake3 sha3 (cPSK c) l r) as [g|] eqn:Eg.
      + split; [reflexivity|]. split; [rewrite app_length; cbn; lia|]. rewrite app_length. cbn [length]. rewrite Nat.add_1_r, F, map_app, genAll_app, G.
        cbn [map generateAll]. rewrite Ep, Eg. reflexivity.
      + unfold updateSecrets. rewrite R, map_app, genAll_app, G. cbn [map generateAll]. rewrite Ep, Eg. reflexivity.
    - assert (E4 : length acc = 4%nat) by lia. rewrite E4 in G. cbn [firstn] in G.
      unfold updateSecrets. rewrite G. destruct acc as [|[[|b0 bs]|] acc]; try reflexivity. destruct (cipherKeysOf _); reflexivity.
  Qed.

  Lemma secretParts_adj : forall k k', secretParts (adjTo k k') = secretParts k.
  Proof. reflexivity. Qed.
  Lemma consistent_adj : forall k k' acc, consistent k acc -> consistent (adjTo k k') acc.
  Proof. intros k k' acc H. exact H. Qed.
  Lemma update_adj : forall k k', update (adjTo k k') = match update k with Panic => Panic | Ret k1 => Ret (adjTo k1 k') end.
  Proof.
    intros k k'. unfold updateSecrets. rewrite secretParts_adj. destruct (genAll _) as [secrets|]; [|reflexivity].
    destruct secrets as [|[[|b0 bs]|] secrets]; try reflexivity. destruct (cipherKeysOf _); reflexivity.
  Qed.
  Lemma update_agree : forall k k1, update k = Ret k1 -> agree k k1.
  Proof. intros k k1 E. apply update_keys in E. rewrite E. unfold agree. cbn. auto 10. Qed.

  (** *** [Handle] in pieces *)
  Lemma handle_split : forall k b, handleKx verify dh blake3 sha3 c k b =
    match bHandle k b with
    | (k1, inl h) => Ret (k1, h)
    | (k1, inr m) => match update k1 with Panic => Panic | Ret k2 => Ret (endHandle c k2 m) end
    end.
  Proof.
    intros k b. unfold handleKx, beginHandle. destruct (parseAndCheck verify c k b) as [s [e|m]]; [reflexivity|].
    destruct (kCtxDone s); [reflexivity|].
    destruct (match kRemoteIdentity s with Some _ => Some s | None => setRemoteIdentityFromPublicKey verify s b (kIdentity m) end) as [s1|]; [|reflexivity].
    cbn zeta. destruct (update (setNextRemotePublicKey _ _)); reflexivity.
  Qed.

  Lemma parse_inr : forall k b k1 m, parseAndCheck verify c k b = (k1, inr m) -> k1 = k.
  Proof.
    intros k b k1 m E. unfold parseAndCheck in E. destruct (_ <? _); [discriminate|]. destruct (negb _); [discriminate|].
    destruct (kxDecode _); [|discriminate]. destruct (negb _); [discriminate|]. destruct (bytes_eqb _ _); [discriminate|]. congruence.
  Qed.

  Lemma begin_agree : forall k b k1 m, bHandle k b = (k1, inr m) -> agree k k1.
  Proof.
    intros k b k1 m E. unfold beginHandle in E. destruct (parseAndCheck verify c k b) as [s [e|m']] eqn:Ep; [discriminate|].
    apply parse_inr in Ep. subst s. destruct (kCtxDone k); [discriminate|].
    assert (Sn : forall s p, agree s (setNextRemotePublicKey s p)).
    { intros s p. unfold setNextRemotePublicKey. destruct (match kNextRemote s with Some _ => _ | None => _ end); unfold agree; cbn; auto 10. }
    assert (T := agree_trans).
    assert (G : forall s, agree k s -> agree k (setNextRemotePublicKey (match kRemoteSession s with Some _ => s | None => setRemote s (kRemoteIdentity s) (Some (kSess m')) end) (kPub m'))).
    { intros s H. eapply T; [|apply Sn]. destruct (kRemoteSession s); [exact H|]. eapply T; [exact H|]. unfold agree; cbn; auto 10. }
    destruct (kRemoteIdentity k).
    - injection E as <- _. apply G, agree_refl.
    - unfold setRemoteIdentityFromPublicKey in E. destruct (verify _ _ _); [|discriminate]. injection E as <- _.
      apply (G (setRemote k (Some (kIdentity m')) (kRemoteSession k))). unfold agree; cbn; auto 10.
  Qed.

  (** Notifications and the like do not matter for what is accepted. *)
  Lemma begin_adj : forall k k' b k1 m, kCtxDone k' = kCtxDone k -> bHandle k b = (k1, inr m) ->
    bHandle (adjTo k k') b = (adjTo k1 k', inr m).
  Proof.
    intros k k' b k1 m Hd E. unfold beginHandle in *. destruct (parseAndCheck verify c k b) as [s [e|m']] eqn:Ep; [discriminate|].
    assert (Ep' : parseAndCheck verify c (adjTo k k') b = (adjTo k k', inr m')).
    { pose proof (parse_inr _ _ _ _ Ep). subst s. unfold parseAndCheck in *. cbn [adjTo adj kRemoteIdentity]. destruct (_ <? _); [discriminate|]. destruct (negb _); [discriminate|].
      destruct (kxDecode _); [|discriminate]. destruct (negb _); [discriminate|]. destruct (bytes_eqb _ _); [discriminate|]. congruence. }
    rewrite Ep'. apply parse_inr in Ep. subst s. change (kCtxDone (adjTo k k')) with (kCtxDone k'). rewrite Hd.
    destruct (kCtxDone k); [discriminate|].
    assert (Sn : forall s p, setNextRemotePublicKey (adjTo s k') p = adjTo (setNextRemotePublicKey s p) k').
    { intros s p. unfold setNextRemotePublicKey. cbn [adjTo adj kNextRemote]. destruct (match kNextRemote s with Some _ => _ | None => _ end); reflexivity. }
    change (kRemoteIdentity (adjTo k k')) with (kRemoteIdentity k).
    destruct (kRemoteIdentity k) eqn:Ei.
    - change (kRemoteSession (adjTo k k')) with (kRemoteSession k). destruct (kRemoteSession k).
      + rewrite Sn. congruence.
      + injection E as <- <-. rewrite <- Sn. reflexivity.
    - unfold setRemoteIdentityFromPublicKey in *. destruct (verify _ _ _); [|discriminate].
      change (kRemoteSession (setRemote (adjTo k k') (Some (kIdentity m')) (kRemoteSession (adjTo k k')))) with (kRemoteSession k).
      change (kRemoteSession (setRemote k (Some (kIdentity m')) (kRemoteSession k))) with (kRemoteSession k) in E.
      destruct (kRemoteSession k) eqn:Es; injection E as <- <-; rewrite <- Sn; unfold adjTo; cbn; rewrite ?Es; reflexivity.
  Qed.
End FineProofs.
