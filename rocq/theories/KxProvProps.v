(** C116: where the session's keys come from, whatever the schedule. *)
From Coq Require Import String NArith List Bool Lia Arith.
From Verif Require Import Base BaseLemmas TS MessageModel KxModel KxSpec KxProofs KxRunProofs KxProps KxFineModel KxFineSpec KxFineProofs IntegSpec IntegProofs IntegAuth KxFineProps.
Import ListNotations.
Local Open Scope list_scope.
Local Open Scope N_scope.

(** ** What is claimed *)

(** A private key drawn in the run. *)
Definition drawnIn (ls : list flabel) (p : bytes) : Prop :=
  exists pub now, In (FStep (KLoopGen p pub now)) ls \/ exists i, In (FStep (KAnswerGen i p pub now)) ls.

(** A public key out of a message of the run with a valid signature of [id]. *)
Definition announcedBy (verify : bytes -> bytes -> bytes -> bool) (id : bytes) (ls : list flabel) (x : bytes) : Prop :=
  exists b sig body tail m, In (FStep (KHandle b)) ls /\ wire sig body tail b /\ verify id sig body = true /\
    kxDecode body = Some m /\ kPub m = x.

(** ** Lemmas *)
Section Prov.
  Variable verify : bytes -> bytes -> bytes -> bool.
  Variable dh : bytes -> bytes -> bytes.
  Variables blake3 sha3 : bytes -> bytes.
  Variable c : kxConf.
  Hypothesis dh_len : forall a b, List.length (dh a b) = 32%nat.
  Hypothesis sha3_len : forall b, List.length (sha3 b) = 32%nat.
  Notation sound := (soundKeys dh blake3 sha3 (cPSK c)).

  Definition heardBy (r : option bytes) (ls : list flabel) (x : bytes) : Prop :=
    exists id, r = Some id /\ announcedBy verify id ls x.

  Definition kprov (ls : list flabel) (k : kx) : Prop :=
    (forall x, kNextRemote k = Some x -> heardBy (kRemoteIdentity k) ls x) /\
    (forall x, kPrevRemote k = Some x -> heardBy (kRemoteIdentity k) ls x) /\
    (forall p, kNextLocal k = Some p -> drawnIn ls p) /\ (forall p, kPrevLocal k = Some p -> drawnIn ls p) /\
    sound (heardBy (kRemoteIdentity k) ls) (drawnIn ls) (kKeys k).

  Definition accProv (ls : list flabel) (k : kx) (acc : partSecrets) : Prop :=
    sound (heardBy (kRemoteIdentity k) ls) (drawnIn ls) acc.

  Definition prov (ls : list flabel) (s : fxs) : Prop :=
    kprov ls (xKx (fX s)) /\
    (forall m acc, fHandle s = Some (m, Some acc) -> accProv ls (xKx (fX s)) acc) /\
    (forall acc, fLoop s = Some acc -> accProv ls (xKx (fX s)) acc) /\
    (forall i acc, fAns s i = Some acc -> accProv ls (xKx (fX s)) acc).

  Lemma drawn_more : forall ls l p, drawnIn ls p -> drawnIn (ls ++ [l]) p.
  Proof. intros ls l p (pub & now & [H|(i & H)]); exists pub, now; [left|right; exists i]; apply in_or_app; auto. Qed.
  Lemma heard_more : forall r r' ls l x, (forall id, r = Some id -> r' = Some id) -> heardBy r ls x -> heardBy r' (ls ++ [l]) x.
  Proof.
    intros r r' ls l x Hr (id & Hi & b & sig & body & tail & m & H & R). exists id. split; [auto|].
    exists b, sig, body, tail, m. split; [apply in_or_app; auto|exact R].
  Qed.

  Lemma acc_more : forall ls l k k' acc, (forall id, kRemoteIdentity k = Some id -> kRemoteIdentity k' = Some id) ->
    accProv ls k acc -> accProv (ls ++ [l]) k' acc.
  Proof.
    intros ls l k k' acc Hr. apply soundKeys_mono; intros x; [apply heard_more; exact Hr|apply drawn_more].
  Qed.
  Lemma kprov_more : forall ls l k, kprov ls k -> kprov (ls ++ [l]) k.
  Proof.
    intros ls l k (A & B & C & D & E). split; [|split; [|split; [|split]]]; intros.
    - apply (heard_more (kRemoteIdentity k)); auto.
    - apply (heard_more (kRemoteIdentity k)); auto.
    - apply drawn_more; auto.
    - apply drawn_more; auto.
    - apply (acc_more ls l k k); auto.
  Qed.

  Definition sameProv (k k' : kx) : Prop :=
    kRemoteIdentity k' = kRemoteIdentity k /\ kNextRemote k' = kNextRemote k /\ kPrevRemote k' = kPrevRemote k /\
    kNextLocal k' = kNextLocal k /\ kPrevLocal k' = kPrevLocal k.

  Lemma kprov_same : forall ls k k', sameProv k k' -> kKeys k' = kKeys k -> kprov ls k -> kprov ls k'.
  Proof. intros ls k k' (A & B & C & D & E) F. unfold kprov. rewrite A, B, C, D, E, F. auto. Qed.

  Lemma cipher_same : forall acc ks, (forall k, In (Some k) acc -> List.length k = 32%nat) -> cipherKeysOf acc = Ret ks -> ks = acc.
  Proof.
    induction acc as [|o acc IH]; intros ks H E; cbn [cipherKeysOf] in E; [injection E as <-; reflexivity|].
    destruct o as [b|].
    - assert (L : List.length b = 32%nat) by (apply H; left; reflexivity).
      assert (Gs : gslice b 0 32 = Some b).
      { unfold gslice, len. rewrite L. cbn [N.of_nat]. change ((0 <=? 32) && (32 <=? _)) with true. cbn iota.
        change (N.to_nat (32 - 0)) with 32%nat. change (N.to_nat 0) with 0%nat. cbn [skipn]. f_equal. rewrite <- L. apply firstn_all. }
      rewrite Gs in E. destruct (cipherKeysOf acc) as [ks'|]; [|discriminate].
      injection E as <-. f_equal. apply IH; [|reflexivity]. intros k Hk. apply H. right. exact Hk.
    - destruct (cipherKeysOf acc) as [ks'|]; [|discriminate]. injection E as <-. f_equal. apply IH; [|reflexivity].
      intros k Hk. apply H. right. exact Hk.
  Qed.

  Lemma made_len : forall p x k, madeOf dh (maskOf blake3 sha3 (cPSK c)) p x k -> List.length k = 32%nat.
  Proof.
    intros p x k H. destruct (cPSK c); cbn [maskOf option_map madeOf] in H.
    - destruct H as (H & _). rewrite <- H. apply dh_len.
    - rewrite H. apply dh_len.
  Qed.

  Lemma upd_prov : forall ls k acc k' a, kprov ls k -> accProv ls k acc -> updStep dh blake3 sha3 c k acc = Ret (k', a) ->
    kprov ls k' /\ sameProv k k' /\ (forall acc', a = Some acc' -> accProv ls k' acc').
  Proof.
    intros ls k acc k' a K A. unfold updStep. pose proof K as (K1 & K2 & K3 & K4 & K5).
    destruct (Nat.ltb _ _).
    - destruct (secretParts k (N.of_nat (List.length acc))) as [l r] eqn:Ep.
      destruct (generateSharedKey dh blake3 sha3 (cPSK c) l r) as [o|] eqn:Eg; [|discriminate]. injection 1 as <- <-.
      split; [exact K|]. split; [unfold sameProv; auto|]. intros acc' H. injection H as <-.
      intros x Hx. apply in_app_iff in Hx. destruct Hx as [Hx|[Hx|[]]]; [exact (A x Hx)|]. subst o.
      destruct (gsk_made dh blake3 sha3 dh_len sha3_len _ _ _ _ Eg) as (p & y & -> & -> & M). exists p, y.
      unfold secretParts in Ep. split; [|split; [|exact M]].
      + destruct (_ =? 0); [injection Ep as E1 E2; auto|]. destruct (_ =? 1); [injection Ep as E1 E2; auto|].
        destruct (_ =? 2); injection Ep as E1 E2; auto.
      + destruct (_ =? 0); [injection Ep as E1 E2; auto|]. destruct (_ =? 1); [injection Ep as E1 E2; auto|].
        destruct (_ =? 2); injection Ep as E1 E2; auto.
    - assert (Same : sameProv k k) by (unfold sameProv; auto).
      destruct acc as [|[[|b0 bs]|] acc]; try (injection 1 as <- <-; split; [exact K|]; split; [exact Same|discriminate]).
      destruct (cipherKeysOf _) as [ks|] eqn:Ec; [|discriminate]. injection 1 as <- <-.
      apply cipher_same in Ec; [|intros x Hx; destruct (A x Hx) as (p & y & _ & _ & M); exact (made_len _ _ _ M)]. subst ks.
      split; [|split; [exact Same|discriminate]]. split; [exact K1|]. split; [exact K2|]. split; [exact K3|]. split; [exact K4|exact A].
  Qed.

  (** The parts of [Handle] before the update. *)
  Lemma begin_prov : forall ls k b k' r, kprov ls k -> beginHandle verify c k b = (k', r) ->
    kprov (ls ++ [FStep (KHandle b)]) k' /\ (forall id, kRemoteIdentity k = Some id -> kRemoteIdentity k' = Some id).
  Proof.
    intros ls k b k' r K. unfold beginHandle, parseAndCheck.
    assert (Sm : forall k1 : kx, sameProv k k1 -> kKeys k1 = kKeys k -> kprov (ls ++ [FStep (KHandle b)]) k1 /\
      (forall id, kRemoteIdentity k = Some id -> kRemoteIdentity k1 = Some id)).
    { intros k1 H1 H2. split; [apply kprov_more; eapply kprov_same; eauto|]. destruct H1 as (-> & _). auto. }
    destruct (len b <? kxSignedSize) eqn:El; [injection 1 as <- _; apply Sm; unfold sameProv; auto|].
    destruct (negb _) eqn:Ev; [injection 1 as <- _; apply Sm; unfold sameProv; auto|].
    destruct (kxDecode _) as [m|] eqn:Ed; [|injection 1 as <- _; apply Sm; unfold sameProv; auto].
    destruct (negb (_ =? _)); [injection 1 as <- _; apply Sm; unfold sameProv; auto|].
    destruct (bytes_eqb _ _); [injection 1 as <- _; apply Sm; unfold sameProv; auto|].
    destruct (kCtxDone k); [injection 1 as <- _; apply Sm; unfold sameProv; auto|].
    apply N.ltb_ge in El. apply negb_false_iff in Ev.
    assert (W : forall id, verify id (firstn 64 b) (firstn 82 (skipn 64 b)) = true -> announcedBy verify id (ls ++ [FStep (KHandle b)]) (kPub m)).
    { intros id Hv. exists b, (firstn 64 b), (firstn 82 (skipn 64 b)), (skipn 82 (skipn 64 b)), m.
      split; [apply in_or_app; right; left; reflexivity|]. split; [|auto].
      unfold kxSignedSize, kxMsgSize, len in El. cbn in El. split; [rewrite !firstn_skipn; reflexivity|].
      rewrite !firstn_length, skipn_length. lia. }
    (* from here on: identity pinned, session ID set, then the key *)
    assert (Fin : forall (k1 : kx) id, kRemoteIdentity k1 = Some id -> announcedBy verify id (ls ++ [FStep (KHandle b)]) (kPub m) ->
      kprov (ls ++ [FStep (KHandle b)]) k1 -> (forall id, kRemoteIdentity k = Some id -> kRemoteIdentity k1 = Some id) ->
      kprov (ls ++ [FStep (KHandle b)]) (setNextRemotePublicKey k1 (kPub m)) /\
      (forall id, kRemoteIdentity k = Some id -> kRemoteIdentity (setNextRemotePublicKey k1 (kPub m)) = Some id)).
    { intros k1 id Hi Ha (A & B & C & D & E) Hk. unfold setNextRemotePublicKey.
      destruct (match kNextRemote k1 with Some y => bytes_eqb y (kPub m) | None => false end); [split; [split; [exact A|]; auto|exact Hk]|].
      split; [|exact Hk]. split; [|split; [exact A|auto]]. cbn [setRemoteKeys kNextRemote kRemoteIdentity]. intros x Hx. injection Hx as <-.
      exists id. auto. }
    destruct (kRemoteIdentity k) as [id|] eqn:Er.
    - injection 1 as <- _. 
      apply (Fin _ id); [destruct (kRemoteSession k); exact Er|apply W; exact Ev| |destruct (kRemoteSession k); cbn [setRemote kRemoteIdentity]; rewrite ?Er; auto].
      apply kprov_more. eapply kprov_same; [|..|exact K]; destruct (kRemoteSession k); unfold sameProv; auto.
    - unfold setRemoteIdentityFromPublicKey. destruct (verify (kIdentity m) _ _) eqn:Ev'.
      + injection 1 as <- _. set (k1 := match kRemoteSession _ with Some _ => _ | None => _ end).
        assert (Ki : kRemoteIdentity k1 = Some (kIdentity m)) by (unfold k1; destruct (kRemoteSession _); reflexivity).
        apply (Fin _ (kIdentity m)); [exact Ki|apply W; exact Ev'| |discriminate].
        destruct K as (A & B & C & D & E). rewrite Er in *. 
        assert (Nh : forall x, ~ heardBy None ls x) by (intros x (id & H & _); discriminate).
        assert (F : kNextRemote k1 = kNextRemote k /\ kPrevRemote k1 = kPrevRemote k /\ kNextLocal k1 = kNextLocal k /\ kPrevLocal k1 = kPrevLocal k /\ kKeys k1 = kKeys k)
          by (unfold k1; destruct (kRemoteSession _); auto).
        destruct F as (F1 & F2 & F3 & F4 & F5). unfold kprov. rewrite F1, F2, F3, F4, F5.
        split; [intros x Hx; destruct (Nh x (A x Hx))|]. split; [intros x Hx; destruct (Nh x (B x Hx))|].
        split; [intros; apply drawn_more; auto|]. split; [intros; apply drawn_more; auto|].
        intros x Hx. destruct (E x Hx) as (p & y & _ & Hy & _). destruct (Nh y Hy).
      + injection 1 as <- _. rewrite <- Er in Sm |- *. apply Sm; unfold sameProv; auto.
  Qed.

  Lemma install_prov : forall ls l k priv pub now, drawnIn (ls ++ [l]) priv -> kprov ls k -> kprov (ls ++ [l]) (beginInstall k priv pub now).
  Proof.
    intros ls l k priv pub now Hd K. apply (kprov_more ls l) in K. destruct K as (A & B & C & D & E).
    split; [exact A|]. split; [exact B|]. split; [intros p H; injection H as <-; exact Hd|]. split; [exact C|exact E].
  Qed.

  Lemma prov_step : forall ls s l s', prov ls s -> fstep verify dh blake3 sha3 c s l = Some s' -> prov (ls ++ [l]) s'.
  Proof.
    intros ls s l s' (K & Ph & Pl & Pa) E. unfold KxFineModel.fstep in E. destruct (xPanic (fX s)); [discriminate|].
    assert (Mv : forall (k' : kx) (s1 : fxs), xKx (fX s1) = k' -> (forall id, kRemoteIdentity (xKx (fX s)) = Some id -> kRemoteIdentity k' = Some id) ->
      kprov (ls ++ [l]) k' ->
      (forall m acc, fHandle s1 = Some (m, Some acc) -> fHandle s = Some (m, Some acc) \/ accProv (ls ++ [l]) k' acc) ->
      (forall acc, fLoop s1 = Some acc -> fLoop s = Some acc \/ accProv (ls ++ [l]) k' acc) ->
      (forall i acc, fAns s1 i = Some acc -> fAns s i = Some acc \/ accProv (ls ++ [l]) k' acc) -> prov (ls ++ [l]) s1).
    { intros k' s1 Ek Hr Kk H1 H2 H3. unfold prov. rewrite Ek. split; [exact Kk|]. split; [|split].
      - intros m acc H. destruct (H1 m acc H) as [G|G]; [|exact G]. eapply acc_more; [exact Hr|]. eapply Ph; exact G.
      - intros acc H. destruct (H2 acc H) as [G|G]; [|exact G]. eapply acc_more; [exact Hr|]. eapply Pl; exact G.
      - intros i acc H. destruct (H3 i acc H) as [G|G]; [|exact G]. eapply acc_more; [exact Hr|]. eapply Pa; exact G. }
    assert (Nil : forall k, accProv (ls ++ [l]) k []) by (intros k x []).
    assert (Qu : forall k, isUpd k = false -> quiet verify dh blake3 sha3 c s k = Some s' -> prov (ls ++ [l]) s').
    { intros k Hk Eq. unfold quiet in Eq. destruct (kstep verify dh blake3 sha3 c (fX s) k) as [x|] eqn:Ex; [|discriminate]. injection Eq as <-.
      destruct (quiet_sim verify dh blake3 sha3 c _ _ _ (xKx (fX s)) Hk Ex (agree_refl _)) as (Ek & _).
      apply (Mv (xKx x)); auto; rewrite Ek; [auto|]. apply kprov_more. eapply kprov_same; [..|exact K]; unfold sameProv; auto. }
    destruct l as [k| | | |i].
    - destruct k; try (match type of E with (if ?b then _ else _) = _ => destruct b; [|discriminate] end; eapply Qu; [|exact E]; reflexivity).
      + destruct (flocked s); [discriminate|]. destruct (beginHandle verify c (xKx (fX s)) b) as [k r] eqn:Eb.
        destruct (begin_prov ls _ _ _ _ K Eb) as [B1 B2]. injection E as <-. apply (Mv k); auto.
        * destruct r; reflexivity.
        * intros m acc H. destruct r; [auto|]. injection H as <- <-. auto.
        * intros acc H. destruct r; auto.
        * intros j acc H. destruct r; auto.
      + destruct (xLoop (fX s)); try discriminate. destruct (fLoop s) eqn:Ef; [discriminate|]. injection E as <-.
        apply (Mv (beginInstall (xKx (fX s)) priv pub now)); auto.
        * apply install_prov; [|exact K]. exists pub, now. left. apply in_or_app. right. left. reflexivity.
        * intros acc H. injection H as <-. auto.
      + destruct (nth_error _ _) as [[]|]; try discriminate. destruct (fAns s i) eqn:Ef; [discriminate|]. injection E as <-.
        apply (Mv (beginInstall (xKx (fX s)) priv pub now)); auto.
        * apply install_prov; [|exact K]. exists pub, now. right. exists i. apply in_or_app. right. left. reflexivity.
        * intros j acc H. cbn [setFAns fAns setFx] in H. unfold fupd in H. destruct (Nat.eqb j i); [injection H as <-; auto|auto].
      + eapply Qu; [|exact E]. reflexivity.
    - destruct (fHandle s) as [[m [acc|]]|] eqn:Eh; try discriminate. destruct (updStep _ _ _ _ _ _) as [[k a]|] eqn:Eu; injection E as <-.
      + destruct (upd_prov (ls ++ [FHandleUpd]) _ _ _ _ (kprov_more _ _ _ K) (acc_more _ _ _ _ _ (fun id H => H) (Ph _ _ eq_refl)) Eu) as (U1 & (U2 & _) & U3).
        apply (Mv k); auto; [intros id Hi; rewrite U2; exact Hi|]. intros m' acc' H. injection H as <- ->. auto.
      + apply (Mv (xKx (fX s))); auto; [apply kprov_more; exact K|]. cbn [setFx fHandle fLoop fAns]. rewrite ?Eh. auto.
    - destruct (fHandle s) as [[m [acc|]]|] eqn:Eh; try discriminate. destruct (endHandle c (xKx (fX s)) m) as [k h] eqn:Ee. injection E as <-.
      assert (Sk : sameProv (xKx (fX s)) k /\ kKeys k = kKeys (xKx (fX s))).
      { unfold endHandle in Ee. injection Ee as <- _. destruct (_ || _); unfold sameProv; auto 10. }
      destruct Sk as [S1 S2]. apply (Mv k); auto.
      + destruct h as [| |[]]; reflexivity.
      + destruct S1 as (-> & _). auto.
      + apply kprov_more. eapply kprov_same; eauto.
      + discriminate.
    - destruct (fLoop s) as [acc|] eqn:Eh; try discriminate. destruct (updStep _ _ _ _ _ _) as [[k a]|] eqn:Eu; injection E as <-.
      + destruct (upd_prov (ls ++ [FLoopUpd]) _ _ _ _ (kprov_more _ _ _ K) (acc_more _ _ _ _ _ (fun id H => H) (Pl _ eq_refl)) Eu) as (U1 & (U2 & _) & U3).
        apply (Mv k); auto. intros id Hi. rewrite U2. exact Hi.
      + apply (Mv (xKx (fX s))); auto; [apply kprov_more; exact K|]. cbn [setFx fHandle fLoop fAns]. rewrite ?Eh. auto.
    - destruct (fAns s i) as [acc|] eqn:Eh; try discriminate. destruct (updStep _ _ _ _ _ _) as [[k a]|] eqn:Eu; injection E as <-.
      + destruct (upd_prov (ls ++ [FAnswerUpd i]) _ _ _ _ (kprov_more _ _ _ K) (acc_more _ _ _ _ _ (fun id H => H) (Pa _ _ Eh)) Eu) as (U1 & (U2 & _) & U3).
        apply (Mv k); auto; [intros id Hi; rewrite U2; exact Hi|]. intros j acc' H.
        cbn [setFAns fAns setFx] in H. unfold fupd in H. destruct (Nat.eqb j i); auto.
      + apply (Mv (xKx (fX s))); auto. apply kprov_more. exact K.
  Qed.

  Lemma step_identity : forall s l s' r, kRemoteIdentity (xKx (fX s)) = Some r -> fstep verify dh blake3 sha3 c s l = Some s' ->
    kRemoteIdentity (xKx (fX s')) = Some r.
  Proof.
    intros s l s' r Hr E. unfold KxFineModel.fstep in E. destruct (xPanic (fX s)); [discriminate|].
    assert (Qu : forall k, isUpd k = false -> quiet verify dh blake3 sha3 c s k = Some s' -> kRemoteIdentity (xKx (fX s')) = Some r).
    { intros k Hk Eq. unfold quiet in Eq. destruct (kstep verify dh blake3 sha3 c (fX s) k) as [x|] eqn:Ex; [|discriminate]. injection Eq as <-.
      cbn [setFx fX]. destruct (quiet_sim verify dh blake3 sha3 c _ _ _ (xKx (fX s)) Hk Ex (agree_refl _)) as (-> & _). exact Hr. }
    assert (Up : forall k acc k' a, updStep dh blake3 sha3 c k acc = Ret (k', a) -> kRemoteIdentity k' = kRemoteIdentity k).
    { intros k acc k' a. unfold updStep. destruct (Nat.ltb _ _).
      - destruct (secretParts _ _). destruct (generateSharedKey _ _ _ _ _ _); [|discriminate]. injection 1 as <- _. auto.
      - destruct acc as [|[[|b0 bs]|] acc]; try (injection 1 as <- _; auto). destruct (cipherKeysOf _); [|discriminate]. injection 1 as <- _. auto. }
    destruct l as [k| | | |i].
    - destruct k; try (match type of E with (if ?b then _ else _) = _ => destruct b; [|discriminate] end; eapply Qu; [|exact E]; reflexivity).
      + destruct (flocked s); [discriminate|]. destruct (beginHandle verify c (xKx (fX s)) b) as [k r'] eqn:Eb. injection E as <-.
        assert (B : kRemoteIdentity k = Some r).
        { unfold beginHandle, parseAndCheck in Eb. destruct (_ <? _); [injection Eb as <- _; exact Hr|].
          destruct (negb _); [injection Eb as <- _; exact Hr|]. destruct (kxDecode _) as [m|]; [|injection Eb as <- _; exact Hr].
          destruct (negb _); [injection Eb as <- _; exact Hr|]. destruct (bytes_eqb _ _); [injection Eb as <- _; exact Hr|].
          destruct (kCtxDone _); [injection Eb as <- _; exact Hr|]. rewrite Hr in Eb. injection Eb as <- _.
          unfold setNextRemotePublicKey. destruct (kRemoteSession _); destruct (match kNextRemote _ with Some _ => _ | None => _ end); cbn; auto. }
        destruct r'; exact B.
      + destruct (xLoop (fX s)); try discriminate. destruct (fLoop s); [discriminate|]. injection E as <-. exact Hr.
      + destruct (nth_error _ _) as [[]|]; try discriminate. destruct (fAns s i); [discriminate|]. injection E as <-. exact Hr.
      + eapply Qu; [|exact E]. reflexivity.
    - destruct (fHandle s) as [[m [acc|]]|]; try discriminate. destruct (updStep _ _ _ _ _ _) as [[k a]|] eqn:Eu; injection E as <-; [|exact Hr].
      cbn. rewrite (Up _ _ _ _ Eu). exact Hr.
    - destruct (fHandle s) as [[m [acc|]]|]; try discriminate. unfold endHandle in E. injection E as <-.
      destruct (negb (kxIsAnswer (kFlags m)) && negb (cMode c =? AnswersModeDisable)); destruct (kxIsAnswer (kFlags m) || negb (cMode c =? AnswersModeAnswerAndWait)); exact Hr.
    - destruct (fLoop s) as [acc|]; try discriminate. destruct (updStep _ _ _ _ _ _) as [[k a]|] eqn:Eu; injection E as <-; [|exact Hr].
      cbn. rewrite (Up _ _ _ _ Eu). exact Hr.
    - destruct (fAns s i) as [acc|]; try discriminate. destruct (updStep _ _ _ _ _ _) as [[k a]|] eqn:Eu; injection E as <-; [|exact Hr].
      cbn. rewrite (Up _ _ _ _ Eu). exact Hr.
  Qed.

  Lemma pinned_run : forall r ls s, exec (fstep verify dh blake3 sha3 c) (fxsInit (Some r)) ls = Some s -> kRemoteIdentity (xKx (fX s)) = Some r.
  Proof.
    intros r. apply (exec_snoc_inv _ _ (fstep verify dh blake3 sha3 c) (fun ls s => kRemoteIdentity (xKx (fX s)) = Some r)); [reflexivity|].
    intros ls s l s' _ IH E. apply (step_identity s l s' r); assumption.
  Qed.

  Lemma prov_run : forall remote ls s, exec (fstep verify dh blake3 sha3 c) (fxsInit remote) ls = Some s -> prov ls s.
  Proof.
    intros remote. apply (exec_snoc_inv _ _ (fstep verify dh blake3 sha3 c) (fun ls s => prov ls s)).
    - split; [|split; [|split]]; try discriminate. split; [discriminate|]. split; [discriminate|]. split; [discriminate|]. split; [discriminate|]. intros k [].
    - intros ls s l s' _ IH E. eapply prov_step; eauto.
  Qed.
End Prov.

(** ** C116: whatever the goroutines do and whatever messages come, every key the
    session uses is made of a private key drawn by this exchanger and a public key
    out of a message with a valid signature of the remote identity. *)
Theorem C116_provenance : forall verify dh blake3 sha3 c remote ls s k,
  (forall x y, List.length (dh x y) = 32%nat) -> (forall x, List.length (sha3 x) = 32%nat) ->
  exec (fstep verify dh blake3 sha3 c) (fxsInit remote) ls = Some s -> In (Some k) (kKeys (xKx (fX s))) ->
  exists id p x, kRemoteIdentity (xKx (fX s)) = Some id /\ (forall r, remote = Some r -> id = r) /\
    drawnIn ls p /\ announcedBy verify id ls x /\
    let t := ascii_bytes "xaionaro-go/secureio.KeyExchangercipherKey"%string in
    madeOf dh (option_map (fun p => sha3 (blake3 (p ++ t) ++ t)) (cPSK c)) p x k.
Proof.
  intros verify dh blake3 sha3 c remote ls s k Hl Hs E Hk.
  destruct (prov_run verify dh blake3 sha3 c Hl Hs remote ls s E) as ((_ & _ & _ & _ & K) & _).
  destruct (K k Hk) as (p & x & Hp & (id & Hi & Hx) & M). exists id, p, x. split; [exact Hi|]. split.
  { intros r ->. assert (P := pinned_run verify dh blake3 sha3 c r ls s E). congruence. }
  split; [exact Hp|]. split; [exact Hx|]. unfold maskOf, hash in M. cbn [concat] in M. rewrite app_nil_r in M. exact M.
Qed.
Print Assumptions C116_provenance.

(** The run of the lost update (C107): even the stale key is such a key.  Here
    nobody was expected, the identity is that of the first message. *)
Example C116_example :
  match exec toyFine (fxsInit None) lostUpdate with
  | Some s => kRemoteIdentity (xKx (fX s)) = Some (key32 2) /\
      kKeys (xKx (fX s)) = [Some (toyDh (key32 4) (toyPub (key32 11))); None; None; None]
  | None => False
  end.
Proof. vm_compute. auto. Qed.
