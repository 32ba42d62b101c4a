(** C50, C52, C86: two key exchangers. *)
From Coq Require Import NArith List Bool Lia.
From Verif Require Import Base BaseLemmas TS MessageModel CodecProofs KxModel KxSpec KxProofs KxRunProofs KxProps KxPairModel.
Import ListNotations.
Local Open Scope N_scope.

Definition toyPair := pstep toyVerify toyDh toyHash toyHash toySign (toyConf None 1) (toyConf None 2).
Definition toyPair0 := pairInit (Some (key32 2)) (Some (key32 1)).

(** A's first key: requested (and requested again before the answer came),
    answered twice. *)
Definition firstExchange : list plabel :=
  [PA (KLoopGo 100); PA KLoopCheck; PA (KLoopGen (key32 3) (toyPub (key32 3)) 100); PA KLoopSend; PA KLoopRetry;
   PToB 0; PToB 1;
   PB (KAnswer 0 100); PB (KAnswer 0 100); PB (KAnswerGen 0 (key32 11) (toyPub (key32 11)) 100); PB (KAnswer 0 100); PB (KAnswer 0 100);
   PB (KAnswer 1 100); PB (KAnswer 1 100);
   PToA 0; PA KLoopNotified].

(** ** C50 *)

(** The peers agree on all keys; then A makes its next key. From that moment A
    seals with a key B does not have, before B could possibly know about it. *)
Theorem C50_rotation_loses_packets_refuted : exists s s' k,
  exec toyPair toyPair0 firstExchange = Some s /\
  slots_match (kKeys (xKx (pA s))) (kKeys (xKx (pB s))) /\ nth 0 (kKeys (xKx (pA s))) None <> None /\
  exec toyPair s [PA (KLoopGo 200); PA KLoopCheck; PA (KLoopGen (key32 4) (toyPub (key32 4)) 200)] = Some s' /\
  length (xSent (pA s')) = length (xSent (pA s)) /\
  nth 0 (kKeys (xKx (pA s'))) None = Some k /\ ~ In (Some k) (kKeys (xKx (pB s'))).
Proof.
  do 3 eexists. split; [vm_compute; reflexivity|]. split.
  { do 4 eexists. split; vm_compute; reflexivity. }
  split; [vm_compute; discriminate|]. split; [vm_compute; reflexivity|]. split; [vm_compute; reflexivity|]. split; [vm_compute; reflexivity|].
  vm_compute. intros H. repeat (destruct H as [H|H]; [discriminate|]). exact H.
Qed.
Print Assumptions C50_rotation_loses_packets_refuted.

(** What is enough: B knows A's newest key as one of the two it remembers, and
    the key of B that A knows is one of B's two. *)
Theorem C50_decryptable_partial : forall dh blake3 sha3 pub ca cb a b a' b' la lb,
  dh_agrees dh pub -> (forall x y, length (dh x y) = 32%nat) -> (forall x, length (sha3 x) = 32%nat) ->
  cPSK ca = cPSK cb ->
  kNextLocal a = Some la -> kNextRemote a = Some (pub lb) ->
  (kNextRemote b = Some (pub la) \/ kPrevRemote b = Some (pub la)) ->
  (kNextLocal b = Some lb \/ kPrevLocal b = Some lb) ->
  kNextLocal b <> None -> kNextRemote b <> None ->
  updateSecrets dh blake3 sha3 ca a = Ret a' -> updateSecrets dh blake3 sha3 cb b = Ret b' ->
  exists k, nth 0 (kKeys a') None = Some k /\ In (Some k) (kKeys b').
Proof.
  intros dh blake3 sha3 pub ca cb a b a' b' la lb Hdh Hl Hs Hp La Ra Rb Lb Nl Nr Ea Eb.
  rewrite (update_spec dh blake3 sha3 Hl Hs) in Ea. rewrite La, Ra, Hp in Ea.
  assert (G : generateSharedKey dh blake3 sha3 (cPSK cb) (Some la) (Some (pub lb)) =
              generateSharedKey dh blake3 sha3 (cPSK cb) (Some lb) (Some (pub la))).
  { cbn [generateSharedKey]. rewrite (Hdh la lb). reflexivity. }
  rewrite G in Ea.
  destruct (generateSharedKey dh blake3 sha3 (cPSK cb) (Some lb) (Some (pub la))) as [k|] eqn:Ek; [|discriminate].
  destruct (generateSharedKey dh blake3 sha3 (cPSK cb) (Some la) (kPrevRemote a)) as [k1|] eqn:E1; [|discriminate].
  destruct (generateSharedKey dh blake3 sha3 (cPSK cb) (kPrevLocal a) (Some (pub lb))) as [k2|] eqn:E2; [|discriminate].
  destruct (generateSharedKey dh blake3 sha3 (cPSK cb) (kPrevLocal a) (kPrevRemote a)) as [k3|] eqn:E3; [|discriminate].
  destruct (gsk_spec dh blake3 sha3 Hl Hs (cPSK cb) (Some lb) (Some (pub la))) as [(? & ? & _ & _ & _ & E)|[(? & ? & k' & _ & _ & _ & E & _)|([E|E] & _)]]; try discriminate; try congruence.
  assert (k = Some k') by congruence. subst k. injection Ea as <-. exists k'. split; [reflexivity|].
  rewrite (update_spec dh blake3 sha3 Hl Hs) in Eb.
  destruct (generateSharedKey dh blake3 sha3 (cPSK cb) (kNextLocal b) (kNextRemote b)) as [j0|] eqn:J0; [|discriminate].
  destruct (generateSharedKey dh blake3 sha3 (cPSK cb) (kNextLocal b) (kPrevRemote b)) as [j1|] eqn:J1; [|discriminate].
  destruct (generateSharedKey dh blake3 sha3 (cPSK cb) (kPrevLocal b) (kNextRemote b)) as [j2|] eqn:J2; [|discriminate].
  destruct (generateSharedKey dh blake3 sha3 (cPSK cb) (kPrevLocal b) (kPrevRemote b)) as [j3|] eqn:J3; [|discriminate].
  destruct j0 as [j0|].
  2:{ exfalso. destruct (kNextLocal b) as [xl|]; [|congruence]. destruct (kNextRemote b) as [yr|]; [|congruence].
      destruct (gsk_spec dh blake3 sha3 Hl Hs (cPSK cb) (Some xl) (Some yr)) as [(? & ? & _ & _ & _ & F)|[(? & ? & ? & _ & _ & _ & F & _)|([F|F] & _)]]; congruence. }
  injection Eb as <-. cbn [kKeys setKeys].
  destruct Lb as [Lb|Lb]; destruct Rb as [Rb|Rb]; rewrite Lb, Rb in *.
  - left. congruence.
  - right. left. congruence.
  - right. right. left. congruence.
  - right. right. right. left. congruence.
Qed.
Print Assumptions C50_decryptable_partial.

(** Both have made a second key; B has seen A's, A has not seen B's. *)
Example C50_example : exists a b k,
  toyUpdate None (toyPeer 3 4 5 11) = Ret a /\
  toyUpdate None (setRemoteKeys (setLocalKeys (newKx None) (Some (key32 11)) (Some (key32 12)) (Some (toyPub (key32 12))) 1)
    (Some (toyPub (key32 3))) (Some (toyPub (key32 4)))) = Ret b /\
  nth 0 (kKeys a) None = Some k /\ nth 2 (kKeys b) None = Some k.
Proof. do 3 eexists. repeat split; vm_compute; reflexivity. Qed.

(** ** C52 *)

(** The second answer to the first key arrives when A has just made its second
    key: A takes the second key for confirmed and stops sending it. B has never
    seen it (the only message with it is lost), and A seals with it until the
    next rotation. *)
Definition staleRun : list plabel :=
  firstExchange ++
  [PA (KLoopGo 200); PA KLoopCheck; PA (KLoopGen (key32 4) (toyPub (key32 4)) 200); PA KLoopSend; PToA 1; PA KLoopNotified].

Theorem C52_stale_answer_refuted : exists s k,
  exec toyPair toyPair0 staleRun = Some s /\
  xLoop (pA s) = LpIdle /\ kLocalAt (xKx (pA s)) = 200 /\ kNextAt (xKx (pA s)) = 200 /\ kErrs (xKx (pA s)) = [] /\
  kNextLocalPub (xKx (pA s)) = Some (toyPub (key32 4)) /\
  kNextRemote (xKx (pB s)) = Some (toyPub (key32 3)) /\ kPrevRemote (xKx (pB s)) = None /\
  nth 0 (kKeys (xKx (pA s))) None = Some k /\ ~ In (Some k) (kKeys (xKx (pB s))).
Proof.
  do 2 eexists. split; [vm_compute; reflexivity|]. repeat (split; [vm_compute; reflexivity|]).
  vm_compute. intros H. repeat (destruct H as [H|H]; [discriminate|]). exact H.
Qed.
Print Assumptions C52_stale_answer_refuted.

Section Pairs.
  Variable verify : bytes -> bytes -> bytes -> bool.
  Variable dh : bytes -> bytes -> bytes.
  Variables blake3 sha3 : bytes -> bytes.
  Variable sign : bytes -> bytes -> bytes.
  Variables ca cb : kxConf.
  Notation step := (lstep (pstep verify dh blake3 sha3 sign ca cb)).

  (** Messages survive the wire. *)
  Hypothesis sign_len : forall id m, length (sign id m) = 64%nat.

  Definition wellFormed (m : kxMsg) : Prop := kxMsg_ok m.

  Lemma deliver_cases : forall (c c' : kxConf) k m k' h, wellFormed m ->
    handleKx verify dh blake3 sha3 c k (signedWire sign c' m) = Ret (k', h) ->
    (sameKeys k k' /\ (forall a, h <> HDone a)) \/ (accept dh blake3 sha3 c k m = Ret (k', h)).
  Proof.
    intros c c' k m k' h W E.
    assert (Wi : wire (sign (cIdentity c') (kxEncode m)) (kxEncode m) [] (signedWire sign c' m)).
    { unfold signedWire. split; [rewrite app_nil_r; reflexivity|]. split; [apply sign_len|apply kx_len; exact W]. }
    destruct (wire_parts _ _ _ _ Wi) as (_ & W2 & _).
    destruct (handle_cases verify dh blake3 sha3 c k (signedWire sign c' m) _ E) as [[e R]|[R|[(m' & e & D & R & _)|(m' & (D & A) & R)]]].
    - injection R as -> ->. left. split; [auto|discriminate].
    - injection R as -> ->. left. split; [auto|discriminate].
    - injection R as -> ->. left. split; [unfold sameKeys; cbn; auto 20|discriminate].
    - right. rewrite W2 in D. pose proof (kx_rt m [] W) as R'. rewrite app_nil_r in R'. rewrite R' in D. injection D as <-. auto.
  Qed.

  Lemma accept_done : forall c k m k' h, cMode c = AnswersModeAnswerAndWait -> accept dh blake3 sha3 c k m = Ret (k', h) ->
    kDone k' = (if kxIsAnswer (kFlags m) then kDone k + 1 else kDone k) /\ h = HDone (negb (kxIsAnswer (kFlags m))).
  Proof.
    intros c k m k' h Hm E. unfold accept in E. set (s1 := setRemote k _ _) in E. set (s2 := setNextRemotePublicKey s1 (kPub m)) in E.
    destruct (updateSecrets dh blake3 sha3 c s2) as [s3|] eqn:Eu; [|discriminate]. apply update_keys in Eu.
    rewrite Hm in E. change (negb (AnswersModeAnswerAndWait =? AnswersModeAnswerAndWait)) with false in E.
    change (negb (AnswersModeAnswerAndWait =? AnswersModeDisable)) with true in E. rewrite orb_false_r, andb_true_r in E.
    assert (D : kDone s3 = kDone k).
    { rewrite Eu. cbn [setKeys kDone]. unfold s2, setNextRemotePublicKey.
      destruct (match kNextRemote s1 with Some _ => _ | None => _ end); reflexivity. }
    injection E as <- <-. split; [|reflexivity]. destruct (kxIsAnswer (kFlags m)); [cbn; rewrite D; reflexivity|exact D].
  Qed.

  Lemma message_fields : forall c k a m, publicKeyMessage c k a = Ret m ->
    kNextLocalPub k = Some (kPub m) /\ kxIsAnswer (kFlags m) = a.
  Proof.
    intros c k a m E. unfold publicKeyMessage in E. destruct (kNextLocalPub k) as [p|]; [|discriminate]. injection E as <-.
    split; [reflexivity|]. destruct a; reflexivity.
  Qed.

  Lemma setNth_nil : forall l i p q, nth_error l i = Some p -> setNth l i q <> [].
  Proof. intros l i p q _ E. unfold setNth in E. apply app_eq_nil in E. destruct E as [_ E]. discriminate. Qed.

  (** A step of one side's goroutines. *)
  Lemma side_step : forall c x l x', kstep verify dh blake3 sha3 c x l = Some x' -> isHandle l = false ->
    kNextRemote (xKx x') = kNextRemote (xKx x) /\ kDone (xKx x') = kDone (xKx x) /\
    (xAnswers x <> [] <-> xAnswers x' <> []) /\
    (xSent x' = xSent x \/
     exists m, xSent x' = m :: xSent x /\ kNextLocalPub (xKx x) = Some (kPub m) /\
       (kxIsAnswer (kFlags m) = true -> In ApSend (xAnswers x)) /\
       (kxIsAnswer (kFlags m) = false -> exists t, xLoop x = LpSend t \/ xLoop x = LpWait t)) /\
    (kNextLocalPub (xKx x') = kNextLocalPub (xKx x) /\ xLog x' = xLog x \/
     exists p t, kNextLocalPub (xKx x') = Some p /\ xLog x' = t :: xLog x /\ xSent x' = xSent x).
  Proof.
    intros c x l x' E Hh.
    apply kstep_cases in E. destruct E as (_ & [(b & k & h & -> & _)|[(b & -> & _)|[(now & _ & (priv & pub & k & Ei & S & G & Hs & P & W))|[(priv & pub & now & Ei & ->)|Q]]]]); try discriminate.
    - destruct (install_fields _ _ _ _ _ _ _ _ _ Ei) as (_ & _ & F1 & _ & _ & F2 & _ & F3 & _).
      destruct S as (_ & _ & S1 & _ & _ & S2 & _ & _ & _ & _ & S3). rewrite S2, F2, S3, F3. split; [reflexivity|]. split; [reflexivity|]. split.
      + destruct W as [(_ & _ & W)|(i & N & W & _)]; rewrite W; [tauto|]. split; intros _; [eapply setNth_nil; eauto|].
        destruct (xAnswers x); [destruct i; discriminate|discriminate].
      + split; [auto|]. right. exists pub, (kNextAt k). rewrite S1. auto.
    - cbn. split; [auto|]. split; [auto|]. split; [tauto|]. auto.
    - destruct Q as ((_ & _ & S1 & _ & _ & S2 & _ & _ & _ & _ & S3) & G & M & _ & A). rewrite S1, S2, S3. split; [reflexivity|]. split; [reflexivity|]. split.
      + destruct A as [A|(i & p & q & N & A & _)]; rewrite A; [tauto|]. split; intros _; [eapply setNth_nil; eauto|].
        destruct (xAnswers x); [destruct i; discriminate|discriminate].
      + split; [|auto]. destruct M as [[M _]|[(m & a & E & M & _ & M1 & M2)|(_ & M & _)]]; auto. right. exists m.
        destruct (message_fields _ _ _ _ E) as [E1 E2]. rewrite E2. auto.
  Qed.

  (** A message of the other side. *)
  Lemma deliver_step : forall c c' x m x', kxMsg_ok m -> kstep verify dh blake3 sha3 c x (KHandle (signedWire sign c' m)) = Some x' ->
    kNextLocalPub (xKx x') = kNextLocalPub (xKx x) /\ xLog x' = xLog x /\ xSent x' = xSent x /\ xLoop x' = xLoop x /\
    kSkipUntil (xKx x') = kSkipUntil (xKx x) /\
    ((kNextRemote (xKx x') = kNextRemote (xKx x) /\ kDone (xKx x') = kDone (xKx x) /\ xAnswers x' = xAnswers x) \/
     (kNextRemote (xKx x') = Some (kPub m) /\
      (cMode c = AnswersModeAnswerAndWait ->
       kDone (xKx x') = (if kxIsAnswer (kFlags m) then kDone (xKx x) + 1 else kDone (xKx x)) /\
       xAnswers x' = (if kxIsAnswer (kFlags m) then xAnswers x else xAnswers x ++ [ApNew])) /\
      (xAnswers x' = xAnswers x \/ xAnswers x' = xAnswers x ++ [ApNew]))).
  Proof.
    intros c c' x m x' W E. pose proof E as E0. unfold kstep in E0. destruct (xPanic x) eqn:Ep; [discriminate|]. destruct (locked x); [discriminate|].
    destruct (handleKx verify dh blake3 sha3 c (xKx x) (signedWire sign c' m)) as [[k h]|] eqn:Eh.
    - destruct (handle_local _ _ _ _ _ _ _ _ _ Eh) as (_ & _ & F & _).
      assert (Sk : kSkipUntil k = kSkipUntil (xKx x)).
      { destruct (handle_cases verify dh blake3 sha3 c (xKx x) _ _ Eh) as [[e R]|[R|[(m' & e & D & R & _)|(m' & _ & R)]]];
          try (injection R as -> _; reflexivity). symmetry in R. apply accept_fields in R. tauto. }
      assert (X : xKx x' = k /\ xLog x' = xLog x /\ xSent x' = xSent x /\ xLoop x' = xLoop x /\
                  xAnswers x' = match h with HDone true => xAnswers x ++ [ApNew] | _ => xAnswers x end).
      { injection E0 as <-. destruct h as [| |[]]; cbn; auto. }
      destruct X as (-> & -> & -> & -> & XA). split; [exact F|]. split; [reflexivity|]. split; [reflexivity|]. split; [reflexivity|]. split; [exact Sk|].
      apply deliver_cases in Eh; [|exact W]. destruct Eh as [[S Hn]|Eh].
      + left. destruct S as (_ & _ & _ & _ & _ & S & _ & _ & _ & _ & S'). split; [exact S|]. split; [exact S'|]. rewrite XA.
        destruct h as [| |a]; auto. exfalso. eapply Hn; eauto.
      + right. pose proof (accept_fields _ _ _ _ _ _ _ _ Eh) as (_ & _ & F2 & _). split; [exact F2|]. split.
        * intros Hm. destruct (accept_done _ _ _ _ _ Hm Eh) as [D1 D2]. split; [exact D1|]. rewrite XA, D2.
          destruct (kxIsAnswer (kFlags m)); reflexivity.
        * rewrite XA. destruct h as [| |[]]; auto.
    - injection E0 as <-. cbn. auto 10.
  Qed.
End Pairs.

Definition allOk (s : pair) : Prop := Forall kxMsg_ok (xSent (pA s)) /\ Forall kxMsg_ok (xSent (pB s)).
Definition isAnswer (m : kxMsg) : Prop := kxIsAnswer (kFlags m) = true.

Definition firstKeyInv (s : pair) : Prop :=
  let a := pA s in let b := pB s in
  (xLog a = [] -> kNextLocalPub (xKx a) = None) /\
  (kNextLocalPub (xKx a) = None -> xSent a = []) /\
  ((length (xLog a) <= 1)%nat -> forall m, In m (xSent a) -> kNextLocalPub (xKx a) = Some (kPub m)) /\
  (xAnswers b <> [] -> kNextRemote (xKx b) <> None) /\
  (forall p, kNextRemote (xKx b) = Some p -> exists m, In m (xSent a) /\ kPub m = p) /\
  (forall m, In m (xSent b) -> isAnswer m -> xAnswers b <> []) /\
  (kDone (xKx a) <> 0 -> exists m, In m (xSent b) /\ isAnswer m).

Lemma firstKeyInv_step : forall verify dh blake3 sha3 sign ca cb,
  (forall id m, length (sign id m) = 64%nat) -> cMode ca = AnswersModeAnswerAndWait ->
  forall s s', lstep (pstep verify dh blake3 sha3 sign ca cb) s s' -> allOk s' -> allOk s /\ (firstKeyInv s -> firstKeyInv s').
Proof.
  intros verify dh blake3 sha3 sign ca cb Hsign Hmode s s' [l E] [OkA OkB]. unfold pstep in E. destruct l as [l|l|n|n].
  - destruct (isHandle l) eqn:Eh; [discriminate|]. unfold stepA in E. destruct (kstep verify dh blake3 sha3 ca (pA s) l) as [x|] eqn:E1; [|discriminate].
    injection E as <-. cbn [pA pB] in *. destruct (side_step _ _ _ _ _ _ _ _ E1 Eh) as (R1 & R2 & R3 & R4 & R5).
    split.
    { split; [|exact OkB]. destruct R4 as [R4|(m & R4 & _)]; rewrite R4 in OkA; [exact OkA|]. inversion OkA; auto. }
    intros (I1 & I2 & I3 & I4 & I5 & I6 & I7). unfold firstKeyInv. cbn [pA pB]. rewrite R2.
    destruct R5 as [[R5 R6]|(p & t & R5 & R6 & R7)].
    + rewrite R5, R6. split; [exact I1|]. destruct R4 as [R4|(m & R4 & M1 & M2 & M3)]; rewrite R4.
      * auto 10.
      * split; [congruence|]. split; [intros L m' [<-|Hin]; auto|]. split; [exact I4|]. split; [|auto].
        intros p Hp. destruct (I5 p Hp) as (m' & Hin & Hm). exists m'. split; [right; exact Hin|exact Hm].
    + rewrite R5, R6, R7. cbn [length]. split; [discriminate|]. split; [discriminate|]. split; [|auto].
      intros L m Hin. exfalso. assert (N : xLog (pA s) = []) by (destruct (xLog (pA s)); [reflexivity|cbn in L; lia]).
      rewrite (I2 (I1 N)) in Hin. exact Hin.
  - destruct (isHandle l) eqn:Eh; [discriminate|]. unfold stepB in E. destruct (kstep verify dh blake3 sha3 cb (pB s) l) as [x|] eqn:E1; [|discriminate].
    injection E as <-. cbn [pA pB] in *. destruct (side_step _ _ _ _ _ _ _ _ E1 Eh) as (R1 & R2 & R3 & R4 & R5).
    split.
    { split; [exact OkA|]. destruct R4 as [R4|(m & R4 & _)]; rewrite R4 in OkB; [exact OkB|]. inversion OkB; auto. }
    intros (I1 & I2 & I3 & I4 & I5 & I6 & I7). unfold firstKeyInv. cbn [pA pB]. rewrite R1. split; [exact I1|]. split; [exact I2|]. split; [exact I3|].
    split; [intros H; apply I4, R3, H|]. split; [exact I5|]. destruct R4 as [R4|(m & R4 & M1 & M2 & M3)]; rewrite R4.
    + split; [intros m Hin Ha; apply R3; eauto|exact I7].
    + split.
      * intros m' [<-|Hin] Ha; apply R3; [|eauto]. specialize (M2 Ha). intros N. rewrite N in M2. exact M2.
      * intros D. destruct (I7 D) as (m' & Hin & Ha). exists m'. split; [right; exact Hin|exact Ha].
  - destruct (nth_error (rev (xSent (pB s))) n) as [m|] eqn:En; [|discriminate].
    unfold stepA in E. destruct (kstep verify dh blake3 sha3 ca (pA s) _) as [x|] eqn:E1; [|discriminate]. injection E as <-. cbn [pA pB] in *.
    apply nth_error_In, in_rev in En. assert (Wm : kxMsg_ok m) by (rewrite Forall_forall in OkB; auto).
    destruct (deliver_step _ _ _ _ _ Hsign _ _ _ _ _ Wm E1) as (R1 & R2 & R3 & _ & _ & R4).
    split; [split; [rewrite <- R3; exact OkA|exact OkB]|].
    intros (I1 & I2 & I3 & I4 & I5 & I6 & I7). unfold firstKeyInv. cbn [pA pB]. rewrite R1, R2, R3.
    split; [exact I1|]. split; [exact I2|]. split; [exact I3|]. split; [exact I4|]. split; [exact I5|]. split; [exact I6|].
    destruct R4 as [(_ & R4 & _)|(_ & R4 & _)].
    + rewrite R4. exact I7.
    + destruct (R4 Hmode) as [R5 _]. rewrite R5. destruct (kxIsAnswer (kFlags m)) eqn:Ea; [|exact I7]. intros _. exists m. auto.
  - destruct (nth_error (rev (xSent (pA s))) n) as [m|] eqn:En; [|discriminate].
    unfold stepB in E. destruct (kstep verify dh blake3 sha3 cb (pB s) _) as [x|] eqn:E1; [|discriminate]. injection E as <-. cbn [pA pB] in *.
    apply nth_error_In, in_rev in En. assert (Wm : kxMsg_ok m) by (rewrite Forall_forall in OkA; auto).
    destruct (deliver_step _ _ _ _ _ Hsign _ _ _ _ _ Wm E1) as (R1 & R2 & R3 & _ & _ & R4).
    split; [split; [exact OkA|rewrite <- R3; exact OkB]|].
    intros (I1 & I2 & I3 & I4 & I5 & I6 & I7). unfold firstKeyInv. cbn [pA pB]. rewrite R3.
    split; [exact I1|]. split; [exact I2|]. split; [exact I3|].
    destruct R4 as [(R4 & _ & R6)|(R4 & _ & R6)]; rewrite R4.
    + rewrite R6. auto.
    + split; [discriminate|]. split; [intros p Hp; exists m; split; [exact En|congruence]|]. split; [|exact I7].
      intros m' Hin Ha. specialize (I6 m' Hin Ha). destruct R6 as [-> | ->]; [exact I6|]. intros N. apply app_eq_nil in N. destruct N; discriminate.
Qed.

(** As long as A has made one key only, A takes it for confirmed only if B has
    it, whatever is delayed, repeated, reordered or lost. *)
Theorem C52_first_key_partial : forall verify dh blake3 sha3 sign ca cb ra rb s,
  (forall id m, length (sign id m) = 64%nat) -> cMode ca = AnswersModeAnswerAndWait ->
  reachable (fun s => s = pairInit ra rb) (lstep (pstep verify dh blake3 sha3 sign ca cb)) s ->
  allOk s -> (length (xLog (pA s)) <= 1)%nat -> kDone (xKx (pA s)) <> 0 ->
  exists p, kNextLocalPub (xKx (pA s)) = Some p /\ kNextRemote (xKx (pB s)) = Some p.
Proof.
  intros verify dh blake3 sha3 sign ca cb ra rb s Hsign Hmode R Ok L D.
  assert (I : firstKeyInv s).
  { clear L D. revert Ok. induction R as [s Hs|s s' R IH St]; intros Ok.
    - subst s. unfold firstKeyInv. cbn. repeat split; try tauto; try discriminate; congruence.
    - destruct (firstKeyInv_step _ _ _ _ _ _ _ Hsign Hmode _ _ St Ok) as [Ok' F]. auto. }
  destruct I as (I1 & I2 & I3 & I4 & I5 & I6 & I7). destruct (I7 D) as (m & Hm & Ha). specialize (I4 (I6 m Hm Ha)).
  destruct (kNextRemote (xKx (pB s))) as [p|] eqn:Ep; [|congruence]. destruct (I5 p eq_refl) as (m' & Hin & <-).
  exists (kPub m'). split; [apply I3; auto|reflexivity].
Qed.
Print Assumptions C52_first_key_partial.

Example C52_example : exists s, exec toyPair toyPair0 firstExchange = Some s /\
  length (xLog (pA s)) = 1%nat /\ kDone (xKx (pA s)) = 1 /\ kNextRemote (xKx (pB s)) = Some (toyPub (key32 3)) /\ length (xSent (pB s)) = 2%nat.
Proof. eexists. split; [vm_compute; reflexivity|]. repeat split; vm_compute; reflexivity. Qed.

(** ** C86 (refuted): a session whose peer is there and answers gets established
    without waiting for the next rotation. *)

(** B's request is handled before A's loop runs for the first time. A makes its
    key for the answer, and from then on its loop does nothing before
    [KeyUpdateInterval] has passed since then: it sends no request, hence gets
    no answer, and is not done, whatever B does. (The ticker of the loop starts
    before or after the answer, so it may even take two intervals.) B, of
    course, is done. *)
Definition lateStart : list plabel :=
  [PB (KLoopGo 100); PB KLoopCheck; PB (KLoopGen (key32 11) (toyPub (key32 11)) 100); PB KLoopSend;
   PToA 0; PA (KAnswer 0 100); PA (KAnswer 0 100); PA (KAnswerGen 0 (key32 3) (toyPub (key32 3)) 100); PA (KAnswer 0 100); PA (KAnswer 0 100);
   PA (KLoopGo 101); PToB 0; PB KLoopNotified].

(** Steps during which A's clock is before [t]. *)
Definition before (t : N) (step : pair -> plabel -> option pair) (s s' : pair) : Prop :=
  exists l, step s l = Some s' /\ match l with PA (KLoopGo now) => now < t | _ => True end.

Definition stalled (t : N) (s : pair) : Prop :=
  let a := pA s in let b := pB s in
  xLoop a = LpIdle /\ t <= kSkipUntil (xKx a) /\ kNextLocalPub (xKx a) <> None /\
  Forall (fun p => p = ApNew \/ p = ApSend \/ p = ApDone) (xAnswers a) /\
  (forall m, In m (xSent a) -> isAnswer m) /\
  xAnswers b = [] /\ (forall m, In m (xSent b) -> ~ isAnswer m) /\ kDone (xKx a) = 0.

Lemma Forall_setNth : forall (P : answerPc -> Prop) l i p, Forall P l -> P p -> Forall P (setNth l i p).
Proof.
  intros P l i p Hl Hp. rewrite Forall_forall in *. intros q Hq. apply in_setNth in Hq. destruct Hq as [-> |Hq]; auto.
Qed.

Lemma stalled_step : forall verify dh blake3 sha3 sign ca cb t,
  (forall id m, length (sign id m) = 64%nat) -> cMode ca = AnswersModeAnswerAndWait -> cMode cb = AnswersModeAnswerAndWait ->
  forall s s', before t (pstep verify dh blake3 sha3 sign ca cb) s s' -> allOk s' -> allOk s /\ (stalled t s -> stalled t s').
Proof.
  intros verify dh blake3 sha3 sign ca cb t Hsign Hma Hmb s s' (l & E & Hl) [OkA OkB]. unfold pstep in E. destruct l as [l|l|n|n].
  - destruct (isHandle l) eqn:Eh; [discriminate|]. unfold stepA in E. destruct (kstep verify dh blake3 sha3 ca (pA s) l) as [x|] eqn:E1; [|discriminate].
    injection E as <-. cbn [pA pB] in *. destruct (side_step _ _ _ _ _ _ _ _ E1 Eh) as (R1 & R2 & R3 & R4 & R5).
    split.
    { split; [|exact OkB]. destruct R4 as [R4|(m & R4 & _)]; rewrite R4 in OkA; [exact OkA|]. inversion OkA; auto. }
    intros (I1 & I2 & I3 & I4 & I5 & I6 & I7 & I8). unfold stalled. cbn [pA pB]. rewrite R2.
    assert (X : xLoop x = LpIdle /\ kSkipUntil (xKx x) = kSkipUntil (xKx (pA s)) /\
                Forall (fun p => p = ApNew \/ p = ApSend \/ p = ApDone) (xAnswers x)).
    { pose proof E1 as E2. unfold kstep in E2. destruct (xPanic (pA s)); [discriminate|]. destruct l; try discriminate; rewrite ?I1 in E2; try discriminate.
      - destruct (kCtxDone _); [discriminate|]. destruct (N.ltb_spec now (kSkipUntil (xKx (pA s)))); [|lia]. injection E2 as <-. auto.
      - destruct (nth_error (xAnswers (pA s)) i) as [p|] eqn:En; [|discriminate].
        assert (Hp := nth_error_In _ _ En). rewrite Forall_forall in I4. specialize (I4 _ Hp) as Hq. rewrite <- Forall_forall in I4.
        destruct p; try discriminate; try (destruct Hq as [Hq|[Hq|Hq]]; discriminate); injection E2 as <-.
        + split; [exact I1|]. split; [reflexivity|]. destruct (kNextLocalPub (xKx (pA s))); [|congruence]. apply Forall_setNth; auto.
        + unfold sendMsg. destruct (publicKeyMessage ca (xKx (pA s)) true); (split; [exact I1|]; split; [reflexivity|]; apply Forall_setNth; auto).
      - destruct (nth_error (xAnswers (pA s)) i) as [p|] eqn:En; [|discriminate].
        assert (Hp := nth_error_In _ _ En). rewrite Forall_forall in I4. specialize (I4 _ Hp) as Hq. destruct Hq as [-> |[-> | ->]]; discriminate.
      - injection E2 as <-. auto. }
    destruct X as (X1 & X2 & X3). rewrite X1, X2. split; [reflexivity|]. split; [exact I2|]. split.
    { destruct R5 as [[-> _]|(p & t' & -> & _)]; [exact I3|discriminate]. }
    split; [exact X3|]. split; [|auto]. destruct R4 as [-> |(m & -> & M1 & M2 & M3)]; [exact I5|].
    intros m' [<-|Hin]; [|auto]. unfold isAnswer. destruct (kxIsAnswer (kFlags m)) eqn:Ea; [reflexivity|].
    destruct (M3 eq_refl) as [t' [H|H]]; congruence.
  - destruct (isHandle l) eqn:Eh; [discriminate|]. unfold stepB in E. destruct (kstep verify dh blake3 sha3 cb (pB s) l) as [x|] eqn:E1; [|discriminate].
    injection E as <-. cbn [pA pB] in *. destruct (side_step _ _ _ _ _ _ _ _ E1 Eh) as (R1 & R2 & R3 & R4 & R5).
    split.
    { split; [exact OkA|]. destruct R4 as [R4|(m & R4 & _)]; rewrite R4 in OkB; [exact OkB|]. inversion OkB; auto. }
    intros (I1 & I2 & I3 & I4 & I5 & I6 & I7 & I8). unfold stalled. cbn [pA pB]. repeat (split; [assumption|]).
    split; [destruct (xAnswers x) eqn:Ex; [reflexivity|]; exfalso; assert (H : xAnswers (pB s) <> []) by (apply R3; discriminate); auto|].
    split; [|exact I8]. destruct R4 as [-> |(m & -> & M1 & M2 & M3)]; [exact I7|].
    intros m' [<-|Hin]; [|auto]. intros Ha. specialize (M2 Ha). rewrite I6 in M2. exact M2.
  - destruct (nth_error (rev (xSent (pB s))) n) as [m|] eqn:En; [|discriminate].
    unfold stepA in E. destruct (kstep verify dh blake3 sha3 ca (pA s) _) as [x|] eqn:E1; [|discriminate]. injection E as <-. cbn [pA pB] in *.
    apply nth_error_In, in_rev in En. assert (Wm : kxMsg_ok m) by (rewrite Forall_forall in OkB; auto).
    destruct (deliver_step _ _ _ _ _ Hsign _ _ _ _ _ Wm E1) as (R1 & R2 & R3 & RL & RS & R4).
    split; [split; [rewrite <- R3; exact OkA|exact OkB]|].
    intros (I1 & I2 & I3 & I4 & I5 & I6 & I7 & I8). unfold stalled. cbn [pA pB]. rewrite RL, RS, R1, R3.
    assert (Na : kxIsAnswer (kFlags m) = false) by (destruct (kxIsAnswer (kFlags m)) eqn:Ea; [exfalso; exact (I7 m En Ea)|reflexivity]).
    destruct R4 as [(_ & R4 & R5)|(_ & R4 & _)].
    + rewrite R4, R5. repeat (split; [assumption|]). exact I8.
    + destruct (R4 Hma) as [R5 R6]. rewrite Na in R5, R6. rewrite R5, R6. do 3 (split; [assumption|]).
      split; [apply Forall_app; split; [exact I4|constructor; auto]|]. repeat (split; [assumption|]). exact I8.
  - destruct (nth_error (rev (xSent (pA s))) n) as [m|] eqn:En; [|discriminate].
    unfold stepB in E. destruct (kstep verify dh blake3 sha3 cb (pB s) _) as [x|] eqn:E1; [|discriminate]. injection E as <-. cbn [pA pB] in *.
    apply nth_error_In, in_rev in En. assert (Wm : kxMsg_ok m) by (rewrite Forall_forall in OkA; auto).
    destruct (deliver_step _ _ _ _ _ Hsign _ _ _ _ _ Wm E1) as (R1 & R2 & R3 & RL & RS & R4).
    split; [split; [exact OkA|rewrite <- R3; exact OkB]|].
    intros (I1 & I2 & I3 & I4 & I5 & I6 & I7 & I8). unfold stalled. cbn [pA pB]. rewrite R3. repeat (split; [assumption|]).
    split; [|auto]. destruct R4 as [(_ & _ & R5)|(_ & R4 & _)]; [congruence|].
    destruct (R4 Hmb) as [_ R6]. rewrite (I5 m En) in R6. congruence.
Qed.

Lemma toySign_len : forall id m, length id = 32%nat -> length m = 82%nat -> length (toySign id m) = 64%nat.
Proof.
  intros id m Hi Hm. unfold toySign. rewrite app_length, map_length, combine_length, firstn_length, skipn_length, Hi, Hm. reflexivity.
Qed.

(** For the theorem a signature of fixed length is needed for any argument. *)
Definition padSign (id body : bytes) : bytes := firstn 64 (toySign id body ++ repeat 0 64).
Lemma padSign_len : forall id m, length (padSign id m) = 64%nat.
Proof. intros. unfold padSign. rewrite firstn_length, app_length, repeat_length. lia. Qed.
Definition padVerify (id sig body : bytes) : bool := bytes_eqb sig (padSign id body).
Definition padPair := pstep padVerify toyDh toyHash toyHash padSign (toyConf None 1) (toyConf None 2).

Theorem C86_startup_stall_refuted : exists s0,
  exec padPair toyPair0 lateStart = Some s0 /\ kDone (xKx (pB s0)) = 1 /\ kErrs (xKx (pA s0)) = [] /\
  forall s, steps (before 160 padPair) s0 s -> allOk s ->
    kDone (xKx (pA s)) = 0 /\ (forall m, In m (xSent (pA s)) -> isAnswer m).
Proof.
  destruct (exec padPair toyPair0 lateStart) as [s0|] eqn:E; [|vm_compute in E; discriminate]. exists s0. split; [reflexivity|].
  assert (I : stalled 160 s0 /\ kDone (xKx (pB s0)) = 1 /\ kErrs (xKx (pA s0)) = []).
  { vm_compute in E. injection E as <-. split; [|split; reflexivity]. unfold stalled. cbn [pA pB].
    split; [reflexivity|]. split; [vm_compute; discriminate|]. split; [discriminate|].
    split; [constructor; [auto|constructor]|]. split; [intros m [<-|[]]; reflexivity|]. split; [reflexivity|].
    split; [intros m [<-|[]]; discriminate|reflexivity]. }
  destruct I as (I & D & Er). split; [exact D|]. split; [exact Er|]. intros s S Ok.
  assert (H : stalled 160 s).
  { clear E D Er. revert I. assert (G : allOk s0 /\ (stalled 160 s0 -> stalled 160 s)).
    { induction S as [s|s s' s'' St S IH]; [auto|]. destruct (IH Ok) as [Ok' F].
      destruct (stalled_step padVerify toyDh toyHash toyHash padSign (toyConf None 1) (toyConf None 2) 160 padSign_len eq_refl eq_refl _ _ St Ok') as [Ok'' F']. auto. }
    exact (proj2 G). }
  destruct H as (_ & _ & _ & _ & H1 & _ & _ & H2). auto.
Qed.
Print Assumptions C86_startup_stall_refuted.
