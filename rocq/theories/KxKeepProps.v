(** C50 (continued): the key that was current survives one rotation by each
    side. *)
From Coq Require Import String NArith List Bool Lia.
From Verif Require Import Base BaseLemmas TS MessageModel CodecProofs KxModel KxSpec KxProofs KxRunProofs KxProps IntegProofs.
Import ListNotations.
Local Open Scope list_scope.
Local Open Scope N_scope.

(** Own keys made in a run. *)
Definition isGen (l : klabel) : bool := match l with KLoopGen _ _ _ | KAnswerGen _ _ _ _ => true | _ => false end.
Definition generations (ls : list klabel) : nat := List.length (filter isGen ls).

Section Keep.
  Variable verify : bytes -> bytes -> bytes -> bool.
  Variable dh : bytes -> bytes -> bytes.
  Variables blake3 sha3 : bytes -> bytes.
  Variable c : kxConf.
  Hypothesis dh_len : forall x y, List.length (dh x y) = 32%nat.
  Hypothesis sha3_len : forall x, List.length (sha3 x) = 32%nat.
  Notation step := (kstep verify dh blake3 sha3 c).
  Notation install := (installLocalKey dh blake3 sha3 c).
  Notation handle := (handleKx verify dh blake3 sha3 c).
  Notation update := (updateSecrets dh blake3 sha3).
  Notation gsk := (generateSharedKey dh blake3 sha3 (cPSK c)).

  (** The keys of the session are those of the remembered keys. *)
  Definition keysCurrent (k : kx) : Prop :=
    kKeys k = [] /\ (kNextLocal k = None \/ kNextRemote k = None) \/
    exists g0 g1 g2 g3, kKeys k = [Some g0; g1; g2; g3] /\
      gsk (kNextLocal k) (kNextRemote k) = Ret (Some g0) /\ gsk (kNextLocal k) (kPrevRemote k) = Ret g1 /\
      gsk (kPrevLocal k) (kNextRemote k) = Ret g2 /\ gsk (kPrevLocal k) (kPrevRemote k) = Ret g3.

  Lemma keysCurrent_same : forall k k', sameKeys k k' -> keysCurrent k -> keysCurrent k'.
  Proof.
    intros k k' (A & B & _ & _ & _ & C & D & E & _) H. unfold keysCurrent. rewrite A, B, C, D, E. exact H.
  Qed.

  Lemma gsk_none : forall l r, gsk l r = Ret None -> l = None \/ r = None.
  Proof.
    intros l r E. destruct (gsk_spec dh blake3 sha3 dh_len sha3_len (cPSK c) l r) as [(a & b & _ & _ & _ & E1)|[(a & b & k' & _ & _ & _ & E1 & X)|(H & E1)]]; congruence || exact H.
  Qed.

  (** [k]: before one of the remembered keys was replaced. *)
  Lemma keysCurrent_update : forall k s s', keysCurrent k -> kKeys s = kKeys k ->
    (kNextLocal s = None \/ kNextRemote s = None -> kNextLocal k = None \/ kNextRemote k = None) ->
    update c s = Ret s' -> keysCurrent s'.
  Proof.
    intros k s s' Hk Ek Hn E. rewrite (update_spec dh blake3 sha3 dh_len sha3_len) in E.
    destruct (gsk (kNextLocal s) (kNextRemote s)) as [g0|] eqn:E0; [|discriminate].
    destruct (gsk (kNextLocal s) (kPrevRemote s)) as [g1|] eqn:E1; [|discriminate].
    destruct (gsk (kPrevLocal s) (kNextRemote s)) as [g2|] eqn:E2; [|discriminate].
    destruct (gsk (kPrevLocal s) (kPrevRemote s)) as [g3|] eqn:E3; [|discriminate].
    injection E as <-. destruct g0 as [g0|].
    - right. exists g0, g1, g2, g3. cbn. auto.
    - left. apply gsk_none in E0. split; [|exact E0]. rewrite Ek. destruct Hk as [[Hk _]|(h0 & h1 & h2 & h3 & _ & F & _)]; [exact Hk|].
      destruct (Hn E0) as [N|N]; rewrite N in F; [discriminate|]. destruct (kNextLocal k); discriminate.
  Qed.

  Lemma handle_remote : forall k b k' h, handle k b = Ret (k', h) -> keysCurrent k ->
    keysCurrent k' /\ kNextLocal k' = kNextLocal k /\ kPrevLocal k' = kPrevLocal k /\
    (kNextRemote k' = kNextRemote k /\ kPrevRemote k' = kPrevRemote k \/
     exists m, kxDecode (firstn 82 (skipn 64 b)) = Some m /\ kNextRemote k <> Some (kPub m) /\
       kNextRemote k' = Some (kPub m) /\ kPrevRemote k' = kNextRemote k).
  Proof.
    intros k b k' h E Hk. destruct (handle_cases verify dh blake3 sha3 c k b _ E) as [[e R]|[R|[(m & e & D & R & _)|(m & A & R)]]].
    - injection R as -> _. auto 10.
    - injection R as -> _. auto 10.
    - injection R as -> _. cbn. auto 10.
    - symmetry in R. unfold accept in R. set (s1 := setRemote k _ _) in R.
      destruct (update c (setNextRemotePublicKey s1 (kPub m))) as [s2|] eqn:U; [|discriminate].
      assert (K' : kKeys k' = kKeys s2 /\ kNextLocal k' = kNextLocal s2 /\ kPrevLocal k' = kPrevLocal s2 /\ kNextRemote k' = kNextRemote s2 /\ kPrevRemote k' = kPrevRemote s2).
      { injection R as R _. subst k'. destruct (_ || _); cbn; auto. }
      assert (F := update_keys dh blake3 sha3 _ _ _ U).
      assert (Hs2 : keysCurrent s2).
      { apply (keysCurrent_update k _ s2 Hk) in U; [exact U| |].
        - unfold setNextRemotePublicKey. destruct (match kNextRemote s1 with Some _ => _ | None => _ end); reflexivity.
        - destruct (setNextRemote_fields s1 (kPub m)) as (F1 & _ & _ & F4 & _). rewrite F1, F4. intros [H|H]; [left; exact H|discriminate]. }
      destruct K' as (K0 & K1 & K2 & K3 & K4).
      split; [unfold keysCurrent; rewrite K0, K1, K2, K3, K4; exact Hs2|].
      rewrite K1, K2, K3, K4, F. cbn [setKeys kNextLocal kPrevLocal kNextRemote kPrevRemote].
      unfold setNextRemotePublicKey. change (kNextRemote s1) with (kNextRemote k).
      destruct (kNextRemote k) as [r|] eqn:Er.
      + destruct (bytes_eqb r (kPub m)) eqn:Eb.
        * cbn [s1 setRemote kNextLocal kPrevLocal kNextRemote kPrevRemote]. rewrite Er. auto.
        * cbn. split; [auto|]. split; [auto|]. right. exists m. split; [apply A|]. split; [|auto].
          intros H. injection H as ->. rewrite bytes_eqb_refl in Eb. discriminate.
      + cbn. split; [auto|]. split; [auto|]. right. exists m. split; [apply A|]. split; [discriminate|auto].
  Qed.

  Lemma install_current : forall k priv pub now k', install k priv pub now = Ret k' -> keysCurrent k -> keysCurrent k'.
  Proof.
    intros k priv pub now k' E Hk. unfold installLocalKey in E.
    eapply keysCurrent_update; [exact Hk| | |exact E]; [reflexivity|]. cbn. intros [H|H]; [discriminate|auto].
  Qed.

  Lemma current_step : forall x l x', step x l = Some x' -> keysCurrent (xKx x) -> keysCurrent (xKx x').
  Proof.
    intros x l x' E H. destruct (kstep_cases verify dh blake3 sha3 c x l x' E) as [_ [(b & k & h & -> & _ & Eh & -> & _)|[(b & _ & _ & _ & ->)|[(now & _ & I)|[(priv & pub & now & _ & ->)|Q]]]]].
    - eapply handle_remote; eauto.
    - exact H.
    - destruct I as (priv & pub & k & Ei & Sk & _). eapply keysCurrent_same; [exact Sk|]. eapply install_current; eauto.
    - exact H.
    - destruct Q as [Q _]. eapply keysCurrent_same; eauto.
  Qed.

  Lemma current_run : forall remote x, reachable (eq (kxsInit remote)) (lstep step) x -> keysCurrent (xKx x).
  Proof.
    intros remote x H. induction H as [x <-|x x' _ IH [l E]]; [left; cbn; auto|]. eapply current_step; eauto.
  Qed.

  (** Where the keys of the beginning are, after a run with one message and at
      most one own key. *)
  Definition tracked (x0 : kxs) (b : bytes) (ls : list klabel) (x : kxs) : Prop :=
    keysCurrent (xKx x) /\
    (kNextLocal (xKx x) = kNextLocal (xKx x0) \/
     (kPrevLocal (xKx x) = kNextLocal (xKx x0) /\ kNextLocal (xKx x) <> None /\ (1 <= generations ls)%nat) \/ (1 < generations ls)%nat) /\
    (kNextRemote (xKx x) = kNextRemote (xKx x0) \/
     (kPrevRemote (xKx x) = kNextRemote (xKx x0) /\ exists m, kxDecode (firstn 82 (skipn 64 b)) = Some m /\ kNextRemote (xKx x) = Some (kPub m))).

  Lemma generations_app : forall ls l, generations (ls ++ [l]) = (generations ls + (if isGen l then 1 else 0))%nat.
  Proof. intros ls l. unfold generations. rewrite filter_app, app_length. cbn [filter]. destruct (isGen l); reflexivity. Qed.

  Lemma tracked_run : forall x0 b, keysCurrent (xKx x0) -> forall ls x, exec step x0 ls = Some x ->
    (forall b', In (KHandle b') ls -> b' = b) -> tracked x0 b ls x.
  Proof.
    intros x0 b H0. apply (exec_snoc_inv _ _ step (fun ls x => (forall b', In (KHandle b') ls -> b' = b) -> tracked x0 b ls x)).
    - intros _. split; [exact H0|]. auto.
    - intros ls x l x' _ IH E Hb. destruct (IH ltac:(intros; apply Hb; apply in_or_app; auto)) as (I1 & I2 & I3).
      assert (C := current_step _ _ _ E I1). unfold tracked. rewrite generations_app.
      destruct (kstep_cases verify dh blake3 sha3 c x l x' E) as [_ Cs].
      assert (Q0 : kNextLocal (xKx x') = kNextLocal (xKx x) -> kPrevLocal (xKx x') = kPrevLocal (xKx x) ->
        kNextLocal (xKx x') = kNextLocal (xKx x0) \/
        (kPrevLocal (xKx x') = kNextLocal (xKx x0) /\ kNextLocal (xKx x') <> None /\ (1 <= generations ls + (if isGen l then 1 else 0))%nat) \/
        (1 < generations ls + (if isGen l then 1 else 0))%nat).
      { intros -> ->. destruct I2 as [I2|[(I2 & I2' & I2'')|I2]]; [auto| |right; right; lia]. right. left. split; [exact I2|]. split; [exact I2'|lia]. }
      split; [exact C|].
      destruct Cs as [(b' & k & h & -> & _ & Eh & Ek & _)|[(b' & -> & _ & _ & ->)|[(now & L & I)|[(priv & pub & now & _ & ->)|Q]]]].
      + destruct (handle_remote _ _ _ _ Eh I1) as (_ & F1 & F2 & F3). rewrite <- Ek in F1, F2, F3.
        split; [apply Q0; auto|]. assert (b' = b) by (apply Hb; apply in_or_app; right; left; reflexivity). subst b'.
        destruct F3 as [[-> ->]|(m & D & Nm & Fn & Fp)]; [exact I3|]. right. rewrite Fp. split; [|eauto].
        destruct I3 as [I3|(_ & m' & D' & R')]; [exact I3|]. exfalso. congruence.
      + split; [apply Q0; auto|exact I3].
      + assert (G : isGen l = true) by (destruct L as (? & ? & [-> | [? ->]]); reflexivity). rewrite G.
        destruct I as (priv & pub & k & Ei & Sk & _). destruct (install_fields dh blake3 sha3 c _ _ _ _ _ Ei) as (F1 & F2 & _ & _ & _ & F6 & F7 & _).
        destruct Sk as (A & B & _ & _ & _ & Cn & D & _). rewrite A, B, Cn, D, F1, F2, F6, F7. split; [|exact I3].
        destruct I2 as [I2|[(_ & _ & I2)|I2]].
        * right. left. split; [exact I2|]. split; [discriminate|lia].
        * right. right. lia.
        * right. right. lia.
      + split; [apply Q0; auto|exact I3].
      + destruct Q as (Sk & _). destruct Sk as (A & B & _ & _ & _ & Cn & D & _). rewrite Cn, D. split; [apply Q0; auto|exact I3].
  Qed.

  Lemma survives : forall x0 b ls x k, keysCurrent (xKx x0) -> nth 0 (kKeys (xKx x0)) None = Some k ->
    exec step x0 ls = Some x -> (generations ls <= 1)%nat -> (forall b', In (KHandle b') ls -> b' = b) ->
    In (Some k) (kKeys (xKx x)).
  Proof.
    intros x0 b ls x k H0 Hk E Hg Hb. destruct (tracked_run x0 b H0 ls x E Hb) as (C & L & R).
    destruct H0 as [[H0 _]|(g0 & g1 & g2 & g3 & H0 & G0 & _)]; rewrite H0 in Hk; [discriminate|]. injection Hk as ->.
    destruct L as [L|[(L & L' & _)|L]]; [| |lia].
    - destruct C as [[_ [C|C]]|(h0 & h1 & h2 & h3 & Ck & C0 & C1 & C2 & C3)].
      + rewrite L in C. rewrite C in G0. discriminate.
      + destruct R as [R|(_ & m & _ & R)]; [|congruence]. rewrite R in C. rewrite C in G0. destruct (kNextLocal (xKx x0)); discriminate.
      + rewrite Ck. destruct R as [R|(R & _)].
        * left. congruence.
        * right. left. congruence.
    - destruct C as [[_ [C|C]]|(h0 & h1 & h2 & h3 & Ck & C0 & C1 & C2 & C3)].
      + congruence.
      + destruct R as [R|(_ & m & _ & R)]; [|congruence]. rewrite R in C. rewrite C in G0. destruct (kNextLocal (xKx x0)); discriminate.
      + rewrite Ck. destruct R as [R|(R & _)].
        * right. right. left. congruence.
        * right. right. right. left. congruence.
  Qed.
End Keep.

(** From any moment of any run on: as long as at most one own key is made and no
    two different messages arrive (one may arrive many times), packets sealed
    under the key that was current can be opened. *)
Theorem C50_current_key_survives_partial : forall verify dh blake3 sha3 c remote x0 b ls x k,
  (forall x y, List.length (dh x y) = 32%nat) -> (forall x, List.length (sha3 x) = 32%nat) ->
  reachable (eq (kxsInit remote)) (lstep (kstep verify dh blake3 sha3 c)) x0 -> nth 0 (kKeys (xKx x0)) None = Some k ->
  exec (kstep verify dh blake3 sha3 c) x0 ls = Some x -> (generations ls <= 1)%nat -> (forall b', In (KHandle b') ls -> b' = b) ->
  In (Some k) (kKeys (xKx x)).
Proof.
  intros verify dh blake3 sha3 c remote x0 b ls x k Hl Hs H Hk E Hg Hb.
  exact (survives verify dh blake3 sha3 c Hl Hs x0 b ls x k (current_run verify dh blake3 sha3 c Hl Hs remote x0 H) Hk E Hg Hb).
Qed.
Print Assumptions C50_current_key_survives_partial.

(** Own key 4 and the peer's 12 follow 3 and 11; the message comes three times. *)
Example C50_survives_example :
  match exec (kstep toyVerify toyDh toyHash toyHash (toyConf None 1)) (kxsInit (Some (key32 2)))
    [KLoopGo 100; KLoopCheck; KLoopGen (key32 3) (toyPub (key32 3)) 100; KLoopSend; KHandle (toyWire 2 (toyMsg 2 9 11 1 true)); KLoopNotified] with
  | Some x0 =>
      match exec (kstep toyVerify toyDh toyHash toyHash (toyConf None 1)) x0
        [KHandle (toyWire 2 (toyMsg 2 9 12 1 false)); KHandle (toyWire 2 (toyMsg 2 9 12 1 false));
         KLoopGo 200; KLoopCheck; KLoopGen (key32 4) (toyPub (key32 4)) 200; KHandle (toyWire 2 (toyMsg 2 9 12 1 false))] with
      | Some x => exists k, nth 0 (kKeys (xKx x0)) None = Some k /\ nth 3 (kKeys (xKx x)) None = Some k
      | None => False
      end
  | None => False
  end.
Proof. vm_compute. eexists. split; reflexivity. Qed.

(** For C107 (KxFineProps.v): with [updateSecrets] taken as one step, the key used
    for sealing is at any moment the one of the newest own key and the newest key
    of the peer, and it is missing only while one of these is. *)
Lemma newest_key_atomic : forall verify dh blake3 sha3 c remote x,
  (forall x y, List.length (dh x y) = 32%nat) -> (forall x, List.length (sha3 x) = 32%nat) ->
  reachable (eq (kxsInit remote)) (lstep (kstep verify dh blake3 sha3 c)) x ->
  match kNextLocal (xKx x), kNextRemote (xKx x) with
  | Some l, Some r =>
      exists k, nth 0 (kKeys (xKx x)) None = Some k /\
        match cPSK c with
        | None => k = dh l r
        | Some p => let t := ascii_bytes "xaionaro-go/secureio.KeyExchangercipherKey"%string in
                    xored (dh l r) (sha3 (blake3 (p ++ t) ++ t)) k
        end
  | _, _ => kKeys (xKx x) = []
  end.
Proof.
  intros verify dh blake3 sha3 c remote x Hl Hs H.
  destruct (current_run verify dh blake3 sha3 c Hl Hs remote x H) as [[E [N|N]]|(g0 & g1 & g2 & g3 & E & G0 & G1 & G2 & G3)].
  - rewrite N. exact E.
  - rewrite N. destruct (kNextLocal (xKx x)); exact E.
  - destruct (kNextLocal (xKx x)) as [l|] eqn:El; [|discriminate]. destruct (kNextRemote (xKx x)) as [r|] eqn:Er; [|discriminate].
    assert (U : updateSecrets dh blake3 sha3 c (xKx x) = Ret (setKeys (xKx x) [Some g0; g1; g2; g3])).
    { rewrite (update_spec dh blake3 sha3 Hl Hs), El, Er, G0, G1, G2, G3. reflexivity. }
    destruct (C48_what_the_keys_are dh blake3 sha3 c _ _ l r Hl Hs El Er U) as [_ F].
    specialize (F 0%nat (Some l) (Some r)). rewrite El, Er in F. specialize (F (or_introl eq_refl)). destruct F as (k & F1 & _ & F2).
    exists k. rewrite E. split; [exact F1|exact F2].
Qed.

(** ** C108: a message carries the public key that belongs to the newest own key
    at the moment it is put together, and the identity, session and mode of the sender. *)
Definition honestGen (pub : bytes -> bytes) (l : klabel) : Prop :=
  match l with KLoopGen priv p _ | KAnswerGen _ priv p _ => p = pub priv | _ => True end.

Theorem C108_announces_newest : forall verify dh blake3 sha3 pub c remote ls x l x' m,
  exec (kstep verify dh blake3 sha3 c) (kxsInit remote) ls = Some x -> Forall (honestGen pub) ls ->
  kstep verify dh blake3 sha3 c x l = Some x' -> xSent x' = m :: xSent x ->
  (exists p, kNextLocal (xKx x) = Some p /\ kPub m = pub p) /\
  kSess m = cSession c /\ kIdentity m = cIdentity c /\ kMode m = cMode c.
Proof.
  intros verify dh blake3 sha3 pub c remote ls x l x' m E F Es Sm.
  assert (P : option_map pub (kNextLocal (xKx x)) = kNextLocalPub (xKx x)).
  { clear Es Sm. revert ls x E F.
    apply (exec_snoc_inv _ _ (kstep verify dh blake3 sha3 c) (fun ls x => Forall (honestGen pub) ls -> option_map pub (kNextLocal (xKx x)) = kNextLocalPub (xKx x))); [reflexivity|].
    intros ls x l0 x0 _ IH E F. apply Forall_app in F. destruct F as [F Fl]. specialize (IH F). inversion Fl as [|? ? Hh _]; subst.
    assert (G : forall k priv p now k', installLocalKey dh blake3 sha3 c k priv p now = Ret k' -> p = pub priv ->
      option_map pub (kNextLocal k') = kNextLocalPub k').
    { intros k priv p now k' Ei ->. destruct (install_fields dh blake3 sha3 c _ _ _ _ _ Ei) as (-> & _ & -> & _). reflexivity. }
    destruct (kstep_cases verify dh blake3 sha3 c x l0 x0 E) as [Np [(b & k & h & _ & _ & Eh & -> & _)|[(b & _ & _ & _ & ->)|[(now & L & _)|[(priv & p & now & _ & ->)|(Sk & _)]]]]].
    - destruct (handle_local verify dh blake3 sha3 c _ _ _ _ Eh) as (-> & _ & -> & _). exact IH.
    - exact IH.
    - unfold kstep in E. rewrite Np in E. destruct L as (priv & p & [-> | [i ->]]); cbn [honestGen] in Hh.
      + destruct (xLoop x); try discriminate. destruct (installLocalKey dh blake3 sha3 c (xKx x) priv p now) as [k|] eqn:Ei; injection E as <-; [|exact IH].
        cbn. eapply G; eauto.
      + destruct (nth_error (xAnswers x) i) as [[]|]; try discriminate.
        destruct (installLocalKey dh blake3 sha3 c (xKx x) priv p now) as [k|] eqn:Ei; injection E as <-; [|exact IH].
        cbn. eapply G; eauto.
    - exact IH.
    - destruct Sk as (-> & _ & -> & _). exact IH. }
  assert (N : forall T (a : T) (r : list T), r = a :: r -> False).
  { intros T a r H. apply (f_equal (@List.length T)) in H. cbn in H. lia. }
  destruct (kstep_cases verify dh blake3 sha3 c x l x' Es) as [_ [(b & k & h & _ & _ & _ & _ & _ & Ex & _)|[(b & _ & _ & _ & ->)|[(now & _ & I)|[(priv & p & now & _ & ->)|(_ & _ & Q & _)]]]]].
  - exfalso. rewrite Ex in Sm. eapply N; eauto.
  - exfalso. cbn in Sm. eapply N; eauto.
  - exfalso. destruct I as (priv & p & k & _ & _ & _ & Ex & _). rewrite Ex in Sm. eapply N; eauto.
  - exfalso. cbn in Sm. eapply N; eauto.
  - destruct Q as [[Ex _]|[(m' & a & Em & Ex & _)|(_ & Ex & _)]]; [exfalso; rewrite Ex in Sm; eapply N; eauto| |exfalso; rewrite Ex in Sm; eapply N; eauto].
    assert (m' = m) by congruence. subst m'. unfold publicKeyMessage in Em. rewrite <- P in Em.
    destruct (kNextLocal (xKx x)) as [p|]; [|discriminate]. cbn [option_map] in Em. injection Em as <-. cbn. split; [eauto|auto].
Qed.
Print Assumptions C108_announces_newest.

(** The request is repeated after a second key was made by an answer: it carries
    the second. *)
Example C108_example :
  match exec (kstep toyVerify toyDh toyHash toyHash (toyConf None 1)) (kxsInit (Some (key32 2)))
    [KHandle (toyWire 2 (toyMsg 2 7 11 1 false)); KAnswer 0 100; KAnswer 0 100; KLoopGo 100; KLoopCheck;
     KLoopGen (key32 3) (toyPub (key32 3)) 100; KAnswerGen 0 (key32 4) (toyPub (key32 4)) 90; KLoopSend] with
  | Some x => match xSent x with m :: _ => kPub m = toyPub (key32 4) | [] => False end
  | None => False
  end.
Proof. vm_compute. reflexivity. Qed.

(** For C111 (KxFineProps.v): what is known about the peer, and how many exchanges
    are done. *)
Definition peerView (k : kx) := (kRemoteIdentity k, kRemoteSession k, kNextRemote k, kPrevRemote k, kDone k).

