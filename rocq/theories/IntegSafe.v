(** What can make the reader of a session panic: lemmas. *)
From Coq Require Import NArith Arith List Bool Lia.
From Verif Require Import Base BaseLemmas TS MessageModel CodecProofs PendingChainModel PacketIDModel PacketIDSpec PacketIDProofs PacketIDRun
  ReaderModel ReaderLoopModel ReaderSpec ReaderProofs FragSpec FragSession FragFamily PacketModel PacketSpec PacketProofs StateModel
  KxModel KxSpec KxProofs IntegModel IntegSpec IntegProofs IntegAuth.
Import ListNotations.
Local Open Scope N_scope.

(** If the treatment of good messages neither panics nor spoils the state, then
    so does the loop, unless there is a bad message. *)
Lemma runLoop_safe : forall St (onErr : St -> gerr -> St) handle (I : St -> Prop) (good : msgHdr -> bytes -> Prop),
  (forall h m, good h m \/ ~ good h m) -> (forall s e, I s -> I (onErr s e)) ->
  (forall s h m, I s -> len m = mLength h -> good h m -> exists s' x, handle s h m = Ret (s', x) /\ I s') ->
  forall s l mb, I s ->
  (exists s', runLoop onErr handle s l mb = LoopEnd s' /\ I s') \/
  (exists h m off, ~ good h m /\ len m = mLength h /\ range mb off (length m) = m).
Proof.
  intros St onErr handle I good Dec He Hh s l mb Hi.
  unfold runLoop.
  assert (Hl : N.min (len mb) l <= len mb) by lia.
  assert (Hf : (N.to_nat (N.min (len mb) l) <= length mb + N.to_nat 0)%nat) by (unfold len; lia).
  revert Hl Hf.
  generalize (length mb) as fuel. generalize (N.min (len mb) l) as lim. generalize 0 as i.
  intros i lim fuel Hl. revert s i Hi. induction fuel as [|fuel IH]; intros s i Hi Hf; cbn [procLoop].
  - destruct (i <? lim) eqn:E0; [apply N.ltb_lt in E0; lia|]. left. eauto.
  - destruct (i <? lim) eqn:E0; [|left; eauto]. apply N.ltb_lt in E0.
    destruct (lim - i <? messageHeadersSize) eqn:E1; [left; eauto|]. apply N.ltb_ge in E1. unfold messageHeadersSize in *.
    rewrite gslice_some by lia.
    destruct (hdrRead _) as [[n hdr]|e]; [|left; eauto].
    destruct (lim - i <? 9 + mLength hdr) eqn:E2; [left; eauto|]. apply N.ltb_ge in E2.
    rewrite gslice_some by lia.
    set (msg := firstn (N.to_nat (i + 9 + mLength hdr - (i + 9))) (skipn (N.to_nat (i + 9)) mb)).
    assert (Lm : length msg = N.to_nat (mLength hdr)).
    { unfold msg. rewrite firstn_length, skipn_length. unfold len in *. lia. }
    assert (Lm' : len msg = mLength hdr) by (unfold len; lia).
    destruct (Dec hdr msg) as [G|G].
    + destruct (Hh s hdr msg Hi Lm' G) as (s1 & x & Eh & Hi1). rewrite Eh. destruct x as [nl|]; [|left; eauto].
      apply IH; [exact Hi1|]. lia.
    + right. exists hdr, msg, (N.to_nat (i + 9)). split; [exact G|]. split; [exact Lm'|].
      unfold range. rewrite Lm. unfold msg. f_equal. lia.
Qed.

Definition winOk (w : option storage) : Prop := match w with None => True | Some st => exists n acc, Sound n st acc end.

Lemma win_init : forall o, winOk (sessionStorage o).
Proof.
  intros [|n]; [exact I|]. destruct (session_storage_some n) as (st & E & S & _). rewrite E. cbn. eauto.
Qed.

Lemma win_check : forall w id, winOk w -> id < 2^64 -> exists w' b, checkAndRemember w id = Ret (w', b) /\ winOk w'.
Proof.
  intros [st|] id Hw Hid; cbn [checkAndRemember].
  - destruct Hw as (n & acc & S). destruct (push_sound n st acc id S Hid) as (st1 & b & E & S1 & _). rewrite E.
    exists (Some st1), b. split; [reflexivity|]. exists n. eauto.
  - exists None, true. split; [reflexivity|exact I].
Qed.

Section Safe.
  Variable verify : bytes -> bytes -> bytes -> bool.
  Variable dh : bytes -> bytes -> bytes.
  Variable blake3 sha3 : bytes -> bytes.
  Variable stream : bytes -> bytes -> nat -> N.
  Variable poly1305 : bytes -> bytes -> bytes.
  Variable c : iconf.
  Hypothesis prim : primitives_ok stream poly1305.
  Hypothesis dh_len : forall a b, length (dh a b) = 32%nat.
  Hypothesis sha3_len : forall b, length (sha3 b) = 32%nat.

  Notation step := (istep verify dh blake3 sha3 stream poly1305 c).
  Notation peer_of := (peerOf blake3 sha3 c).

  (** Keys have the right size, and there are none before the other session is known. *)
  Definition kxOk (k : kx) : Prop :=
    Forall key_ok (kKeys k) /\ (kRemoteSession k = None -> kNextRemote k = None /\ kKeys k = []).

  Lemma update_ok : forall k k', kxOk k -> updateSecrets dh blake3 sha3 (icKx c) k = Ret k' -> kxOk k'.
  Proof.
    intros k k' [A B] U. rewrite (update_spec dh blake3 sha3 dh_len sha3_len) in U.
    destruct (generateSharedKey dh blake3 sha3 (cPSK (icKx c)) (kNextLocal k) (kNextRemote k)) as [k0|] eqn:E0; [|discriminate].
    destruct (generateSharedKey dh blake3 sha3 (cPSK (icKx c)) (kNextLocal k) (kPrevRemote k)) as [k1|] eqn:E1; [|discriminate].
    destruct (generateSharedKey dh blake3 sha3 (cPSK (icKx c)) (kPrevLocal k) (kNextRemote k)) as [k2|] eqn:E2; [|discriminate].
    destruct (generateSharedKey dh blake3 sha3 (cPSK (icKx c)) (kPrevLocal k) (kPrevRemote k)) as [k3|] eqn:E3; [|discriminate].
    injection U as <-. destruct k0 as [k0|]; [|split; assumption]. split.
    - assert (L : forall l r x, generateSharedKey dh blake3 sha3 (cPSK (icKx c)) l r = Ret x -> key_ok x).
      { intros l r [x|] G; [|exact I]. exact (gsk_len dh blake3 sha3 dh_len sha3_len _ _ _ _ G). }
      cbn [setKeys kKeys]. constructor; [exact (L _ _ _ E0)|]. constructor; [exact (L _ _ _ E1)|]. constructor; [exact (L _ _ _ E2)|].
      constructor; [exact (L _ _ _ E3)|constructor].
    - cbn [setKeys kRemoteSession kNextRemote kKeys]. intros N. destruct (B N) as [B1 _]. rewrite B1 in E0.
      destruct (kNextLocal k); discriminate.
  Qed.

  Lemma handle_ok : forall k b k' h, kxOk k -> handleKx verify dh blake3 sha3 (icKx c) k b = Ret (k', h) -> kxOk k'.
  Proof.
    intros k b k' h K E.
    destruct (handle_cases verify dh blake3 sha3 (icKx c) k b _ eq_refl) as [(e & R)|[R|[(m & e & _ & R & _)|(m & Ac & R)]]]; rewrite R in E; clear R.
    - injection E as <- _. exact K.
    - injection E as <- _. exact K.
    - injection E as <- _. exact K.
    - unfold accept in E. set (k1 := setRemote k _ _) in E.
      assert (K1 : kxOk (setNextRemotePublicKey k1 (kPub m))).
      { unfold setNextRemotePublicKey. destruct (match kNextRemote k1 with Some y => _ | None => _ end);
          (split; [exact (proj1 K)|discriminate]). }
      destruct (updateSecrets dh blake3 sha3 (icKx c) (setNextRemotePublicKey k1 (kPub m))) as [k2|] eqn:U; [|discriminate].
      apply (update_ok _ _ K1) in U. injection E as <- _. destruct (_ || _); exact U.
  Qed.

  Lemma kstep_session : forall x l x', isHandle l = false -> kstep verify dh blake3 sha3 (icKx c) x l = Some x' ->
    kRemoteSession (xKx x') = kRemoteSession (xKx x).
  Proof.
    intros x l x' Hl E. unfold kstep in E. destruct (xPanic x); [discriminate|].
    assert (In : forall p pub now k, installLocalKey dh blake3 sha3 (icKx c) (xKx x) p pub now = Ret k -> kRemoteSession k = kRemoteSession (xKx x)).
    { intros p pub now k I. unfold installLocalKey in I. apply update_keys in I. rewrite I. reflexivity. }
    destruct l; try discriminate.
    - destruct (xLoop x); try discriminate. destruct (kCtxDone (xKx x)); [discriminate|]. destruct (_ <? _); injection E as <-; reflexivity.
    - destruct (xLoop x); try discriminate. destruct (inProgress _); injection E as <-; reflexivity.
    - destruct (xLoop x); try discriminate. destruct (installLocalKey _ _ _ _ _ _ _ _) as [k|] eqn:I; injection E as <-; [|reflexivity].
      exact (In _ _ _ _ I).
    - destruct (xLoop x); try discriminate. injection E as <-. unfold sendMsg. destruct (publicKeyMessage _ _ _); reflexivity.
    - destruct (xLoop x); try discriminate. destruct (kNotify (xKx x)); injection E as <-; unfold sendMsg.
      + destruct (_ <=? _); [reflexivity|]. destruct (publicKeyMessage _ _ _); reflexivity.
      + destruct (publicKeyMessage _ _ _); reflexivity.
    - destruct (xLoop x); try discriminate. destruct (kNotify (xKx x)); try discriminate. injection E as <-. destruct (_ <=? _); reflexivity.
    - destruct (xLoop x); try discriminate. injection E as <-. destruct (kNotify (xKx x)); [destruct (_ <=? _)|]; reflexivity.
    - destruct (nth_error (xAnswers x) i) as [[]|]; try discriminate; injection E as <-.
      + reflexivity.
      + reflexivity.
      + reflexivity.
      + unfold sendMsg. destruct (publicKeyMessage _ _ _); reflexivity.
    - destruct (nth_error (xAnswers x) i) as [[]|]; try discriminate.
      destruct (installLocalKey _ _ _ _ _ _ _ _) as [k|] eqn:I; injection E as <-; [|reflexivity]. exact (In _ _ _ _ I).
    - injection E as <-. reflexivity.
  Qed.

  Lemma kstep_ok : forall x l x', isHandle l = false -> kxOk (xKx x) -> kstep verify dh blake3 sha3 (icKx c) x l = Some x' -> kxOk (xKx x').
  Proof.
    intros x l x' Hl K E. pose proof (kstep_session _ _ _ Hl E) as Es.
    destruct (kstep_keys verify dh blake3 sha3 _ _ _ _ Hl E) as [Ek|(p & pub & now & k & _ & I & Ek)]; unfold keysOf in Ek; injection Ek as _ E2 _ _ _ E6.
    - destruct K as [A B]. split; [rewrite E6; exact A|]. rewrite Es, E2, E6. exact B.
    - assert (Ki : kxOk k).
      { unfold installLocalKey in I. eapply update_ok; [|exact I]. exact K. }
      assert (Si : kRemoteSession k = kRemoteSession (xKx x)).
      { unfold installLocalKey in I. apply update_keys in I. rewrite I. reflexivity. }
      destruct Ki as [A B]. split; [rewrite E6; exact A|]. rewrite Es, <- Si, E2, E6. exact B.
  Qed.

  Definition safe (s : isess) : Prop :=
    okRcv (iRcv s) /\ detachOnMessagesCount (iRcv s) = 0 /\ winOk (iWin s) /\ kxOk (xKx (iKx s)).

  Lemma safe_peer : forall s, safe s -> peer_ok (peer_of s).
  Proof.
    intros s (_ & _ & _ & K & R). unfold peer_ok, peerOf. cbn [pAux pKeys pOwnID pRemoteID]. split.
    - unfold auxKey. destruct (cPSK (icKx c)); [|exact I]. cbn [key_ok]. rewrite firstn_length. unfold hash. rewrite sha3_len. reflexivity.
    - split; [exact K|]. split; [unfold sessBytes; rewrite app_length, !le_enc_length; reflexivity|].
      destruct (kRemoteSession (xKx (iKx s))) as [i|] eqn:E; cbn [option_map].
      + unfold sessBytes; rewrite app_length, !le_enc_length; reflexivity.
      + destruct (R eq_refl) as [_ ->]. constructor.
  Qed.

  Lemma safe_ext : forall s s', safe s -> iWin s' = iWin s -> xKx (iKx s') = xKx (iKx s) ->
    okRcv (iRcv s') -> detachOnMessagesCount (iRcv s') = 0 -> safe s'.
  Proof. intros s s' (A & B & C & D) E1 E2 E3 E4. unfold safe. rewrite E1, E2. auto. Qed.

  Lemma okRcv_state : forall r st, okRcv r -> okRcv (setSessState r st).
  Proof. intros r st [A B C D E]. constructor; assumption. Qed.
  Lemma okRcv_emit : forall r e, okRcv r -> okRcv (emit r e).
  Proof. intros r e [A B C D E]. constructor; assumption. Qed.

  Lemma safe_close : forall s, safe s -> safe (closeCall s).
  Proof. intros s S. apply (safe_ext s); auto. - apply okRcv_state. apply S. - apply S. Qed.
  Lemma safe_connect : forall s, safe s -> safe (connect s).
  Proof. intros s S. apply (safe_ext s); auto. - apply okRcv_state. apply S. - apply S. Qed.
  Lemma safe_report : forall s e, safe s -> safe (reportError c s e).
  Proof.
    intros s e S. assert (A : safe (upRcv s (emit (iRcv s) (EvError e)))).
    { apply (safe_ext s); auto. - apply okRcv_emit. apply S. - apply S. }
    unfold reportError. destruct (icCloseOnError c); [apply safe_close|]; exact A.
  Qed.
  Lemma safe_afterKx : forall s x, safe s -> kxOk (xKx x) -> safe (afterKx c s x).
  Proof.
    intros s x S K. unfold afterKx.
    assert (S0 : safe (upKx s x)) by (destruct S as (A & B & C & D); split; [exact A|]; split; [exact B|]; split; [exact C|exact K]).
    set (s1 := if Nat.ltb _ _ then _ else _).
    assert (S1 : safe s1) by (unfold s1; destruct (Nat.ltb _ _); [apply safe_report, safe_close|]; exact S0).
    destruct (_ && _); [apply safe_connect|]; exact S1.
  Qed.

  Lemma safe_event : forall s e s', safe s -> handleEvent verify dh blake3 sha3 c s e = Ret s' -> safe s'.
  Proof.
    intros s e s' S E. destruct e as [t b|t b|e|]; cbn [handleEvent] in E; try (injection E as <-; exact S).
    - destruct (t =? messageTypeKeyExchange); [|injection E as <-; exact S].
      destruct (handleKx verify dh blake3 sha3 (icKx c) (xKx (iKx s)) b) as [[k h]|] eqn:Eh; [|discriminate].
      assert (K : kxOk k) by (eapply handle_ok; [|exact Eh]; apply S).
      destruct h as [e| |[]]; injection E as <-; try (apply safe_report); apply safe_afterKx; auto.
    - destruct (icCloseOnError c); injection E as <-; [apply safe_close|]; exact S.
  Qed.

  (** [handleOne] and [handleMsg] agree if messages are not counted. *)
  Lemma handleOne_uncounted : forall r h m, detachOnMessagesCount r = 0 -> 
    match handleOne r h m with
    | Panic => handleMsg r h m = Panic
    | Ret (r', cnt, x) => cnt = 0 /\ handleMsg r h m = Ret (r', x)
    end.
  Proof.
    intros r h m D. unfold handleMsg. destruct (handleOne r h m) as [[[r' cnt] x]|] eqn:E; [|reflexivity].
    assert (C0 : cnt = 0).
    { unfold handleOne in E. rewrite D in E. cbn [N.ltb N.compare andb] in E.
      destruct (isFragmented (mFlags h)).
      - destruct (fragRead m) as [[n fh]|e]; [|injection E as _ <- _; reflexivity].
        destruct (gslice m n (len m)) as [b|]; [|discriminate]. destruct (processIncomingMessageFragment r h fh b) as [[r2 l]|]; [|discriminate].
        injection E as _ <- _. reflexivity.
      - destruct (processIncomingMessage r h m); [|discriminate]. injection E as _ <- _. reflexivity. }
    split; [exact C0|]. subst cnt. destruct x; reflexivity.
  Qed.

  Lemma pim_detach : forall s h p r, processIncomingMessage s h p = Ret r -> detachOnMessagesCount r = detachOnMessagesCount s.
  Proof.
    intros s h p r E. unfold processIncomingMessage in E.
    destruct (lookup (mType h) (messengers s)) as [[]|]; destruct (gslice p 0 (mLength h)); try discriminate.
    - injection E as <-. reflexivity.
    - destruct (memN _ _); injection E as <-; reflexivity.
  Qed.

  Lemma handleOne_detach : forall s h m r cnt x, handleOne s h m = Ret (r, cnt, x) -> detachOnMessagesCount r = detachOnMessagesCount s.
  Proof.
    intros s h m r cnt x E. unfold handleOne in E.
    set (counted := (0 <? detachOnMessagesCount s) && _ && _) in E.
    set (s1 := if counted then setCount s (add64 (receivedMessagesCount s) 1) else s) in E.
    assert (O1 : detachOnMessagesCount s1 = detachOnMessagesCount s) by (unfold s1; destruct counted; reflexivity).
    clearbody s1. clearbody counted.
    destruct (isFragmented (mFlags h)).
    - destruct (fragRead m) as [[n fh]|e]; [|injection E as <- _ _; exact O1].
      destruct (gslice m n (len m)) as [p|]; [|discriminate].
      destruct (processIncomingMessageFragment s1 h fh p) as [[s2 l]|] eqn:F; [|discriminate]. injection E as <- _ _.
      unfold processIncomingMessageFragment in F.
      set (s3 := if lastRemoteChainID s1 <? fChainID fh then _ else s1) in F.
      assert (O3 : detachOnMessagesCount s3 = detachOnMessagesCount s) by (unfold s3; destruct (_ <? _); exact O1).
      clearbody s3.
      destruct (_ <? _); [injection F as <- _; exact O3|]. destruct (_ =? 0); [discriminate|].
      destruct (nth_error _ _) as [ch|]; [|discriminate]. destruct (_ && _); [injection F as <- _; exact O3|].
      destruct (chainMerge _ fh p) as [[c' [[msg|]|e]]|]; try discriminate; try (injection F as <- _; exact O3).
      destruct (processIncomingMessage _ _ msg) as [s4|] eqn:P; [|discriminate]. injection F as <- _.
      apply pim_detach in P. rewrite P. exact O3.
    - destruct (processIncomingMessage s1 h m) as [s2|] eqn:P; [|discriminate]. injection E as <- _ _. apply pim_detach in P. congruence.
  Qed.

  Lemma noWrap_dec : forall h m, noWrap h m \/ ~ noWrap h m.
  Proof.
    intros h m. unfold noWrap. destruct (isFragmented (mFlags h)); [|left; discriminate].
    destruct (fragRead m) as [[n fh]|e]; [|left; discriminate].
    destruct (N.lt_ge_cases (fStartPos fh + len m) (2^64)) as [L|L]; [left|right].
    - intros _ n' fh' E. injection E as _ <-. exact L.
    - intros H. specialize (H eq_refl n fh eq_refl). lia.
  Qed.

  Hypothesis dh_nz : forall a b, dh a b <> zeroKey.

  Lemma event_total : forall s e, exists s', handleEvent verify dh blake3 sha3 c s e = Ret s'.
  Proof.
    intros s e. destruct e as [t b|t b|e|]; cbn [handleEvent]; eauto.
    destruct (t =? messageTypeKeyExchange); [|eauto].
    assert (T : exists r, handleKx verify dh blake3 sha3 (icKx c) (xKx (iKx s)) b = Ret r).
    { destruct (handle_cases verify dh blake3 sha3 (icKx c) (xKx (iKx s)) b _ eq_refl) as [(e & R)|[R|[(m & e & _ & R & _)|(m & _ & R)]]]; rewrite R; eauto.
      unfold accept. destruct (update_total dh blake3 sha3 dh_len sha3_len dh_nz (icKx c)
        (setNextRemotePublicKey (setRemote (xKx (iKx s)) (Some match kRemoteIdentity (xKx (iKx s)) with Some id => id | None => kIdentity m end)
           (Some match kRemoteSession (xKx (iKx s)) with Some i => i | None => kSess m end)) (kPub m))) as [k E].
      rewrite E. eauto. }
    destruct T as [[k h] ->]. destruct h as [| |[]]; eauto.
  Qed.

  Lemma safe_handle : forall s h m, safe s -> len m = mLength h -> noWrap h m ->
    exists s' x, iHandle verify dh blake3 sha3 c s h m = Ret (s', x) /\ safe s'.
  Proof.
    intros s h m S Lm W. unfold iHandle. destruct S as (A & B & C & D).
    destruct (handleMsg_ok (iRcv s) h m A Lm W) as (r' & o & Em & Ok').
    pose proof (handleOne_uncounted (iRcv s) h m B) as U.
    destruct (handleOne (iRcv s) h m) as [[[r cnt] x]|] eqn:Eo; [|congruence]. destruct U as [-> U]. rewrite U in Em. injection Em as <- <-.
    apply handleOne_detach in Eo. rewrite B in Eo.
    assert (S0 : safe (upRcv s r)) by (split; [exact Ok'|]; split; [exact Eo|]; split; [exact C|exact D]).
    assert (E1 : exists s1, (if Nat.ltb (length (out (iRcv s))) (length (out r))
               then match out r with e :: _ => handleEvent verify dh blake3 sha3 c (upRcv s r) e | [] => Ret (upRcv s r) end
               else Ret (upRcv s r)) = Ret s1 /\ safe s1).
    { destruct (Nat.ltb _ _); [|eauto]. destruct (out r) as [|e l]; [eauto|].
      destruct (event_total (upRcv s r) e) as [s1 Ee]. exists s1. split; [exact Ee|]. eapply safe_event; eauto. }
    destruct E1 as (s1 & -> & S1). destruct x as [n|]; cbn [N.ltb N.compare andb]; eauto.
  Qed.

  Lemma safe_receive : forall s raw, safe s -> bytes_ok raw ->
    (exists s', iReceive verify dh blake3 sha3 stream poly1305 c s raw = Ret s' /\ safe s') \/
    (exists p w l content, receivePacket stream blake3 poly1305 (peer_of s) (iWin s) raw = Ret (p, w, PktAccepted l content) /\ wraps content).
  Proof.
    intros s raw S Hb. pose proof (safe_peer s S) as P. unfold iReceive, receivePacket.
    destruct raw as [|y raw]; [left; eexists; split; [reflexivity|exact S]|].
    set (p' := if len (y :: raw) <? messagesContainerHeadersSize then _ else _).
    destruct (decryptPacket_total stream blake3 poly1305 prim (peer_of s) (y :: raw) P Hb) as [r Er]. rewrite Er.
    destruct r as [[[pid l] content]|e].
    - destruct (decryptPacket_sound stream blake3 poly1305 prim (peer_of s) (y :: raw) pid l content P Hb Er) as (L44 & Eid & _).
      assert (Hid : packetIDValue pid < 2^64).
      { assert (Ep : pid = idOnWire stream (pAux (peer_of s)) (firstn 8 (y :: raw))) by (rewrite <- Eid; symmetry; apply idOnWire_invol).
        assert (Lp : length pid = 8%nat) by (rewrite Ep, idOnWire_length, firstn_length; lia).
        assert (Bp : bytes_ok pid).
        { rewrite Ep. unfold idOnWire. destruct (pAux (peer_of s)).
          - apply (xorFrom_ok stream poly1305 prim). apply Forall_firstn. exact Hb.
          - apply Forall_firstn. exact Hb. }
        unfold packetIDValue. pose proof (le_dec_bound pid Bp) as Bd. rewrite Lp in Bd. exact Bd. }
      destruct (win_check (iWin s) (packetIDValue pid)) as (w & b & Ec & Hw); [apply S|exact Hid|]. rewrite Ec.
      assert (S1 : safe (upPkt s (pNext p') w)) by (destruct S as (A & B & C & D); split; [exact A|]; split; [exact B|]; split; [exact Hw|exact D]).
      destruct b; [|left; eexists; split; [reflexivity|exact S1]].
      destruct (runLoop_safe _ (reportError c) (iHandle verify dh blake3 sha3 c) safe noWrap noWrap_dec safe_report safe_handle
                  (upFails (upPkt s (pNext p') w) 0 (iUnexpected (upPkt s (pNext p') w))) l content S1) as [(s' & E & S')|(h & m & off & Nw & Lm & R)].
      + left. exists s'. rewrite E. auto.
      + right. exists p', w, l, content. split; [reflexivity|]. exists off, m. split; [exact R|].
        unfold noWrap in Nw. destruct (isFragmented (mFlags h)); [|exfalso; apply Nw; discriminate].
        destruct (fragRead m) as [[n fh]|e] eqn:Ef; [|exfalso; apply Nw; discriminate].
        unfold fragRead, messageFragmentHeadersSize in Ef. destruct (len m <? 24) eqn:E24; [discriminate|]. apply N.ltb_ge in E24.
        unfold len in E24. split; [lia|]. injection Ef as _ <-.
        destruct (N.lt_ge_cases (le_dec (range m 8 8) + N.of_nat (length m)) (2^64)) as [Lt|Ge]; [|exact Ge].
        exfalso. apply Nw. intros _ n' fh' E. injection E as _ <-. exact Lt.
    - left. set (s1 := upPkt s (pNext p') (iWin s)).
      assert (S1 : safe s1) by (destruct S as (A & B & C & D); split; [exact A|]; split; [exact B|]; split; [exact C|exact D]).
      eexists. split; [reflexivity|].
      set (n := add64 (iFails s1) 1). set (s2 := upFails s1 n (iUnexpected s1)).
      assert (S2 : safe s2) by exact S1.
      set (s3 := match icErrorOn c with Some k => _ | None => _ end).
      assert (S3 : safe s3) by (unfold s3; destruct (icErrorOn c); [destruct (_ <=? _)|]; [apply safe_report| |]; exact S2).
      destruct (_ <=? _); [|exact S3]. apply (safe_ext s3); auto; apply S3.
  Qed.

  (** Some packet so far had such a content. *)
  Definition poisoned (s0 : isess) (ls : list ilabel) : Prop :=
    exists ls1 raw ls2 s1 p w l content, ls = ls1 ++ IPacket raw :: ls2 /\ exec step s0 ls1 = Some s1 /\
      receivePacket stream blake3 poly1305 (peer_of s1) (iWin s1) raw = Ret (p, w, PktAccepted l content) /\ wraps content.

  Lemma packetsOf_app : forall a b, packetsOf (a ++ b) = packetsOf a ++ packetsOf b.
  Proof. induction a as [|[raw|k| | | |] a IH]; intros b; cbn [packetsOf app]; rewrite ?IH; auto. Qed.

  Lemma poisoned_app : forall s0 ls l, poisoned s0 ls -> poisoned s0 (ls ++ [l]).
  Proof.
    intros s0 ls l (ls1 & raw & ls2 & s1 & p & w & n & content & E & R). exists ls1, raw, (ls2 ++ [l]), s1, p, w, n, content.
    split; [|exact R]. rewrite E, <- app_assoc. reflexivity.
  Qed.

  Lemma safe_run : forall remote win md mf, 0 < md -> mf < 2^63 ->
    forall ls s, exec step (isessInit remote win md mf) ls = Some s -> Forall bytes_ok (packetsOf ls) ->
    safe s \/ poisoned (isessInit remote win md mf) ls.
  Proof.
    intros remote win md mf Hmd Hmf ls s E HF. revert HF.
    apply (exec_snoc_inv _ _ step (fun ls s => Forall bytes_ok (packetsOf ls) -> safe s \/ poisoned (isessInit remote win md mf) ls)
             (isessInit remote win md mf)) with (ls := ls) (s := s); [| |exact E]; clear ls s E.
    - intros _. left. split.
      + constructor; cbn; auto.
        * unfold ReaderRun.handlersReady. cbn. repeat constructor.
        * apply repeat_length.
        * apply Forall_forall. intros ch Hc. apply repeat_spec in Hc. subst. apply wfc_empty.
      + split; [reflexivity|]. split; [apply win_init|]. split; [constructor|]. intros _. split; reflexivity.
    - intros ls s l s' Ex IH E HF. rewrite packetsOf_app in HF. apply Forall_app in HF. destruct HF as [HF HL].
      destruct (IH HF) as [S|Po]; [|right; apply poisoned_app, Po]. clear IH.
      unfold istep in E. destruct (iPanic s) eqn:Ep; [discriminate|]. destruct l as [raw|k| | | |].
      + destruct (_ || _); [discriminate|]. inversion HL; subst.
        destruct (safe_receive s raw S) as [(s1 & R & S1)|(p & w & n & content & R & W)]; [assumption| |].
        * rewrite R in E. injection E as <-. left. exact S1.
        * right. exists ls, raw, [], s, p, w, n, content. auto.
      + left. destruct (isHandle k) eqn:Hh; [discriminate|].
        destruct (kstep verify dh blake3 sha3 (icKx c) (iKx s) k) as [x|] eqn:K; [|discriminate]. injection E as <-.
        assert (Kx : kxOk (xKx x)) by (eapply kstep_ok; [exact Hh| |exact K]; apply S).
        pose proof (safe_afterKx s x S Kx) as S1. destruct (xPanic x); exact S1.
      + left. destruct (_ || _); [discriminate|]. destruct (sendPacket _ _ _ _ _ _) as [p [[raw|e]|]]; try discriminate; injection E as <-; exact S.
      + left. destruct (iWritten s); [|discriminate]. destruct (iResult s); [discriminate|].
        destruct (nth_error _ _) as [b|]; [|discriminate]. injection E as <-. exact S.
      + left. destruct (_ || _); [|discriminate]. injection E as <-. destruct S as (A & B & C0 & D). split; [apply okRcv_state, A|]. split; [exact B|]. split; [exact C0|exact D].
      + left. destruct (iResult s); [discriminate|]. destruct (_ =? _); [|discriminate]. injection E as <-. exact S.
  Qed.
End Safe.

(** The sizes of the keys do not depend on what else happens. *)
Section KeyRun.
  Variable verify : bytes -> bytes -> bytes -> bool.
  Variable dh : bytes -> bytes -> bytes.
  Variable blake3 sha3 : bytes -> bytes.
  Variable stream : bytes -> bytes -> nat -> N.
  Variable poly1305 : bytes -> bytes -> bytes.
  Variable c : iconf.
  Hypothesis dh_len : forall a b, length (dh a b) = 32%nat.
  Hypothesis sha3_len : forall b, length (sha3 b) = 32%nat.

  Notation step := (istep verify dh blake3 sha3 stream poly1305 c).
  Notation peer_of := (peerOf blake3 sha3 c).
  Notation kok s := (kxOk (xKx (iKx s))).

  Lemma kok_afterKx : forall s x, kxOk (xKx x) -> kok (afterKx c s x).
  Proof.
    intros s x K. unfold afterKx, reportError. destruct (Nat.ltb _ _), (_ && _); try destruct (icCloseOnError c); exact K.
  Qed.
  Lemma kok_report : forall s e, kok s -> kok (reportError c s e).
  Proof. intros s e K. unfold reportError. destruct (icCloseOnError c); exact K. Qed.

  Lemma kok_receive : forall s raw s', kok s -> iReceive verify dh blake3 sha3 stream poly1305 c s raw = Ret s' -> kok s'.
  Proof.
    intros s raw s' K E. revert K E.
    apply (receive_inv verify dh blake3 sha3 stream poly1305 c (fun s => kok s)); try (intros; assumption).
    intros s0 b k h K Eh. assert (Kk : kxOk k) by (eapply (handle_ok verify dh blake3 sha3 c dh_len sha3_len); [exact K|exact Eh]).
    split; exact Kk.
  Qed.

  Lemma kok_step : forall s l s', kok s -> step s l = Some s' -> kok s'.
  Proof.
    intros s l s' K E. unfold istep in E. destruct (iPanic s); [discriminate|]. destruct l as [raw|k| | | |].
    - destruct (_ || _); [discriminate|]. destruct (iReceive _ _ _ _ _ _ _ s raw) as [s1|] eqn:R; injection E as <-; [|exact K].
      eapply kok_receive; eassumption.
    - destruct (isHandle k) eqn:Hh; [discriminate|].
      destruct (kstep verify dh blake3 sha3 (icKx c) (iKx s) k) as [x|] eqn:Ek; [|discriminate]. injection E as <-.
      assert (Kx : kxOk (xKx x)) by (eapply (kstep_ok verify dh blake3 sha3 c dh_len sha3_len); [exact Hh|exact K|exact Ek]).
      pose proof (kok_afterKx s x Kx) as S1. destruct (xPanic x); exact S1.
    - destruct (_ || _); [discriminate|]. destruct (sendPacket _ _ _ _ _ _) as [p [[raw|e]|]]; try discriminate; injection E as <-; exact K.
    - destruct (iWritten s); [|discriminate]. destruct (iResult s); [discriminate|].
      destruct (nth_error _ _) as [b|]; [|discriminate]. injection E as <-. exact K.
    - destruct (_ || _); [|discriminate]. injection E as <-. exact K.
    - destruct (iResult s); [discriminate|]. destruct (_ =? _); [|discriminate]. injection E as <-. exact K.
  Qed.

  Lemma kok_run : forall remote win md mf ls s, exec step (isessInit remote win md mf) ls = Some s -> kok s.
  Proof.
    intros remote win md mf. apply (exec_snoc_inv _ _ step (fun _ s => kok s)).
    - split; [constructor|]. intros _. split; reflexivity.
    - intros ls s l s' _ K E. eapply kok_step; eassumption.
  Qed.

  Lemma kok_peer : forall s, kok s -> peer_ok (peer_of s).
  Proof.
    intros s (K & R). unfold peer_ok, peerOf. cbn [pAux pKeys pOwnID pRemoteID]. split.
    - unfold auxKey. destruct (cPSK (icKx c)); [|exact I]. cbn [key_ok]. rewrite firstn_length. unfold hash. rewrite sha3_len. reflexivity.
    - split; [exact K|]. split; [unfold sessBytes; rewrite app_length, !le_enc_length; reflexivity|].
      destruct (kRemoteSession (xKx (iKx s))) as [i|] eqn:E; cbn [option_map].
      + unfold sessBytes; rewrite app_length, !le_enc_length; reflexivity.
      + destruct (R eq_refl) as [_ ->]. constructor.
  Qed.
End KeyRun.
