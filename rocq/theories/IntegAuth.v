(** Where the keys of a session come from: lemmas. *)
From Coq Require Import NArith Arith List Bool Lia.
From Verif Require Import Base BaseLemmas TS MessageModel CodecProofs PendingChainModel PacketIDModel
  ReaderModel ReaderLoopModel PacketModel StateModel KxModel KxSpec KxProofs IntegModel IntegSpec IntegProofs.
Import ListNotations.
Local Open Scope N_scope.

Definition keysOf (k : kx) := (kRemoteIdentity k, kNextRemote k, kPrevRemote k, kNextLocal k, kPrevLocal k, kKeys k).

Section Auth.
  Variable verify : bytes -> bytes -> bytes -> bool.
  Variable dh : bytes -> bytes -> bytes.
  Variable blake3 sha3 : bytes -> bytes.
  Hypothesis dh_len : forall a b, length (dh a b) = 32%nat.
  Hypothesis sha3_len : forall b, length (sha3 b) = 32%nat.

  Definition maskOf (psk : option bytes) : option bytes := option_map (fun p => hash blake3 sha3 p [Salt; purpose]) psk.

  (** Remote keys satisfy [H], local ones [D], the secrets are made of such. *)
  Definition soundKeys (psk : option bytes) (H D : bytes -> Prop) (ks : list (option bytes)) : Prop :=
    forall k, In (Some k) ks -> exists p x, D p /\ H x /\ madeOf dh (maskOf psk) p x k.
  Definition soundKx (psk : option bytes) (id : bytes) (H D : bytes -> Prop) (k : kx) : Prop :=
    kRemoteIdentity k = Some id /\
    (forall x, kNextRemote k = Some x -> H x) /\ (forall x, kPrevRemote k = Some x -> H x) /\
    (forall p, kNextLocal k = Some p -> D p) /\ (forall p, kPrevLocal k = Some p -> D p) /\
    soundKeys psk H D (kKeys k).

  Lemma soundKx_same : forall psk id H D k k', keysOf k' = keysOf k -> soundKx psk id H D k -> soundKx psk id H D k'.
  Proof.
    intros psk id H D k k' E. unfold keysOf in E. injection E as E1 E2 E3 E4 E5 E6. unfold soundKx. rewrite E1, E2, E3, E4, E5, E6. auto.
  Qed.

  Lemma soundKeys_mono : forall psk (H H' D D' : bytes -> Prop) ks, (forall x, H x -> H' x) -> (forall x, D x -> D' x) ->
    soundKeys psk H D ks -> soundKeys psk H' D' ks.
  Proof. intros psk H H' D D' ks MH MD S k Hk. destruct (S k Hk) as (p & x & A & B & M). exists p, x. auto. Qed.

  Lemma soundKx_mono : forall psk id (H H' D D' : bytes -> Prop) k, (forall x, H x -> H' x) -> (forall x, D x -> D' x) ->
    soundKx psk id H D k -> soundKx psk id H' D' k.
  Proof.
    intros psk id H H' D D' k MH MD (A & B & C & E & F & G). unfold soundKx. split; [exact A|].
    split; [auto|]. split; [auto|]. split; [auto|]. split; [auto|]. eapply soundKeys_mono; eauto.
  Qed.

  Lemma gsk_made : forall psk l r k, generateSharedKey dh blake3 sha3 psk l r = Ret (Some k) ->
    exists p x, l = Some p /\ r = Some x /\ madeOf dh (maskOf psk) p x k.
  Proof.
    intros psk l r k E.
    destruct (gsk_spec dh blake3 sha3 dh_len sha3_len psk l r) as [(a & b & _ & _ & _ & E1)|[(a & b & k' & -> & -> & _ & E1 & X)|(_ & E1)]];
      rewrite E1 in E; try discriminate.
    injection E as ->. exists a, b. split; [reflexivity|]. split; [reflexivity|]. destruct psk as [p|]; cbn [maskOf option_map madeOf].
    - exact X.
    - cbn [generateSharedKey] in E1. destruct (bytes_eqb (dh a b) zeroKey); congruence.
  Qed.

  Lemma update_sound : forall c id H D k k', soundKx (cPSK c) id H D k -> updateSecrets dh blake3 sha3 c k = Ret k' ->
    soundKx (cPSK c) id H D k'.
  Proof.
    intros c id H D k k' (A & B & C & E & F & G) U. rewrite (update_spec dh blake3 sha3 dh_len sha3_len) in U.
    destruct (generateSharedKey dh blake3 sha3 (cPSK c) (kNextLocal k) (kNextRemote k)) as [k0|] eqn:E0; [|discriminate].
    destruct (generateSharedKey dh blake3 sha3 (cPSK c) (kNextLocal k) (kPrevRemote k)) as [k1|] eqn:E1; [|discriminate].
    destruct (generateSharedKey dh blake3 sha3 (cPSK c) (kPrevLocal k) (kNextRemote k)) as [k2|] eqn:E2; [|discriminate].
    destruct (generateSharedKey dh blake3 sha3 (cPSK c) (kPrevLocal k) (kPrevRemote k)) as [k3|] eqn:E3; [|discriminate].
    injection U as <-. destruct k0 as [k0|]; [|split; [exact A|]; split; [exact B|]; split; [exact C|]; split; [exact E|]; split; [exact F|exact G]].
    split; [exact A|]. split; [exact B|]. split; [exact C|]. split; [exact E|]. split; [exact F|].
    intros x Hx. cbn [setKeys kKeys In] in Hx.
    destruct Hx as [Hx|[Hx|[Hx|[Hx|[]]]]]; [injection Hx as ->|subst k1|subst k2|subst k3]; match goal with U : generateSharedKey _ _ _ _ _ _ = Ret (Some x) |- _ =>
      apply gsk_made in U; destruct U as (p & y & U1 & U2 & M); exists p, y; split; [auto|]; split; [auto|exact M] end.
  Qed.

  Lemma setNext_sound : forall psk id (H D : bytes -> Prop) k x, H x -> soundKx psk id H D k -> soundKx psk id H D (setNextRemotePublicKey k x).
  Proof.
    intros psk id H D k x Hx (A & B & C & E & F & G). unfold setNextRemotePublicKey.
    destruct (match kNextRemote k with Some y => bytes_eqb y x | None => false end);
      [split; [exact A|]; split; [exact B|]; split; [exact C|]; split; [exact E|]; split; [exact F|exact G]|].
    split; [exact A|]. cbn [setRemoteKeys kNextRemote kPrevRemote]. split; [intros y Y; injection Y as <-; exact Hx|].
    split; [exact B|]. split; [exact E|]. split; [exact F|exact G].
  Qed.

  Lemma handle_sound : forall c id (H D : bytes -> Prop) k b k' h, soundKx (cPSK c) id H D k ->
    (forall sig body tail m, wire sig body tail b -> verify id sig body = true -> kxDecode body = Some m -> H (kPub m)) ->
    handleKx verify dh blake3 sha3 c k b = Ret (k', h) -> soundKx (cPSK c) id H D k'.
  Proof.
    intros c id H D k b k' h S Hb E.
    assert (A0 : kRemoteIdentity k = Some id) by (destruct S; assumption).
    destruct (handle_cases verify dh blake3 sha3 c k b _ eq_refl) as [(e & R)|[R|[(m & e & _ & R & _)|(m & Ac & R)]]]; rewrite R in E; clear R.
    - injection E as <- _. exact S.
    - injection E as <- _. exact S.
    - injection E as <- _. eapply soundKx_same; [|exact S]. reflexivity.
    - unfold accept in E. rewrite A0 in E.
      destruct Ac as (Dm & _ & _ & _ & Sg). rewrite A0 in Sg. destruct Sg as (sig & body & tail & W & V).
      destruct (wire_parts _ _ _ _ W) as (_ & W2 & _). rewrite W2 in Dm. specialize (Hb sig body tail m W V Dm).
      set (k1 := setRemote k (Some id) _) in E.
      assert (S1 : soundKx (cPSK c) id H D k1).
      { eapply soundKx_same; [|exact S]. unfold keysOf, k1. cbn. rewrite A0. reflexivity. }
      apply (setNext_sound _ _ _ _ _ (kPub m) Hb) in S1.
      destruct (updateSecrets dh blake3 sha3 c (setNextRemotePublicKey k1 (kPub m))) as [k2|] eqn:U; [|discriminate].
      apply (update_sound c id H D _ _ S1) in U. injection E as <- _.
      destruct (_ || _); [|exact U]. eapply soundKx_same; [|exact U]. reflexivity.
  Qed.

  Lemma kstep_keys : forall c x l x', isHandle l = false -> kstep verify dh blake3 sha3 c x l = Some x' ->
    keysOf (xKx x') = keysOf (xKx x) \/
    exists p pub now k, (l = KLoopGen p pub now \/ exists i, l = KAnswerGen i p pub now) /\
      installLocalKey dh blake3 sha3 c (xKx x) p pub now = Ret k /\ keysOf (xKx x') = keysOf k.
  Proof.
    intros c x l x' Hl E. unfold kstep in E. destruct (xPanic x); [discriminate|].
    destruct l; try discriminate.
    - left. destruct (xLoop x); try discriminate. destruct (kCtxDone (xKx x)); [discriminate|]. destruct (_ <? _); injection E as <-; reflexivity.
    - left. destruct (xLoop x); try discriminate. destruct (inProgress _); injection E as <-; reflexivity.
    - destruct (xLoop x); try discriminate. destruct (installLocalKey _ _ _ _ _ _ _ _) as [k|] eqn:I; injection E as <-.
      + right. exists priv, pub, now, k. split; [left; reflexivity|]. split; [exact I|reflexivity].
      + left. reflexivity.
    - left. destruct (xLoop x); try discriminate. injection E as <-. unfold sendMsg. destruct (publicKeyMessage _ _ _); reflexivity.
    - left. destruct (xLoop x); try discriminate. destruct (kNotify (xKx x)); injection E as <-; unfold sendMsg.
      + destruct (_ <=? _); [reflexivity|]. destruct (publicKeyMessage _ _ _); reflexivity.
      + destruct (publicKeyMessage _ _ _); reflexivity.
    - left. destruct (xLoop x); try discriminate. destruct (kNotify (xKx x)); try discriminate. injection E as <-. destruct (_ <=? _); reflexivity.
    - left. destruct (xLoop x); try discriminate. injection E as <-. destruct (kNotify (xKx x)); [destruct (_ <=? _)|]; reflexivity.
    - left. destruct (nth_error (xAnswers x) i) as [[]|]; try discriminate; injection E as <-.
      + reflexivity.
      + reflexivity.
      + reflexivity.
      + unfold sendMsg. destruct (publicKeyMessage _ _ _); reflexivity.
    - destruct (nth_error (xAnswers x) i) as [[]|]; try discriminate.
      destruct (installLocalKey _ _ _ _ _ _ _ _) as [k|] eqn:I; injection E as <-.
      + right. exists priv, pub, now, k. split; [right; eexists; reflexivity|]. split; [exact I|reflexivity].
      + left. reflexivity.
    - left. injection E as <-. reflexivity.
  Qed.

  Lemma install_sound : forall c id (H D : bytes -> Prop) k p pub now k', D p -> soundKx (cPSK c) id H D k ->
    installLocalKey dh blake3 sha3 c k p pub now = Ret k' -> soundKx (cPSK c) id H D k'.
  Proof.
    intros c id H D k p pub now k' Hp (A & B & C & E & F & G) I. unfold installLocalKey in I.
    eapply update_sound; [|exact I]. split; [exact A|]. split; [exact B|]. split; [exact C|].
    cbn [setLocalKeys kNextLocal kPrevLocal]. split; [intros q Q; injection Q as <-; exact Hp|]. split; [exact E|exact G].
  Qed.
End Auth.

(** One message leaves at most one event. *)
Lemma pim_out : forall s h p r, processIncomingMessage s h p = Ret r -> out r = out s \/ exists e, out r = e :: out s.
Proof.
  intros s h p r E. unfold processIncomingMessage in E.
  destruct (lookup (mType h) (messengers s)) as [[]|]; destruct (gslice p 0 (mLength h)); try discriminate.
  - injection E as <-. right. eexists; reflexivity.
  - destruct (memN _ _); injection E as <-; [right; eexists|left]; reflexivity.
Qed.

Lemma handleOne_out : forall s h m r cnt x, handleOne s h m = Ret (r, cnt, x) -> out r = out s \/ exists e, out r = e :: out s.
Proof.
  intros s h m r cnt x E. unfold handleOne in E.
  set (counted := (0 <? detachOnMessagesCount s) && _ && _) in E.
  set (s1 := if counted then setCount s (add64 (receivedMessagesCount s) 1) else s) in E.
  assert (O1 : out s1 = out s) by (unfold s1; destruct counted; reflexivity).
  clearbody s1. clearbody counted.
  destruct (isFragmented (mFlags h)).
  - destruct (fragRead m) as [[n fh]|e]; [|injection E as <- _ _; right; eexists; cbn [emit out]; rewrite O1; reflexivity].
    destruct (gslice m n (len m)) as [p|]; [|discriminate].
    destruct (processIncomingMessageFragment s1 h fh p) as [[s2 l]|] eqn:F; [|discriminate]. injection E as <- _ _.
    unfold processIncomingMessageFragment in F.
    set (s3 := if lastRemoteChainID s1 <? fChainID fh then _ else s1) in F.
    assert (O3 : out s3 = out s) by (unfold s3; destruct (_ <? _); exact O1).
    clearbody s3.
    destruct (_ <? _); [injection F as <- _; left; exact O3|]. destruct (_ =? 0); [discriminate|].
    destruct (nth_error _ _) as [c|]; [|discriminate]. destruct (_ && _); [injection F as <- _; left; exact O3|].
    destruct (chainMerge _ fh p) as [[c' [[msg|]|e]]|]; try discriminate; try (injection F as <- _; left; exact O3).
    destruct (processIncomingMessage _ _ msg) as [s4|] eqn:P; [|discriminate]. injection F as <- _.
    apply pim_out in P. cbn [setChains out] in P. rewrite O3 in P. exact P.
  - destruct (processIncomingMessage s1 h m) as [s2|] eqn:P; [|discriminate]. injection E as <- _ _. apply pim_out in P. rewrite O1 in P. exact P.
Qed.

Section Run.
  Variable verify : bytes -> bytes -> bytes -> bool.
  Variable dh : bytes -> bytes -> bytes.
  Variable blake3 sha3 : bytes -> bytes.
  Variable stream : bytes -> bytes -> nat -> N.
  Variable poly1305 : bytes -> bytes -> bytes.
  Variable c : iconf.
  Variable id : bytes.
  Hypothesis dh_len : forall a b, length (dh a b) = 32%nat.
  Hypothesis sha3_len : forall b, length (sha3 b) = 32%nat.

  Notation step := (istep verify dh blake3 sha3 stream poly1305 c).
  Notation H s := (heard verify id (out (iRcv s))).

  Definition sessSound (D : bytes -> Prop) (s : isess) : Prop :=
    soundKx dh blake3 sha3 (cPSK (icKx c)) id (H s) D (xKx (iKx s)) /\
    (forall keys, iResult s = Some (CfOk keys) -> length keys = 4%nat /\ soundKeys dh blake3 sha3 (cPSK (icKx c)) (H s) D keys).

  Lemma heard_mono : forall e1 e2 x, incl e1 e2 -> heard verify id e1 x -> heard verify id e2 x.
  Proof. intros e1 e2 x I (b & sig & body & tail & m & A & B). exists b, sig, body, tail, m. split; [apply I, A|exact B]. Qed.

  Lemma sound_ext : forall D s s', sessSound D s -> keysOf (xKx (iKx s')) = keysOf (xKx (iKx s)) -> iResult s' = iResult s ->
    incl (out (iRcv s)) (out (iRcv s')) -> sessSound D s'.
  Proof.
    intros D s s' (A & B) Ek Er I. split.
    - eapply soundKx_same; [exact Ek|]. eapply soundKx_mono; [|intros x Hx; exact Hx|exact A]. intros x. apply heard_mono, I.
    - rewrite Er. intros keys E. destruct (B keys E) as [L K]. split; [exact L|].
      eapply soundKeys_mono; [|intros x Hx; exact Hx|exact K]. intros x. apply heard_mono, I.
  Qed.

  Lemma sound_close : forall D s, sessSound D s -> sessSound D (closeCall s).
  Proof. intros D s S. apply (sound_ext D s); auto using incl_refl. Qed.
  Lemma sound_connect : forall D s, sessSound D s -> sessSound D (connect s).
  Proof. intros D s S. apply (sound_ext D s); auto using incl_refl. Qed.
  Lemma sound_report : forall D s e, sessSound D s -> sessSound D (reportError c s e).
  Proof.
    intros D s e S. assert (A : sessSound D (upRcv s (emit (iRcv s) (EvError e)))).
    { apply (sound_ext D s); auto. cbn. apply incl_tl, incl_refl. }
    unfold reportError. destruct (icCloseOnError c); [apply sound_close|]; exact A.
  Qed.

  Lemma sound_afterKx : forall D s x, sessSound D (upKx s x) -> sessSound D (afterKx c s x).
  Proof.
    intros D s x S. unfold afterKx.
    set (s1 := if Nat.ltb _ _ then _ else _).
    assert (S1 : sessSound D s1) by (unfold s1; destruct (Nat.ltb _ _); [apply sound_report, sound_close|]; exact S).
    destruct (_ && _); [apply sound_connect|]; exact S1.
  Qed.

  Lemma sound_event : forall D s e s', sessSound D s -> In e (out (iRcv s)) -> handleEvent verify dh blake3 sha3 c s e = Ret s' -> sessSound D s'.
  Proof.
    intros D s e s' S He E. destruct e as [t b|t b|e|]; cbn [handleEvent] in E; try (injection E as <-; exact S).
    - destruct (t =? messageTypeKeyExchange) eqn:Et; [|injection E as <-; exact S]. apply N.eqb_eq in Et. subst t.
      destruct (handleKx verify dh blake3 sha3 (icKx c) (xKx (iKx s)) b) as [[k h]|] eqn:Eh; [|discriminate].
      assert (K : forall x, xKx x = k -> sessSound D (upKx s x)).
      { intros x Ex. destruct S as [S1 S2]. split; [|exact S2]. cbn [upKx iKx iRcv]. rewrite Ex.
        apply (handle_sound verify dh blake3 sha3 dh_len sha3_len (icKx c) id _ D _ b k h S1); [|exact Eh].
        intros sig body tail m W V Dm. exists b, sig, body, tail, m. auto. }
      destruct h as [e| |[]]; injection E as <-; try (apply sound_report); apply sound_afterKx, K; reflexivity.
    - destruct (icCloseOnError c); injection E as <-; [apply sound_close|]; exact S.
  Qed.

  Lemma sound_handle : forall D s h m s' x, sessSound D s -> iHandle verify dh blake3 sha3 c s h m = Ret (s', x) -> sessSound D s'.
  Proof.
    intros D s h m s' x S E. unfold iHandle in E.
    destruct (handleOne (iRcv s) h m) as [[[r cnt] y]|] eqn:Eo; [|discriminate].
    apply handleOne_out in Eo.
    assert (I : incl (out (iRcv s)) (out r)).
    { destruct Eo as [->|[e ->]]; [apply incl_refl|apply incl_tl, incl_refl]. }
    assert (S0 : sessSound D (upRcv s r)) by (apply (sound_ext D s); auto).
    destruct (if Nat.ltb _ _ then _ else _) as [s1|] eqn:E1; [|discriminate].
    assert (S1 : sessSound D s1).
    { destruct (Nat.ltb _ _); [|injection E1 as <-; exact S0]. destruct (out r) as [|e l] eqn:Or; [injection E1 as <-; exact S0|].
      apply (sound_event D (upRcv s r) e); [exact S0| |exact E1]. cbn [upRcv iRcv]. rewrite Or. left. reflexivity. }
    destruct y as [n|]; [|injection E as <- _; exact S1].
    destruct (_ && _); [|injection E as <- _; exact S1]. destruct (_ && _); injection E as <- _; [exact S1|apply sound_close, S1].
  Qed.

  Lemma sound_receive : forall D s raw s', sessSound D s -> iReceive verify dh blake3 sha3 stream poly1305 c s raw = Ret s' -> sessSound D s'.
  Proof.
    intros D s raw s' S E. unfold iReceive in E.
    destruct (receivePacket stream blake3 poly1305 (peerOf blake3 sha3 c s) (iWin s) raw) as [[[p win] pk]|]; [|discriminate].
    set (s1 := upPkt s (pNext p) win) in E.
    assert (S1 : sessSound D s1) by (apply (sound_ext D s); auto using incl_refl).
    destruct pk as [a b| |e| |l content].
    - injection E as <-. exact S1.
    - injection E as <-. exact S1.
    - injection E as <-. set (n := add64 (iFails s1) 1). set (s2 := upFails s1 n (iUnexpected s1)).
      assert (S2 : sessSound D s2) by (apply (sound_ext D s1); auto using incl_refl).
      set (s3 := match icErrorOn c with Some k => _ | None => _ end).
      assert (S3 : sessSound D s3).
      { unfold s3. destruct (icErrorOn c); [destruct (_ <=? _)|]; [apply sound_report| |]; exact S2. }
      destruct (_ <=? _); [|exact S3]. apply (sound_ext D s3); auto using incl_refl.
    - injection E as <-. apply (sound_ext D s1); auto using incl_refl.
    - destruct (runLoop _ _ _ l content) as [s2| |] eqn:R; try discriminate. injection E as <-.
      eapply (runLoop_inv _ (reportError c) (iHandle verify dh blake3 sha3 c) (sessSound D)); [| | |exact R].
      + intros; apply sound_report; assumption.
      + intros; eapply sound_handle; eassumption.
      + apply (sound_ext D s1); auto using incl_refl.
  Qed.

  Lemma sound_D : forall (D D' : bytes -> Prop) s, (forall x, D x -> D' x) -> sessSound D s -> sessSound D' s.
  Proof.
    intros D D' s M [A B]. split.
    - eapply soundKx_mono; [|exact M|exact A]. auto.
    - intros keys E. destruct (B keys E) as [L K]. split; [exact L|]. eapply soundKeys_mono; [|exact M|exact K]. auto.
  Qed.

  Lemma sound_step : forall ls s l s', sessSound (drawn ls) s -> step s l = Some s' -> sessSound (drawn (ls ++ [l])) s'.
  Proof.
    intros ls s l s' S E.
    assert (M : forall x, drawn ls x -> drawn (ls ++ [l]) x).
    { intros x (pub & now & [Hx|(i & Hx)]); exists pub, now; [left|right; exists i]; apply in_or_app; left; exact Hx. }
    apply (sound_D _ _ _ M) in S. clear M. unfold istep in E. destruct (iPanic s); [discriminate|].
    assert (P : forall s0, sessSound (drawn (ls ++ [l])) s0 -> sessSound (drawn (ls ++ [l])) (upPanic s0)).
    { intros s0 S0. apply (sound_ext _ s0); auto using incl_refl. }
    destruct l as [raw|k| | | |].
    - destruct (_ || _); [discriminate|]. destruct (iReceive _ _ _ _ _ _ _ s raw) as [s1|] eqn:R; injection E as <-; [|apply P, S].
      eapply sound_receive; eassumption.
    - destruct (isHandle k) eqn:Hh; [discriminate|].
      destruct (kstep verify dh blake3 sha3 (icKx c) (iKx s) k) as [x|] eqn:K; [|discriminate]. injection E as <-.
      assert (S1 : sessSound (drawn (ls ++ [IKx k])) (upKx s x)).
      { destruct (kstep_keys verify dh blake3 sha3 _ _ _ _ Hh K) as [Ek|(p & pub & now & k1 & Hk & I & Ek)].
        - apply (sound_ext _ s); auto using incl_refl.
        - destruct S as [A B]. split; [|exact B]. cbn [upKx iKx iRcv]. eapply soundKx_same; [exact Ek|].
          eapply (install_sound dh blake3 sha3 dh_len sha3_len); [|exact A|exact I].
          exists pub, now. destruct Hk as [->|[i ->]]; [left|right; exists i]; apply in_or_app; right; left; reflexivity. }
      apply sound_afterKx in S1. destruct (xPanic x); [apply P|]; exact S1.
    - destruct (_ || _); [discriminate|]. destruct (sendPacket _ _ _ _ _ _) as [p [[raw|e]|]]; try discriminate; injection E as <-.
      + apply (sound_ext _ s); auto using incl_refl.
      + apply P, S.
    - destruct (iWritten s); [|discriminate]. destruct (iResult s); [discriminate|].
      destruct (nth_error _ _) as [b|]; [|discriminate]. injection E as <-. destruct S as [A B]. split; [exact A|].
      cbn [upResult iResult iRcv]. intros keys Ek. destruct b as [|y b]; [|discriminate].
      destruct (Nat.eqb (length (kKeys (xKx (iKx s)))) secretIDs) eqn:El; [|discriminate]. injection Ek as <-.
      apply Nat.eqb_eq in El. split; [exact El|]. destruct A as (_ & _ & _ & _ & _ & A). exact A.
    - destruct (_ || _); [|discriminate]. injection E as <-. apply (sound_ext _ s); auto using incl_refl.
    - destruct (iResult s) eqn:Er; [discriminate|]. destruct (_ =? _); [|discriminate]. injection E as <-.
      destruct S as [A B]. split; [exact A|]. cbn. discriminate.
  Qed.

  Lemma sound_run : forall win md mf ls s, exec step (isessInit (Some id) win md mf) ls = Some s -> sessSound (drawn ls) s.
  Proof.
    intros win md mf. apply (exec_snoc_inv _ _ step (fun ls s => sessSound (drawn ls) s)).
    - split; [|discriminate]. split; [reflexivity|]. cbn. repeat split; try discriminate. intros k [].
    - intros ls s l s' _ S E. eapply sound_step; eassumption.
  Qed.
End Run.
