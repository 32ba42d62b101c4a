(** Lemmas about the session put together. *)
From Coq Require Import NArith Arith List Bool Lia.
From Verif Require Import Base BaseLemmas TS MessageModel CodecProofs PendingChainModel PacketIDModel PacketIDSpec PacketIDRun
  ReaderModel ReaderLoopModel ReaderSpec ReaderProofs PacketModel PacketSpec PacketProofs StateModel KxModel KxSpec KxProofs IntegModel.
Import ListNotations.
Local Open Scope N_scope.

(** Runs, with the labels kept. *)
Lemma exec_snoc_inv : forall St L (step : St -> L -> option St) (P : list L -> St -> Prop) s0,
  P [] s0 -> (forall ls s l s', exec step s0 ls = Some s -> P ls s -> step s l = Some s' -> P (ls ++ [l]) s') ->
  forall ls s, exec step s0 ls = Some s -> P ls s.
Proof.
  intros St L step P s0 H0 Hs ls. induction ls as [|l ls IH] using rev_ind; intros s E.
  - injection E as <-. exact H0.
  - destruct (exec step s0 ls) as [s1|] eqn:E1.
    + rewrite (exec_app step ls [l] s0 s1 E1) in E. cbn [exec] in E.
      destruct (step s1 l) as [s2|] eqn:E2; [|discriminate]. injection E as <-. eapply Hs; eauto.
    + exfalso. clear - E E1. revert s0 E E1. induction ls as [|x ls IH]; intros s0 E E1; [discriminate|].
      cbn [exec app] in *. destruct (step s0 x); [|discriminate]. eapply IH; eauto.
Qed.

(** The parser loop keeps what its parts keep. *)
Lemma runLoop_inv : forall St (onErr : St -> gerr -> St) handle (I : St -> Prop),
  (forall s e, I s -> I (onErr s e)) -> (forall s h m s' x, I s -> handle s h m = Ret (s', x) -> I s') ->
  forall s l mb s', I s -> runLoop onErr handle s l mb = LoopEnd s' -> I s'.
Proof.
  intros St onErr handle I He Hh s l mb s' Hi. unfold runLoop. generalize (length mb) as fuel. generalize (N.min (len mb) l) as lim. generalize 0 as i.
  intros i lim fuel. revert s i Hi. induction fuel as [|fuel IH]; intros s i Hi E; cbn [procLoop] in E.
  - destruct (i <? lim); [discriminate|]. injection E as <-. exact Hi.
  - destruct (i <? lim); [|injection E as <-; exact Hi].
    destruct (lim - i <? messageHeadersSize); [injection E as <-; auto|].
    destruct (gslice mb i _) as [hb|]; [|discriminate]. destruct (hdrRead hb) as [[n hdr]|e]; [|injection E as <-; auto].
    destruct (lim - i <? _); [injection E as <-; auto|]. destruct (gslice mb _ _) as [msg|]; [|discriminate].
    destruct (handle s hdr msg) as [[s1 [nl|]]|] eqn:Eh; [|injection E as <-; eauto|discriminate].
    eapply IH; [|exact E]. eauto.
Qed.

Section Facts.
  Variable verify : bytes -> bytes -> bytes -> bool.
  Variable dh : bytes -> bytes -> bytes.
  Variable blake3 sha3 : bytes -> bytes.
  Variable stream : bytes -> bytes -> nat -> N.
  Variable poly1305 : bytes -> bytes -> bytes.
  Variable c : iconf.

  Notation recv := (iReceive verify dh blake3 sha3 stream poly1305 c).
  Notation hnd := (iHandle verify dh blake3 sha3 c).
  Notation peer_of := (peerOf blake3 sha3 c).

  Lemma iHandle_len : forall s h m s' n, isFragmented (mFlags h) = false -> hnd s h m = Ret (s', Some n) -> n = mLength h.
  Proof.
    intros s h m s' n Hf E. unfold iHandle, handleOne in E. rewrite Hf in E.
    destruct (processIncomingMessage _ h m) as [r|]; [|discriminate]. cbn [fst snd] in E.
    destruct (if Nat.ltb _ _ then _ else _) as [s1|]; [|discriminate].
    destruct (_ && _); [destruct (_ && _); discriminate|]. injection E as _ <-. reflexivity.
  Qed.

  (** A packet with one unfragmented message. *)
  Lemma receive_one : forall s raw p win m s' x, wireMsg_ok m -> isFragmented (wFlags m) = false ->
    receivePacket stream blake3 poly1305 (peer_of s) (iWin s) raw = Ret (p, win, PktAccepted (len (wireBytes m)) (wireBytes m)) ->
    hnd (upFails (upPkt s (pNext p) win) 0 (iUnexpected s)) (hdrOf m) (wPayload m) = Ret (s', x) ->
    recv s raw = Ret s'.
  Proof.
    intros s raw p win m s' x Hm Hf Hr Hh. unfold iReceive. rewrite Hr. cbn zeta.
    pose proof (runLoop_batch (reportError c) hnd [m] (upFails (upPkt s (pNext p) win) 0 (iUnexpected s)) []) as R.
    cbn [map concat] in R. rewrite !app_nil_r in R.
    change (iUnexpected (upPkt s (pNext p) win)) with (iUnexpected s). rewrite R.
    - cbn [foldMsgs]. rewrite Hh. destruct x; reflexivity.
    - constructor; auto.
    - intros s0 m0 s1 n [<-|[]] E. apply iHandle_len in E; [exact E|exact Hf].
  Qed.

  (** A packet with two. *)
  Lemma receive_two : forall s raw p win m1 m2 s1 n s' x, wireMsg_ok m1 -> wireMsg_ok m2 ->
    isFragmented (wFlags m1) = false -> isFragmented (wFlags m2) = false ->
    receivePacket stream blake3 poly1305 (peer_of s) (iWin s) raw =
      Ret (p, win, PktAccepted (len (wireBytes m1 ++ wireBytes m2)) (wireBytes m1 ++ wireBytes m2)) ->
    hnd (upFails (upPkt s (pNext p) win) 0 (iUnexpected s)) (hdrOf m1) (wPayload m1) = Ret (s1, Some n) ->
    hnd s1 (hdrOf m2) (wPayload m2) = Ret (s', x) ->
    recv s raw = Ret s'.
  Proof.
    intros s raw p win m1 m2 s1 n s' x Hm1 Hm2 Hf1 Hf2 Hr Hh1 Hh2. unfold iReceive. rewrite Hr. cbn zeta.
    pose proof (runLoop_batch (reportError c) hnd [m1; m2] (upFails (upPkt s (pNext p) win) 0 (iUnexpected s)) []) as R.
    cbn [map concat] in R. rewrite !app_nil_r in R.
    change (iUnexpected (upPkt s (pNext p) win)) with (iUnexpected s). rewrite R.
    - cbn [foldMsgs]. rewrite Hh1, Hh2. destruct x; reflexivity.
    - constructor; [exact Hm1|]. constructor; [exact Hm2|constructor].
    - intros s0 m0 s2 k [<-|[<-|[]]] E; apply iHandle_len in E; auto.
  Qed.

  (** What the messages of one packet can do to a session. *)
  Lemma loop_inv : forall (I : isess -> Prop),
    (forall s r, I s -> I (upRcv s r)) -> (forall s, I s -> I (upOver s)) ->
    (forall s b k h, I s -> handleKx verify dh blake3 sha3 (icKx c) (xKx (iKx s)) b = Ret (k, h) ->
       I (upKx s (setX (iKx s) k)) /\ I (upKx s (addAnswer (setX (iKx s) k)))) ->
    forall s l content s', I s -> runLoop (reportError c) hnd s l content = LoopEnd s' -> I s'.
  Proof.
    intros I Hr Ho Hk.
    assert (He : forall s e, I s -> I (reportError c s e)).
    { intros s e Hi. unfold reportError, closeCall. destruct (icCloseOnError c); auto. }
    assert (Ha : forall s x, I (upKx s x) -> I (afterKx c s x)).
    { intros s x Hi. unfold afterKx, connect, closeCall. destruct (Nat.ltb _ _), (_ && _); auto. }
    assert (Hh : forall s h m s' x, I s -> hnd s h m = Ret (s', x) -> I s').
    { intros s h m s' x Hi E. unfold iHandle in E. destruct (handleOne (iRcv s) h m) as [[[r cnt] y]|]; [|discriminate].
      destruct (if Nat.ltb _ _ then _ else _) as [s1|] eqn:E1; [|discriminate].
      assert (I1 : I s1).
      { destruct (Nat.ltb _ _); [|injection E1 as <-; auto]. destruct (out r) as [|e l]; [injection E1 as <-; auto|].
        destruct e as [t b|t b|e|]; cbn [handleEvent] in E1; try (injection E1 as <-; auto; fail).
        - destruct (t =? messageTypeKeyExchange); [|injection E1 as <-; auto].
          destruct (handleKx verify dh blake3 sha3 (icKx c) (xKx (iKx (upRcv s r))) b) as [[k hd]|] eqn:Eh; [|discriminate].
          destruct (Hk (upRcv s r) b k hd (Hr s r Hi) Eh) as [K1 K2].
          destruct hd as [e| |[]]; injection E1 as <-; auto.
        - injection E1 as <-. unfold closeCall. destruct (icCloseOnError c); auto. }
      destruct y as [n|]; [|injection E as <- _; exact I1].
      destruct (_ && _); [|injection E as <- _; exact I1]. destruct (_ && _); injection E as <- _; auto; apply Hr; exact I1. }
    intros s l content s' Hi R. eapply (runLoop_inv _ (reportError c) hnd I); [exact He|exact Hh|exact Hi|exact R].
  Qed.

  (** What the reception of a packet can do to a session. *)
  Lemma receive_inv : forall (I : isess -> Prop),
    (forall s r, I s -> I (upRcv s r)) -> (forall s n w, I s -> I (upPkt s n w)) -> (forall s a b, I s -> I (upFails s a b)) ->
    (forall s, I s -> I (upOver s)) ->
    (forall s b k h, I s -> handleKx verify dh blake3 sha3 (icKx c) (xKx (iKx s)) b = Ret (k, h) ->
       I (upKx s (setX (iKx s) k)) /\ I (upKx s (addAnswer (setX (iKx s) k)))) ->
    forall s raw s', I s -> recv s raw = Ret s' -> I s'.
  Proof.
    intros I Hr Hp Hf Ho Hk.
    assert (He : forall s e, I s -> I (reportError c s e)).
    { intros s e Hi. unfold reportError, closeCall. destruct (icCloseOnError c); auto. }
    intros s raw s' Hi E. unfold iReceive in E.
    destruct (receivePacket stream blake3 poly1305 (peer_of s) (iWin s) raw) as [[[p win] pk]|]; [|discriminate].
    destruct pk as [a b| |e| |l content]; try (injection E as <-; auto; fail).
    - injection E as <-. destruct (icErrorOn c); [destruct (_ <=? _)|]; destruct (_ <=? _); auto 6.
    - destruct (runLoop _ _ _ l content) as [s2| |] eqn:R; try discriminate. injection E as <-.
      eapply (loop_inv I Hr Ho Hk); [|exact R]. auto.
  Qed.

  Lemma receive_panic : forall s raw s', recv s raw = Ret s' -> iPanic s' = iPanic s.
  Proof.
    intros s raw s' E. apply (receive_inv (fun x => iPanic x = iPanic s)) with (s := s) (raw := raw); auto.
  Qed.
End Facts.
