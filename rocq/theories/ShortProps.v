(** C162: an error "too short" names a demanded length above the real one. *)
From Coq Require Import NArith List Bool Lia.
From Verif Require Import Base MessageModel NegoModel NegoWireModel KxModel PendingChainModel PacketIDModel
  ReaderModel ReaderLoopModel PacketModel.
Import ListNotations.
Open Scope N_scope.

(** ** Specification *)
(** The two numbers of the error make sense together: less was there than was
    asked for. *)
Definition honest (want got : N) : Prop := got < want.
Definition honestErr (e : gerr) : Prop := forall w g, e = ErrTooShort w g -> honest w g.
Definition honestEvents (l : list event) : Prop := forall w g, In (EvError (ErrTooShort w g)) l -> honest w g.

(** ** Single functions *)
Lemma short_cond : forall n (b : bytes) w g,
  (len b <? n) = true -> ErrTooShort n (len b) = ErrTooShort w g -> g = len b /\ honest w g.
Proof. intros n b w g H E. injection E as <- <-. apply N.ltb_lt in H. split; auto. Qed.

(** The wire formats: whatever bytes they are given (message.go 257-284, 318-364,
    message_fragment_headers.go 54-82, negotiator.go 414-421 for control messages):
    the error names the number of bytes given, and it is below what was demanded. *)
Theorem C162_codecs : forall b w g,
  (hdrRead b = Err (ErrTooShort w g) -> g = len b /\ honest w g) /\
  (forall h, hdrWrite h b = Err (ErrTooShort w g) -> g = len b /\ honest w g) /\
  (contRead b = Ret (Err (ErrTooShort w g)) -> g = len b /\ honest w g) /\
  (forall h, contWrite h b = Err (ErrTooShort w g) -> g = len b /\ honest w g) /\
  (fragRead b = Err (ErrTooShort w g) -> g = len b /\ honest w g) /\
  (forall h, fragWrite h b = Err (ErrTooShort w g) -> g = len b /\ honest w g) /\
  (negDecode b = Err (ErrTooShort w g) -> g = len b /\ honest w g).
Proof.
  intros b w g. unfold hdrRead, hdrWrite, contRead, contWrite, fragRead, fragWrite, negDecode.
  repeat split; intros; try match goal with
  | H : context [if ?c then _ else _] |- _ => destruct c eqn:?C; try discriminate
  end;
  try (match goal with H : context [contReadAfterIV ?x] |- _ => destruct (contReadAfterIV x) as [[? [[? ?] ?]]|]; discriminate end);
  repeat match goal with H : Ret _ = Ret _ |- _ => injection H as H | H : Err _ = Err _ |- _ => injection H as H end;
  repeat match goal with H : ?x = w |- _ => subst w | H : ?x = g |- _ => subst g end;
  unfold honest; try reflexivity; apply N.ltb_lt; assumption.
Qed.
Print Assumptions C162_codecs.

(** ** The receive path *)
Lemma he_cons : forall e l, honestEvents l -> (forall w g, e = EvError (ErrTooShort w g) -> honest w g) ->
  honestEvents (e :: l).
Proof. intros e l H K w g [E|I]; auto. Qed.

Lemma he_fragRead : forall b e, fragRead b = Err e -> honestErr e.
Proof. intros b e E w g ->. apply (C162_codecs b w g) in E. tauto. Qed.

Lemma he_pim : forall s h p s', honestEvents (out s) -> processIncomingMessage s h p = Ret s' -> honestEvents (out s').
Proof.
  intros s h p s' H E. unfold processIncomingMessage in E.
  destruct (lookup _ _) as [[]|], (gslice p 0 (mLength h)); try discriminate.
  - injection E as <-. cbn [emit out]. apply he_cons; [exact H|discriminate].
  - destruct (memN _ _); injection E as <-; [|exact H]. cbn [emit out]. apply he_cons; [exact H|discriminate].
Qed.

Lemma he_pif : forall s h fh p s' n, honestEvents (out s) ->
  processIncomingMessageFragment s h fh p = Ret (s', n) -> honestEvents (out s').
Proof.
  intros s h fh p s' n H E. unfold processIncomingMessageFragment in E.
  set (s1 := if lastRemoteChainID s <? fChainID fh then _ else s) in E.
  assert (H1 : honestEvents (out s1)) by (unfold s1; destruct (_ <? _); exact H). clearbody s1.
  destruct (_ <? _); [injection E as <- <-; exact H1|].
  destruct (_ =? 0); [discriminate|].
  destruct (nth_error _ _) as [c|]; [|discriminate].
  destruct (_ && _); [injection E as <- <-; exact H1|].
  destruct (chainMerge _ _ _) as [[c' [[msg|]|e]]|]; try discriminate;
    try (injection E as <- <-; exact H1).
  destruct (processIncomingMessage _ _ _) as [s2|] eqn:E2; [|discriminate]. injection E as <- <-.
  exact (he_pim (setChains s1 (lastRemoteChainID s1) (setNth (pendingChains s1) _ c')) _ _ _ H1 E2).
Qed.

Lemma he_handle : forall s h m s' o, honestEvents (out s) -> handleMsg s h m = Ret (s', o) -> honestEvents (out s').
Proof.
  intros s h m s' o H E. unfold handleMsg in E.
  destruct (handleOne s h m) as [[[s1 cnt] r]|] eqn:E1; [|discriminate].
  assert (H1 : honestEvents (out s1)).
  { unfold handleOne in E1.
    set (s0 := if (_ : bool) then setCount s _ else s) in E1.
    assert (H0 : honestEvents (out s0)) by (unfold s0; destruct (_ && _); exact H). clearbody s0.
    destruct (isFragmented _).
    - destruct (fragRead m) as [[n fh]|e] eqn:Ef.
      + destruct (gslice _ _ _); [|discriminate].
        destruct (processIncomingMessageFragment _ _ _ _) as [[s2 l2]|] eqn:E2; [|discriminate].
        apply (f_equal (fun x => match x with Ret (a, _, _) => a | Panic => s1 end)) in E1. cbn in E1. subst s2.
        exact (he_pif _ _ _ _ _ _ H0 E2).
      + apply (f_equal (fun x => match x with Ret (a, _, _) => a | Panic => s1 end)) in E1. cbn beta iota in E1. subst s1.
        cbn [emit out]. apply he_cons; [exact H0|]. intros w g Ee. injection Ee as Ee.
        exact (he_fragRead _ _ Ef _ _ Ee).
    - destruct (processIncomingMessage _ _ _) as [s2|] eqn:E2; [|discriminate].
      apply (f_equal (fun x => match x with Ret (a, _, _) => a | Panic => s1 end)) in E1. cbn in E1. subst s2.
      exact (he_pim _ _ _ _ H0 E2). }
  destruct r as [nl|]; [|injection E as <- <-; exact H1].
  destruct (_ && _); [|injection E as <- <-; exact H1].
  destruct (_ && _); injection E as <- <-; [exact H1|].
  cbn [emit setSessState out]. apply he_cons; [exact H1|discriminate].
Qed.

Lemma he_loop : forall fuel s mb l i s', honestEvents (out s) ->
  procLoop (fun s e => emit s (EvError e)) handleMsg fuel s mb l i = LoopEnd s' -> honestEvents (out s').
Proof.
  assert (K : forall s e, honestEvents (out s) -> honestErr e -> honestEvents (out (emit s (EvError e)))).
  { intros s e H He. cbn [emit out]. apply he_cons; [exact H|]. intros w g E. injection E as E. exact (He _ _ E). }
  induction fuel as [|fuel IH]; intros s mb l i s' H E; cbn [procLoop] in E.
  - destruct (i <? l); [discriminate|]. injection E as <-. exact H.
  - destruct (i <? l); [|injection E as <-; exact H].
    destruct (l - i <? messageHeadersSize) eqn:C1.
    { injection E as <-. apply K; [exact H|]. intros w g Ee. injection Ee as <- <-. apply N.ltb_lt. exact C1. }
    destruct (gslice mb i (i + messageHeadersSize)) as [hb|]; [|discriminate].
    destruct (hdrRead hb) as [[? hdr]|e] eqn:Eh.
    2:{ injection E as <-. apply K; [exact H|]. intros w g ->. apply (C162_codecs hb w g) in Eh. tauto. }
    destruct (l - i <? messageHeadersSize + mLength hdr) eqn:C2.
    { injection E as <-. apply K; [exact H|]. intros w g Ee. injection Ee as <- <-. apply N.ltb_lt. exact C2. }
    destruct (gslice mb _ _) as [m|]; [|discriminate].
    destruct (handleMsg s hdr m) as [[s1 [nl|]]|] eqn:E1; try discriminate.
    + exact (IH _ _ _ _ _ (he_handle _ _ _ _ _ H E1) E).
    + injection E as <-. exact (he_handle _ _ _ _ _ H E1).
Qed.

Definition honestPacket (p : packet) : Prop := match p with PktUndecryptable e => honestErr e | _ => True end.

Definition endOut (e : readerEnd) : list event :=
  match e with RRunning r | RFinished r => out (rS r) | _ => [] end.

Lemma he_reader : forall df eo input r, honestEvents (out (rS r)) -> Forall honestPacket input ->
  honestEvents (endOut (readerLoop df eo r input)).
Proof.
  intros df eo. induction input as [|p input IH]; intros r H F; cbn [readerLoop].
  - destruct (isDoneState _); exact H.
  - destruct (isDoneState _); [exact H|]. inversion F as [|? ? Fp F']; subst.
    destruct p as [i h| |e| |l c].
    + unfold readerLoopReadError. destruct (isDoneState _); [exact H|]. destruct i; [apply IH; auto|].
      apply IH; [|exact F']. cbn [rS].
      assert (honestEvents (out (emit (rS r) (EvError ErrBackend)))) by (cbn [emit out]; apply he_cons; [exact H|discriminate]).
      destruct h; [assumption|]. cbn [emit setSessState out] in *. apply he_cons; [assumption|discriminate].
    + apply IH; auto.
    + unfold readerLoopDecryptError.
      set (s := match eo with None => rS r | Some k => _ end).
      assert (Hs : honestEvents (out s)).
      { unfold s. destruct eo as [k|]; [|exact H]. destruct (_ <=? _); [|exact H]. cbn [emit out].
        apply he_cons; [exact H|]. intros w g E. injection E as E. exact (Fp _ _ E). }
      clearbody s. destruct (negb _); [apply IH; auto|exact Hs].
    + apply IH; auto.
    + destruct (processIncomingMessages (rS r) l c) as [s| |] eqn:E; [|intros w g []|intros w g []].
      apply IH; [|exact F']. exact (he_loop _ _ _ _ _ _ H E).
Qed.

Section Packets.
  Variable stream : bytes -> bytes -> nat -> N.
  Variable blake3 : bytes -> bytes.
  Variable poly1305 : bytes -> bytes -> bytes.

  Lemma he_try : forall pid b k iv e, tryDecrypt stream blake3 poly1305 pid b k iv = Ret (Err e) -> honestErr e.
  Proof.
    intros pid b k iv e E. unfold tryDecrypt in E.
    destruct (match k with Some _ => _ | None => _ end) as [dec|]; [|discriminate].
    destruct (contReadAfterIV dec) as [[n [[hs ms] l]]|]; [|discriminate].
    destruct (negb _); [discriminate|]. destruct (gslice _ _ _); [|discriminate].
    destruct (negb _); [|discriminate]. injection E as <-. intros w g; discriminate.
  Qed.

  Lemma he_keys : forall ks pid b iv e, tryKeys stream blake3 poly1305 pid b iv ks = Ret (Err e) -> honestErr e.
  Proof.
    induction ks as [|[k|] ks IH]; intros pid b iv e E; cbn [tryKeys] in E; [discriminate| |exact (IH _ _ _ _ E)].
    destruct (tryDecrypt _ _ _ _ _ _ _) as [[[[l m]|]|e']|] eqn:Et; try discriminate; [exact (IH _ _ _ _ E)|].
    injection E as <-. exact (he_try _ _ _ _ _ Et).
  Qed.

  Lemma he_decrypt : forall p b e, decryptPacket stream blake3 poly1305 p b = Ret (Err e) -> honestErr e.
  Proof.
    intros p b e E. unfold decryptPacket in E. destruct (_ <? _) eqn:C.
    { injection E as <-. intros w g Ee. injection Ee as <- <-. apply N.ltb_lt. exact C. }
    destruct (decryptPacketIDBytes _ _ _) as [pid|]; [|discriminate].
    destruct (tryKeys _ _ _ _ _ _ _) as [[[[l m]|]|e']|] eqn:Et; try discriminate.
    - destruct (tryDecrypt _ _ _ _ _ _ _) as [[[[l m]|]|e']|] eqn:Ed; try discriminate.
      + injection E as <-. intros w g; discriminate.
      + injection E as <-. exact (he_try _ _ _ _ _ Ed).
    - injection E as <-. exact (he_keys _ _ _ _ _ Et).
  Qed.

  Lemma he_receive : forall raws p win p' win' pks,
    receivePackets stream blake3 poly1305 p win raws = Ret (p', win', pks) -> Forall honestPacket pks.
  Proof.
    induction raws as [|raw raws IH]; intros p win p' win' pks E; cbn [receivePackets] in E.
    - injection E as <- <- <-. constructor.
    - destruct (receivePacket _ _ _ _ _ _) as [[[p1 w1] pk]|] eqn:E1; [|discriminate].
      destruct (receivePackets _ _ _ _ _ _) as [[[p2 w2] pks2]|] eqn:E2; [|discriminate].
      injection E as <- <- <-. constructor; [|exact (IH _ _ _ _ _ E2)].
      unfold receivePacket in E1. destruct raw; [injection E1 as <- <- <-; exact I|].
      destruct (decryptPacket _ _ _ _ _) as [[[[pid l] c]|e]|] eqn:Ed; try discriminate.
      + destruct (checkAndRemember _ _) as [[w3 []]|]; try discriminate; injection E1 as <- <- <-; exact I.
      + injection E1 as <- <- <-. exact (he_decrypt _ _ _ Ed).
  Qed.

  (** Whatever bytes come from the network, for any keys, options and functions
      standing for the primitives: every "too short" the reader reports to the
      event handler is honest. *)
  Theorem C162_reader : forall p win raws p' win' pks df eo r,
    receivePackets stream blake3 poly1305 p win raws = Ret (p', win', pks) ->
    out (rS r) = [] ->
    honestEvents (endOut (readerLoop df eo r pks)).
  Proof.
    intros p win raws p' win' pks df eo r E O. apply he_reader; [|exact (he_receive _ _ _ _ _ _ E)].
    rewrite O. intros w g [].
  Qed.
End Packets.
Print Assumptions C162_reader.

(** The key exchanger: key_exchanger.go 343-380. *)
Theorem C162_key_exchange : forall verify c s b s' w g,
  parseAndCheck verify c s b = (s', inl (KxTooShort w g)) -> g = len b /\ honest w g /\ s' = s.
Proof.
  intros verify c s b s' w g E. unfold parseAndCheck in E. destruct (_ <? _) eqn:C.
  - injection E as <- <- <-. apply N.ltb_lt in C. auto.
  - destruct (negb _); [discriminate|].
    assert (L : len (firstn 82 (skipn 64 b)) = 82).
    { apply N.ltb_ge in C. unfold kxSignedSize, len in *. rewrite firstn_length, skipn_length. lia. }
    unfold kxDecode in E. rewrite L in E. cbn [N.ltb N.compare kxMsgSize] in E.
    change (82 <? kxMsgSize) with false in E. cbn iota in E.
    destruct (negb _); [discriminate|]. destruct (bytes_eqb _ _); discriminate.
Qed.
Print Assumptions C162_key_exchange.

(** The negotiator: honest for everything but answers to probes. *)
Theorem C162_negotiation_partial : forall sha512 b w g,
  hd 0 b <> 2 -> negoHandle sha512 b = Ret (NError (NeShort w g)) -> g = len b /\ honest w g.
Proof.
  intros sha512 b w g N2 E. unfold negoHandle in E. destruct b as [|t r].
  - injection E as <- <-. split; [reflexivity|]. unfold honest. lia.
  - cbn [hd] in N2. destruct (t =? 0).
    + destruct (negDecode (t :: r)) as [m|e] eqn:D; [discriminate|]. injection E as <- <-.
      unfold negDecode in D. destruct (_ <? _) eqn:C; [|discriminate]. apply N.ltb_lt in C. split; [reflexivity|exact C].
    + destruct (t =? 1); [discriminate|]. destruct (N.eqb_spec t 2) as [->|]; [congruence|discriminate].
Qed.
Print Assumptions C162_negotiation_partial.

(** Any answer to a probe with 6 to 68 bytes is refused with an error that asks
    for 6 bytes and says that it got as many or more. *)
Theorem C162_negotiation_refuted : forall sha512 r,
  6 <= len (2 :: r) < pingPongSize ->
  negoHandle sha512 (2 :: r) = Ret (NError (NeShort 6 (len (2 :: r)))) /\ ~ honest 6 (len (2 :: r)).
Proof.
  intros sha512 r [H1 H2]. unfold negoHandle, pongDecode.
  change (2 =? 0) with false. change (2 =? 1) with false. change (2 =? 2) with true. cbn iota.
  apply N.ltb_lt in H2. rewrite H2. split; [reflexivity|]. unfold honest. lia.
Qed.
Print Assumptions C162_negotiation_refuted.

Example C162_example :
  (* a header cut off, a payload cut off, a fragment header cut off *)
  let s := freshRcv 16 1000 0 [] [MessageTypeReadWrite] in
  let run mb := match processIncomingMessages s (len mb) mb with LoopEnd s' => out s' | _ => [] end in
  run (repeat 0 5) = [EvError (ErrTooShort 9 5)] /\
  run (firstn 20 (encodeMsg MessageTypeReadWrite 0 (repeat 7 30))) = [EvError (ErrTooShort 39 20)] /\
  run (encodeMsg MessageTypeReadWrite 2 (repeat 7 10)) = [EvError (ErrTooShort 24 10)] /\
  (* the negotiator, told 50 bytes of an answer, asks for 6 *)
  negoHandle (fun _ => repeat 0 64) (2 :: repeat 0 49) = Ret (NError (NeShort 6 50)).
Proof. vm_compute. repeat split. Qed.
