(** Property C114: a recorded packet, given to the session once more, does
    nothing — whatever happened in between. *)
From Coq Require Import NArith Arith List Bool Lia.
From Verif Require Import Base BaseLemmas TS MessageModel CodecProofs PendingChainModel PacketIDModel PacketIDSpec PacketIDProofs PacketIDRun
  ReaderModel ReaderLoopModel ReaderSpec ReaderProofs PacketModel PacketSpec PacketProofs PacketProps StateModel KxModel KxSpec KxProofs KxProps
  IntegModel IntegSpec IntegProofs IntegAuth IntegSafe IntegProps.
Import ListNotations.
Local Open Scope N_scope.

Notation kok s := (kxOk (xKx (iKx s))).

Lemma offer_snoc : forall ids st st1 vs i st2 v, offer st ids = Ret (st1, vs) -> checkAndRemember st1 i = Ret (st2, v) ->
  offer st (ids ++ [i]) = Ret (st2, vs ++ [v]).
Proof.
  induction ids as [|a ids IH]; intros st st1 vs i st2 v H1 H2; cbn [offer app] in *.
  - injection H1 as <- <-. rewrite H2. reflexivity.
  - destruct (checkAndRemember st a) as [[st3 b]|]; [|discriminate].
    destruct (offer st3 ids) as [[st4 bs]|] eqn:E; [|discriminate]. injection H1 as -> <-.
    rewrite (IH st3 st1 bs i st2 v E H2). reflexivity.
Qed.

Lemma offer_length : forall ids st st1 vs, offer st ids = Ret (st1, vs) -> length vs = length ids.
Proof.
  induction ids as [|a ids IH]; intros st st1 vs H; cbn [offer] in H.
  - injection H as _ <-. reflexivity.
  - destruct (checkAndRemember st a) as [[st3 b]|]; [|discriminate].
    destruct (offer st3 ids) as [[st4 bs]|] eqn:E; [|discriminate]. injection H as _ <-. cbn [length]. rewrite (IH _ _ _ E). reflexivity.
Qed.

Lemma accepted_snoc : forall ids vs i (v : bool), length vs = length ids ->
  accepted (ids ++ [i]) (vs ++ [v]) = accepted ids vs ++ (if v then [i] else []).
Proof.
  induction ids as [|a ids IH]; intros [|b vs] i v H; try discriminate.
  - destruct v; reflexivity.
  - cbn [app accepted]. injection H as H. destruct b; rewrite (IH vs i v H); reflexivity.
Qed.

Section Replay.
  Variable verify : bytes -> bytes -> bytes -> bool.
  Variable dh : bytes -> bytes -> bytes.
  Variable blake3 sha3 : bytes -> bytes.
  Variable stream : bytes -> bytes -> nat -> N.
  Variable poly1305 : bytes -> bytes -> bytes.
  Variable c : iconf.
  Hypothesis prim : primitives_ok stream poly1305.
  Hypothesis dh_len : forall a b, length (dh a b) = 32%nat.
  Hypothesis sha3_len : forall b, length (sha3 b) = 32%nat.

  Notation recv := (iReceive verify dh blake3 sha3 stream poly1305 c).
  Notation step := (istep verify dh blake3 sha3 stream poly1305 c).
  Notation peer_of := (peerOf blake3 sha3 c).

  (** Nothing was handled. *)
  Definition idle (s s' : isess) : Prop := deliveries (out (iRcv s')) = deliveries (out (iRcv s)) /\ iKx s' = iKx s.

  Definition wireID (raw : bytes) : N := packetIDValue (idOnWire stream (auxKey blake3 sha3 c) (firstn 8 raw)).

  Lemma wireID_64 : forall raw, bytes_ok raw -> wireID raw < 2^64.
  Proof.
    intros raw Hb. unfold wireID, packetIDValue.
    assert (B : bytes_ok (idOnWire stream (auxKey blake3 sha3 c) (firstn 8 raw))).
    { unfold idOnWire. destruct (auxKey blake3 sha3 c) as [k|]; [apply (xorFrom_ok stream poly1305 prim)|]; apply Forall_firstn; exact Hb. }
    pose proof (le_dec_bound _ B) as L. rewrite idOnWire_length in L.
    eapply N.lt_le_trans; [exact L|]. rewrite firstn_length. apply N.pow_le_mono_r; lia.
  Qed.

  Lemma receive_win : forall s raw s', peer_ok (peer_of s) -> bytes_ok raw -> recv s raw = Ret s' ->
    (iWin s' = iWin s /\ idle s s') \/
    (exists v, checkAndRemember (iWin s) (wireID raw) = Ret (iWin s', v) /\ (v = false -> idle s s')).
  Proof.
    intros s raw s' P HB R. unfold iReceive in R.
    destruct (receivePacket stream blake3 poly1305 (peer_of s) (iWin s) raw) as [[[p win] pk]|] eqn:E; [|discriminate].
    unfold receivePacket in E. destruct raw as [|x raw0].
    { injection E as <- <- <-. injection R as <-. left. split; [reflexivity|split; reflexivity]. }
    destruct (decryptPacket _ _ _ _ _) as [[[[pid l] m]|e]|] eqn:D; [| |discriminate].
    - assert (Hid : packetIDValue pid = wireID (x :: raw0)).
      { destruct (decryptPacket_sound stream blake3 poly1305 prim _ _ _ _ _ P HB D) as (_ & Ei & _).
        unfold wireID. rewrite <- Ei. cbn [peerOf pAux]. rewrite idOnWire_invol. reflexivity. }
      rewrite Hid in E. destruct (checkAndRemember (iWin s) _) as [[w v]|]; [|discriminate].
      right. exists v. destruct v; injection E as <- <- <-.
      + destruct (runLoop _ _ _ _ _) as [s2| |] eqn:L; try discriminate. injection R as <-. split; [|discriminate].
        f_equal. f_equal. symmetry.
        refine (loop_inv verify dh blake3 sha3 c (fun z => iWin z = w) _ _ _ _ _ _ _ _ L); auto.
      + injection R as <-. split; [reflexivity|]. intros _. split; reflexivity.
    - left. injection E as <- <- <-. injection R as <-. split; [|split];
        destruct (icErrorOn c) as [k|]; [destruct (k <=? _)| |destruct (k <=? _)| |destruct (k <=? _)|]; destruct (icDetachFails c <=? _);
        unfold reportError, closeCall; try destruct (icCloseOnError c); reflexivity.
  Qed.

  (** The IDs given to the window so far, [id] among those let through. *)
  Definition knows (n id : N) (s : isess) : Prop :=
    exists ids vs, offer (sessionStorage (Size n)) ids = Ret (iWin s, vs) /\ ids64 ids /\ In id (accepted ids vs).
  Definition tracks (n : N) (s : isess) : Prop :=
    exists ids vs, offer (sessionStorage (Size n)) ids = Ret (iWin s, vs) /\ ids64 ids.

  Lemma win_same : forall s l s', step s l = Some s' -> (forall raw, l <> IPacket raw) -> iWin s' = iWin s.
  Proof.
    intros s l s' E N0. unfold istep in E. destruct (iPanic s); [discriminate|]. destruct l as [raw|k| | | |].
    - contradiction (N0 raw eq_refl).
    - destruct (isHandle k); [discriminate|]. destruct (kstep _ _ _ _ _ _ k) as [x|]; [|discriminate].
      assert (A : iWin (afterKx c s x) = iWin s).
      { unfold afterKx, connect, closeCall, reportError. destruct (Nat.ltb _ _), (_ && _), (icCloseOnError c); reflexivity. }
      destruct (xPanic x); injection E as <-; exact A.
    - destruct (_ || _); [discriminate|]. destruct (sendPacket _ _ _ _ _ _) as [p [[raw|e]|]]; try discriminate; injection E as <-; reflexivity.
    - destruct (iWritten s); [|discriminate]. destruct (iResult s); [discriminate|]. destruct (nth_error _ _); [|discriminate]. injection E as <-. reflexivity.
    - destruct (_ || _); [|discriminate]. injection E as <-. reflexivity.
    - destruct (iResult s); [discriminate|]. destruct (_ =? _); [|discriminate]. injection E as <-. reflexivity.
  Qed.

  Lemma window_step : forall n s l s', kok s -> Forall bytes_ok (packetsOf [l]) -> step s l = Some s' ->
    (tracks n s -> tracks n s') /\ (forall id, knows n id s -> knows n id s').
  Proof.
    intros n s l s' K HB E.
    assert (G : iWin s' = iWin s \/ exists i v, i < 2^64 /\ checkAndRemember (iWin s) i = Ret (iWin s', v)).
    { destruct l as [raw|k| | | |]; try (left; apply (win_same s _ s' E); discriminate).
      unfold istep in E. destruct (iPanic s); [discriminate|]. destruct (_ || _); [discriminate|].
      inversion HB as [|? ? HB1 _]; subst. pose proof (kok_peer blake3 sha3 c sha3_len s K) as P.
      destruct (recv s raw) as [s1|] eqn:R; injection E as <-; [|left; reflexivity].
      destruct (receive_win s raw s1 P HB1 R) as [[W _]|[v [W _]]]; [left; exact W|right].
      exists (wireID raw), v. split; [apply wireID_64; exact HB1|exact W]. }
    destruct G as [G|(i & v & Hi & G)].
    - unfold tracks, knows. rewrite G. auto.
    - split.
      + intros (ids & vs & H1 & H2). exists (ids ++ [i]), (vs ++ [v]). split; [exact (offer_snoc _ _ _ _ _ _ _ H1 G)|].
        apply Forall_app. split; [exact H2|]. constructor; [exact Hi|constructor].
      + intros id (ids & vs & H1 & H2 & H3). exists (ids ++ [i]), (vs ++ [v]). split; [exact (offer_snoc _ _ _ _ _ _ _ H1 G)|].
        split; [apply Forall_app; split; [exact H2|]; constructor; [exact Hi|constructor]|].
        rewrite accepted_snoc by (eapply offer_length; eauto). apply in_or_app. left. exact H3.
  Qed.

  Lemma window_run : forall n b s s', kok s -> Forall bytes_ok (packetsOf b) -> exec step s b = Some s' ->
    kok s' /\ (tracks n s -> tracks n s') /\ (forall id, knows n id s -> knows n id s').
  Proof.
    intros n. induction b as [|l b IH]; intros s s' K HB E.
    - injection E as <-. auto.
    - cbn [exec] in E. destruct (step s l) as [s1|] eqn:E1; [|discriminate].
      change (l :: b) with ([l] ++ b) in HB. rewrite packetsOf_app in HB. apply Forall_app in HB. destruct HB as [HB1 HB2].
      destruct (window_step n s l s1 K HB1 E1) as [T1 N1].
      assert (K1 : kok s1) by (eapply kok_step; eassumption).
      destruct (IH s1 s' K1 HB2 E) as (K2 & T2 & N2). auto.
  Qed.

  Lemma replayed : forall n s raw s', 1 <= n <= 64 -> kok s -> bytes_ok raw -> knows n (wireID raw) s ->
    step s (IPacket raw) = Some s' -> idle s s'.
  Proof.
    intros n s raw s' Hn K HB (ids & vs & H1 & H2 & H3) E.
    unfold istep in E. destruct (iPanic s); [discriminate|]. destruct (_ || _); [discriminate|].
    pose proof (kok_peer blake3 sha3 c sha3_len s K) as P.
    destruct (recv s raw) as [s1|] eqn:R; injection E as <-; [|split; reflexivity].
    destruct (receive_win s raw s1 P HB R) as [[_ W]|[v [W Q]]]; [exact W|]. apply Q.
    destruct v; [exfalso|reflexivity].
    pose proof (offer_snoc _ _ _ _ _ _ _ H1 W) as H4.
    assert (I64 : ids64 (ids ++ [wireID raw])).
    { apply Forall_app. split; [exact H2|]. constructor; [apply wireID_64; exact HB|constructor]. }
    destruct (replay_partial n (ids ++ [wireID raw]) I64) as (st & vs' & H5 & H6).
    { apply gaps_ok_small. pose proof (window_small n Hn). lia. }
    rewrite H4 in H5. injection H5 as _ <-. rewrite accepted_snoc in H6 by (eapply offer_length; eauto).
    apply NoDup_remove_2 in H6. rewrite app_nil_r in H6. exact (H6 H3).
  Qed.
End Replay.

(** ** C114.  Full statement: the same for every window size. *)
Theorem C114_replay_small_windows_partial : forall verify dh blake3 sha3 stream poly1305 c remote n md mf a raw b s1 s2 s3 s4,
  primitives_ok stream poly1305 -> (forall x y, length (dh x y) = 32%nat) -> (forall x, length (sha3 x) = 32%nat) -> 1 <= n <= 64 ->
  Forall bytes_ok (packetsOf (a ++ IPacket raw :: b)) ->
  exec (istep verify dh blake3 sha3 stream poly1305 c) (isessInit remote (Size n) md mf) a = Some s1 ->
  istep verify dh blake3 sha3 stream poly1305 c s1 (IPacket raw) = Some s2 ->
  deliveries (out (iRcv s2)) <> deliveries (out (iRcv s1)) \/ iKx s2 <> iKx s1 ->
  exec (istep verify dh blake3 sha3 stream poly1305 c) s2 b = Some s3 ->
  istep verify dh blake3 sha3 stream poly1305 c s3 (IPacket raw) = Some s4 ->
  deliveries (out (iRcv s4)) = deliveries (out (iRcv s3)) /\ iKx s4 = iKx s3.
Proof.
  intros verify dh blake3 sha3 stream poly1305 c remote n md mf a raw b s1 s2 s3 s4 Hp Hl Hs Hn HB E1 E2 HD E3 E4.
  rewrite packetsOf_app in HB. apply Forall_app in HB. destruct HB as [HBa HB]. cbn [packetsOf] in HB. inversion HB as [|? ? HBr HBb]; subst.
  assert (K0 : kok (isessInit remote (Size n) md mf)) by (eapply (kok_run verify dh blake3 sha3 stream poly1305 c Hl Hs) with (ls := []); reflexivity).
  assert (T0 : tracks n (isessInit remote (Size n) md mf)) by (exists [], []; split; [reflexivity|constructor]).
  destruct (window_run verify dh blake3 sha3 stream poly1305 c Hp Hl Hs n a _ s1 K0 HBa E1) as (K1 & T1 & _). specialize (T1 T0).
  assert (K2 : kok s2) by (eapply (kok_step verify dh blake3 sha3 stream poly1305 c Hl Hs); eassumption).
  assert (N2 : knows n (wireID blake3 sha3 stream c raw) s2).
  { unfold istep in E2. destruct (iPanic s1); [discriminate|]. destruct (_ || _); [discriminate|].
    pose proof (kok_peer blake3 sha3 c Hs s1 K1) as P.
    destruct (iReceive _ _ _ _ _ _ c s1 raw) as [z|] eqn:R; injection E2 as <-; [|destruct HD as [HD|HD]; contradiction HD; reflexivity].
    destruct (receive_win verify dh blake3 sha3 stream poly1305 c Hp s1 raw z P HBr R) as [[_ [W1 W2]]|[v [W Q]]]; [destruct HD; contradiction|].
    destruct v; [|destruct (Q eq_refl); destruct HD; contradiction].
    destruct T1 as (ids & vs & H1 & H2). exists (ids ++ [wireID blake3 sha3 stream c raw]), (vs ++ [true]).
    split; [exact (offer_snoc _ _ _ _ _ _ _ H1 W)|].
    split; [apply Forall_app; split; [exact H2|]; constructor; [apply (wireID_64 blake3 sha3 stream poly1305 c Hp); exact HBr|constructor]|].
    rewrite accepted_snoc by (eapply offer_length; eauto). apply in_or_app. right. left. reflexivity. }
  destruct (window_run verify dh blake3 sha3 stream poly1305 c Hp Hl Hs n b s2 s3 K2 HBb E3) as (K3 & _ & N3).
  exact (replayed verify dh blake3 sha3 stream poly1305 c Hp Hs n s3 raw s4 Hn K3 HBr (N3 _ N2) E4).
Qed.
Print Assumptions C114_replay_small_windows_partial.

(** The default window: an empty application message in packet 1 is read a second
    time after packet 66. *)
Theorem C114_replay_delivered_refuted :
  let first := toyKeyless 1 [kxMessage (toyWire 2 (toyMsg 2 7 11 1 true)); emptyMessage] in
  let jump := toyKeyless 66 [emptyMessage] in
  exists s1 s2, exec (toyStep None true) (isessInit (Some (key32 2)) (Size 0) 8 65536)
      (startRun (key32 4) (toyPub (key32 4)) 100 200 ++ [IPacket first; IPacket jump]) = Some s1 /\
    exec (toyStep None true) s1 [IPacket first] = Some s2 /\
    deliveries (out (iRcv s2)) = EvQueue MessageTypeReadWrite [] :: EvHandler messageTypeKeyExchange (toyWire 2 (toyMsg 2 7 11 1 true)) :: deliveries (out (iRcv s1)).
Proof. eexists. eexists. split; [vm_compute; reflexivity|]. split; vm_compute; reflexivity. Qed.
Print Assumptions C114_replay_delivered_refuted.

(** With a window of 64 the same packet does nothing. *)
Example C114_example :
  let first := toyKeyless 1 [kxMessage (toyWire 2 (toyMsg 2 7 11 1 true)); emptyMessage] in
  let jump := toyKeyless 66 [emptyMessage] in
  match exec (toyStep None true) (isessInit (Some (key32 2)) (Size 64) 8 65536)
      (startRun (key32 4) (toyPub (key32 4)) 100 200 ++ [IPacket first; IPacket jump; IPacket first]) with
  | Some s => length (deliveries (out (iRcv s))) = 3%nat /\ iUnexpected s = 1
  | None => False
  end.
Proof. vm_compute. auto. Qed.
