(** C144: sessions over a byte stream. The session reads one packet with one call
    of the backend's [Read] (session.go 904-948); nothing in a packet lets the
    reader find its end. *)
From Coq Require Import NArith List Bool Arith Lia.
From Verif Require Import Base BaseLemmas MessageModel CodecProofs PacketIDModel PacketIDSpec PacketIDProofs PacketIDRun PacketIDProps
  ReaderModel ReaderLoopModel PacketModel PacketSpec PacketProofs PacketProps SendOrderProps.
Import ListNotations.
Local Open Scope N_scope.

(** Reads of an ordered, reliable byte stream: what was written, cut anew. *)
Definition recut (written reads : list bytes) : Prop := List.concat reads = List.concat written /\ Forall (fun r => r <> []) reads.

Section Stream.
  Variable stream : bytes -> bytes -> nat -> N.
  Variable blake3 : bytes -> bytes.
  Variable poly1305 : bytes -> bytes -> bytes.

  (** Packets of one peer, one after the other. *)
  Fixpoint sendAll (a : peer) (ms : list bytes) : peer * list (outcome (res bytes)) :=
    match ms with
    | [] => (a, [])
    | m :: r => let (a1, o) := sendPacket stream blake3 poly1305 a true m in let (a2, os) := sendAll a1 r in (a2, o :: os)
    end.
  (** What the other one makes of its reads. *)
  Fixpoint receiveAll (b : peer) (win : option storage) (reads : list bytes) : outcome (list packet) :=
    match reads with
    | [] => Ret []
    | r :: rs =>
        match receivePacket stream blake3 poly1305 b win r with
        | Panic => Panic
        | Ret (b1, w1, pk) => match receiveAll b1 w1 rs with Panic => Panic | Ret pks => Ret (pk :: pks) end
        end
    end.

  Hypothesis prim : primitives_ok stream poly1305.

  Lemma xorFrom_firstn : forall k iv src i n, firstn n (xorFrom stream k iv i src) = xorFrom stream k iv i (firstn n src).
  Proof. induction src as [|x src IH]; intros i [|n]; cbn [xorFrom firstn]; try reflexivity. rewrite IH. reflexivity. Qed.
  Lemma plainOf_firstn : forall k iv b n, firstn n (plainOf stream k iv b) = plainOf stream k iv (firstn n b).
  Proof. intros [k|] iv b n; [apply xorFrom_firstn|reflexivity]. Qed.

  Lemma skipn_firstn_in : forall A (l : list A) a b c, (a + b <= c)%nat -> firstn b (skipn a l) = firstn b (skipn a (firstn c l)).
  Proof.
    intros A l a b c H. rewrite skipn_firstn_comm, firstn_firstn. replace (Nat.min b (c - a)) with b by lia. reflexivity.
  Qed.
  Lemma fits_prefix : forall k iv pid x y, firstn 36 x = firstn 36 y ->
    firstTagFits stream blake3 poly1305 k iv pid x -> firstTagFits stream blake3 poly1305 k iv pid y.
  Proof.
    intros k iv pid x y E. unfold firstTagFits. intros H.
    assert (P : firstn 36 (plainOf stream k iv x) = firstn 36 (plainOf stream k iv y)) by (rewrite !plainOf_firstn, E; reflexivity).
    assert (P1 : firstn 16 (plainOf stream k iv x) = firstn 16 (plainOf stream k iv y)).
    { transitivity (firstn 16 (firstn 36 (plainOf stream k iv x))); [rewrite firstn_firstn; reflexivity|rewrite P, firstn_firstn; reflexivity]. }
    rewrite <- P1, H. f_equal. rewrite (skipn_firstn_in _ _ 32 4 36), (skipn_firstn_in _ (plainOf stream k iv y) 32 4 36), P by lia. reflexivity.
  Qed.

  (** The first 36 bytes of a sealed body with another content behind them. *)
  Lemma recut_body : forall k iv pid body l m body', usable k iv -> l < 2^32 -> sealed stream blake3 poly1305 k iv pid body l m ->
    bytes_ok body' -> firstn 36 body' = firstn 36 body -> (36 <= length body')%nat ->
    let m' := skipn 36 (plainOf stream k iv body') in
    let mac := poly1305 (calculatePoly1305Key blake3 pid k) in
    tryDecrypt stream blake3 poly1305 pid body' k iv = Ret (Err ErrInvalidChecksum) \/ mac m' = mac m.
  Proof.
    intros k iv pid body l m body' U L S B E Lb m' mac.
    assert (F : firstTagFits stream blake3 poly1305 k iv pid body').
    { apply (fits_prefix k iv pid body); [auto|]. eapply sealed_fits; eauto. }
    destruct (tryDecrypt_spec stream blake3 poly1305 prim pid body' k iv U Lb B) as [[N _]|[(_ & _ & R)|(_ & Z & _)]]; [contradiction|left; exact R|].
    right. fold m' in Z. unfold sealed, tags in S, Z.
    assert (P : firstn 36 (plainOf stream k iv body') = firstn 36 (plainOf stream k iv body)) by (rewrite !plainOf_firstn, E; reflexivity).
    assert (Q : forall l m, firstn 16 (skipn 16 (firstn 36 ((mac (le_enc 4 l) ++ mac m) ++ le_enc 4 l ++ m))) = mac m).
    { intros l0 m0. destruct prim as [_ Hp]. rewrite <- skipn_firstn_in by lia. rewrite <- app_assoc.
      unfold mac. rewrite skipn_app_l by (rewrite Hp; reflexivity). apply firstn_app_l. rewrite Hp. reflexivity. }
    fold mac in S, Z. rewrite Z, S in P.
    pose proof (Q (le_dec (firstn 4 (skipn 32 (plainOf stream k iv body')))) m') as Q1.
    rewrite P, (Q l m) in Q1. symmetry. exact Q1.
  Qed.

  (** The same for a whole packet: another read that begins with the 44 bytes the
      packet begins with. *)
  Lemma recut_packet : forall a b pid msgs key pre post raw raw', peer_ok a -> peer_ok b ->
    length pid = 8%nat -> len msgs + 44 < 2^32 -> pAux b = pAux a -> pRemoteID b = Some (pOwnID a) ->
    nth 0 (pKeys a) None = Some key -> pKeys b = pre ++ Some key :: post ->
    sealPacket stream blake3 poly1305 a true pid msgs = Ret (Ok raw) ->
    Forall (fun k => k = None \/ ~ firstTagFits stream blake3 poly1305 k (pOwnID a ++ pid) pid (skipn 8 raw)) pre ->
    bytes_ok raw' -> firstn 44 raw' = firstn 44 raw -> 44 <= len raw' ->
    let mac := poly1305 (calculatePoly1305Key blake3 pid (Some key)) in
    decryptPacket stream blake3 poly1305 b raw' = Ret (Err ErrInvalidChecksum) \/
    exists m', len m' + 44 = len raw' /\ mac m' = mac msgs.
  Proof.
    intros a b pid msgs key pre post raw raw' Ha Hb Lp Hl Hx Hr Hk Hks S HF B E L mac.
    destruct (seal_spec stream blake3 poly1305 prim a true pid msgs Ha Lp Hl) as (body & E1 & T & U).
    { intros _. unfold sealKey, secretIDRecentBoth. rewrite Hk. discriminate. }
    rewrite E1 in S. injection S as <-. unfold sealKey, sealIV, secretIDRecentBoth in T, U. rewrite Hk in T, U.
    pose proof (idOnWire_length stream (pAux a) pid) as LI. rewrite Lp in LI.
    rewrite skipn_app_l in HF by (symmetry; exact LI).
    assert (R : remoteIV b pid = pOwnID a ++ pid) by (unfold remoteIV; rewrite Hr; reflexivity).
    set (body' := skipn 8 raw').
    assert (Lr : (44 <= length raw')%nat) by (unfold len in L; lia).
    assert (E8 : firstn 8 raw' = idOnWire stream (pAux a) pid).
    { transitivity (firstn 8 (firstn 44 raw')); [rewrite firstn_firstn; reflexivity|]. rewrite E, firstn_firstn. cbn [Nat.min]. apply firstn_app_l. symmetry. exact LI. }
    assert (EB : firstn 36 body' = firstn 36 body).
    { unfold body'. rewrite (skipn_firstn_in _ _ 8 36 44) by lia. rewrite E. rewrite <- (skipn_firstn_in _ _ 8 36 44) by lia.
      rewrite skipn_app_l by (symmetry; exact LI). reflexivity. }
    assert (LB : (36 <= length body')%nat) by (unfold body'; rewrite skipn_length; lia).
    assert (BB : bytes_ok body') by (apply Forall_skipn; exact B).
    assert (ER : raw' = idOnWire stream (pAux b) pid ++ body') by (rewrite Hx, <- E8; unfold body'; symmetry; apply firstn_skipn).
    destruct (recut_body (Some key) (pOwnID a ++ pid) pid body (len msgs) msgs body') as [Z|Z]; auto; [lia| |].
    - left. rewrite ER, decrypt_split by auto. rewrite Hks, R.
      pose proof (peer_keys_usable b pid Hb Lp) as HU. rewrite Hks, R in HU. apply Forall_app in HU. destruct HU as [HU _].
      rewrite tryKeys_skip; [|exact prim|exact LB|exact BB|].
      + cbn [tryKeys]. rewrite Z. reflexivity.
      + rewrite Forall_forall in *. intros k Hin. destruct (HF k Hin) as [?|Hn]; [auto|]. destruct (HU k Hin) as [?|?]; [auto|]. right. split; [auto|].
        intros F. apply Hn. eapply fits_prefix; [|exact F]. exact EB.
    - right. eexists. split; [|exact Z]. unfold len. rewrite skipn_length, plainOf_length. unfold body'. rewrite skipn_length. lia.
  Qed.
End Stream.

(** Full statement: whatever a stream makes of the writes, the messages arrive. *)
Definition works_over_streams (stream : bytes -> bytes -> nat -> N) (blake3 : bytes -> bytes) (poly1305 : bytes -> bytes -> bytes) (a b : peer) : Prop :=
  forall win ms raws reads, snd (sendAll stream blake3 poly1305 a ms) = map (fun r => Ret (Ok r)) raws -> recut raws reads ->
  exists pks, receiveAll stream blake3 poly1305 b win reads = Ret pks /\
    flat_map (fun pk => match pk with PktAccepted _ c => [c] | _ => [] end) pks = ms.

(** False of every packet and whatever follows it in the same read, unless the
    Poly1305 tag of a longer message is the same under the same key: packet and
    followers are lost together. *)
Theorem C144_joined_refuted : forall stream blake3 poly1305 a b pid msgs key pre post raw extra win,
  primitives_ok stream poly1305 -> peer_ok a -> peer_ok b -> length pid = 8%nat -> len msgs + 44 < 2^32 ->
  pAux b = pAux a -> pRemoteID b = Some (pOwnID a) -> nth 0 (pKeys a) None = Some key -> pKeys b = pre ++ Some key :: post ->
  sealPacket stream blake3 poly1305 a true pid msgs = Ret (Ok raw) -> bytes_ok raw ->
  Forall (fun k => k = None \/ ~ firstTagFits stream blake3 poly1305 k (pOwnID a ++ pid) pid (skipn 8 raw)) pre ->
  extra <> [] -> bytes_ok extra ->
  (exists b', receivePacket stream blake3 poly1305 b win (raw ++ extra) = Ret (b', win, PktUndecryptable ErrInvalidChecksum)) \/
  exists m', len m' = len msgs + len extra /\
    poly1305 (calculatePoly1305Key blake3 pid (Some key)) m' = poly1305 (calculatePoly1305Key blake3 pid (Some key)) msgs.
Proof.
  intros stream blake3 poly1305 a b pid msgs key pre post raw extra win prim Ha Hb Lp Hl Hx Hr Hk Hks S B HF N BE.
  assert (LR : len raw = 44 + len msgs).
  { destruct (seal_spec stream blake3 poly1305 prim a true pid msgs Ha Lp Hl) as (body & E1 & T & U).
    { intros _. unfold sealKey, secretIDRecentBoth. rewrite Hk. discriminate. }
    rewrite E1 in S. injection S as <-. apply sealed_length in T; [|exact prim]. rewrite len_app. unfold len. rewrite idOnWire_length, Lp, T. lia. }
  destruct (recut_packet stream blake3 poly1305 prim a b pid msgs key pre post raw (raw ++ extra)) as [Z|(m' & L & Z)]; auto.
  - apply Forall_app. auto.
  - rewrite firstn_app. replace (44 - length raw)%nat with 0%nat by (unfold len in LR; lia). rewrite firstn_O, app_nil_r. reflexivity.
  - rewrite len_app. lia.
  - left. unfold receivePacket. rewrite Z. destruct (raw ++ extra) as [|x r] eqn:X; [|eexists; reflexivity].
    destruct raw; [unfold len in LR; cbn [length] in LR; lia|discriminate].
  - right. exists m'. split; [|exact Z]. rewrite len_app in L. lia.
Qed.
Print Assumptions C144_joined_refuted.

(** Nor of a packet whose end comes with the next read. *)
Theorem C144_cut_refuted : forall stream blake3 poly1305 a b pid msgs key pre post raw part rest win,
  primitives_ok stream poly1305 -> peer_ok a -> peer_ok b -> length pid = 8%nat -> len msgs + 44 < 2^32 ->
  pAux b = pAux a -> pRemoteID b = Some (pOwnID a) -> nth 0 (pKeys a) None = Some key -> pKeys b = pre ++ Some key :: post ->
  sealPacket stream blake3 poly1305 a true pid msgs = Ret (Ok raw) -> bytes_ok raw ->
  Forall (fun k => k = None \/ ~ firstTagFits stream blake3 poly1305 k (pOwnID a ++ pid) pid (skipn 8 raw)) pre ->
  raw = part ++ rest -> part <> [] -> rest <> [] ->
  (exists b' e, receivePacket stream blake3 poly1305 b win part = Ret (b', win, PktUndecryptable e)) \/
  exists m', len m' + len rest = len msgs /\
    poly1305 (calculatePoly1305Key blake3 pid (Some key)) m' = poly1305 (calculatePoly1305Key blake3 pid (Some key)) msgs.
Proof.
  intros stream blake3 poly1305 a b pid msgs key pre post raw part rest win prim Ha Hb Lp Hl Hx Hr Hk Hks S B HF E NP NR.
  assert (LR : len raw = 44 + len msgs).
  { destruct (seal_spec stream blake3 poly1305 prim a true pid msgs Ha Lp Hl) as (body & E1 & T & U).
    { intros _. unfold sealKey, secretIDRecentBoth. rewrite Hk. discriminate. }
    rewrite E1 in S. injection S as S. rewrite <- S. apply sealed_length in T; [|exact prim]. rewrite len_app. unfold len. rewrite idOnWire_length, Lp, T. lia. }
  assert (W : forall e, decryptPacket stream blake3 poly1305 b part = Ret (Err e) ->
    exists b' e, receivePacket stream blake3 poly1305 b win part = Ret (b', win, PktUndecryptable e)).
  { intros e Z. unfold receivePacket. destruct part as [|x r]; [destruct (NP eq_refl)|]. rewrite Z. eauto. }
  destruct (N.ltb_spec (len part) 44) as [L|L].
  - left. eapply W. unfold decryptPacket. change messagesContainerHeadersSize with 44. destruct (N.ltb_spec (len part) 44); [reflexivity|lia].
  - destruct (recut_packet stream blake3 poly1305 prim a b pid msgs key pre post raw part) as [Z|(m' & L' & Z)]; auto.
    + rewrite E in B. apply Forall_app in B. tauto.
    + rewrite E, firstn_app. replace (44 - length part)%nat with 0%nat by (unfold len in L; lia). rewrite firstn_O, app_nil_r. reflexivity.
    + left. eapply W. exact Z.
    + right. exists m'. split; [|exact Z]. rewrite E, len_app in LR. lia.
Qed.
Print Assumptions C144_cut_refuted.

(** What holds: a backend that keeps the boundaries of the writes delivers
    everything, in order, whatever the size of the window. *)
Theorem C144_boundaries_partial : forall stream blake3 poly1305 n ms a b key post raws ids vs win,
  primitives_ok stream poly1305 -> peer_ok a -> peer_ok b -> pAux b = pAux a -> pRemoteID b = Some (pOwnID a) ->
  nth 0 (pKeys a) None = Some key -> pKeys b = Some key :: post ->
  ids64 ids -> offer (sessionStorage (Size n)) ids = Ret (win, vs) -> maxl (accepted ids vs) <= pNext a -> pNext a + len ms < 2^64 ->
  Forall (fun m => len m + 44 < 2^32) ms ->
  snd (sendAll stream blake3 poly1305 a ms) = map (fun r => Ret (Ok r)) raws -> Forall bytes_ok raws ->
  receiveAll stream blake3 poly1305 b win raws = Ret (map (fun m => PktAccepted (len m) m) ms).
Proof.
  intros stream blake3 poly1305 n ms. induction ms as [|m ms IH];
    intros a b key post raws ids vs win prim Ha Hb Hx Hr Hk Hks H64 Ho Hm Hn Hl S B.
  - destruct raws; [reflexivity|discriminate].
  - cbn [sendAll] in S. rewrite len_cons in Hn. inversion Hl as [|? ? Hl1 Hl2]; subst.
    destruct (sendPacket stream blake3 poly1305 a true m) as [a1 o] eqn:Es.
    destruct (sendAll stream blake3 poly1305 a1 ms) as [a2 os] eqn:Er. cbn [snd] in S.
    destruct raws as [|raw raws]; [discriminate|]. cbn [map] in S. injection S as -> S. inversion B as [|? ? B1 B2]; subst.
    unfold sendPacket, takePacketID in Es. cbn zeta in Es. injection Es as Ea Es.
    assert (En : add64 (pNext a) 1 = pNext a + 1) by (apply N.mod_small; lia). rewrite En in Ea, Es.
    assert (D : decryptPacket stream blake3 poly1305 b raw = Ret (Ok (packetIDBytes (pNext a + 1), len m, m))).
    { eapply (C13_open_confidential stream blake3 poly1305 a1 b (packetIDBytes (pNext a + 1)) m key [] post); subst a1; eauto. }
    assert (V : packetIDValue (packetIDBytes (pNext a + 1)) = pNext a + 1)
      by (apply le_dec_enc; change (2 ^ (8 * N.of_nat 8)) with (2^64); lia).
    destruct (C10_newer_accepted n ids (pNext a + 1) win vs H64 ltac:(lia) Ho ltac:(lia)) as (win' & W).
    cbn [receiveAll]. unfold receivePacket at 1. destruct raw as [|x r]; [cbn in D; discriminate|]. rewrite D, V, W.
    set (b1 := if _ <? _ then b else fst (takePacketID b)).
    assert (Q : peer_ok b1 /\ pAux b1 = pAux a1 /\ pRemoteID b1 = Some (pOwnID a1) /\ pKeys b1 = Some key :: post).
    { unfold b1, takePacketID. subst a1. cbn [pAux pOwnID]. destruct (_ <? _); cbn [fst pAux pRemoteID pKeys]; repeat split; auto; exact Hb || apply Hb. }
    destruct Q as (Q1 & Q2 & Q3 & Q4).
    pose proof (offer_snoc _ _ _ _ (pNext a + 1) Ho) as Ho'. rewrite W in Ho'.
    assert (LV : length vs = length ids).
    { clear - Ho. revert Ho. generalize (sessionStorage (Size n)). revert vs win. induction ids as [|i ids IHl]; intros vs win st H; cbn [offer] in H.
      - injection H as _ <-. reflexivity.
      - destruct (checkAndRemember st i) as [[st1 v]|]; [|discriminate]. destruct (offer st1 ids) as [[st2 bs]|] eqn:E; [|discriminate].
        injection H as _ <-. cbn [length]. f_equal. eapply IHl; eauto. }
    rewrite (IH a1 b1 key post raws (ids ++ [pNext a + 1]) (vs ++ [true]) win'); auto.
    + subst a1. exact Ha.
    + subst a1. exact Hk.
    + apply Forall_app. split; [exact H64|]. constructor; [lia|constructor].
    + rewrite accepted_snoc by exact LV. subst a1. cbn [pNext].
      assert (X : forall l y, maxl (l ++ [y]) = N.max (maxl l) y) by (induction l as [|z l IHl]; intros y; cbn [maxl app]; [lia|rewrite IHl; lia]).
      rewrite X. lia.
    + subst a1. cbn [pNext]. lia.
    + rewrite Er. reflexivity.
Qed.
Print Assumptions C144_boundaries_partial.

(** Two messages over a stream: as they were written, joined, and cut. *)
Definition twoPackets : list bytes := Eval vm_compute in map rawOf (snd (sendAll toyStream toyHash toyPoly (exA true) [[1;2;3]; [4]])).
Lemma two_sent : snd (sendAll toyStream toyHash toyPoly (exA true) [[1;2;3]; [4]]) = map (fun r => Ret (Ok r)) twoPackets.
Proof. vm_compute. reflexivity. Qed.
Lemma two_joined : receiveAll toyStream toyHash toyPoly (exB true) (sessionStorage (Size 0)) [List.concat twoPackets] = Ret [PktUndecryptable ErrInvalidChecksum].
Proof. vm_compute. reflexivity. Qed.
Example C144_example :
  receiveAll toyStream toyHash toyPoly (exB true) (sessionStorage (Size 0)) twoPackets = Ret [PktAccepted 3 [1;2;3]; PktAccepted 1 [4]] /\
  receiveAll toyStream toyHash toyPoly (exB true) (sessionStorage (Size 0)) [firstn 46 (List.concat twoPackets); skipn 46 (List.concat twoPackets)] =
    Ret [PktUndecryptable ErrInvalidChecksum; PktUndecryptable ErrCannotDecrypt].
Proof. split; vm_compute; reflexivity. Qed.

Theorem C144_streams_refuted : ~ works_over_streams toyStream toyHash toyPoly (exA true) (exB true).
Proof.
  intros H. destruct (H (sessionStorage (Size 0)) [[1;2;3]; [4]] twoPackets [List.concat twoPackets] two_sent) as (pks & E & F).
  - split; [apply app_nil_r|]. constructor; [discriminate|constructor].
  - rewrite two_joined in E. injection E as <-. discriminate.
Qed.
Print Assumptions C144_streams_refuted.
