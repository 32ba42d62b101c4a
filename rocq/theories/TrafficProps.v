(** C127: what arrives at a session changes the packet IDs of what it sends, and
    with them the protection of its peer (models PacketModel, PacketIDModel). *)
From Coq Require Import NArith List Bool Arith Lia.
From Verif Require Import Base BaseLemmas MessageModel CodecProofs PacketIDModel PacketIDSpec PacketIDProofs PacketIDRun PacketIDProps
  ReaderModel ReaderLoopModel PacketModel PacketSpec PacketProofs PacketProps.
Import ListNotations.
Local Open Scope N_scope.

(** ** Which IDs are taken *)

(** A packet of at least 44 bytes, whatever is in it. *)
Definition longEnough (raw : bytes) : bool := 44 <=? len raw.
(** How many of the actions take a packet ID. *)
Definition takes (acts : list action) : N :=
  len (filter (fun x => match x with ActSend _ _ => true | ActReceive raw => longEnough raw end) acts).
Definition sends (acts : list action) : nat :=
  length (filter (fun x => match x with ActSend _ _ => true | _ => false end) acts).

Section Ids.
  Variable stream : bytes -> bytes -> nat -> N.
  Variable blake3 : bytes -> bytes.
  Variable poly1305 : bytes -> bytes -> bytes.

  Lemma receive_next : forall p win raw p' w pk, pNext p + 1 < 2^64 ->
    receivePacket stream blake3 poly1305 p win raw = Ret (p', w, pk) ->
    pNext p' = pNext p + (if longEnough raw then 1 else 0) /\
    pAux p' = pAux p /\ pKeys p' = pKeys p /\ pRemoteID p' = pRemoteID p /\ pOwnID p' = pOwnID p.
  Proof.
    intros p win raw p' w pk Hn E. unfold receivePacket, longEnough in *.
    destruct raw as [|x raw]; [injection E as <- _ _; cbn; rewrite N.add_0_r; auto|].
    assert (L : (44 <=? len (x :: raw)) = negb (len (x :: raw) <? messagesContainerHeadersSize)).
    { change messagesContainerHeadersSize with 44. destruct (N.ltb_spec (len (x :: raw)) 44), (N.leb_spec 44 (len (x :: raw))); cbn; lia. }
    rewrite L. set (q := if len (x :: raw) <? messagesContainerHeadersSize then p else fst (takePacketID p)) in *.
    assert (Q : pNext q = pNext p + (if negb (len (x :: raw) <? messagesContainerHeadersSize) then 1 else 0) /\
                pAux q = pAux p /\ pKeys q = pKeys p /\ pRemoteID q = pRemoteID p /\ pOwnID q = pOwnID p).
    { unfold q, takePacketID, add64. destruct (_ <? _); cbn; [rewrite N.add_0_r; auto|].
      repeat split. apply N.mod_small. lia. }
    destruct (decryptPacket stream blake3 poly1305 p (x :: raw)) as [[[[i l] ct]|e]|]; [| |discriminate].
    - destruct (checkAndRemember win _) as [[? []]|]; [| |discriminate]; injection E as <- _ _; exact Q.
    - injection E as <- _ _. exact Q.
  Qed.

  (** The ID of a packet is the number of packets sent and of packets received
      up to then, however many of those were forged or duplicates. *)
  Theorem C127_ids_exact : forall pre c msgs post p win p' out,
    pNext p + len (pre ++ ActSend c msgs :: post) < 2^64 ->
    traffic stream blake3 poly1305 p win (pre ++ ActSend c msgs :: post) = Ret (p', out) ->
    nth_error out (sends pre) = Some (c, packetIDBytes (pNext p + takes pre + 1)).
  Proof.
    induction pre as [|a pre IH]; intros c msgs post p win p' out Hn H; cbn [app traffic] in H.
    - rewrite app_nil_l, len_cons in Hn. unfold sendPacket, takePacketID in H. cbn zeta in H.
      destruct (sealPacket _ _ _ _ _ _ _); [|discriminate]. destruct (traffic _ _ _ _ _ _) as [[p2 o]|]; [|discriminate].
      injection H as _ <-. cbn [sends filter length nth_error pNext]. unfold takes. cbn [filter].
      change (len []) with 0. rewrite N.add_0_r. unfold add64. rewrite N.mod_small by lia. reflexivity.
    - cbn [app] in Hn. rewrite len_cons in Hn. destruct a as [c0 m0|raw].
      + unfold sendPacket, takePacketID in H. cbn zeta in H.
        set (p1 := {| pAux := pAux p; pKeys := pKeys p; pRemoteID := pRemoteID p; pOwnID := pOwnID p;
                      pNext := add64 (pNext p) 1 |}) in H.
        destruct (sealPacket _ _ _ p1 _ _ _); [|discriminate].
        destruct (traffic stream blake3 poly1305 p1 win _) as [[p2 o]|] eqn:E; [|discriminate].
        injection H as _ <-.
        assert (E1 : pNext p1 = pNext p + 1) by (unfold p1, add64; cbn [pNext]; apply N.mod_small; lia).
        apply IH in E; [|rewrite E1; lia]. unfold sends, takes in *. cbn [filter length nth_error]. rewrite E, E1, len_cons.
        match goal with |- Some (_, packetIDBytes ?x) = Some (_, packetIDBytes ?y) => replace x with y by lia end. reflexivity.
      + destruct (receivePacket stream blake3 poly1305 p win raw) as [[[p1 w] pk]|] eqn:E; [|discriminate].
        destruct (receive_next p win raw p1 w pk ltac:(lia) E) as (E1 & _).
        apply IH in H; [|rewrite E1; destruct (longEnough raw); lia].
        unfold sends, takes in *. cbn [filter]. rewrite H, E1.
        destruct (longEnough raw); [rewrite len_cons|];
          match goal with |- Some (_, packetIDBytes ?x) = Some (_, packetIDBytes ?y) => replace x with y by lia end; reflexivity.
  Qed.

  Lemma receives_next : forall raws p win p' w pks, pNext p + len raws < 2^64 -> Forall (fun r => longEnough r = true) raws ->
    receivePackets stream blake3 poly1305 p win raws = Ret (p', w, pks) ->
    pNext p' = pNext p + len raws /\
    pAux p' = pAux p /\ pKeys p' = pKeys p /\ pRemoteID p' = pRemoteID p /\ pOwnID p' = pOwnID p.
  Proof.
    induction raws as [|r raws IH]; intros p win p' w pks Hn HF E; cbn [receivePackets] in E.
    - injection E as <- _ _. change (len []) with 0. rewrite N.add_0_r. auto.
    - rewrite len_cons in *. inversion HF; subst.
      destruct (receivePacket _ _ _ p win r) as [[[p1 w1] pk]|] eqn:E1; [|discriminate].
      destruct (receivePackets _ _ _ p1 w1 raws) as [[[p2 w2] pks2]|] eqn:E2; [|discriminate]. injection E as <- _ _.
      destruct (receive_next p win r p1 w1 pk ltac:(lia) E1) as (A1 & A2 & A3 & A4 & A5). rewrite H1 in A1.
      destruct (IH p1 w1 p2 w2 pks2 ltac:(rewrite A1; lia) H2 E2) as (B1 & B2 & B3 & B4 & B5).
      repeat split; [rewrite B1, A1; lia|congruence..].
  Qed.
End Ids.
Print Assumptions C127_ids_exact.

(** ** C127.  Full statement: what is sent to one session does not change which
    repeated packets its peer refuses; in particular, a peer that refuses every
    repetition while nothing is sent to the session still does afterwards.
    False for every window above 64 (the default one included), for all
    primitives: 64 arbitrary packets of 44 bytes or more, sent to A between two
    packets of A, make B accept A's first packet twice. They need not be
    opened; copies of one recorded packet do, which A drops as duplicates and
    does not count as failures (session.go 929-935). *)
Theorem C127_replay_refuted : forall stream blake3 poly1305 n a b key post m1 m2 (raws : list bytes) a1 a2 a3 raw1 raw2 winA winA' pks,
  n = 0 \/ 64 < n ->
  primitives_ok stream poly1305 -> peer_ok a -> peer_ok b -> pAux b = pAux a -> pRemoteID b = Some (pOwnID a) ->
  nth 0 (pKeys a) None = Some key -> pKeys b = Some key :: post -> pNext a = 0 ->
  len m1 + 44 < 2^32 -> len m2 + 44 < 2^32 ->
  Forall (fun r : bytes => 44 <= len r) raws -> length raws = 64%nat ->
  sendPacket stream blake3 poly1305 a true m1 = (a1, Ret (Ok raw1)) ->
  receivePackets stream blake3 poly1305 a1 winA raws = Ret (a2, winA', pks) ->
  sendPacket stream blake3 poly1305 a2 true m2 = (a3, Ret (Ok raw2)) ->
  bytes_ok raw1 -> bytes_ok raw2 ->
  exists b' w, receivePackets stream blake3 poly1305 b (sessionStorage (Size n)) [raw1; raw2; raw1] =
    Ret (b', w, [PktAccepted (len m1) m1; PktAccepted (len m2) m2; PktAccepted (len m1) m1]).
Proof.
  intros stream blake3 poly1305 n a b key post m1 m2 raws a1 a2 a3 raw1 raw2 winA winA' pks
    Hn Hp Ha Hb Hx Hr Hk Hks Hna L1 L2 HF HL S1 R S2 B1 B2.
  unfold sendPacket, takePacketID in S1. cbn zeta in S1. rewrite Hna in S1. change (add64 0 1) with 1 in S1.
  injection S1 as Ea1 S1.
  assert (N1 : pNext a1 = 1) by (rewrite <- Ea1; reflexivity).
  destruct (receives_next stream blake3 poly1305 raws a1 winA a2 winA' pks) as (M1 & M2 & M3 & M4 & M5);
    [unfold len; rewrite N1, HL; reflexivity| |exact R|].
  { eapply Forall_impl; [|exact HF]. intros r H. apply N.leb_le. exact H. }
  unfold len in M1. rewrite N1, HL in M1. change (1 + N.of_nat 64) with 65 in M1.
  unfold sendPacket, takePacketID in S2. cbn zeta in S2. rewrite M1 in S2. change (add64 65 1) with 66 in S2.
  injection S2 as Ea3 S2.
  assert (D1 : forall q, pAux q = pAux b -> pKeys q = pKeys b -> pRemoteID q = pRemoteID b -> peer_ok q ->
    decryptPacket stream blake3 poly1305 q raw1 = Ret (Ok (packetIDBytes 1, len m1, m1))).
  { intros q Q1 Q2 Q3 Q4. rewrite Ea1 in S1.
    apply (C13_open_confidential stream blake3 poly1305 a1 q (packetIDBytes 1) m1 key [] post raw1 Hp); auto;
      rewrite <- ?Ea1; cbn [app pAux pOwnID pKeys]; try congruence; exact Ha. }
  assert (D2 : forall q, pAux q = pAux b -> pKeys q = pKeys b -> pRemoteID q = pRemoteID b -> peer_ok q ->
    decryptPacket stream blake3 poly1305 q raw2 = Ret (Ok (packetIDBytes 66, len m2, m2))).
  { intros q Q1 Q2 Q3 Q4.
    assert (A3 : pAux a3 = pAux a /\ pKeys a3 = pKeys a /\ pOwnID a3 = pOwnID a /\ pRemoteID a3 = pRemoteID a).
    { rewrite <- Ea3. cbn [pAux pOwnID pKeys pRemoteID]. rewrite M2, M3, M4, M5, <- Ea1. repeat split. }
    destruct A3 as (A31 & A32 & A33 & A34). rewrite Ea3 in S2.
    apply (C13_open_confidential stream blake3 poly1305 a3 q (packetIDBytes 66) m2 key [] post raw2 Hp); auto; cbn [app]; try congruence.
    unfold peer_ok in *. rewrite A31, A32, A33, A34. exact Ha. }
  destruct (replay_refuted n Hn) as (st & O). cbn [offer] in O.
  destruct (checkAndRemember (sessionStorage (Size n)) 1) as [[w1 v1]|] eqn:O1; [|discriminate].
  destruct (checkAndRemember w1 66) as [[w2 v2]|] eqn:O2; [|discriminate].
  destruct (checkAndRemember w2 1) as [[w3 v3]|] eqn:O3; [|discriminate]. injection O as _ -> -> ->.
  assert (V1 : packetIDValue (packetIDBytes 1) = 1) by (vm_compute; reflexivity).
  assert (V2 : packetIDValue (packetIDBytes 66) = 66) by (vm_compute; reflexivity).
  assert (G : forall q w raw id m w', pAux q = pAux b -> pKeys q = pKeys b -> pRemoteID q = pRemoteID b -> pOwnID q = pOwnID b ->
    decryptPacket stream blake3 poly1305 q raw = Ret (Ok (packetIDBytes id, len m, m)) -> packetIDValue (packetIDBytes id) = id ->
    checkAndRemember w id = Ret (w', true) ->
    exists q', receivePacket stream blake3 poly1305 q w raw = Ret (q', w', PktAccepted (len m) m) /\
      pAux q' = pAux b /\ pKeys q' = pKeys b /\ pRemoteID q' = pRemoteID b /\ pOwnID q' = pOwnID b).
  { intros q w raw id m w' Q1 Q2 Q3 Q4 D V C. unfold receivePacket. destruct raw as [|x raw]; [discriminate D|].
    rewrite D, V, C. eexists. split; [reflexivity|]. destruct (_ <? _); auto. }
  assert (PK : forall q, pAux q = pAux b -> pKeys q = pKeys b -> pRemoteID q = pRemoteID b -> pOwnID q = pOwnID b -> peer_ok q).
  { intros q Q1 Q2 Q3 Q4. unfold peer_ok in *. rewrite Q1, Q2, Q3, Q4. exact Hb. }
  destruct (G b (sessionStorage (Size n)) raw1 1 m1 w1) as (b1 & E1 & X1 & X2 & X3 & X4); auto.
  destruct (G b1 w1 raw2 66 m2 w2) as (b2 & E2 & Y1 & Y2 & Y3 & Y4); auto.
  destruct (G b2 w2 raw1 1 m1 w3) as (b3 & E3 & _); auto.
  exists b3, w3. cbn [receivePackets]. rewrite E1, E2, E3. reflexivity.
Qed.
Print Assumptions C127_replay_refuted.

(** Default window. A sends [1;2;3]; 64 copies of one packet of B reach A, all but
    the first are dropped as duplicates; A sends [4]. B accepts A's first packet
    again. Without the copies it does not. *)
Example C127_replay_example :
  let snd' p m := sendPacket toyStream toyHash toyPoly p true m in
  let fromB := rawOf (snd (snd' (exB true) [9])) in
  let (a1, o1) := snd' (exA true) [1;2;3] in
  match receivePackets toyStream toyHash toyPoly a1 (sessionStorage (Size 0)) (repeat fromB 64) with
  | Ret (a2, _, pks) =>
      let jumped := rawOf (snd (snd' a2 [4])) in
      let next := rawOf (snd (snd' a1 [4])) in
      let results raws := match receivePackets toyStream toyHash toyPoly (exB true) (sessionStorage (Size 0)) raws with
                          | Ret (_, _, r) => r | Panic => [] end in
      skipn 1 pks = repeat PktDuplicate 63 /\
      results [rawOf o1; jumped; rawOf o1] = [PktAccepted 3 [1;2;3]; PktAccepted 1 [4]; PktAccepted 3 [1;2;3]] /\
      results [rawOf o1; next; rawOf o1] = [PktAccepted 3 [1;2;3]; PktAccepted 1 [4]; PktDuplicate]
  | Panic => False
  end.
Proof. vm_compute. repeat split. Qed.

(** It holds while fewer than 64 packets arrive between two packets sent, if the
    packets sent arrive in order and none is lost; anything may be repeated in
    between, any number of times. *)
Fixpoint calm (k : N) (acts : list action) : Prop :=
  match acts with
  | [] => True
  | ActSend _ _ :: r => calm 0 r
  | ActReceive raw :: r => if longEnough raw then k + 1 <= 63 /\ calm (k + 1) r else calm k r
  end.

(** [arrives old new ids]: with [old] already arrived and [new] on the way, the
    network may hand over [ids]. *)
Inductive arrives : list N -> list N -> list N -> Prop :=
| ArNone : forall old new, arrives old new []
| ArNext : forall old x new ids, arrives (x :: old) new ids -> arrives old (x :: new) (x :: ids)
| ArAgain : forall old new x ids, In x old -> arrives old new ids -> arrives old new (x :: ids).

Fixpoint close_by (m : N) (l : list N) : Prop :=
  match l with [] => True | x :: r => m < x <= m + 64 /\ x < 2^64 /\ close_by x r end.

Lemma traffic_close : forall stream blake3 poly1305 acts p win p' out k m, pNext p + len acts < 2^64 ->
  traffic stream blake3 poly1305 p win acts = Ret (p', out) -> pNext p = m + k -> k <= 63 -> calm k acts ->
  close_by m (map (fun x => packetIDValue (snd x)) out).
Proof.
  intros stream blake3 poly1305. induction acts as [|a acts IH]; intros p win p' out k m Hn H Hm Hk C; cbn [traffic] in H.
  - injection H as _ <-. exact I.
  - rewrite len_cons in Hn. destruct a as [c msgs|raw]; cbn [calm] in C.
    + unfold sendPacket, takePacketID in H. cbn zeta in H.
      set (p1 := {| pAux := pAux p; pKeys := pKeys p; pRemoteID := pRemoteID p; pOwnID := pOwnID p;
                    pNext := add64 (pNext p) 1 |}) in H.
      destruct (sealPacket _ _ _ p1 _ _ _); [|discriminate].
      destruct (traffic stream blake3 poly1305 p1 win acts) as [[p2 o]|] eqn:E; [|discriminate]. injection H as _ <-.
      assert (E1 : pNext p1 = pNext p + 1) by (unfold p1, add64; cbn [pNext]; apply N.mod_small; lia).
      cbn [map snd close_by]. change (add64 (pNext p) 1) with (pNext p1). rewrite E1.
      assert (Ev : packetIDValue (packetIDBytes (pNext p + 1)) = pNext p + 1)
        by (apply le_dec_enc; change (2 ^ (8 * N.of_nat 8)) with (2^64); lia).
      rewrite Ev. split; [lia|]. split; [lia|].
      apply (IH p1 win p2 o 0 (pNext p + 1)); auto; lia.
    + destruct (receivePacket stream blake3 poly1305 p win raw) as [[[p1 w] pk]|] eqn:E; [|discriminate].
      destruct (receive_next stream blake3 poly1305 p win raw p1 w pk ltac:(lia) E) as (E1 & _).
      destruct (longEnough raw).
      * destruct C as [C1 C2]. apply (IH p1 w p' out (k + 1) m); auto; lia.
      * apply (IH p1 w p' out k m); auto; lia.
Qed.

Lemma arrives_ok : forall w old new ids, arrives old new ids ->
  forall m, (forall x, In x old -> x <= m /\ x < 2^64) -> close_by m new -> gaps_ok w m ids /\ ids64 ids.
Proof.
  induction 1 as [| old x new ids A IH | old new x ids HI A IH]; intros m Ho C.
  - split; [exact I|constructor].
  - cbn [close_by] in C. destruct C as (C1 & C2 & C3).
    destruct (IH x) as [G1 G2]; auto.
    { intros y [<-|Hy]; [lia|]. specialize (Ho y Hy). lia. }
    cbn [gaps_ok]. replace (N.max m x) with x by lia. split; [split; [lia|exact G1]|constructor; auto].
  - destruct (Ho x HI). destruct (IH m Ho C) as [G1 G2]. cbn [gaps_ok]. replace (N.max m x) with m by lia.
    split; [split; [lia|exact G1]|constructor; auto].
Qed.

Theorem C127_no_replay_partial : forall stream blake3 poly1305 acts a win a' out n ids,
  pNext a = 0 -> len acts < 2^64 -> calm 0 acts ->
  traffic stream blake3 poly1305 a win acts = Ret (a', out) ->
  arrives [] (map (fun x => packetIDValue (snd x)) out) ids ->
  exists st vs, offer (sessionStorage (Size n)) ids = Ret (st, vs) /\ NoDup (accepted ids vs).
Proof.
  intros stream blake3 poly1305 acts a win a' out n ids H0 Hl Hc Ht Har.
  pose proof (traffic_close stream blake3 poly1305 acts a win a' out 0 0 ltac:(lia) Ht ltac:(lia) ltac:(lia) Hc) as C.
  destruct (arrives_ok (window n) _ _ _ Har 0) as [G1 G2]; [intros x []|exact C|].
  apply C07_replay_partial; auto.
Qed.
Print Assumptions C127_no_replay_partial.

(** 63 packets of 44 bytes arrive between two sends: IDs 1 and 65, the repetition is refused. *)
Definition exActs : list action := ActSend true [1;2;3] :: repeat (ActReceive (repeat 5 44)) 63 ++ [ActSend true [4]].
Definition idsOf (r : outcome (peer * list (bool * bytes))) : list N :=
  match r with Ret (_, out) => map (fun x => packetIDValue (snd x)) out | Panic => [] end.
Example C127_example :
  calm 0 exActs /\ idsOf (traffic toyStream toyHash toyPoly (exA true) None exActs) = [1; 65] /\
  arrives [] [1; 65] [1; 65; 1; 65] /\
  match offer (sessionStorage (Size 0)) [1; 65; 1; 65] with Ret (_, vs) => vs = [true; true; false; false] | Panic => False end.
Proof.
  split; [vm_compute; repeat split; discriminate|]. split; [vm_compute; reflexivity|]. split; [|vm_compute; reflexivity].
  apply ArNext, ArNext, ArAgain; [right; left; reflexivity|]. apply ArAgain; [left; reflexivity|]. apply ArNone.
Qed.
