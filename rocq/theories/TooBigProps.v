(** C147: messages above the receiver's MaxFragmentedMessageSize. The sender has no
    such limit (session.go 1432-1510); the receiver (1046-1054) drops every fragment
    and tells only [infof]. *)
From Coq Require Import NArith List Bool Lia Arith.
From Verif Require Import Base BaseLemmas MessageModel CodecProofs PendingChainModel ReaderModel ReaderLoopModel ReaderSpec
  ReaderProofs ReaderRun ReaderProps FragRun PacketModel PacketSpec PacketProofs PacketProps FragmentSendModel FragSpec FragSession FragFamily FragProps
  BatchModel SendModel SendProps.
Import ListNotations.
Local Open Scope N_scope.

(** Full statement: whatever message is sent in fragments without an error arrives,
    if its packets arrive in order at a session with default options. *)
Definition sent_arrives (s : rcv) : Prop := forall o chainID t payload us,
  soFragmentation o = true -> isInternal t = false -> t < 2^32 -> 24 < soEst o -> soEst o + 53 < 2^32 -> soEst o < len payload < 2^32 ->
  lastRemoteChainID s < chainID < 2^64 -> writeMessageAsyncPlan o chainID t payload = PlanUnits us ->
  exists s', processAll s (map uMsgs us) = Ret s' /\
    rev (out s') = rev (out s) ++ map toEvent (route (map fst (messengers s)) (readChans s) {| wType := t; wFlags := 0; wPayload := payload |}).

(** What a session looks like that has seen nothing of the message yet, or only
    fragments it has dropped. *)
Definition unaware (s : rcv) (id : N) : Prop :=
  lastRemoteChainID s < id \/
  lastRemoteChainID s = id /\ forall c, nth_error (pendingChains s) (N.to_nat (id mod maxChainIDDiff s)) = Some c -> expected c = 0.

Lemma too_big_dropped : forall s h fh p, unaware s (fChainID fh) -> fChainID fh < 2^64 -> 0 < maxChainIDDiff s ->
  length (pendingChains s) = N.to_nat (maxChainIDDiff s) -> maxFragmentedMessageSize s < fTotal fh ->
  exists s', processIncomingMessageFragment s h fh p = Ret (s', mLength h) /\ unaware s' (fChainID fh) /\ sameState s s' /\
    length (pendingChains s') = length (pendingChains s) /\ out s' = out s.
Proof.
  intros s h fh p U H64 Hd Hl Hm. unfold processIncomingMessageFragment.
  set (s1 := if lastRemoteChainID s <? fChainID fh then _ else s).
  assert (A : lastRemoteChainID s1 = fChainID fh /\ sameState s s1 /\ length (pendingChains s1) = length (pendingChains s) /\ out s1 = out s /\
    forall c, nth_error (pendingChains s1) (N.to_nat (fChainID fh mod maxChainIDDiff s)) = Some c -> expected c = 0).
  { unfold s1. destruct (N.ltb_spec (lastRemoteChainID s) (fChainID fh)) as [L|L].
    - split; [reflexivity|]. split; [apply setChains_same|]. split; [cbn [setChains pendingChains]; apply map_length|]. split; [reflexivity|].
      cbn [setChains pendingChains]. intros c C. rewrite nth_error_map in C. destruct (nth_error (pendingChains s) _); [|discriminate].
      cbn in C. injection C as <-. reflexivity.
    - destruct U as [U|[U1 U2]]; [lia|]. split; [exact U1|]. split; [apply sameState_refl|]. auto. }
  clearbody s1. destruct A as (A1 & A2 & A3 & A4 & A5). pose proof A2 as [(Q1 & Q2 & Q3 & Q4 & Q5 & Q6) Q7].
  cbn zeta. rewrite A1. unfold sub64. replace (fChainID fh + (2^64 - fChainID fh)) with (0 + 1 * 2^64) by lia.
  rewrite N.mod_add by lia. change (0 mod 2^64) with 0.
  destruct (N.ltb_spec (maxChainIDDiff s1) 0) as [B|_]; [lia|]. destruct (N.eqb_spec (maxChainIDDiff s1) 0) as [B|_]; [lia|].
  rewrite Q1. destruct (nth_error (pendingChains s1) (N.to_nat (fChainID fh mod maxChainIDDiff s))) as [c|] eqn:C.
  - rewrite (A5 c eq_refl), Q2. destruct (N.ltb_spec (maxFragmentedMessageSize s) (fTotal fh)); [|lia]. cbn [N.eqb andb].
    exists s1. split; [reflexivity|]. split; [|auto]. right. split; [exact A1|]. rewrite Q1. intros c' C'. rewrite C in C'. injection C' as <-. apply A5. reflexivity.
  - exfalso. apply nth_error_None in C. rewrite A3, Hl in C. pose proof (N.mod_lt (fChainID fh) (maxChainIDDiff s) ltac:(lia)). lia.
Qed.

(** The fragments of such a message, in any order, repeated or missing: nothing at
    all comes out of the session, not even an error. *)
Theorem C147_too_big_dropped_refuted : forall s o chainID t payload us order,
  soFragmentation o = true -> isInternal t = false -> t < 2^32 -> 24 < soEst o -> soEst o + 53 < 2^32 -> soEst o < len payload < 2^32 ->
  maxFragmentedMessageSize s < len payload -> 0 < maxChainIDDiff s -> length (pendingChains s) = N.to_nat (maxChainIDDiff s) ->
  detachOnMessagesCount s = 0 -> lastRemoteChainID s < chainID < 2^64 ->
  writeMessageAsyncPlan o chainID t payload = PlanUnits us -> incl order us ->
  exists s', processAll s (map uMsgs order) = Ret s' /\ out s' = out s.
Proof.
  intros s o chainID t payload us order Hf Ht Ht2 He He2 Hl Hm Hd Hlen Hdt Hc E I.
  rewrite big_plan in E by (auto; lia). injection E as <-.
  destruct (sentPieces_facts (soEst o) payload ltac:(lia)) as (F1 & F2 & F3 & F4).
  assert (U : unaware s chainID) by (left; lia).
  assert (G : Forall (fun u => exists f, u = fragmentUnit t chainID (len payload) f /\ fst f < 2^64 /\ 24 + len (snd f) <= soEst o) order).
  { apply Forall_forall. intros u Hu. apply I, in_map_iff in Hu. destruct Hu as ([q c] & <- & Hin). exists (q, c). split; [reflexivity|].
    pose proof Hin as Hin2. apply tiles_fragOf in Hin. destruct Hin as [Hin _]. cbn [fst snd] in *. rewrite F1 in Hin.
    split; [unfold len, bytes in *; lia|]. rewrite Forall_forall in F3. apply F3.
    rewrite <- (tiles_snd (sentPieces (soEst o) payload) 0). apply (in_map snd) in Hin2. exact Hin2. }
  assert (H64 : chainID < 2^64) by lia. clear I F1 F2 F3 F4 Hc. revert s U Hm Hd Hlen Hdt.
  induction order as [|u order IH]; intros s U Hm Hd Hlen Hdt; [exists s; split; reflexivity|].
  inversion G as [|? ? (f & -> & G1 & G2) G']; subst. cbn [map processAll fragmentUnit uMsgs].
  set (a := {| aId := chainID; aFlags := 2; aFrag := f |}).
  set (typ := fun _ : N => t). set (tot := fun _ : N => len payload).
  assert (Ok_a : arr_ok typ tot a).
  { unfold arr_ok, typ, tot, a. cbn [aId aFlags aFrag]. unfold bytes in *. repeat split; auto; lia. }
  assert (W : encodeMsg t 2 (wPayload (fragWire 2 t chainID (len payload) f)) = wireBytes (arrMsg typ tot a)).
  { rewrite <- encodeMsg_wire by (apply arr_wire_ok; exact Ok_a). reflexivity. }
  rewrite W.
  destruct (too_big_dropped s (hdrOf (arrMsg typ tot a)) {| fChainID := chainID; fStartPos := fst f; fTotal := len payload |} (snd f)) as (s1 & P1 & P2 & P3 & P4 & P5); auto.
  assert (PI : processIncomingMessages s (len (wireBytes (arrMsg typ tot a))) (wireBytes (arrMsg typ tot a)) = LoopEnd s1).
  { unfold processIncomingMessages. rewrite <- (app_nil_r (wireBytes (arrMsg typ tot a))) at 2.
    eapply runLoop_single; [apply arr_wire_ok; auto| |].
    - rewrite handleMsg_frag by auto. cbn [aId aFrag a]. unfold tot at 2. rewrite P1. reflexivity.
    - apply N.le_refl. }
  rewrite PI. pose proof P3 as [(Q1 & Q2 & Q3 & Q4 & Q5 & Q6) Q7].
  destruct (IH G' s1) as (s' & R1 & R2); [exact P2|congruence|congruence|congruence|congruence|].
  exists s'. split; [exact R1|congruence].
Qed.
Print Assumptions C147_too_big_dropped_refuted.

(** The sender is not told: every packet goes out without an error. *)
Theorem C147_sent_without_error : forall stream blake3 poly1305 p o chainID t payload us,
  primitives_ok stream poly1305 -> peer_ok p ->
  soFragmentation o = true -> isInternal t = false -> 24 < soEst o -> soEst o + 53 < 2^32 -> soEst o < len payload < 2^32 ->
  writeMessageAsyncPlan o chainID t payload = PlanUnits us ->
  Forall (fun r => exists raw, r = Ret (Ok raw)) (snd (sendUnits stream blake3 poly1305 (soEst o) p us)).
Proof.
  intros stream blake3 poly1305 p o chainID t payload us Hprim Hp Hf Ht He He2 Hl E.
  rewrite big_plan in E by (auto; lia). injection E as <-.
  destruct (sentPieces_facts (soEst o) payload ltac:(lia)) as (F1 & F2 & F3 & F4).
  assert (G : Forall (fun u => uConfidential u = false /\ len (uMsgs u) <= soEst o + 9) (map (fragmentUnit t chainID (len payload)) (tiles 0 (sentPieces (soEst o) payload)))).
  { rewrite Forall_forall in *. intros u Hu. apply in_map_iff in Hu. destruct Hu as (f & <- & Hin). split; [reflexivity|].
    rewrite fragmentUnit_len. unfold bytes in *.
    assert (24 + len (snd f) <= soEst o); [|lia]. apply F3. rewrite <- (tiles_snd (sentPieces (soEst o) payload) 0). apply in_map. exact Hin. }
  revert p Hp. induction G as [|u us [G1 G2] _ IH]; intros p Hp; [constructor|]. cbn [sendUnits].
  destruct (sendUnit_ok stream blake3 poly1305 Hprim (soEst o) p u Hp He2 G2) as (body & S & _); [rewrite G1; discriminate|].
  pose proof (fst_sendUnit stream blake3 poly1305 (soEst o) p u) as S1.
  destruct (sendUnit stream blake3 poly1305 (soEst o) p u) as [p1 r]. cbn [fst snd] in S, S1. subst p1 r.
  specialize (IH (fst (takePacketID p)) Hp).
  destruct (sendUnits stream blake3 poly1305 (soEst o) (fst (takePacketID p)) us) as [p2 os]. cbn [snd] in *. constructor; eauto.
Qed.
Print Assumptions C147_sent_without_error.

(** What holds: messages within the receiver's limit. *)
Theorem C147_within_limit_partial : forall s o chainID t payload us,
  soFragmentation o = true -> isInternal t = false -> t < 2^32 -> 24 < soEst o -> soEst o + 53 < 2^32 ->
  soEst o < len payload <= maxFragmentedMessageSize s -> len payload < 2^32 ->
  handlersReady s -> detachOnMessagesCount s = 0 -> 0 < maxChainIDDiff s ->
  length (pendingChains s) = N.to_nat (maxChainIDDiff s) -> Forall PendingChainProofs.bufok (pendingChains s) ->
  (forall c, In c (pendingChains s) -> len (cdata c) <= len payload) ->
  lastRemoteChainID s < chainID < 2^64 -> writeMessageAsyncPlan o chainID t payload = PlanUnits us ->
  exists s', processAll s (map uMsgs us) = Ret s' /\
    rev (out s') = rev (out s) ++ map toEvent (route (map fst (messengers s)) (readChans s) {| wType := t; wFlags := 0; wPayload := payload |}).
Proof.
  intros s o chainID t payload us Hf Ht Ht2 He He2 Hl Hl2 Hr Hd Hdf Hlen Hbuf Hsmall Hc E.
  rewrite big_plan in E by (auto; lia). injection E as <-.
  destruct (sentPieces_facts (soEst o) payload ltac:(lia)) as (F1 & F2 & F3 & F4).
  destruct (C20_session (soEst o) s t chainID payload) as (pieces & s' & outs & P1 & P2 & P3 & P4); auto; try lia.
  rewrite splitMessage_spec in P1 by lia. injection P1 as P1.
  assert (Ep : tiles 0 pieces = tiles 0 (sentPieces (soEst o) payload)) by (symmetry; exact P1). rewrite Ep in P2.
  exists s'. split; [|exact P4]. rewrite map_map.
  assert (Hfs : Forall (fun f : N * bytes => fst f < 2^64 /\ 24 + len (snd f) <= soEst o) (tiles 0 (sentPieces (soEst o) payload))).
  { apply Forall_forall. intros [q c] Hin. pose proof Hin as Hin2. apply tiles_fragOf in Hin. destruct Hin as [Hin _].
    cbn [fst snd] in *. rewrite F1 in Hin. split; [unfold len, bytes in *; lia|]. rewrite Forall_forall in F3. apply F3.
    rewrite <- (tiles_snd (sentPieces (soEst o) payload) 0). apply (in_map snd) in Hin2. exact Hin2. }
  clear - P2 Hfs Ht2 He2 Hl2. generalize dependent outs. revert Hfs. revert s s'.
  generalize (tiles 0 (sentPieces (soEst o) payload)) as fs.
  induction fs as [|f fs IH]; intros s s' HF outs P2; cbn [map fragRun processAll] in *.
  - injection P2 as <- _. reflexivity.
  - inversion HF as [|x l [Hf1 Hf2] HF' Ex]; subst. cbn [fragmentUnit uMsgs].
    change (encodeMsg t 2 (wPayload (fragWire 2 t chainID (len payload) f)))
      with (encodeMsg (wType (fragWire 2 t chainID (len payload) f)) (wFlags (fragWire 2 t chainID (len payload) f))
              (wPayload (fragWire 2 t chainID (len payload) f))).
    rewrite encodeMsg_wire.
    2:{ split; [exact Ht2|]. split; [reflexivity|]. pose proof (fragWire_payload_len 2 t chainID (len payload) f). unfold len, bytes in *. lia. }
    unfold arrMsg in P2 at 1. cbn [aId aFlags aFrag] in P2.
    destruct (processIncomingMessages s _ _) as [s1| |]; try discriminate.
    match type of P2 with match ?x with _ => _ end = _ => destruct x as [[s2 o2]|] eqn:Ef; [|discriminate] end.
    injection P2 as -> _. eapply IH; eauto.
Qed.
Print Assumptions C147_within_limit_partial.

(** A session with default options and a handler of type 7, and a message one byte
    above the default limit of 65536 bytes. *)
Definition defaultOpts : rcv := freshRcv 8 65536 0 [(7, true)] [].
Theorem C147_default_options_refuted : ~ sent_arrives defaultOpts.
Proof.
  intros H. set (o := {| soEst := 1000; soFragmentation := true; soDelay := true |}).
  assert (X : exists m : bytes, len m = 65537) by (exists (repeat 5 (N.to_nat 65537)); unfold len; rewrite repeat_length; apply N2Nat.id).
  destruct X as (m & L).
  assert (E := big_plan o 1 7 m eq_refl eq_refl ltac:(cbn; lia) ltac:(rewrite L; cbn; lia)).
  set (us := map _ _) in E.
  destruct (H o 1 7 m us eq_refl eq_refl ltac:(lia) ltac:(cbn; lia) ltac:(cbn; lia) ltac:(rewrite L; cbn; lia) ltac:(cbn; lia) E) as (s1 & R1 & O1).
  destruct (C147_too_big_dropped_refuted defaultOpts o 1 7 m us us eq_refl eq_refl ltac:(lia) ltac:(cbn; lia) ltac:(cbn; lia)
    ltac:(rewrite L; cbn; lia) ltac:(rewrite L; cbn; lia) ltac:(cbn; lia) eq_refl eq_refl ltac:(cbn; lia) E (incl_refl _)) as (s2 & R2 & O2).
  rewrite R1 in R2. injection R2 as <-. rewrite O2 in O1. cbn [defaultOpts freshRcv out rev app messengers readChans map fst] in O1.
  unfold route in O1. cbn in O1. discriminate.
Qed.
Print Assumptions C147_default_options_refuted.

(** Smaller numbers: limit 150, messages of 150 and 151 bytes in fragments of 40. *)
Example C147_example :
  let s := freshRcv 8 150 0 [(7, true)] [] in
  let o := {| soEst := 64; soFragmentation := true; soDelay := true |} in
  let got n := match writeMessageAsyncPlan o 1 7 (countUp n 3) with
               | PlanUnits us => match processAll s (map uMsgs us) with Ret s' => Some (length us, out s') | Panic => None end
               | _ => None
               end in
  got 150%nat = Some (4%nat, [EvHandler 7 (countUp 150 3)]) /\ got 151%nat = Some (4%nat, []).
Proof. split; vm_compute; reflexivity. Qed.
