(** C169: a message may be written before the session is established. *)
From Coq Require Import NArith List Bool Lia Arith.
From Verif Require Import Base BaseLemmas MessageModel CodecProofs ReaderModel ReaderLoopModel ReaderSpec ReaderProofs ReaderRun PacketModel
  PacketSpec PacketProofs FragmentSendModel FragSpec FragRun FragSession FragFamily FragProps BatchModel BatchProofs BatchProps SendModel SendProps EarlyModel.
Import ListNotations.
Local Open Scope N_scope.

(** The same call, made when the session is established. *)
Definition late (o : sendOptions) (est : N) : sendOptions :=
  {| soEst := est; soFragmentation := soFragmentation o; soDelay := soDelay o |}.

Lemma early_is_late : forall o chainID t payload, earlyPlan o (soEst o) chainID t payload = writeMessageAsyncPlan o chainID t payload.
Proof. reflexivity. Qed.

Lemma fits_spec : forall est u, est + 53 < 2^32 -> len (uMsgs u) < 2^31 -> uInternal u = false ->
  fitsPacket est u = (len (uMsgs u) <=? est + 9).
Proof.
  intros est u He Hl Hi. unfold fitsPacket, packetSizeOf, add32, u32, messagesContainerHeadersSize, messageHeadersSize. rewrite Hi. cbn [orb].
  rewrite (N.mod_small (len (uMsgs u))) by lia. rewrite (N.mod_small (est + 44)) by lia. rewrite (N.mod_small (est + 44 + 9)) by lia.
  rewrite N.mod_small by lia. destruct (N.leb_spec (len (uMsgs u)) (est + 9)); destruct (N.ltb_spec (est + 44 + 9) (44 + len (uMsgs u))); cbn; lia.
Qed.
Lemma small_outcome : forall o est chainID t payload, isInternal t = false -> est + 53 < 2^32 -> len payload < 2^30 -> len payload <= soEst o ->
  carried est (earlyPlan o est chainID t payload) =
    if len payload <=? est
    then carried est (if negb (isConfidential (singleFlags t)) || negb (soDelay o)
                      then PlanUnits [singleUnit t (singleFlags t) payload]
                      else PlanAggregate (encodeMsg t (singleFlags t) payload))
    else Written [] true.
Proof.
  intros o est chainID t payload Ht He Hl Hs. unfold earlyPlan, u32. rewrite N.mod_small by lia.
  replace (soEst o <? len payload) with false by (symmetry; apply N.ltb_ge; lia). cbn [andb].
  destruct (N.leb_spec (len payload) est) as [H|H]; [reflexivity|].
  assert (L : len (encodeMsg t (singleFlags t) payload) = 9 + len payload) by (rewrite encodeMsg_len; lia).
  destruct (_ || _).
  - cbn [carried]. assert (F : fitsPacket est (singleUnit t (singleFlags t) payload) = false).
    { rewrite fits_spec; cbn [singleUnit uMsgs uInternal]; auto; [|lia]. rewrite L. apply N.leb_gt. lia. }
    cbn [filter forallb]. rewrite F. reflexivity.
  - cbn [carried]. rewrite L. unfold packetSizeOf, add32, messagesContainerHeadersSize, messageHeadersSize.
    rewrite (N.mod_small (est + 44)) by lia. rewrite N.mod_small by lia.
    replace (est + 44 + 9 <? 44 + (9 + len payload)) with true by (symmetry; apply N.ltb_lt; lia). reflexivity.
Qed.

Lemma fragments_carried : forall est chainID t payload, isInternal t = false -> 24 < est -> est + 53 < 2^32 -> len payload < 2^30 ->
  carried est (fragmentUnits est chainID t payload) =
    Written (map (fragmentUnit t chainID (len payload)) (tiles 0 (sentPieces est payload))) false.
Proof.
  intros est chainID t payload Ht He He2 Hl.
  unfold fragmentUnits. rewrite splitMessage_spec by lia.
  rewrite (map_ext _ (fragmentUnit t chainID (len payload)) (fragUnit chainID (len payload) t)).
  set (us := map (fragmentUnit t chainID (len payload)) (tiles 0 (sentPieces est payload))).
  destruct (sentPieces_facts est payload ltac:(lia)) as (F1 & F2 & F3 & F4).
  assert (Hin : forall u, In u us -> fitsPacket est u = true).
  { intros u Hu. apply in_map_iff in Hu. destruct Hu as (f & <- & Hin).
    assert (P : 24 + len (snd f) <= est).
    { rewrite Forall_forall in F3. apply F3. rewrite <- (tiles_snd (sentPieces est payload) 0). apply in_map. exact Hin. }
    assert (Q : len (snd f) <= len payload).
    { rewrite <- F1. assert (I : In (snd f) (sentPieces est payload)) by (rewrite <- (tiles_snd (sentPieces est payload) 0); apply in_map; exact Hin).
      clear - I. induction (sentPieces est payload) as [|x l IH]; [contradiction|]. cbn [concat]. rewrite len_app. destruct I as [->|I]; [lia|]. specialize (IH I). lia. }
    rewrite fits_spec; auto; rewrite fragmentUnit_len; unfold bytes in *; [apply N.leb_le|]; lia. }
  cbn [carried].
  assert (E : filter (fitsPacket est) us = us /\ forallb (fitsPacket est) us = true).
  { clear - Hin. induction us as [|u us IH]; [split; reflexivity|]. cbn [filter forallb]. rewrite (Hin u (or_introl eq_refl)).
    destruct (IH (fun v H => Hin v (or_intror H))) as [-> ->]. split; reflexivity. }
  destruct E as [-> ->]. reflexivity.
Qed.

(** ** Refutation *)
(** The negotiation made the size smaller. A message between the two sizes that
    is written early is refused although fragmentation is on; the same message
    written later is sent as a whole. For all sizes and messages. *)
Theorem C169_early_refuted : forall o est chainID t payload,
  isInternal t = false -> soFragmentation o = true -> 24 < est -> est + 53 < 2^32 -> len payload < 2^30 ->
  est < len payload <= soEst o ->
  carried est (earlyPlan o est chainID t payload) = Written [] true /\
  exists pieces, pieces <> [] /\ concat pieces = payload /\
    carried est (writeMessageAsyncPlan (late o est) chainID t payload) =
      Written (map (fragmentUnit t chainID (len payload)) (tiles 0 pieces)) false.
Proof.
  intros o est chainID t payload Ht Hf He He2 Hl Hb. split.
  - rewrite small_outcome by (auto; lia). replace (len payload <=? est) with false by (symmetry; apply N.leb_gt; lia). reflexivity.
  - exists (sentPieces est payload). destruct (sentPieces_facts est payload ltac:(lia)) as (F1 & _). split; [|split; [exact F1|]].
    + intros E. rewrite E in F1. cbn in F1. subst payload. unfold len in Hb. cbn in Hb. lia.
    + rewrite <- early_is_late. unfold earlyPlan, u32. cbn [late soEst soFragmentation]. rewrite N.mod_small by lia.
      replace (est <? len payload) with true by (symmetry; apply N.ltb_lt; lia). rewrite Ht, Hf. cbn [andb negb].
      apply fragments_carried; auto.
Qed.
Print Assumptions C169_early_refuted.

(** ** What holds *)
(** In all other cases the moment of the call makes no difference: the size did
    not become smaller than the message since, or the message was too big from
    the beginning, or there is no fragmentation anyway. *)
Theorem C169_same_partial : forall o est chainID t payload,
  isInternal t = false -> est + 53 < 2^32 -> len payload < 2^30 -> est <= soEst o ->
  (len payload <= est \/ soEst o < len payload \/ soFragmentation o = false) ->
  carried est (earlyPlan o est chainID t payload) = carried est (writeMessageAsyncPlan (late o est) chainID t payload).
Proof.
  intros o est chainID t payload Ht He Hl Hs C. rewrite <- early_is_late. cbn [late soEst].
  destruct (N.le_gt_cases (len payload) (soEst o)) as [S|S].
  - rewrite small_outcome by auto. destruct (N.leb_spec (len payload) est) as [L|L].
    + change est with (soEst (late o est)) at 4. rewrite small_outcome by (cbn [late soEst]; auto). cbn [late soEst soDelay].
      replace (len payload <=? est) with true by (symmetry; apply N.leb_le; lia). reflexivity.
    + destruct C as [C|[C|C]]; [lia|lia|]. unfold earlyPlan, u32. cbn [late soEst soFragmentation]. rewrite N.mod_small by lia.
      replace (est <? len payload) with true by (symmetry; apply N.ltb_lt; lia). rewrite Ht, C. reflexivity.
  - unfold earlyPlan, u32. cbn [late soEst soFragmentation]. rewrite N.mod_small by lia.
    replace (est <? len payload) with true by (symmetry; apply N.ltb_lt; lia).
    replace (soEst o <? len payload) with true by (symmetry; apply N.ltb_lt; lia). rewrite Ht. reflexivity.
Qed.
Print Assumptions C169_same_partial.

(** And a message that is written early and not too big is always sent, in one
    packet, without an error. *)
Theorem C169_small_sent : forall o est chainID t payload,
  isInternal t = false -> est + 53 < 2^32 -> len payload < 2^30 -> len payload <= soEst o -> len payload <= est ->
  exists u, carried est (earlyPlan o est chainID t payload) = Written [u] false /\ uMsgs u = encodeMsg t (singleFlags t) payload.
Proof.
  intros o est chainID t payload Ht He Hl Hs Hb. rewrite small_outcome by auto.
  replace (len payload <=? est) with true by (symmetry; apply N.leb_le; lia).
  assert (L : len (encodeMsg t (singleFlags t) payload) = 9 + len payload) by (rewrite encodeMsg_len; lia).
  destruct (_ || _).
  - exists (singleUnit t (singleFlags t) payload). split; [|reflexivity]. cbn [carried filter forallb].
    assert (F : fitsPacket est (singleUnit t (singleFlags t) payload) = true).
    { rewrite fits_spec; cbn [singleUnit uMsgs uInternal]; auto; [|lia]. rewrite L. apply N.leb_le. lia. }
    rewrite F. reflexivity.
  - exists (batchUnit [encodeMsg t (singleFlags t) payload]). split; [|cbn [batchUnit uMsgs concat]; apply app_nil_r].
    cbn [carried]. rewrite L. unfold packetSizeOf, add32, messagesContainerHeadersSize, messageHeadersSize.
    rewrite (N.mod_small (est + 44)) by lia. rewrite N.mod_small by lia.
    replace (est + 44 + 9 <? 44 + (9 + len payload)) with false by (symmetry; apply N.ltb_ge; lia). reflexivity.
Qed.
Print Assumptions C169_small_sent.

(** 200 bytes; the limit is 300, the negotiated size 100. *)
Definition earlyO : sendOptions := {| soEst := 300; soFragmentation := true; soDelay := true |}.
Example C169_example :
  carried 100 (earlyPlan earlyO 100 1 7 (repeat 5 200)) = Written [] true /\
  match carried 100 (writeMessageAsyncPlan (late earlyO 100) 1 7 (repeat 5 200)) with
  | Written us false => map (fun u => len (uMsgs u)) us = [109; 109; 81]
  | _ => False
  end /\
  match carried 100 (earlyPlan earlyO 100 1 7 (repeat 5 100)) with Written [u] false => len (uMsgs u) = 109 | _ => False end.
Proof. vm_compute. repeat split; reflexivity. Qed.
