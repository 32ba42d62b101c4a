(** Properties C19-C26: fragmentation and reassembly. *)
From Coq Require Import NArith List Bool Lia Arith.
From Verif Require Import Base BaseLemmas MessageModel CodecSpec CodecProofs PendingChainModel BitCount
  PendingChainProofs FragSpec FragRun FragmentSendModel ReaderModel ReaderLoopModel ReaderSpec ReaderProofs
  ReaderRun FragSession FragFamily.
Import ListNotations.
Local Open Scope N_scope.

(** ** C19: fragmentation tiles the message *)

(** Full statement: for every established payload size and every message the
    split ends, and yields non-empty pieces that are, in order, the message,
    with running start positions, each fitting in the payload size together
    with its 24-byte header. It fails for payload sizes up to 24 and for
    messages whose length is a multiple of 2^32, see below. *)
Theorem C19_tiles_partial : forall est m, 24 < est < 2^32 -> len m < 2^32 ->
  exists pieces, splitMessage est m = SplitDone (tiles 0 pieces) /\
    concat pieces = m /\ nonempty_pieces pieces /\
    Forall (fun p => 24 + len p <= est) pieces /\
    Forall (fun p => 24 + len p = est) (removelast pieces).
Proof.
  intros est m He Hm. exists (sentPieces est m). split; [apply splitMessage_spec; auto|].
  apply sentPieces_facts. lia.
Qed.
Print Assumptions C19_tiles_partial.

(** The messages actually put on the wire carry these pieces. *)
Theorem C19_on_the_wire : forall id total t f,
  fragmentMessage id total t f = (t, 2, wPayload (fragWire 2 t id total f)).
Proof.
  intros id total t f. unfold fragmentMessage, fragWrite, messageFragmentHeadersSize.
  replace (len (repeat 0 24 ++ snd f) <? 24) with false
    by (symmetry; apply N.ltb_ge; rewrite len_app; unfold len; rewrite repeat_length; lia).
  reflexivity.
Qed.
Print Assumptions C19_on_the_wire.

(** With a payload size of 24 every fragment is empty and the loop never ends. *)
Theorem C19_size24_refuted : forall m, m <> [] -> splitMessage 24 m = SplitForever.
Proof.
  intros m Hm. unfold splitMessage. destruct m as [|x m]; [congruence|]. cbn [length splitLoop].
  replace (0 <? len (x :: m)) with true by (symmetry; apply N.ltb_lt; rewrite len_cons; lia).
  change (sub32 24 messageFragmentHeadersSize) with 0.
  destruct (u32 (len (x :: m)) <? 0) eqn:E; [apply N.ltb_lt in E; lia|]. reflexivity.
Qed.
Print Assumptions C19_size24_refuted.

(** Below 24 the subtraction wraps and the "fragment" is the whole message. *)
Theorem C19_small_size_refuted : forall est m, est < 24 -> m <> [] -> len m < 2^31 ->
  splitMessage est m = SplitDone [(0, m)].
Proof.
  intros est m He Hne Hm. unfold splitMessage. destruct m as [|x m]; [congruence|]. set (w := x :: m) in *.
  change (length w) with (S (length m)). cbn [splitLoop].
  assert (L : len w = 1 + len m) by apply len_cons.
  replace (0 <? len w) with true by (symmetry; apply N.ltb_lt; lia).
  assert (U : u32 (len w) = len w) by (apply N.mod_small; lia). rewrite U.
  assert (S : sub32 est messageFragmentHeadersSize = 2^32 - 24 + est).
  { unfold sub32, messageFragmentHeadersSize. rewrite N.mod_small; lia. }
  rewrite S. replace (len w <? 2^32 - 24 + est) with true by (symmetry; apply N.ltb_lt; lia).
  replace (len w =? 0) with false by (symmetry; apply N.eqb_neq; lia).
  replace (N.to_nat (len w)) with (length w) by (unfold len; lia).
  rewrite firstn_all, skipn_all. destruct (length m); reflexivity.
Qed.
Print Assumptions C19_small_size_refuted.

(** A length that is a multiple of 2^32 looks like 0. *)
Theorem C19_huge_refuted : forall est m, 24 < est < 2^32 -> m <> [] -> len m mod 2^32 = 0 ->
  splitMessage est m = SplitForever.
Proof.
  intros est m He Hne Hm. unfold splitMessage. destruct m as [|x m]; [congruence|]. cbn [length splitLoop].
  replace (0 <? len (x :: m)) with true by (symmetry; apply N.ltb_lt; rewrite len_cons; lia).
  unfold u32. rewrite Hm. unfold messageFragmentHeadersSize. rewrite sub32_small by lia.
  replace (0 <? est - 24) with true by (symmetry; apply N.ltb_lt; lia). reflexivity.
Qed.
Print Assumptions C19_huge_refuted.

Example C19_example : splitMessage 26 [1;2;3;4;5] = SplitDone [(0, [1;2]); (2, [3;4]); (4, [5])].
Proof. reflexivity. Qed.

(** ** C20: in-order fragments *)

(** One chain: for any cut of the message into non-empty pieces, a fresh chain
    reports nothing until the last piece and then exactly the message (once). *)
Theorem C20_in_order : forall pieces c, bufok c -> pieces <> [] -> nonempty_pieces pieces ->
  len (concat pieces) < 2^63 -> len (cdata c) <= len (concat pieces) ->
  exists c', mergeAll (chainInit c (len (concat pieces))) (tiles 0 pieces) =
    Ret (c', repeat (Ok None) (length pieces - 1) ++ [Ok (Some (concat pieces))]).
Proof.
  intros pieces c Hb Hne Hp Hl Hs. destruct (run_in_order pieces c Hb Hl Hp) as [c' E].
  exists c'. rewrite E. f_equal. f_equal.
  rewrite skipn_short, app_nil_r by (unfold len in Hs; lia).
  pose proof (ideal_inorder (concat pieces) [] pieces Hne) as I. cbn [app tiles rev concat] in I.
  change (len (@nil N)) with 0 in I. rewrite I by exact Hp. rewrite map_app. cbn [map toRes].
  f_equal. generalize (length pieces - 1)%nat as n. induction n; cbn; f_equal; auto.
Qed.
Print Assumptions C20_in_order.

(** Through the session, for what the library's own sender produces: any
    payload size above 24, one packet per fragment, any receiver state in which
    this is the newest message and its slot holds no bigger buffer. *)
Theorem C20_session : forall est s t id m,
  24 < est < 2^32 -> est < len m <= maxFragmentedMessageSize s -> len m < 2^32 -> t < 2^32 ->
  handlersReady s -> detachOnMessagesCount s = 0 -> 0 < maxChainIDDiff s ->
  length (pendingChains s) = N.to_nat (maxChainIDDiff s) -> Forall bufok (pendingChains s) ->
  (forall c, In c (pendingChains s) -> len (cdata c) <= len m) ->
  lastRemoteChainID s < id < 2^64 ->
  exists pieces s' outs, splitMessage est m = SplitDone (tiles 0 pieces) /\
    fragRun (fun _ => t) (fun _ => len m) s (map (fun f => {| aId := id; aFlags := 2; aFrag := f |}) (tiles 0 pieces))
      = Ret (s', outs) /\
    map snd outs = repeat [] (length pieces - 1) ++ [reportEvents s t (Delivered m)] /\
    rev (out s') = rev (out s) ++ reportEvents s t (Delivered m).
Proof.
  intros est s t id m He Hm Hm2 Ht Hr Hd Hdf Hlen Hbuf Hsmall Hid.
  exists (sentPieces est m).
  destruct (sentPieces_facts est m ltac:(lia)) as (F1 & F2 & F3 & F4).
  set (pieces := sentPieces est m) in *.
  set (arr := map (fun f => {| aId := id; aFlags := 2; aFrag := f |}) (tiles 0 pieces)).
  assert (Hne : pieces <> []). { intros E. rewrite E in F1. cbn in F1. rewrite <- F1 in Hm. cbn in Hm. lia. }
  assert (Htne : tiles 0 pieces <> []) by (destruct pieces; [congruence|discriminate]).
  assert (Proj : forall k, proj k arr = if k =? id then tiles 0 pieces else []).
  { intros k. unfold proj, arr. generalize (tiles 0 pieces) as l. induction l as [|f l IH]; cbn [map filter].
    - destruct (k =? id); reflexivity.
    - cbn [aId]. rewrite (N.eqb_sym id k). destruct (k =? id); cbn [map]; rewrite IH; reflexivity. }
  destruct (family_ideal (fun _ => t) (fun _ => m) (fun _ => pieces) ltac:(intros; exact F1) id s arr) as (s' & outs & R1 & R2 & R3 & R4 & R5); auto.
  - unfold arr. clear - Htne. destruct (tiles 0 pieces) as [|f l]; [congruence|]. cbn [map]. eexists _, _. split; reflexivity.
  - rewrite Forall_forall. intros a Ha. unfold arr in Ha. apply in_map_iff in Ha. destruct Ha as (f & <- & Hf).
    cbn [aId aFlags aFrag]. split; [auto|]. split; [lia|]. split; [reflexivity|]. split; [split; lia|auto].
  - intros k _. split; [lia|]. split; [auto|]. eapply Forall_impl; [|exact F3]. cbn. intros; lia.
  - intros k c _ Hc. apply Hsmall. eapply nth_error_In; eauto.
  - intros k c _ Hc Hp. rewrite Proj in *. destruct (k =? id); [|congruence].
    destruct (run_in_order pieces c Hc) as [c' E]; auto; [rewrite F1; lia|]. rewrite F1 in E. exists c'. exact E.
  - exists s', outs. split; [apply splitMessage_spec; auto|].
    split; [exact R1|].
    specialize (R5 id ltac:(split; lia)). rewrite Proj, N.eqb_refl in R5.
    pose proof (ideal_inorder m [] pieces Hne F2) as I. cbn [app tiles rev concat] in I.
    change (len (@nil N)) with 0 in I. rewrite I in R5.
    assert (Fl : filter (fun x => fst x =? id) outs = outs).
    { assert (G : Forall (fun x => fst x = id) outs).
      { assert (Forall (fun k => k = id) (map fst outs)).
        { rewrite R2. unfold arr. rewrite map_map, Forall_forall. intros k Hk. apply in_map_iff in Hk.
          destruct Hk as (f & <- & _). reflexivity. }
        rewrite Forall_map in H. exact H. }
      clear - G. induction G as [|x l Hx G IH]; cbn [filter]; auto. rewrite Hx, N.eqb_refl, IH. reflexivity. }
    rewrite Fl, map_app in R5. cbn [map] in R5.
    assert (Rp : map (reportEvents s t) (repeat Waiting (length pieces - 1)) = repeat [] (length pieces - 1)).
    { generalize (length pieces - 1)%nat as n. induction n; cbn; f_equal; auto. }
    assert (R6 : map snd outs = repeat [] (length pieces - 1) ++ [reportEvents s t (Delivered m)])
      by (rewrite <- Rp; exact R5). clear R5. rename R6 into R5. split; [exact R5|].
    rewrite R3, R5, concat_app. f_equal. cbn [concat]. rewrite app_nil_r.
    assert (Z : forall n, concat (repeat (@nil event) n) = []) by (induction n; cbn; auto). rewrite Z. reflexivity.
Qed.
Print Assumptions C20_session.

(** A session with a handler for type 7. *)
Definition exS : rcv := freshRcv 8 65536 0 [(7, true)] [].
Definition countUp (n : nat) (b : N) : bytes := map (fun i => (N.of_nat i + b) mod 256) (seq 0 n).
Definition arrivals (id : N) (fs : list (N * bytes)) : list arrival :=
  map (fun f => {| aId := id; aFlags := 2; aFrag := f |}) fs.
Definition framesOf (est : N) (m : bytes) : list (N * bytes) :=
  match splitMessage est m with SplitDone l => l | _ => [] end.
Definition outsOf (r : outcome (rcv * list (N * list event))) : list (N * list event) :=
  match r with Ret (_, o) => o | Panic => [] end.

Example C20_example :
  let m := countUp 100 7 in
  outsOf (fragRun (fun _ => 7) (fun _ => 100) exS (arrivals 1 (framesOf 64 m))) =
    [(1, []); (1, []); (1, [EvHandler 7 m])].
Proof. vm_compute. reflexivity. Qed.

(** ** C21: any arrival order *)

(** Full statement: for every way the sender may cut the message, every order
    of arrival and every duplication, the chain reports [ideal]: nothing until
    the last missing fragment, then exactly the message, then duplicates. It
    fails for pieces shorter than 64 bytes, see [C21_small_pieces_refuted].
    Proved when all pieces but the last have at least 64 bytes. *)
Theorem C21_any_order_partial : forall pieces arr c, bufok c -> len (concat pieces) < 2^63 ->
  nonempty_pieces pieces -> pieces_at_least 64 pieces -> len (cdata c) <= len (concat pieces) ->
  (forall f, In f arr -> In f (tiles 0 pieces)) ->
  exists c', mergeAll (chainInit c (len (concat pieces))) arr =
    Ret (c', map toRes (ideal (concat pieces) (tiles 0 pieces) [] arr)).
Proof.
  intros pieces arr c Hb Hl Hn Hp Hs Ha. destruct (run_any_order pieces arr c Hb Hl Hn Hp Ha) as [c' E].
  rewrite skipn_short, app_nil_r in E by (unfold len in Hs; lia). eauto.
Qed.
Print Assumptions C21_any_order_partial.

(** The ideal behaviour delivers exactly once, and only if everything arrived. *)
Theorem C21_ideal_delivers_once : forall m all arr seen,
  complete all seen = false ->
  filter (fun r => match r with Delivered _ => true | _ => false end) (ideal m all seen arr) =
    if complete all (rev arr ++ seen) then [Delivered m] else [].
Proof.
  intros m all. induction arr as [|f arr IH]; intros seen Hc.
  - cbn. rewrite Hc. reflexivity.
  - cbn [ideal rev]. rewrite Hc. rewrite <- app_assoc. cbn [app].
    destruct (complete all (f :: seen)) eqn:E.
    + cbn [filter]. assert (Z : forall seen', complete all seen' = true ->
        filter (fun r => match r with Delivered _ => true | _ => false end) (ideal m all seen' arr) = []).
      { clear. induction arr as [|g arr IH]; intros seen' H; [reflexivity|]. cbn [ideal filter]. rewrite H.
        apply IH. apply complete_mono. auto. }
      rewrite Z by auto.
      assert (M : forall l, complete all (l ++ f :: seen) = true).
      { induction l; cbn [app]; auto. apply complete_mono. auto. }
      rewrite M. reflexivity.
    + cbn [filter]. apply IH. exact E.
Qed.
Print Assumptions C21_ideal_delivers_once.

(** Session level, several messages at once: see [C24_newest_first_partial];
    with one message it reads: an honest sender with payload size at least 88,
    any order, any duplicates. *)
Theorem C21_session_partial : forall est s t id m order,
  88 <= est < 2^32 -> est < len m <= maxFragmentedMessageSize s -> len m < 2^32 -> t < 2^32 ->
  handlersReady s -> detachOnMessagesCount s = 0 -> 0 < maxChainIDDiff s ->
  length (pendingChains s) = N.to_nat (maxChainIDDiff s) -> Forall bufok (pendingChains s) ->
  (forall c, In c (pendingChains s) -> len (cdata c) <= len m) ->
  lastRemoteChainID s < id < 2^64 ->
  exists pieces, splitMessage est m = SplitDone (tiles 0 pieces) /\
  ((forall f, In f order -> In f (tiles 0 pieces)) ->
   exists s' outs,
    fragRun (fun _ => t) (fun _ => len m) s (map (fun f => {| aId := id; aFlags := 2; aFrag := f |}) order) = Ret (s', outs) /\
    map snd outs = map (reportEvents s t) (ideal m (tiles 0 pieces) [] order)).
Proof.
  intros est s t id m order He Hm Hm2 Ht Hr Hd Hdf Hlen Hbuf Hsmall Hid.
  exists (sentPieces est m). split; [apply splitMessage_spec; lia|]. intros Hin.
  destruct order as [|f0 order0]; [exists s, []; split; reflexivity|].
  set (order := f0 :: order0) in *.
  destruct (sentPieces_facts est m ltac:(lia)) as (F1 & F2 & F3 & F4).
  pose proof (sentPieces_big est m ltac:(lia)) as F5.
  set (pieces := sentPieces est m) in *.
  set (arr := map (fun f => {| aId := id; aFlags := 2; aFrag := f |}) order).
  assert (Proj : forall k, proj k arr = if k =? id then order else []).
  { intros k. unfold proj, arr. generalize order as l. induction l as [|f l IH]; cbn [map filter].
    - destruct (k =? id); reflexivity.
    - cbn [aId]. rewrite (N.eqb_sym id k). destruct (k =? id); cbn [map]; rewrite IH; reflexivity. }
  destruct (family_ideal (fun _ => t) (fun _ => m) (fun _ => pieces) ltac:(intros; exact F1) id s arr) as (s' & outs & R1 & R2 & R3 & R4 & R5); auto.
  - unfold arr, order. cbn [map]. eexists _, _. split; reflexivity.
  - rewrite Forall_forall. intros a Ha. unfold arr in Ha. apply in_map_iff in Ha. destruct Ha as (f & <- & Hf).
    cbn [aId aFlags aFrag]. split; [auto|]. split; [lia|]. split; [reflexivity|]. split; [split; lia|auto].
  - intros k _. split; [lia|]. split; [auto|]. eapply Forall_impl; [|exact F3]. cbn. intros; lia.
  - intros k c _ Hc. apply Hsmall. eapply nth_error_In; eauto.
  - intros k c _ Hc Hp. rewrite Proj in *. destruct (k =? id); [|congruence].
    destruct (run_any_order pieces order c Hc) as [c' E]; auto; [rewrite F1; lia|]. rewrite F1 in E. exists c'. exact E.
  - exists s', outs. split; [exact R1|].
    specialize (R5 id ltac:(split; lia)). rewrite Proj, N.eqb_refl in R5. rewrite <- R5. f_equal.
    assert (G : Forall (fun x => fst x = id) outs).
    { assert (H : Forall (fun k => k = id) (map fst outs)).
      { rewrite R2. unfold arr. rewrite map_map, Forall_forall. intros k Hk. apply in_map_iff in Hk.
        destruct Hk as (f & <- & _). reflexivity. }
      rewrite Forall_map in H. exact H. }
    clear - G. induction G as [|x l Hx G IH]; cbn [filter]; auto. rewrite Hx, N.eqb_refl, <- IH. reflexivity.
Qed.
Print Assumptions C21_session_partial.

Example C21_example :
  let m := countUp 200 1 in
  let fs := framesOf 100 m in
  match fs with
  | [a; b; c] => outsOf (fragRun (fun _ => 7) (fun _ => 200) exS (arrivals 1 [c; a; a; c; b; a])) =
      [(1, []); (1, []); (1, []); (1, []); (1, [EvHandler 7 m]); (1, [])]
  | _ => False
  end.
Proof. vm_compute. reflexivity. Qed.

(** Payload size 40 (pieces of 16 bytes): if the second fragment arrives first,
    the first 16 bytes already count as received; after fragments 2, 3 and 4 the
    message is delivered with 16 zero bytes instead of the first piece, which
    is then rejected as a duplicate. *)
Theorem C21_small_pieces_refuted :
  let m := countUp 64 1 in
  match framesOf 40 m with
  | [a; b; c; d] =>
      outsOf (fragRun (fun _ => 7) (fun _ => 64) exS (arrivals 1 [b; c; d; a])) =
        [(1, []); (1, []); (1, [EvHandler 7 (repeat 0 16 ++ skipn 16 m)]); (1, [])] /\
      repeat 0 16 ++ skipn 16 m <> m
  | _ => False
  end.
Proof. vm_compute. split; [reflexivity|discriminate]. Qed.
Print Assumptions C21_small_pieces_refuted.

(** ** C22: length of reassembled messages *)

(** Full statement: the delivered message has exactly the announced length. It
    is false: the buffer of the slot is reused and handed over whole. What is
    delivered is always the message followed by the stale end of the buffer. *)
Theorem C22_exact_content_partial : forall pieces arr c, bufok c -> len (concat pieces) < 2^63 ->
  nonempty_pieces pieces -> pieces_at_least 64 pieces ->
  (forall f, In f arr -> In f (tiles 0 pieces)) ->
  exists c', mergeAll (chainInit c (len (concat pieces))) arr =
    Ret (c', map toRes (ideal (concat pieces ++ skipn (length (concat pieces)) (cdata c)) (tiles 0 pieces) [] arr)).
Proof. exact run_any_order. Qed.
Print Assumptions C22_exact_content_partial.

(** So the length is right iff the slot's buffer was not longer. *)
Theorem C22_length_iff : forall (m old : bytes),
  len (m ++ skipn (length m) old) = len m <-> len old <= len m.
Proof. intros. rewrite len_app. unfold len. rewrite skipn_length. lia. Qed.
Print Assumptions C22_length_iff.

(** Default options: message 1 has 300 bytes; message 9 (same slot) has 150 and
    arrives with 150 bytes of message 1 attached. *)
Theorem C22_stale_tail_refuted :
  let m1 := countUp 300 1 in
  let m2 := countUp 150 99 in
  match fragRun (fun _ => 7) (fun k => if k =? 1 then 300 else 150) exS
          (arrivals 1 (framesOf 147 m1) ++ arrivals 9 (framesOf 147 m2)) with
  | Ret (s, _) => rev (out s) = [EvHandler 7 m1; EvHandler 7 (m2 ++ skipn 150 m1)]
  | Panic => False
  end.
Proof. vm_compute. reflexivity. Qed.
Print Assumptions C22_stale_tail_refuted.

(** ** C23: hostile fragment headers *)

(** Full statement: no message makes the receiver panic. It fails if the start
    position plus the payload length exceeds 2^64, see below; in every other
    case the receiver survives, in a state in which the same holds again. *)
Theorem C23_no_panic_partial : forall s h m, okRcv s -> len m = mLength h -> noWrap h m ->
  exists s' o, handleMsg s h m = Ret (s', o) /\ okRcv s'.
Proof. exact handleMsg_ok. Qed.
Print Assumptions C23_no_panic_partial.

Theorem C23_initial_state_ok : forall maxDiff maxFrag detach ms qs, 0 < maxDiff -> maxFrag < 2^63 ->
  Forall (fun x => snd x = true) ms -> okRcv (freshRcv maxDiff maxFrag detach ms qs).
Proof.
  intros. constructor; cbn; auto.
  - apply repeat_length.
  - apply Forall_forall. intros c Hc. apply repeat_spec in Hc. subst. apply wfc_empty.
Qed.
Print Assumptions C23_initial_state_ok.

(** One packet with one 25-byte message kills the process. *)
Theorem C23_start_wraps_refuted : exists content, len content = 34 /\
  processIncomingMessages exS (len content) content = LoopPanic.
Proof.
  exists (encodeMsg 7 2 (le_enc 8 1 ++ le_enc 8 (2^64 - 1) ++ le_enc 8 100 ++ [0])).
  vm_compute. auto.
Qed.
Print Assumptions C23_start_wraps_refuted.

(** A message of an unregistered type does not help: the merge comes first. *)
Theorem C23_any_type_refuted : exists content, len content = 34 /\
  processIncomingMessages (freshRcv 8 65536 0 [] []) (len content) content = LoopPanic.
Proof.
  exists (encodeMsg 12345 2 (le_enc 8 1 ++ le_enc 8 (2^64 - 1) ++ le_enc 8 100 ++ [0])).
  vm_compute. auto.
Qed.
Print Assumptions C23_any_type_refuted.

Example C23_example : (* a fragment far beyond its chain is refused *)
  processIncomingMessages exS 34 (encodeMsg 7 2 (le_enc 8 1 ++ le_enc 8 (2^63) ++ le_enc 8 100 ++ [0]))
  = LoopEnd (setChains exS 1 (setNth (pendingChains exS) 1 (chainInit emptyChain 100))).
Proof. vm_compute. reflexivity. Qed.

(** ** C24: concurrently fragmented messages *)

(** Full statement: whatever the interleaving of the fragments of up to
    MaxChainIDDiff messages, each is delivered. Refuted below: the first
    fragment of a newer message discards all older incomplete ones. Proved: if
    the newest message's fragment arrives first, every message of the window is
    reassembled ideally from its own fragments, in any interleaving, order and
    duplication. *)
Theorem C24_newest_first_partial : forall est s typ msg L arr,
  88 <= est < 2^32 -> handlersReady s -> detachOnMessagesCount s = 0 -> 0 < maxChainIDDiff s ->
  length (pendingChains s) = N.to_nat (maxChainIDDiff s) -> Forall bufok (pendingChains s) ->
  lastRemoteChainID s < L < 2^64 ->
  (forall k, window L (maxChainIDDiff s) k ->
     est < len (msg k) <= maxFragmentedMessageSize s /\ len (msg k) < 2^32 /\ typ k < 2^32 /\
     forall c, In c (pendingChains s) -> len (cdata c) <= len (msg k)) ->
  (exists a r, arr = a :: r /\ aId a = L) ->
  Forall (fun a => aFlags a = 2 /\ window L (maxChainIDDiff s) (aId a) /\
                   In (aFrag a) (framesOf est (msg (aId a)))) arr ->
  exists s' outs, fragRun typ (fun k => len (msg k)) s arr = Ret (s', outs) /\ map fst outs = map aId arr /\
    rev (out s') = rev (out s) ++ concat (map snd outs) /\
    forall k, window L (maxChainIDDiff s) k ->
      map snd (filter (fun x => fst x =? k) outs) =
      map (reportEvents s (typ k)) (ideal (msg k) (framesOf est (msg k)) [] (proj k arr)).
Proof.
  intros est s typ msg L arr He Hr Hd Hdf Hlen Hbuf HL Hmsg Hfirst HF.
  assert (Hf : forall k, window L (maxChainIDDiff s) k -> framesOf est (msg k) = tiles 0 (sentPieces est (msg k))).
  { intros k Hk. unfold framesOf. destruct (Hmsg k Hk) as (_ & M & _). rewrite splitMessage_spec by lia. reflexivity. }
  destruct (family_ideal typ msg (fun k => sentPieces est (msg k))
     ltac:(intros k; apply (sentPieces_facts est (msg k)); lia) L s arr) as (s' & outs & R1 & R2 & R3 & R4 & R5); auto.
  - rewrite Forall_forall in *. intros a Ha. destruct (HF a Ha) as (A1 & A2 & A3).
    rewrite A1. destruct (Hmsg _ A2) as (_ & _ & M & _). split; [exact M|]. split; [reflexivity|]. split; [reflexivity|].
    split; [exact A2|]. rewrite Hf in A3 by auto. exact A3.
  - intros k Hk. destruct (Hmsg k Hk) as (M1 & M2 & _). split; [lia|]. split; [auto|].
    destruct (sentPieces_facts est (msg k) ltac:(lia)) as (_ & _ & F & _).
    eapply Forall_impl; [|exact F]. cbn. intros; lia.
  - intros k c Hk Hc. destruct (Hmsg k Hk) as (_ & _ & _ & M). apply M. eapply nth_error_In; eauto.
  - intros k c Hk Hc Hp. destruct (sentPieces_facts est (msg k) ltac:(lia)) as (F1 & F2 & F3 & F4).
    destruct (Hmsg k Hk) as (M1 & M2 & _).
    destruct (run_any_order (sentPieces est (msg k)) (proj k arr) c Hc) as [c' E]; auto.
    + rewrite F1. lia.
    + apply sentPieces_big. lia.
    + intros f Hfin. unfold proj in Hfin. apply in_map_iff in Hfin. destruct Hfin as (a & <- & Ha).
      apply filter_In in Ha. destruct Ha as [Ha Ek]. apply N.eqb_eq in Ek.
      rewrite Forall_forall in HF. destruct (HF a Ha) as (_ & _ & A3). rewrite Ek, Hf in A3 by auto. exact A3.
    + rewrite F1 in E. eauto.
  - exists s', outs. split; [exact R1|]. split; [exact R2|]. split; [exact R3|].
    intros k Hk. rewrite (R5 k Hk), Hf by auto. reflexivity.
Qed.
Print Assumptions C24_newest_first_partial.

Example C24_example :
  let m1 := countUp 200 1 in let m2 := countUp 180 50 in
  match framesOf 100 m1, framesOf 100 m2 with
  | [a1; b1; c1], [a2; b2; c2] =>
      outsOf (fragRun (fun _ => 7) (fun k => if k =? 1 then 200 else 180) exS
        (arrivals 2 [a2] ++ arrivals 1 [c1; a1] ++ arrivals 2 [c2] ++ arrivals 1 [b1] ++ arrivals 2 [b2])) =
      [(2, []); (1, []); (1, []); (2, []); (1, [EvHandler 7 m1]); (2, [EvHandler 7 m2])]
  | _, _ => False
  end.
Proof. vm_compute. reflexivity. Qed.

(** Fragment 1 of message 1, then message 2 whole, then the rest of message 1:
    message 1 is never delivered although all its fragments arrived. *)
Theorem C24_older_discarded_refuted :
  let m1 := countUp 200 1 in let m2 := countUp 180 50 in
  match framesOf 100 m1, framesOf 100 m2 with
  | [a1; b1; c1], [a2; b2; c2] =>
      outsOf (fragRun (fun _ => 7) (fun k => if k =? 1 then 200 else 180) exS
        (arrivals 1 [a1] ++ arrivals 2 [a2; b2; c2] ++ arrivals 1 [b1; c1])) =
      [(1, []); (2, []); (2, []); (2, [EvHandler 7 m2]); (1, []); (1, [])]
  | _, _ => False
  end.
Proof. vm_compute. reflexivity. Qed.
Print Assumptions C24_older_discarded_refuted.

(** ** C25: no mixing *)

(** Full statement: a delivered message contains only bytes of fragments with
    its own chain ID. Refuted below (and by [C22_stale_tail_refuted]): a
    fragment exactly MaxChainIDDiff behind the newest chain is accepted and
    lands in the newest chain's slot. Proved: a fragment less than
    MaxChainIDDiff behind touches no slot but its own, and slots of different
    chains of that range differ; with [C24_newest_first_partial] the delivered
    bytes then depend on the message's own fragments only. *)
Theorem C25_own_slot_partial : forall s h fh p s' n,
  0 < maxChainIDDiff s -> lastRemoteChainID s < 2^64 ->
  window (lastRemoteChainID s) (maxChainIDDiff s) (fChainID fh) ->
  processIncomingMessageFragment s h fh p = Ret (s', n) ->
  forall k, window (lastRemoteChainID s) (maxChainIDDiff s) k -> k <> fChainID fh ->
    nth_error (pendingChains s') (N.to_nat (k mod maxChainIDDiff s)) =
    nth_error (pendingChains s) (N.to_nat (k mod maxChainIDDiff s)).
Proof.
  intros s h fh p s' n Hd HL [W1 W2] H k Hk Hne. unfold processIncomingMessageFragment in H. cbn zeta in H.
  replace (lastRemoteChainID s <? fChainID fh) with false in H by (symmetry; apply N.ltb_ge; auto).
  destruct (maxChainIDDiff s <? _); [injection H as <- _; reflexivity|].
  destruct (maxChainIDDiff s =? 0); [discriminate|].
  destruct (nth_error (pendingChains s) (N.to_nat (fChainID fh mod maxChainIDDiff s))) as [c|]; [|discriminate].
  destruct ((expected c =? 0) && _); [injection H as <- _; reflexivity|].
  destruct (chainMerge _ fh p) as [[c' o]|]; [|discriminate].
  assert (Hs : nth_error (setNth (pendingChains s) (N.to_nat (fChainID fh mod maxChainIDDiff s)) c') (N.to_nat (k mod maxChainIDDiff s)) =
               nth_error (pendingChains s) (N.to_nat (k mod maxChainIDDiff s))).
  { apply setNth_other. intros E. apply N2Nat.inj in E. apply Hne.
    apply (window_slots (lastRemoteChainID s) (maxChainIDDiff s)); auto. split; auto. }
  destruct o as [[m|]|e]; try (injection H as <- _; exact Hs).
  destruct (processIncomingMessage _ _ m) as [s3|] eqn:E; [|discriminate]. injection H as <- _.
  apply processIncomingMessage_chains in E. rewrite E. exact Hs.
Qed.
Print Assumptions C25_own_slot_partial.

(** Messages 1 and 9, MaxChainIDDiff 8: bytes of message 1 are delivered as part
    of message 9. *)
Theorem C25_alias_refuted :
  let m1 := repeat 1 200 in let m9 := repeat 9 200 in
  match framesOf 124 m1, framesOf 124 m9 with
  | [a1; b1], [a9; b9] =>
      outsOf (fragRun (fun _ => 7) (fun k => 200) exS (arrivals 9 [a9] ++ arrivals 1 [b1])) =
      [(9, []); (1, [EvHandler 7 (repeat 9 100 ++ repeat 1 100)])]
  | _, _ => False
  end.
Proof. vm_compute. reflexivity. Qed.
Print Assumptions C25_alias_refuted.

(** ** C26: bounded memory *)

Definition reassemblyBytes (s : rcv) : N := fold_right (fun c n => len (cdata c) + n) 0 (pendingChains s).

(** Whatever arrives, in whatever order, the reassembly buffers together never
    exceed MaxChainIDDiff * MaxFragmentedMessageSize. *)
Theorem C26_memory_bounded : forall maxDiff maxFrag detach ms qs detachFails errorOn input r,
  rdrOf (readerLoop detachFails errorOn (freshRdr (freshRcv maxDiff maxFrag detach ms qs)) input) = Some r ->
  reassemblyBytes (rS r) <= maxDiff * maxFrag.
Proof.
  intros maxDiff maxFrag detach ms qs df eo input r H.
  set (s0 := freshRcv maxDiff maxFrag detach ms qs) in *.
  set (P := fun s => memOk s /\ maxFragmentedMessageSize s = maxFrag /\ maxChainIDDiff s = maxDiff).
  assert (I : P (rS r)).
  { refine (readerLoop_inv P df eo _ _ _ input (freshRdr s0) r _ H).
    - intros s e [A B]. split; [exact A|exact B].
    - intros s st [A B]. split; [exact A|exact B].
    - intros s h m s' o [A [B C]] E. split; [eapply handleMsg_mem; eauto|].
      unfold handleMsg in E. destruct (handleOne s h m) as [[[s1 cnt] [nl|]]|] eqn:E1; [| |discriminate];
        apply handleOne_same in E1; destruct E1 as [(S1 & S2 & _) _].
      + destruct ((0 <? cnt) && _); [destruct (_ && answerAndWait s1)|]; injection E as <- _; cbn; split; congruence.
      + injection E as <- _. split; congruence.
    - unfold P, s0. cbn. split; [|auto]. split; cbn.
      + unfold len. rewrite repeat_length. lia.
      + apply Forall_forall. intros c Hc. apply repeat_spec in Hc. subst. unfold chainMem. cbn. lia. }
  destruct I as [[A B] [C D]]. unfold reassemblyBytes. rewrite <- D, <- C, <- A.
  clear - B. unfold chainMem in B. revert B. generalize (maxFragmentedMessageSize (rS r)) as M. intros M.
  induction (pendingChains (rS r)) as [|c l IH]; intros B; cbn [fold_right]; [lia|].
  inversion B as [|? ? [B1 _] B2]; subst. rewrite len_cons. specialize (IH B2). lia.
Qed.
Print Assumptions C26_memory_bounded.

Example C26_example : (* the bound is reached *)
  match fragRun (fun _ => 7) (fun _ => 100) (freshRcv 2 100 0 [(7, true)] [])
          (arrivals 2 [(0, [1])] ++ arrivals 1 [(0, [1])]) with
  | Ret (s, _) => reassemblyBytes s = 200
  | Panic => False
  end.
Proof. vm_compute. reflexivity. Qed.
