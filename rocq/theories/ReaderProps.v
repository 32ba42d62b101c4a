(** Properties C05, C06, C27, C28, C29: the receive path behind decryption. *)
From Coq Require Import NArith List Bool Lia Arith.
From Verif Require Import Base BaseLemmas MessageModel CodecSpec CodecProofs PendingChainModel
  ReaderModel ReaderLoopModel ReaderSpec ReaderProofs ReaderRun.
Import ListNotations.
Open Scope N_scope.

Lemma evsAll_route : forall s ms,
  evsAll s ms = map toEvent (flat_map (route (map fst (messengers s)) (readChans s)) ms).
Proof. intros. unfold evsAll, evsOf. rewrite !flat_map_concat_map, concat_map, map_map. reflexivity. Qed.

(** ** C05: batching is transparent *)

(** The content of a packet as the sender builds it (sendMessages and
    writeMessageAsync append header and payload of each message). *)
Definition senderContent (ms : list wireMsg) : bytes :=
  concat (map (fun m => encodeMsg (wType m) (wFlags m) (wPayload m)) ms).

Lemma senderContent_batch : forall ms, Forall wireMsg_ok ms -> senderContent ms = batchBytes ms.
Proof.
  unfold senderContent, batchBytes. induction 1; cbn [map concat]; auto.
  rewrite encodeMsg_wire, IHForall by auto. reflexivity.
Qed.

(** Recording the calls the parser makes. *)
Definition recorder (tr : list wireMsg) (h : msgHdr) (m : bytes) : outcome (list wireMsg * option N) :=
  Ret (tr ++ [{| wType := mType h; wFlags := mFlags h; wPayload := m |}], Some (mLength h)).
Definition noErr (tr : list wireMsg) (e : gerr) : list wireMsg := tr ++ [{| wType := 0; wFlags := 0; wPayload := [] |}].

(** Whatever is packed - any types, flags and payloads - the parser calls the
    treatment for exactly these messages in this order, reports no error, and
    ignores the padding behind the announced length. *)
Theorem C05_batch_transparent : forall ms padding, Forall wireMsg_ok ms ->
  let content := senderContent ms in
  runLoop noErr recorder [] (len content) (content ++ padding) = LoopEnd ms.
Proof.
  intros ms padding Hok content. unfold content. rewrite senderContent_batch by auto. unfold batchBytes.
  rewrite runLoop_batch; auto.
  - assert (G : forall ms tr, foldMsgs recorder tr ms = LoopEnd (tr ++ ms)).
    { clear. induction ms as [|m ms IH]; intros tr; cbn [foldMsgs recorder].
      - rewrite app_nil_r. reflexivity.
      - rewrite IH. cbn [hdrOf mType mFlags]. rewrite <- app_assoc. destruct m; reflexivity. }
    apply (G ms []).
  - intros s m s' n _ H. unfold recorder in H. injection H as _ <-. reflexivity.
Qed.
Print Assumptions C05_batch_transparent.

(** The same through the session itself (no message limit, unfragmented): the
    observable effect is exactly the routing of these messages, in order. *)
Theorem C05_batch_delivered : forall s ms padding, handlersReady s -> detachOnMessagesCount s = 0 ->
  Forall wireMsg_ok ms -> Forall isPlain ms ->
  exists s', processIncomingMessages s (len (senderContent ms)) (senderContent ms ++ padding) = LoopEnd s' /\
    rev (out s') = rev (out s) ++ map toEvent (flat_map (route (map fst (messengers s)) (readChans s)) ms) /\
    sameState s s'.
Proof.
  intros s ms padding H Hd Hok Hp. rewrite senderContent_batch, packet_fold by auto.
  pose proof (fold_nolimit ms s (receivedMessagesCount s) (sessState s) (out s) H Hd Hp) as E.
  rewrite upd_same in E. rewrite E.
  eexists. split; [reflexivity|]. split.
  - cbn [upd out]. rewrite rev_app_distr, rev_involutive. f_equal.
    apply evsAll_route.
  - unfold sameState, sameConf. cbn. auto 10.
Qed.
Print Assumptions C05_batch_delivered.

Example C05_example :
  let ms := [ {| wType := 7; wFlags := 1; wPayload := [1;2;3] |};
              {| wType := 2^32 - 4; wFlags := 0; wPayload := [] |};
              {| wType := 9; wFlags := 1; wPayload := [255] |} ] in
  let s := freshRcv 8 65536 0 [(7, true)] [2^32 - 4] in
  match processIncomingMessages s 31 (senderContent ms ++ [0;0;0]) with
  | LoopEnd s' => rev (out s') = [EvHandler 7 [1;2;3]; EvQueue (2^32 - 4) []]
  | _ => False
  end.
Proof. vm_compute. reflexivity. Qed.

(** ** C06: malformed content cannot crash the parser *)

(** For every content, every claimed length and every treatment of messages:
    the loop ends; it panics only if the treatment does; every byte string it
    hands over has the length its header announces and is a range of the
    received content below the claimed length. *)
Theorem C06_terminates : forall St onErr (handle : St -> msgHdr -> bytes -> outcome (St * option N)) s l content,
  runLoop onErr handle s l content <> LoopFuel.
Proof. intros. unfold runLoop. apply procLoop_no_fuel. unfold len. lia. Qed.
Print Assumptions C06_terminates.

Theorem C06_no_panic : forall St onErr (handle : St -> msgHdr -> bytes -> outcome (St * option N)) s l content,
  (forall s h m, handle s h m <> Panic) -> runLoop onErr handle s l content <> LoopPanic.
Proof. intros. unfold runLoop. apply procLoop_no_panic; auto. lia. Qed.
Print Assumptions C06_no_panic.

Theorem C06_inside : forall St onErr (handle : St -> msgHdr -> bytes -> outcome (St * option N)) s l content s' calls,
  runLoop (recErr onErr) (recording handle) (s, []) l content = LoopEnd (s', calls) ->
  Forall (fun c => len (snd c) = mLength (fst c) /\
                   inside content (N.to_nat (N.min (len content) l)) (snd c)) calls.
Proof.
  intros St onErr handle s l content s' calls H. unfold runLoop in H.
  assert (Hl : N.min (len content) l <= len content) by lia.
  destruct (calls_inside _ _ _ _ _ _ _ _ _ _ _ Hl H) as (c1 & E1 & F1).
  destruct (calls_disjoint _ (fun _ => False) onErr handle ltac:(intros ? ? ? ? ? []) _ _ _ _ _ _ _ _ Hl H) as (c2 & E2 & _ & F2).
  cbn [app] in E1, E2. subst. rewrite Forall_forall in *. auto.
Qed.
Print Assumptions C06_inside.

(** Full statement: the ranges handed over are pairwise disjoint and increasing,
    for every content. It is false of the code, see [C06_disjoint_refuted].
    Proved: it holds whenever no message of the packet carries the fragment flag. *)
Lemma handleMsg_keeps : keepsLength (fun h => isFragmented (mFlags h) = false) handleMsg.
Proof.
  intros s h m s' n Q H. unfold handleMsg, handleOne in H. rewrite Q in H. cbn zeta in H.
  match type of H with context [processIncomingMessage ?a ?b ?c] => destruct (processIncomingMessage a b c) end; [|discriminate].
  match type of H with (if ?b then _ else _) = _ => destruct b end.
  - match type of H with (if ?b then _ else _) = _ => destruct b end; discriminate.
  - injection H as _ <-. lia.
Qed.

Theorem C06_disjoint_partial : forall onErr s l content s' calls,
  runLoop (recErr onErr) (recording handleMsg) (s, []) l content = LoopEnd (s', calls) ->
  Forall (fun c => isFragmented (mFlags (fst c)) = false) calls ->
  disjoint_ranges content (N.to_nat (N.min (len content) l)) (map snd calls) 0.
Proof.
  intros onErr s l content s' calls H F. unfold runLoop in H.
  assert (Hl : N.min (len content) l <= len content) by lia.
  destruct (calls_disjoint _ _ onErr handleMsg handleMsg_keeps _ _ _ _ _ _ _ _ Hl H) as (c2 & E2 & D & _).
  cbn [app] in E2. subst. apply D. exact F.
Qed.
Print Assumptions C06_disjoint_partial.

(** The recorded run is the real run. *)
Theorem C06_recording_faithful : forall onErr s l content s' calls,
  runLoop (recErr onErr) (recording handleMsg) (s, []) l content = LoopEnd (s', calls) ->
  runLoop onErr handleMsg s l content = LoopEnd s'.
Proof.
  intros onErr s l content s' calls H. unfold runLoop in *.
  pose proof (recording_sim _ onErr handleMsg (length content) s [] content (N.min (len content) l) 0) as S.
  rewrite H in S. exact S.
Qed.
Print Assumptions C06_recording_faithful.

(** A one-fragment message of 30 bytes whose last bytes look like a header: the
    length of the reassembled message (30) overwrites the header's length (54),
    and the parser resumes inside the fragment it has just consumed. *)
Definition c06_content : bytes :=
  encodeMsg 7 3 (le_enc 8 1 ++ le_enc 8 0 ++ le_enc 8 30 ++ repeat 65 6 ++
                 [7;0;0;0; 15;0;0;0; 1] ++ repeat 66 15).
Definition c06_calls : list (msgHdr * bytes) :=
  match runLoop (recErr (fun s e => emit s (EvError e))) (recording handleMsg)
          (freshRcv 8 65536 0 [(7, true)] [], []) (len c06_content) c06_content with
  | LoopEnd (_, calls) => calls
  | _ => []
  end.
Definition c06_events : list event :=
  match processIncomingMessages (freshRcv 8 65536 0 [(7, true)] []) (len c06_content) c06_content with
  | LoopEnd s => rev (out s)
  | _ => []
  end.

(** The second delivered message lies inside the bytes of the first. *)
Theorem C06_disjoint_refuted :
  len c06_content = 63 /\
  map snd c06_calls = [range c06_content 9 54; range c06_content 48 15] /\
  c06_events = [EvHandler 7 (repeat 65 6 ++ [7;0;0;0; 15;0;0;0; 1] ++ repeat 66 15); EvHandler 7 (repeat 66 15)].
Proof. vm_compute. auto. Qed.
Print Assumptions C06_disjoint_refuted.

(** ** C27: undecryptable packets *)

(** Full statement for n > 0: for every sequence of packets (anything but read
    errors the user refuses to handle), the reader is still running iff no
    prefix has n undecryptable packets since the last accepted one; otherwise
    it stopped right at the packet completing the first such prefix, without
    looking at anything behind it. A panic in handling accepted content is the
    subject of C06/C23. *)
Theorem C27_detach_exactly : forall n errorOn s input, 0 < n ->
  isDoneState (sessState s) = false -> detachOnMessagesCount s = 0 ->
  Forall benign input -> N.of_nat (length input) < 2^64 ->
  match readerLoop n errorOn (freshRdr s) input with
  | RRunning r =>
      (forall pre post, input = pre ++ post -> N.of_nat (badSince (map verdictOf pre)) < n) /\
      rFails r = N.of_nat (badSince (map verdictOf input)) /\ sessState (rS r) = sessState s
  | RFinished r => sessState (rS r) = SessionStateClosed /\
      exists pre e post, input = pre ++ PktUndecryptable e :: post /\
        N.of_nat (badSince (map verdictOf (pre ++ [PktUndecryptable e]))) = n /\
        (forall pre' post', pre = pre' ++ post' -> N.of_nat (badSince (map verdictOf pre')) < n) /\
        (forall post', readerLoop n errorOn (freshRdr s) (pre ++ PktUndecryptable e :: post') = RFinished r)
  | RPanic => True
  | RFuel => False
  end.
Proof.
  intros n errorOn s input Hn Hst Hd Hb Hlen.
  pose proof (loop_bad n errorOn Hn input (freshRdr s) 0%nat Hst Hd Hb eq_refl Hn Hlen) as H.
  destruct (readerLoop n errorOn (freshRdr s) input) as [r|r| |]; auto.
  - destruct H as (H1 & H2 & H3). rewrite badFrom_since in H2. split; auto.
    intros pre post E. rewrite <- badFrom_since. eauto.
  - destruct H as (H0 & pre & e & post & H1 & H2 & H3 & H4). split; auto. exists pre, e, post.
    rewrite badFrom_since in H2. split; auto. split; auto. split; auto.
    intros pre' post' E. rewrite <- badFrom_since. eauto.
Qed.
Print Assumptions C27_detach_exactly.

(** Full statement for n = 0: undecryptable packets never end the session. The
    default configuration refutes it: the first one does. *)
Theorem C27_zero_means_never_refuted : forall errorOn s e rest,
  isDoneState (sessState s) = false ->
  exists r, readerLoop 0 errorOn (freshRdr s) (PktUndecryptable e :: rest) = RFinished r /\
            sessState (rS r) = SessionStateClosed.
Proof.
  intros errorOn s e rest H. rewrite readerLoop_cons. cbn [freshRdr rS]. rewrite H. unfold readerLoopDecryptError.
  cbn zeta. replace (0 <=? _) with true by (symmetry; apply N.leb_le; lia). cbn [negb].
  eexists. split; [reflexivity|]. reflexivity.
Qed.
Print Assumptions C27_zero_means_never_refuted.

Example C27_example :
  let s := freshRcv 8 65536 0 [(7, true)] [] in
  let bad := PktUndecryptable ErrCannotDecrypt in
  let good := PktAccepted 10 (encodeMsg 7 1 [5]) in
  match readerLoop 3 (Some 2) (freshRdr s) [bad; bad; good; bad; PktDuplicate; bad; RdEmpty] with
  | RRunning r => rFails r = 2 /\ rev (out (rS r)) = [EvError ErrCannotDecrypt; EvHandler 7 [5]; EvError ErrCannotDecrypt]
  | _ => False
  end /\
  match readerLoop 3 (Some 2) (freshRdr s) [bad; bad; good; bad; PktDuplicate; bad; RdEmpty; bad; good] with
  | RFinished r => rFails r = 3
  | _ => False
  end.
Proof. vm_compute. auto. Qed.

(** ** C28: DetachOnMessagesCount *)

(** Full statement: for every limit N > 0, every session state and every way of
    batching messages (fragmented or not) into packets, exactly the shortest
    prefix with N application messages is processed, then the session closes.
    It fails for fragments and while a key exchange is awaiting its answer, see
    below. Proved for unfragmented messages in any other state. *)
Theorem C28_detach_partial : forall detachFails errorOn s packets,
  handlersReady s -> isDoneState (sessState s) = false -> receivedMessagesCount s = 0 ->
  0 < detachOnMessagesCount s < 2^64 ->
  (sessState s <> SessionStateKeyExchanging \/ answerAndWait s = false) ->
  Forall (fun b => Forall wireMsg_ok (fst b) /\ Forall isPlain (fst b)) packets ->
  let n := N.to_nat (detachOnMessagesCount s) in
  let all := concat (map fst packets) in
  let seen ms := map toEvent (flat_map (route (map fst (messengers s)) (readChans s)) ms) in
  match readerLoop detachFails errorOn (freshRdr s) (map accepted packets) with
  | RRunning r => (appCount all < n)%nat /\ rev (out (rS r)) = rev (out s) ++ seen all /\
                  sessState (rS r) = sessState s
  | RFinished r => (n <= appCount all)%nat /\
                   rev (out (rS r)) = rev (out s) ++ seen (firstApp n all) ++ [EvClose] /\
                   sessState (rS r) = SessionStateClosed
  | _ => False
  end.
Proof.
  intros df eo s packets H Hst Hc [Hn0 Hn] Hk F n all seen.
  assert (Hseen : forall ms, rev (evsAll s ms) = rev (seen ms)).
  { intros ms. unfold seen, evsAll, evsOf. rewrite !flat_map_concat_map, concat_map, map_map. reflexivity. }
  assert (Hd : canDetach s (sessState s)).
  { unfold canDetach. destruct Hk as [Hk| ->]; [|apply andb_false_r].
    replace (sessState s =? SessionStateKeyExchanging) with false by (symmetry; apply N.eqb_neq; auto). reflexivity. }
  pose proof (loop_limit df eo packets s (n - 1)%nat (sessState s) (out s) 0 0 (receivedMessagesCount s) H Hd Hst Hn) as L.
  rewrite upd_same in L. unfold freshRdr. rewrite L by (auto; unfold n; lia). clear L.
  cbn zeta. fold all. destruct (appCount all <=? n - 1)%nat eqn:E.
  - apply Nat.leb_le in E. split; [unfold n in *; lia|]. cbn [rS upd out sessState].
    rewrite Hseen, rev_app_distr, rev_involutive. auto.
  - apply Nat.leb_gt in E. split; [lia|]. cbn [rS upd out sessState].
    replace (S (n - 1)) with n by (unfold n in *; lia). cbn [rev].
    rewrite Hseen, rev_app_distr, rev_involutive, <- app_assoc. auto.
Qed.
Print Assumptions C28_detach_partial.

(** The processed prefix really holds exactly n application messages. *)
Theorem C28_prefix_count : forall n ms, (n <= appCount ms)%nat ->
  appCount (firstApp n ms) = n /\ exists rest, ms = firstApp n ms ++ rest.
Proof.
  intros n ms. revert n. induction ms as [|m ms IH]; intros n Hn.
  - unfold appCount in Hn. cbn in Hn. replace n with 0%nat by lia. cbn. split; eauto.
  - destruct n as [|n]; [cbn; split; eauto|].
    rewrite appCount_cons in Hn. cbn [firstApp]. rewrite appCount_cons.
    destruct (isControl m).
    + destruct (IH (S n) Hn) as [A [r B]]. split; auto. exists r. cbn [app]. f_equal. exact B.
    + destruct (IH n ltac:(lia)) as [A [r B]]. split; [lia|]. exists r. cbn [app]. f_equal. exact B.
Qed.
Print Assumptions C28_prefix_count.

(** Limit 0: never closes for this reason, everything is processed. *)
Theorem C28_zero_means_never : forall detachFails errorOn s packets,
  handlersReady s -> isDoneState (sessState s) = false -> detachOnMessagesCount s = 0 ->
  Forall (fun b => Forall wireMsg_ok (fst b) /\ Forall isPlain (fst b)) packets ->
  exists r, readerLoop detachFails errorOn (freshRdr s) (map accepted packets) = RRunning r /\
    rev (out (rS r)) = rev (out s) ++
      map toEvent (flat_map (route (map fst (messengers s)) (readChans s)) (concat (map fst packets))).
Proof.
  intros df eo s packets H Hst Hd F. unfold freshRdr.
  pose proof (loop_nolimit df eo packets s (receivedMessagesCount s) (sessState s) (out s) 0 0 H Hd Hst F) as L.
  rewrite upd_same in L. rewrite L. eexists. split; [reflexivity|]. cbn [rS upd out].
  rewrite rev_app_distr, rev_involutive. f_equal. apply evsAll_route.
Qed.
Print Assumptions C28_zero_means_never.

Definition appMsg (x : N) : wireMsg := {| wType := 7; wFlags := 1; wPayload := [x] |}.
Definition ctlMsg (x : N) : wireMsg := {| wType := 2^32 - 3; wFlags := 0; wPayload := [x] |}.

Example C28_example :
  let s := freshRcv 8 65536 3 [(7, true); (2^32 - 3, true)] [] in
  match readerLoop 5 None (freshRdr s)
          (map accepted [([appMsg 1; ctlMsg 2], [9]); ([appMsg 3; ctlMsg 4; appMsg 5; appMsg 6], []); ([appMsg 7], [])]) with
  | RFinished r => rev (out (rS r)) =
      [EvHandler 7 [1]; EvHandler (2^32-3) [2]; EvHandler 7 [3]; EvHandler (2^32-3) [4]; EvHandler 7 [5]; EvClose]
  | _ => False
  end.
Proof. vm_compute. reflexivity. Qed.

(** While the key exchange awaits its answer (mode AnswerAndWait), reaching the
    limit drops the rest of the packet but the session goes on and processes
    more than N messages. *)
Theorem C28_key_exchanging_refuted :
  let s := setSessState (freshRcv 8 65536 1 [(7, true)] []) SessionStateKeyExchanging in
  match readerLoop 5 None (freshRdr s) (map accepted [([appMsg 1; appMsg 2], []); ([appMsg 3], [])]) with
  | RRunning r => rev (out (rS r)) = [EvHandler 7 [1]; EvHandler 7 [3]]
  | _ => False
  end.
Proof. vm_compute. reflexivity. Qed.
Print Assumptions C28_key_exchanging_refuted.

(** Each fragment counts as a message: with limit 2, a message cut in three is
    never delivered although it is the first one. *)
Definition fragMsg (t id pos total : N) (p : bytes) : wireMsg :=
  {| wType := t; wFlags := 3; wPayload := le_enc 8 id ++ le_enc 8 pos ++ le_enc 8 total ++ p |}.
Theorem C28_fragments_refuted :
  let s := freshRcv 8 65536 2 [(7, true)] [] in
  let pk := [([fragMsg 7 1 0 192 (repeat 1 64)], []); ([fragMsg 7 1 64 192 (repeat 2 64)], []);
             ([fragMsg 7 1 128 192 (repeat 3 64)], [])] in
  match readerLoop 5 None (freshRdr s) (map accepted pk) with
  | RFinished r => rev (out (rS r)) = [EvClose]
  | _ => False
  end.
Proof. vm_compute. reflexivity. Qed.
Print Assumptions C28_fragments_refuted.

(** ** C29: dispatch *)

(** Over any number of packets each message reaches the handler or queue of its
    own type, exactly once, in order of arrival; unclaimed types are dropped.
    In particular the messages of one type arrive as sent. *)
Theorem C29_dispatch : forall detachFails errorOn s packets,
  handlersReady s -> isDoneState (sessState s) = false -> detachOnMessagesCount s = 0 ->
  Forall (fun b => Forall wireMsg_ok (fst b) /\ Forall isPlain (fst b)) packets ->
  exists r, readerLoop detachFails errorOn (freshRdr s) (map accepted packets) = RRunning r /\
    rev (out (rS r)) = rev (out s) ++
      map toEvent (flat_map (route (map fst (messengers s)) (readChans s)) (concat (map fst packets))).
Proof. exact C28_zero_means_never. Qed.
Print Assumptions C29_dispatch.

(** Projection on one type. *)
Definition receivedBy (t : N) (es : list event) : list bytes :=
  flat_map (fun e => match e with
                     | EvHandler t' p => if t' =? t then [p] else []
                     | EvQueue t' p => if t' =? t then [p] else []
                     | _ => [] end) es.

Theorem C29_per_type : forall handlers queues ms t,
  receivedBy t (map toEvent (flat_map (route handlers queues) ms)) =
    if existsb (N.eqb t) (handlers ++ queues)
    then map wPayload (filter (fun m => wType m =? t) ms) else [].
Proof.
  intros handlers queues ms t. rewrite existsb_app. induction ms as [|m ms IH]; cbn [flat_map].
  - cbn. destruct (_ || _); reflexivity.
  - rewrite map_app. unfold receivedBy in *. rewrite flat_map_app, IH. clear IH.
    cbn [filter]. unfold route. destruct (wType m =? t) eqn:E.
    + apply N.eqb_eq in E. rewrite E. destruct (existsb (N.eqb t) handlers); cbn [orb].
      * cbn. rewrite N.eqb_refl. reflexivity.
      * destruct (existsb (N.eqb t) queues); cbn; [rewrite N.eqb_refl|]; reflexivity.
    + destruct (existsb (N.eqb (wType m)) handlers).
      * cbn. rewrite E. reflexivity.
      * destruct (existsb (N.eqb (wType m)) queues); cbn; rewrite ?E; reflexivity.
Qed.
Print Assumptions C29_per_type.

Example C29_example :
  receivedBy 7 (map toEvent (flat_map (route [7] [8]) [appMsg 1; ctlMsg 9; appMsg 2])) = [[1]; [2]].
Proof. reflexivity. Qed.
