(** Properties C38-C43, C79-C81: aggregation of messages ("send delay").

    A run is any list of labels: any interleaving of the steps of any number of
    writers, of the sender, of the timer, of Close and of cancellation. *)
From Coq Require Import NArith List Bool Lia Arith.
From Verif Require Import Base BaseLemmas TS MessageModel ReaderModel ReaderLoopModel BatchModel BatchProofs BatchRun BatchTrace.
Import ListNotations.
Local Open Scope N_scope.

(** What the backend was given, packet by packet, flattened. *)
Definition sent (s : bst) : list entry := flat_map (fun x => snd (fst x)) (bWire s).
(** What it was given successfully. *)
Definition delivered (s : bst) (e : entry) : Prop := exists h b, In (h, b, true) (bWire s) /\ In e b.
(** Messages put into the aggregation buffer, in order. *)
Definition accepted (s : bst) : list entry := map snd (bAccepted s).
(** The message of a write call as it goes into a packet. *)
Definition messageOf (t : N) (payload : bytes) : bytes := encodeMsg t (setIsConfidential 0 true) payload.

Notation runB est frag cap ls s := (exec (bstep est frag cap) initBatch ls = Some s).

(** Sample schedules. *)
Definition connected : list blabel := repeat (BSender FcGo) 5.
Definition put (w : nat) (p : bytes) : list blabel := [BWrite w 7 p; BCheck w FcGo; BTry w FcGo].
Definition flush : list blabel := [BFire; BTimer] ++ repeat (BSender FcGo) 7.

Lemma encodeMsg_len : forall t f p, len (encodeMsg t f p) = 9 + len p.
Proof.
  intros. unfold encodeMsg. destruct (hdrWrite _ _) as [[n h]|e] eqn:E; [|discriminate].
  rewrite len_app. f_equal. vm_compute in E. injection E as _ <-. reflexivity.
Qed.

Lemma in_sent : forall s e, In e (sent s) <-> exists h b ok, In (h, b, ok) (bWire s) /\ In e b.
Proof.
  intros s e. unfold sent. rewrite in_flat_map. split.
  - intros [[[h b] ok] [H1 H2]]. eauto 6.
  - intros (h & b & ok & H1 & H2). exists (h, b, ok). auto.
Qed.

Lemma subseq_flat : forall A B (f : A -> list B) a b, subseq a b -> subseq (flat_map f a) (flat_map f b).
Proof.
  intros A B f a b H. induction H; cbn.
  - constructor.
  - induction (f x); cbn; [auto|]. apply ss_take. auto.
  - apply subseq_app_l. auto.
Qed.

Lemma subseq_trans_app : forall A (a b c : list A), subseq a b -> subseq a (b ++ c).
Proof. intros. apply subseq_app_r. auto. Qed.

Lemma accepted_eq : forall est cap s, binv est cap s -> accepted s = flat_map snd (bSwaps s) ++ bBuf s.
Proof.
  intros est cap s B. unfold accepted. rewrite (a_acc _ _ _ (v_core _ _ _ B)), map_app. f_equal.
  - induction (bSwaps s) as [|[h b] l IH]; auto. cbn [flat_map]. rewrite map_app, IH. unfold tagged. rewrite map_map. cbn. rewrite map_id. reflexivity.
  - unfold tagged. rewrite map_map. cbn. apply map_id.
Qed.

Lemma sent_eq : forall s, sent s = flat_map snd (map fst (bWire s)).
Proof. intros s. unfold sent. induction (bWire s) as [|x l IH]; cbn; auto. rewrite IH. reflexivity. Qed.

Lemma swaps_in_accepted : forall est cap s h b e, binv est cap s -> In (h, b) (bSwaps s) -> In e b -> In (h, e) (bAccepted s).
Proof.
  intros est cap s h b e B H1 H2. rewrite (a_acc _ _ _ (v_core _ _ _ B)). apply in_or_app. left. apply in_flat_map.
  exists (h, b). split; auto. unfold tagged. cbn. apply in_map_iff. exists e. auto.
Qed.

Lemma accepted_where : forall est cap s h e, binv est cap s -> In (h, e) (bAccepted s) ->
  (exists b, In (h, b) (bSwaps s) /\ In e b) \/ (h = bCur s /\ In e (bBuf s)).
Proof.
  intros est cap s h e B H. rewrite (a_acc _ _ _ (v_core _ _ _ B)) in H. apply in_app_iff in H. destruct H as [H|H].
  - apply in_flat_map in H. destruct H as [[k b] [K1 K2]]. unfold tagged in K2. apply in_map_iff in K2. destruct K2 as [x [K2 K3]].
    cbn in K2, K3. injection K2 as <- <-. left. eauto.
  - unfold tagged in H. apply in_map_iff in H. destruct H as [x [K2 K3]]. cbn in K2, K3. injection K2 as <- <-. auto.
Qed.

Lemma same_call : forall est cap s h1 h2 e1 e2, binv est cap s -> In (h1, e1) (bAccepted s) -> In (h2, e2) (bAccepted s) ->
  eW e1 = eW e2 -> h1 = h2 /\ e1 = e2.
Proof.
  intros est cap s h1 h2 e1 e2 B H1 H2 E.
  assert (K := NoDup_map_inj _ _ _ _ _ _ (w_once _ (v_w _ _ _ B)) H1 H2 E). injection K as <- <-. auto.
Qed.

(** ** C41: aggregation neither loses, duplicates nor reorders messages *)

(** Under every schedule, including failing writes and Close: the packets carry
    accepted messages only, in the order of acceptance, and each write call is
    accepted, hence sent, at most once. *)
Theorem C41_ordered_once : forall est frag cap ls s, est + 53 < 2^32 -> runB est frag cap ls s ->
  subseq (sent s) (accepted s) /\ NoDup (map eW (accepted s)) /\
  forall e, In e (accepted s) -> exists t p, In (BWrite (eW e) t p) ls /\ eMsg e = messageOf t p.
Proof.
  intros est frag cap ls s He H. pose proof (run_binv _ _ _ _ _ He H) as B. split; [|split].
  - rewrite (accepted_eq _ _ _ B), sent_eq. apply subseq_app_r. apply subseq_flat.
    pose proof (v_ord _ _ _ B) as O. unfold ord in O. destruct (inflight (lf s)); auto.
    destruct O as (l1 & l2 & -> & O). apply subseq_app_r. exact O.
  - unfold accepted. rewrite map_map. apply (w_once _ (v_w _ _ _ B)).
  - intros [w m] K. unfold accepted in K. apply in_map_iff in K. destruct K as [[h e] [K1 K2]]. cbn in K1. subst e.
    destruct (t_acc _ _ (run_hist _ _ _ _ _ H) _ _ _ K2) as (t & p & A1 & _ & A2). exists t, p. auto.
Qed.
Print Assumptions C41_ordered_once.

(** While the session is established nothing is skipped: what was sent is a
    prefix of what was accepted, and the rest is in the flush under way or in
    the buffer. *)
Theorem C41_prefix : forall est frag cap ls s, est + 53 < 2^32 -> runB est frag cap ls s -> bState s = SessionStateEstablished ->
  exists flushing, accepted s = sent s ++ flushing ++ bBuf s /\
    (flushing = [] \/ exists h f, (bLoop s = LConn f \/ exists from, bLoop s = LFlush from f) /\ (f = FSend h flushing \/ f = FWrite h flushing)).
Proof.
  intros est frag cap ls s He H Hst. pose proof (run_binv _ _ _ _ _ He H) as B. exists (flat_map snd (inflight (lf s))). split.
  - rewrite (accepted_eq _ _ _ B), sent_eq, app_assoc. f_equal.
    pose proof (v_exact _ _ _ B Hst) as E. unfold exact in E.
    assert (N1 : forall l, flat_map snd (nonempty l) = flat_map snd l).
    { induction l as [|[h b] l IH]; auto. destruct b; cbn; auto. rewrite <- IH. reflexivity. }
    rewrite <- (N1 (bSwaps s)), E, flat_map_app, N1. reflexivity.
  - unfold lf. destruct (bLoop s) as [f| |from f|from id|h|]; auto; destruct f as [|n|h b|h b|h b|h b]; auto; right; exists h; cbn; rewrite app_nil_r; eauto 8.
Qed.
Print Assumptions C41_prefix.

(** And the sender and its timer on their own (no step of a writer is needed,
    backend writes succeed) bring everything accepted so far to the backend and
    finish all the handles given out: from every state of an undisturbed
    session. *)
Theorem C41_everything_is_sent : forall est frag cap ls s, est + 53 < 2^32 -> est + 9 <= cap ->
  exec (cstep est frag cap) initBatch ls = Some s ->
  exists ls' s', Forall senderLabel ls' /\ exec (bstep est frag cap) s ls' = Some s' /\
    sent s' = accepted s /\ (exists l, bWire s' = bWire s ++ l /\ forall x, In x l -> snd x = true) /\
    forall w h, bW s w = WWait h -> hFrag (bH s' h) = false ->
      exists s'' r, bstep est frag cap s' (BReturn w false) = Some s'' /\ bW s'' w = WRet h r false.
Proof.
  intros est frag cap ls s He Hc H. destruct (run_calm _ _ _ _ _ He Hc H) as [B O].
  destruct (drive_run est frag cap s B O He Hc) as (ls' & s' & R1 & R2 & B' & O' & Q & A & W & L).
  destruct (quiet_all _ _ _ B' O' Q) as [Q1 Q2].
  assert (R3 : forall l a b, exec (cstep est frag cap) a l = Some b -> exec (bstep est frag cap) a l = Some b).
  { induction l as [|x l IH]; intros a b; cbn [exec]; auto. unfold cstep at 1. destruct (calm a x); [|discriminate].
    destruct (bstep est frag cap a x); [auto|discriminate]. }
  exists ls', s'. split; [exact R1|]. split; [exact (R3 _ _ _ R2)|]. split; [unfold sent, accepted; rewrite <- Q1, A; reflexivity|].
  split; [exact L|]. intros w h Hw Hf. rewrite <- W in Hw.
  assert (D : hDone (bH s' h) = true) by (apply (Q2 w); auto; rewrite Hw; reflexivity).
  unfold bstep. rewrite (o_panic _ O'), Hw, D. do 2 eexists. split; [reflexivity|]. bcbn. apply fupd_same.
Qed.
Print Assumptions C41_everything_is_sent.

Example C41_example :
  match exec (bstep 100 false 153) initBatch
          (connected ++ put 0 [1; 2] ++ [BWrite 1 8 [3]] ++ put 2 [4] ++ flush ++ [BCheck 1 FcGo; BTry 1 FcGo] ++ flush) with
  | Some s => map (fun x => (map eW (snd (fst x)), snd x)) (bWire s) = [([0; 2]%nat, true); ([1]%nat, true)] /\ bBuf s = []
  | None => False
  end.
Proof. vm_compute. auto. Qed.

(** ** C42: packets never exceed the negotiated size *)

(** 44: container header; 53 = 44 + 9. *)
Theorem C42_aggregated : forall est frag cap ls s, est + 53 < 2^32 -> runB est frag cap ls s ->
  (forall h b ok, In (h, b, ok) (bWire s) -> 44 + batchLen b <= est + 53) /\ 44 + batchLen (bBuf s) <= est + 53 /\ batchLen (bBuf s) <= cap.
Proof.
  intros est frag cap ls s He H. pose proof (run_binv _ _ _ _ _ He H) as B. destruct (v_sizes _ _ _ B) as [[S1 S2] S3].
  split; [|split]; auto. intros h b ok K. apply (a_wire _ _ _ (v_core _ _ _ B)) in K. apply (S3 _ _ K).
Qed.
Print Assumptions C42_aggregated.

(** With buffers of the capacity the session makes (payload limit + 53), the
    slice expression of appendToDelayedWriteBuffer never goes beyond it. *)
Theorem C42_no_overflow : forall est frag cap ls s w c s', est + 53 < 2^32 -> est + 9 <= cap -> runB est frag cap ls s ->
  bstep est frag cap s (BTry w c) = Some s' -> bPanic s' = false.
Proof.
  intros est frag cap ls s w c s' He Hc H Hs. unfold bstep in Hs. destruct (bPanic s) eqn:P; [discriminate|].
  destruct (bW s w) eqn:Ew; try discriminate. destruct (estSeen est s c) as [e|] eqn:Ee; [|discriminate].
  assert (e <= est).
  { unfold estSeen in Ee. destruct c; try (injection Ee as <-; lia). destruct (_ && _); [injection Ee as <-; lia|discriminate]. }
  rewrite packetSizeOf_small in Hs by lia. unfold messagesContainerHeadersSize in Hs.
  destruct (N.ltb_spec (e + 53) (44 + batchLen (bBuf s) + len m)).
  - destruct (bBuf s); injection Hs as <-; exact P.
  - destruct (N.ltb_spec cap (batchLen (bBuf s) + len m)); [lia|]. injection Hs as <-. exact P.
Qed.
Print Assumptions C42_no_overflow.

(** The largest message fits exactly; one more byte of anything does not. *)
Example C42_example :
  match exec (bstep 100 false 153) initBatch (connected ++ put 0 (repeat 0 60) ++ put 1 (repeat 0 31) ++ put 2 []) with
  | Some s => batchLen (bBuf s) = 109 /\ bW s 2%nat = WFull (messageOf 7 []) 2
  | None => False
  end.
Proof. vm_compute. auto. Qed.

(** ** C43: oversized messages are refused as a whole *)

(** With the real length, not the truncated one the first check looks at. *)
Theorem C43_too_big_never_sent : forall est frag cap ls s w t p, est + 53 < 2^32 -> runB est frag cap ls s ->
  In (BWrite w t p) ls -> est < len p -> forall e, In e (accepted s) -> eW e <> w.
Proof.
  intros est frag cap ls s w t p He H Hin Hbig [w' m] K E. cbn in E. subst w'.
  pose proof (run_binv _ _ _ _ _ He H) as B. pose proof (run_hist _ _ _ _ _ H) as T.
  unfold accepted in K. apply in_map_iff in K. destruct K as [[h e] [K1 K2]]. cbn in K1. subst e.
  destruct (t_acc _ _ T _ _ _ K2) as (t' & p' & A1 & A2 & A3). destruct (t_once _ _ T _ _ _ _ _ Hin A1) as [<- <-].
  assert (L : forall b, In {| eW := w; eMsg := m |} b -> len m <= batchLen b).
  { induction b as [|x b IH]; [intros []|]. change (x :: b) with ([x] ++ b). rewrite batchLen_app. intros [J|J].
    - subst x. unfold batchLen at 1. cbn [map concat eMsg]. rewrite app_nil_r. lia.
    - specialize (IH J). lia. }
  assert (M : len m = 9 + len p).
  { rewrite A3. apply encodeMsg_len. }
  destruct (v_sizes _ _ _ B) as [[S1 _] S3].
  destruct (accepted_where _ _ _ _ _ B K2) as [(b & J1 & J2)|[_ J2]].
  - specialize (L _ J2). destruct (S3 _ _ J1). lia.
  - specialize (L _ J2). lia.
Qed.
Print Assumptions C43_too_big_never_sent.

(** Without fragmentation such a call ends with the error, at once when its
    length is below 2^32. *)
Theorem C43_refused : forall est cap s w t p, bPanic s = false -> bW s w = WIdle -> isInternal t = false -> est < len p -> len p < 2^32 ->
  exists s', bstep est false cap s (BWrite w t p) = Some s' /\ bW s' w = WRefused ErrPayloadTooBig /\
    bBuf s' = bBuf s /\ bWire s' = bWire s.
Proof.
  intros est cap s w t p Hp Hw Ht H1 H2. unfold bstep. rewrite Hp, Hw, Ht. unfold u32. rewrite N.mod_small by lia.
  destruct (N.ltb_spec est (len p)); [|lia]. eexists. split; [reflexivity|]. bcbn. rewrite fupd_same. auto.
Qed.
Print Assumptions C43_refused.

(** Full statement: a message of at most the established payload size is never
    refused for its size. False: once the session is closed the established size
    reads as 0, and the writer is told that its message is too big. *)
Theorem C43_small_refused_refuted : exists ls s, runB 100 false 153 ls s /\ In (BWrite 0 7 [1]) ls /\ bW s 0%nat = WRefused ErrPayloadTooBig.
Proof.
  exists (connected ++ [BWrite 0 7 [1]; BCheck 0 FcGo; BCancel; BSetClosing; BSetClosed; BTry 0 FcZero]). eexists.
  split; [vm_compute; reflexivity|]. split; [|reflexivity]. vm_compute. auto 10.
Qed.
Print Assumptions C43_small_refused_refuted.

(** True as long as the context is not cancelled. *)
Lemma ctx_stays : forall est frag cap s l s', bCtx s = true -> bstep est frag cap s l = Some s' -> bCtx s' = true.
Proof.
  intros est frag cap s l s' Hd H. unfold bstep in H. destruct (bPanic s); [discriminate|].
  destruct l; rewrite ?Hd in H; try discriminate;
  repeat (match type of H with
          | match bLoop s with _ => _ end = _ => destruct (bLoop s)
          | match (fstep ?e ?a ?b ?c) with _ => _ end = _ => let E := fresh in destruct (fstep e a b c) as [[? ?]|] eqn:E; [apply fstep_w in E; decompose [and] E|]
          | match ?x with _ => _ end = _ => destruct x
          end; try discriminate); inv_some; bcbn; try congruence; try reflexivity; try exact Hd;
  try (destruct (Nat.ltb _ _); bcbn; auto).
Qed.

Theorem C43_small_accepted_partial : forall est frag cap ls s w t p, est + 53 < 2^32 -> runB est frag cap ls s ->
  In (BWrite w t p) ls -> len p <= est -> bCtx s = false -> bW s w <> WRefused ErrPayloadTooBig.
Proof.
  intros est frag cap ls s w t p He H Hin Hp. revert Hin.
  assert (G : In (BWrite w t p) ls -> bCtx s = false -> bW s w <> WRefused ErrPayloadTooBig); [|exact G].
  revert ls s H. apply (exec_history _ _ _ (fun ls s => In (BWrite w t p) ls -> bCtx s = false -> bW s w <> WRefused ErrPayloadTooBig)); [intros []|].
  intros ls s l s' Hr IH Hs Hin Hc.
  assert (Hc0 : bCtx s = false) by (destruct (bCtx s) eqn:E; auto; rewrite (ctx_stays _ _ _ _ _ _ E Hs) in Hc; discriminate).
  pose proof (run_hist _ _ _ _ _ Hr) as T.
  assert (Step : bW s' w = bW s w \/ bW s' w <> WRefused ErrPayloadTooBig).
  { pose proof (step_smove _ _ _ _ _ _ Hs) as (M1 & M2 & M3). unfold bstep in Hs. destruct (bPanic s); [discriminate|].
    destruct l;
    try (match type of Hs with context [bW s ?k] => destruct (Nat.eq_dec w k) as [<-|Hne];
         [|left; repeat (match type of Hs with match ?x with _ => _ end = _ => destruct x end; try discriminate); inv_some; unfold receive; bcbn;
           rewrite ?fupd_other by auto; reflexivity] end).
    - (* BWrite *) right. destruct (bW s w) eqn:Ew; try discriminate. 
      assert (t0 = t /\ payload = p) as [-> ->].
      { apply in_app_iff in Hin. destruct Hin as [K|[K|[]]]; [destruct (t_idle _ _ T w t p Ew K)|injection K as -> ->; auto]. }
      destruct (isInternal t); [discriminate|]. unfold u32 in Hs. rewrite N.mod_small in Hs by lia.
      destruct (N.ltb_spec est (len p)); [lia|]. inv_some. bcbn. rewrite fupd_same. discriminate.
    - right. destruct (bW s w); try discriminate. destruct c; try discriminate; [|destruct (_ && _); [|discriminate]]; inv_some; bcbn; rewrite fupd_same; discriminate.
    - right. destruct (bW s w) eqn:Ew; try discriminate. destruct (estSeen est s c) as [e|] eqn:Ee; [|discriminate].
      assert (e = est).
      { unfold estSeen in Ee. destruct c; try (injection Ee as <-; reflexivity). rewrite Hc0, andb_false_r in Ee. discriminate. }
      subst e. rewrite packetSizeOf_small in Hs by lia. unfold messagesContainerHeadersSize in Hs.
      assert (M : len m = 9 + len p).
      { destruct (t_pend _ _ T w m ltac:(rewrite Ew; reflexivity)) as (t' & p' & A1 & A2 & A3).
        assert (Hin' : In (BWrite w t p) ls) by (apply in_app_iff in Hin; destruct Hin as [K|[K|[]]]; [auto|discriminate]).
        destruct (t_once _ _ T _ _ _ _ _ Hin' A1) as [<- <-]. rewrite A3. apply encodeMsg_len. }
      destruct (N.ltb_spec (est + 53) (44 + batchLen (bBuf s) + len m)).
      + destruct (bBuf s); [change (batchLen []) with 0 in *; lia|]. inv_some. bcbn. rewrite fupd_same. discriminate.
      + destruct (_ <? _); inv_some; bcbn; rewrite ?fupd_same, ?Ew; discriminate.
    - right. destruct (bW s w); try discriminate. destruct (bNowClosed s); [discriminate|].
      destruct delivered0; [destruct (atSelect s); [|discriminate]|]; inv_some; unfold receive; bcbn; rewrite fupd_same; discriminate.
    - right. destruct (bW s w); try discriminate. destruct (_ || _); [|discriminate]; inv_some; bcbn; rewrite fupd_same; discriminate.
    - right. destruct (bW s w); try discriminate. inv_some; bcbn; rewrite fupd_same; destruct (isDoneState _); discriminate.
    - destruct (bW s w) eqn:Ew; try discriminate. right.
      destruct c; [destruct (bCtx s); [|discriminate]|destruct (hDone _); [|discriminate]|destruct (bBuf s); [|discriminate]|
         destruct (bBuf s); [discriminate|]; destruct (atSelect s); [|discriminate]]; inv_some; unfold receive; bcbn; rewrite ?fupd_same, ?Ew; discriminate.
    - right. destruct (bW s w); try discriminate. inv_some; bcbn; rewrite fupd_same; discriminate.
    - right. destruct (bW s w); try discriminate. inv_some; bcbn; rewrite fupd_same; discriminate.
    - right. destruct (bW s w) eqn:Ew; try discriminate. destruct (bNowClosed s); [inv_some; bcbn; rewrite Ew; discriminate|].
      destruct (atSelect s); [|discriminate]; inv_some; unfold receive; bcbn; rewrite fupd_same; discriminate.
    - right. destruct (bW s w); try discriminate. destruct (if viaCtx then _ else _); [|discriminate]. inv_some; bcbn; rewrite fupd_same; discriminate.
    - left. destruct (M1 w) as [E|[_ [(t' & p' & E & _)|[_ _]]]]; auto; try discriminate.
      destruct (_ && _); [|discriminate]. inv_some. reflexivity.
    - left. destruct (bTimer s); try discriminate. inv_some. reflexivity.
    - left. destruct (bLoop s); try discriminate. destruct (bTimer s); try discriminate. inv_some. reflexivity.
    - left. destruct (bLoop s); try discriminate. destruct (bCtx s); [|discriminate]. inv_some. reflexivity.
    - left. destruct (bLoop s) as [f| |from f|from id|h|]; try discriminate.
      + destruct f; try (match type of Hs with match ?x with _ => _ end = _ => destruct x as [[s1 f']|] eqn:Ex end; [|discriminate]; inv_some;
          apply fstep_w in Ex; destruct Ex as [Ex _]; bcbn; rewrite Ex; reflexivity).
        destruct c; try discriminate. inv_some. reflexivity.
      + destruct f; try (match type of Hs with match ?x with _ => _ end = _ => destruct x as [[s1 f']|] eqn:Ex end; [|discriminate]; inv_some;
          apply fstep_w in Ex; destruct Ex as [Ex _]; bcbn; rewrite Ex; reflexivity).
        destruct c; try discriminate. inv_some. reflexivity.
      + destruct c; try discriminate. inv_some. destruct (Nat.ltb _ _); reflexivity.
      + destruct c; try discriminate. destruct (_ || _); inv_some; reflexivity.
    - left. destruct (isDoneState _); [discriminate|]. inv_some. reflexivity.
    - left. destruct (bCloser s) as [|f| |]; try discriminate.
      + destruct f; try (match type of Hs with match ?x with _ => _ end = _ => destruct x as [[s1 f']|] eqn:Ex end; [|discriminate]; inv_some;
          apply fstep_w in Ex; destruct Ex as [Ex _]; bcbn; rewrite Ex; reflexivity).
        destruct c; try discriminate. inv_some. reflexivity.
      + destruct c; try discriminate. inv_some. reflexivity.
    - left. destruct (isDoneState _); [discriminate|]. inv_some. reflexivity.
    - left. destruct (bCtx s); [discriminate|]. inv_some. reflexivity.
    - left. destruct (_ && _); [|discriminate]. inv_some. reflexivity. }
  destruct Step as [E|E]; auto. rewrite E. destruct (bW s w) eqn:Ew; try discriminate.
  apply IH; auto.
  apply in_app_iff in Hin. destruct Hin as [K|[K|[]]]; auto. subst l. 
  destruct (step_smove _ _ _ _ _ _ Hs) as (_ & _ & M3). destruct (M3 _ _ _ eq_refl) as [M _]. congruence.
Qed.
Print Assumptions C43_small_accepted_partial.

Example C43_example :
  match exec (bstep 4 false 57) initBatch (connected ++ put 0 [1; 2; 3; 4] ++ [BWrite 1 7 [1; 2; 3; 4; 5]]) with
  | Some s => map eW (accepted s) = [0%nat] /\ bW s 1%nat = WRefused ErrPayloadTooBig
  | None => False
  end.
Proof. vm_compute. auto. Qed.

(** ** C39: a successful Write means the data was handed to the backend *)

(** Full statement: [WriteMessage] returns nil only if a packet with the message
    was successfully written. False: [Wait] also ends when the context is
    cancelled, and the error is not set then. Here a Close arrives between the
    check of the state and the append; the writer gets success, and its message
    is never sent (nobody will flush the buffer any more). *)
Definition lateAppend : list blabel :=
  connected ++ [BWrite 0 7 [1; 2]; BCheck 0 FcGo; BClose] ++ repeat (BCloser FcGo) 6 ++ [BStop; BTry 0 FcGo; BWait 0; BReturn 0 true].

Theorem C39_nil_without_sending_refuted :
  exists ls s h, runB 100 false 153 ls s /\ bW s 0%nat = WRet h None true /\ hFrag (bH s h) = false /\
    (exists e, In (h, e) (bAccepted s) /\ eW e = 0%nat) /\ bWire s = [].
Proof.
  exists lateAppend. do 2 eexists. split; [vm_compute; reflexivity|]. split; [vm_compute; reflexivity|]. split; [reflexivity|].
  split; [|reflexivity]. eexists. split; [left; reflexivity|reflexivity].
Qed.
Print Assumptions C39_nil_without_sending_refuted.

Lemma returned_batch : forall est frag cap ls s w h r, est + 53 < 2^32 -> runB est frag cap ls s ->
  bW s w = WRet h r false -> hFrag (bH s h) = false ->
  exists m b, In (h, b) (bSwaps s) /\ In {| eW := w; eMsg := m |} b /\ asked ls w m /\ r = hErr (bH s h) /\
    (r = None -> In (h, b, true) (bWire s)) /\ (r <> None -> forall b', ~ In (h, b', true) (bWire s)).
Proof.
  intros est frag cap ls s w h r He H Hw Hf. pose proof (run_binv _ _ _ _ _ He H) as B. pose proof (v_core _ _ _ B) as C.
  destruct (w_ret _ (v_w _ _ _ B) w h r Hw) as [D ->].
  destruct (w_hold _ (v_w _ _ _ B) w h ltac:(rewrite Hw; reflexivity)) as [_ [K|[m K]]]; [congruence|].
  exists m. destruct (accepted_where _ _ _ _ _ B K) as [(b & J1 & J2)|[J _]].
  2:{ subst h. destruct (a_cur _ _ _ C) as [_ E]. rewrite E in D. discriminate. }
  exists b. split; [exact J1|]. split; [exact J2|]. split; [exact (t_acc _ _ (run_hist _ _ _ _ _ H) _ _ _ K)|]. split; [reflexivity|].
  assert (S : settled s h b).
  { destruct (a_done _ _ _ C h b J1) as [[_ S]|[O|O]]; auto; exfalso.
    - assert (F := a_f _ _ _ C). destruct (lf s) as [|n|k x|k x|k x|k x]; cbn [owned fok] in O, F; try discriminate; injection O as ->.
      + destruct F as (_ & _ & _ & F). rewrite F in D. discriminate.
      + destruct F as (_ & F & _). rewrite F in D. discriminate.
      + destruct F as (_ & F & _). rewrite F in D. discriminate.
      + destruct F as (_ & F & _). congruence.
    - assert (F := a_g _ _ _ C). destruct (cf s) as [|n|k x|k x|k x|k x]; cbn [owned fok] in O, F; try discriminate; injection O as ->.
      + destruct F as (_ & _ & _ & F). rewrite F in D. discriminate.
      + destruct F as (_ & F & _). rewrite F in D. discriminate.
      + destruct F as (_ & F & _). rewrite F in D. discriminate.
      + destruct F as (_ & F & _). congruence. }
  destruct S as [S1 S2]. split; [|exact S2]. intros E. destruct (S1 E) as [->|]; [destruct J2|assumption].
Qed.

(** True when the wait did not end by cancellation: the packet that carries the
    caller's message was written, successfully. *)
Theorem C39_sent_partial : forall est frag cap ls s w t p h, est + 53 < 2^32 -> runB est frag cap ls s -> In (BWrite w t p) ls ->
  bW s w = WRet h None false -> hFrag (bH s h) = false -> delivered s {| eW := w; eMsg := messageOf t p |}.
Proof.
  intros est frag cap ls s w t p h He H Hin Hw Hf.
  destruct (returned_batch _ _ _ _ _ _ _ _ He H Hw Hf) as (m & b & J1 & J2 & (t' & p' & A1 & _ & A2) & J4 & J5 & _).
  destruct (t_once _ _ (run_hist _ _ _ _ _ H) _ _ _ _ _ Hin A1) as [<- <-]. exists h, b. subst m. auto.
Qed.
Print Assumptions C39_sent_partial.

Example C39_example :
  match exec (bstep 100 false 153) initBatch (connected ++ put 0 [1; 2] ++ [BWait 0] ++ flush ++ [BReturn 0 false]) with
  | Some s => bW s 0%nat = WRet 2 None false /\ bWire s = [(2%nat, [{| eW := 0; eMsg := messageOf 7 [1; 2] |}], true)]
  | None => False
  end.
Proof. vm_compute. auto. Qed.

(** ** C40: outcomes of a batch *)

(** A call that waited to the end gets nil exactly if the packet with its
    message was written successfully. *)
Theorem C40_own_outcome : forall est frag cap ls s w h r, est + 53 < 2^32 -> runB est frag cap ls s ->
  bW s w = WRet h r false -> hFrag (bH s h) = false ->
  (r = None <-> exists e, eW e = w /\ delivered s e).
Proof.
  intros est frag cap ls s w h r He H Hw Hf. pose proof (run_binv _ _ _ _ _ He H) as B.
  destruct (returned_batch _ _ _ _ _ _ _ _ He H Hw Hf) as (m & b & J1 & J2 & _ & J4 & J5 & J6). split.
  - intros E. exists {| eW := w; eMsg := m |}. split; [reflexivity|]. exists h, b. auto.
  - intros (e & E1 & h' & b' & E2 & E3). destruct r as [x|]; auto. exfalso.
    assert (K1 : In (h', e) (bAccepted s)) by (eapply swaps_in_accepted; eauto; apply (a_wire _ _ _ (v_core _ _ _ B) _ _ _ E2)).
    assert (K2 : In (h, {| eW := w; eMsg := m |}) (bAccepted s)) by (eapply swaps_in_accepted; eauto).
    destruct (same_call _ _ _ _ _ _ _ B K1 K2 E1) as [-> _]. apply (J6 ltac:(discriminate) b' E2).
Qed.
Print Assumptions C40_own_outcome.

(** Calls whose messages travelled together get the same result, and if the
    write of their packet failed they all get an error. *)
Theorem C40_same_outcome : forall est frag cap ls s h b ok e1 e2 w1 w2 h1 h2 r1 r2, est + 53 < 2^32 -> runB est frag cap ls s ->
  In (h, b, ok) (bWire s) -> In e1 b -> In e2 b -> eW e1 = w1 -> eW e2 = w2 ->
  bW s w1 = WRet h1 r1 false -> bW s w2 = WRet h2 r2 false -> hFrag (bH s h1) = false -> hFrag (bH s h2) = false ->
  r1 = r2 /\ (ok = true <-> r1 = None).
Proof.
  intros est frag cap ls s h b ok e1 e2 w1 w2 h1 h2 r1 r2 He H Hb H1 H2 W1 W2 R1 R2 F1 F2.
  pose proof (run_binv _ _ _ _ _ He H) as B.
  destruct (returned_batch _ _ _ _ _ _ _ _ He H R1 F1) as (m1 & b1 & J1 & J2 & _ & J4 & J5 & J6).
  destruct (returned_batch _ _ _ _ _ _ _ _ He H R2 F2) as (m2 & b2 & K1 & K2 & _ & K4 & K5 & K6).
  assert (Sw := a_wire _ _ _ (v_core _ _ _ B) _ _ _ Hb).
  assert (A1 := swaps_in_accepted _ _ _ _ _ _ B Sw H1). assert (A2 := swaps_in_accepted _ _ _ _ _ _ B Sw H2).
  assert (A3 := swaps_in_accepted _ _ _ _ _ _ B J1 J2). assert (A4 := swaps_in_accepted _ _ _ _ _ _ B K1 K2).
  destruct (same_call _ _ _ _ _ _ _ B A1 A3 W1) as [<- _]. destruct (same_call _ _ _ _ _ _ _ B A2 A4 W2) as [<- _].
  split; [congruence|]. split.
  - intros ->. destruct r1; auto. destruct (J6 ltac:(discriminate) b Hb).
  - intros E. specialize (J5 E).
    assert (X := NoDup_map_inj _ _ _ _ _ _ (a_wnodup _ _ _ (v_core _ _ _ B)) Hb J5 eq_refl). injection X as _ ->. reflexivity.
Qed.
Print Assumptions C40_same_outcome.

Example C40_example :
  match exec (bstep 100 false 153) initBatch (connected ++ put 0 [1; 2] ++ put 1 [3] ++ [BWait 0; BWait 1; BFire; BTimer] ++
      repeat (BSender FcGo) 3 ++ [BSender FcFail] ++ put 2 [4] ++ repeat (BSender FcGo) 3 ++ flush ++ [BWait 2; BReturn 0 false; BReturn 1 false; BReturn 2 false]) with
  | Some s => bW s 0%nat = WRet 2 (Some ErrBackend) false /\ bW s 1%nat = WRet 2 (Some ErrBackend) false /\ bW s 2%nat = WRet 3 None false
  | None => False
  end.
Proof. vm_compute. auto. Qed.

(** ** C38.  Full statement: messages accepted before Close are still handed to
    the backend. False, and not by a race: [Close] sets the state Closing before
    it flushes, and [sendMessages] refuses to write in this state. Whatever is in
    the buffer (or in a flush that did not get to the write yet) when the state
    becomes Closing or Closed is never written, under any schedule. *)
Theorem C38_buffer_lost_refuted : forall est frag cap ls s ls' s', est + 53 < 2^32 -> runB est frag cap ls s ->
  isDoneState (bState s) = true -> exec (bstep est frag cap) s ls' = Some s' ->
  forall e, In e (bBuf s) -> ~ In e (sent s').
Proof.
  intros est frag cap ls s ls' s' He H Hd H' e Hin K. pose proof (run_binv _ _ _ _ _ He H) as B.
  destruct (lastWrite_run _ _ _ _ _ _ He B Hd H') as (B' & _ & L).
  assert (Nin : forall h b, In (h, b) (bSwaps s) -> ~ In e b).
  { intros h b J1 J2. assert (A1 := swaps_in_accepted _ _ _ _ _ _ B J1 J2).
    assert (A2 : In (bCur s, e) (bAccepted s)).
    { rewrite (a_acc _ _ _ (v_core _ _ _ B)). apply in_or_app. right. unfold tagged. cbn. apply in_map_iff. exists e. auto. }
    destruct (same_call _ _ _ _ _ _ _ B A1 A2 eq_refl) as [-> _]. pose proof (a_nodup _ _ _ (v_core _ _ _ B)) as Nd. inversion Nd; subst.
    apply H2. eapply in_fst; eauto. }
  apply in_sent in K. destruct K as (h & b & ok & K1 & K2).
  assert (Old : In (h, b, ok) (bWire s) -> False).
  { intros K. apply (a_wire _ _ _ (v_core _ _ _ B)) in K. exact (Nin _ _ K K2). }
  destruct L as [[L _]|[_ (h1 & b1 & ok1 & L1 & L2)]].
  - rewrite L in K1. auto.
  - rewrite L2 in K1. apply in_app_iff in K1. destruct K1 as [K1|[K1|[]]]; auto. injection K1 as -> -> ->.
    pose proof (a_f _ _ _ (v_core _ _ _ B)) as F. destruct (lf s); cbn [writing fok] in *; try tauto.
    destruct L1 as [L1|[]]. injection L1 as -> ->. destruct F as [F _]. exact (Nin _ _ F K2).
Qed.
Print Assumptions C38_buffer_lost_refuted.

(** A whole session with nothing but one accepted message and Close. *)
Example C38_example :
  match exec (bstep 100 false 153) initBatch (connected ++ put 0 [1; 2] ++ [BWait 0; BClose] ++ repeat (BCloser FcGo) 11 ++ [BStop; BReturn 0 false]) with
  | Some s => bCloser s = CDone /\ bWire s = [] /\ bW s 0%nat = WRet 2 (Some ErrAlreadyClosed) false
  | None => False
  end.
Proof. vm_compute. auto. Qed.

(** What survives: the packet being written at that moment. Nothing else is
    ever written. *)
Theorem C38_only_current_write : forall est frag cap ls s ls' s', est + 53 < 2^32 -> runB est frag cap ls s ->
  isDoneState (bState s) = true -> exec (bstep est frag cap) s ls' = Some s' ->
  bWire s' = bWire s \/
  exists h b ok, bWire s' = bWire s ++ [(h, b, ok)] /\ (bLoop s = LConn (FWrite h b) \/ exists from, bLoop s = LFlush from (FWrite h b)).
Proof.
  intros est frag cap ls s ls' s' He H Hd H'. pose proof (run_binv _ _ _ _ _ He H) as B.
  destruct (lastWrite_run _ _ _ _ _ _ He B Hd H') as (_ & _ & [[L _]|[_ (h & b & ok & L1 & L2)]]); auto.
  right. exists h, b, ok. split; auto. unfold lf in L1. destruct (bLoop s) as [f| |from f|from id|k|]; cbn in L1; try tauto;
    destruct f; cbn in L1; try tauto; destruct L1 as [L1|[]]; injection L1 as -> ->; eauto.
Qed.
Print Assumptions C38_only_current_write.

(** ** C79.  Full statement: no schedule of writes, waits and Close makes the
    session panic. False: *)

(** Close while a writer waits for room. The sender was asked to flush handle 2;
    Close takes the batch of this handle first; the sender flushes the next,
    empty one and releases handle 2, which is not finished yet. *)
Theorem C79_close_panic_refuted : exists ls s, runB 100 false 153 ls s /\ bPanic s = true /\
  Forall (fun l => match l with BNow _ | BCancel | BSetClosing | BSetClosed => False | _ => True end) ls.
Proof.
  exists (connected ++ put 0 (repeat 0 60) ++ put 1 (repeat 0 60) ++ [BAsk 1 true; BClose; BCloser FcGo; BCloser FcGo] ++ repeat (BSender FcGo) 7).
  eexists. split; [vm_compute; reflexivity|]. split; [reflexivity|]. repeat constructor.
Qed.
Print Assumptions C79_close_panic_refuted.

(** SendNowAndWait after the sender has stopped: send on closed channel. *)
Theorem C79_send_now_closed_refuted : exists ls s, runB 100 false 153 ls s /\ bPanic s = true.
Proof.
  exists (connected ++ put 0 [1] ++ [BClose] ++ repeat (BCloser FcGo) 11 ++ [BStop; BNow 0; BNowSend 0]).
  eexists. split; [vm_compute; reflexivity|]. reflexivity.
Qed.
Print Assumptions C79_send_now_closed_refuted.

(** SendNowAndWait on the handle of a fragmented message that is still being
    sent: the sender releases an unfinished handle. No Close involved. *)
Theorem C80_send_now_fragment_refuted : exists ls s, runB 4 true 57 ls s /\ bPanic s = true /\
  Forall (fun l => match l with BClose | BCancel | BSetClosing | BSetClosed => False | _ => True end) ls.
Proof.
  exists (connected ++ [BWrite 0 7 [1; 2; 3; 4; 5]; BNow 0; BNowSend 0] ++ repeat (BSender FcGo) 7).
  eexists. split; [vm_compute; reflexivity|]. split; [reflexivity|]. repeat constructor.
Qed.
Print Assumptions C80_send_now_fragment_refuted.

(** Without Close, cancellation, and SendNowAndWait on fragmented messages:
    never. *)
Theorem C79_no_panic_partial : forall est frag cap ls s, est + 53 < 2^32 -> est + 9 <= cap ->
  exec (cstep est frag cap) initBatch ls = Some s -> bPanic s = false.
Proof. intros est frag cap ls s He Hc H. apply o_panic. eapply run_calm; eauto. Qed.
Print Assumptions C79_no_panic_partial.

(** SendNowAndWait in a calm session flushes what was accepted. *)
Example C80_example :
  match exec (cstep 100 true 153) initBatch (connected ++ put 0 [1] ++ [BNow 0; BNowSend 0] ++ repeat (BSender FcGo) 8 ++ [BReturn 0 false]) with
  | Some s => bW s 0%nat = WRet 2 None false /\ length (bWire s) = 1%nat /\ bLoop s = LSelect
  | None => False
  end.
Proof. vm_compute. auto. Qed.

(** ** C81.  Full statement: every call of WriteMessageAsync returns. False: once
    the sender and Close are through and messages are left in the buffer, a
    writer whose message does not fit next to them goes round its loop forever:
    no continuation of the run lets it return. *)
Theorem C81_spins_forever_refuted : forall est frag cap s w m ls s', est + 53 < 2^32 -> over s ->
  bBuf s <> [] -> est + 53 < 44 + batchLen (bBuf s) + len m -> bW s w = WTry m ->
  exec (bstep est frag cap) s ls = Some s' ->
  forall h r c e, bW s' w <> WHave h /\ bW s' w <> WRet h r c /\ bW s' w <> WRefused e.
Proof.
  intros est frag cap s w m ls s' He Ho Hb Hm Hw H h r c e.
  assert (S : spinning (bW s' w) m) by (eapply spin_run; eauto; left; exact Hw).
  destruct S as [->|[k [->|[->| ->]]]]; repeat split; discriminate.
Qed.
Print Assumptions C81_spins_forever_refuted.

(** Such states are reached by two writers and Close. *)
Example C81_example :
  match exec (bstep 100 false 153) initBatch
     (connected ++ [BWrite 0 7 (repeat 0 60); BCheck 0 FcGo; BWrite 1 7 (repeat 0 60); BCheck 1 FcGo; BClose] ++ repeat (BCloser FcGo) 6 ++ [BStop; BTry 0 FcGo]) with
  | Some s => over s /\ length (bBuf s) = 1%nat /\ bW s 1%nat = WTry (messageOf 7 (repeat 0 60)) /\
              153 < 44 + batchLen (bBuf s) + len (messageOf 7 (repeat 0 60))
  | None => False
  end.
Proof. vm_compute. repeat split; auto. Qed.
