From Coq Require Import NArith List Bool Lia Arith.
From Verif Require Import Base BaseLemmas MessageModel CodecSpec CodecProofs PendingChainModel ReaderModel ReaderSpec.
Import ListNotations.
Open Scope N_scope.

Lemma gslice_some : forall A (l : list A) i j, i <= j -> j <= len l ->
  gslice l i j = Some (firstn (N.to_nat (j - i)) (skipn (N.to_nat i) l)).
Proof.
  intros. unfold gslice. replace (i <=? j) with true by (symmetry; apply N.leb_le; auto).
  replace (j <=? len l) with true by (symmetry; apply N.leb_le; auto). reflexivity.
Qed.

Lemma gslice_len : forall A (l r : list A) i j, gslice l i j = Some r -> len r = j - i /\ i <= j /\ j <= len l.
Proof.
  intros A l r i j H. unfold gslice in H.
  destruct (i <=? j) eqn:E1; [|discriminate]. destruct (j <=? len l) eqn:E2; [|discriminate].
  cbn [andb] in H. injection H as <-. apply N.leb_le in E1. apply N.leb_le in E2.
  unfold len in *. rewrite firstn_length, skipn_length. lia.
Qed.

Section LoopProofs.
  Context {St : Type}.
  Variable onErr : St -> gerr -> St.
  Variable handle : St -> msgHdr -> bytes -> outcome (St * option N).

  Notation loop := (procLoop onErr handle).

  Lemma procLoop_no_fuel : forall fuel s mb l i, l <= i + N.of_nat fuel -> loop fuel s mb l i <> LoopFuel.
  Proof.
    induction fuel; intros s mb l i H; cbn [procLoop].
    - replace (i <? l) with false by (symmetry; apply N.ltb_ge; lia). discriminate.
    - destruct (i <? l) eqn:E; [|discriminate]. apply N.ltb_lt in E.
      destruct (l - i <? messageHeadersSize); [discriminate|].
      destruct (gslice mb i (i + messageHeadersSize)); [|discriminate].
      destruct (hdrRead l0) as [[? hdr]|]; [|discriminate].
      destruct (l - i <? messageHeadersSize + mLength hdr); [discriminate|].
      destruct (gslice mb _ _); [|discriminate].
      destruct (handle s hdr l1) as [[s' [nl|]]|]; try discriminate.
      apply IHfuel. unfold messageHeadersSize. lia.
  Qed.

  (** The loop panics only if the treatment of a message does. *)
  Lemma procLoop_no_panic : (forall s h m, handle s h m <> Panic) ->
    forall fuel s mb l i, l <= len mb -> loop fuel s mb l i <> LoopPanic.
  Proof.
    intros Hh. induction fuel; intros s mb l i H; cbn [procLoop].
    - destruct (i <? l); discriminate.
    - destruct (i <? l) eqn:E; [|discriminate]. apply N.ltb_lt in E.
      destruct (l - i <? messageHeadersSize) eqn:E1; [discriminate|]. apply N.ltb_ge in E1. unfold messageHeadersSize in *.
      rewrite gslice_some by lia.
      destruct (hdrRead _) as [[? hdr]|]; [|discriminate].
      destruct (l - i <? 9 + mLength hdr) eqn:E2; [discriminate|]. apply N.ltb_ge in E2.
      rewrite gslice_some by lia.
      destruct (handle s hdr _) as [[s' [nl|]]|] eqn:Eh; try discriminate.
      + apply IHfuel. auto.
      + exfalso. eapply Hh; eauto.
  Qed.
End LoopProofs.

(** The loop instrumented with the list of (header, payload) calls made. *)
Definition recording {St} (handle : St -> msgHdr -> bytes -> outcome (St * option N))
  (s : St * list (msgHdr * bytes)) (h : msgHdr) (m : bytes) : outcome (St * list (msgHdr * bytes) * option N) :=
  match handle (fst s) h m with
  | Panic => Panic
  | Ret (s', o) => Ret ((s', snd s ++ [(h, m)]), o)
  end.
Definition recErr {St} (onErr : St -> gerr -> St) (s : St * list (msgHdr * bytes)) (e : gerr) :=
  (onErr (fst s) e, snd s).

Lemma recording_sim : forall St (onErr : St -> gerr -> St) handle fuel s tr mb l i,
  match procLoop (recErr onErr) (recording handle) fuel (s, tr) mb l i with
  | LoopEnd (s', _) => procLoop onErr handle fuel s mb l i = LoopEnd s'
  | LoopPanic => procLoop onErr handle fuel s mb l i = LoopPanic
  | LoopFuel => procLoop onErr handle fuel s mb l i = LoopFuel
  end.
Proof.
  intros St onErr handle. induction fuel; intros; cbn [procLoop].
  - destruct (i <? l); auto.
  - destruct (i <? l); auto.
    destruct (l - i <? messageHeadersSize); [reflexivity|].
    destruct (gslice mb i (i + messageHeadersSize)); auto.
    destruct (hdrRead l0) as [[? hdr]|]; [|reflexivity].
    destruct (l - i <? messageHeadersSize + mLength hdr); [reflexivity|].
    destruct (gslice mb _ _); auto.
    unfold recording at 1. cbn [fst snd]. destruct (handle s hdr l1) as [[s' [nl|]]|]; auto.
    apply IHfuel.
Qed.

(** A treatment that, on headers satisfying [Q], never reports a length smaller
    than the header's. *)
Definition keepsLength {St} (Q : msgHdr -> Prop) (handle : St -> msgHdr -> bytes -> outcome (St * option N)) : Prop :=
  forall s h m s' n, Q h -> handle s h m = Ret (s', Some n) -> mLength h <= n.

Lemma calls_disjoint : forall St Q (onErr : St -> gerr -> St) handle, keepsLength Q handle ->
  forall fuel s tr mb l i s' tr', l <= len mb ->
  procLoop (recErr onErr) (recording handle) fuel (s, tr) mb l i = LoopEnd (s', tr') ->
  exists calls, tr' = tr ++ calls /\
    (Forall (fun c => Q (fst c)) calls -> disjoint_ranges mb (N.to_nat l) (map snd calls) (N.to_nat i)) /\
    Forall (fun c => len (snd c) = mLength (fst c)) calls.
Proof.
  intros St Q onErr handle Hk. induction fuel; intros s tr mb l i s' tr' Hl H; cbn [procLoop] in H.
  - destruct (i <? l); [discriminate|]. injection H as <- <-. exists []. rewrite app_nil_r. cbn. auto.
  - destruct (i <? l) eqn:E.
    2:{ injection H as <- <-. exists []. rewrite app_nil_r. cbn. auto. }
    apply N.ltb_lt in E.
    destruct (l - i <? messageHeadersSize) eqn:E1.
    { injection H as <- <-. exists []. rewrite app_nil_r. cbn. auto. }
    apply N.ltb_ge in E1. unfold messageHeadersSize in *.
    destruct (gslice mb i (i + 9)) as [hb|]; [|discriminate].
    destruct (hdrRead hb) as [[? hdr]|].
    2:{ injection H as <- <-. exists []. rewrite app_nil_r. cbn. auto. }
    destruct (l - i <? 9 + mLength hdr) eqn:E2.
    { injection H as <- <-. exists []. rewrite app_nil_r. cbn. auto. }
    apply N.ltb_ge in E2.
    destruct (gslice mb (i + 9) (i + 9 + mLength hdr)) as [msg|] eqn:G; [|discriminate].
    pose proof (gslice_len _ _ _ _ _ G) as (Lm & _ & _).
    unfold recording in H at 1. cbn [fst snd] in H.
    assert (Rg : range mb (N.to_nat (i + 9)) (length msg) = msg).
    { unfold range. rewrite gslice_some in G by lia. injection G as G.
      replace (length msg) with (N.to_nat (i + 9 + mLength hdr - (i + 9))) by (unfold len in Lm; lia). auto. }
    destruct (handle s hdr msg) as [[s1 [nl|]]|] eqn:Eh; [| |discriminate].
    + apply IHfuel in H; auto. destruct H as (calls & -> & D & F).
      exists ((hdr, msg) :: calls). split; [rewrite <- app_assoc; auto|]. split.
      * intros HQ. inversion HQ as [|? ? HQ1 HQ2]; subst. cbn [fst] in HQ1. apply (Hk _ _ _ _ _ HQ1) in Eh.
        specialize (D HQ2). cbn [map snd disjoint_ranges]. exists (N.to_nat (i + 9)).
        split; [lia|]. split; [unfold len in Lm; lia|]. split; auto.
        clear - D Lm Eh. revert D. generalize (map snd calls) as ps.
        assert (Hle : (N.to_nat (i + 9) + length msg <= N.to_nat (i + 9 + nl))%nat) by (unfold len in Lm; lia).
        intros ps D. destruct ps; cbn [disjoint_ranges] in *; auto.
        destruct D as (off & A & B). exists off. split; [lia|auto].
      * constructor; auto. cbn. lia.
    + injection H as <- <-. exists [(hdr, msg)]. split; auto. split.
      * intros _. cbn [map snd disjoint_ranges]. exists (N.to_nat (i + 9)).
        split; [lia|]. split; [unfold len in Lm; lia|]. split; auto.
      * constructor; auto. cbn. lia.
Qed.

(** Without that proviso each call still lies inside the packet. *)
Definition inside (mb : bytes) (l : nat) (p : bytes) : Prop :=
  exists off, (off + length p <= l)%nat /\ range mb off (length p) = p.

Lemma calls_inside : forall St (onErr : St -> gerr -> St) handle,
  forall fuel s tr mb l i s' tr', l <= len mb ->
  procLoop (recErr onErr) (recording handle) fuel (s, tr) mb l i = LoopEnd (s', tr') ->
  exists calls, tr' = tr ++ calls /\ Forall (fun c => inside mb (N.to_nat l) (snd c)) calls.
Proof.
  intros St onErr handle. induction fuel; intros s tr mb l i s' tr' Hl H; cbn [procLoop] in H.
  - destruct (i <? l); [discriminate|]. injection H as <- <-. exists []. rewrite app_nil_r. auto.
  - destruct (i <? l) eqn:E.
    2:{ injection H as <- <-. exists []. rewrite app_nil_r. auto. }
    apply N.ltb_lt in E.
    destruct (l - i <? messageHeadersSize) eqn:E1.
    { injection H as <- <-. exists []. rewrite app_nil_r. auto. }
    apply N.ltb_ge in E1. unfold messageHeadersSize in *.
    destruct (gslice mb i (i + 9)) as [hb|]; [|discriminate].
    destruct (hdrRead hb) as [[? hdr]|].
    2:{ injection H as <- <-. exists []. rewrite app_nil_r. auto. }
    destruct (l - i <? 9 + mLength hdr) eqn:E2.
    { injection H as <- <-. exists []. rewrite app_nil_r. auto. }
    apply N.ltb_ge in E2.
    destruct (gslice mb (i + 9) (i + 9 + mLength hdr)) as [msg|] eqn:G; [|discriminate].
    pose proof (gslice_len _ _ _ _ _ G) as (Lm & _ & _).
    unfold recording in H at 1. cbn [fst snd] in H.
    assert (In : inside mb (N.to_nat l) msg).
    { exists (N.to_nat (i + 9)). split; [unfold len in Lm; lia|].
      unfold range. rewrite gslice_some in G by lia. injection G as G.
      replace (length msg) with (N.to_nat (i + 9 + mLength hdr - (i + 9))) by (unfold len in Lm; lia). auto. }
    destruct (handle s hdr msg) as [[s1 [nl|]]|] eqn:Eh; [| |discriminate].
    + apply IHfuel in H; auto. destruct H as (calls & -> & F).
      exists ((hdr, msg) :: calls). split; [rewrite <- app_assoc; auto|]. constructor; auto.
    + injection H as <- <-. exists [(hdr, msg)]. split; auto.
Qed.

(** ** Well-formed batches *)
Lemma le_bytes_enc : forall k v, le_enc k v = map (le_byte v) (seq 0 k).
Proof.
  intros.
  assert (H : forall i, nth_error (le_enc k v) i = nth_error (map (le_byte v) (seq 0 k)) i).
  { intros i. destruct (Nat.lt_ge_cases i k).
    - rewrite le_enc_nth by auto. symmetry. apply map_nth_error.
      rewrite nth_error_nth' with (d := 0%nat) by (rewrite seq_length; auto).
      rewrite seq_nth by auto. f_equal.
    - rewrite (proj2 (nth_error_None _ _)) by (rewrite le_enc_length; auto).
      symmetry. apply nth_error_None. rewrite map_length, seq_length. auto. }
  apply nth_error_ext'. exact H.
Qed.

Lemma encodeMsg_wire : forall m, wireMsg_ok m ->
  encodeMsg (wType m) (wFlags m) (wPayload m) = wireBytes m.
Proof.
  intros m (H1 & H2 & H3). unfold encodeMsg, hdrWrite, messageHeadersSize.
  replace (len (repeat 0 9) <? 9) with false by reflexivity.
  cbn [mType mLength mFlags]. unfold wireBytes.
  rewrite !le_bytes_enc. unfold u32. rewrite N.mod_small by exact H3.
  cbn [skipn repeat]. rewrite app_nil_r. rewrite <- !app_assoc. reflexivity.
Qed.

Definition hdrOf (m : wireMsg) : msgHdr :=
  {| mType := wType m; mLength := len (wPayload m); mFlags := wFlags m |}.

Lemma wireBytes_len : forall m, len (wireBytes m) = 9 + len (wPayload m).
Proof. intros. unfold wireBytes. rewrite !len_app. unfold len. rewrite !map_length. cbn [length]. lia. Qed.

Lemma wire_hdr : forall m, wireMsg_ok m ->
  exists hb, wireBytes m = hb ++ wPayload m /\ length hb = 9%nat /\ hdrRead hb = Ok (9, hdrOf m).
Proof.
  intros m Hm. pose proof (encodeMsg_wire m Hm) as E. destruct Hm as (H1 & H2 & H3).
  unfold encodeMsg in E.
  destruct (hdrWrite {| mType := wType m; mLength := u32 (len (wPayload m)); mFlags := wFlags m |} (repeat 0 9)) as [[n hb]|] eqn:W; [|discriminate].
  exists hb. split; auto.
  assert (Hok : msgHdr_ok {| mType := wType m; mLength := u32 (len (wPayload m)); mFlags := wFlags m |}).
  { unfold msgHdr_ok; cbn. split; auto. split; auto. unfold u32. apply N.mod_lt. lia. }
  split.
  - unfold hdrWrite in W. cbn in W. injection W as _ <-. reflexivity.
  - rewrite (hdr_rw _ _ _ _ Hok W). unfold hdrOf. do 3 f_equal. unfold u32. apply N.mod_small. exact H3.
Qed.

Section Batch.
  Context {St : Type}.
  Variable onErr : St -> gerr -> St.
  Variable handle : St -> msgHdr -> bytes -> outcome (St * option N).

  (** What the loop amounts to on a well-formed batch: fold the treatment over
      the messages, as long as it keeps the lengths. *)
  Fixpoint foldMsgs (s : St) (ms : list wireMsg) : loopResult St :=
    match ms with
    | [] => LoopEnd s
    | m :: r => match handle s (hdrOf m) (wPayload m) with
                | Panic => LoopPanic
                | Ret (s', None) => LoopEnd s'
                | Ret (s', Some _) => foldMsgs s' r
                end
    end.

  Lemma procLoop_batch : forall ms fuel s pre tail,
    Forall wireMsg_ok ms ->
    (forall s m s' n, In m ms -> handle s (hdrOf m) (wPayload m) = Ret (s', Some n) -> n = len (wPayload m)) ->
    (length (concat (map wireBytes ms)) <= fuel)%nat ->
    procLoop onErr handle fuel s (pre ++ concat (map wireBytes ms) ++ tail)
      (len pre + len (concat (map wireBytes ms))) (len pre) = foldMsgs s ms.
  Proof.
    induction ms as [|m ms IH]; intros fuel s pre tail Hok Hk Hf.
    - cbn [map concat foldMsgs]. rewrite len_nil, N.add_0_r.
      destruct fuel; cbn [procLoop]; rewrite N.ltb_irrefl; auto.
    - inversion Hok; subst. pose proof (wireBytes_len m) as Lw.
      assert (Hlen : len (concat (map wireBytes (m :: ms))) = 9 + len (wPayload m) + len (concat (map wireBytes ms))).
      { cbn [map concat]. rewrite len_app, Lw. lia. }
      destruct fuel as [|fuel].
      { exfalso. unfold len in Hlen. lia. }
      cbn [procLoop]. rewrite Hlen.
      replace (len pre <? len pre + (9 + len (wPayload m) + len (concat (map wireBytes ms)))) with true
        by (symmetry; apply N.ltb_lt; lia).
      unfold messageHeadersSize.
      replace (len pre + (9 + len (wPayload m) + len (concat (map wireBytes ms))) - len pre <? 9) with false
        by (symmetry; apply N.ltb_ge; lia).
      destruct (wire_hdr m H1) as (hb & Ew & Lh & Rh).
      cbn [map concat]. rewrite Ew. rewrite <- !app_assoc.
      assert (G1 : gslice (pre ++ hb ++ wPayload m ++ concat (map wireBytes ms) ++ tail) (len pre) (len pre + 9) = Some hb).
      { rewrite gslice_some; [|lia|].
        2:{ rewrite !len_app. unfold len. rewrite Lh. lia. }
        replace (N.to_nat (len pre + 9 - len pre)) with 9%nat by lia.
        unfold len at 1. rewrite Nat2N.id, skipn_app_l by auto. rewrite firstn_app_l; auto. }
      rewrite G1, Rh. cbn [mLength hdrOf].
      replace (len pre + (9 + len (wPayload m) + len (concat (map wireBytes ms))) - len pre <? 9 + len (wPayload m)) with false
        by (symmetry; apply N.ltb_ge; lia).
      assert (G2 : gslice (pre ++ hb ++ wPayload m ++ concat (map wireBytes ms) ++ tail) (len pre + 9)
                 (len pre + 9 + len (wPayload m)) = Some (wPayload m)).
      { rewrite gslice_some; [|lia|].
        2:{ rewrite !len_app. unfold len. rewrite Lh. lia. }
        replace (N.to_nat (len pre + 9 + len (wPayload m) - (len pre + 9))) with (length (wPayload m)) by (unfold len; lia).
        rewrite app_assoc. rewrite skipn_app_l; [f_equal; apply firstn_app_l; auto|].
        rewrite app_length, Lh. unfold len. lia. }
      rewrite G2. cbn [foldMsgs].
      destruct (handle s (hdrOf m) (wPayload m)) as [[s' [n|]]|] eqn:Eh; auto.
      rewrite (Hk s m s' n) by (auto; left; auto).
      assert (Lp : len (pre ++ wireBytes m) = len pre + 9 + len (wPayload m)) by (rewrite len_app, Lw; lia).
      rewrite <- Lp.
      replace (len pre + (9 + len (wPayload m) + len (concat (map wireBytes ms))))
        with (len (pre ++ wireBytes m) + len (concat (map wireBytes ms))) by lia.
      replace (pre ++ hb ++ wPayload m ++ concat (map wireBytes ms) ++ tail)
        with ((pre ++ wireBytes m) ++ concat (map wireBytes ms) ++ tail)
        by (rewrite Ew, <- !app_assoc; auto).
      apply IH; auto.
      + intros. eapply Hk; eauto. right; auto.
      + unfold len in Hlen. lia.
  Qed.

  Lemma runLoop_batch : forall ms s tail,
    Forall wireMsg_ok ms ->
    (forall s m s' n, In m ms -> handle s (hdrOf m) (wPayload m) = Ret (s', Some n) -> n = len (wPayload m)) ->
    runLoop onErr handle s (len (concat (map wireBytes ms))) (concat (map wireBytes ms) ++ tail) = foldMsgs s ms.
  Proof.
    intros. unfold runLoop. rewrite len_app.
    replace (N.min (len (concat (map wireBytes ms)) + len tail) (len (concat (map wireBytes ms))))
      with (len (@nil N) + len (concat (map wireBytes ms))) by (rewrite len_nil; lia).
    apply (procLoop_batch ms _ s [] tail); auto.
    rewrite app_length. lia.
  Qed.
End Batch.
