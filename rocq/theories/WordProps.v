(** C172: malformed content cannot crash the message parser, whatever the size of a
    machine word (C06 is this for numbers that do not overflow). *)
From Coq Require Import NArith List Bool Lia.
From Verif Require Import Base BaseLemmas MessageModel CodecSpec CodecProofs ReaderModel ReaderProofs ReaderProps WordModel.
Import ListNotations.
Local Open Scope N_scope.

(** ** What should hold *)
Definition parserSafe (W : N) : Prop :=
  forall St onErr (handle : St -> msgHdr -> bytes -> outcome (St * option N)) s l content,
    bytes_ok content -> len content < 2^31 -> (forall s h m, handle s h m <> Panic) ->
    runLoopW W onErr handle s l content <> LoopPanic.

Definition words32 : N := 2^32.
Definition words64 : N := 2^64.

(** ** What does not hold *)
(** A header announcing at least 2^32 - 9 bytes, wherever the loop has come to. *)
Lemma huge_panics : forall St onErr (handle : St -> msgHdr -> bytes -> outcome (St * option N)) fuel s mb l i hb n h,
  l <= len mb -> len mb < 2^31 -> i + 9 <= l -> gslice mb i (i + 9) = Some hb -> hdrRead hb = Ok (n, h) ->
  2^32 - 9 <= mLength h < 2^32 -> procLoopW words32 onErr handle (S fuel) s mb l i = LoopPanic.
Proof.
  intros St onErr handle fuel s mb l i hb n h Hl Hm Hi Hg Hr Hb. cbn [procLoopW].
  replace (i <? l) with true by (symmetry; apply N.ltb_lt; lia).
  replace (l - i <? messageHeadersSize) with false by (symmetry; apply N.ltb_ge; unfold messageHeadersSize; lia).
  unfold addW, words32, messageHeadersSize. rewrite (N.mod_small (i + 9)) by lia. rewrite Hg, Hr.
  assert (E : (9 + mLength h) mod 2^32 = 9 + mLength h - 2^32).
  { symmetry. apply N.mod_unique with 1; lia. }
  rewrite E. replace (l - i <? 9 + mLength h - 2^32) with false by (symmetry; apply N.ltb_ge; lia).
  assert (E2 : (i + 9 + mLength h) mod 2^32 = i + 9 + mLength h - 2^32).
  { symmetry. apply N.mod_unique with 1; lia. }
  rewrite E2. unfold gslice. replace (i + 9 <=? i + 9 + mLength h - 2^32) with false by (symmetry; apply N.leb_gt; lia). reflexivity.
Qed.

(** With words of 32 bits: a packet whose first message has a header announcing at
    least 2^32 - 9 bytes crashes the process, whatever follows and however the
    messages are treated. Nine bytes are enough. *)
Theorem C172_words32_refuted : forall St onErr (handle : St -> msgHdr -> bytes -> outcome (St * option N)) s l content n h,
  9 <= l -> 9 <= len content -> len content < 2^31 -> hdrRead (firstn 9 content) = Ok (n, h) -> 2^32 - 9 <= mLength h < 2^32 ->
  runLoopW words32 onErr handle s l content = LoopPanic.
Proof.
  intros St onErr handle s l content n h Hl Hc Hm Hr Hb. unfold runLoopW.
  destruct (length content) as [|fuel] eqn:El; [unfold len in Hc; lia|].
  eapply huge_panics with (hb := firstn 9 content); [lia|exact Hm|lia| |exact Hr|exact Hb].
  rewrite gslice_some by lia. reflexivity.
Qed.
Print Assumptions C172_words32_refuted.

(** Nine bytes: type 7, length 2^32 - 9, no flags. With words of 64 bits they are
    only an error. *)
Definition huge9 : bytes := [7; 0; 0; 0; 247; 255; 255; 255; 0].
Theorem C172_unsafe_refuted :
  ~ parserSafe words32 /\
  (forall s, processIncomingMessagesW words32 s 9 huge9 = LoopPanic) /\
  (forall s, processIncomingMessagesW words64 s 9 huge9 = LoopEnd (emit s (EvError (ErrTooShort (2^32) 9)))) /\
  (forall s, processIncomingMessages s 9 huge9 = LoopEnd (emit s (EvError (ErrTooShort (2^32) 9)))).
Proof.
  split; [|split; [|split]].
  - intros H. apply (H unit (fun s _ => s) (fun s _ _ => Ret (s, None)) tt 9 huge9); [| vm_compute; reflexivity | discriminate | vm_compute; reflexivity].
    repeat constructor.
  - intros s. unfold processIncomingMessagesW. eapply C172_words32_refuted; [lia|vm_compute; discriminate|vm_compute; reflexivity|vm_compute; reflexivity|].
    vm_compute. split; [discriminate|reflexivity].
  - intros s. vm_compute. reflexivity.
  - intros s. vm_compute. reflexivity.
Qed.
Print Assumptions C172_unsafe_refuted.

(** ** What holds *)
Section Same.
  Context {St : Type}.
  Variable W : N.
  Variable onErr : St -> gerr -> St.
  Variable handle : St -> msgHdr -> bytes -> outcome (St * option N).
  Variable mb : bytes.
  Hypothesis Hh : forall i hb n h, gslice mb i (i + 9) = Some hb -> hdrRead hb = Ok (n, h) -> 9 + mLength h < W.
  Hypothesis Hn : forall s h m s' n, handle s h m = Ret (s', Some n) -> len mb + 9 + n < W.
  Hypothesis Hm : len mb + 9 < W.

  Lemma same_loop : forall fuel s l i, l <= len mb -> procLoopW W onErr handle fuel s mb l i = procLoop onErr handle fuel s mb l i.
  Proof.
    induction fuel as [|fuel IH]; intros s l i Hl; cbn [procLoopW procLoop]; destruct (N.ltb_spec i l) as [Hi|Hi]; try reflexivity.
    destruct (N.ltb_spec (l - i) messageHeadersSize) as [H1|H1]; [reflexivity|]. unfold addW, messageHeadersSize in *.
    rewrite (N.mod_small (i + 9)) by lia. destruct (gslice mb i (i + 9)) as [hb|] eqn:Eg; [|reflexivity].
    destruct (hdrRead hb) as [[n h]|e] eqn:Er; [|reflexivity]. assert (Hb := Hh _ _ _ _ Eg Er).
    rewrite (N.mod_small (9 + mLength h)) by exact Hb.
    destruct (N.ltb_spec (l - i) (9 + mLength h)) as [H2|H2]; [reflexivity|].
    rewrite (N.mod_small (i + 9 + mLength h)) by lia. destruct (gslice mb (i + 9) _) as [msg|]; [|reflexivity].
    destruct (handle s h msg) as [[s' [nl|]]|] eqn:Eh; [|reflexivity|reflexivity].
    assert (Hnl := Hn _ _ _ _ _ Eh). rewrite (N.mod_small (9 + nl)) by lia. rewrite N.mod_small by lia. rewrite N.add_assoc. apply IH. exact Hl.
  Qed.
  Lemma same_run : forall s l, runLoopW W onErr handle s l mb = runLoop onErr handle s l mb.
  Proof. intros s l. apply same_loop. lia. Qed.
End Same.

(** With words of 64 bits the parser is that of C06: nothing overflows, as a
    length has 32 bits. *)
Lemma header_length : forall mb i hb n h, bytes_ok mb -> gslice mb i (i + 9) = Some hb -> hdrRead hb = Ok (n, h) -> mLength h < 2^32.
Proof.
  intros mb i hb n h Hb Hg Hr. assert (B : bytes_ok hb).
  { unfold gslice in Hg. destruct (_ && _); [|discriminate]. injection Hg as <-. unfold bytes_ok in *.
    rewrite Forall_forall in *. intros x Hx. apply Hb. rewrite <- (firstn_skipn (N.to_nat i) mb). apply in_or_app. right.
    set (r := skipn (N.to_nat i) mb) in *. rewrite <- (firstn_skipn (N.to_nat (i + 9 - i)) r). apply in_or_app. left. exact Hx. }
  destruct (hdr_wr _ _ _ B Hr) as ((_ & H & _) & _). exact H.
Qed.
Theorem C172_words64_partial : forall St onErr (handle : St -> msgHdr -> bytes -> outcome (St * option N)) s l content,
  bytes_ok content -> len content < 2^63 -> (forall s h m s' n, handle s h m = Ret (s', Some n) -> n < 2^32) ->
  runLoopW words64 onErr handle s l content = runLoop onErr handle s l content.
Proof.
  intros St onErr handle s l content Hb Hc Hn. apply same_run; unfold words64.
  - intros i hb n h Hg Hr. assert (H := header_length _ _ _ _ _ Hb Hg Hr). lia.
  - intros s0 h m s' n E. apply Hn in E. lia.
  - lia.
Qed.
Print Assumptions C172_words64_partial.

(** With words of 32 bits it is the same parser as long as no nine bytes of the
    content announce such a length. *)
Theorem C172_words32_partial : forall St onErr (handle : St -> msgHdr -> bytes -> outcome (St * option N)) s l content,
  bytes_ok content -> len content < 2^31 -> (forall s h m s' n, handle s h m = Ret (s', Some n) -> n < 2^31 - 9) ->
  (forall i hb n h, gslice content i (i + 9) = Some hb -> hdrRead hb = Ok (n, h) -> mLength h < 2^32 - 9) ->
  runLoopW words32 onErr handle s l content = runLoop onErr handle s l content /\
  ((forall s h m, handle s h m <> Panic) -> runLoopW words32 onErr handle s l content <> LoopPanic).
Proof.
  intros St onErr handle s l content Hb Hc Hn Hh.
  assert (E : runLoopW words32 onErr handle s l content = runLoop onErr handle s l content).
  { apply same_run; unfold words32.
    - intros i hb n h Hg Hr. assert (H := Hh _ _ _ _ Hg Hr). lia.
    - intros s0 h m s' n E. apply Hn in E. lia.
    - lia. }
  split; [exact E|]. intros Hp. rewrite E. apply C06_no_panic. exact Hp.
Qed.
Print Assumptions C172_words32_partial.

(** Two messages, then the nine bytes: both are delivered with words of either
    size, then it matters. *)
Example C172_example :
  let s := freshRcv 8 65536 0 [(7, true)] [] in
  let two := encodeMsg 7 0 [1; 2; 3] ++ encodeMsg 7 0 [4] in
  processIncomingMessagesW words32 s 22 two = processIncomingMessages s 22 two /\
  match processIncomingMessagesW words32 s 22 two with LoopEnd s' => rev (out s') = [EvHandler 7 [1; 2; 3]; EvHandler 7 [4]] | _ => False end /\
  processIncomingMessagesW words32 s 31 (two ++ huge9) = LoopPanic /\
  match processIncomingMessagesW words64 s 31 (two ++ huge9) with
  | LoopEnd s' => rev (out s') = [EvHandler 7 [1; 2; 3]; EvHandler 7 [4]; EvError (ErrTooShort (2^32) 9)]
  | _ => False
  end.
Proof. vm_compute. repeat split; reflexivity. Qed.
