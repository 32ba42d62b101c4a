(** Properties C104-C106: what callers of the io interfaces may rely on. *)
From Coq Require Import NArith ZArith List Bool Lia.
From Verif Require Import Base BaseLemmas TS MessageModel CodecProofs PacketModel PacketSpec PacketProofs BatchModel SendModel
  QueueModel QueueProps SendProps PacketProps IntegProofs ApiModel.
Import ListNotations.
Local Open Scope N_scope.

(** io.Reader: [0 <= n <= len(p)]. *)
Definition reader_contract (size : N) (r : ioResult) : Prop := (0 <= rN r <= Z.of_N size)%Z.
(** io.Writer: [0 <= n <= len(p)], and a short count comes with an error. *)
Definition writer_contract (p : bytes) (r : ioResult) : Prop :=
  (0 <= rN r <= Z.of_N (len p))%Z /\ ((rN r < Z.of_N (len p))%Z -> rErr r = true).

(** ** C104.  Full statement: every [Read] that returns satisfies [reader_contract]. *)

(** On a closed session, with nothing queued, every [Read] violates it, and an
    application reading through bufio.Reader panics. *)
Theorem C104_negative_count_refuted : forall limit capacity q t size,
  reachableQ limit capacity q -> qClosed q = true -> qChan q = [] -> qReads q t = RWait size ->
  exists q' r, qstep limit capacity q (QRecv t) = Some q' /\ qReads q' t = RRet size r /\
    ~ reader_contract size (readReturns r) /\ bufioFill (readReturns r) = Panic.
Proof.
  intros limit capacity q t size H Hc He Ht.
  pose proof (C30_no_panic limit capacity q H) as Hp.
  eexists. exists ReadClosed. split; [unfold qstep; rewrite Hp, Ht, He, Hc; reflexivity|]. split; [cbn [qReads]; apply fupd_same|].
  split; [|reflexivity]. unfold reader_contract. cbn. lia.
Qed.
Print Assumptions C104_negative_count_refuted.

Example C104_refuted_example :
  match exec (qstep 100 4) initQueue [QCall 0 10; QFinish; QRecv 0] with
  | Some q => qReads q 0%nat = RRet 10 ReadClosed /\ rN (readReturns ReadClosed) = (-1)%Z
  | None => False
  end.
Proof. vm_compute. auto. Qed.

(** A successful one satisfies it, and the count is that of the message. *)
Theorem C104_success_partial : forall limit capacity q t size r,
  reachableQ limit capacity q -> qReads q t = RRet size r -> rErr (readReturns r) = false ->
  reader_contract size (readReturns r) /\
  exists k m, nth_error (qReceived q) k = Some t /\ nth_error (qArrivals q) k = Some m /\ rN (readReturns r) = Z.of_N (len m).
Proof.
  intros limit capacity q t size r H Ht He. destruct r as [d| |]; try discriminate.
  destruct (C30_one_message_per_call _ _ _ H) as [_ O]. destruct (O t size d Ht) as (k & Hk & Hm).
  destruct (C30_in_order _ _ _ _ _ H Hk) as (m & Hm' & R). rewrite Ht in R. destruct R as [-> L].
  split; [unfold reader_contract; cbn; lia|]. exists k, m. auto.
Qed.
Print Assumptions C104_success_partial.

(** ** C105.  Full statement: every function of the package that writes a payload
    and returns [(int, error)] satisfies [writer_contract]. *)

(** An error is returned if and only if the message was not sent, and then nothing
    is counted as written. *)
Theorem C105_write_partial : forall payload err,
  writer_contract payload (writeMessageReturns payload err) /\
  (rErr (writeMessageReturns payload err) = true <-> err = true) /\ (err = true -> rN (writeMessageReturns payload err) = 0%Z).
Proof.
  intros payload err. unfold writer_contract, writeMessageReturns. destruct err; cbn [negb rN rErr]; repeat split; auto; try discriminate; lia.
Qed.
Print Assumptions C105_write_partial.

(** With a backend that keeps the contract and succeeds, [WriteMessageSingle]
    (and [Messenger.WriteSingle]) never keeps it: the headers are counted too. *)
Theorem C105_single_refuted : forall stream blake3 poly1305 backend est p t payload,
  primitives_ok stream poly1305 -> peer_ok p -> nth secretIDRecentBoth (pKeys p) None <> None ->
  est + 53 < 2^32 -> isInternal t = false -> len payload <= est ->
  (forall b, writer_contract b (backend b) /\ rErr (backend b) = false) ->
  exists p' r, writeMessageSingleReturns stream blake3 poly1305 backend est p t payload = (p', Ret r) /\
    rErr r = false /\ rN r = Z.of_N (len payload + 53) /\ ~ writer_contract payload r.
Proof.
  intros stream blake3 poly1305 backend est p t payload Hprim Hp Hk He Ht Hl Hb.
  destruct (C42_single stream blake3 poly1305 est p t payload Hprim Hp Hk He Ht ltac:(lia)) as (us & Eu & R).
  injection Eu as <-. replace (est <? len payload) with false in R by (symmetry; apply N.ltb_ge; lia).
  destruct R as (raw & Er & Lr & _). cbn [sendUnits] in Er. unfold writeMessageSingleReturns, sendMessagesReturns.
  destruct (sendUnit stream blake3 poly1305 est p (singleUnit t (singleFlags t) payload)) as [p1 o]. cbn [snd] in Er. injection Er as ->.
  exists p1, (backend raw). split; [reflexivity|]. destruct (Hb raw) as [[[H1 H2] H3] H4]. split; [exact H4|].
  assert (E : rN (backend raw) = Z.of_N (len payload + 53)).
  { rewrite <- Lr. destruct (Z.eq_dec (rN (backend raw)) (Z.of_N (len raw))) as [->|Hne]; [reflexivity|].
    rewrite H3 in H4 by lia. discriminate. }
  split; [exact E|]. unfold writer_contract. rewrite E. lia.
Qed.
Print Assumptions C105_single_refuted.

Example C105_example :
  exists p', writeMessageSingleReturns toyStream PacketProps.toyHash toyPoly (fun b => {| rN := Z.of_N (len b); rErr := false |})
    1000 (exA true) 5 [1; 2; 3] = (p', Ret {| rN := 56; rErr := false |}).
Proof. eexists. vm_compute. reflexivity. Qed.

(** ** C106.  Full statement: what goes to the backend for a message is what the
    caller's slice held when the call was made. *)

Definition partOf (payload : bytes) (pos n : nat) : bytes := firstn n (skipn pos payload).

(** [Write] returns when the context ends; a fragment is copied afterwards. *)
Theorem C106_write_refuted : forall payload parts i pos n b,
  nth_error parts i = Some (pos, n) -> len b = len payload -> partOf b pos n <> partOf payload pos n ->
  exists s, exec (fwStep true) (fwInit payload parts) [FwCancel; FwReturn; FwReuse b; FwCopy i; FwSend i] = Some s /\
    wWire s = [(pos, partOf b pos n)] /\ wWire s <> [(pos, partOf payload pos n)].
Proof.
  intros payload parts i pos n b Hi Hl Hd.
  assert (Hn : nth_error (wParts (fwInit payload parts)) i = Some (pos, n, FpNew)).
  { unfold fwInit. cbn [wParts]. rewrite nth_error_map, Hi. reflexivity. }
  assert (Hlt : (i < length (wParts (fwInit payload parts)))%nat) by (apply nth_error_Some; rewrite Hn; discriminate).
  set (l := wParts (fwInit payload parts)) in *.
  assert (Hn' : forall x, nth_error (firstn i l ++ [x] ++ skipn (S i) l) i = Some x).
  { intros x. rewrite nth_error_app2; rewrite firstn_length, Nat.min_l by lia; [|lia]. rewrite Nat.sub_diag. reflexivity. }
  eexists. split.
  - cbn [exec]. unfold fwStep at 1. cbn [negb orb andb fwInit wMem wParts wWire wDone wCtx wClosing wReturned].
    unfold fwStep at 1. cbn [negb orb andb wMem wParts wWire wDone wCtx wClosing wReturned].
    unfold fwStep at 1. cbn [negb orb andb wMem wParts wWire wDone wCtx wClosing wReturned]. rewrite Hl, N.eqb_refl.
    unfold fwStep at 1. cbn [wMem wParts wWire wDone wCtx wClosing wReturned].
    change (map (fun p : nat * nat => (fst p, snd p, FpNew)) parts) with l. rewrite Hn.
    unfold fwStep at 1. unfold setPart at 1. cbn [wMem wParts wWire wDone wCtx wClosing wReturned]. rewrite Hn'. reflexivity.
  - cbn [setPart wWire app]. split; [reflexivity|]. intros E. injection E as E. apply Hd. exact E.
Qed.
Print Assumptions C106_write_refuted.

(** [WriteMessageAsync] need not even be cancelled. *)
Theorem C106_async_refuted : forall payload parts i pos n b,
  nth_error parts i = Some (pos, n) -> len b = len payload -> partOf b pos n <> partOf payload pos n ->
  exists s, exec (fwStep false) (fwInit payload parts) [FwReturn; FwReuse b; FwCopy i; FwSend i] = Some s /\
    wWire s = [(pos, partOf b pos n)] /\ wWire s <> [(pos, partOf payload pos n)].
Proof.
  intros payload parts i pos n b Hi Hl Hd.
  assert (Hn : nth_error (wParts (fwInit payload parts)) i = Some (pos, n, FpNew)).
  { unfold fwInit. cbn [wParts]. rewrite nth_error_map, Hi. reflexivity. }
  assert (Hlt : (i < length (wParts (fwInit payload parts)))%nat) by (apply nth_error_Some; rewrite Hn; discriminate).
  set (l := wParts (fwInit payload parts)) in *.
  assert (Hn' : forall x, nth_error (firstn i l ++ [x] ++ skipn (S i) l) i = Some x).
  { intros x. rewrite nth_error_app2; rewrite firstn_length, Nat.min_l by lia; [|lia]. rewrite Nat.sub_diag. reflexivity. }
  eexists. split.
  - cbn [exec]. unfold fwStep at 1. cbn [negb orb andb fwInit wMem wParts wWire wDone wCtx wClosing wReturned].
    unfold fwStep at 1. cbn [negb orb andb wMem wParts wWire wDone wCtx wClosing wReturned]. rewrite Hl, N.eqb_refl.
    unfold fwStep at 1. cbn [wMem wParts wWire wDone wCtx wClosing wReturned].
    change (map (fun p : nat * nat => (fst p, snd p, FpNew)) parts) with l. rewrite Hn.
    unfold fwStep at 1. unfold setPart at 1. cbn [wMem wParts wWire wDone wCtx wClosing wReturned]. rewrite Hn'. reflexivity.
  - cbn [setPart wWire app]. split; [reflexivity|]. intros E. injection E as E. apply Hd. exact E.
Qed.
Print Assumptions C106_async_refuted.

Example C106_example :
  match exec (fwStep true) (fwInit [1;2;3;4;5] [(0,3); (3,2)]%nat)
          [FwCopy 0; FwSend 0; FwCancel; FwReturn; FwReuse [9;9;9;9;9]; FwCopy 1; FwSend 1] with
  | Some s => wWire s = [(0%nat, [1;2;3]); (3%nat, [9;9])]
  | None => False
  end.
Proof. vm_compute. reflexivity. Qed.

(** As long as the context lives, [Write] keeps it: it returns only when every
    fragment is through. *)
Definition fwInv (payload : bytes) (parts : list (nat * nat)) (s : fw) : Prop :=
  wCtx s = false ->
  (wReturned s = true -> wDone s = true) /\ (wDone s = true -> forallb isDonePart (wParts s) = true) /\
  (wReturned s = false -> wMem s = payload) /\
  Forall (fun x => let '(pos, n, pc) := x in In (pos, n) parts /\ match pc with FpCopied b => b = partOf payload pos n | _ => True end) (wParts s) /\
  Forall (fun x => exists n, In (fst x, n) parts /\ snd x = partOf payload (fst x) n) (wWire s).

Lemma Forall_setPart : forall (P : nat * nat * fragPc -> Prop) l i x, Forall P l -> P x -> Forall P (firstn i l ++ [x] ++ skipn (S i) l).
Proof.
  intros P l i x Hl Hx. apply Forall_app. split; [apply Forall_firstn; exact Hl|]. constructor; [exact Hx|]. apply Forall_skipn. exact Hl.
Qed.

Theorem C106_write_partial : forall payload parts ls s,
  exec (fwStep true) (fwInit payload parts) ls = Some s -> wCtx s = false ->
  Forall (fun x => exists n, In (fst x, n) parts /\ snd x = partOf payload (fst x) n) (wWire s).
Proof.
  intros payload parts ls s E.
  enough (I : fwInv payload parts s) by (intros Hc; destruct (I Hc) as (_ & _ & _ & _ & W); exact W).
  revert ls s E. apply (exec_snoc_inv _ _ (fwStep true) (fun _ s => fwInv payload parts s)).
  - intros _. cbn. split; [discriminate|]. split; [discriminate|]. split; [reflexivity|]. split; [|constructor].
    rewrite Forall_map. rewrite Forall_forall. intros [pos n] Hin. cbn. auto.
  - intros ls s l s' _ I Est. unfold fwInv in *. destruct l as [i|i| | | | |b]; cbn [fwStep] in Est.
    + destruct (nth_error (wParts s) i) as [[[pos n] [|b|d]]|] eqn:En; try discriminate. injection Est as <-. cbn.
      intros Hc. destruct (I Hc) as (I1 & I2 & I3 & I4 & I5). split; [exact I1|].
      assert (Nd : wDone s = false).
      { destruct (wDone s) eqn:Ed; [|reflexivity]. specialize (I2 eq_refl). rewrite forallb_forall in I2.
        apply nth_error_In in En. specialize (I2 _ En). discriminate. }
      assert (Nr : wReturned s = false) by (destruct (wReturned s); [rewrite I1 in Nd by reflexivity; discriminate|reflexivity]).
      split; [rewrite Nd; discriminate|]. split; [exact I3|]. split; [|exact I5].
      apply Forall_setPart; [exact I4|]. rewrite Forall_forall in I4. apply nth_error_In in En. specialize (I4 _ En). cbn in I4.
      rewrite (I3 Nr). split; [apply I4|reflexivity].
    + destruct (nth_error (wParts s) i) as [[[pos n] [|b|d]]|] eqn:En; try discriminate.
      assert (Q : wCtx s = false -> Forall (fun x : nat * bytes => exists n0, In (fst x, n0) parts /\ snd x = partOf payload (fst x) n0) (wWire s ++ [(pos, b)])).
      { intros Hc. destruct (I Hc) as (_ & _ & _ & I4 & I5). apply Forall_app. split; [exact I5|]. constructor; [|constructor].
        rewrite Forall_forall in I4. apply nth_error_In in En. specialize (I4 _ En). cbn in I4. exists n. exact I4. }
      assert (G : forall wire d, (wCtx s = false -> Forall (fun x : nat * bytes => exists n0, In (fst x, n0) parts /\ snd x = partOf payload (fst x) n0) wire) ->
        wCtx s = false ->
        (wReturned s = true -> wDone s = true) /\
        (wDone s = true -> forallb isDonePart (firstn i (wParts s) ++ (pos, n, FpDone d) :: skipn (S i) (wParts s)) = true) /\
        (wReturned s = false -> wMem s = payload) /\
        Forall (fun x => let '(pos, n, pc) := x in In (pos, n) parts /\ match pc with FpCopied b => b = partOf payload pos n | _ => True end)
          (firstn i (wParts s) ++ (pos, n, FpDone d) :: skipn (S i) (wParts s)) /\
        Forall (fun x => exists n, In (fst x, n) parts /\ snd x = partOf payload (fst x) n) wire).
      { intros wire d W Hc. destruct (I Hc) as (I1 & I2 & I3 & I4 & I5). split; [exact I1|]. split.
        - intros Hd. specialize (I2 Hd). rewrite forallb_forall in I2. apply nth_error_In in En. specialize (I2 _ En). discriminate.
        - split; [exact I3|]. split; [|exact (W Hc)]. apply (Forall_setPart _ (wParts s) i (pos, n, FpDone d)); [exact I4|].
          rewrite Forall_forall in I4. apply nth_error_In in En. specialize (I4 _ En). cbn in I4. split; [apply I4|exact Logic.I]. }
      destruct (wClosing s); injection Est as <-; cbn.
      * apply (G (wWire s) false). intros Hc. apply (I Hc).
      * apply (G (wWire s ++ [(pos, b)]) true Q).
    + destruct (forallb isDonePart (wParts s)) eqn:Ef; [|discriminate]. destruct (negb (wDone s)); [|discriminate]. injection Est as <-. cbn.
      intros Hc. destruct (I Hc) as (I1 & I2 & I3 & I4 & I5). auto 6.
    + injection Est as <-. cbn. discriminate.
    + destruct (wCtx s); [|discriminate]. injection Est as <-. cbn. discriminate.
    + destruct (_ && _) eqn:Eb in Est; [|discriminate]. injection Est as <-. cbn. intros Hc.
      destruct (I Hc) as (I1 & I2 & I3 & I4 & I5). rewrite Hc in Eb. cbn in Eb. rewrite orb_false_r in Eb.
      apply andb_true_iff in Eb. destruct Eb as [Eb _]. split; [auto|]. split; [auto|]. split; [discriminate|]. auto.
    + destruct (_ && _) eqn:Eb in Est; [|discriminate]. apply andb_true_iff in Eb. destruct Eb as [Eb _]. injection Est as <-. cbn.
      intros Hc. destruct (I Hc) as (I1 & I2 & I3 & I4 & I5). split; [auto|]. split; [auto|]. split; [discriminate|]. auto.
Qed.
Print Assumptions C106_write_partial.

Example C106_partial_example :
  match exec (fwStep true) (fwInit [1;2;3;4;5] [(0,3); (3,2)]%nat)
          [FwCopy 1; FwSend 1; FwCopy 0; FwSend 0; FwFinish; FwReturn; FwReuse [9;9;9;9;9]] with
  | Some s => wWire s = [(3%nat, [4;5]); (0%nat, [1;2;3])] /\ wCtx s = false
  | None => False
  end.
Proof. vm_compute. auto. Qed.
