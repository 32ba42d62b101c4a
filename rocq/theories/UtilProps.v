(** Properties C133 to C137. *)
From Coq Require Import String ZArith NArith List Bool Lia.
From Verif Require Import Base BaseLemmas TS MessageModel CodecProofs MiscModel MiscProps PoolModel QueueModel QueueProps UtilModel.
Import ListNotations.
Local Open Scope N_scope.

(** ** C133: [WriteTo] keeps the contract of io.WriterTo: the count it returns
    without an error is that of the bytes the writer took. *)
Definition writerTo_contract (count : Z) (failed : bool) (written : list bytes) : Prop :=
  failed = false -> count = Z.of_N (len (List.concat written)).
(** An honest writer takes everything and says so. *)
Definition honest (w : writer) : Prop := forall b, w b = (Z.of_N (len b), false).

(** What is written is the encoded header whatever the pooled buffer had in it; the
    count is twice the truth. *)
Theorem C133_written_partial : forall pooled h w, contHdr_ok h -> len pooled = 44 -> honest w ->
  exists wire, contWriteTo pooled h w = (88%Z, false, [wire]) /\ len wire = 44 /\ contRead wire = Ret (Ok (44, h)).
Proof.
  intros pooled h w O L W. destruct (contWrite_ok h pooled O) as (wire & E & LW & _); [lia|].
  assert (LW' : len wire = 44) by (unfold len in *; rewrite LW; exact L).
  exists wire. unfold contWriteTo. rewrite E, W, LW'. repeat split. exact (cont_rw _ _ _ _ O E).
Qed.
Print Assumptions C133_written_partial.

(** A failure of the writer is returned with the writer's own count. *)
Theorem C133_failure : forall pooled h w n, contHdr_ok h -> len pooled = 44 -> (forall b, w b = (n, true)) ->
  exists wire, contWriteTo pooled h w = (n, true, [wire]).
Proof.
  intros pooled h w n O L W. destruct (contWrite_ok h pooled O) as (wire & E & _); [lia|].
  exists wire. unfold contWriteTo. rewrite E, W. reflexivity.
Qed.
Print Assumptions C133_failure.

(** The contract is broken by every header and every honest writer. *)
Theorem C133_count_refuted : forall pooled h w, contHdr_ok h -> len pooled = 44 -> honest w ->
  let '(n, failed, written) := contWriteTo pooled h w in ~ writerTo_contract n failed written.
Proof.
  intros pooled h w O L W. destruct (C133_written_partial pooled h w O L W) as (wire & -> & LW & _).
  intros C. specialize (C eq_refl). cbn [List.concat] in C. rewrite app_nil_r, LW in C. discriminate.
Qed.
Print Assumptions C133_count_refuted.

Example C133_example :
  contWriteTo (repeat 9 44) {| cPacketID := [1;0;0;0;0;0;0;0]; cHdrSum := repeat 2 16; cMsgSum := repeat 3 16; cLength := 260 |}
    (fun b => (Z.of_N (len b), false))
  = (88%Z, false, [[1;0;0;0;0;0;0;0] ++ repeat 2 16 ++ repeat 3 16 ++ [4;1;0;0]]).
Proof. vm_compute. reflexivity. Qed.

(** Nothing is given to the writer when the header does not fit. *)
Theorem C133_short : forall pooled h w, len pooled < 44 -> contWriteTo pooled h w = (0%Z, true, []).
Proof.
  intros pooled h w L. unfold contWriteTo, contWrite. change messagesContainerHeadersSize with 44.
  destruct (len pooled <? 44) eqn:E; [reflexivity|apply N.ltb_ge in E; lia].
Qed.
Print Assumptions C133_short.

(** ** C134: the least of the arguments, at every type; a panic exactly without
    arguments. *)
Definition least {A} (lt : A -> A -> Prop) (m : A) (args : list A) : Prop := In m args /\ forall a, In a args -> ~ lt a m.

Lemma minLoop_least : forall A (ltb : A -> A -> bool) (lt : A -> A -> Prop),
  (forall a b, ltb a b = true <-> lt a b) -> (forall a, ~ lt a a) ->
  (forall a b c, lt a b -> lt b c -> lt a c) -> (forall a b c, lt a c -> lt a b \/ lt b c) ->
  forall args r, least lt (minLoop ltb r args) (r :: args).
Proof.
  intros A ltb lt R I T Cm. induction args as [|x args IH]; intros r; cbn [minLoop].
  - split; [left; reflexivity|]. intros a [<-|[]]. apply I.
  - destruct (IH (if ltb x r then x else r)) as [M L]. destruct (ltb x r) eqn:E.
    + split; [right; exact M|]. intros a [<-|Ha].
      * apply R in E. intros B. apply (L x (or_introl eq_refl)). eapply T; eauto.
      * apply L. exact Ha.
    + split; [destruct M as [M|M]; [left; exact M|right; right; exact M]|]. intros a [<-|[<-|Ha]].
      * apply L. left. reflexivity.
      * intros B. apply (Cm _ r) in B. destruct B as [B|B]; [apply R in B; congruence|]. exact (L r (or_introl eq_refl) B).
      * apply L. right. exact Ha.
Qed.

(** [min], on signed numbers. *)
Theorem C134_signed : forall args,
  match minInt args with
  | Ret m => least Z.lt m args
  | Panic => args = []
  end.
Proof.
  intros [|a args]; [reflexivity|]. cbn [minInt minOf]. apply minLoop_least.
  - intros. apply Z.ltb_lt.
  - intros. lia.
  - intros. lia.
  - intros. lia.
Qed.
Print Assumptions C134_signed.

(** [umin], [u32min], [u64min]. *)
Theorem C134_unsigned : forall args,
  match umin args with
  | Ret m => least N.lt m args
  | Panic => args = []
  end.
Proof.
  intros [|a args]; [reflexivity|]. cbn [umin minOf]. apply minLoop_least.
  - intros. apply N.ltb_lt.
  - intros. lia.
  - intros. lia.
  - intros. lia.
Qed.
Print Assumptions C134_unsigned.

(** So the two-argument calls (session.go 965, negotiator.go 224) never panic and
    are the minimum the models write for them. *)
Theorem C134_of_two : forall a b, umin [a; b] = Ret (N.min a b).
Proof.
  intros a b. unfold umin. cbn [minOf minLoop]. destruct (N.ltb_spec b a).
  - rewrite N.min_r by lia. reflexivity.
  - rewrite N.min_l by lia. reflexivity.
Qed.
Print Assumptions C134_of_two.

Example C134_example : minInt [2; -3; 1]%Z = Ret (-3)%Z /\ umin [2; 1; 3] = Ret 1 /\ umin [] = Panic.
Proof. vm_compute. auto. Qed.

(** ** C135: names identify states, keys and packets. *)
Theorem C135_states : forall a b, a <= 6 -> stateString a = stateString b -> a = b.
Proof.
  intros a b Ha. assert (Ca : a = 0 \/ a = 1 \/ a = 2 \/ a = 3 \/ a = 4 \/ a = 5 \/ a = 6) by lia.
  unfold stateString, stNew, stClosed, stKeyExchanging, stNegotiating, stEstablished, stPaused, stClosing.
  repeat match goal with |- context [b =? ?k] => destruct (N.eqb_spec b k) end;
    repeat (destruct Ca as [->|Ca]); subst; cbn; congruence.
Qed.
Print Assumptions C135_states.

(** Of a value that is no state no name is made up. *)
Theorem C135_no_state : forall s, stateString s = "unknown"%string <-> 6 < s.
Proof.
  intros s. unfold stateString, stNew, stClosed, stKeyExchanging, stNegotiating, stEstablished, stPaused, stClosing.
  repeat match goal with |- context [s =? ?k] => destruct (N.eqb_spec s k); [subst; split; [discriminate|lia]|] end.
  split; [intros _; lia|reflexivity].
Qed.
Print Assumptions C135_no_state.

(** A decimal number begins with a digit. *)
Definition startsWithDigit (s : string) : bool :=
  match s with
  | EmptyString => false
  | String c _ => (48 <=? Ascii.N_of_ascii c) && (Ascii.N_of_ascii c <=? 57)
  end.
Lemma showN_digit : forall n, startsWithDigit (showN n) = true.
Proof.
  intros n. unfold showN. destruct (N.to_uint n); reflexivity.
Qed.
Theorem C135_secrets : forall a b, secretIDString a = secretIDString b -> a = b.
Proof.
  intros a b. pose proof (showN_digit a) as Da. pose proof (showN_digit b) as Db. unfold secretIDString.
  repeat match goal with |- context [?x =? ?k] => destruct (N.eqb_spec x k) end; subst; intros E;
    first [reflexivity | discriminate | rewrite <- E in Db; discriminate | rewrite E in Da; discriminate | apply showN_inj; exact E].
Qed.
Print Assumptions C135_secrets.

Theorem C135_packets : forall a b, List.length a = 8%nat -> List.length b = 8%nat -> bytes_ok a -> bytes_ok b ->
  packetIDString (Some a) = packetIDString (Some b) -> a = b.
Proof.
  intros a b La Lb Oa Ob E. apply showN_inj in E. unfold packetIDValue in E.
  rewrite <- (le_enc_dec a Oa), <- (le_enc_dec b Ob), La, Lb, E. reflexivity.
Qed.
Print Assumptions C135_packets.

Example C135_example :
  map stateString [0; 1; 2; 3; 4; 5; 6; 7] =
    ["new"; "closed"; "key_exchanging"; "negotiating"; "established"; "paused"; "closing"; "unknown"]%string /\
  map secretIDString [0; 1; 2; 3; 4] = ["recent_both"; "recent_local"; "recent_remote"; "previous"; "4"]%string /\ packetIDString (Some [1;1;0;0;0;0;0;0]) = "257"%string.
Proof. vm_compute. auto. Qed.

(** ** C136: an item for a single big message is not kept in the pool
    (read_item.go 54-56). *)
Definition pool_small (limit : N) (q : queue) : Prop := forall i, In i (qPool q) -> iCap (qItems q i) <= limit.

(** It is kept: whatever the limit and the message. *)
Theorem C136_kept_refuted : forall limit payload, limit < len payload ->
  exists q, exec (qstep limit messageQueueLength) initQueue
              [QArrive payload None; QPut; QCall 0 (len payload); QRecv 0; QCopy 0; QRelease 0] = Some q /\
    qReads q 0%nat = RRet (len payload) (ReadOk payload) /\ ~ pool_small limit q /\
    exists i, In i (qPool q) /\ iCap (qItems q i) = len payload.
Proof.
  intros limit payload L. assert (E : limit <? len payload = true) by (apply N.ltb_lt; exact L).
  assert (E0 : 0 <? len payload = true) by (apply N.ltb_lt; lia).
  assert (E1 : len payload <? len payload = false) by apply N.ltb_irrefl.
  eexists. split.
  - cbn -[N.ltb len]. rewrite !E, !E0, !E1. cbn -[N.ltb len]. rewrite ?E1. cbn -[N.ltb len]. rewrite ?E1. cbn -[N.ltb len]. reflexivity.
  - cbn -[len]. split; [reflexivity|]. assert (C : exists i, In i [0%nat] /\ iCap (fupd (fupd (fun _ => freshItem) 0%nat
      {| iBusy := true; iOneTime := false; iCap := len payload; iData := payload |}) 0%nat
      {| iBusy := false; iOneTime := false; iCap := len payload; iData := [] |} i) = len payload) by (exists 0%nat; split; [left; reflexivity|reflexivity]).
    split; [|exact C]. intros P. unfold pool_small in P. specialize (P 0%nat (or_introl eq_refl)). cbn -[len] in P. lia.
Qed.
Print Assumptions C136_kept_refuted.

(** What holds: nothing allocated is larger than the largest message there was, or
    the limit. *)
Definition longest (l : list bytes) : N := fold_right (fun b m => N.max (len b) m) 0 l.
Lemma longest_app : forall a b, longest (a ++ b) = N.max (longest a) (longest b).
Proof. induction a as [|x a IH]; intros b; cbn [longest app fold_right]; [unfold longest; lia|]. fold (longest (a ++ b)) (longest a). rewrite IH. lia. Qed.
Definition capsOk (limit : N) (q : queue) : Prop := forall i, iCap (qItems q i) <= N.max limit (longest (qArrivals q)).
Lemma caps_step : forall limit capacity q l q', qstep limit capacity q l = Some q' -> capsOk limit q -> capsOk limit q'.
Proof.
  intros limit capacity q l q' H C. unfold qstep in H. destruct (qPanic q); [discriminate|].
  assert (F : forall it p it', iCap it <= N.max limit (longest (qArrivals q)) -> acquireAndFill limit it p = Some it' ->
            iCap it' <= N.max limit (longest (qArrivals q ++ [p]))).
  { intros it p it' B A. unfold acquireAndFill in A. destruct (iBusy it); [discriminate|]. cbv zeta in A. rewrite longest_app.
    cbn [longest fold_right].
    set (m := if limit <? len p then len p else limit) in A.
    assert (Hm : m <= N.max limit (len p)) by (subst m; destruct (limit <? len p); lia). clearbody m.
    destruct (N.ltb_spec (iCap it) m); destruct (_ <? len p) in A; try discriminate; injection A as <-; cbn [iCap]; lia. }
  assert (G : forall p j, iCap (qItems q j) <= N.max limit (longest (qArrivals q ++ [p]))).
  { intros p j. specialize (C j). rewrite longest_app. lia. }
  destruct l as [payload reuse| | |t size|t|t|t|i].
  - destruct (qReader q); try discriminate. cbv zeta in H.
    destruct (if limit <? len payload then None else reuse) as [i|].
    + destruct (isPooled i (qPool q)); [|discriminate]. destruct (acquireAndFill limit (qItems q i) payload) as [it|] eqn:A; injection H as <-; [|exact C].
      intros j. cbn [qItems qArrivals]. unfold fupd. destruct (Nat.eqb _ _); [eapply F; eauto; apply C|apply G].
    + destruct (acquireAndFill limit freshItem payload) as [it|] eqn:A; injection H as <-; [|exact C].
      intros j. cbn [qItems qArrivals]. unfold fupd. destruct (Nat.eqb _ _); [apply (F freshItem payload it); [apply N.le_0_l|exact A]|apply G].
  - destruct (qReader q); try discriminate. destruct (qClosed q); [injection H as <-; exact C|]. destruct (Nat.ltb _ _); [|discriminate]. injection H as <-. exact C.
  - destruct (qReader q); try discriminate. injection H as <-. exact C.
  - destruct (qReads q t); try discriminate. injection H as <-. exact C.
  - destruct (qReads q t); try discriminate. destruct (qChan q); [destruct (qClosed q); [|discriminate]|]; injection H as <-; exact C.
  - destruct (qReads q t); try discriminate. injection H as <-. exact C.
  - destruct (qReads q t); try discriminate. cbv zeta in H. destruct (negb _); [injection H as <-; exact C|]. destruct (iOneTime _); injection H as <-; [exact C|].
    intros j. cbn [qItems qArrivals]. unfold fupd. destruct (Nat.eqb _ _); [cbn [iCap]; apply C|apply C].
  - injection H as <-. exact C.
Qed.
Theorem C136_bounded_partial : forall limit capacity q, reachableQ limit capacity q ->
  forall i, In i (qPool q) -> iCap (qItems q i) <= N.max limit (longest (qArrivals q)).
Proof.
  intros limit capacity q H i _. revert i. change (capsOk limit q). revert q H. apply reachable_inv.
  - intros q -> i. cbn. lia.
  - intros q q' C [l H]. eapply caps_step; eauto.
Qed.
Print Assumptions C136_bounded_partial.

(** Sessions whose messages all fit never keep more than the limit per item. *)
Theorem C136_small_messages : forall limit capacity q, reachableQ limit capacity q ->
  Forall (fun m => len m <= limit) (qArrivals q) -> pool_small limit q.
Proof.
  intros limit capacity q H F i Hi. pose proof (C136_bounded_partial _ _ _ H i Hi) as B.
  assert (longest (qArrivals q) <= limit); [|lia]. clear -F. induction F as [|m l Hm F IH]; cbn [longest fold_right]; [lia|]. fold (longest l). lia.
Qed.
Print Assumptions C136_small_messages.

Example C136_example :
  match exec (qstep 3 1024) initQueue
    [QArrive [1;2] None; QPut; QCall 0 9; QRecv 0; QCopy 0; QRelease 0;
     QArrive [1;2;3;4;5] None; QPut; QCall 1 9; QRecv 1; QCopy 1; QRelease 1] with
  | Some q => map (fun i => iCap (qItems q i)) (qPool q) = [5; 3]
  | None => False
  end.
Proof. vm_compute. reflexivity. Qed.

(** ** C137: [buffer.Read] keeps the contract of io.Reader: it delivers as many
    bytes as it says, and at the end it says so. *)
Definition reader_contract (b : buf) (n : N) : Prop :=
  match bfRead b n with
  | Ret (_, got, count) => len got = count
  | Panic => False
  end.

Theorem C137_end_refuted : forall b n, bfOffset b <= len (bfBytes b) -> len (bfBytes b) < bfOffset b + n -> bfOffset b + n < 2^64 ->
  ~ reader_contract b n /\
  match bfRead b n with
  | Ret (b', _, _) => forall m, bfRead b' m = Panic
  | Panic => False
  end.
Proof.
  intros b n H1 H2 H3. unfold reader_contract, bfRead, gslice.
  replace (bfOffset b <=? len (bfBytes b)) with true by (symmetry; apply N.leb_le; exact H1). rewrite N.leb_refl. cbn [andb]. split.
  - unfold len. rewrite firstn_length, firstn_length, skipn_length. unfold len in *. lia.
  - intros m. cbn [bfBytes bfOffset]. rewrite N.mod_small by exact H3.
    replace (bfOffset b + n <=? len (bfBytes b)) with false by (symmetry; apply N.leb_gt; exact H2). reflexivity.
Qed.
Print Assumptions C137_end_refuted.

(** Inside the data it delivers the next bytes, and goes on behind them. *)
Theorem C137_inside_partial : forall b n, bfOffset b + n <= len (bfBytes b) -> len (bfBytes b) < 2^64 ->
  exists b', bfRead b n = Ret (b', firstn (N.to_nat n) (skipn (N.to_nat (bfOffset b)) (bfBytes b)), n) /\
    reader_contract b n /\ bfOffset b' = bfOffset b + n /\ bfBytes b' = bfBytes b.
Proof.
  intros b n H L. unfold reader_contract, bfRead, gslice.
  replace (bfOffset b <=? len (bfBytes b)) with true by (symmetry; apply N.leb_le; lia). rewrite N.leb_refl. cbn [andb].
  rewrite (firstn_all2 (skipn _ _)) by (rewrite skipn_length; unfold len; lia).
  eexists. repeat split; cbn [bfOffset bfBytes]; [|apply N.mod_small; lia].
  unfold len. rewrite firstn_length, skipn_length. unfold len in *. lia.
Qed.
Print Assumptions C137_inside_partial.

Example C137_example :
  let b := {| bfBytes := [1;2;3;4;5]; bfRest := []; bfOffset := 1; bfRef := 1; bfBusy := true |} in
  match bfRead b 3 with
  | Ret (b1, got, n) => got = [2;3;4] /\ n = 3 /\
      match bfRead b1 2 with
      | Ret (b2, got, n) => got = [5] /\ n = 2 /\ bfRead b2 0 = Panic
      | Panic => False
      end
  | Panic => False
  end.
Proof. vm_compute. auto. Qed.
