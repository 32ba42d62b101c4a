(** C65-C70, C93, C94: message types, messenger closing, options, error
    handlers, rounding, established size. *)
From Coq Require Import Ascii String DecimalString DecimalPos DecimalN NArith ZArith Arith List Bool Lia.
From Verif Require Import Base TS PacketIDModel MessageModel FragmentSendModel MiscModel.
Import ListNotations.
Local Open Scope list_scope.
Local Open Scope N_scope.

(** ** C65: channel numbers and message types *)

(** The types the protocol keeps for itself: 0 and everything from
    [messageTypeReservedAbove] up to the last one (message.go 59-82). *)
Definition reservedType (t : N) : Prop := t = 0 \/ 4294967277 <= t.

Theorem C65_distinct_partial : forall c t,
  c < 2^32 - 1 -> messageTypeChannel c = Ret t -> ~ reservedType t /\ t < 2^32 /\
  forall c' t', c' < 2^32 - 1 -> messageTypeChannel c' = Ret t' -> t = t' -> c = c'.
Proof.
  assert (G : forall c t, c < 2^32 - 1 -> messageTypeChannel c = Ret t -> t = c + 1 /\ c + 1 < 4294967277).
  { intros c t Hc H. unfold messageTypeChannel, add32, mtReservedAbove in H.
    rewrite (N.mod_small (c + 1)) in H by lia.
    destruct (N.leb_spec (2^32 - 1 - 18) (c + 1)) as [L|L]; [discriminate|].
    injection H as <-. split; [reflexivity|]. change (2^32 - 1 - 18) with 4294967277 in L. exact L. }
  intros c t Hc H. destruct (G c t Hc H) as [-> B]. unfold reservedType. repeat split; try lia.
  intros c' t' Hc' H' E. destruct (G c' t' Hc' H') as [-> _]. lia.
Qed.
Print Assumptions C65_distinct_partial.

(** Every other number is refused, and every number below the bound is accepted. *)
Theorem C65_accepts_partial : forall c, c < 2^32 - 1 ->
  (messageTypeChannel c = Panic <-> 4294967276 <= c).
Proof.
  intros c Hc. unfold messageTypeChannel, add32, mtReservedAbove.
  rewrite (N.mod_small (c + 1)) by lia. change (2^32 - 1 - 18) with 4294967277.
  destruct (N.leb_spec 4294967277 (c + 1)); split; intros; try lia; try reflexivity; discriminate.
Qed.
Print Assumptions C65_accepts_partial.

(** The very last number wraps around and gets the undefined type. The full
    statement would be [C65_distinct_partial] for [c < 2^32]. *)
Theorem C65_last_channel_refuted : exists c, c < 2^32 /\ messageTypeChannel c = Ret 0 /\ reservedType 0.
Proof. exists (2^32 - 1). split; [reflexivity|split; [vm_compute; reflexivity|left; reflexivity]]. Qed.
Print Assumptions C65_last_channel_refuted.

(** The types that the session itself sends, with their priority over
    confidentiality and sizes, are exactly the first two of the reserved ones;
    no channel has such a type. *)
Theorem C65_internal_types : forall t, MiscModel.isInternal t = true <-> t = 4294967294 \/ t = 4294967293.
Proof.
  intro t. unfold MiscModel.isInternal, mtKeyExchange, mtNegotiation. rewrite orb_true_iff, !N.eqb_eq. reflexivity.
Qed.
Print Assumptions C65_internal_types.

Theorem C65_channels_not_internal : forall c t, c < 2^32 -> messageTypeChannel c = Ret t -> MiscModel.isInternal t = false.
Proof.
  intros c t Hc H. destruct (MiscModel.isInternal t) eqn:E; [|reflexivity]. apply C65_internal_types in E.
  unfold messageTypeChannel, mtReservedAbove in H. destruct (N.leb_spec (2^32 - 1 - 18) (add32 c 1)) as [L|L]; [discriminate|].
  injection H as <-. change (2^32 - 1 - 18) with 4294967277 in L. lia.
Qed.
Print Assumptions C65_channels_not_internal.

Example C65_example :
  messageTypeChannel 0 = Ret 1 /\ messageTypeChannel 41 = Ret 42 /\
  messageTypeChannel 4294967275 = Ret 4294967276 /\ messageTypeChannel 4294967276 = Panic.
Proof. repeat split; vm_compute; reflexivity. Qed.

(** ** C66: names of message types *)

Lemma showN_inj : forall a b, showN a = showN b -> a = b.
Proof.
  intros a b H. unfold showN in H.
  assert (NN : forall n, N.to_uint n <> Decimal.Nil).
  { intros [|n] E; [discriminate|]. exact (DecimalPos.Unsigned.to_uint_nonnil n E). }
  pose proof (NilZero.usu _ (NN a)) as Ha. pose proof (NilZero.usu _ (NN b)) as Hb.
  rewrite H in Ha. rewrite Ha in Hb. injection Hb as E. apply DecimalN.Unsigned.to_uint_inj. exact E.
Qed.

Lemma app_string_inj : forall p a b : string, (p ++ a)%string = (p ++ b)%string -> a = b.
Proof. induction p as [|c p IH]; cbn; intros a b H; [exact H|]. injection H as H. auto. Qed.

Lemma name_of_channel : forall c t, c < 2^32 - 1 -> messageTypeChannel c = Ret t ->
  typeString t = ("channel" ++ showN ((c + 5) mod 256))%string.
Proof.
  intros c t Hc H.
  destruct (C65_distinct_partial c t Hc H) as [R [B _]]. unfold reservedType in R.
  unfold messageTypeChannel, add32 in H. rewrite (N.mod_small (c + 1)) in H by lia.
  destruct (mtReservedAbove <=? c + 1) eqn:E0; [discriminate|]. injection H as <-.
  unfold typeString, mtUndefined, mtKeyExchange, mtReadWrite, mtReservedAbove in *.
  change (2^32 - 1 - 18) with 4294967277 in *. change (2^32 - 1 - 1) with 4294967294.
  change (2^32 - 1 - 3) with 4294967292.
  destruct (N.eqb_spec (c + 1) 0); [lia|]. destruct (N.eqb_spec (c + 1) 4294967294); [lia|].
  destruct (N.eqb_spec (c + 1) 4294967292); [lia|].
  destruct (N.leb_spec 1 (c + 1)); [|lia]. destruct (N.ltb_spec (c + 1) 4294967277); [|lia].
  cbn [andb]. f_equal. f_equal. unfold u8, sub32.
  change (2^32 - 4294967292) with 4. rewrite <- N.add_assoc. change (1 + 4) with 5.
  rewrite (N.mod_small (c + 5) (2^32)) by (change (2^32) with 4294967296; lia). reflexivity.
Qed.

(** No channel at all is named after its own number. *)
Theorem C66_wrong_number_refuted : forall c t, c < 2^32 - 1 -> messageTypeChannel c = Ret t ->
  typeString t <> ("channel" ++ showN c)%string.
Proof.
  intros c t Hc H. rewrite (name_of_channel c t Hc H). intros E.
  apply app_string_inj in E. apply showN_inj in E.
  pose proof (N.div_mod c 256 ltac:(lia)) as D. pose proof (N.mod_lt (c + 5) 256 ltac:(lia)) as L.
  pose proof (N.div_mod (c + 5) 256 ltac:(lia)) as D5.
  set (q := (c + 5) / 256) in *. clearbody q. rewrite E in *. clear E D. lia.
Qed.
Print Assumptions C66_wrong_number_refuted.

(** Channels 256 apart share their name. *)
Theorem C66_same_name_refuted : forall c t t', c + 256 < 2^32 - 1 ->
  messageTypeChannel c = Ret t -> messageTypeChannel (c + 256) = Ret t' ->
  t <> t' /\ typeString t = typeString t'.
Proof.
  intros c t t' Hc H H'. split.
  - intros E. destruct (C65_distinct_partial c t ltac:(lia) H) as [_ [_ I]].
    specialize (I (c + 256) t' Hc H' E). lia.
  - rewrite (name_of_channel c t ltac:(lia) H), (name_of_channel _ _ Hc H'). f_equal. f_equal.
    replace (c + 256 + 5) with (c + 5 + 1 * 256) by lia. rewrite N.mod_add by lia. reflexivity.
Qed.
Print Assumptions C66_same_name_refuted.

(** What is left of it: numbers that are less than 256 apart have different
    names. The full statement is: for all [c <> c'], and the name is
    ["channel" ++ showN c]. *)
Theorem C66_near_partial : forall c c' t t', c < c' -> c' < c + 256 -> c' < 2^32 - 1 ->
  messageTypeChannel c = Ret t -> messageTypeChannel c' = Ret t' -> typeString t <> typeString t'.
Proof.
  intros c c' t t' H0 H1 H2 H H'. rewrite (name_of_channel c t ltac:(lia) H), (name_of_channel c' t' H2 H').
  intros E. apply app_string_inj in E. apply showN_inj in E.
  pose proof (N.div_mod (c + 5) 256 ltac:(lia)) as D. pose proof (N.div_mod (c' + 5) 256 ltac:(lia)) as D'.
  rewrite <- E in D'. set (m := (c + 5) mod 256) in *. clearbody m.
  set (q := (c + 5) / 256) in *. clearbody q. set (q' := (c' + 5) / 256) in *. clearbody q'. lia.
Qed.
Print Assumptions C66_near_partial.

(** A channel's name is never the name of one of the protocol's own types. *)
Theorem C66_not_internal_partial : forall c t, c < 2^32 - 1 -> messageTypeChannel c = Ret t ->
  typeString t <> typeString mtUndefined /\ typeString t <> typeString mtKeyExchange /\
  typeString t <> typeString mtReadWrite /\ typeString t <> typeString mtNegotiation.
Proof. intros c t Hc H. rewrite (name_of_channel c t Hc H). repeat split; intros E; vm_compute in E; discriminate. Qed.
Print Assumptions C66_not_internal_partial.

Example C66_example :
  typeString 1 = "channel5"%string /\ typeString 257 = "channel5"%string /\
  typeString 252 = "channel0"%string /\ typeString mtReadWrite = "read_write"%string /\
  typeString mtNegotiation = "unknown"%string.
Proof. repeat split; vm_compute; reflexivity. Qed.

(** ** C67: closing a messenger *)

Definition inside (x : closer) : bool := match x with ClHandler | ClDone => true | _ => false end.

Record MI (s : msgr) : Prop := {
  mi_once : forall c d, inside (mCalls s c) = true -> inside (mCalls s d) = true -> c = d;
  mi_shape :
    (* nobody came *)
    (mClosed s = false /\ mWg s = 1%Z /\ mRuns s = 0%nat /\ mFinished s = 0%nat /\ (forall c, mCalls s c = ClIdle)) \/
    (* the winner is inside *)
    (mClosed s = true /\ mWg s = 1%Z /\ exists c,
       (mCalls s c = ClHandler /\ mHasClose s = true /\ mRuns s = 1%nat /\ mFinished s = 0%nat) \/
       (mCalls s c = ClDone /\ mRuns s = (if mHasClose s then 1 else 0)%nat /\ mFinished s = mRuns s)) \/
    (* the winner is gone *)
    (mClosed s = true /\ mWg s = 0%Z /\ mRuns s = (if mHasClose s then 1 else 0)%nat /\ mFinished s = mRuns s /\
     forall c, inside (mCalls s c) = false);
  mi_wait : forall w, mWaiting s w = true -> mWg s = 0%Z
}.

Lemma MI_init : forall h, MI (msgrInit h).
Proof. intros h. constructor; cbn; intros; try discriminate. left. repeat split; reflexivity. Qed.

Lemma MI_step : forall s l s', MI s -> msgrStep s l = Some s' -> MI s'.
Proof.
  intros s l s' [IO IS IW] H. destruct l as [c|c|c|w]; cbn [msgrStep] in H.
  - destruct (mCalls s c) eqn:Ec; try discriminate.
    destruct IS as [[Hc [Hw [Hr [Hf Hi]]]]|[[Hc [Hw Hx]]|[Hc [Hw [Hr [Hf Hi]]]]]]; rewrite Hc in H.
    + destruct (mHasClose s) eqn:Eh; injection H as <-; constructor; cbn.
      * intros a b. unfold fupd. destruct (Nat.eqb_spec a c), (Nat.eqb_spec b c); rewrite ?Hi; cbn; congruence.
      * right. left. repeat split; auto. exists c. left. rewrite fupd_same, Hr. repeat split; auto.
      * exact IW.
      * intros a b. unfold fupd. destruct (Nat.eqb_spec a c), (Nat.eqb_spec b c); rewrite ?Hi; cbn; congruence.
      * right. left. repeat split; auto. exists c. right. rewrite fupd_same, Eh, Hr, Hf. repeat split; auto.
      * exact IW.
    + injection H as <-. constructor; cbn.
      * intros a b. unfold fupd. destruct (Nat.eqb_spec a c), (Nat.eqb_spec b c); cbn; try discriminate. apply IO.
      * right. left. repeat split; auto. destruct Hx as [d Hd]. exists d.
        assert (d <> c) by (intros ->; rewrite Ec in Hd; destruct Hd as [[E _]|[E _]]; discriminate).
        rewrite fupd_other by assumption. exact Hd.
      * exact IW.
    + injection H as <-. constructor; cbn.
      * intros a b. unfold fupd. destruct (Nat.eqb_spec a c), (Nat.eqb_spec b c); cbn; try discriminate. apply IO.
      * right. right. repeat split; auto. intros d. unfold fupd. destruct (Nat.eqb d c); auto.
      * exact IW.
  - destruct (mCalls s c) eqn:Ec; try discriminate. injection H as <-. constructor; cbn.
    + intros a b. unfold fupd. destruct (Nat.eqb_spec a c), (Nat.eqb_spec b c); cbn; subst; auto.
      * intros _ Hb. apply IO; [rewrite Ec; reflexivity|assumption].
      * intros Ha _. apply IO; [assumption|rewrite Ec; reflexivity].
    + destruct IS as [[_ [_ [_ [_ Hi]]]]|[[Hc [Hw Hx]]|[_ [_ [_ [_ Hi]]]]]].
      * rewrite Hi in Ec. discriminate.
      * right. left. repeat split; auto. exists c. right. rewrite fupd_same. destruct Hx as [d Hd].
        assert (d = c).
        { apply IO; [destruct Hd as [[E _]|[E _]]; rewrite E; reflexivity|rewrite Ec; reflexivity]. }
        subst d. destruct Hd as [[E [Hh [Hr Hf]]]|[E _]]; [|congruence].
        rewrite Hh, Hr, Hf. repeat split; auto.
      * specialize (Hi c). rewrite Ec in Hi. discriminate.
    + exact IW.
  - destruct (mCalls s c) eqn:Ec; try discriminate. injection H as <-. constructor; cbn.
    + intros a b. unfold fupd. destruct (Nat.eqb_spec a c), (Nat.eqb_spec b c); cbn; try discriminate. apply IO.
    + destruct IS as [[_ [_ [_ [_ Hi]]]]|[[Hc [Hw Hx]]|[_ [_ [_ [_ Hi]]]]]].
      * rewrite Hi in Ec. discriminate.
      * right. right. destruct Hx as [d Hd].
        assert (d = c).
        { apply IO; [destruct Hd as [[E _]|[E _]]; rewrite E; reflexivity|rewrite Ec; reflexivity]. }
        subst d. destruct Hd as [[E _]|[E [Hr Hf]]]; [congruence|].
        rewrite Hw. repeat split; auto.
        intros d. unfold fupd. destruct (Nat.eqb_spec d c) as [|n]; [reflexivity|].
        destruct (inside (mCalls s d)) eqn:Ed; [|reflexivity].
        exfalso. apply n. apply IO; [assumption|rewrite Ec; reflexivity].
      * specialize (Hi c). rewrite Ec in Hi. discriminate.
    + intros w Hwt. specialize (IW w Hwt).
      destruct IS as [[_ [_ [_ [_ Hi]]]]|[[_ [Hw _]]|[_ [_ [_ [_ Hi]]]]]].
      * rewrite Hi in Ec. discriminate.
      * congruence.
      * specialize (Hi c). rewrite Ec in Hi. discriminate.
  - destruct (Z.eqb_spec (mWg s) 0) as [E|]; cbn [andb] in H; [|discriminate].
    destruct (mWaiting s w); cbn [negb] in H; [discriminate|]. injection H as <-.
    constructor; cbn; auto.
Qed.

Definition msgrReach (hasClose : bool) : msgr -> Prop := reachable (fun s => s = msgrInit hasClose) (lstep msgrStep).
Lemma MI_reach : forall h s, msgrReach h s -> MI s.
Proof.
  intros h s H. refine (reachable_inv _ _ MI _ _ s H).
  - intros x ->. apply MI_init.
  - intros a b Ha [l Hl]. exact (MI_step a l b Ha Hl).
Qed.
Lemma hasClose_reach : forall h s, msgrReach h s -> mHasClose s = h.
Proof.
  intros h s H. refine (reachable_inv _ _ (fun s => mHasClose s = h) _ _ s H).
  - intros x ->. reflexivity.
  - intros a b Ha [l Hl]. destruct l; cbn [msgrStep] in Hl; destruct (mCalls a _) in Hl || idtac; try discriminate.
    all: try (destruct (mClosed a); [injection Hl as <-; exact Ha|]; destruct (mHasClose a) eqn:E; injection Hl as <-; cbn; congruence).
    all: try (injection Hl as <-; exact Ha).
    destruct (_ && _); [injection Hl as <-; exact Ha|discriminate].
Qed.

(** Never more than once, and the counter of the wait group never goes below
    zero (which would panic). *)
Theorem C67_at_most_once : forall h s, msgrReach h s -> (mRuns s <= 1)%nat /\ (0 <= mWg s <= 1)%Z.
Proof.
  intros h s H. destruct (MI_reach h s H) as [_ IS _].
  destruct IS as [[_ [-> [-> _]]]|[[_ [-> [c [[_ [_ [-> _]]]|[_ [-> _]]]]]]|[_ [-> [-> _]]]]];
    try destruct (mHasClose s); lia.
Qed.
Print Assumptions C67_at_most_once.

(** When at least one call of [Close] was made and all calls came back, the
    handler's [Close] ran exactly once (if there is one) and the waiters are
    released. *)
Theorem C67_exactly_once : forall h s c, msgrReach h s ->
  (forall d, mCalls s d = ClIdle \/ mCalls s d = ClReturned) -> mCalls s c = ClReturned ->
  mRuns s = (if h then 1 else 0)%nat /\ mFinished s = mRuns s /\ mWg s = 0%Z.
Proof.
  intros h s c H Q R. pose proof (hasClose_reach h s H) as Eh. destruct (MI_reach h s H) as [_ IS _].
  destruct IS as [[_ [_ [_ [_ Hi]]]]|[[_ [_ [d [[E _]|[E _]]]]]|[_ [E2 [E3 [E4 _]]]]]].
  - rewrite Hi in R. discriminate.
  - destruct (Q d) as [E'|E']; congruence.
  - destruct (Q d) as [E'|E']; congruence.
  - rewrite <- Eh. repeat split; assumption.
Qed.
Print Assumptions C67_exactly_once.

(** [WaitForClosure] returns only after the handler's [Close] has returned. *)
Theorem C67_waiters : forall h s w, msgrReach h s -> mWaiting s w = true ->
  mFinished s = (if h then 1 else 0)%nat.
Proof.
  intros h s w H W. pose proof (hasClose_reach h s H) as Eh. destruct (MI_reach h s H) as [_ IS IW].
  specialize (IW w W).
  destruct IS as [[_ [E _]]|[[_ [E _]]|[_ [_ [E3 [E4 _]]]]]]; [congruence|congruence|].
  rewrite E4, E3, Eh. reflexivity.
Qed.
Print Assumptions C67_waiters.

(** Nothing gets stuck inside: whoever is in [Close] can go on. *)
Theorem C67_progress : forall h s c, msgrReach h s -> inside (mCalls s c) = true ->
  exists s', msgrStep s (MHandlerReturns c) = Some s' \/ msgrStep s (MWgDone c) = Some s'.
Proof.
  intros h s c _ I. destruct (mCalls s c) eqn:E; try discriminate; cbn [msgrStep]; rewrite E.
  - eexists. left. reflexivity.
  - eexists. right. reflexivity.
Qed.
Print Assumptions C67_progress.

(** A second [Close] does not wait for the first: it can return while the
    handler's [Close] is still running. *)
Example C67_example :
  let run := exec msgrStep (msgrInit true) in
  (exists s, run [MCall 0; MCall 1] = Some s /\ mCalls s 1%nat = ClReturned /\ mFinished s = 0%nat) /\
  (exists s, run [MCall 0; MCall 1; MHandlerReturns 0; MWgDone 0; MWaitReturns 7; MCall 2] = Some s /\
             mRuns s = 1%nat /\ mWaiting s 7%nat = true) /\
  run [MCall 0; MHandlerReturns 0; MWaitReturns 7] = None.
Proof. cbn. repeat split; eexists; repeat split. Qed.

(** ** C68: options *)

(** What the documentation of [SessionOptions] (session.go 200-320) and of
    [KeyExchangerOptions] (key_exchanger.go 122-176) promises, as a relation. *)
Definition documented (lossy : bool) (o : sessOptions) (r : sessInit) : Prop :=
  (* "If it is set to a nil-value then DefaultErrorOn... will be used instead" *)
  (oErrorOn o = None -> sErrorOn r = Some 3) /\
  (forall n, oErrorOn o = Some n -> n <> 0 -> sErrorOn r = Some n) /\
  (oErrorOn o = Some 0 -> sErrorOn r = None) /\
  (* "nil-value then DefaultSendDelay"; "zero then no delay will be performed" *)
  (oSendDelay o = None -> sDelay r = Some 50000%Z) /\
  (oSendDelay o = Some 0%Z -> sDelay r = None) /\
  (forall d, oSendDelay o = Some d -> (0 < d)%Z -> sDelay r = Some d) /\
  (* "negative: disable"; "1: allowed to grow only"; zero: the default *)
  ((oStorageSize o < 0)%Z -> sStorage r = None) /\
  (oStorageSize o = 1%Z -> exists st, sStorage r = Some st /\
     forall id, push st id = if 0 <? id then Ret ({| latest := id; table := [] |}, true) else Ret (st, false)) /\
  (oStorageSize o = 0%Z -> exists st, sStorage r = Some st /\ len (table st) = 4 /\ latest st = 0) /\
  (forall n, oStorageSize o = Z.of_N n -> 1 < n -> exists st, sStorage r = Some st /\ latest st = 0 /\
     n <= 64 * len (table st) < n + 64) /\
  (* sizes: explicit ones are kept *)
  (oPayloadLimit o <> 0 -> sPayloadLimit r = oPayloadLimit o) /\
  (oPayloadLimit o = 0 -> sPayloadLimit r = if lossy then 1392 else 65216) /\
  sEstablished r = sPayloadLimit r /\
  sMaxChainDiff r = (if oMaxChainDiff o =? 0 then 8 else oMaxChainDiff o) /\
  sMaxFragmented r = (if oMaxFragmented o =? 0 then 2^16 else oMaxFragmented o) /\
  (sHasAux r = true <-> oPSK o <> None) /\
  (* the key exchanger: a minute, a second, a minute, answer and wait *)
  (let k := oKx o in let k' := sKx r in
   (kUpdate k = 0 -> kUpdate k' = 60 * 10^9)%Z /\ (kUpdate k <> 0 -> kUpdate k' = kUpdate k)%Z /\
   (kRetry k = 0 -> kRetry k' = 10^9)%Z /\ (kRetry k <> 0 -> kRetry k' = kRetry k)%Z /\
   (kTimeout k = 0 -> kTimeout k' = 60 * 10^9)%Z /\ (kTimeout k <> 0 -> kTimeout k' = kTimeout k)%Z /\
   (kAnswers k = 0 -> kAnswers k' = 1) /\ (kAnswers k <> 0 -> kAnswers k' = kAnswers k)).

Definition optionsOf (o : option sessOptions) : sessOptions := match o with Some o => o | None => zeroOptions end.

Ltac kxd o := unfold kxDefaults; cbn; intros H;
  first [rewrite H; reflexivity
        |destruct (Z.eqb_spec (kUpdate (oKx o)) 0); [contradiction|reflexivity]
        |destruct (Z.eqb_spec (kRetry (oKx o)) 0); [contradiction|reflexivity]
        |destruct (Z.eqb_spec (kTimeout (oKx o)) 0); [contradiction|reflexivity]
        |destruct (N.eqb_spec (kAnswers (oKx o)) 0); [contradiction|reflexivity]].

Theorem C68_defaults : forall b o,
  documented (match b with BackendUDPConn | BackendWithAddr AddrUDP => true | _ => false end)
    (optionsOf o) (initSession initialLimit initialLossyLimit b o).
Proof.
  intros b o0. unfold documented, initSession. fold (optionsOf o0). set (o := optionsOf o0). clearbody o.
  cbn [sErrorOn sDelay sStorage sPayloadLimit sEstablished sMaxChainDiff sMaxFragmented sHasAux sKx].
  repeat match goal with |- _ /\ _ => split end.
  - intros ->. reflexivity.
  - intros n -> Hn. destruct (N.eqb_spec n 0); [contradiction|reflexivity].
  - intros ->. reflexivity.
  - intros ->. reflexivity.
  - intros ->. reflexivity.
  - intros d -> Hd. destruct (Z.leb_spec d 0); [lia|reflexivity].
  - intros H. destruct (Z.eqb_spec (oStorageSize o) 0); [lia|]. destruct (Z.ltb_spec 0 (oStorageSize o)); [lia|reflexivity].
  - intros ->. cbn -[push]. eexists. split; [reflexivity|]. intros id. unfold push. cbn [latest table].
    change (newStorage 0) with {| latest := 0; table := [] |}. cbn [latest table].
    destruct (0 <? id) eqn:E; [reflexivity|].
    apply N.ltb_ge in E. assert (id = 0) by lia. subst id. reflexivity.
  - intros ->. eexists. split; [reflexivity|]. split; vm_compute; reflexivity.
  - intros n -> Hn. destruct (Z.eqb_spec (Z.of_N n) 0); [lia|]. destruct (Z.ltb_spec 0 (Z.of_N n)); [|lia].
    destruct (Z.eqb_spec (Z.of_N n) 1); [lia|]. rewrite N2Z.id. eexists. split; [reflexivity|]. split; [reflexivity|].
    unfold newStorage. cbn [table]. destruct (N.ltb_spec 0 n); [|lia]. unfold len. rewrite repeat_length, N2Nat.id.
    pose proof (N.div_mod (n + 63) 64 ltac:(lia)) as D. pose proof (N.mod_lt (n + 63) 64 ltac:(lia)) as L.
    set (q := (n + 63) / 64) in *. clearbody q. set (m := (n + 63) mod 64) in *. clearbody m. lia.
  - intros H. destruct (N.eqb_spec (oPayloadLimit o) 0); [contradiction|reflexivity].
  - intros ->. destruct b as [|[]|]; vm_compute; reflexivity.
  - reflexivity.
  - reflexivity.
  - reflexivity.
  - destruct (oPSK o); split; intros H; congruence.
  - kxd o.
  - kxd o.
  - kxd o.
  - kxd o.
  - kxd o.
  - kxd o.
  - kxd o.
  - kxd o.
Qed.
Print Assumptions C68_defaults.

Example C68_example :
  let r := initSession initialLimit initialLossyLimit BackendUDPConn
    (Some {| oErrorOn := Some 0; oSendDelay := Some (-5)%Z; oStorageSize := 100; oPayloadLimit := 0; oMaxChainDiff := 3;
             oMaxFragmented := 0; oPSK := Some []; oKx := zeroKx |}) in
  sErrorOn r = None /\ sDelay r = None /\ sPayloadLimit r = 1392 /\ sPacketLimit r = 1445 /\ sMaxChainDiff r = 3 /\
  match sStorage r with Some st => len (table st) = 2 | None => False end /\ sHasAux r = true.
Proof. vm_compute. repeat split. Qed.

(** ** C94: buffers for packets are large enough for the payload *)

(** A packet has 53 bytes more than its payload (session.go 251-253). *)
Theorem C94_packet_limit_partial : forall lim lossyLim b o,
  let r := initSession lim lossyLim b o in
  sPayloadLimit r < 2^32 - 53 -> sPacketLimit r = sPayloadLimit r + 53 /\ packetSizeOf (sEstablished r) = sPacketLimit r.
Proof.
  intros lim lossyLim b o r H. unfold r in *. clear r. unfold initSession in *.
  cbn [sPayloadLimit sPacketLimit sEstablished] in *. split; [|reflexivity].
  set (l := if oPayloadLimit _ =? 0 then _ else _) in *. clearbody l.
  unfold add32, containerHeadersSize, msgHeadersSize. change (2^32) with 4294967296 in *.
  rewrite (N.mod_small (l + 44)) by lia. rewrite N.mod_small by lia. lia.
Qed.
Print Assumptions C94_packet_limit_partial.

(** The largest limits wrap around: the buffers are then smaller than a single
    header. The full statement is the one above without the bound. *)
Theorem C94_overflow_refuted : forall b l, 2^32 - 53 <= l -> l < 2^32 ->
  let r := initSession initialLimit initialLossyLimit b
    (Some {| oErrorOn := None; oSendDelay := None; oStorageSize := 0; oPayloadLimit := l; oMaxChainDiff := 0;
             oMaxFragmented := 0; oPSK := None; oKx := zeroKx |}) in
  sPayloadLimit r = l /\ sPacketLimit r < 53.
Proof.
  intros b l H0 H1 r. unfold r. clear r. unfold initSession. cbn [oPayloadLimit sPayloadLimit sPacketLimit].
  change (2^32 - 53) with 4294967243 in H0. change (2^32) with 4294967296 in H1.
  destruct (N.eqb_spec l 0); [lia|]. split; [reflexivity|].
  unfold add32, containerHeadersSize, msgHeadersSize. change (2^32) with 4294967296.
  rewrite N.add_mod_idemp_l by lia.
  replace (l + 44 + 9) with (l - 4294967243 + 1 * 4294967296) by lia. rewrite N.mod_add by lia.
  rewrite N.mod_small by lia. lia.
Qed.
Print Assumptions C94_overflow_refuted.

(** Setting a process-wide default below 16 leaves no payload at all: with an
    option of zero ("use the default") the limit is then zero and every
    non-empty message is too big. *)
Theorem C94_tiny_default_refuted : forall n lossyLim, n < 16 ->
  sPayloadLimit (initSession (setLimit n) lossyLim BackendOther None) = 0.
Proof.
  intros n lossyLim H. unfold initSession. cbn.
  assert (C : n = 0 \/ n = 1 \/ n = 2 \/ n = 3 \/ n = 4 \/ n = 5 \/ n = 6 \/ n = 7 \/ n = 8 \/ n = 9 \/ n = 10 \/
              n = 11 \/ n = 12 \/ n = 13 \/ n = 14 \/ n = 15) by lia.
  repeat (destruct C as [C|C]; [subst n; reflexivity|]). subst n. reflexivity.
Qed.
Print Assumptions C94_tiny_default_refuted.

Example C94_example :
  sPacketLimit (initSession initialLimit initialLossyLimit BackendOther None) = 65269 /\
  sPacketLimit (initSession initialLimit initialLossyLimit BackendOther
    (Some {| oErrorOn := None; oSendDelay := None; oStorageSize := 0; oPayloadLimit := 2^32 - 50; oMaxChainDiff := 0;
             oMaxFragmented := 0; oPSK := None; oKx := zeroKx |})) = 3.
Proof. split; vm_compute; reflexivity. Qed.

(** ** C69: errors *)

Theorem C69_wrap_nil : forall E (wrap : E -> E) err, wrapError wrap err = None <-> err = None.
Proof. intros E wrap [e|]; cbn; split; intros H; congruence. Qed.
Print Assumptions C69_wrap_nil.

(** One wrapped handler: the user's comes first; the internal one runs exactly
    when the user's said "not handled". *)
Theorem C69_user_first : forall E (user internal : E -> bool) e,
  errorCall (wrapErrorHandler (Some (User 0 user)) 1 internal) e =
  (user e || internal e, if user e then [0%nat] else [0%nat; 1%nat]).
Proof. intros E user internal e. cbn. destruct (user e); reflexivity. Qed.
Print Assumptions C69_user_first.

Theorem C69_nil_handler : forall E (internal : E -> bool) e,
  errorCall (wrapErrorHandler None 1 internal) e = (internal e, [1%nat]).
Proof. reflexivity. Qed.
Print Assumptions C69_nil_handler.

(** Any number of wrappings: the handlers are asked from the inside out until
    the first that handles the error. *)
Fixpoint askedUntil {E} (hs : list (nat * (E -> bool))) (e : E) : list nat :=
  match hs with
  | [] => []
  | (id, f) :: r => id :: (if f e then [] else askedUntil r e)
  end.
Definition wrapAll {E} (user : nat * (E -> bool)) (hs : list (nat * (E -> bool))) : eventHandler E :=
  fold_left (fun h p => wrapErrorHandler (Some h) (fst p) (snd p)) hs (User (fst user) (snd user)).

Theorem C69_nested : forall E (user : nat * (E -> bool)) hs e,
  errorCall (wrapAll user hs) e = (existsb (fun p => snd p e) (user :: hs), askedUntil (user :: hs) e).
Proof.
  intros E user hs e. unfold wrapAll. destruct user as [uid uf].
  induction hs as [|h hs IH] using rev_ind; cbn [fst snd].
  - cbn. destruct (uf e); reflexivity.
  - rewrite fold_left_app. cbn [fold_left wrapErrorHandler errorCall fst snd] in *. rewrite IH. clear IH.
    change ((uid, uf) :: hs ++ [h]) with (((uid, uf) :: hs) ++ [h]).
    set (l := (uid, uf) :: hs). clearbody l. rewrite existsb_app. cbn [existsb]. rewrite orb_false_r.
    assert (G : forall l, askedUntil (l ++ [h]) e =
                if existsb (fun p => snd p e) l then askedUntil l e else askedUntil l e ++ [fst h]).
    { clear. intros l. induction l as [|[i f] l IH]; cbn.
      - destruct h as [i f]. cbn. destruct (f e); reflexivity.
      - destruct (f e); cbn; [reflexivity|]. rewrite IH. destruct (existsb _ l); reflexivity. }
    rewrite G. destruct (existsb _ l); reflexivity.
Qed.
Print Assumptions C69_nested.

Example C69_example :
  let even n := Nat.even n in let big n := Nat.leb 10 n in
  errorCall (wrapAll (0%nat, even) [(1%nat, big); (2%nat, fun _ => true)]) 4%nat = (true, [0%nat]) /\
  errorCall (wrapAll (0%nat, even) [(1%nat, big); (2%nat, fun _ => true)]) 11%nat = (true, [0%nat; 1%nat]) /\
  errorCall (wrapAll (0%nat, even) [(1%nat, big)]) 7%nat = (false, [0%nat; 1%nat]).
Proof. repeat split. Qed.

(** ** C70: rounding *)

Lemma land_not_mask : forall x k, x < 2^32 -> k <= 32 ->
  N.land x (N.lxor (N.ones k) (N.ones 32)) = 2^k * (x / 2^k).
Proof.
  intros x k Hx Hk. transitivity (N.ldiff x (N.ones k)).
  - apply N.bits_inj. intros i. rewrite N.land_spec, N.lxor_spec, N.ldiff_spec.
    destruct (N.lt_ge_cases i 32) as [L|L].
    + rewrite (N.ones_spec_low 32 i) by exact L. rewrite xorb_true_r. reflexivity.
    + assert (T : N.testbit x i = false).
      { destruct (N.eq_dec x 0) as [->|nz]; [apply N.bits_0|]. apply N.bits_above_log2.
        apply N.log2_lt_pow2; [lia|]. eapply N.lt_le_trans; [exact Hx|]. apply N.pow_le_mono_r; lia. }
      rewrite T. reflexivity.
  - rewrite N.ldiff_ones_r, N.shiftl_mul_pow2, N.shiftr_div_pow2. lia.
Qed.

Theorem C70_least_multiple : forall k size, k <= 31 -> size + (2^k - 1) < 2^32 ->
  let r := roundSize size (2^k) in
  (exists q, r = q * 2^k) /\ size <= r /\ forall q, size <= q * 2^k -> r <= q * 2^k.
Proof.
  intros k size Hk Hs r.
  assert (P : 0 < 2^k) by (apply N.neq_0_lt_0, N.pow_nonzero; lia).
  assert (P32 : 2^k < 2^32) by (apply N.pow_lt_mono_r; lia).
  assert (E : r = 2^k * ((size + (2^k - 1)) / 2^k)).
  { unfold r, roundSize. assert (E1 : sub32 (2^k) 1 = 2^k - 1).
    { unfold sub32. replace (2^k + (2^32 - 1)) with (2^k - 1 + 1 * 2^32) by lia.
      rewrite N.mod_add by (vm_compute; discriminate). apply N.mod_small. lia. }
    rewrite E1. unfold add32. rewrite (N.mod_small (size + (2^k - 1))) by exact Hs.
    replace (2^k - 1) with (N.ones k) by (rewrite N.ones_equiv; lia).
    change (2^32 - 1) with (N.ones 32). rewrite land_not_mask; [reflexivity| |lia].
    rewrite N.ones_equiv. replace (N.pred (2^k)) with (2^k - 1) by lia. exact Hs. }
  clearbody r. rewrite E. clear E r.
  pose proof (N.div_mod (size + (2^k - 1)) (2^k) ltac:(lia)) as D.
  pose proof (N.mod_lt (size + (2^k - 1)) (2^k) ltac:(lia)) as L.
  set (q := (size + (2^k - 1)) / 2^k) in *. clearbody q.
  set (m := (size + (2^k - 1)) mod 2^k) in *. clearbody m.
  set (p := 2^k) in *. clearbody p. split; [exists q; lia|]. split; [lia|].
  intros q' H'. destruct (N.le_gt_cases q q') as [G|G]; [nia|]. exfalso.
  assert (q' * p + p <= p * q) by nia. lia.
Qed.
Print Assumptions C70_least_multiple.

(** The limit is needed: rounding the last sizes up wraps around to zero. *)
Theorem C70_wraps_refuted : roundSize (2^32 - 5) 16 = 0.
Proof. vm_compute. reflexivity. Qed.
Print Assumptions C70_wraps_refuted.

Example C70_example :
  roundSize 0 16 = 0 /\ roundSize 1 16 = 16 /\ roundSize 16 16 = 16 /\ roundSize 1393 64 = 1408 /\ roundSize 77 1 = 77.
Proof. repeat split; vm_compute; reflexivity. Qed.

(** ** C93: asking for the established size *)

(** While the session is established or closing the answer is the negotiated
    size and the call does not block. *)
Theorem C93_established_partial : forall st ctx size r, st = SEstablished \/ st = SClosing ->
  getEstablishedPayloadSize st ctx true size r -> r = GReturns size.
Proof. intros st ctx size r [-> | ->] H; exact H. Qed.
Print Assumptions C93_established_partial.

(** In any other state of a started session that was established and whose
    context is alive (a pause) the answer is the same. *)
Theorem C93_paused_partial : forall st size r,
  getEstablishedPayloadSize st (Some false) true size r -> r = GReturns size.
Proof.
  intros st size r H. destruct st; cbn in H; try exact H;
    destruct H as [[E _]|[[_ E]|[_ [E _]]]]; try discriminate; exact E.
Qed.
Print Assumptions C93_paused_partial.

(** Afterwards both zero and the size are possible: the answer of a closed
    session that was established is up to the scheduler, and even a session that
    is merely paused answers zero once its context is cancelled. The full
    statement is: every answer of a session that was established is [size]. *)
Theorem C93_closed_refuted : forall size, 0 < size ->
  getEstablishedPayloadSize SClosed (Some true) true size (GReturns 0) /\
  getEstablishedPayloadSize SClosed (Some true) true size (GReturns size) /\
  getEstablishedPayloadSize SPaused (Some true) true size (GReturns 0).
Proof. intros size H. cbn. tauto. Qed.
Print Assumptions C93_closed_refuted.

(** Before [Start] there is no context and the call panics. *)
Theorem C93_not_started_refuted : forall size r, getEstablishedPayloadSize SNew None false size r -> r = GPanics.
Proof. intros size r H. exact H. Qed.
Print Assumptions C93_not_started_refuted.

(** With zero for an answer a long message is not cut at all: the space for a
    fragment is computed by a subtraction that wraps, so a single fragment carries
    the whole message, whatever the session's limit is. *)
Theorem C93_zero_no_split_refuted : forall payload : bytes, payload <> [] -> len payload <= 2^32 - 24 ->
  splitMessage 0 payload = SplitDone [(0, payload)].
Proof.
  intros payload Hne Hl. unfold splitMessage. change (sub32 0 messageFragmentHeadersSize) with 4294967272.
  change (2^32 - 24) with 4294967272 in Hl.
  destruct payload as [|x p]; [contradiction|]. set (q := x :: p) in *.
  assert (Hq : (length q = S (length p))%nat) by reflexivity. rewrite Hq. cbn [splitLoop].
  assert (Hp : 0 < len q) by (unfold len; rewrite Hq; lia).
  destruct (N.ltb_spec 0 (len q)); [|lia].
  unfold u32. rewrite (N.mod_small (len q)) by (change (2^32) with 4294967296; lia).
  assert (Em : (if len q <? 4294967272 then len q else 4294967272) = len q).
  { destruct (N.ltb_spec (len q) 4294967272); [reflexivity|lia]. }
  rewrite Em. destruct (N.eqb_spec (len q) 0); [lia|].
  assert (Ef : N.to_nat (len q) = length q) by (unfold len; lia).
  rewrite Ef, firstn_all, skipn_all. destruct (length p); reflexivity.
Qed.
Print Assumptions C93_zero_no_split_refuted.

Example C93_example :
  getEstablishedPayloadSize SEstablished (Some false) true 1392 (GReturns 1392) /\
  ~ getEstablishedPayloadSize SNego (Some false) false 1392 (GReturns 1392) /\
  getEstablishedPayloadSize SNego (Some false) false 1392 GBlocks.
Proof. cbn. repeat split; try tauto. intros [[H _]|[[H _]|[_ [_ H]]]]; discriminate. Qed.
