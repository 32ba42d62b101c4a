(** Lemmas about the replay window model. *)
From Coq Require Import NArith List Bool Lia Arith.
From Verif Require Import Base BaseLemmas PacketIDModel.
Import ListNotations.
Open Scope N_scope.

Definition word_ok (w : N) : Prop := w < 2^64.
Definition words_ok (t : list N) : Prop := Forall word_ok t.

(** Bit [o] of a table, seen as one long number. *)
Fixpoint getbit (t : list N) (o : N) : bool :=
  match t with
  | [] => false
  | v :: t' => if o <? 64 then N.testbit v o else getbit t' (o - 64)
  end.

Lemma shiftr6 : forall o, N.shiftr o 6 = o / 64.
Proof. intros. rewrite N.shiftr_div_pow2. reflexivity. Qed.
Lemma land63 : forall o, N.land o 63 = o mod 64.
Proof. intros. change 63 with (N.ones 6). rewrite N.land_ones. reflexivity. Qed.

Lemma div64_lt : forall o, o < 64 -> N.to_nat (o / 64) = O.
Proof. intros. rewrite N.div_small by auto. reflexivity. Qed.
Lemma div64_ge : forall o, 64 <= o -> N.to_nat (o / 64) = S (N.to_nat ((o - 64) / 64)).
Proof.
  intros. replace o with (o - 64 + 1 * 64) at 1 by lia. rewrite N.div_add by lia. lia.
Qed.
Lemma mod64_ge : forall o, 64 <= o -> o mod 64 = (o - 64) mod 64.
Proof.
  intros. replace o with (o - 64 + 1 * 64) at 1 by lia. apply N.mod_add. lia.
Qed.

Lemma land_bit : forall w b, negb (N.land w (N.shiftl 1 b) =? 0) = N.testbit w b.
Proof.
  intros. rewrite N.shiftl_1_l.
  destruct (N.testbit w b) eqn:E.
  - destruct (N.land w (2^b) =? 0) eqn:F; auto. apply N.eqb_eq in F.
    assert (N.testbit (N.land w (2^b)) b = false) by (rewrite F; apply N.bits_0).
    rewrite N.land_spec, N.pow2_bits_true, E in H. discriminate.
  - replace (N.land w (2^b)) with 0; auto. symmetry. apply N.bits_inj_0. intro n.
    rewrite N.land_spec. destruct (N.eq_dec n b).
    + subst. rewrite E. auto.
    + rewrite N.pow2_bits_false by auto. apply andb_false_r.
Qed.

Lemma getAtOffset_getbit : forall t o, o < 64 * len t -> getAtOffset o t = Some (getbit t o).
Proof.
  unfold getAtOffset. intros t o. rewrite shiftr6, land63. revert o.
  induction t; intros o H.
  - unfold len in H. simpl in H. lia.
  - rewrite len_cons in H. cbn [getbit]. destruct (N.ltb_spec o 64).
    + rewrite div64_lt by auto. cbn [nth_error]. rewrite (N.mod_small o 64) by auto. rewrite land_bit. auto.
    + rewrite div64_ge, mod64_ge by auto. cbn [nth_error]. apply IHt. lia.
Qed.

Lemma lor_word_ok : forall a b, word_ok a -> word_ok b -> word_ok (N.lor a b).
Proof.
  unfold word_ok. intros. destruct (N.eq_dec (N.lor a b) 0) as [->|n]; [lia|].
  apply N.log2_lt_pow2; [lia|]. rewrite N.log2_lor.
  apply N.max_lub_lt.
  - destruct (N.eq_dec a 0); [subst; simpl; lia|]. apply N.log2_lt_pow2; lia.
  - destruct (N.eq_dec b 0); [subst; simpl; lia|]. apply N.log2_lt_pow2; lia.
Qed.

Lemma setAtOffset_spec : forall t o, words_ok t -> o < 64 * len t ->
  exists t', setAtOffset o t = Some t' /\ length t' = length t /\ words_ok t' /\
    forall o', getbit t' o' = ((o' =? o) || getbit t o').
Proof.
  unfold setAtOffset. intros t o. rewrite shiftr6, land63. revert o.
  induction t; intros o Hw H.
  - unfold len in H. simpl in H. lia.
  - inversion Hw; subst. rewrite len_cons in H. destruct (N.ltb_spec o 64).
    + rewrite div64_lt by auto. cbn [update]. eexists; split; [reflexivity|].
      rewrite (N.mod_small o 64) by auto. rewrite N.shiftl_1_l.
      split; [reflexivity|]. split.
      * constructor; auto. apply lor_word_ok; auto. unfold word_ok. apply N.pow_lt_mono_r; lia.
      * intros o'. cbn [getbit]. destruct (N.ltb_spec o' 64).
        -- rewrite N.lor_spec, N.pow2_bits_eqb, orb_comm, (N.eqb_sym o o'). auto.
        -- destruct (N.eqb_spec o' o); [lia|]. reflexivity.
    + rewrite div64_ge, mod64_ge by auto. destruct (IHt (o - 64)) as (t' & E & L & Wk & G); auto; [lia|].
      cbn [update]. rewrite E. eexists; split; [reflexivity|]. split; [simpl; congruence|].
      split; [constructor; auto|].
      intros o'. cbn [getbit]. destruct (N.ltb_spec o' 64).
      * destruct (N.eqb_spec o' o); [lia|]. auto.
      * rewrite G. destruct (N.eqb_spec o' o), (N.eqb_spec (o' - 64) (o - 64)); auto; lia.
Qed.

Lemma shl64_ok : forall v k, word_ok (shl64 v k).
Proof.
  intros. unfold shl64, word_ok. destruct (64 <=? k). { lia. }
  apply N.mod_lt. lia.
Qed.
Lemma shr64_le : forall v k, shr64 v k <= v.
Proof.
  intros. unfold shr64. destruct (64 <=? k); [lia|].
  apply N.div_le_upper_bound. { apply N.pow_nonzero; lia. }
  assert (1 <= 2^k). { change 1 with (2^0). apply N.pow_le_mono_r; lia. } nia.
Qed.

Lemma shl64_bit : forall v k o, k <= 64 -> o < 64 ->
  N.testbit (shl64 v k) o = if o <? k then false else N.testbit v (o - k).
Proof.
  intros. unfold shl64. destruct (N.leb_spec 64 k).
  - assert (k = 64) by lia. subst. rewrite N.bits_0.
    destruct (N.ltb_spec o 64); auto; lia.
  - rewrite N.mod_pow2_bits_low by auto. rewrite <- N.shiftl_mul_pow2.
    destruct (N.ltb_spec o k).
    + apply N.shiftl_spec_low; auto.
    + apply N.shiftl_spec_high'; auto.
Qed.

Lemma sub64_64 : forall k, 0 < k <= 64 -> sub64 64 k = 64 - k.
Proof.
  intros. unfold sub64. replace (64 + (2^64 - k)) with (64 - k + 1 * 2^64) by lia.
  rewrite N.mod_add by lia. apply N.mod_small. lia.
Qed.

Lemma sub64_big : forall k, 64 < k < 2^64 -> 64 <= sub64 64 k.
Proof.
  intros. unfold sub64. rewrite N.mod_small; lia.
Qed.

Lemma shr64_bit : forall v k o, word_ok v -> 0 < k <= 64 ->
  N.testbit (shr64 v (64 - k)) o = if o <? k then N.testbit v (o + (64 - k)) else false.
Proof.
  intros. unfold shr64. destruct (N.leb_spec 64 (64 - k)); [lia|].
  rewrite <- N.shiftr_div_pow2, N.shiftr_spec'.
  destruct (N.ltb_spec o k); auto. apply testbit_high with (n := 64); auto; lia.
Qed.

Lemma shiftLoop_length : forall t k r, length (shiftLoop k r t) = length t.
Proof. induction t; simpl; intros; auto. Qed.

Lemma shiftLoop_ok : forall t k r, words_ok t -> word_ok r -> words_ok (shiftLoop k r t).
Proof.
  induction t; simpl; intros; constructor; inversion H; subst.
  - apply lor_word_ok; auto. apply shl64_ok.
  - apply IHt; auto. pose proof (shr64_le a (sub64 64 k)). unfold word_ok in *; lia.
Qed.

Lemma shiftLoop_bits : forall t k r o, 0 < k <= 64 -> words_ok t -> r < 2^k -> word_ok r ->
  o < 64 * len t ->
  getbit (shiftLoop k r t) o = if o <? k then N.testbit r o else getbit t (o - k).
Proof.
  induction t; intros k r o Hk Hw Hr Hr' Ho.
  - unfold len in Ho; simpl in Ho; lia.
  - rewrite len_cons in Ho. inversion Hw; subst. cbn [shiftLoop getbit].
    destruct (N.ltb_spec o 64).
    + rewrite N.lor_spec, shl64_bit by lia. destruct (N.ltb_spec o k).
      * rewrite orb_false_r; auto.
      * replace (N.testbit r o) with false
          by (symmetry; apply testbit_high with (n := k); auto).
        destruct (N.ltb_spec (o - k) 64); [auto|lia].
    + rewrite sub64_64 by auto. rewrite IHt; auto; try lia.
      * rewrite shr64_bit by auto.
        destruct (N.ltb_spec (o - 64) k); destruct (N.ltb_spec o k); try lia;
        destruct (N.ltb_spec (o - k) 64); try lia.
        -- f_equal. lia.
        -- f_equal. lia.
      * unfold shr64. destruct (64 <=? 64 - k). { apply N.neq_0_lt_0. apply N.pow_nonzero; lia. }
        apply N.div_lt_upper_bound. { apply N.pow_nonzero; lia. }
        rewrite <- N.pow_add_r. replace (64 - k + k) with 64 by lia. auto.
      * pose proof (shr64_le a (64 - k)). unfold word_ok in *; lia.
Qed.

Lemma shiftLoop_big : forall t k, 64 < k < 2^64 -> forall o, getbit (shiftLoop k 0 t) o = false.
Proof.
  induction t; intros k Hk o; cbn [shiftLoop getbit]; auto.
  unfold shl64. destruct (N.leb_spec 64 k); [|lia]. unfold shr64.
  pose proof (sub64_big k Hk). destruct (N.leb_spec 64 (sub64 64 k)); [|lia].
  destruct (o <? 64); [apply N.bits_0|]. apply IHt; auto.
Qed.

Definition win (st : storage) : N := 64 * len (table st).

(** What one [push] does, in terms of bits. *)
Lemma push_newer : forall st id, words_ok (table st) -> latest st < id < 2^64 ->
  exists t', push st id = Ret ({| latest := id; table := t' |}, true)
  /\ length t' = length (table st) /\ words_ok t'
  /\ forall o, o < win st ->
      getbit t' o = ((o =? 0) ||
         ((id - latest st <=? 64) && (id - latest st <=? o) && getbit (table st) (o - (id - latest st)))).
Proof.
  intros [l t] id Hw Hid. cbn [latest table] in *. unfold push, win. cbn [latest table].
  destruct (N.ltb_spec l id); [|lia].
  destruct t as [|v t0] eqn:Et.
  - exists []. repeat split; auto. intros o Ho. unfold len in Ho; simpl in Ho; lia.
  - rewrite <- Et in *. set (k := id - l).
    assert (Hlen : 0 < len t). { rewrite Et, len_cons. lia. }
    assert (Hs : words_ok (shiftValue k t)). { apply shiftLoop_ok; auto. unfold word_ok; lia. }
    assert (Hl : length (shiftValue k t) = length t) by apply shiftLoop_length.
    destruct (setAtOffset_spec (shiftValue k t) 0 Hs) as (t' & E & L & Wk & G).
    { unfold len in *. rewrite Hl. lia. }
    rewrite E. exists t'. split; [auto|]. split; [congruence|]. split; [auto|].
    intros o Ho. rewrite G. f_equal. unfold shiftValue.
    destruct (N.leb_spec k 64).
    + assert (0 < 2^k). { apply N.neq_0_lt_0. apply N.pow_nonzero; lia. }
      rewrite shiftLoop_bits; auto; unfold word_ok; try lia.
      destruct (N.ltb_spec o k).
      * rewrite N.bits_0. destruct (N.leb_spec k o); auto; lia.
      * destruct (N.leb_spec k o); auto; lia.
    + rewrite shiftLoop_big by lia. auto.
Qed.

Lemma push_older : forall st id, words_ok (table st) -> id < latest st -> latest st - id < win st ->
  if getbit (table st) (latest st - id) then push st id = Ret (st, false)
  else exists t', push st id = Ret ({| latest := latest st; table := t' |}, true)
    /\ length t' = length (table st) /\ words_ok t'
    /\ forall o, getbit t' o = ((o =? latest st - id) || getbit (table st) o).
Proof.
  intros [l t] id Hw Hid Hwin. unfold win in *. cbn [latest table] in *. unfold push. cbn [latest table].
  destruct (N.ltb_spec l id); [lia|]. destruct (N.eqb_spec id l); [lia|].
  destruct (N.leb_spec (len t * 64) (l - id)); [lia|].
  rewrite getAtOffset_getbit by lia. destruct (getbit t (l - id)); auto.
  destruct (setAtOffset_spec t (l - id) Hw) as (t' & E & L & Wk & G); [lia|].
  rewrite E. exists t'. auto.
Qed.

Lemma push_stale : forall st id, id <= latest st -> (id = latest st \/ win st <= latest st - id) ->
  push st id = Ret (st, false).
Proof.
  intros [l t] id Hid Hc. unfold win in *. cbn [latest table] in *. unfold push. cbn [latest table].
  destruct (N.ltb_spec l id); [lia|]. destruct (N.eqb_spec id l); auto.
  destruct (N.leb_spec (len t * 64) (l - id)); auto. lia.
Qed.

(** ** Invariants over histories *)

(** [Sound]: every set bit stands for an accepted ID. *)
Record Sound (w : nat) (st : storage) (acc : list N) : Prop := {
  s_len : length (table st) = w;
  s_ok : words_ok (table st);
  s_lat : latest st = 0 \/ In (latest st) acc;
  s_64 : latest st < 2^64;
  s_le : forall i, In i acc -> i <= latest st;
  s_bits : forall o, o < win st -> getbit (table st) o = true -> o <= latest st /\ In (latest st - o) acc
}.

(** [Complete]: every accepted ID still in the window has its bit set. *)
Definition Complete (st : storage) (acc : list N) : Prop :=
  forall i, In i acc -> latest st - i < win st -> getbit (table st) (latest st - i) = true.

Lemma win_eq : forall w st acc, Sound w st acc -> win st = 64 * N.of_nat w.
Proof. intros. unfold win, len. rewrite (s_len _ _ _ H). auto. Qed.

Lemma getbit_zeros : forall n o, getbit (repeat 0 n) o = false.
Proof. induction n; simpl; intros; auto. destruct (o <? 64); auto. Qed.

Lemma new_sound : forall depth, Sound (length (table (newStorage depth))) (newStorage depth) [].
Proof.
  intros. constructor; cbn [latest newStorage]; auto; try lia.
  - unfold newStorage; cbn [table]. destruct (0 <? depth); [|constructor].
    apply Forall_forall. intros x Hx. apply repeat_spec in Hx. subst. unfold word_ok; lia.
  - simpl; tauto.
  - unfold newStorage; cbn [table]. intros o _. destruct (0 <? depth).
    + rewrite getbit_zeros. discriminate.
    + simpl. discriminate.
Qed.

Lemma push_sound : forall w st acc id, Sound w st acc -> id < 2^64 ->
  exists st' b, push st id = Ret (st', b) /\
    Sound w st' (if b then id :: acc else acc) /\
    latest st' = N.max (latest st) (if b then id else 0).
Proof.
  intros w st acc id S Hid. pose proof (win_eq _ _ _ S) as Hw.
  destruct (N.lt_trichotomy (latest st) id) as [H|[H|H]].
  - destruct (push_newer st id (s_ok _ _ _ S)) as (t' & E & L & Wk & G); auto.
    exists {| latest := id; table := t' |}, true. split; [auto|]. split.
    2: { cbn [latest]. lia. }
    assert (Hw' : win {| latest := id; table := t' |} = win st).
    { unfold win, len. cbn [table]. rewrite L. auto. }
    constructor; cbn [latest table]; auto.
    + rewrite L. apply (s_len _ _ _ S).
    + right; left; auto.
    + intros i [<-|Hi]; [lia|]. apply (s_le _ _ _ S) in Hi. lia.
    + rewrite Hw'. intros o Ho Hb. rewrite G in Hb by auto.
      apply orb_true_iff in Hb. destruct Hb as [Hb|Hb].
      * apply N.eqb_eq in Hb. subst. split; [lia|]. left. lia.
      * apply andb_true_iff in Hb as [Hb Hg]. apply andb_true_iff in Hb as [Hb1 Hb2].
        apply N.leb_le in Hb1, Hb2.
        destruct (s_bits _ _ _ S (o - (id - latest st))) as [A B]; auto; [lia|].
        split; [lia|]. right. replace (id - o) with (latest st - (o - (id - latest st))) by lia. auto.
  - exists st, false. rewrite push_stale by (auto; lia). split; auto. split; auto. lia.
  - destruct (N.ltb_spec (latest st - id) (win st)).
    + pose proof (push_older st id (s_ok _ _ _ S) H H0) as P.
      destruct (getbit (table st) (latest st - id)) eqn:Eb.
      * exists st, false. split; auto. split; auto. lia.
      * destruct P as (t' & E & L & Wk & G). exists {| latest := latest st; table := t' |}, true.
        split; auto. split; [|cbn [latest]; lia].
        assert (Hw' : win {| latest := latest st; table := t' |} = win st).
        { unfold win, len. cbn [table]. rewrite L. auto. }
        constructor; cbn [latest table]; auto.
        -- rewrite L. apply (s_len _ _ _ S).
        -- destruct (s_lat _ _ _ S); [lia|right; right; auto].
        -- apply (s_64 _ _ _ S).
        -- intros i [<-|Hi]; [lia|]. apply (s_le _ _ _ S) in Hi. lia.
        -- rewrite Hw'. intros o Ho Hb. rewrite G in Hb. apply orb_true_iff in Hb as [Hb|Hb].
           ++ apply N.eqb_eq in Hb. subst o. split; [lia|]. left. lia.
           ++ destruct (s_bits _ _ _ S o) as [A B]; auto. split; auto. right; auto.
    + exists st, false. rewrite push_stale by (auto; lia). split; auto. split; auto. lia.
Qed.

(** Forward jumps the table can represent. *)
Definition jump_ok (w : nat) (m id : N) : Prop :=
  id <= m \/ id - m <= 64 \/ 64 * N.of_nat w <= id - m.

Lemma push_complete : forall w st acc id, Sound w st acc -> Complete st acc -> id < 2^64 ->
  jump_ok w (latest st) id ->
  exists st' b, push st id = Ret (st', b) /\
    Complete st' (if b then id :: acc else acc) /\
    (b = true -> ~ In id acc).
Proof.
  intros w st acc id S C Hid J. pose proof (win_eq _ _ _ S) as Hw.
  destruct (N.lt_trichotomy (latest st) id) as [H|[H|H]].
  - destruct (push_newer st id (s_ok _ _ _ S)) as (t' & E & L & Wk & G); auto.
    exists {| latest := id; table := t' |}, true. split; [auto|].
    assert (Hw' : win {| latest := id; table := t' |} = win st).
    { unfold win, len. cbn [table]. rewrite L. auto. }
    split.
    + intros i Hi. rewrite Hw'. cbn [latest table]. intros Ho. rewrite G by auto.
      destruct Hi as [<-|Hi].
      * rewrite N.sub_diag. auto.
      * pose proof (s_le _ _ _ S _ Hi).
        destruct (N.leb_spec (id - latest st) 64).
        -- destruct (N.leb_spec (id - latest st) (id - i)); [|lia].
           replace (id - i - (id - latest st)) with (latest st - i) by lia.
           rewrite C; auto; [|lia]. apply orb_true_r.
        -- destruct J as [J|[J|J]]; lia.
    + intros _ Hi. apply (s_le _ _ _ S) in Hi. lia.
  - exists st, false. rewrite push_stale by (auto; lia). split; auto. split; auto. discriminate.
  - destruct (N.ltb_spec (latest st - id) (win st)).
    + pose proof (push_older st id (s_ok _ _ _ S) H H0) as P.
      destruct (getbit (table st) (latest st - id)) eqn:Eb.
      * exists st, false. split; auto. split; auto. discriminate.
      * destruct P as (t' & E & L & Wk & G). exists {| latest := latest st; table := t' |}, true.
        split; auto.
        assert (Hw' : win {| latest := latest st; table := t' |} = win st).
        { unfold win, len. cbn [table]. rewrite L. auto. }
        split.
        -- intros i Hi. rewrite Hw'. cbn [latest table]. intros Ho. rewrite G.
           destruct Hi as [<-|Hi].
           ++ rewrite N.eqb_refl. auto.
           ++ rewrite C; auto. apply orb_true_r.
        -- intros _ Hi. rewrite C in Eb; auto. discriminate.
    + exists st, false. rewrite push_stale by (auto; lia). split; auto. split; auto. discriminate.
Qed.
