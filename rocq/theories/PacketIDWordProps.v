(** Property C175: the duplicate check does the same on every platform. *)
From Coq Require Import NArith List Bool Lia.
From Verif Require Import Base PacketIDModel PacketIDSpec PacketIDProofs PacketIDWordModel.
Import ListNotations.
Open Scope N_scope.

(** ** What is asked for.
    [m] is the largest ID so far, 0 when none was accepted: no ID is ahead of
    everything before it by [w] or more, except the first. *)
Fixpoint jumps_below (w m : N) (ids : list N) : Prop :=
  match ids with
  | [] => True
  | i :: r => (i <= m \/ i - m < w \/ m = 0) /\ jumps_below w (N.max m i) r
  end.

(** ** Lemmas *)
Lemma shiftLoopW_same : forall W, 128 <= W <= 2^64 -> forall t k r, k < W ->
  shiftLoopW W k r t = shiftLoop k r t.
Proof.
  intros W HW. induction t; intros k r Hk; cbn [shiftLoopW shiftLoop]; auto.
  f_equal. rewrite IHt by auto. f_equal.
  destruct (N.eq_dec k 0) as [->|n].
  - replace (64 + (W - 0)) with (64 + 1 * W) by lia. rewrite N.mod_add, N.mod_small by lia.
    unfold sub64. replace (64 + (2^64 - 0)) with (64 + 1 * 2^64) by lia.
    rewrite N.mod_add, N.mod_small by lia. auto.
  - destruct (N.le_gt_cases k 64) as [H|H].
    + rewrite sub64_64 by lia. replace (64 + (W - k)) with (64 - k + 1 * W) by lia.
      rewrite N.mod_add, N.mod_small by lia. auto.
    + rewrite N.mod_small by lia. pose proof (sub64_big k ltac:(lia)). unfold shr64.
      destruct (N.leb_spec 64 (64 + (W - k))); [|lia]. destruct (N.leb_spec 64 (sub64 64 k)); [auto|lia].
Qed.

Lemma windowBits_small : forall W t, 128 <= W -> len t * 64 < W / 2 -> windowBits W t = len t * 64.
Proof.
  intros W t HW H. unfold windowBits.
  assert (W / 2 <= W) by (apply N.div_le_upper_bound; lia).
  rewrite N.mod_small by lia. destruct (N.ltb_spec (len t * 64) (W / 2)); [auto|lia].
Qed.

(** An older ID is treated alike. *)
Lemma push_old_same : forall W st id, 128 <= W -> len (table st) * 64 < W / 2 -> id <= latest st ->
  pushW W st id = push st id.
Proof.
  intros W st id HW Hl Hid. unfold pushW, push. rewrite windowBits_small by auto.
  assert (W / 2 <= W) by (apply N.div_le_upper_bound; lia).
  destruct (N.ltb_spec (latest st) id); [lia|]. destruct (id =? latest st); auto.
  destruct (N.leb_spec (len (table st) * 64) (latest st - id)); auto.
  unfold toUint. rewrite N.mod_small by lia. reflexivity.
Qed.

Lemma push_jump_same : forall W st id, 128 <= W <= 2^64 -> latest st < id -> id - latest st < W ->
  pushW W st id = push st id.
Proof.
  intros W st id HW Hid Hj. unfold pushW, push, toUint, shiftValue.
  destruct (N.ltb_spec (latest st) id); [|lia].
  rewrite N.mod_small by lia. rewrite shiftLoopW_same by lia. reflexivity.
Qed.

Lemma shift_zeros : forall n k, shiftLoop k 0 (repeat 0 n) = repeat 0 n.
Proof.
  induction n; intros; cbn [repeat shiftLoop]; auto. f_equal.
  - unfold shl64. destruct (64 <=? k); reflexivity.
  - replace (shr64 0 (sub64 64 k)) with 0; auto. unfold shr64. destruct (64 <=? sub64 64 k); auto.
Qed.

Lemma push_first_same : forall W n id, 128 <= W <= 2^64 -> 0 < id ->
  pushW W {| latest := 0; table := repeat 0 n |} id = push {| latest := 0; table := repeat 0 n |} id.
Proof.
  intros W n id HW H. unfold pushW, push, toUint, shiftValue. cbn [latest table].
  destruct (N.ltb_spec 0 id); [|lia].
  rewrite shiftLoopW_same by (auto; apply N.mod_lt; lia). rewrite !shift_zeros. reflexivity.
Qed.

Lemma update_length : forall A (l : list A) n f l', update l n f = Some l' -> length l' = length l.
Proof.
  induction l; intros n f l' H; destruct n; cbn [update] in H; try discriminate.
  - injection H as <-. auto.
  - destruct (update l n f) eqn:E; [|discriminate]. injection H as <-. cbn. f_equal. eauto.
Qed.
Lemma set_length : forall o t t', setAtOffset o t = Some t' -> length t' = length t.
Proof. unfold setAtOffset. intros. eapply update_length; eauto. Qed.

Lemma push_length : forall st id st' b, push st id = Ret (st', b) ->
  length (table st') = length (table st) /\ (b = true -> latest st' = N.max (latest st) id)
  /\ (b = false -> st' = st) /\ (b = true -> 0 < latest st').
Proof.
  intros st id st' b. unfold push. destruct (N.ltb_spec (latest st) id) as [H|H].
  - destruct (table st) as [|a t] eqn:E.
    + injection 1 as <- <-. cbn. repeat split; try lia; discriminate.
    + destruct (setAtOffset 0 (shiftValue (id - latest st) (a :: t))) as [t'|] eqn:Es; [|discriminate].
      injection 1 as <- <-. cbn [latest table]. apply set_length in Es. rewrite Es.
      unfold shiftValue. rewrite shiftLoop_length. repeat split; try lia; discriminate.
  - destruct (N.eqb_spec id (latest st)).
    { injection 1 as <- <-. repeat split; auto; discriminate. }
    destruct (len (table st) * 64 <=? latest st - id). { injection 1 as <- <-. repeat split; auto; discriminate. }
    destruct (getAtOffset (latest st - id) (table st)) as [[|]|]; [injection 1 as <- <-; repeat split; auto; discriminate| |discriminate].
    destruct (setAtOffset (latest st - id) (table st)) as [t'|] eqn:Es; [|discriminate].
    injection 1 as <- <-. cbn [latest table]. apply set_length in Es. repeat split; try lia; auto; discriminate.
Qed.

(** The two checks in step. [m] is the largest ID offered. *)
Lemma offer_same : forall W, 128 <= W <= 2^64 -> forall ids st m,
  len (table st) * 64 < W / 2 -> latest st = m ->
  (m = 0 -> exists n, table st = repeat 0 n) -> jumps_below W m ids ->
  offerW W (Some st) ids = offer (Some st) ids.
Proof.
  intros W HW. induction ids as [|i ids IH]; intros st m Hl Hm Hz J; auto.
  destruct J as [J1 J2]. cbn [offerW offer checkW checkAndRemember].
  assert (E : pushW W st i = push st i).
  { destruct (N.le_gt_cases i (latest st)). { apply push_old_same; auto; lia. }
    destruct J1 as [J1|[J1|J1]]; [lia|apply push_jump_same; subst; auto|].
    destruct (Hz J1) as (n & Et). destruct st as [l t]. cbn [latest table] in *. subst.
    apply push_first_same; auto. }
  rewrite E. destruct (push st i) as [[st' b]|] eqn:Ep; auto.
  pose proof (push_length _ _ _ _ Ep) as (P1 & P2 & P3 & P4).
  assert (L : latest st' = N.max m i).
  { destruct b; [rewrite (P2 eq_refl); lia|]. rewrite (P3 eq_refl). 
    destruct (N.le_gt_cases i (latest st)) as [H|H]; [lia|].
    exfalso. unfold push in Ep. destruct (N.ltb_spec (latest st) i); [|lia].
    destruct (table st); [discriminate|]. destruct (setAtOffset 0 _); discriminate. }
  rewrite (IH st' (N.max m i)); auto.
  - unfold len in *. rewrite P1. auto.
  - intros Z. destruct b; [specialize (P4 eq_refl); lia|]. rewrite (P3 eq_refl). apply Hz. lia.
Qed.

(** ** The statement: for every option of the platform and all IDs,
    [offerW W (sessionStorage (Size n)) ids = offer (sessionStorage (Size n)) ids]. *)

Lemma session_table : forall n, exists k, sessionStorage (Size n) = Some {| latest := 0; table := repeat 0 k |}
  /\ N.of_nat k * 64 = window n.
Proof.
  intros. unfold sessionStorage, window, newStorage.
  destruct (N.eqb_spec n 0) as [->|H0]. { exists 4%nat. split; reflexivity. }
  destruct (N.eqb_spec n 1) as [->|H1]. { exists O. split; reflexivity. }
  destruct (N.ltb_spec 0 n); [|lia].
  exists (N.to_nat ((n + 63) / 64)). split; auto. rewrite N2Nat.id. lia.
Qed.

Lemma len_repeat0 : forall k, len (repeat 0 k) = N.of_nat k.
Proof. intros. unfold len. rewrite repeat_length. auto. Qed.

(** With words of 64 bits it holds, for every window that fits. *)
Lemma jumps_64 : forall ids m, ids64 ids -> jumps_below (2^64) m ids.
Proof.
  induction ids; intros m H; cbn [jumps_below]; auto. inversion H; subst. split; auto. right; left. lia.
Qed.

Theorem C175_words64_partial : forall n ids, window n < 2^63 -> ids64 ids ->
  offerW (2^64) (sessionStorage (Size n)) ids = offer (sessionStorage (Size n)) ids.
Proof.
  intros n ids Hn Hi. destruct (session_table n) as (k & -> & Hk).
  apply offer_same with (m := 0); cbn [latest table]; auto; try lia.
  - rewrite len_repeat0, Hk. exact Hn.
  - eauto.
  - apply jumps_64; auto.
Qed.
Print Assumptions C175_words64_partial.

(** With words of 32 bits it holds while no ID but the first is ahead by 2^32. *)
Theorem C175_words32_partial : forall n ids, window n < 2^31 -> jumps_below (2^32) 0 ids ->
  offerW (2^32) (sessionStorage (Size n)) ids = offer (sessionStorage (Size n)) ids.
Proof.
  intros n ids Hn Hi. destruct (session_table n) as (k & -> & Hk).
  apply offer_same with (m := 0); cbn [latest table]; auto; try lia.
  - rewrite len_repeat0, Hk. exact Hn.
  - eauto.
Qed.
Print Assumptions C175_words32_partial.

(** Without that, packets that were never seen, and are within the window, are
    taken for duplicates: the distance is cut to 32 bits, the table is not
    shifted, and its old marks now stand for other IDs. Shown for the default
    options; the ID 2^32+3 is the fresh one. *)
Theorem C175_words32_refuted :
  exists n ids id st vs, window n < 2^31 /\ ids64 (id :: ids) /\ ~ In id ids /\
    offerW (2^32) (sessionStorage (Size n)) ids = Ret (st, vs) /\
    id < maxl (accepted ids vs) /\ maxl (accepted ids vs) - id < window n /\
    checkW (2^32) st id = Ret (st, false) /\
    exists st64 st64' vs64, offer (sessionStorage (Size n)) ids = Ret (st64, vs64) /\
      checkAndRemember st64 id = Ret (st64', true).
Proof.
  exists 0, [5; 3; 2^32 + 5], (2^32 + 3).
  eexists _, _. split; [reflexivity|]. split; [repeat constructor|].
  split; [cbn [In]; lia|]. split; [vm_compute; reflexivity|].
  split; [reflexivity|]. split; [reflexivity|]. split; [vm_compute; reflexivity|].
  eexists _, _, _. split; [vm_compute; reflexivity|]. vm_compute. reflexivity.
Qed.
Print Assumptions C175_words32_refuted.

(** The largest windows crash the check: the size of the window is negative as
    an [int], every old ID seems to be inside. *)
Theorem C175_panic_refuted : forall n, 2^31 - 64 < n < 2^31 ->
  offerW (2^32) (sessionStorage (Size n)) [2^40; 1] = Panic
  /\ exists st, offer (sessionStorage (Size n)) [2^40; 1] = Ret (st, [true; false]).
Proof.
  intros n Hn.
  assert (Hw : window n = 2^31).
  { unfold window. destruct (N.eqb_spec n 0); [lia|]. destruct (N.eqb_spec n 1); [lia|].
    assert ((n + 63) / 64 = 2^25).
    { symmetry. apply N.div_unique with (r := n + 63 - 64 * 2^25); lia. }
    lia. }
  destruct (session_table n) as (k & -> & Hk). rewrite Hw in Hk. clear n Hn Hw.
  assert (Hk' : N.of_nat k = 2^25) by lia.
  destruct k as [|k]; [lia|]. set (K := S k) in *.
  assert (Ex : exists t, pushW (2^32) {| latest := 0; table := repeat 0 K |} (2^40) =
     Ret ({| latest := 2^40; table := t |}, true) /\ length t = K /\
     push {| latest := 0; table := repeat 0 K |} (2^40) = Ret ({| latest := 2^40; table := t |}, true)).
  { rewrite push_first_same by lia.
    destruct (push_newer {| latest := 0; table := repeat 0 K |} (2^40)) as (t & E & L & _); cbn [latest table] in *.
    - apply Forall_forall. intros x Hx. apply repeat_spec in Hx. subst. unfold word_ok. lia.
    - lia.
    - exists t. rewrite E, L, repeat_length. auto. }
  destruct Ex as (t & E1 & L & E2).
  assert (Hl : len t = 2^25) by (unfold len; rewrite L; auto).
  split.
  - cbn [offerW checkW]. rewrite E1. cbn [offerW checkW].
    assert (E3 : pushW (2^32) {| latest := 2^40; table := t |} 1 = Panic).
    { unfold pushW. cbn [latest table]. 
      replace (2^40 <? 1) with false by reflexivity. replace (1 =? 2^40) with false by reflexivity.
      unfold windowBits. rewrite Hl. 
      match goal with |- context [?a <=? ?b] => replace (a <=? b) with false by (vm_compute; reflexivity) end.
      unfold getAtOffset.
      replace (nth_error t (N.to_nat (N.shiftr (toUint (2^32) (2^40 - 1)) 6))) with (@None N); auto.
      symmetry. apply nth_error_None. replace (N.shiftr (toUint (2^32) (2^40 - 1)) 6) with (2^26 - 1) by (vm_compute; reflexivity).
      rewrite L. lia. }
    rewrite E3. reflexivity.
  - cbn [offer checkAndRemember]. rewrite E2. cbn [offer checkAndRemember].
    rewrite push_stale; [eauto| |]; unfold win; cbn [latest table]; [lia|]. right. rewrite Hl. lia.
Qed.
Print Assumptions C175_panic_refuted.

(** What remains true with words of 32 bits and all IDs: the check does not
    crash, and in a window of up to 64 IDs no ID is accepted twice. *)
Definition Seen (st : storage) (acc : list N) : Prop :=
  words_ok (table st) /\ forall i, In i acc -> i <= latest st /\
    (latest st - i < win st -> getbit (table st) (latest st - i) = true).

Lemma pushW_total : forall st id, words_ok (table st) -> len (table st) * 64 < 2^31 -> id < 2^64 ->
  exists st' b, pushW (2^32) st id = Ret (st', b) /\ length (table st') = length (table st) /\
    words_ok (table st') /\
    (latest st < id -> b = true /\ latest st' = id /\ (0 < win st' -> getbit (table st') 0 = true)).
Proof.
  intros st id Hw Hl Hid. destruct (N.le_gt_cases id (latest st)) as [H|H].
  - rewrite push_old_same by (auto; lia).
    destruct (N.eq_dec id (latest st)) as [e|ne].
    { exists st, false. rewrite push_stale by auto. repeat split; auto; lia. }
    destruct (N.le_gt_cases (win st) (latest st - id)) as [H0|H0].
    { exists st, false. rewrite push_stale by auto. repeat split; auto; lia. }
    pose proof (push_older st id Hw ltac:(lia) H0) as P. destruct (getbit (table st) (latest st - id)).
    + exists st, false. repeat split; auto; lia.
    + destruct P as (t' & E & L & Wk & _). eexists _, _. split; [exact E|]. cbn [latest table].
      split; [exact L|]. split; [exact Wk|]. intros; lia.
  - unfold pushW. destruct (N.ltb_spec (latest st) id); [|lia].
    destruct (table st) as [|a t] eqn:Et.
    { eexists _, _. split; [reflexivity|]. cbn [table latest]. repeat split; auto. unfold win, len; cbn. lia. }
    rewrite shiftLoopW_same by (try lia; apply N.mod_lt; lia).
    destruct (setAtOffset_spec (shiftLoop (toUint (2^32) (id - latest st)) 0 (a :: t)) 0) as (t' & E & L & Wk & G).
    + apply shiftLoop_ok; auto. unfold word_ok; lia.
    + unfold len. rewrite shiftLoop_length. cbn [length]. lia.
    + rewrite E. eexists _, _. split; [reflexivity|]. cbn [table latest]. rewrite L, shiftLoop_length.
      repeat split; auto. intros _. rewrite G. reflexivity.
Qed.

Lemma pushW_seen : forall st acc id st' b, Seen st acc -> len (table st) <= 1 -> id < 2^64 ->
  pushW (2^32) st id = Ret (st', b) -> Seen st' (if b then id :: acc else acc) /\ (b = true -> ~ In id acc).
Proof.
  intros st acc id st' b [Hw Hs] Hl Hid E.
  assert (Hl31 : len (table st) * 64 < 2^31) by lia.
  destruct (N.le_gt_cases id (latest st)) as [H|H].
  - rewrite push_old_same in E by (auto; lia).
    destruct (N.eq_dec id (latest st)) as [e|ne].
    { rewrite push_stale in E by auto. injection E as <- <-. split; [split; auto|discriminate]. }
    destruct (N.le_gt_cases (win st) (latest st - id)) as [H0|H0].
    { rewrite push_stale in E by auto. injection E as <- <-. split; [split; auto|discriminate]. }
    pose proof (push_older st id Hw ltac:(lia) H0) as P.
    destruct (getbit (table st) (latest st - id)) eqn:G.
    + rewrite P in E. injection E as <- <-. split; [split; auto|discriminate].
    + destruct P as (t' & E' & L & Wk & G'). rewrite E' in E. injection E as <- <-.
      assert (Hwin : win {| latest := latest st; table := t' |} = win st) by (unfold win, len; cbn [table]; rewrite L; auto).
      split.
      * split; auto. rewrite Hwin. cbn [latest table]. intros i Hi. rewrite G'.
        destruct Hi as [<-|Hi]. { rewrite N.eqb_refl. split; auto. }
        destruct (Hs i Hi) as [A B]. split; auto. intros C. rewrite (B C). apply orb_true_r.
      * intros _ Hin. destruct (Hs _ Hin) as [_ B]. rewrite (B H0) in G. discriminate.
  - destruct (pushW_total st id Hw Hl31 Hid) as (st1 & b1 & E1 & L & Wk & N1).
    rewrite E in E1. injection E1 as <- <-. destruct (N1 H) as (-> & El & G0).
    assert (Hwin : win st' = win st) by (unfold win, len; rewrite L; auto).
    assert (Hw64 : win st <= 64) by (unfold win; lia).
    split.
    + split; auto. intros i Hi. rewrite El. destruct Hi as [<-|Hi].
      { split; [lia|]. rewrite N.sub_diag. auto. }
      destruct (Hs i Hi) as [A B]. split; [lia|]. intros C. rewrite Hwin in C.
      rewrite push_jump_same in E by lia.
      destruct (push_newer st id Hw ltac:(lia)) as (t' & E' & _ & _ & G). rewrite E' in E.
      injection E as <-. cbn [table]. rewrite G by auto.
      assert (D : id - i - (id - latest st) = latest st - i) by lia. rewrite D.
      rewrite (B ltac:(lia)).
      destruct (N.leb_spec (id - latest st) 64); [|lia]. destruct (N.leb_spec (id - latest st) (id - i)); [|lia].
      apply orb_true_r.
    + intros _ Hin. destruct (Hs _ Hin). lia.
Qed.

Lemma offerW_seen : forall ids st acc, Seen st acc -> len (table st) <= 1 -> ids64 ids ->
  exists st' vs, offerW (2^32) (Some st) ids = Ret (st', vs) /\
    NoDup (accepted ids vs) /\ (forall i, In i acc -> ~ In i (accepted ids vs)).
Proof.
  induction ids as [|i ids IH]; intros st acc S Hl Hi.
  - eexists _, _. split; [reflexivity|]. split; [constructor|]. auto.
  - inversion Hi; subst. cbn [offerW checkW].
    destruct (pushW_total st i (proj1 S) ltac:(lia) H1) as (st1 & b & E & L & _).
    rewrite E. destruct (pushW_seen _ _ _ _ _ S Hl H1 E) as [S1 F].
    destruct (IH st1 _ S1) as (st' & vs & E' & D & A); auto. { unfold len in *. rewrite L. auto. }
    rewrite E'. exists st', (b :: vs). split; [reflexivity|]. destruct b; cbn [accepted].
    + split.
      * constructor; auto. apply A. left; auto.
      * intros j Hj [<-|Hin]; [exact (F eq_refl Hj)|]. apply (A j); auto. right; auto.
    + split; auto.
Qed.

Lemma zeros_ok : forall k, words_ok (repeat 0 k).
Proof. intros. apply Forall_forall. intros x Hx. apply repeat_spec in Hx. subst. unfold word_ok. lia. Qed.

Theorem C175_no_replay32 : forall n ids, 1 <= n <= 64 -> ids64 ids ->
  exists st vs, offerW (2^32) (sessionStorage (Size n)) ids = Ret (st, vs) /\ NoDup (accepted ids vs).
Proof.
  intros n ids Hn Hi. destruct (session_table n) as (k & -> & Hk).
  assert (window n <= 64).
  { unfold window. destruct (N.eqb_spec n 0); [lia|]. destruct (N.eqb_spec n 1); [lia|].
    assert ((n + 63) / 64 < 2) by (apply N.div_lt_upper_bound; lia). lia. }
  destruct (offerW_seen ids {| latest := 0; table := repeat 0 k |} []) as (st & vs & E & D & _); auto.
  - split; [apply zeros_ok|]. intros i [].
  - cbn [table]. rewrite len_repeat0. lia.
  - eauto.
Qed.
Print Assumptions C175_no_replay32.

Theorem C175_no_panic32_partial : forall n ids, window n < 2^31 -> ids64 ids ->
  exists st vs, offerW (2^32) (sessionStorage (Size n)) ids = Ret (st, vs) /\ length vs = length ids.
Proof.
  intros n ids Hn Hi. destruct (session_table n) as (k & -> & Hk).
  assert (G : forall ids st, words_ok (table st) -> len (table st) * 64 < 2^31 -> ids64 ids ->
    exists st' vs, offerW (2^32) (Some st) ids = Ret (st', vs) /\ length vs = length ids).
  { clear. induction ids as [|i ids IH]; intros st Hw Hl Hi.
    - eexists _, _. split; reflexivity.
    - inversion Hi; subst. cbn [offerW checkW].
      destruct (pushW_total st i Hw Hl H1) as (st1 & b & E & L & Wk & _). rewrite E.
      destruct (IH st1) as (st' & vs & E' & D); auto. { unfold len in *. rewrite L. auto. }
      rewrite E'. exists st', (b :: vs). split; auto. cbn. auto. }
  apply G; cbn [table]; auto. { apply zeros_ok. } rewrite len_repeat0, Hk. exact Hn.
Qed.
Print Assumptions C175_no_panic32_partial.

(** A run with a first ID far above 2^32 and then small jumps. *)
Example C175_example :
  let ids := [2^40; 2^40 + 3; 2^40 + 1; 2^40; 2^40 + 1; 2^40 + 70] in
  jumps_below (2^32) 0 ids /\
  offerW (2^32) (sessionStorage (Size 0)) ids =
    Ret (Some {| latest := 2^40 + 70; table := [1; 0; 0; 0] |}, [true; true; true; false; false; true]).
Proof. split; [cbn [jumps_below]; repeat split; vm_compute; intuition discriminate|vm_compute; reflexivity]. Qed.
