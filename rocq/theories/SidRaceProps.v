(** C165: sessions may be created by several goroutines at the same time. *)
From Coq Require Import NArith ZArith List Bool Lia.
From Verif Require Import Base BaseLemmas TS MessageModel SidRaceModel.
Import ListNotations.
Open Scope Z_scope.

Lemma nth_setThread : forall l i th j, (i < length l)%nat ->
  nth_error (setThread l i th) j = if Nat.eqb j i then Some th else nth_error l j.
Proof.
  induction l as [|a l IH]; intros i th j H; cbn [length] in H; [lia|].
  destruct i as [|i]; unfold setThread; cbn [firstn skipn app].
  - destruct j; reflexivity.
  - destruct j as [|j]; [reflexivity|]. cbn [nth_error Nat.eqb]. apply IH. lia.
Qed.

Lemma nth_lt : forall A (l : list A) i x, nth_error l i = Some x -> (i < length l)%nat.
Proof. intros A l i x H. apply nth_error_Some. congruence. Qed.

(** ** The time stamps are different in all runs *)
Definition clockOk (l : glabel) : Prop := match l with GClock _ t => (t < 2^63)%N | _ => True end.
(** The stamps of the session IDs made so far. *)
Definition stamped (th : gthread) : bool := match g_pc th with GStamp => false | _ => true end.

(** [n]: an upper bound of the number of stamps made. *)
Definition stampInv (n : N) (s : gst) : Prop :=
  (gs_prev s < 2^63 + n)%N /\
  (forall i th, nth_error (gs_threads s) i = Some th -> stamped th = true -> (g_stamp th <= gs_prev s)%N) /\
  (forall i j a b, nth_error (gs_threads s) i = Some a -> nth_error (gs_threads s) j = Some b ->
     stamped a = true -> stamped b = true -> g_stamp a = g_stamp b -> i = j).

Lemma rngStep_stamped : forall r pc r' pc', rngStep r pc = Some (r', pc') -> pc <> GStamp -> pc' <> GStamp.
Proof.
  intros r pc r' pc' H N. destruct pc; cbn [rngStep] in H;
    repeat match type of H with context [if ?b then _ else _] => destruct b end; try discriminate H; injection H as _ <-; congruence.
Qed.

Lemma stamp_step : forall n s l s', stampInv n s -> clockOk l -> (n + 1 < 2^63)%N -> gstep s l = Some s' -> stampInv (n + 1) s'.
Proof.
  intros n s l s' (I1 & I2 & I3) C Hn H. unfold gstep in H. destruct (gs_panic s); [discriminate|].
  destruct l as [|i now|i].
  - injection H as <-. unfold stampInv. cbn [gs_prev gs_threads]. split; [lia|].
    assert (G : forall k th, nth_error (gs_threads s ++ [{| g_pc := GStamp; g_stamp := 0 |}]) k = Some th -> stamped th = true ->
                nth_error (gs_threads s) k = Some th).
    { intros k th E T. destruct (Nat.lt_ge_cases k (length (gs_threads s))) as [L|L].
      - rewrite nth_error_app1 in E by exact L. exact E.
      - rewrite nth_error_app2 in E by exact L. destruct (k - length (gs_threads s))%nat as [|[|m]]; cbn in E; try discriminate.
        injection E as <-. discriminate T. }
    split; [intros k th E T; exact (I2 k th (G k th E T) T)|].
    intros k j a b Ea Eb Ta Tb. exact (I3 k j a b (G k a Ea Ta) (G j b Eb Tb) Ta Tb).
  - destruct (nth_error (gs_threads s) i) as [[pc st]|] eqn:E; [|discriminate]. destruct pc; try discriminate.
    cbn [clockOk] in C. assert (U : u64 now = now) by (unfold u64; apply N.mod_small; assert ((2^63 < 2^64)%N) by reflexivity; lia).
    rewrite U in H. destruct (N.eqb_spec now (gs_prev s)) as [Q|Q].
    { injection H as <-. split; [lia|]. split; [exact I2|exact I3]. }
    assert (P : u64 (gs_prev s + 1) = (gs_prev s + 1)%N).
    { unfold u64. apply N.mod_small. assert ((2^64 = 2^63 + 2^63)%N) by reflexivity. lia. }
    rewrite P in H. injection H as <-.
    set (a := if N.leb now (gs_prev s) then _ else _).
    assert (A : (gs_prev s < a)%N /\ (a < 2^63 + (n + 1))%N) by (unfold a; destruct (N.leb_spec now (gs_prev s)); lia). clearbody a.
    pose proof (nth_lt _ _ _ _ E) as L. unfold stampInv. cbn [gs_prev gs_threads]. split; [lia|]. split.
    + intros k th Ek T. rewrite nth_setThread in Ek by exact L. destruct (Nat.eqb k i); [injection Ek as <-; cbn [g_stamp]; lia|].
      specialize (I2 k th Ek T). lia.
    + intros k j x y Ex Ey Tx Ty. rewrite nth_setThread in Ex, Ey by exact L.
      destruct (Nat.eqb_spec k i) as [-> |Nk]; destruct (Nat.eqb_spec j i) as [-> |Nj].
      * reflexivity.
      * injection Ex as <-. cbn [g_stamp]. intros Z. rewrite Z in A. specialize (I2 j y Ey Ty). lia.
      * injection Ey as <-. cbn [g_stamp]. intros Z. rewrite <- Z in A. specialize (I2 k x Ex Tx). lia.
      * exact (I3 k j x y Ex Ey Tx Ty).
  - destruct (nth_error (gs_threads s) i) as [th|] eqn:E; [|discriminate].
    assert (Q : g_pc th <> GStamp) by (intros Q; destruct th as [pc st]; cbn in Q; subst pc; discriminate).
    assert (H' : match rngStep (gs_rng s) (g_pc th) with
                 | None => gs_prev s' = gs_prev s /\ gs_threads s' = gs_threads s
                 | Some (r, pc) => gs_prev s' = gs_prev s /\ gs_threads s' = setThread (gs_threads s) i {| g_pc := pc; g_stamp := g_stamp th |}
                 end).
    { destruct th as [pc st]. cbn [g_pc g_stamp] in *.
      destruct pc; try discriminate; destruct (rngStep _ _) as [[r pc']|]; injection H as <-; split; reflexivity. }
    destruct (rngStep (gs_rng s) (g_pc th)) as [[r pc]|] eqn:Er; destruct H' as [H1 H2]; unfold stampInv; rewrite H1, H2.
    + pose proof (rngStep_stamped _ _ _ _ Er Q) as Q'. pose proof (nth_lt _ _ _ _ E) as L.
      assert (T0 : stamped th = true) by (unfold stamped; destruct (g_pc th); congruence).
      split; [lia|]. split.
      * intros k t Ek T. rewrite nth_setThread in Ek by exact L. destruct (Nat.eqb k i); [injection Ek as <-; cbn [g_stamp]; exact (I2 i th E T0)|exact (I2 k t Ek T)].
      * intros k j x y Ex Ey Tx Ty. rewrite nth_setThread in Ex, Ey by exact L.
        destruct (Nat.eqb_spec k i) as [-> |Nk]; destruct (Nat.eqb_spec j i) as [-> |Nj].
        -- reflexivity.
        -- injection Ex as <-. cbn [g_stamp]. exact (I3 i j th y E Ey T0 Ty).
        -- injection Ey as <-. cbn [g_stamp]. exact (I3 k i x th Ex E Tx T0).
        -- exact (I3 k j x y Ex Ey Tx Ty).
    + split; [lia|]. split; [exact I2|exact I3].
Qed.

(** Whatever the clock says (before 2262), however the goroutines are interleaved
    and whatever becomes of the random halves: two session IDs of a process have
    different time stamps. *)
Theorem C165_different_stamps : forall vec ls s, exec gstep (gst0 vec) ls = Some s ->
  (forall l, In l ls -> clockOk l) -> (len ls < 2^63)%N ->
  forall i j a b, nth_error (gs_threads s) i = Some a -> nth_error (gs_threads s) j = Some b -> i <> j ->
    g_pc a <> GStamp -> g_pc b <> GStamp -> g_stamp a <> g_stamp b.
Proof.
  intros vec ls s H C L.
  assert (G : forall ls n s0, stampInv n s0 -> exec gstep s0 ls = Some s -> (forall l, In l ls -> clockOk l) -> (n + len ls < 2^63)%N -> exists m, stampInv m s).
  { clear. induction ls as [|l ls IH]; intros n s0 I H C L; cbn [exec] in H.
    - injection H as <-. exists n. exact I.
    - destruct (gstep s0 l) as [s1|] eqn:E; [|discriminate]. rewrite len_cons in L.
      apply (IH (n + 1)%N s1); [|exact H|intros x X; apply C; right; exact X|lia].
      apply (stamp_step n s0 l); [exact I|apply C; left; reflexivity|lia|exact E]. }
  destruct (G ls 0%N (gst0 vec)) as [m (_ & _ & I)]; [|exact H|exact C|lia|].
  - split; [reflexivity|]. split; intros i; destruct i; discriminate.
  - intros i j a b Ea Eb Nij Pa Pb Q. apply Nij. apply (I i j a b Ea Eb); [| |exact Q]; unfold stamped; [destruct (g_pc a)|destruct (g_pc b)]; congruence.
Qed.
Print Assumptions C165_different_stamps.

(** ** Calls one after another *)
(** The generator as a sequence: additive, with lags 607 and 273; what was in the
    vector counts as the numbers before the first. *)
Definition laggedFibonacci (vec : Z -> N) (Y : Z -> N) : Prop :=
  (forall n, -606 <= n <= 0 -> Y n = vec ((334 - n) mod 607)) /\
  (forall n, 1 <= n -> Y n = N.modulo (N.add (Y (n - 607)) (Y (n - 273))) (2^64)%N).

(** There is such a sequence for every vector. *)
Fixpoint lfUpTo (vec : Z -> N) (k : nat) : Z -> N :=
  match k with
  | O => fun n => vec ((334 - n) mod 607)
  | S k => fun n => if n =? Z.of_nat k + 1
                    then N.modulo (N.add (lfUpTo vec k (n - 607)) (lfUpTo vec k (n - 273))) (2^64)%N
                    else lfUpTo vec k n
  end.
Lemma laggedFibonacci_exists : forall vec, exists Y, laggedFibonacci vec Y.
Proof.
  intros vec. exists (fun n => lfUpTo vec (Z.to_nat n) n).
  assert (M : forall k n, (Z.to_nat n <= k)%nat -> lfUpTo vec k n = lfUpTo vec (Z.to_nat n) n).
  { induction k as [|k IH]; intros n H.
    - replace (Z.to_nat n) with 0%nat by lia. reflexivity.
    - destruct (Nat.eq_dec (Z.to_nat n) (S k)) as [-> |Q]; [reflexivity|].
      cbn [lfUpTo]. destruct (Z.eqb_spec n (Z.of_nat k + 1)); [lia|]. apply IH. lia. }
  split.
  - intros n H. replace (Z.to_nat n) with 0%nat by lia. reflexivity.
  - intros n H. destruct (Z.to_nat n) as [|k] eqn:E; [lia|]. cbn [lfUpTo].
    destruct (Z.eqb_spec n (Z.of_nat k + 1)); [|lia]. rewrite (M k (n - 607)), (M k (n - 273)) by lia. reflexivity.
Qed.

(** A goroutine is inside of [Uint64]. *)
Definition inside (pc : gpc) : bool := match pc with GStamp | GTap0 | GDone _ => false | _ => true end.
(** A goroutine enters [Uint64] only if no other one is inside. *)
Definition serial (s : gst) (l : glabel) : Prop :=
  match l with
  | GStep i => forall th, nth_error (gs_threads s) i = Some th -> g_pc th = GTap0 ->
                 forall j th', nth_error (gs_threads s) j = Some th' -> inside (g_pc th') = false
  | _ => True
  end.
Definition serialStep (s s' : gst) : Prop := exists l, serial s l /\ gstep s l = Some s'.

Section Serial.
  Variable vec : Z -> N.
  Variable Y : Z -> N.
  Hypothesis HY : laggedFibonacci vec Y.

  Definition tapAt (k : Z) : Z := (- k) mod 607.
  Definition feedAt (k : Z) : Z := (334 - k) mod 607.
  Definition slots (k : Z) (v : Z -> N) : Prop := forall n, k - 607 < n <= k -> v (feedAt n) = Y n.

  Definition pcInv (k : Z) (r : rng) (pc : gpc) : Prop :=
    match pc with
    | GTap1 t => rTap r = tapAt k /\ rFeed r = feedAt k /\ t = tapAt k
    | GTap2 => rTap r = tapAt k - 1 /\ rFeed r = feedAt k
    | GTap3 => rTap r = tapAt k - 1 /\ rFeed r = feedAt k /\ tapAt k - 1 < 0
    | GTap4 t => rTap r = tapAt k - 1 /\ rFeed r = feedAt k /\ tapAt k - 1 < 0 /\ t = tapAt k - 1
    | GFeed0 => rTap r = tapAt (k + 1) /\ rFeed r = feedAt k
    | GFeed1 t => rTap r = tapAt (k + 1) /\ rFeed r = feedAt k /\ t = feedAt k
    | GFeed2 => rTap r = tapAt (k + 1) /\ rFeed r = feedAt k - 1
    | GFeed3 => rTap r = tapAt (k + 1) /\ rFeed r = feedAt k - 1 /\ feedAt k - 1 < 0
    | GFeed4 t => rTap r = tapAt (k + 1) /\ rFeed r = feedAt k - 1 /\ feedAt k - 1 < 0 /\ t = feedAt k - 1
    | GX1 => rTap r = tapAt (k + 1) /\ rFeed r = feedAt (k + 1)
    | GX2 f => rTap r = tapAt (k + 1) /\ rFeed r = feedAt (k + 1) /\ f = feedAt (k + 1)
    | GX3 a => rTap r = tapAt (k + 1) /\ rFeed r = feedAt (k + 1) /\ a = Y (k + 1 - 607)
    | GX4 a t => rTap r = tapAt (k + 1) /\ rFeed r = feedAt (k + 1) /\ a = Y (k + 1 - 607) /\ t = tapAt (k + 1)
    | GX5 x => rTap r = tapAt (k + 1) /\ rFeed r = feedAt (k + 1) /\ x = Y (k + 1)
    | GX6 x f => rTap r = tapAt (k + 1) /\ rFeed r = feedAt (k + 1) /\ x = Y (k + 1) /\ f = feedAt (k + 1)
    | _ => False
    end.

  Lemma tap_next : forall k, tapAt (k + 1) = if tapAt k - 1 <? 0 then tapAt k - 1 + 607 else tapAt k - 1.
  Proof. intros k. unfold tapAt. destruct (Z.ltb_spec ((- k) mod 607 - 1) 0); Z.div_mod_to_equations; lia. Qed.
  Lemma feed_next : forall k, feedAt (k + 1) = if feedAt k - 1 <? 0 then feedAt k - 1 + 607 else feedAt k - 1.
  Proof. intros k. unfold feedAt. destruct (Z.ltb_spec ((334 - k) mod 607 - 1) 0); Z.div_mod_to_equations; lia. Qed.
  Lemma feed_range : forall k, inRange (feedAt k) = true.
  Proof. intros k. unfold inRange, rngLen, feedAt. pose proof (Z.mod_pos_bound (334 - k) 607 eq_refl). apply andb_true_intro. split; [apply Z.leb_le|apply Z.ltb_lt]; lia. Qed.
  Lemma tap_feed : forall k, tapAt k = feedAt (k - 273).
  Proof. intros k. unfold tapAt, feedAt. Z.div_mod_to_equations. lia. Qed.
  Lemma feed_back : forall k, feedAt k = feedAt (k - 607).
  Proof. intros k. unfold feedAt. Z.div_mod_to_equations. lia. Qed.
  Lemma feed_inj : forall a b, feedAt a = feedAt b -> - 607 < a - b < 607 -> a = b.
  Proof. intros a b. unfold feedAt. Z.div_mod_to_equations. lia. Qed.

  (** One step of the goroutine inside. *)
  Lemma pc_step : forall k r pc, 0 <= k -> slots k (rVec r) -> pcInv k r pc ->
    exists r' pc', rngStep r pc = Some (r', pc') /\
      ((inside pc' = true /\ pcInv k r' pc' /\ rVec r' = rVec r) \/
       (pc' = GDone (Y (k + 1)) /\ rTap r' = tapAt (k + 1) /\ rFeed r' = feedAt (k + 1) /\ slots (k + 1) (rVec r'))).
  Proof.
    intros k r pc Hk S I. destruct pc; cbn [pcInv rngStep] in *; try contradiction.
    - destruct I as (A & B & ->). do 2 eexists. split; [reflexivity|]. left. split; [reflexivity|]. cbn [pcInv setTap rTap rFeed]. auto.
    - destruct I as (A & B). do 2 eexists. split; [reflexivity|]. left. rewrite A. split; [destruct (_ <? 0); reflexivity|]. split; [|reflexivity].
      destruct (Z.ltb_spec (tapAt k - 1) 0) as [L|L]; cbn [pcInv]; [auto|]. rewrite A, B, tap_next. destruct (Z.ltb_spec (tapAt k - 1) 0); [lia|auto].
    - destruct I as (A & B & C). do 2 eexists. split; [reflexivity|]. left. split; [reflexivity|]. cbn [pcInv]. auto.
    - destruct I as (A & B & C & ->). do 2 eexists. split; [reflexivity|]. left. split; [reflexivity|]. split; [|reflexivity]. cbn [pcInv setTap rTap rFeed].
      rewrite tap_next. unfold rngLen. destruct (Z.ltb_spec (tapAt k - 1) 0); [auto|lia].
    - destruct I as (A & B). do 2 eexists. split; [reflexivity|]. left. split; [reflexivity|]. cbn [pcInv]. auto.
    - destruct I as (A & B & ->). do 2 eexists. split; [reflexivity|]. left. split; [reflexivity|]. cbn [pcInv setFeed rTap rFeed]. auto.
    - destruct I as (A & B). do 2 eexists. split; [reflexivity|]. left. rewrite B. split; [destruct (_ <? 0); reflexivity|]. split; [|reflexivity].
      destruct (Z.ltb_spec (feedAt k - 1) 0) as [L|L]; cbn [pcInv]; [auto|]. rewrite A, B, feed_next. destruct (Z.ltb_spec (feedAt k - 1) 0); [lia|auto].
    - destruct I as (A & B & C). do 2 eexists. split; [reflexivity|]. left. split; [reflexivity|]. cbn [pcInv]. auto.
    - destruct I as (A & B & C & ->). do 2 eexists. split; [reflexivity|]. left. split; [reflexivity|]. split; [|reflexivity]. cbn [pcInv setFeed rTap rFeed].
      rewrite feed_next. unfold rngLen. destruct (Z.ltb_spec (feedAt k - 1) 0); [auto|lia].
    - destruct I as (A & B). do 2 eexists. split; [reflexivity|]. left. split; [reflexivity|]. cbn [pcInv]. auto.
    - destruct I as (A & B & ->). rewrite feed_range. do 2 eexists. split; [reflexivity|]. left. split; [reflexivity|]. cbn [pcInv].
      split; [|reflexivity]. split; [exact A|]. split; [exact B|]. rewrite feed_back. apply S. lia.
    - destruct I as (A & B & ->). do 2 eexists. split; [reflexivity|]. left. split; [reflexivity|]. cbn [pcInv]. auto.
    - destruct I as (A & B & -> & ->). rewrite tap_feed, feed_range. do 2 eexists. split; [reflexivity|]. left. split; [reflexivity|]. cbn [pcInv].
      split; [|reflexivity]. split; [exact A|]. split; [exact B|]. rewrite (S (k + 1 - 273)) by lia. symmetry. apply (proj2 HY). lia.
    - destruct I as (A & B & ->). do 2 eexists. split; [reflexivity|]. left. split; [reflexivity|]. cbn [pcInv]. auto.
    - destruct I as (A & B & -> & ->). rewrite feed_range. do 2 eexists. split; [reflexivity|]. right. split; [reflexivity|].
      cbn [setVec rTap rFeed rVec]. split; [exact A|]. split; [exact B|]. intros n Hn.
      destruct (Z.eqb_spec (feedAt n) (feedAt (k + 1))) as [E|E].
      + f_equal. symmetry. apply feed_inj; [exact E|lia].
      + apply S. assert (n <> k + 1) by (intros ->; apply E; reflexivity). lia.
  Qed.

  Definition outsOf (k : nat) : list N := rev (map (fun i => Y (Z.of_nat i)) (seq 1 k)).

  Definition serialInv (s : gst) : Prop :=
    gs_panic s = false /\ exists k : nat, gs_outs s = outsOf k /\ slots (Z.of_nat k) (rVec (gs_rng s)) /\
    ((rTap (gs_rng s) = tapAt (Z.of_nat k) /\ rFeed (gs_rng s) = feedAt (Z.of_nat k) /\
      forall j th, nth_error (gs_threads s) j = Some th -> inside (g_pc th) = false) \/
     exists i th, nth_error (gs_threads s) i = Some th /\ inside (g_pc th) = true /\ pcInv (Z.of_nat k) (gs_rng s) (g_pc th) /\
       forall j th', nth_error (gs_threads s) j = Some th' -> j <> i -> inside (g_pc th') = false).

  Lemma serial_step : forall s s', serialInv s -> serialStep s s' -> serialInv s'.
  Proof.
    intros s s' (P & k & O & S & I) (l & Sl & H). unfold gstep in H. rewrite P in H. destruct l as [|i now|i].
    - injection H as <-. split; [reflexivity|]. exists k. cbn [gs_outs gs_rng gs_threads]. split; [exact O|]. split; [exact S|].
      assert (G : forall j th, nth_error (gs_threads s ++ [{| g_pc := GStamp; g_stamp := 0 |}]) j = Some th ->
                  nth_error (gs_threads s) j = Some th \/ inside (g_pc th) = false).
      { intros j th E. destruct (Nat.lt_ge_cases j (length (gs_threads s))) as [L|L].
        - rewrite nth_error_app1 in E by exact L. auto.
        - rewrite nth_error_app2 in E by exact L. destruct (j - length (gs_threads s))%nat as [|[|m]]; cbn in E; try discriminate.
          injection E as <-. right. reflexivity. }
      destruct I as [(A & B & C)|(i & th & E & T & Q & C)]; [left|right].
      + split; [exact A|]. split; [exact B|]. intros j th E. destruct (G j th E) as [G'|G']; [exact (C j th G')|exact G'].
      + exists i, th. split; [rewrite nth_error_app1 by (eapply nth_lt; eauto); exact E|]. split; [exact T|]. split; [exact Q|].
        intros j th' E' N. destruct (G j th' E') as [G'|G']; [exact (C j th' G' N)|exact G'].
    - destruct (nth_error (gs_threads s) i) as [[pc st]|] eqn:E; [|discriminate]. destruct pc; try discriminate.
      destruct (N.eqb _ _); [injection H as <-; split; [exact P|]; exists k; auto|]. injection H as <-.
      split; [reflexivity|]. exists k. cbn [gs_outs gs_rng gs_threads]. split; [exact O|]. split; [exact S|].
      pose proof (nth_lt _ _ _ _ E) as L. destruct I as [(A & B & C)|(i0 & th & E0 & T & Q & C)]; [left|right].
      + split; [exact A|]. split; [exact B|]. intros j th Ej. rewrite nth_setThread in Ej by exact L.
        destruct (Nat.eqb j i); [injection Ej as <-; reflexivity|exact (C j th Ej)].
      + assert (N : i0 <> i) by (intros ->; rewrite E in E0; injection E0 as <-; discriminate T).
        exists i0, th. rewrite nth_setThread by exact L. destruct (Nat.eqb_spec i0 i); [contradiction|]. split; [exact E0|]. split; [exact T|]. split; [exact Q|].
        intros j th' Ej Nj. rewrite nth_setThread in Ej by exact L. destruct (Nat.eqb j i); [injection Ej as <-; reflexivity|exact (C j th' Ej Nj)].
    - destruct (nth_error (gs_threads s) i) as [th|] eqn:E; [|discriminate]. cbn [serial] in Sl. pose proof (nth_lt _ _ _ _ E) as L.
      assert (Hk : 0 <= Z.of_nat k) by lia.
      destruct (inside (g_pc th)) eqn:T.
      + destruct I as [(A & B & C)|(i0 & th0 & E0 & T0 & Q & C)]; [rewrite (C i th E) in T; discriminate|].
        destruct (Nat.eq_dec i i0) as [<- |N]; [|rewrite (C i th E N) in T; discriminate].
        rewrite E in E0. injection E0 as <-.
        destruct (pc_step (Z.of_nat k) (gs_rng s) (g_pc th) Hk S Q) as (r' & pc' & Er & R).
        assert (H' : s' = {| gs_prev := gs_prev s; gs_rng := r';
                 gs_threads := setThread (gs_threads s) i {| g_pc := pc'; g_stamp := g_stamp th |};
                 gs_outs := match pc' with GDone x => x :: gs_outs s | _ => gs_outs s end; gs_panic := false |}).
        { destruct th as [pc st]. cbn [g_pc g_stamp] in *. rewrite Er in H. destruct pc; try discriminate T; injection H as <-; reflexivity. }
        subst s'. clear H. split; [reflexivity|]. cbn [gs_outs gs_rng gs_threads].
        destruct R as [(R1 & R2 & R3)|(-> & R2 & R3 & R4)].
        * exists k. split; [destruct pc'; try exact O; discriminate R1|]. split; [rewrite R3; exact S|]. right.
          exists i. eexists. rewrite nth_setThread by exact L. rewrite Nat.eqb_refl. split; [reflexivity|]. split; [exact R1|]. split; [exact R2|].
          intros j th' Ej N. rewrite nth_setThread in Ej by exact L. destruct (Nat.eqb_spec j i); [contradiction|exact (C j th' Ej N)].
        * exists (Datatypes.S k). replace (Z.of_nat (Datatypes.S k)) with (Z.of_nat k + 1) by lia.
          split.
          { rewrite O. unfold outsOf. rewrite seq_S, map_app, rev_app_distr. cbn [map rev app]. f_equal. f_equal. lia. }
          split; [exact R4|]. left. split; [exact R2|]. split; [exact R3|].
          intros j th' Ej. rewrite nth_setThread in Ej by exact L. destruct (Nat.eqb_spec j i) as [_|N]; [injection Ej as <-; reflexivity|exact (C j th' Ej N)].
      + destruct th as [pc st]. cbn [g_pc] in T. destruct pc; try discriminate T; try discriminate H.
        specialize (Sl _ E eq_refl). cbn [g_pc rngStep g_stamp] in H. injection H as <-.
        destruct I as [(A & B & C)|(i0 & th0 & E0 & T0 & _)]; [|rewrite (Sl i0 th0 E0) in T0; discriminate].
        split; [reflexivity|]. exists k. cbn [gs_outs gs_rng gs_threads]. split; [exact O|]. split; [exact S|]. right.
        exists i. eexists. rewrite nth_setThread by exact L. rewrite Nat.eqb_refl. split; [reflexivity|]. split; [reflexivity|].
        split; [cbn [g_pc pcInv]; auto|]. intros j th' Ej N. rewrite nth_setThread in Ej by exact L.
        destruct (Nat.eqb_spec j i); [contradiction|]. exact (C j th' Ej).
  Qed.
End Serial.

(** If the calls do not overlap, nothing panics and every session gets the next
    number of the sequence. *)
Theorem C165_serial_partial : forall vec Y s, laggedFibonacci vec Y ->
  reachable (fun s => s = gst0 vec) serialStep s ->
  gs_panic s = false /\ exists k, gs_outs s = rev (map (fun i => Y (Z.of_nat i)) (seq 1 k)).
Proof.
  intros vec Y s HY R.
  assert (I : serialInv Y s).
  { revert s R. apply reachable_inv.
    - intros s ->. split; [reflexivity|]. exists 0%nat. split; [reflexivity|]. split.
      + intros n Hn. symmetry. apply (proj1 HY). lia.
      + left. split; [reflexivity|]. split; [reflexivity|]. intros j th E. destruct j; discriminate.
    - intros s s'. apply (serial_step vec Y HY). }
  destruct I as (P & k & O & _). split; [exact P|]. exists k. exact O.
Qed.
Print Assumptions C165_serial_partial.

(** ** Calls at the same time *)
(** The first two sessions of a process, whatever the seed: both goroutines find
    the index below zero, both add the length, and the vector is read beyond its
    end. *)
Definition twoStamped : list glabel := [GNew; GNew; GClock 0 100; GClock 1 101].
Definition a := GStep 0.
Definition b := GStep 1.
Theorem C165_panic_refuted : forall vec, exists s,
  exec gstep (gst0 vec) (twoStamped ++ [a; a; b; b; a; b; a; a; b; b] ++ [a; a; a; a; a; a; a]) = Some s /\
  gs_panic s = true /\ rTap (gs_rng s) = 1212.
Proof. intros vec. eexists. split; [vm_compute; reflexivity|]. split; reflexivity. Qed.
Print Assumptions C165_panic_refuted.

(** The same two sessions get the same random number, for every seed. *)
Theorem C165_same_number_refuted : forall vec, exists s x,
  exec gstep (gst0 vec) (twoStamped ++ [a; b; a; b; a; b; a; b; a; b] ++ [a; b; a; b; a; b] ++ [a; b; a; b; a; b; a; b; a; b; a; b]) = Some s /\
  gs_panic s = false /\ map g_pc (gs_threads s) = [GDone x; GDone x] /\ map g_stamp (gs_threads s) = [100%N; 101%N].
Proof. intros vec. do 2 eexists. split; [vm_compute; reflexivity|]. repeat split; reflexivity. Qed.
Print Assumptions C165_same_number_refuted.

(** One after the other, the vector holding 1, 2, 3, ...: the numbers returned are
    vec[333] + vec[606] and vec[332] + vec[605]. *)
Example C165_example : exists s,
  exec gstep (gst0 (fun i => Z.to_N (i + 1))) (twoStamped ++ repeat a 14 ++ repeat b 12) = Some s /\
  gs_panic s = false /\ gs_outs s = [(333 + 606)%N; (334 + 607)%N].
Proof. eexists. split; [vm_compute; reflexivity|]. split; vm_compute; reflexivity. Qed.
