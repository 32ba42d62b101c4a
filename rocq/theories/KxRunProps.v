(** C53 (whole exchanger), C54, C86. *)
From Coq Require Import NArith List Bool Lia Sorting.Sorted.
From Verif Require Import Base BaseLemmas TS MessageModel KxModel KxSpec KxProofs KxRunProofs KxProps.
Import ListNotations.
Local Open Scope N_scope.

(** ** C53 for the whole exchanger *)

Definition sending (x : kxs) : Prop := (In ApSkip (xAnswers x) \/ In ApSend (xAnswers x)) \/ exists t, xLoop x = LpSend t \/ xLoop x = LpWait t.
Definition hasKey (x : kxs) : Prop :=
  xPanic x = false /\ (sending x -> kNextLocalPub (xKx x) <> None) /\
  (kNextLocalPub (xKx x) = None -> kNextAt (xKx x) = 0 /\ kLocalAt (xKx x) = 0).

Lemma hasKey_step : forall verify dh blake3 sha3 c,
  (forall x y, length (dh x y) = 32%nat) -> (forall x, length (sha3 x) = 32%nat) -> (forall x y, dh x y <> repeat 0 32) ->
  forall x x', hasKey x -> lstep (kstep verify dh blake3 sha3 c) x x' -> hasKey x'.
Proof.
  intros verify dh blake3 sha3 c Hl Hs Hz x x' (I1 & I2 & I3) [l E].
  apply kstep_cases in E. destruct E as (_ & [(b & k & h & _ & _ & Eh & K & L & _ & _ & P & A)|[(b & _ & _ & Eh & _)|[(now & _ & (priv & pub & k & Ei & S & _ & _ & P & _))|[(priv & pub & now & Ei & _)|Q]]]]).
  - subst k. destruct (handle_local _ _ _ _ _ _ _ _ _ Eh) as (_ & _ & F1 & F2 & F3). unfold hasKey. rewrite F1, F2.
    split; [exact P|]. split.
    + intros S. apply I2. destruct S as [S|S]; [|right; rewrite L in S; exact S]. left. rewrite A in S.
      destruct h as [| |[]]; auto. destruct S as [S|S]; apply in_app_or in S; (destruct S as [S|[S|[]]]; [auto|discriminate]).
    + intros N. destruct (I3 N) as [H1 H2]. split; [exact H1|]. destruct F3 as [-> | ->]; auto.
  - exfalso. destruct (C53_no_panic_partial verify dh blake3 sha3 c (xKx x) b Hl Hs Hz) as (s' & h & E). congruence.
  - destruct (install_fields _ _ _ _ _ _ _ _ _ Ei) as (_ & _ & F & _). destruct S as (_ & _ & S & _).
    unfold hasKey. rewrite S, F. split; [exact P|]. split; [discriminate|discriminate].
  - exfalso. unfold installLocalKey in Ei. set (k := setLocalKeys _ _ _ _ _) in Ei.
    destruct (update_total dh blake3 sha3 Hl Hs Hz c k) as [s' E]. congruence.
  - destruct Q as (S & _ & M & L & A). destruct S as (_ & _ & S1 & S2 & S3 & _). unfold hasKey. rewrite S1, S2, S3. split; [|split].
    + destruct M as [[_ P]|[(m & a & _ & _ & P & _)|(N & _ & _ & S)]]; auto. exfalso. apply I2; [|exact N]. unfold sending. tauto.
    + intros [S|[t S]].
      * destruct A as [A|(i & p & q & N & A & C)]; rewrite A in S; [apply I2; left; exact S|].
        assert (S' : (q = ApSkip \/ q = ApSend) \/ sending x) by (unfold sending; destruct S as [S|S]; apply in_setNth in S; destruct S as [<-|S]; auto).
        destruct S' as [S'|S']; [|apply I2; exact S'].
        destruct C as [(_ & C & _)|[(_ & _ & C)|[(_ & _ & C)|[(C & _)|[(_ & C & _)|(_ & C)]]]]]; [subst q; destruct S'; discriminate|exact C| |subst p; apply I2; left; left; eapply nth_error_In; eauto|subst q; destruct S'; discriminate|subst q; destruct S'; discriminate].
        intros N'. destruct (I3 N') as [H1 H2]. unfold inProgress in C. rewrite H1, H2 in C. discriminate.
      * destruct L as [L|[L|[(L1 & L)|[(_ & _ & L)|[(_ & C & L)|(t' & L1 & L)]]]]]; rewrite L in S.
        -- apply I2. right. exists t. exact S.
        -- destruct S; discriminate.
        -- destruct S; discriminate.
        -- destruct S; discriminate.
        -- intros N'. destruct (I3 N') as [H1 H2]. unfold inProgress in C. rewrite H1, H2 in C. discriminate.
        -- apply I2. right. exists t'. auto.
    + intros N. apply I3. exact N.
Qed.

(** If no secret is ever zero, the exchanger never panics, under any schedule
    of its goroutines and whatever messages arrive: in particular there is
    always a public key to send when one is sent. *)
Theorem C53_exchanger_no_panic_partial : forall verify dh blake3 sha3 c remote x,
  (forall x y, length (dh x y) = 32%nat) -> (forall x, length (sha3 x) = 32%nat) -> (forall x y, dh x y <> repeat 0 32) ->
  reachable (fun s => s = kxsInit remote) (lstep (kstep verify dh blake3 sha3 c)) x -> xPanic x = false.
Proof.
  intros verify dh blake3 sha3 c remote x Hl Hs Hz R.
  assert (H : hasKey x).
  { revert x R. apply reachable_inv.
    - intros s ->. unfold hasKey, sending. cbn. split; [reflexivity|]. split; [|auto]. intros [[[]|[]]|[t [H|H]]]; discriminate.
    - intros s s'. apply hasKey_step; auto. }
  exact (proj1 H).
Qed.
Print Assumptions C53_exchanger_no_panic_partial.

(** ** C54 *)

(** A run: the peer's request is handled before the first own key is made; the
    goroutine that answers it and the loop both find that no key is in progress,
    and both make one, with the clock going back in between (or standing still).
    The first key is never confirmed, its stamp is larger than that of the second, and
    the request sent by the loop carries the second. *)
Definition toyStep := kstep toyVerify toyDh toyHash toyHash (toyConf None 1).
Definition raceRun : list klabel :=
  [KHandle (toyWire 2 (toyMsg 2 7 11 1 false)); KAnswer 0 100; KAnswer 0 100; KLoopGo 100; KLoopCheck;
   KLoopGen (key32 3) (toyPub (key32 3)) 100; KAnswerGen 0 (key32 4) (toyPub (key32 4)) 90; KLoopSend].

Theorem C54_overlap_refuted : exists x,
  exec toyStep (kxsInit (Some (key32 2))) raceRun = Some x /\
  reachable (fun s => s = kxsInit (Some (key32 2))) (lstep toyStep) x /\
  xLog x = [90; 100] /\ kLocalAt (xKx x) = 0 /\ map kPub (xSent x) = [toyPub (key32 4)] /\ xLoop x = LpWait 100.
Proof.
  eexists. split; [vm_compute; reflexivity|]. split.
  - eapply exec_reachable with (ls := raceRun); [reflexivity|]. vm_compute. reflexivity.
  - repeat split; vm_compute; reflexivity.
Qed.
Print Assumptions C54_overlap_refuted.

(** As a consequence the loop waits for a confirmation of stamp 100, which the
    peer's answer (confirming 90) is not: the exchange times out and the session
    is closed although the peer has answered. *)
Theorem C54_answered_but_timeout_refuted : exists x,
  exec toyStep (kxsInit (Some (key32 2)))
    (raceRun ++ [KHandle (toyWire 2 (toyMsg 2 7 11 1 true)); KLoopNotified; KLoopRetry;
                 KHandle (toyWire 2 (toyMsg 2 7 11 1 true)); KLoopTimeout]) = Some x /\
  kDone (xKx x) = 2 /\ kErrs (xKx x) = [KxTimeout] /\ kCtxDone (xKx x) = true.
Proof. eexists. split; [vm_compute; reflexivity|]. repeat split; vm_compute; reflexivity. Qed.
Print Assumptions C54_answered_but_timeout_refuted.

(** Runs in which nothing comes between the check and the generation. *)
Definition noGen (x : kxs) : Prop := xLoop x <> LpGen /\ ~ In ApGen (xAnswers x).
Definition clock (l : klabel) : option N := match l with KLoopGen _ _ now => Some now | KAnswerGen _ _ _ now => Some now | _ => None end.
Inductive tight (step : kxs -> klabel -> option kxs) : kxs -> kxs -> Prop :=
| tight_one : forall x l x', step x l = Some x' -> clock l = None -> noGen x' -> tight step x x'
| tight_two : forall x l x1 l' x' now, step x l = Some x1 -> step x1 l' = Some x' -> clock l' = Some now -> now < 2^63 ->
    noGen x' -> tight step x x'.

Definition stamped (x : kxs) : Prop :=
  noGen x /\
  (N.of_nat (length (xLog x)) < 2^63 ->
   kLocalAt (xKx x) <= kNextAt (xKx x) /\ kNextAt (xKx x) <= 2^63 + N.of_nat (length (xLog x)) /\
   kNextAt (xKx x) = hd 0 (xLog x) /\ StronglySorted (fun a b => b < a) (xLog x) /\ Forall (fun a => 0 < a) (xLog x)).

Lemma stamped_head : forall l h, StronglySorted (fun a b : N => b < a) l -> hd 0 l = h -> Forall (fun a => a <= h) l.
Proof.
  intros l h S H. destruct l as [|a l]; [constructor|]. cbn in H. subst a. inversion S; subst.
  constructor; [lia|]. eapply Forall_impl; [|eassumption]. cbn. intros. lia.
Qed.

(** A step that generates nothing. *)
Lemma stamped_quiet : forall verify dh blake3 sha3 c x l x',
  kstep verify dh blake3 sha3 c x l = Some x' -> clock l = None ->
  kNextAt (xKx x') = kNextAt (xKx x) /\ (kLocalAt (xKx x') = kLocalAt (xKx x) \/ kLocalAt (xKx x') = kNextAt (xKx x)) /\ xLog x' = xLog x.
Proof.
  intros verify dh blake3 sha3 c x l x' E Hc.
  apply kstep_cases in E. destruct E as (_ & [(b & k & h & _ & _ & Eh & K & _ & _ & G & _)|[(b & _ & _ & _ & ->)|[(now & (priv & pub & [-> |[i ->]]) & _)|[(priv & pub & now & _ & ->)|Q]]]]).
  - subst k. destruct (handle_local _ _ _ _ _ _ _ _ _ Eh) as (_ & _ & _ & F2 & F3). auto.
  - auto.
  - discriminate.
  - discriminate.
  - auto.
  - destruct Q as ((_ & _ & _ & Q1 & Q2 & _) & Q3 & _). auto.
Qed.

(** Reaching the generation means that nothing was in progress. *)
Lemma gen_checked : forall verify dh blake3 sha3 c x l x1 l' x' now,
  kstep verify dh blake3 sha3 c x l = Some x1 -> kstep verify dh blake3 sha3 c x1 l' = Some x' -> clock l' = Some now -> noGen x ->
  xPanic x' = true \/
  (kLocalAt (xKx x1) = kLocalAt (xKx x) /\ kNextAt (xKx x1) = kNextAt (xKx x) /\ xLog x1 = xLog x /\
   inProgress (xKx x) = false /\ installStep dh blake3 sha3 c x1 x' now).
Proof.
  intros verify dh blake3 sha3 c x l x1 l' x' now E E' Hc [NL NA].
  assert (G : xPanic x' = true \/ (installStep dh blake3 sha3 c x1 x' now /\ (xLoop x1 = LpGen \/ In ApGen (xAnswers x1)))).
  { assert (Ep : xPanic x1 = false) by (unfold kstep in E'; destruct (xPanic x1); [discriminate|reflexivity]).
    destruct l'; try discriminate; injection Hc as ->; unfold kstep in E'; rewrite Ep in E'.
    - destruct (xLoop x1) eqn:El; try discriminate. destruct (installLocalKey _ _ _ _ _ _ _ _) as [k|] eqn:Ei; injection E' as <-; [|left; reflexivity].
      right. split; [|auto]. exists priv, pub, k. split; [exact Ei|]. cbn. split; [auto|]. split; [reflexivity|]. split; [reflexivity|].
      split; [exact Ep|]. left. split; [exact El|]. split; [|reflexivity]. destruct (kNextAt k =? 0); auto.
    - destruct (nth_error (xAnswers x1) i) as [[]|] eqn:En; try discriminate.
      destruct (installLocalKey _ _ _ _ _ _ _ _) as [k|] eqn:Ei; injection E' as <-; [|left; reflexivity].
      right. split; [|right; eapply nth_error_In; eauto]. exists priv, pub, k. split; [exact Ei|]. cbn.
      split; [unfold sameKeys; cbn; auto 20|]. split; [reflexivity|]. split; [reflexivity|]. split; [exact Ep|]. right. exists i. auto. }
  destruct G as [G|[G W]]; [left; exact G|]. right.
  apply kstep_cases in E. destruct E as (_ & [(b & k & h & _ & _ & Eh & K & L & _ & _ & _ & A)|[(b & _ & _ & _ & ->)|[(now' & _ & (priv & pub & k & _ & _ & _ & _ & _ & [(C & _)|(i & C & _)]))|[(priv & pub & now' & _ & ->)|Q]]]]).
  - exfalso. destruct W as [W|W]; [congruence|]. rewrite A in W. destruct h as [| |[]]; auto.
    apply in_app_or in W. destruct W as [W|[W|[]]]; [auto|discriminate].
  - exfalso. destruct W as [W|W]; auto.
  - exfalso. auto.
  - exfalso. apply NA. eapply nth_error_In; eauto.
  - exfalso. destruct W as [W|W]; auto.
  - destruct Q as ((_ & _ & _ & Q1 & Q2 & _) & Q3 & _ & L & A). split; [exact Q1|]. split; [exact Q2|]. split; [exact Q3|]. split; [|exact G].
    destruct W as [W|W].
    + destruct L as [L|[L|[(_ & L)|[(_ & C & _)|[(_ & _ & L)|(t & _ & L)]]]]]; try congruence.
    + destruct A as [A|(i & p & q & _ & A & C)]; [rewrite A in W; contradiction|]. rewrite A in W. apply in_setNth in W.
      destruct W as [W|W]; [|contradiction]. subst q.
      destruct C as [(_ & C & _)|[(_ & C & _)|[(_ & C & _)|[(_ & C)|[(_ & _ & C)|(_ & C)]]]]]; try discriminate. exact C.
Qed.

Lemma stamped_step : forall verify dh blake3 sha3 c x x', stamped x -> tight (kstep verify dh blake3 sha3 c) x x' -> xPanic x' = false -> stamped x'.
Proof.
  intros verify dh blake3 sha3 c x x' (I1 & I3) T HP. destruct T as [x l x' E Hc NG|x l x1 l' x' now E E' Hc Hnow NG].
  - destruct (stamped_quiet _ _ _ _ _ _ _ _ E Hc) as (F1 & F2 & F3). unfold stamped. rewrite F1, F3. split; [exact NG|].
    intros Hlen. destruct (I3 Hlen) as (I2 & R). split; [|exact R]. destruct F2 as [-> | ->]; lia.
  - destruct (gen_checked _ _ _ _ _ _ _ _ _ _ _ E E' Hc I1) as [C|(F1 & F2 & F3 & F4 & (priv & pub & k & Ei & S & G & _ & _ & _))]; [congruence|].
    destruct (install_fields _ _ _ _ _ _ _ _ _ Ei) as (_ & _ & _ & K1 & K2 & _). destruct S as (_ & _ & _ & S1 & S2 & _).
    rewrite F1 in K1, K2. unfold inProgress in F4. apply N.ltb_ge in F4.
    assert (Un : u64 now = now) by (unfold u64; apply N.mod_small; assert (2^63 < 2^64) by reflexivity; lia). rewrite Un in K2.
    unfold stamped. rewrite S1, S2, G, F3, K1. split; [exact NG|]. cbn [length hd]. intros Hlen.
    assert (Hlen' : N.of_nat (length (xLog x)) < 2^63) by lia. destruct (I3 Hlen') as (J0 & J1 & J2 & J3 & J4).
    assert (L : kLocalAt (xKx x) < kNextAt k /\ kNextAt k <= 2^63 + N.of_nat (S (length (xLog x)))).
    { rewrite K2. assert (2^64 = 2^63 + 2^63) by reflexivity. destruct (N.leb_spec now (kLocalAt (xKx x))).
      - unfold u64. rewrite N.mod_small; lia.
      - lia. }
    destruct L as [L1 L2]. split; [lia|]. split; [exact L2|]. split; [reflexivity|].
    split; [|constructor; [lia|exact J4]]. constructor; [exact J3|].
    pose proof (stamped_head _ _ J3 (eq_sym J2)) as Hh. eapply Forall_impl; [|exact Hh]. cbn. intros. lia.
Qed.

Lemma kstep_no_panic : forall verify dh blake3 sha3 c x l x', kstep verify dh blake3 sha3 c x l = Some x' -> xPanic x = false.
Proof. intros verify dh blake3 sha3 c x l x' E. unfold kstep in E. destruct (xPanic x); [discriminate|reflexivity]. Qed.
Lemma tight_no_panic : forall verify dh blake3 sha3 c x x', tight (kstep verify dh blake3 sha3 c) x x' -> xPanic x = false.
Proof. intros verify dh blake3 sha3 c x x' [? ? ? E|? ? ? ? ? ? E]; eapply kstep_no_panic; eauto. Qed.

Lemma stamped_reach : forall verify dh blake3 sha3 c remote x,
  reachable (fun s => s = kxsInit remote) (tight (kstep verify dh blake3 sha3 c)) x -> xPanic x = false -> stamped x.
Proof.
  intros verify dh blake3 sha3 c remote x R. induction R as [x ->|x x' R IH T]; intros HP.
  - unfold stamped, noGen. cbn. split; [split; [discriminate|auto]|]. intros _. split; [lia|]. split; [lia|]. split; [reflexivity|]. split; constructor.
  - eapply stamped_step; [|exact T|exact HP]. apply IH. eapply tight_no_panic; eauto.
Qed.

(** The stamps are positive and strictly increasing (the log is newest first),
    whatever the clock says (below 2^63 ns, i.e. before the year 2262). *)
Theorem C54_stamps_increase_partial : forall verify dh blake3 sha3 c remote x,
  reachable (fun s => s = kxsInit remote) (tight (kstep verify dh blake3 sha3 c)) x -> xPanic x = false ->
  N.of_nat (length (xLog x)) < 2^63 ->
  StronglySorted (fun newer older => older < newer) (xLog x) /\ Forall (fun a => 0 < a) (xLog x) /\
  kNextAt (xKx x) = hd 0 (xLog x).
Proof.
  intros verify dh blake3 sha3 c remote x R HP Hlen. destruct (stamped_reach _ _ _ _ _ _ _ R HP) as (_ & H).
  destruct (H Hlen) as (_ & _ & H1 & H2 & H3). auto.
Qed.
Print Assumptions C54_stamps_increase_partial.

(** A key is only made when the newest one has been confirmed. *)
Theorem C54_no_overlap_partial : forall verify dh blake3 sha3 c remote x x',
  reachable (fun s => s = kxsInit remote) (tight (kstep verify dh blake3 sha3 c)) x ->
  tight (kstep verify dh blake3 sha3 c) x x' -> xPanic x' = false -> xLog x' <> xLog x ->
  N.of_nat (length (xLog x)) < 2^63 -> kLocalAt (xKx x) = hd 0 (xLog x).
Proof.
  intros verify dh blake3 sha3 c remote x x' R T HP Hne Hlen.
  destruct (stamped_reach _ _ _ _ _ _ _ R (tight_no_panic _ _ _ _ _ _ _ T)) as (I1 & H).
  destruct (H Hlen) as (J0 & _ & J2 & _). rewrite <- J2.
  destruct T as [x l x' E Hc NG|x l x1 l' x' now E E' Hc Hnow NG].
  - destruct (stamped_quiet _ _ _ _ _ _ _ _ E Hc) as (_ & _ & F3). contradiction.
  - destruct (gen_checked _ _ _ _ _ _ _ _ _ _ _ E E' Hc I1) as [C|(_ & _ & _ & F4 & _)]; [congruence|].
    unfold inProgress in F4. apply N.ltb_ge in F4. lia.
Qed.
Print Assumptions C54_no_overlap_partial.

(** Two rotations with the clock going back. *)
Definition noGenb (x : kxs) : bool :=
  match xLoop x with LpGen => false | _ => true end && forallb (fun p => match p with ApGen => false | _ => true end) (xAnswers x).
Lemma noGenb_ok : forall x, noGenb x = true -> noGen x.
Proof.
  intros x H. unfold noGenb in H. apply andb_prop in H. destruct H as [H1 H2]. split.
  - intros E. rewrite E in H1. discriminate.
  - intros HI. rewrite forallb_forall in H2. specialize (H2 _ HI). discriminate.
Qed.
Fixpoint tightRun (step : kxs -> klabel -> option kxs) (x : kxs) (ls : list klabel) : option kxs :=
  match ls with
  | [] => Some x
  | l :: r =>
      match step x l with
      | None => None
      | Some x1 =>
          match clock l with
          | Some _ => None
          | None =>
              if noGenb x1 then tightRun step x1 r
              else match r with
                   | [] => None
                   | l' :: r' =>
                       match step x1 l', clock l' with
                       | Some x', Some now => if noGenb x' && (now <? 2^63) then tightRun step x' r' else None
                       | _, _ => None
                       end
                   end
          end
      end
  end.
Lemma tightRun_reach : forall step (P : kxs -> Prop) n ls x x', (length ls <= n)%nat -> reachable P (tight step) x ->
  tightRun step x ls = Some x' -> reachable P (tight step) x'.
Proof.
  intros step P. induction n as [|n IH]; intros ls x x' Hn R E; destruct ls as [|l r]; cbn [length] in Hn; try lia; cbn [tightRun] in E; try congruence.
  destruct (step x l) as [x1|] eqn:E1; [|discriminate]. destruct (clock l) eqn:Ec; [discriminate|].
  destruct (noGenb x1) eqn:Eg.
  - eapply (IH r x1); [lia| |exact E]. eapply reach_step; [exact R|]. eapply tight_one; eauto using noGenb_ok.
  - destruct r as [|l' r']; [discriminate|]. destruct (step x1 l') as [x2|] eqn:E2; [|discriminate].
    destruct (clock l') as [now|] eqn:Ec'; [|discriminate]. destruct (noGenb x2 && (now <? 2^63)) eqn:Eb; [|discriminate].
    apply andb_prop in Eb. destruct Eb as [Eb1 Eb2]. apply N.ltb_lt in Eb2. cbn [length] in Hn.
    eapply (IH r' x2); [lia| |exact E]. eapply reach_step; [exact R|]. eapply tight_two; eauto using noGenb_ok.
Qed.

Definition calmRun : list klabel :=
  [KLoopGo 100; KLoopCheck; KLoopGen (key32 3) (toyPub (key32 3)) 100; KLoopSend;
   KHandle (toyWire 2 (toyMsg 2 7 11 1 true)); KLoopNotified;
   KLoopGo 50; KLoopCheck; KLoopGen (key32 4) (toyPub (key32 4)) 50; KLoopSend].
Example C54_example : exists x,
  reachable (fun s => s = kxsInit (Some (key32 2))) (tight toyStep) x /\ xPanic x = false /\ xLog x = [101; 100] /\ length (xSent x) = 2%nat.
Proof.
  destruct (tightRun toyStep (kxsInit (Some (key32 2))) calmRun) as [x|] eqn:E; [|vm_compute in E; discriminate].
  exists x. split; [eapply (tightRun_reach toyStep); [apply le_n|apply reach_init; reflexivity|exact E]|].
  vm_compute in E. injection E as <-. repeat split; reflexivity.
Qed.
