(** Properties C35, C36, C77, C78: pausing and closing against the reader. *)
From Coq Require Import NArith List Bool Lia Arith.
From Verif Require Import Base BaseLemmas TS ReaderModel ReaderLoopModel StateModel PauseModel PauseProofs.
Import ListNotations.
Local Open Scope N_scope.

Ltac crack H := repeat match type of H with
  | (if ?b then _ else _) = _ => destruct b eqn:?
  | (let (_, _) := ?x in _) = _ => destruct x eqn:?
  | match ?x with _ => _ end = _ => destruct x eqn:?
  end; try discriminate; try (injection H as <-);
  repeat match goal with
  | |- context[if ?a && ?b then _ else _] => destruct (a && b) eqn:?
  | |- context[if ?a <=? ?b then _ else _] => destruct (a <=? b) eqn:?
  end.

(** ** C35.  Full statement: a SetPause call returns eventually if the reader
    keeps running, for every pattern of concurrent SetPause calls.

    It is false in several ways. First: a second SetPause(true) issued before
    the reader noticed the first one makes the first one hang for ever, whatever
    happens afterwards. *)
Lemma lost_channel : forall can t c e s l s', pstep can s l = Some s' ->
  p_calls s t = PWaiting c e /\ p_closed s c = false /\ p_chan s <> Some c /\ (c < p_next s)%nat ->
  p_calls s' t = PWaiting c e /\ p_closed s' c = false /\ p_chan s' <> Some c /\ (c < p_next s')%nat.
Proof.
  intros can t c e s l s' H (H1 & H2 & H3 & H4). unfold pstep, resetDeadline in H. destruct (p_panic s); [discriminate|].
  destruct l; crack H; destruct can; pcbn; auto;
    repeat match goal with |- context[fupd _ ?a _ ?b] => unfold fupd; destruct (Nat.eqb_spec b a); [subst|] end;
    try congruence; repeat split; auto; try discriminate; try lia; try congruence;
    try (intros K; injection K; lia).
Qed.

Lemma stuck_by : forall can (P : pst -> Prop) (allowed : plabel -> Prop),
  (forall s l s', P s -> allowed l -> pstep can s l = Some s' -> P s') ->
  forall ls s s', P s -> Forall allowed ls -> exec (pstep can) s ls = Some s' -> P s'.
Proof.
  intros can P allowed HP ls. induction ls as [|l ls IH]; intros s s' Hs Ha He; cbn [exec] in He.
  - injection He as <-. exact Hs.
  - inversion Ha as [|? ? A1 A2]; subst. destruct (pstep can s l) as [s1|] eqn:E; [|discriminate].
    exact (IH s1 s' (HP s l s1 Hs A1 E) A2 He).
Qed.

Definition pauseRun (t : nat) : list plabel := [PLCall t true; PLock t; PSet t; PWLock t; PInterrupt t].

Theorem C35_second_pause_refuted :
  exists s, reachableP true s /\ p_calls s 0%nat = PWaiting 0 false /\
    forall ls s', exec (pstep true) s ls = Some s' -> p_calls s' 0%nat = PWaiting 0 false.
Proof.
  destruct (exec (pstep true) initPause (pauseRun 0 ++ [PLCall 1%nat true; PLock 1; PSet 1])) as [s|] eqn:E; [|discriminate].
  exists s. split; [eapply exec_reachable; [|exact E]; reflexivity|]. vm_compute in E. injection E as <-. split; [reflexivity|].
  intros ls s' H.
  set (P := fun s => p_calls s 0%nat = PWaiting 0 false /\ p_closed s 0%nat = false /\ p_chan s <> Some 0%nat /\ (0 < p_next s)%nat).
  assert (K : P s').
  { eapply (stuck_by true P (fun _ => True)); [|shelve|apply Forall_forall; auto|exact H].
    intros s1 l s2 HP _ Hs. exact (lost_channel _ _ _ _ _ _ _ Hs HP).
    Unshelve. unfold P. cbn. repeat split; auto; discriminate. }
  apply K.
Qed.
Print Assumptions C35_second_pause_refuted.

(** Second: three calls one after another -- pause, unpause, pause -- can hang if
    the reader is slow after the first: it already announced the first pause and
    now waits in the second one without announcing it. *)
Theorem C35_pause_unpause_pause_refuted :
  exists s, reachableP true s /\ p_calls s 0%nat = PRet true /\ p_calls s 1%nat = PRet true /\ p_calls s 2%nat = PWaiting 1 false /\
    forall ls s', Forall (fun l => match l with PLCall _ _ => False | _ => True end) ls ->
      exec (pstep true) s ls = Some s' -> p_calls s' 2%nat = PWaiting 1 false.
Proof.
  destruct (exec (pstep true) initPause
    (pauseRun 0 ++ [RStep; RStep; RStep; RStep; RStep; PReturn 0; PLCall 1%nat false; PLock 1; PSet 1; PUnlock 1] ++
     pauseRun 2 ++ [PDeadline 2])) as [s|] eqn:E; [|vm_compute in E; discriminate].
  exists s. split; [eapply exec_reachable; [|exact E]; reflexivity|]. vm_compute in E. injection E as <-.
  do 3 (split; [reflexivity|]). intros ls s' Hl H.
  set (P := fun s => p_wait s = WPaused /\ (p_reader s = RReset \/ p_reader s = RPW) /\ p_calls s 2%nat = PWaiting 1 false /\
                     p_closed s 1%nat = false /\
                     forall t, match p_calls s t with PNone | PRet _ | PWaiting _ _ => True | _ => False end).
  assert (K : P s').
  { eapply (stuck_by true P); [|shelve|exact Hl|exact H].
    clear. intros s l s' (P1 & P2 & P3 & P4 & P5) Hl H. unfold pstep, resetDeadline in H. destruct (p_panic s); [discriminate|].
    destruct l as [t b|t|t|t|t|t|t|t| | | | | | | | |]; try contradiction;
      try (specialize (P5 t); destruct (p_calls s t) eqn:Et; (contradiction || discriminate)).
    - (* PReturn *) pose proof (P5 t) as P5t. destruct (p_calls s t) eqn:Et; try discriminate. destruct (p_closed s c) eqn:Ec; [|discriminate].
      injection H as <-. unfold P; pcbn. repeat split; auto.
      + unfold fupd. destruct (Nat.eqb_spec 2 t); [subst; congruence|auto].
      + intros t'. unfold fupd. destruct (Nat.eqb_spec t' t); [exact Logic.I|apply P5].
    - destruct P2 as [P2|P2]; rewrite P2 in H.
      + injection H as <-. unfold P; destruct (_ <=? _); pcbn; repeat split; auto.
      + rewrite P1 in H. discriminate.
    - destruct P2 as [P2|P2]; rewrite P2 in H; discriminate.
    - destruct P2 as [P2|P2]; rewrite P2 in H; discriminate.
    - destruct P2 as [P2|P2]; rewrite P2 in H; discriminate.
    - destruct P2 as [P2|P2]; rewrite P2 in H; discriminate.
    - destruct P2 as [P2|P2]; rewrite P2 in H; discriminate.
    - injection H as <-. unfold P; pcbn; auto.
    - injection H as <-. unfold P; pcbn; auto.
    - crack H; unfold P; pcbn; auto.
    Unshelve. unfold P. repeat split; auto. intros [|[|[|t]]]; exact Logic.I. }
  apply K.
Qed.
Print Assumptions C35_pause_unpause_pause_refuted.

(** Third: if the session is closed after the state became Paused and before the
    reader noticed, the reader ends without announcing the pause. *)
Theorem C35_close_refuted :
  exists s, reachableP true s /\ p_calls s 0%nat = PWaiting 0 false /\ p_reader s = RDone /\
    forall ls s', exec (pstep true) s ls = Some s' -> p_calls s' 0%nat = PWaiting 0 false.
Proof.
  destruct (exec (pstep true) initPause (pauseRun 0 ++ [PLClose; RStep; RStep; RStep])) as [s|] eqn:E; [|vm_compute in E; discriminate].
  exists s. split; [eapply exec_reachable; [|exact E]; reflexivity|]. vm_compute in E. injection E as <-.
  do 2 (split; [reflexivity|]). intros ls s' H.
  set (P := fun s => p_reader s = RDone /\ p_calls s 0%nat = PWaiting 0 false /\ p_closed s 0%nat = false).
  assert (K : P s').
  { eapply (stuck_by true P (fun _ => True)); [|shelve|apply Forall_forall; auto|exact H].
    clear. intros s l s' (P1 & P2 & P3) _ H. unfold pstep, resetDeadline in H. destruct (p_panic s); [discriminate|].
    destruct l; rewrite ?P1 in H; crack H; unfold P; pcbn; auto;
      repeat match goal with |- context[fupd _ ?a _ ?b] => unfold fupd; destruct (Nat.eqb_spec b a); [subst|] end; auto; try congruence.
    Unshelve. unfold P. auto. }
  apply K.
Qed.
Print Assumptions C35_close_refuted.

(** Fourth: with a backend that has no deadlines SetPause(true) waits until the
    peer happens to send something or the session is closed. *)
Theorem C35_no_deadline_refuted :
  exists s, reachableP false s /\ p_calls s 0%nat = PWaiting 0 true /\
    forall ls s', Forall (fun l => match l with RData | RFail | PLCancel => False | _ => True end) ls ->
      exec (pstep false) s ls = Some s' -> p_reader s' = RRead /\
      (p_calls s' 0%nat = PWaiting 0 true).
Proof.
  destruct (exec (pstep false) initPause ([RStep; RStep; RStep] ++ pauseRun 0 ++ [PDeadline 0])) as [s|] eqn:E; [|vm_compute in E; discriminate].
  exists s. split; [eapply exec_reachable; [|exact E]; reflexivity|]. vm_compute in E. injection E as <-.
  split; [reflexivity|]. intros ls s' Hl H.
  set (P := fun s => p_reader s = RRead /\ p_calls s 0%nat = PWaiting 0 true /\ p_closed s 0%nat = false /\ p_dl s = false /\ p_ctx s = false /\ p_closer s = 0 /\ p_bclosed s = false).
  assert (K : P s').
  { eapply (stuck_by false P); [|shelve|exact Hl|exact H].
    clear. intros s l s' (P1 & P2 & P3 & P4 & P5 & P6 & P7) Hl H. unfold pstep, resetDeadline in H. destruct (p_panic s); [discriminate|].
    destruct l; try contradiction; rewrite ?P1, ?P4, ?P5, ?P6, ?P7 in H; crack H; unfold P; pcbn; auto 10;
      repeat match goal with |- context[fupd _ ?a _ ?b] => unfold fupd; destruct (Nat.eqb_spec b a); [subst|] end; auto 10; try congruence.
    Unshelve. unfold P. auto 10. }
  split; apply K.
Qed.
Print Assumptions C35_no_deadline_refuted.

(** The locks and channels are never misused (unlock of an unlocked mutex,
    second close of a channel), under every schedule of any number of calls. *)
Theorem C35_no_panic : forall can s, reachableP can s -> p_panic s = false.
Proof. intros can s H. exact (i_panic _ (pause_inv can s H)). Qed.
Print Assumptions C35_no_panic.

(** Facts about the reader that hold always. *)
Definition readingPhase (r : rphase) : bool :=
  match r with RCheck | RPL | RPC | RReset | RPW | RPU | RRead | RGot | RErr _ => true | _ => false end.
Lemma reading_inv : forall can s, reachableP can s -> (readingPhase (p_reader s) = true -> p_reading s = true) /\ p_hap s <= p_req s.
Proof.
  intros can. apply reachable_inv.
  - intros s ->. cbn. split; [discriminate|lia].
  - intros s s' [I1 I2] (l & H). unfold pstep, resetDeadline in H. destruct (p_panic s); [discriminate|].
    destruct l; crack H; destruct can; pcbn; (split; [|lia]); intros K;
      try match goal with E : p_reader s = _ |- _ => rewrite E in * end; cbn [readingPhase] in *;
      try (destruct (isDoneState _)); try (destruct (_ =? _)); cbn [readingPhase] in *; try discriminate; auto;
      try (specialize (I1 K)); congruence.
Qed.

(** What is true: let SetPause(true) set the state while the reader is neither
    inside waitForUnpause nor handling an error, and no old deadline is pending.
    Then, if no other call interferes, the session is not closed and the backend
    does not fail, the call returns nil after finitely many steps, under every
    schedule and whatever data arrives; the reader then waits, without having
    reported an error and with the deadline removed. *)
Definition outside (r : rphase) : bool :=
  match r with RTop | RSet | RCheck | RRead | RGot | RProc => true | _ => false end.
Definition quiet (t : nat) (l : plabel) : bool :=
  match l with
  | PWLock t' | PInterrupt t' | PDeadline t' | PReturn t' => Nat.eqb t' t
  | RStep | RData | RTimeout | RHandle _ => true
  | _ => false
  end.
Definition quietStep (t : nat) (s s' : pst) : Prop := exists l, quiet t l = true /\ pstep true s l = Some s'.
(** without help from the peer *)
Definition quietOwn (t : nat) (s s' : pst) : Prop := exists l, quiet t l = true /\ l <> RData /\ pstep true s l = Some s'.

Record phaseA (t c : nat) (e : N) (s : pst) : Prop := {
  a_inv : pinv s; a_state : p_state s = 5; a_chan : p_chan s = Some c; a_err : p_errors s = e; a_bc : p_bclosed s = false;
  a_le : p_hap s <= p_req s; a_rd : readingPhase (p_reader s) = true -> p_reading s = true;
  a_call : p_calls s t = PWaitLock c \/ p_calls s t = PIntr c \/ p_calls s t = PDl c \/ p_calls s t = PWaiting c false;
  a_others : forall t', t' <> t -> inCS (p_calls s t') = false;
  a_reader : outside (p_reader s) = true \/ p_reader s = RPL \/ p_reader s = RPC \/
             ((p_reader s = RErr true \/ p_reader s = RErrH true) /\ p_calls s t = PWaiting c false /\ p_hap s < p_req s);
  a_dl : p_dl s = true -> p_calls s t = PWaiting c false /\ p_hap s < p_req s;
  a_pdl : p_calls s t = PDl c -> p_hap s < p_req s;
  a_wait : p_calls s t = PWaiting c false -> p_reader s = RRead -> p_dl s = true
}.
Record phaseB (t c : nat) (e : N) (s : pst) : Prop := {
  b_inv : pinv s; b_state : p_state s = 5; b_closed : p_closed s c = true; b_err : p_errors s = e;
  b_call : p_calls s t = PWaiting c false \/ p_calls s t = PRet true;
  b_others : forall t', inCS (p_calls s t') = false;
  b_reader : (p_reader s = RReset /\ (p_dl s = true -> p_hap s < p_req s)) \/ (p_reader s = RPW /\ p_dl s = false)
}.
Definition mReader (r : rphase) : nat :=
  match r with
  | RRead => 12 | RGot | RErr _ => 11 | RErrH _ | RProc => 10 | RTop => 9 | RSet => 8 | RCheck => 7 | RPL => 6 | RPC => 5 | RReset => 4
  | _ => 3
  end%nat.
Definition mCall (p : pcall) : nat :=
  match p with PWaitLock _ => 4 | PIntr _ => 3 | PDl _ => 2 | PWaiting _ _ => 1 | _ => 0 end%nat.

Lemma phaseB_step : forall t c e s s', phaseB t c e s -> quietStep t s s' ->
  phaseB t c e s' /\ (mReader (p_reader s') + mCall (p_calls s' t) < mReader (p_reader s) + mCall (p_calls s t))%nat.
Proof.
  intros t c e s s' B (l & Hq & H). pose proof (pause_step _ _ _ _ (b_inv _ _ _ _ B) H) as I'.
  destruct B as [I S Cl Er Ca Ot Rd]. unfold pstep, resetDeadline in H. rewrite (i_panic _ I) in H.
  assert (W : p_wait s = WPaused).
  { destruct (i_paused _ I S) as [W|(t' & k & K)]; auto. specialize (Ot t'). rewrite K in Ot. discriminate. }
  destruct l; try discriminate Hq; cbn [quiet] in Hq; try (apply Nat.eqb_eq in Hq; subst).
  - destruct Ca as [Ca|Ca]; rewrite Ca in H; discriminate.
  - destruct Ca as [Ca|Ca]; rewrite Ca in H; discriminate.
  - destruct Ca as [Ca|Ca]; rewrite Ca in H; discriminate.
  - destruct Ca as [Ca|Ca]; rewrite Ca in H; [|discriminate]. rewrite Cl in H. injection H as <-. pcbn. rewrite Ca, fupd_same. cbn [mCall negb].
    split; [|lia]. constructor; pcbn; auto.
    + right. apply fupd_same.
    + intros t'. unfold fupd. destruct (Nat.eqb_spec t' t); [reflexivity|apply Ot].
  - destruct Rd as [[Rd D]|[Rd D]]; rewrite Rd in H.
    + injection H as <-. rewrite Rd. destruct (N.leb_spec (p_req s) (p_hap s)); pcbn; (split; [|cbn [mReader]; lia]); constructor; pcbn; auto.
      right. split; auto. destruct (p_dl s); auto. specialize (D eq_refl). lia.
    + rewrite W in H. discriminate.
  - destruct Rd as [[Rd D]|[Rd D]]; rewrite Rd in H; discriminate.
  - destruct Rd as [[Rd D]|[Rd D]]; rewrite Rd in H; discriminate.
  - destruct Rd as [[Rd D]|[Rd D]]; rewrite Rd in H; discriminate.
Qed.

Lemma phaseA_step : forall t c e s s', phaseA t c e s -> quietStep t s s' ->
  (phaseA t c e s' \/ phaseB t c e s') /\
  (mReader (p_reader s') + mCall (p_calls s' t) < mReader (p_reader s) + mCall (p_calls s t))%nat.
Proof.
  intros t c e s s' A (l & Hq & H). pose proof (pause_step _ _ _ _ (a_inv _ _ _ _ A) H) as I'.
  destruct A as [I S Ch Er Bc Le Rg Ca Ot Rd Dl Pd Wt]. unfold pstep, resetDeadline in H. rewrite (i_panic _ I) in H.
  assert (Ot' : forall v t', t' <> t -> inCS (fupd (p_calls s) t v t') = false).
  { intros v t' Hne. rewrite fupd_other by auto. auto. }
  assert (Nd : isDoneState (p_state s) = false) by (rewrite S; reflexivity).
  destruct l; try discriminate Hq; cbn [quiet] in Hq; try (apply Nat.eqb_eq in Hq; subst).
  - (* PWLock *) destruct (p_calls s t) eqn:Et; try discriminate. destruct (isFree (p_wait s)); [|discriminate].
    assert (c0 = c) by (destruct Ca as [K|[K|[K|K]]]; congruence). subst c0.
    injection H as <-. pcbn. rewrite fupd_same. cbn [mCall]. split; [left|lia].
    constructor; pcbn; rewrite ?fupd_same; auto; try congruence; try discriminate.
    + destruct Rd as [R|[R|[R|(R & K & _)]]]; auto. congruence.
    + intros K. destruct (Dl K). congruence.
  - (* PInterrupt *) destruct (p_calls s t) eqn:Et; try discriminate.
    assert (c0 = c) by (destruct Ca as [K|[K|[K|K]]]; congruence). subst c0.
    destruct (p_reading s) eqn:Eg; injection H as <-; pcbn; rewrite fupd_same; cbn [mCall]; (split; [left|lia]);
      constructor; pcbn; rewrite ?fupd_same; auto; try congruence; try discriminate; try lia.
    + destruct Rd as [R|[R|[R|(R & K & _)]]]; auto. congruence.
    + intros K. destruct (Dl K). congruence.
    + intros K. specialize (Rg K). discriminate.
    + destruct Rd as [R|[R|[R|(R & K & _)]]]; auto. congruence.
    + intros K. destruct (Dl K). congruence.
    + intros _ K. rewrite K in Rg. specialize (Rg eq_refl). discriminate.
  - (* PDeadline *) destruct (p_calls s t) eqn:Et; try discriminate.
    assert (c0 = c) by (destruct Ca as [K|[K|[K|K]]]; congruence). subst c0.
    injection H as <-; pcbn; rewrite fupd_same; cbn [mCall negb]; (split; [left|lia]);
      constructor; pcbn; rewrite ?fupd_same; auto; try congruence; try discriminate; try lia.
    destruct Rd as [R|[R|[R|(R & K & _)]]]; auto. congruence.
  - (* PReturn *) destruct (p_calls s t) eqn:Et; try discriminate.
    assert (c0 = c) by (destruct Ca as [K|[K|[K|K]]]; congruence). subst c0.
    destruct (i_chan _ I c Ch) as [_ K]. rewrite K in H. discriminate.
  - (* RStep *) destruct (p_reader s) eqn:Err; try discriminate.
    + rewrite Nd in H. injection H as <-. pcbn. split; [left|cbn [mReader]; lia].
      constructor; pcbn; auto; try discriminate. 
    + injection H as <-. pcbn. split; [left|cbn [mReader]; lia]. constructor; pcbn; auto; try discriminate.
    + rewrite S in H. change (5 =? SessionStatePaused) with true in H. injection H as <-. pcbn. split; [left|cbn [mReader]; lia]. constructor; pcbn; auto; try discriminate.
    + destruct (p_lock s) eqn:El; [discriminate|]. injection H as <-. pcbn. split; [left|cbn [mReader]; lia]. constructor; pcbn; auto; try discriminate.
    + rewrite Ch in H. destruct (i_chan _ I c Ch) as [_ K]. rewrite K in H. injection H as <-. pcbn. split; [right|cbn [mReader]; lia].
      pose proof (rd_cs _ I Err) as Hn.
      assert (Ct : p_calls s t = PWaiting c false).
      { specialize (Hn t). destruct Ca as [Q|[Q|[Q|Q]]]; auto; rewrite Q in Hn; discriminate. }
      constructor; pcbn; auto.
      * apply fupd_same.
      * left. split; auto. intros Q. apply (Dl Q).
    + exfalso. destruct Rd as [R|[R|[R|([R|R] & _)]]]; discriminate.
    + exfalso. destruct Rd as [R|[R|[R|([R|R] & _)]]]; discriminate.
    + exfalso. destruct Rd as [R|[R|[R|([R|R] & _)]]]; discriminate.
    + injection H as <-. pcbn. split; [left|cbn [mReader]; lia]. constructor; pcbn; auto; try discriminate.
    + injection H as <-. pcbn. split; [left|cbn [mReader]; lia]. constructor; pcbn; auto; try discriminate.
    + destruct Rd as [R|[R|[R|([R|R] & R1 & R2)]]]; try discriminate. injection R as ->.
      injection H as <-. pcbn. split; [left|cbn [mReader]; lia]. constructor; pcbn; auto 10; try discriminate.
    + exfalso. destruct Rd as [R|[R|[R|([R|R] & _)]]]; discriminate.
    + exfalso. destruct Rd as [R|[R|[R|([R|R] & _)]]]; discriminate.
  - (* RData *) destruct (p_reader s) eqn:Err; try discriminate. rewrite Bc in H. injection H as <-. pcbn. split; [left|cbn [mReader]; lia].
    constructor; pcbn; auto; try discriminate.
  - (* RTimeout *) destruct (p_reader s) eqn:Err; try discriminate. destruct (p_dl s) eqn:Ed; [|discriminate]. injection H as <-. pcbn.
    split; [left|cbn [mReader]; lia]. destruct (Dl eq_refl) as [D1 D2].
    constructor; pcbn; auto 10; try discriminate.
  - (* RHandle *) destruct (p_reader s) eqn:Err; try discriminate.
    destruct Rd as [R|[R|[R|([R|R] & R1 & R2)]]]; try discriminate. injection R as ->. rewrite Nd in H. cbn zeta in H.
    destruct (N.ltb_spec (p_hap s) (p_req s)); [|lia]. cbn [andb] in H. injection H as <-. pcbn.
    split; [left|cbn [mReader]; lia]. constructor; pcbn; auto; try discriminate; try lia.
    + intros Q. congruence.
Qed.

Theorem C35_returns_partial : forall s t s1, reachableP true s ->
  p_calls s t = PIn true -> p_state s = SessionStateEstablished -> outside (p_reader s) = true -> p_dl s = false -> p_bclosed s = false ->
  pstep true s (PSet t) = Some s1 ->
  surely (quietStep t) (quietOwn t)
    (fun s' => p_calls s' t = PRet true /\ p_reader s' = RPW /\ p_dl s' = false /\ p_errors s' = p_errors s) s1.
Proof.
  intros s t s1 Hr Hc Hst Ho Hd Hb H.
  pose proof (pause_inv _ _ Hr) as I. destruct (reading_inv _ _ Hr) as [Rg Le].
  pose proof (pause_step _ _ _ _ I H) as I1.
  unfold pstep, resetDeadline in H. rewrite (i_panic _ I), Hc, Hst in H. vm_compute (setState _ _ _) in H. vm_compute (_ =? _) in H. cbv iota in H.
  injection H as <-. set (c := p_next s) in *.
  assert (Hin : inCS (p_calls s t) = true) by (rewrite Hc; reflexivity).
  apply (surely_by_measure (quietStep t) (quietOwn t) (fun x => phaseA t c (p_errors s) x \/ phaseB t c (p_errors s) x) _
           (fun x => (mReader (p_reader x) + mCall (p_calls x t))%nat)).
  - intros x x' [A|B] Hx.
    + exact (phaseA_step _ _ _ _ _ A Hx).
    + destruct (phaseB_step _ _ _ _ _ B Hx) as [K1 K2]. auto.
  - intros x [A|B].
    + right. destruct A as [Ix S Ch Er Bc Lex Rgx Ca Ot Rd Dl Pd Wt].
      assert (Nd : isDoneState (p_state x) = false) by (rewrite S; reflexivity).
      assert (Hex : forall l x', (match l with RData => false | _ => quiet t l end) = true -> pstep true x l = Some x' -> exists x', quietOwn t x x')
        by (intros l x' Q1 Q2; exists x', l; destruct l; try discriminate; repeat split; auto; discriminate).
      destruct Ca as [Ca|[Ca|[Ca|Ca]]].
      * pose proof (i_wl _ Ix t c Ca) as W.
        assert (Hf : isFree (p_wait x) = true).
        { destruct (p_wait x) eqn:Ew; auto. apply (i_wrd _ Ix) in Ew. rewrite Ew in Rd.
          exfalso. destruct Rd as [R|[R|[R|([R|R] & _)]]]; discriminate. }
        eapply (Hex (PWLock t)); [cbn; apply Nat.eqb_refl|]. unfold pstep. rewrite (i_panic _ Ix), Ca, Hf. reflexivity.
      * destruct (p_reading x) eqn:Eg; (eapply (Hex (PInterrupt t)); [cbn; apply Nat.eqb_refl|]); unfold pstep; rewrite (i_panic _ Ix), Ca, Eg; reflexivity.
      * eapply (Hex (PDeadline t)); [cbn; apply Nat.eqb_refl|]. unfold pstep. rewrite (i_panic _ Ix), Ca. reflexivity.
      * assert (Hlk : p_lock x = None \/ p_lock x = Some OwnReader).
        { destruct (p_lock x) as [[t'|]|] eqn:El; auto. apply (i_lock _ Ix) in El.
          destruct (Nat.eq_dec t' t) as [->|Hne]; [rewrite Ca in El; discriminate|]. rewrite (Ot _ Hne) in El. discriminate. }
        destruct (p_reader x) eqn:Err; try (now (exfalso; destruct Rd as [R|[R|[R|([R|R] & _)]]]; discriminate)).
        -- eapply (Hex RStep); [reflexivity|]. unfold pstep. rewrite (i_panic _ Ix), Err. reflexivity.
        -- eapply (Hex RStep); [reflexivity|]. unfold pstep. rewrite (i_panic _ Ix), Err. reflexivity.
        -- eapply (Hex RStep); [reflexivity|]. unfold pstep. rewrite (i_panic _ Ix), Err. reflexivity.
        -- destruct Hlk as [K|K]; [|apply (i_lockrd _ Ix) in K; congruence].
           eapply (Hex RStep); [reflexivity|]. unfold pstep. rewrite (i_panic _ Ix), Err, K. reflexivity.
        -- destruct (i_chan _ Ix c Ch) as [_ K].
           eapply (Hex RStep); [reflexivity|]. unfold pstep. rewrite (i_panic _ Ix), Err, Ch, K. reflexivity.
        -- eapply (Hex RTimeout); [reflexivity|]. unfold pstep. rewrite (i_panic _ Ix), Err, (Wt Ca eq_refl). reflexivity.
        -- eapply (Hex RStep); [reflexivity|]. unfold pstep. rewrite (i_panic _ Ix), Err. reflexivity.
        -- eapply (Hex RStep); [reflexivity|]. unfold pstep. rewrite (i_panic _ Ix), Err. reflexivity.
        -- eapply (Hex RStep); [reflexivity|]. unfold pstep. rewrite (i_panic _ Ix), Err. reflexivity.
        -- destruct Rd as [R|[R|[R|([R|R] & R1 & R2)]]]; try discriminate. injection R as ->.
           eapply (Hex (RHandle false)); [reflexivity|]. unfold pstep. rewrite (i_panic _ Ix), Err, Nd.
           destruct (N.ltb_spec (p_hap x) (p_req x)); [|lia]. reflexivity.
    + destruct B as [Ix S Cl Er Ca Ot Rd].
      assert (W : p_wait x = WPaused).
      { destruct (i_paused _ Ix S) as [W|(t' & k & K)]; auto. specialize (Ot t'). rewrite K in Ot. discriminate. }
      destruct Ca as [Ca|Ca].
      * right. eexists. exists (PReturn t). split; [cbn; apply Nat.eqb_refl|]. split; [discriminate|]. unfold pstep. rewrite (i_panic _ Ix), Ca, Cl. reflexivity.
      * destruct Rd as [[Rd D]|[Rd D]].
        -- right. eexists. exists RStep. split; [reflexivity|]. split; [discriminate|]. unfold pstep. rewrite (i_panic _ Ix), Rd. reflexivity.
        -- left. auto.
  - left. constructor; pcbn; auto; rewrite ?fupd_same; auto; try congruence; try discriminate.
    intros t' Hne. rewrite fupd_other by auto. destruct (inCS (p_calls s t')) eqn:E; auto. exfalso. apply Hne. exact (only_cs s t t' I Hin E).
Qed.
Print Assumptions C35_returns_partial.

(** An instance: the reader is blocked in Read; the interrupt wakes it. *)
Definition readPause : list plabel :=
  [RStep; RStep; RStep] ++ pauseRun 0 ++ [PDeadline 0; RTimeout; RStep; RHandle false; RStep; RStep; RStep; RStep; RStep; RStep; PReturn 0].
Example C35_example :
  match exec (pstep true) initPause readPause with
  | Some s => (p_calls s 0%nat, p_reader s, p_dl s, p_errors s, p_state s) = (PRet true, RPW, false, 0, SessionStatePaused)
  | None => False
  end /\
  match exec (pstep true) initPause [RStep; RStep; RStep; PLCall 0%nat true; PLock 0] with
  | Some s => p_calls s 0%nat = PIn true /\ p_state s = SessionStateEstablished /\ outside (p_reader s) = true /\ p_dl s = false
  | None => False
  end.
Proof. vm_compute. auto. Qed.

(** ** C36.  Full statement: Close on a paused session brings it to Closed. It
    never does, for any paused session: the reader waits on pauseWaitLocker, and
    SetPause(false) is refused while closing. For every continuation, by anybody: *)
Definition holdsNothing (c : pcall) : bool := match c with PUnl | PWaitLock _ => false | _ => true end.
Theorem C36_paused_close_refuted : forall can s, reachableP can s ->
  p_state s = SessionStatePaused -> p_reader s = RPW -> p_lock s = None ->
  forall s0, pstep can s PLClose = Some s0 ->
  forall ls s', exec (pstep can) s0 ls = Some s' -> p_state s' = SessionStateClosing /\ p_reader s' = RPW.
Proof.
  intros can s Hr Hst Hrd Hlk s0 H0 ls s' H. pose proof (pause_inv _ _ Hr) as I.
  set (P := fun s => p_state s = 6 /\ p_reader s = RPW /\ p_wait s = WPaused /\
                     forall t, holdsNothing (p_calls s t) = true).
  assert (P0 : P s0).
  { unfold pstep, resetDeadline in H0. rewrite (i_panic _ I) in H0. injection H0 as <-. unfold P; pcbn. rewrite Hst.
    pose proof (no_cs s I Hlk) as Hn. repeat split; auto.
    - destruct (i_paused _ I Hst) as [W|(t & c & K)]; auto. specialize (Hn t). rewrite K in Hn. discriminate.
    - intros t. specialize (Hn t). destruct (p_calls s t); try discriminate; reflexivity. }
  assert (K : P s').
  { eapply (stuck_by can P (fun _ => True)); [|exact P0|apply Forall_forall; auto|exact H].
    clear. intros s l s' (P1 & P2 & P3 & P4) _ H. unfold pstep, resetDeadline in H. destruct (p_panic s); [discriminate|].
    assert (U : forall t v, holdsNothing v = true -> forall t', holdsNothing (fupd (p_calls s) t v t') = true).
    { intros t v Hv t'. unfold fupd. destruct (Nat.eqb_spec t' t); [exact Hv|exact (P4 t')]. }
    destruct l; rewrite ?P1, ?P2, ?P3 in H.
    all: try (vm_compute (setState _ _ _) in H; vm_compute (_ =? _) in H; cbv iota in H).
    all: try (specialize (P4 t) as P4t); crack H; try discriminate P4t; unfold P; destruct can; pcbn; auto 10.
    all: try (rewrite P1; split; [reflexivity|auto]). }
  destruct K as (K1 & K2 & _). auto.
Qed.
Print Assumptions C36_paused_close_refuted.

(** Not vacuous: SetPause(true), then Close. *)
Example C36_example :
  match exec (pstep true) initPause readPause with
  | Some s => p_state s = SessionStatePaused /\ p_reader s = RPW /\ p_lock s = None
  | None => False
  end /\
  match exec (pstep true) initPause (readPause ++ [PLClose; PLCancel; CStep; CStep; CStep; PLCall 7%nat false; PLock 7; PSet 7]) with
  | Some s => p_state s = SessionStateClosing /\ p_reader s = RPW /\ p_calls s 7%nat = PRet false
  | None => False
  end.
Proof. vm_compute. auto. Qed.

(** ** C77.  Full statement: after Close (returned without error, i.e. with the
    state Closing and the context cancelled) the session becomes Closed, whether
    or not the peer sends anything more. False for a session that was never
    paused: Close between the reader's check and its announcement that it reads. *)
Definition silent (l : plabel) : Prop := match l with RData | RFail => False | _ => True end.
Lemma blocked_reader : forall s l s', silent l -> pstep true s l = Some s' ->
  p_state s = 6 /\ p_reader s = RRead /\ p_dl s = false /\ p_closer s = 3 /\ p_bclosed s = false /\ (forall t, pausing (p_calls s t) = false) ->
  p_state s' = 6 /\ p_reader s' = RRead /\ p_dl s' = false /\ p_closer s' = 3 /\ p_bclosed s' = false /\ (forall t, pausing (p_calls s' t) = false).
Proof.
  intros s l s' Hl H (P1 & P2 & P3 & P4 & P6 & P5). unfold pstep, resetDeadline in H. destruct (p_panic s); [discriminate|].
  assert (U : forall t v, pausing v = false -> forall t', pausing (fupd (p_calls s) t v t') = false).
  { intros t v Hv t'. unfold fupd. destruct (Nat.eqb_spec t' t); auto. }
  destruct l; try contradiction; rewrite ?P1, ?P2, ?P3, ?P4, ?P6 in H.
  all: try (vm_compute (setState _ _ _) in H; vm_compute (_ =? _) in H; cbv iota in H).
  all: try (specialize (P5 t) as P5t); crack H; try discriminate P5t; pcbn; auto 10.
  all: try (rewrite P1; split; [reflexivity|auto 10]).
Qed.

Theorem C77_close_race_refuted :
  exists s, reachableP true s /\ (forall t, p_calls s t = PNone) /\ p_ctx s = true /\ p_closer s = 3 /\
    forall ls s', Forall silent ls -> exec (pstep true) s ls = Some s' -> p_state s' = SessionStateClosing /\ p_reader s' = RRead.
Proof.
  destruct (exec (pstep true) initPause [RStep; PLClose; PLCancel; CStep; CStep; RStep; RStep]) as [s|] eqn:E; [|vm_compute in E; discriminate].
  exists s. split; [eapply exec_reachable; [|exact E]; reflexivity|]. vm_compute in E. injection E as <-.
  do 3 (split; [reflexivity|]). intros ls s' Hl H.
  set (P := fun s => p_state s = 6 /\ p_reader s = RRead /\ p_dl s = false /\ p_closer s = 3 /\ p_bclosed s = false /\ (forall t, pausing (p_calls s t) = false)).
  assert (K : P s').
  { eapply (stuck_by true P silent); [|shelve|exact Hl|exact H].
    intros s1 l s2 HP Hs1 Hs2. exact (blocked_reader _ _ _ Hs1 Hs2 HP).
    Unshelve. unfold P. cbn. repeat split. }
  destruct K as (K1 & K2 & _). auto.
Qed.
Print Assumptions C77_close_race_refuted.

(** The same after a complete pause and unpause: the reader, late, removes the
    deadline by which the backend closer wanted to wake it. *)
Theorem C77_close_after_pause_refuted :
  exists s, reachableP true s /\ p_calls s 0%nat = PRet true /\ p_calls s 1%nat = PRet true /\ p_ctx s = true /\ p_closer s = 3 /\
    forall ls s', Forall silent ls -> exec (pstep true) s ls = Some s' -> p_state s' = SessionStateClosing /\ p_reader s' = RRead.
Proof.
  destruct (exec (pstep true) initPause (pauseRun 0 ++ [RStep; RStep; RStep; RStep; RStep; PReturn 0] ++
    [PLCall 1%nat false; PLock 1; PSet 1; PUnlock 1; PLClose; PLCancel; CStep; CStep; CStep; RStep; RStep; RStep])) as [s|] eqn:E; [|vm_compute in E; discriminate].
  exists s. split; [eapply exec_reachable; [|exact E]; reflexivity|]. vm_compute in E. injection E as <-.
  do 4 (split; [reflexivity|]). intros ls s' Hl H.
  set (P := fun s => p_state s = 6 /\ p_reader s = RRead /\ p_dl s = false /\ p_closer s = 3 /\ p_bclosed s = false /\ (forall t, pausing (p_calls s t) = false)).
  assert (K : P s').
  { eapply (stuck_by true P silent); [|shelve|exact Hl|exact H].
    intros s1 l s2 HP Hs1 Hs2. exact (blocked_reader _ _ _ Hs1 Hs2 HP).
    Unshelve. unfold P. cbn [p_state p_reader p_dl p_closer p_bclosed p_calls]. repeat split. intros [|[|t]]; reflexivity. }
  destruct K as (K1 & K2 & _). auto.
Qed.
Print Assumptions C77_close_after_pause_refuted.

(** What is true: if at that moment the reader is neither just about to announce
    that it reads nor inside waitForUnpause, it ends and the session becomes
    Closed after finitely many steps of the reader and the backend closer, under
    every schedule, for backends with and without deadlines, with or without
    traffic. (A backend without deadlines gets closed.) *)
Definition reading_or_working (r : rphase) : bool :=
  match r with RTop | RCheck | RRead | RGot | RProc | RErr _ | RErrH _ | REnd => true | _ => false end.
Definition closingStep (can : bool) (s s' : pst) : Prop :=
  exists l, match l with RStep | RData | RTimeout | RFail | RClosedErr | RHandle _ | CStep => true | _ => false end = true /\ pstep can s l = Some s'.
Definition closingOwn (can : bool) (s s' : pst) : Prop :=
  exists l, match l with RStep | RTimeout | RClosedErr | RHandle _ | CStep => true | _ => false end = true /\ pstep can s l = Some s'.
Record closingInv (can : bool) (s : pst) : Prop := {
  k_panic : p_panic s = false; k_ctx : p_ctx s = true;
  k_state : (p_state s = 6 /\ reading_or_working (p_reader s) = true) \/ (p_state s = 1 /\ (p_reader s = RFin \/ p_reader s = RDone));
  k_rd : readingPhase (p_reader s) = true -> p_reading s = true;
  k_closer : p_closer s <= 3;
  k_woken : p_closer s = 3 -> p_reader s = RCheck \/ p_reader s = RRead -> if can then p_dl s = true else p_bclosed s = true
}.
Definition mClosing (r : rphase) : nat :=
  match r with RCheck => 8 | RRead => 7 | RGot | RErr _ => 6 | RProc | RErrH _ => 5 | RTop => 4 | REnd => 3 | RFin => 2 | _ => 0 end%nat.

Lemma closing_inv_step : forall can s s', closingInv can s -> closingStep can s s' ->
  closingInv can s' /\ (mClosing (p_reader s') + (3 - N.to_nat (p_closer s')) < mClosing (p_reader s) + (3 - N.to_nat (p_closer s)))%nat.
Proof.
  intros can s s' [K1 K2 K3 K4 K5 K6] (l & Hl & H). unfold pstep, resetDeadline in H. rewrite K1 in H.
  destruct l; try discriminate Hl.
  - destruct K3 as [[S R]|[S [R|R]]]; [|rewrite R in H; injection H as <-|rewrite R in H; discriminate].
    2: { destruct (p_req s <=? p_hap s), can; pcbn; rewrite R; (split; [|cbn [mClosing]; lia]); constructor; pcbn; auto; try discriminate; intros _ [K|K]; discriminate. }
    destruct (p_reader s) eqn:Er; try discriminate R; try discriminate H.
    + rewrite S in H. change (isDoneState 6) with true in H. injection H as <-. pcbn. split; [|cbn [mClosing]; lia].
      constructor; pcbn; auto; try discriminate. intros _ [K|K]; discriminate.
    + rewrite S in H. change (6 =? SessionStatePaused) with false in H. injection H as <-. pcbn. split; [|cbn [mClosing]; lia].
      constructor; pcbn; auto; try discriminate. intros K _. exact (K6 K (or_introl eq_refl)).
    + injection H as <-. pcbn. split; [|cbn [mClosing]; lia]. constructor; pcbn; auto; try discriminate. intros _ [K|K]; discriminate.
    + injection H as <-. pcbn. split; [|cbn [mClosing]; lia]. constructor; pcbn; auto; try discriminate. intros _ [K|K]; discriminate.
    + injection H as <-. pcbn. split; [|cbn [mClosing]; lia]. constructor; pcbn; auto; try discriminate. intros _ [K|K]; discriminate.
    + injection H as <-. pcbn. split; [|cbn [mClosing]; lia]. constructor; pcbn; auto; try discriminate. intros _ [K|K]; discriminate.
  - destruct (p_reader s) eqn:Er; try discriminate. destruct (p_bclosed s) eqn:Eb; [discriminate|]. injection H as <-. pcbn.
    split; [|cbn [mClosing]; lia]. destruct K3 as [[S R]|[S [R|R]]]; try discriminate.
    constructor; pcbn; auto; try discriminate. intros _ [K|K]; discriminate.
  - destruct (p_reader s) eqn:Er; try discriminate. destruct (p_dl s) eqn:Eb; [|discriminate]. injection H as <-. pcbn.
    split; [|cbn [mClosing]; lia]. destruct K3 as [[S R]|[S [R|R]]]; try discriminate.
    constructor; pcbn; auto; try discriminate. intros _ [K|K]; discriminate.
  - destruct (p_reader s) eqn:Er; try discriminate. injection H as <-. pcbn.
    split; [|cbn [mClosing]; lia]. destruct K3 as [[S R]|[S [R|R]]]; try discriminate.
    constructor; pcbn; auto; try discriminate. intros _ [K|K]; discriminate.
  - destruct (p_reader s) eqn:Er; try discriminate. destruct (p_bclosed s) eqn:Eb; [|discriminate]. injection H as <-. pcbn.
    split; [|cbn [mClosing]; lia]. destruct K3 as [[S R]|[S [R|R]]]; try discriminate.
    constructor; pcbn; auto; try discriminate. intros _ [K|K]; discriminate.
  - destruct (p_reader s) eqn:Er; try discriminate. destruct K3 as [[S R]|[S [R|R]]]; try discriminate.
    rewrite S in H. change (isDoneState 6) with true in H. injection H as <-. pcbn. split; [|cbn [mClosing]; lia].
    constructor; pcbn; auto; try discriminate. intros _ [K|K]; discriminate.
  - assert (Cs : p_closer s = 0 \/ p_closer s = 1 \/ p_closer s = 2 \/ p_closer s = 3) by lia.
    destruct Cs as [C|[C|[C|C]]]; rewrite C in H; try discriminate.
    + rewrite K2 in H. injection H as <-. pcbn. rewrite C. split; [|lia].
      assert (St : fst (setState (p_state s) SessionStateClosing [SessionStateClosed]) = p_state s).
      { destruct K3 as [[S _]|[S _]]; rewrite S; reflexivity. }
      constructor; pcbn; auto; try discriminate; try lia. rewrite St. exact K3.
    + destruct (p_reading s) eqn:Eg; injection H as <-; pcbn; rewrite C; (split; [|lia]); constructor; pcbn; auto; try discriminate; try lia.
      intros K; specialize (K4 K); discriminate.
      intros _ [K|K]; rewrite K in K4; specialize (K4 eq_refl); discriminate.
    + destruct can; injection H as <-; pcbn; rewrite C; (split; [|lia]); constructor; pcbn; auto; try discriminate; try lia.
Qed.

Theorem C77_close_ends_partial : forall can s, reachableP can s ->
  p_state s = SessionStateClosing -> p_ctx s = true -> p_closer s = 0 -> reading_or_working (p_reader s) = true ->
  surely (closingStep can) (closingOwn can) (fun s' => p_state s' = SessionStateClosed /\ p_reader s' = RDone) s.
Proof.
  intros can s Hr S C0 C1 R. destruct (reading_inv _ _ Hr) as [Rg _].
  apply (surely_by_measure (closingStep can) (closingOwn can) (closingInv can) _ (fun x => (mClosing (p_reader x) + (3 - N.to_nat (p_closer x)))%nat)).
  - apply closing_inv_step.
  - clear. intros s [K1 K2 K3 K4 K5 K6].
    assert (Hex : forall l s', match l with RStep | RTimeout | RClosedErr | RHandle _ | CStep => true | _ => false end = true ->
              pstep can s l = Some s' -> exists s', closingOwn can s s') by (intros l s' Q1 Q2; exists s', l; auto).
    assert (Cs : p_closer s = 0 \/ p_closer s = 1 \/ p_closer s = 2 \/ p_closer s = 3) by lia.
    destruct Cs as [C|[C|[C|C]]].
    + right. eapply (Hex CStep); [reflexivity|]. unfold pstep. rewrite K1, C, K2. reflexivity.
    + right. destruct (p_reading s) eqn:Eg; (eapply (Hex CStep); [reflexivity|]); unfold pstep; rewrite K1, C, Eg; reflexivity.
    + right. eapply (Hex CStep); [reflexivity|]. unfold pstep. rewrite K1, C. reflexivity.
    + destruct K3 as [[S R]|[S R]].
      * right. destruct (p_reader s) eqn:Er; try discriminate R;
          try (now (eapply (Hex RStep); [reflexivity|]; unfold pstep; rewrite K1, Er; reflexivity)).
        -- specialize (K6 C (or_intror eq_refl)). destruct can.
           ++ eapply (Hex RTimeout); [reflexivity|]. unfold pstep. rewrite K1, Er, K6. reflexivity.
           ++ eapply (Hex RClosedErr); [reflexivity|]. unfold pstep. rewrite K1, Er, K6. reflexivity.
        -- eapply (Hex (RHandle true)); [reflexivity|]. unfold pstep. rewrite K1, Er, S. reflexivity.
      * destruct R as [R|R]; [right|left; auto].
        eapply (Hex RStep); [reflexivity|]. unfold pstep. rewrite K1, R. reflexivity.
  - constructor; auto.
    + exact (C35_no_panic _ _ Hr).
    + rewrite C1. lia.
    + rewrite C1. discriminate.
Qed.
Print Assumptions C77_close_ends_partial.

(** C36, weaker: a paused session that is unpaused first can be closed. *)
Theorem C36_unpause_first_partial : forall can s t, reachableP can s ->
  p_state s = SessionStatePaused -> p_reader s = RPW -> p_lock s = None -> p_ctx s = false -> p_closer s = 0 -> p_calls s t = PNone ->
  exists s', exec (pstep can) s [PLCall t false; PLock t; PSet t; PUnlock t; RStep; RStep; PLClose; PLCancel] = Some s' /\
    p_calls s' t = PRet true /\ p_state s' = SessionStateClosing /\
    surely (closingStep can) (closingOwn can) (fun s' => p_state s' = SessionStateClosed /\ p_reader s' = RDone) s'.
Proof.
  intros can s t Hr Hst Hrd Hlk Hc Hcl Ht. pose proof (pause_inv _ _ Hr) as I.
  assert (W : p_wait s = WPaused).
  { destruct (i_paused _ I Hst) as [W|(t' & c & K)]; [exact W|]. pose proof (no_cs s I Hlk t') as Hn. rewrite K in Hn. discriminate. }
  assert (P := i_panic _ I).
  assert (E : exists s', exec (pstep can) s [PLCall t false; PLock t; PSet t; PUnlock t; RStep; RStep; PLClose; PLCancel] = Some s' /\
    p_calls s' t = PRet true /\ p_state s' = SessionStateClosing /\ p_reader s' = RRead /\ p_ctx s' = true /\ p_closer s' = 0).
  { destruct s as [st ch nx cd lk wt rg rq hp dl cx cl bc rd cs er pn]. pcbn. subst.
    cbn [exec]. unfold pstep at 1. pcbn. rewrite Ht. unfold pstep at 1. pcbn. unfold fupd at 1. rewrite Nat.eqb_refl.
    unfold pstep at 1. pcbn. unfold fupd at 1. rewrite Nat.eqb_refl. vm_compute (setState _ _ _). cbv iota beta. vm_compute (_ =? _). cbv iota.
    unfold pstep at 1. pcbn. unfold fupd at 1. rewrite Nat.eqb_refl. cbn [isFree].
    unfold pstep at 1. pcbn. cbn [isFree]. unfold pstep at 1. pcbn. unfold pstep at 1. pcbn. unfold pstep at 1. pcbn.
    eexists. split; [reflexivity|]. pcbn. unfold fupd. rewrite Nat.eqb_refl. repeat split. }
  destruct E as (s' & E & E1 & E2 & E3 & E4 & E5). exists s'. split; [exact E|]. split; [exact E1|]. split; [exact E2|].
  apply C77_close_ends_partial; auto; [|rewrite E3; reflexivity].
  eapply reachable_steps; [exact Hr|eapply exec_steps; exact E].
Qed.
Print Assumptions C36_unpause_first_partial.

Example C36_unpause_example :
  match exec (pstep true) initPause (readPause ++ [PLCall 7%nat false; PLock 7; PSet 7; PUnlock 7; RStep; RStep; PLClose; PLCancel;
                                                   CStep; CStep; CStep; RTimeout; RStep; RHandle true; RStep; RStep]) with
  | Some s => p_state s = SessionStateClosed /\ p_reader s = RDone /\ p_calls s 7%nat = PRet true /\ p_errors s = 0
  | None => False
  end /\
  match exec (pstep true) initPause readPause with Some s => p_ctx s = false /\ p_closer s = 0 /\ p_calls s 7%nat = PNone | None => False end.
Proof. vm_compute. auto 10. Qed.

Example C77_example :
  match exec (pstep true) initPause [RStep; RStep; RStep; PLClose; PLCancel] with
  | Some s => p_state s = SessionStateClosing /\ p_ctx s = true /\ p_closer s = 0 /\ reading_or_working (p_reader s) = true
  | None => False
  end /\
  match exec (pstep false) initPause [RStep; RStep; RStep; PLClose; PLCancel; CStep; CStep; CStep; RClosedErr; RStep; RHandle true; RStep; RStep] with
  | Some s => p_state s = SessionStateClosed /\ p_reader s = RDone
  | None => False
  end.
Proof. vm_compute. auto. Qed.

(** ** C78.  Full statement: pausing and unpausing a session never makes it
    report a read error. False: if the reader is late after the first pause, the
    deadline set for the second one is forgotten, and Read fails with a timeout
    that is taken for a real error and closes the session. *)
Theorem C78_spurious_error_refuted :
  exists ls s, exec (pstep true) initPause ls = Some s /\
    Forall (fun l => match l with RFail | RClosedErr | PLClose | PLCancel => False | _ => True end) ls /\
    p_errors s = 1 /\ p_state s = SessionStateClosing.
Proof.
  exists (pauseRun 0 ++ [RStep; RStep; RStep; RStep; RStep; PReturn 0; PLCall 1%nat false; PLock 1; PSet 1; PUnlock 1] ++
     pauseRun 2 ++ [RStep; PDeadline 2; PLCall 3%nat false; PLock 3; PSet 3; PUnlock 3; RStep; RStep; RTimeout; RStep; RHandle false]).
  eexists. split; [vm_compute; reflexivity|]. split; [|auto]. repeat constructor.
Qed.
Print Assumptions C78_spurious_error_refuted.

(** What is true: after a pause that ended as in [C35_returns_partial], unpausing
    lets the reader go on reading, with no deadline left and no error. *)
Theorem C78_cycle_partial : forall s u, reachableP true s ->
  p_state s = SessionStatePaused -> p_reader s = RPW -> p_dl s = false -> p_lock s = None -> p_calls s u = PNone ->
  exists s', exec (pstep true) s [PLCall u false; PLock u; PSet u; PUnlock u; RStep; RStep] = Some s' /\
    p_state s' = SessionStateEstablished /\ p_reader s' = RRead /\ p_dl s' = false /\ p_errors s' = p_errors s /\
    p_calls s' u = PRet true.
Proof.
  intros s u Hr Hst Hrd Hdl Hlk Hu. pose proof (pause_inv _ _ Hr) as I.
  assert (W : p_wait s = WPaused).
  { destruct (i_paused _ I Hst) as [W|(t & c & K)]; auto. pose proof (no_cs s I Hlk t) as Hn. rewrite K in Hn. discriminate. }
  set (s1 := up_call s u (PWant false)).
  set (s2 := up_lock (up_call s1 u (PIn false)) (Some (OwnCall u))).
  set (s3 := up_call (up_state s2 SessionStateEstablished) u PUnl).
  set (s4 := up_lock (up_call (up_wait s3 WFree) u (PRet true)) None).
  set (s5 := up_reader (up_wait s4 WReader) RPU).
  set (s6 := up_reader (up_wait s5 WFree) RRead).
  assert (E1 : pstep true s (PLCall u false) = Some s1) by (unfold pstep; rewrite (i_panic _ I), Hu; reflexivity).
  assert (E2 : pstep true s1 (PLock u) = Some s2) by (unfold pstep; cbn [s1 p_panic p_calls p_lock up_call]; rewrite (i_panic _ I), fupd_same, Hlk; reflexivity).
  assert (E3 : pstep true s2 (PSet u) = Some s3).
  { unfold pstep. cbn [s2 s1 p_panic p_calls p_state up_call up_lock]. rewrite (i_panic _ I), fupd_same, Hst. reflexivity. }
  assert (E4 : pstep true s3 (PUnlock u) = Some s4).
  { unfold pstep. cbn [s3 s2 s1 p_panic p_calls p_wait up_call up_lock up_state]. rewrite (i_panic _ I), fupd_same, W. reflexivity. }
  assert (E5 : pstep true s4 RStep = Some s5).
  { unfold pstep. cbn [s4 s3 s2 s1 p_panic p_calls p_wait p_reader up_call up_lock up_state up_wait isFree]. rewrite (i_panic _ I), Hrd. reflexivity. }
  assert (E6 : pstep true s5 RStep = Some s6).
  { unfold pstep. cbn [s5 s4 s3 s2 s1 p_panic p_calls p_wait p_reader up_call up_lock up_state up_wait up_reader isFree]. rewrite (i_panic _ I). reflexivity. }
  exists s6. split.
  - cbn [exec]. rewrite E1, E2, E3, E4, E5, E6. reflexivity.
  - cbn [s6 s5 s4 s3 s2 s1 p_state p_reader p_dl p_errors p_calls up_call up_lock up_state up_wait up_reader]. rewrite fupd_same. auto 10.
Qed.
Print Assumptions C78_cycle_partial.

Example C78_example :
  match exec (pstep true) initPause (readPause ++ [PLCall 1%nat false; PLock 1; PSet 1; PUnlock 1; RStep; RStep; RData; RStep; RStep]) with
  | Some s => (p_state s, p_reader s, p_errors s) = (SessionStateEstablished, RTop, 0)
  | None => False
  end.
Proof. vm_compute. reflexivity. Qed.

(** ** C122.  Full statement: when reader and backend closer have ended and the
    backend was not closed, its read deadline is not one of the session any
    more, so that the application can go on using it ([DetachOn...] options, or a
    new session on the same backend): [p_dl = false].
    False: a packet arrives while the backend closer is between counting the
    interrupt and setting the deadline. The reader has reset the deadline by then. *)
Definition lateDeadline : list plabel :=
  [RStep; RStep; RStep; PLClose; PLCancel; CStep; CStep; RData; RStep; RStep; RStep; RStep; RStep; CStep].
Theorem C122_deadline_left_refuted :
  exists s, exec (pstep true) initPause lateDeadline = Some s /\
    p_state s = SessionStateClosed /\ p_reader s = RDone /\ p_closer s = 3 /\ p_bclosed s = false /\ (forall t, p_calls s t = PNone) /\
    forall ls s', exec (pstep true) s ls = Some s' -> p_dl s' = true.
Proof.
  destruct (exec (pstep true) initPause lateDeadline) as [s|] eqn:E; [|vm_compute in E; discriminate].
  exists s. split; [reflexivity|]. vm_compute in E. injection E as <-. do 5 (split; [reflexivity|]). intros ls s' H.
  set (P := fun s => p_reader s = RDone /\ p_dl s = true).
  assert (K : P s').
  { eapply (stuck_by true P (fun _ => True)); [|shelve|apply Forall_forall; auto|exact H].
    clear. intros s l s' (P1 & P2) _ H. unfold pstep, resetDeadline in H. destruct (p_panic s); [discriminate|].
    destruct l; rewrite ?P1 in H; crack H; unfold P; pcbn; auto.
    Unshelve. unfold P. auto. }
  apply K.
Qed.
Print Assumptions C122_deadline_left_refuted.

(** Without calls of SetPause: it is true if the backend closer is not between
    these two steps when the reader does the last step of its clean-up. *)
Definition noPause (l : plabel) : Prop := match l with PLCall _ _ => False | _ => True end.
Record plainInv (can : bool) (s : pst) : Prop := {
  n_calls : forall t, p_calls s t = PNone;
  n_state : p_state s = 4 \/ p_state s = 6 \/ p_state s = 1;
  n_closing : p_closer s = 0 \/ p_state s = 6 \/ p_state s = 1;
  n_idle : match p_reader s with RTop | RProc | RErrH _ | REnd | RFin | RDone => p_reading s = false | RPL | RPC | RReset | RPW | RPU => False | _ => True end;
  n_hap : p_reader s <> RDone -> p_hap s = 0;
  n_req : p_closer s = 0 \/ p_closer s = 1 -> p_req s = 0;
  n_dl : p_dl s = true -> 0 < p_req s;
  n_set : p_closer s = 2 -> 0 < p_req s;
  n_can : can = false -> p_dl s = false
}.
Lemma plain_step : forall can s l s', noPause l -> pstep can s l = Some s' -> plainInv can s -> plainInv can s'.
Proof.
  intros can s l s' Hl H [N1 N2 N3 N4 N5 N6 N7 N8 N9]. unfold pstep, resetDeadline in H. destruct (p_panic s); [discriminate|].
  assert (Cl : fst (setState (p_state s) SessionStateClosing [SessionStateClosed]) = 6 \/
               fst (setState (p_state s) SessionStateClosing [SessionStateClosed]) = 1).
  { destruct N2 as [E|[E|E]]; rewrite E; vm_compute; auto. }
  destruct l; try contradiction; try (rewrite N1 in H; discriminate).
  - destruct (p_reader s) eqn:R; try discriminate H; try contradiction.
    + injection H as <-. destruct (isDoneState _); constructor; pcbn; auto; intros _; apply N5; discriminate.
    + injection H as <-. constructor; pcbn; auto. intros _. apply N5. discriminate.
    + injection H as <-. assert (Q : p_state s =? SessionStatePaused = false) by (destruct N2 as [E|[E|E]]; rewrite E; reflexivity).
      rewrite Q. constructor; pcbn; auto. intros _. apply N5. discriminate.
    + injection H as <-. constructor; pcbn; auto. intros _. apply N5. discriminate.
    + injection H as <-. constructor; pcbn; auto. intros _. apply N5. discriminate.
    + injection H as <-. constructor; pcbn; auto. intros _. apply N5. discriminate.
    + injection H as <-. constructor; pcbn; auto. intros _. apply N5. discriminate.
    + injection H as <-. destruct (N.leb_spec (p_req s) (p_hap s)), can; constructor; pcbn; auto; try congruence; discriminate.
  - destruct (p_reader s) eqn:R; try discriminate. destruct (p_bclosed s); [discriminate|]. injection H as <-. constructor; pcbn; auto.
    intros _. apply N5. discriminate.
  - destruct (p_reader s) eqn:R; try discriminate. destruct (p_dl s) eqn:D; [|discriminate]. injection H as <-. constructor; pcbn; try rewrite D; auto.
    intros _. apply N5. discriminate.
  - destruct (p_reader s) eqn:R; try discriminate. injection H as <-. constructor; pcbn; auto.
    intros _. apply N5. discriminate.
  - destruct (p_reader s) eqn:R; try discriminate. destruct (p_bclosed s); [|discriminate]. injection H as <-. constructor; pcbn; auto.
    intros _. apply N5. discriminate.
  - destruct (p_reader s) eqn:R; try discriminate.
    assert (Hp : p_hap s = 0) by (apply N5; discriminate).
    destruct (isDoneState (p_state s)) eqn:Dn.
    + injection H as <-. constructor; pcbn; auto.
    + assert (C0 : p_closer s = 0). { destruct N3 as [K|[K|K]]; auto; rewrite K in Dn; discriminate. }
      assert (Rq : p_req s = 0) by auto. rewrite Hp, Rq in H. change (0 <? 0) with false in H. rewrite andb_false_r in H. cbn [andb] in H.
      destruct handled; injection H as <-; constructor; pcbn; auto; tauto.
  - injection H as <-. constructor; pcbn; auto; tauto.
  - injection H as <-. constructor; pcbn; auto.
  - destruct (p_closer s) as [|[?|[?|?|]|]] eqn:C; try discriminate.
    + destruct (p_ctx s); [|discriminate]. injection H as <-. constructor; pcbn; auto; try tauto; discriminate.
    + cbn zeta in H. injection H as <-.
      destruct can; constructor; pcbn; auto; try (intros [K|K]; discriminate); try discriminate;
        (destruct N3 as [K|K]; [discriminate|auto]).
    + destruct (p_reading s) eqn:G; injection H as <-; constructor; pcbn; auto; try (intros [K|K]; discriminate); try discriminate; try lia;
        try rewrite G; (destruct N3 as [K|K]; [discriminate|auto]).
Qed.

Lemma plain_run : forall can ls s, exec (pstep can) initPause ls = Some s -> Forall noPause ls -> plainInv can s.
Proof.
  intros can ls s E F. eapply (stuck_by can (plainInv can) noPause); [|shelve|exact F|exact E].
  intros x l x' I Hl H. exact (plain_step can x l x' Hl H I).
  Unshelve. constructor; cbn; auto; discriminate.
Qed.

Theorem C122_deadline_reset_partial : forall can ls1 s1 ls2 s2,
  exec (pstep can) initPause ls1 = Some s1 -> Forall noPause (ls1 ++ ls2) -> p_reader s1 = RFin -> p_closer s1 <> 2 ->
  exec (pstep can) s1 ls2 = Some s2 -> p_reader s2 = RDone -> p_dl s2 = false.
Proof.
  intros can ls1 s1 ls2 s2 E1 F R C E2 R2. apply Forall_app in F. destruct F as [F1 F2].
  pose proof (plain_run can ls1 s1 E1 F1) as I1.
  set (Q := fun s => plainInv can s /\ p_closer s <> 2 /\ (p_reader s = RFin \/ (p_reader s = RDone /\ p_dl s = false))).
  assert (K : Q s2).
  { eapply (stuck_by can Q noPause); [|exact (conj I1 (conj C (or_introl R)))|exact F2|exact E2].
    clear. intros s l s' (I & C & R) Hl H. split; [exact (plain_step can s l s' Hl H I)|].
    destruct I as [N1 N2 N3 N4 N5 N6 N7 N8 N9]. unfold pstep, resetDeadline in H. destruct (p_panic s); [discriminate|].
    destruct l; try contradiction; try (rewrite N1 in H; discriminate).
    - destruct R as [R|[R D]]; rewrite R in H; [|discriminate]. assert (Hp : p_hap s = 0) by (apply N5; rewrite R; discriminate).
      rewrite Hp in H. destruct (N.leb_spec (p_req s) 0), can; injection H as <-; pcbn; (split; [exact C|right; split; auto]).
      + destruct (p_dl s); auto. specialize (N7 eq_refl). lia.
    - destruct R as [R|[R D]]; rewrite R in H; discriminate.
    - destruct R as [R|[R D]]; rewrite R in H; discriminate.
    - destruct R as [R|[R D]]; rewrite R in H; discriminate.
    - destruct R as [R|[R D]]; rewrite R in H; discriminate.
    - destruct R as [R|[R D]]; rewrite R in H; discriminate.
    - injection H as <-. pcbn. auto.
    - injection H as <-. pcbn. auto.
    - destruct (p_closer s) as [|[?|[?|?|]|]] eqn:Cl; try discriminate; try congruence.
      + destruct (p_ctx s); [|discriminate]. injection H as <-. pcbn. split; [discriminate|exact R].
      + assert (G : p_reading s = false) by (destruct R as [R|[R _]]; rewrite R in N4; exact N4).
        rewrite G in H. injection H as <-. pcbn. split; [discriminate|exact R]. }
  destruct K as (_ & _ & [K|[_ K]]); [congruence|exact K].
Qed.
Print Assumptions C122_deadline_reset_partial.

(** The usual order: the deadline wakes the reader, which then removes it. *)
Example C122_example :
  match exec (pstep true) initPause [RStep; RStep; RStep; PLClose; PLCancel; CStep; CStep; CStep; RTimeout; RStep; RHandle true; RStep] with
  | Some s => p_reader s = RFin /\ p_closer s <> 2 /\ p_dl s = true /\
      match exec (pstep true) s [RStep] with
      | Some s => p_reader s = RDone /\ p_dl s = false /\ p_bclosed s = false
      | None => False
      end
  | None => False
  end.
Proof. vm_compute. repeat split. discriminate. Qed.
