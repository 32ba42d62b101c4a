(** C148, C149: detaching leaves the backend alone, and Close with detach options
    on a backend without deadlines. *)
From Coq Require Import NArith List Bool Lia.
From Verif Require Import Base TS DetachModel.
Import ListNotations.
Local Open Scope N_scope.

(** Nobody but the reader ends the session. *)
Definition alone (l : detachLabel) : bool := match l with LClose | LCancel => false | _ => true end.

(** The backend is as the application has given it to the session. *)
Definition untouched (s : dst) : Prop := d_open s = true /\ d_expired s = false /\ d_errs s = 0.

Definition doneReader (r : dphase) : bool := match r with DTop | DClosing | DEnd | DFin | DDone => true | _ => false end.
Definition calmCloser (k : kphase) : bool := match k with KInt _ | KSet _ => false | _ => true end.
Definition readingPhase (r : dphase) : bool := match r with DRead | DGot _ => true | _ => false end.
Definition after (r : dphase) : bool := match r with DClosing | DFin | DDone => true | _ => false end.

Definition aloneInv (s : dst) : Prop :=
  untouched s
  /\ calmCloser (d_closer s) = true
  /\ d_reading s = readingPhase (d_reader s)
  /\ (d_closer s <> KWait -> d_ctx s = true)
  /\ (d_ctx s = true -> d_done s = true)
  /\ (d_done s = true -> doneReader (d_reader s) = true)
  /\ (after (d_reader s) = true -> d_done s = true)
  /\ (d_reader s = DFin \/ d_reader s = DDone -> d_ctx s = true).

Section C.
  Variable c : dconf.

  Lemma alone_inv : forall s l s', aloneInv s -> alone l = true -> detachStep c s l = Some s' -> aloneInv s'.
  Proof.
    intros [kx dn cx ct fl rd rq hp ex op er r k] l s' I A S.
    unfold aloneInv, untouched in *. cbn in I.
    destruct I as ((O & X & E) & K & R & CW & CD & DR & AF & FC). subst.
    destruct l; try discriminate A; cbn in S;
      unfold readerNext, closerNext, oneMessage, closeByReader, setReading, setFlags, setCounts, setBackend, toReader, toCloser in S; cbn in S.
    all: repeat match type of S with
         | context [match ?x with _ => _ end] => destruct x eqn:?; cbn in S
         | None = Some _ => discriminate S
         | Some _ = Some _ => injection S as <-
         end; subst; cbn in *; try discriminate.
    all: repeat match goal with |- _ /\ _ => split end; cbn; auto; try discriminate; try congruence; intuition (try congruence; try discriminate).
    all: destruct r; discriminate.
  Qed.

  Lemma alone_run : forall ls s s', aloneInv s -> forallb alone ls = true -> exec (detachStep c) s ls = Some s' -> aloneInv s'.
  Proof.
    induction ls as [|l ls IH]; intros s s' I A E; cbn in E, A.
    - injection E as <-. exact I.
    - apply andb_prop in A as [A1 A2]. destruct (detachStep c s l) as [s1|] eqn:S; [|discriminate].
      apply (IH s1 s' (alone_inv s l s1 I A1 S) A2 E).
  Qed.

  (** ** The end of the session *)

  (** Steps that need neither the peer nor a failing backend. *)
  Definition byItself (s : dst) (l : detachLabel) : bool :=
    match l with LNext | LTimeout | LCloser | LCancel => true | LFail => negb (d_open s) | _ => false end.
  Definition detachOwn (s s' : dst) : Prop := exists l, byItself s l = true /\ detachStep c s l = Some s'.
  Definition finished (s : dst) : Prop := d_reader s = DDone /\ d_closer s = KDone.

  Definition away (r : dphase) : bool := match r with DFlag | DRead => false | _ => true end.
  Definition endInv (s : dst) : Prop :=
    d_done s = true /\ away (d_reader s) = true /\ (d_reader s = DFin \/ d_reader s = DDone -> d_ctx s = true).

  Definition wGot (g : got) : nat := match g with GMsgs n => n | _ => 0%nat end.
  Definition wReader (r : dphase) : nat :=
    match r with
    | DDone => 0 | DFin => 1 | DEnd => 2 | DTop => 3 | DClosing => 4 | DErr _ => 4 | DBad => 4
    | DMsgs n => 4 + n | DGot g => 5 + wGot g | DFlag => 0 | DRead => 0
    end%nat.
  Definition wCloser (k : kphase) : nat :=
    match k with KDone => 0 | KSet _ => 1 | KInt _ => 2 | KCheck _ => 3 | KLoad2 _ => 4 | KLoad => 5 | KState => 6 | KWait => 7 end%nat.
  Definition wEnd (s : dst) : nat := (wReader (d_reader s) + wCloser (d_closer s) + if d_ctx s then 0 else 1)%nat.

  Ltac unstep S :=
    unfold readerNext, closerNext, oneMessage, closeByReader, setReading, setFlags, setCounts, setBackend, toReader, toCloser in S; cbn in S;
    repeat match type of S with
           | context [match ?x with _ => _ end] => destruct x eqn:?; cbn in S
           | None = Some _ => discriminate S
           | Some _ = Some _ => injection S as <-
           end.

  Lemma end_step : forall s s', endInv s -> lstep (detachStep c) s s' -> endInv s' /\ (wEnd s' < wEnd s)%nat.
  Proof.
    intros [kx dn cx ct fl rd rq hp ex op er r k] s' I [l S]. unfold endInv, wEnd in *. cbn in I.
    destruct I as (D & A & F). subst dn.
    destruct l; cbn in S; unstep S; subst; cbn in *; try discriminate.
    all: rewrite ?andb_false_r in *; try discriminate.
    all: (split; [split; [|split]|]); cbn; auto; try discriminate; try lia; try (intros [?|?]; (discriminate || auto)).
    all: try (destruct cx; lia).
  Qed.

  Lemma end_progress : forall s, endInv s -> finished s \/ exists s', detachOwn s s'.
  Proof.
    intros s (D & A & F). unfold finished, detachOwn.
    assert (N : d_reader s = DDone \/ exists s', detachStep c s LNext = Some s').
    { cbn. unfold readerNext. destruct (d_reader s) as [| | |g|n| |t| | | |]; try discriminate A; eauto.
      - destruct g; eauto.
      - destruct n; eauto.
      - rewrite D. eauto. }
    destruct N as [E|[s' E]]; [|right; exists s', LNext; auto].
    assert (K : d_closer s = KDone \/ exists s', detachStep c s LCloser = Some s').
    { cbn. unfold closerNext. rewrite F by auto. destruct (d_closer s); eauto. }
    destruct K as [K|[s' K]]; [auto|right; exists s', LCloser; auto].
  Qed.

  Lemma ends_away : forall s, endInv s -> surely (lstep (detachStep c)) detachOwn finished s.
  Proof. intros s I. eapply surely_by_measure with (I := endInv) (m := wEnd); eauto using end_step, end_progress. Qed.

  (** The reader is in Read; what the closer has seen or will see is not the
      number at which the session detaches. *)
  Definition noDetach (n : N) (f : N) : Prop := (dcMsgs c = 0 \/ n <> dcMsgs c) /\ (dcFails c = 0 \/ f <> dcFails c).
  Definition readInv (s : dst) : Prop :=
    d_done s = true /\ d_reader s = DRead /\ d_reading s = true
    /\ match d_closer s with
       | KWait | KState | KLoad => noDetach (d_count s) (d_fails s)
       | KLoad2 n => noDetach n (d_fails s)
       | KCheck d | KInt d | KSet d => d = false
       | KDone => d_open s = false \/ d_expired s = true
       end.

  Lemma read_step : forall s s', readInv s -> lstep (detachStep c) s s' -> endInv s' \/ (readInv s' /\ (wEnd s' < wEnd s)%nat).
  Proof.
    intros [kx dn cx ct fl rd rq hp ex op er r k] s' I [l S]. unfold readInv, endInv, wEnd in *. cbn in I.
    destruct I as (D & R & G & K). subst dn r rd.
    destruct l; cbn in S; unstep S; subst; cbn in *; try discriminate.
    all: rewrite ?andb_false_r in *; try discriminate.
    all: try (left; split; [reflexivity|split; [reflexivity|intros [?|?]; discriminate]]).
    all: right; repeat (split; try reflexivity); cbn; auto; try lia; try apply K.
    - destruct K as [K1 K2]. apply orb_false_intro; apply andb_false_iff.
      + destruct K1 as [->|K1]; [left; reflexivity|right; apply N.eqb_neq; exact K1].
      + destruct K2 as [->|K2]; [left; reflexivity|right; apply N.eqb_neq; exact K2].
  Qed.

  Lemma read_progress : forall s, readInv s -> exists s', detachOwn s s'.
  Proof.
    intros s (D & R & G & K). unfold detachOwn.
    destruct (d_closer s) eqn:E.
    - destruct (d_ctx s) eqn:X.
      + eexists. exists LCloser. split; [reflexivity|]. cbn. unfold closerNext. rewrite E, X. reflexivity.
      + eexists. exists LCancel. split; [reflexivity|]. cbn. rewrite X. reflexivity.
    - eexists. exists LCloser. split; [reflexivity|]. cbn. unfold closerNext. rewrite E. reflexivity.
    - eexists. exists LCloser. split; [reflexivity|]. cbn. unfold closerNext. rewrite E. reflexivity.
    - eexists. exists LCloser. split; [reflexivity|]. cbn. unfold closerNext. rewrite E. reflexivity.
    - eexists. exists LCloser. split; [reflexivity|]. cbn. unfold closerNext. rewrite E. reflexivity.
    - eexists. exists LCloser. split; [reflexivity|]. cbn. unfold closerNext. rewrite E. reflexivity.
    - eexists. exists LCloser. split; [reflexivity|]. cbn. unfold closerNext. rewrite E. reflexivity.
    - destruct K as [K|K].
      + eexists. exists LFail. split; [cbn; rewrite K; reflexivity|]. cbn. rewrite R. reflexivity.
      + eexists. exists LTimeout. split; [reflexivity|]. cbn. rewrite R, K. reflexivity.
  Qed.

  Lemma ends_reading : forall s, readInv s -> surely (lstep (detachStep c)) detachOwn finished s.
  Proof.
    intros s. remember (wEnd s) as n eqn:E. revert s E.
    induction n as [n IH] using (well_founded_induction Wf_nat.lt_wf). intros s -> I.
    apply surely_later; [apply read_progress; exact I|]. intros s' S.
    destruct (read_step s s' I S) as [I'|[I' W]]; [apply ends_away; exact I'|eapply IH; eauto].
  Qed.

  (** ** What holds in every run without the key exchange keeping the session *)
  Definition active (s : dst) : bool :=
    match d_reader s with DTop => negb (d_done s) | DFlag | DRead | DGot _ | DMsgs _ | DBad | DErr _ => true | _ => false end.
  Definition countInv (s : dst) : Prop :=
    d_reading s = readingPhase (d_reader s)
    /\ (d_reader s = DClosing -> d_done s = true)
    /\ (active s = true -> (dcMsgs c = 0 \/ d_count s < dcMsgs c) /\ (dcFails c = 0 \/ d_fails s < dcFails c)).

  Hypothesis plain : dcMsgs c = 0 \/ dcWait c = false.

  Lemma count_step : forall s s', countInv s -> lstep (detachStep c) s s' -> countInv s'.
  Proof.
    intros [kx dn cx ct fl rd rq hp ex op er r k] s' I [l S]. unfold countInv, active in *. cbn in I.
    destruct I as (R & CD & Q).
    destruct l; cbn in S; unstep S; subst; cbn in *; try discriminate.
    all: split; [try reflexivity; try assumption|split; [try discriminate; auto|]]; intros A; try discriminate A; cbn in *; auto.
    all: try (destruct dn; cbn in *; (discriminate || auto); fail).
    all: try specialize (Q eq_refl).
    all: repeat match goal with
         | H : (_ <=? _) = false |- _ => apply N.leb_gt in H
         | H : (_ =? _) = true |- _ => apply N.eqb_eq in H
         | H : (_ =? _) = false |- _ => apply N.eqb_neq in H
         end.
    all: try (intuition lia).
    all: try (apply andb_prop in Heqb1 as [_ ?]; destruct plain; congruence).
    all: apply Q; destruct r; auto; discriminate A.
  Qed.
End C.

(** ** C148 *)

(** While the session is only ended by its reader, that is by detaching or by
    an error of the backend, nobody has closed the backend or set a deadline. *)
Theorem C148_detaching_leaves_backend : forall c ls s,
  forallb alone ls = true -> exec (detachStep c) detachInit ls = Some s -> untouched s.
Proof.
  intros c ls s A E. apply (alone_run c ls detachInit s) in E; auto; [apply E|].
  unfold aloneInv, untouched; cbn. repeat split; intuition discriminate.
Qed.

(** Once the reader has decided so, everything ends, whatever the peer does. *)
Theorem C148_detaching_ends : forall c ls s,
  forallb alone ls = true -> exec (detachStep c) detachInit ls = Some s -> d_done s = true ->
  surely (lstep (detachStep c)) (detachOwn c) finished s.
Proof.
  intros c ls s A E D. apply (alone_run c ls detachInit s) in E; auto.
  2: { unfold aloneInv, untouched; cbn. repeat split; intuition discriminate. }
  destruct E as (_ & _ & _ & _ & _ & DR & _ & F).
  apply ends_away. split; [exact D|]. split; [|exact F].
  specialize (DR D). destruct (d_reader s); try discriminate DR; reflexivity.
Qed.

(** So does an error of the backend that is not handled. *)
Theorem C148_error_ends : forall c ls s,
  forallb alone ls = true -> exec (detachStep c) detachInit (ls ++ [LAnswer false]) = Some s ->
  surely (lstep (detachStep c)) (detachOwn c) finished s.
Proof.
  intros c ls s A E. apply (C148_detaching_ends c (ls ++ [LAnswer false]) s); [rewrite forallb_app, A; reflexivity|exact E|].
  destruct (exec (detachStep c) detachInit ls) as [s1|] eqn:E1.
  2: { exfalso. revert E E1. generalize detachInit. clear. induction ls as [|l ls IH]; intros s0; cbn [exec app]; [discriminate|].
       destruct (detachStep c s0 l); [apply IH|discriminate]. }
  rewrite (exec_app _ _ _ _ _ E1) in E.
  cbn [exec] in E. destruct (detachStep c s1 (LAnswer false)) as [s2|] eqn:S; [|discriminate]. injection E as <-.
  cbn in S. unfold closeByReader in S. destruct (d_reader s1); try discriminate.
  destruct (d_done s1 || _) eqn:D; [discriminate|]. destruct (d_done s1); [discriminate|]. injection S as <-. reflexivity.
Qed.

(** With read deadlines no session closes its backend, and if the closer is
    through with the backend while the reader is still to end, the reader takes the
    deadline back. (If the closer comes last, it stays: C122.) *)
Definition returnInv (s : dst) : Prop :=
  d_open s = true /\ d_errs s = 0 /\ d_hap s <= d_req s
  /\ (d_closer s <> KWait /\ d_closer s <> KState -> d_done s = true)
  /\ (d_reader s <> DDone -> d_expired s = true \/ (exists d, d_closer s = KSet d) -> d_hap s < d_req s).

Lemma return_step : forall c s s', dcDeadlines c = true -> returnInv s -> lstep (detachStep c) s s' -> returnInv s'.
Proof.
  intros c [kx dn cx ct fl rd rq hp ex op er r k] s' Hd I [l S]. unfold returnInv in *. cbn in I.
  destruct I as (O & E & H & K & X). subst op er.
  destruct l; cbn in S;
    unfold readerNext, closerNext, oneMessage, closeByReader, setReading, setFlags, setCounts, setBackend, toReader, toCloser in S; cbn in S;
    rewrite ?Hd in S; cbn in S;
    repeat match type of S with
           | context [match ?x with _ => _ end] => destruct x eqn:?; cbn in S
           | None = Some _ => discriminate S
           | Some _ = Some _ => injection S as <-
           end; subst; cbn in *; try discriminate.
  all: repeat match goal with
         | H : (_ <? _) = true |- _ => apply N.ltb_lt in H
         | H : (_ <? _) = false |- _ => apply N.ltb_ge in H
         end.
  all: split; [reflexivity|split; [reflexivity|split; [lia|split; [|intros NR]]]]; auto; try (intuition congruence).
  all: try (intros _; lia).
  all: try (intros [Z|[d Z]]; [apply X; [discriminate|left; exact Z]|discriminate Z]).
  all: try (intros Z; apply X; [discriminate|exact Z]).
  all: try (intros [Z|[d' Z]]; [apply X; [exact NR|left; exact Z]|discriminate Z]).
  all: try (intros [Z|[d' Z]]; [discriminate Z|subst k; discriminate K; split; discriminate]).
  - intros _. apply X; [exact NR|right; eauto].
Qed.

Lemma given_back : forall c s s', dcDeadlines c = true ->
  returnInv s /\ d_closer s = KDone /\ (d_reader s = DDone -> d_expired s = false) -> lstep (detachStep c) s s' ->
  returnInv s' /\ d_closer s' = KDone /\ (d_reader s' = DDone -> d_expired s' = false).
Proof.
  intros c s s' Hd (R & K & X) S. split; [exact (return_step c s s' Hd R S)|].
  destruct s as [kx dn cx ct fl rd rq hp ex op er r k]. destruct S as [l S]. unfold returnInv in R. cbn in R, K, X. subst k.
  destruct R as (_ & _ & _ & _ & Q).
  destruct l; cbn in S;
    unfold readerNext, closerNext, oneMessage, closeByReader, setReading, setFlags, setCounts, setBackend, toReader, toCloser in S; cbn in S;
    rewrite ?Hd in S; cbn in S;
    repeat match type of S with
           | context [match ?x with _ => _ end] => destruct x eqn:?; cbn in S
           | None = Some _ => discriminate S
           | Some _ = Some _ => injection S as <-
           end; subst; cbn in *; try discriminate.
  all: split; [reflexivity|]; try discriminate; auto.
  intros _. destruct ex; [|reflexivity]. apply N.ltb_ge in Heqb. specialize (Q ltac:(discriminate) (or_introl eq_refl)). lia.
Qed.

Theorem C148_interrupted_gives_back : forall c ls1 s1 ls2 s2, dcDeadlines c = true ->
  exec (detachStep c) detachInit ls1 = Some s1 -> d_closer s1 = KDone -> d_reader s1 <> DDone ->
  exec (detachStep c) s1 ls2 = Some s2 -> finished s2 -> untouched s2.
Proof.
  intros c ls1 s1 ls2 s2 Hd E1 K N E2 [F1 F2].
  assert (R1 : returnInv s1).
  { refine (reachable_inv (eq detachInit) (lstep (detachStep c)) returnInv _ _ s1 _).
    - intros ? <-. unfold returnInv. cbn. repeat split; try lia; [intros [[] _]; reflexivity|]. intros _ [Z|[d Z]]; discriminate Z.
    - intros; eapply return_step; eauto.
    - eapply exec_reachable; [reflexivity|exact E1]. }
  destruct (steps_inv (lstep (detachStep c)) (fun s => returnInv s /\ d_closer s = KDone /\ (d_reader s = DDone -> d_expired s = false))
    (fun x y I S => given_back c x y Hd I S) s1 s2) as ((O & E & _) & _ & X).
  - eapply exec_steps. exact E2.
  - split; [exact R1|]. split; [exact K|]. intros Z. destruct (N Z).
  - split; [exact O|]. split; [apply X; exact F1|exact E].
Qed.

(** ** Counting failures *)

(** The undecryptable packets since the last good one. *)
Definition inRow (ls : list detachLabel) : N :=
  fold_left (fun n l => match l with LData _ => 0 | LGarbage => n + 1 | _ => n end) ls 0.

Definition pendingFails (s : dst) : N -> Prop := fun n =>
  match d_reader s with
  | DGot (GMsgs _) => n = 0
  | DGot GBad | DBad => add64 (d_fails s) 1 = n mod 2^64
  | _ => d_fails s = n mod 2^64
  end.

Lemma fails_step : forall c s l s' n, detachStep c s l = Some s' -> pendingFails s n ->
  pendingFails s' (match l with LData _ => 0 | LGarbage => n + 1 | _ => n end).
Proof.
  intros c [kx dn cx ct fl rd rq hp ex op er r k] l s' n S I. unfold pendingFails in *. cbn in I.
  destruct l; cbn in S;
    unfold readerNext, closerNext, oneMessage, closeByReader, setReading, setFlags, setCounts, setBackend, toReader, toCloser in S; cbn in S;
    repeat match type of S with
           | context [match ?x with _ => _ end] => destruct x eqn:?; cbn in S
           | None = Some _ => discriminate S
           | Some _ = Some _ => injection S as <-
           end; subst; cbn [d_reader d_fails] in *; try discriminate; auto.
  unfold add64. rewrite N.add_mod_idemp_l by discriminate. reflexivity.
Qed.

(** Outside of the handling of a packet, sequentialDecryptFailsCount is the number
    of packets in a row that no key has opened. *)
Theorem C148_fails_in_a_row : forall c ls s,
  exec (detachStep c) detachInit ls = Some s -> d_reader s = DTop \/ d_reader s = DRead \/ d_reader s = DDone ->
  d_fails s = inRow ls mod 2^64.
Proof.
  intros c ls s E R.
  assert (G : forall ls s0 n s, exec (detachStep c) s0 ls = Some s -> pendingFails s0 n ->
    pendingFails s (fold_left (fun n l => match l with LData _ => 0 | LGarbage => n + 1 | _ => n end) ls n)).
  { clear. induction ls as [|l ls IH]; intros s0 n s E I; cbn [exec fold_left] in *.
    - injection E as <-. exact I.
    - destruct (detachStep c s0 l) as [s1|] eqn:S; [|discriminate]. eapply IH; [exact E|]. eapply fails_step; eauto. }
  specialize (G ls detachInit 0 s E eq_refl). unfold pendingFails in G. destruct R as [R|[R|R]]; rewrite R in G; exact G.
Qed.

(** Two bad packets, a good one, a bad one. *)
Example C148_row_example :
  exists s, exec (detachStep {| dcMsgs := 0; dcFails := 3; dcWait := true; dcDeadlines := true |}) detachInit
    ([LNext; LNext; LGarbage; LNext; LNext; LNext; LNext; LGarbage; LNext; LNext; LNext; LNext; LData 1; LNext; LNext; LNext;
      LNext; LNext; LGarbage; LNext; LNext]) = Some s /\ d_reader s = DTop /\ d_fails s = 1 /\ d_done s = false.
Proof. vm_compute. eexists. repeat split. Qed.

(** Close while the reader is in Read, on a backend with deadlines. *)
Example C148_deadline_example :
  exists s1 s2, let c := {| dcMsgs := 2; dcFails := 3; dcWait := true; dcDeadlines := true |} in
    exec (detachStep c) detachInit ([LNext; LNext; LClose; LCancel] ++ repeat LCloser 7) = Some s1
    /\ d_closer s1 = KDone /\ d_expired s1 = true
    /\ exec (detachStep c) s1 [LTimeout; LNext; LNext; LNext; LNext] = Some s2 /\ finished s2 /\ untouched s2.
Proof. vm_compute. eexists. eexists. repeat split. Qed.

Definition toRead : list detachLabel := [LNext; LNext].
Definition atTwo : dconf := {| dcMsgs := 2; dcFails := 3; dcWait := true; dcDeadlines := false |}.

(** Two packets, of one and of three messages: the session counts two, detaches
    and ends, with the backend open. *)
Example C148_example :
  exists s, exec (detachStep atTwo) detachInit
      (LEstablish :: toRead ++ [LData 1; LNext; LNext; LNext] ++ toRead ++ [LData 3; LNext; LNext; LNext; LCloser; LCloser; LCloser; LCloser; LNext; LNext; LNext; LCloser]) = Some s
    /\ finished s /\ d_open s = true /\ d_expired s = false /\ d_count s = 2.
Proof. vm_compute. eexists. repeat split. Qed.

(** Three packets no key opens: the session ends as well. *)
Example C148_garbage_example :
  exists s, exec (detachStep atTwo) detachInit
      (LEstablish :: toRead ++ [LGarbage; LNext; LNext] ++ toRead ++ [LGarbage; LNext; LNext] ++ toRead ++ [LGarbage; LNext; LNext; LNext; LNext;
       LCloser; LCloser; LCloser; LCloser; LCloser]) = Some s
    /\ finished s /\ d_open s = true /\ d_expired s = false /\ d_fails s = 3.
Proof. vm_compute. eexists. repeat split. Qed.

(** An error of the backend that the event handler does not handle. *)
Example C148_error_example :
  exists s, exec (detachStep atTwo) detachInit
      (LEstablish :: toRead ++ [LFail; LNext; LAnswer true] ++ toRead ++ [LFail; LNext; LAnswer false; LNext; LNext; LNext; LNext] ++ repeat LCloser 5) = Some s
    /\ finished s /\ d_open s = true /\ d_expired s = false.
Proof. vm_compute. eexists. repeat split. Qed.

(** With somebody else's Close the backend is closed. *)
Example C148_close_example :
  exists s, exec (detachStep atTwo) detachInit
      (LEstablish :: toRead ++ [LClose; LCancel; LCloser; LCloser; LCloser; LCloser; LCloser; LCloser; LCloser; LFail; LNext; LNext; LNext; LNext]) = Some s
    /\ finished s /\ d_open s = false.
Proof. vm_compute. eexists. repeat split. Qed.

(** ** C149 *)

(** Nothing but the peer or a failing backend gets the reader out of Read. *)
Definition hangs (c : dconf) (s : dst) : Prop :=
  d_done s = true /\ d_closer s = KDone /\ d_open s = true
  /\ forall ls s', forallb (byItself s) ls = true -> exec (detachStep c) s ls = Some s' -> s' = s /\ d_reader s' = DRead.

Definition atOne : dconf := {| dcMsgs := 1; dcFails := 0; dcWait := true; dcDeadlines := false |}.
Definition earlyThenClose : list detachLabel :=
  toRead ++ [LData 1; LNext; LNext] ++ toRead ++ [LClose; LCancel; LCloser; LCloser; LCloser; LCloser; LCloser; LCloser; LCloser].

(** DetachOnMessagesCount is reached during the key exchange, so that the
    session does not detach; Close then leaves the reader in Read for ever. *)
Theorem C149_close_hangs_refuted :
  exists s, exec (detachStep atOne) detachInit earlyThenClose = Some s /\ hangs atOne s.
Proof.
  eexists. split; [vm_compute; reflexivity|]. unfold hangs. repeat split.
  - revert s' H H0. induction ls as [|l ls IH]; intros s' A E; cbn [exec] in E.
    + injection E as <-. reflexivity.
    + cbn [forallb] in A. apply andb_prop in A as [A1 A2]. destruct l; cbn in A1; try discriminate A1; cbn in E; try discriminate E.
  - revert s' H H0. induction ls as [|l ls IH]; intros s' A E; cbn [exec] in E.
    + injection E as <-. reflexivity.
    + cbn [forallb] in A. apply andb_prop in A as [A1 A2]. destruct l; cbn in A1; try discriminate A1; cbn in E; try discriminate E.
Qed.

(** Without DetachOnMessagesCount, or without waiting for an answer, Close ends
    the session if the reader is in Read before the closer looks at it. *)
Theorem C149_close_ends_partial : forall c s,
  dcMsgs c = 0 \/ dcWait c = false ->
  reachable (eq detachInit) (lstep (detachStep c)) s ->
  d_done s = true -> d_reader s = DRead -> d_closer s = KWait \/ d_closer s = KState \/ d_closer s = KLoad ->
  surely (lstep (detachStep c)) (detachOwn c) finished s.
Proof.
  intros c s P R D RD K.
  assert (I : countInv c s).
  { refine (reachable_inv _ _ (countInv c) _ _ s R).
    - intros ? <-. split; [reflexivity|]. split; [discriminate|]. intros _. cbn. lia.
    - intros; eapply count_step; eauto. }
  destruct I as (I1 & _ & I2). unfold active in I2. rewrite RD in I1, I2. specialize (I2 eq_refl).
  apply ends_reading. unfold readInv, noDetach. repeat split; auto.
  destruct K as [->|[->| ->]]; split; destruct I2 as [[?|?] [?|?]]; auto; right; lia.
Qed.

Definition atFive : dconf := {| dcMsgs := 5; dcFails := 0; dcWait := false; dcDeadlines := false |}.
Example C149_example :
  exists s, exec (detachStep atFive) detachInit (toRead ++ [LData 4; LNext; LNext; LNext; LNext; LNext; LNext] ++ toRead ++ [LClose]) = Some s
    /\ d_count s = 4 /\ surely (lstep (detachStep atFive)) (detachOwn atFive) finished s.
Proof.
  eexists. split; [vm_compute; reflexivity|]. split; [reflexivity|].
  apply C149_close_ends_partial; try reflexivity; auto.
  eapply exec_reachable with (ls := toRead ++ [LData 4; LNext; LNext; LNext; LNext; LNext; LNext] ++ toRead ++ [LClose]); [reflexivity|]. vm_compute. reflexivity.
Qed.

Print Assumptions C148_detaching_leaves_backend.
Print Assumptions C148_detaching_ends.
Print Assumptions C148_error_ends.
Print Assumptions C148_interrupted_gives_back.
Print Assumptions C148_fails_in_a_row.
Print Assumptions C149_close_hangs_refuted.
Print Assumptions C149_close_ends_partial.
