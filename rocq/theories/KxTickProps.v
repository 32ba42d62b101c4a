(** C167: every key-exchange interval is taken without a crash. *)
From Coq Require Import NArith ZArith List Bool Lia.
From Verif Require Import Base TS MessageModel MiscModel KxRetryModel KxTickModel.
Import ListNotations.
Local Open Scope N_scope.

(** What the user has asked for; zero stands for the default. *)
Definition intervals (update retry timeout : Z) : kxOptions := {| kUpdate := update; kRetry := retry; kTimeout := timeout; kAnswers := 0 |}.

(** ** Refutations *)
(** A negative [RetryInterval]: the process ends as soon as the first request is
    sent, whether or not the write succeeds. *)
Theorem C167_retry_refuted : forall update retry timeout now ok, (retry < 0)%Z -> exists s,
  exec (tkStep (intervals update retry timeout)) tksInit [TkFirst; TkIn TlEmpty; TkIn (TlKey now); TkIn (TlSend ok)] = Some s /\ kPanic s = true.
Proof.
  intros u r t now ok H.
  assert (E : tickerPanics (kRetry (kxDefaults (intervals u r t))) = true).
  { unfold tickerPanics, kxDefaults, intervals. cbn [kRetry]. destruct (Z.eqb_spec r 0); [lia|]. apply Z.leb_le. lia. }
  eexists. split.
  - unfold exec, tkStep. rewrite E. cbn. reflexivity.
  - reflexivity.
Qed.
Print Assumptions C167_retry_refuted.

(** A negative [KeyUpdateInterval]: whatever happens before, the loop never gets
    to its second update; when the first has ended, the only step left to the
    loop is the crash. *)
Theorem C167_update_refuted : forall update retry timeout s, (update < 0)%Z ->
  reachable (fun s => s = tksInit) (lstep (tkStep (intervals update retry timeout))) s ->
  tkStep (intervals update retry timeout) s TkTick = None /\ tkStep (intervals update retry timeout) s TkEnd = None /\
  (kPanic s = false -> kLoop s = LoUpdate -> tUp (kRt s) = UpIdle ->
   exists s', tkStep (intervals update retry timeout) s TkTicker = Some s' /\ kPanic s' = true).
Proof.
  intros u r t s H R.
  assert (E : tickerPanics (kUpdate (kxDefaults (intervals u r t))) = true).
  { unfold tickerPanics, kxDefaults, intervals. cbn [kUpdate]. destruct (Z.eqb_spec u 0); [lia|]. apply Z.leb_le. lia. }
  assert (I : kPanic s = false -> kLoop s = LoFirst \/ kLoop s = LoUpdate).
  { revert s R. refine (reachable_inv _ _ (fun s => kPanic s = false -> kLoop s = LoFirst \/ kLoop s = LoUpdate) _ _).
    - intros s -> _. left. reflexivity.
    - intros s s' I [l Hl]. unfold tkStep in Hl. rewrite E in Hl. destruct (kPanic s); [discriminate|]. specialize (I eq_refl).
      destruct l as [|l| | |].
      + destruct (kLoop s); try discriminate. destruct (rtStep _ _); [|discriminate]. injection Hl as <-. right. reflexivity.
      + destruct l; try discriminate; (destruct (rtStep _ _); [|discriminate]); injection Hl as <-; intros _; exact I.
      + destruct (kLoop s); try discriminate. destruct (isIdle _); [|discriminate]. injection Hl as <-. discriminate.
      + destruct I as [I|I]; rewrite I in Hl; discriminate.
      + destruct I as [I|I]; rewrite I in Hl; discriminate. }
  unfold tkStep. rewrite E. destruct (kPanic s); [repeat split; discriminate|]. specialize (I eq_refl).
  split; [destruct I as [->|I]; [|rewrite I]; reflexivity|].
  split; [destruct I as [->|I]; [|rewrite I]; reflexivity|].
  intros _ L U. rewrite L. unfold isIdle. rewrite U. eexists. split; reflexivity.
Qed.
Print Assumptions C167_update_refuted.

(** ** What holds *)
(** Intervals that are zero or positive, and any time-out, do no harm. *)
Theorem C167_no_crash_partial : forall update retry timeout s, (0 <= update)%Z -> (0 <= retry)%Z ->
  reachable (fun s => s = tksInit) (lstep (tkStep (intervals update retry timeout))) s -> kPanic s = false.
Proof.
  intros u r t s Hu Hr.
  assert (E1 : tickerPanics (kUpdate (kxDefaults (intervals u r t))) = false).
  { unfold tickerPanics, kxDefaults, intervals. cbn [kUpdate]. destruct (Z.eqb_spec u 0); [reflexivity|]. apply Z.leb_gt. lia. }
  assert (E2 : tickerPanics (kRetry (kxDefaults (intervals u r t))) = false).
  { unfold tickerPanics, kxDefaults, intervals. cbn [kRetry]. destruct (Z.eqb_spec r 0); [reflexivity|]. apply Z.leb_gt. lia. }
  revert s. apply reachable_inv; [intros s ->; reflexivity|].
  intros s s' I [l Hl]. unfold tkStep in Hl. rewrite E1, E2, I in Hl. destruct l as [|l| | |].
  - destruct (kLoop s); try discriminate. destruct (rtStep _ _); [|discriminate]. injection Hl as <-. reflexivity.
  - destruct l; try discriminate; (destruct (rtStep _ _); [|discriminate]); injection Hl as <-; reflexivity.
  - destruct (kLoop s); try discriminate. destruct (isIdle _); [|discriminate]. injection Hl as <-. reflexivity.
  - destruct (kLoop s); try discriminate. destruct (rtStep _ _); [|discriminate]. injection Hl as <-. reflexivity.
  - destruct (kLoop s); try discriminate. destruct (_ && _); [|discriminate]. injection Hl as <-. reflexivity.
Qed.
Print Assumptions C167_no_crash_partial.

(** With such intervals the loop does reach its ticker and updates again: after
    the first update has ended, and for as long as the session is not closed. *)
Theorem C167_goes_on_partial : forall update retry timeout s, (0 <= update)%Z -> (0 <= retry)%Z ->
  kPanic s = false -> tUp (kRt s) = UpIdle -> (kLoop s = LoUpdate \/ kLoop s = LoRun) ->
  exists ls s', exec (tkStep (intervals update retry timeout)) s ls = Some s' /\ kLoop s' = LoRun /\ tUp (kRt s') = UpEmpty /\ kPanic s' = false.
Proof.
  intros u r t s Hu Hr P U L.
  assert (E1 : tickerPanics (kUpdate (kxDefaults (intervals u r t))) = false).
  { unfold tickerPanics, kxDefaults, intervals. cbn [kUpdate]. destruct (Z.eqb_spec u 0); [reflexivity|]. apply Z.leb_gt. lia. }
  destruct L as [L|L].
  - exists [TkTicker; TkTick]. eexists. split.
    + cbn [exec]. unfold tkStep at 1. rewrite P, L, E1. unfold isIdle. rewrite U. unfold tkStep. cbn [kPanic kLoop kRt rtStep]. rewrite U. reflexivity.
    + repeat split.
  - exists [TkTick]. eexists. split.
    + cbn [exec]. unfold tkStep at 1. rewrite P, L. cbn [rtStep]. rewrite U. reflexivity.
    + repeat split.
Qed.
Print Assumptions C167_goes_on_partial.

(** The loop does not end before its context, whatever the intervals. *)
Lemma ctx_stays : forall r l r', rtStep r l = Some r' -> tCtx r = true -> tCtx r' = true.
Proof.
  intros r l r' H C.
  assert (M : forall s ok, tCtx s = true -> tCtx (mustSend s ok) = true) by (intros s [] K; exact K || reflexivity).
  assert (K : forall s k, tCtx s = true -> tCtx (fst (checkChan s k)) = true) by (intros s k E; unfold checkChan; destruct (tChan s); exact E).
  destruct l; cbn [rtStep] in H; try (injection H as <-; reflexivity);
    repeat match type of H with
    | (let (_, _) := checkChan ?s ?k in _) = Some _ => pose proof (K s k C); destruct (checkChan s k) as [s1 []]; cbn [fst] in *
    | match ?x with _ => _ end = Some _ => destruct x eqn:?; try discriminate
    end; injection H as <-; try (apply M; exact C); try (apply M; assumption); cbn; auto.
Qed.
Theorem C167_ends_with_context : forall o s, reachable (fun s => s = tksInit) (lstep (tkStep o)) s -> kLoop s = LoEnd -> tCtx (kRt s) = true.
Proof.
  intros o. refine (reachable_inv _ _ (fun s => kLoop s = LoEnd -> tCtx (kRt s) = true) _ _).
  - intros s -> H. discriminate.
  - intros s s' I [l Hl]. unfold tkStep in Hl. destruct (kPanic s); [discriminate|]. destruct l as [|l| | |].
    + destruct (kLoop s); try discriminate. destruct (rtStep _ _); [|discriminate]. injection Hl as <-. discriminate.
    + destruct l; try discriminate; (destruct (rtStep _ _) as [r|] eqn:E; [|discriminate]); injection Hl as <-; cbn [kLoop kRt];
        intros L; exact (ctx_stays _ _ _ E (I L)).
    + destruct (kLoop s); try discriminate. destruct (isIdle _); [|discriminate]. injection Hl as <-. discriminate.
    + destruct (kLoop s); try discriminate. destruct (rtStep _ _); [|discriminate]. injection Hl as <-. discriminate.
    + destruct (kLoop s); try discriminate. destruct (isIdle (kRt s)); [|discriminate]. destruct (tCtx (kRt s)) eqn:C; [|discriminate].
      injection Hl as <-. intros _. exact C.
Qed.
Print Assumptions C167_ends_with_context.

(** A complete first exchange, answered by the peer, with a KeyUpdateInterval of
    minus one nanosecond; and the same with the defaults. *)
Definition firstExchange : list tklabel :=
  [TkFirst; TkIn TlEmpty; TkIn (TlKey 5); TkIn (TlSend true); TkIn TlHandle; TkIn TlHandleSet; TkIn (TlNotify NcSend); TkIn TlHandleEnd; TkIn TlRecv; TkTicker].
Example C167_example : exists s, exec (tkStep (intervals (-1) 0 0)) tksInit firstExchange = Some s /\ kPanic s = true /\ tSuccess (kRt s) = 1%nat.
Proof. eexists. split; [vm_compute; reflexivity|]. split; reflexivity. Qed.
Example C167_default_example : exists s,
  exec (tkStep (intervals 0 0 (-1))) tksInit (firstExchange ++ [TkTick; TkIn TlEmpty; TkIn (TlKey 7); TkIn (TlSend true); TkIn TlTimer; TkEnd]) = Some s /\
  kPanic s = false /\ tSuccess (kRt s) = 1%nat /\ tTimeouts (kRt s) = 1%nat /\ kLoop s = LoEnd.
Proof. eexists. split; [vm_compute; reflexivity|]. repeat split; reflexivity. Qed.
