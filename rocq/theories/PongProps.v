(** Pings are answered by the goroutine that reads: property C121. *)
From Coq Require Import List Bool Arith Lia.
From Verif Require Import Base TS PongModel.
Import ListNotations.
Local Open Scope nat_scope.

(** All pings and what they caused are through, and both sides read. *)
Definition answered (s : nst) : Prop :=
  forall p, nReader (nOf s p) = NrRead /\ nLeft (nOf s p) = 0 /\ nChan s p = [].

(** *** Both wait for each other *)
Section Deadlock.
  Variable k : nat.
  Let step := nStep (Some k).

  Definition nStuck (s : nst) : Prop := forall p, (exists w, nReader (nOf s p) = NrWrite w) /\ k <= length (nChan s p).

  Lemma nStuck_step : forall s l, nStuck s -> step s l = None.
  Proof.
    intros s l H. unfold step.
    assert (R : forall p, nReads (nOf s p) = false).
    { intro p. destruct (H p) as ((w & Hw) & _). unfold nReads. rewrite Hw. reflexivity. }
    assert (D : forall p x w, nDeliver (Some k) (nSet s p x) p w = None).
    { intros p x w. destruct (H p) as (_ & Hl). unfold nDeliver, nRoom.
      assert (nChan (nSet s p x) p = nChan s p) as -> by (destruct p; reflexivity).
      assert (nOf (nSet s p x) (negb p) = nOf s (negb p)) as -> by (destruct p; reflexivity).
      destruct (Nat.ltb_spec (length (nChan s p)) k); [lia|]. rewrite R. destruct (nChan s p); reflexivity. }
    destruct l as [p|p|p]; cbn [nStep].
    - destruct (nLeft (nOf s p)); [reflexivity|]. apply D.
    - destruct (nChan s (negb p)); [reflexivity|]. rewrite R. reflexivity.
    - destruct (nReader (nOf s p)); [reflexivity|]. apply D.
  Qed.

  Definition first : list nlabel :=
    match k with O => [NlPing true; NlPing false] | S _ => [NlPing true; NlRead false; NlPing false; NlRead true] end.
  Definition waiting (a b i j : nat) : nst :=
    {| nA := {| nReader := NrWrite NPong; nLeft := a |}; nB := {| nReader := NrWrite NPong; nLeft := b |};
       nFromA := repeat NPing i; nFromB := repeat NPing j |}.
  Lemma first_run : forall a b, exec step (nInit (S a) (S b)) first = Some (waiting a b 0 0).
  Proof. intros a b. unfold step, first. destruct k as [|k']; reflexivity. Qed.

  Lemma snoc_repeat : forall (w : nwire) i, repeat w i ++ [w] = repeat w (S i).
  Proof. intros w i. change [w] with (repeat w 1). rewrite <- repeat_app, Nat.add_1_r. reflexivity. Qed.
  Lemma fill_A : forall n a b i j, i + n <= k -> n <= a ->
    exec step (waiting a b i j) (repeat (NlPing true) n) = Some (waiting (a - n) b (i + n) j).
  Proof.
    induction n as [|n IH]; intros a b i j H Ha; cbn [repeat exec].
    - rewrite Nat.sub_0_r, Nat.add_0_r. reflexivity.
    - destruct a as [|a]; [lia|]. unfold step, waiting at 1. cbn [nStep nOf nA nLeft nSet nReader nDeliver].
      unfold nDeliver, nRoom. cbn [nChan nFromA nSetChan nSet nA nB nFromB]. rewrite repeat_length.
      destruct (Nat.ltb_spec i k); [|lia]. rewrite snoc_repeat.
      change (exec step (waiting a b (S i) j) (repeat (NlPing true) n) = Some (waiting (S a - S n) b (i + S n) j)).
      rewrite IH by lia. rewrite Nat.add_succ_comm. reflexivity.
  Qed.
  Lemma fill_B : forall n a b i j, j + n <= k -> n <= b ->
    exec step (waiting a b i j) (repeat (NlPing false) n) = Some (waiting a (b - n) i (j + n)).
  Proof.
    induction n as [|n IH]; intros a b i j H Ha; cbn [repeat exec].
    - rewrite Nat.sub_0_r, Nat.add_0_r. reflexivity.
    - destruct b as [|b]; [lia|]. unfold step, waiting at 1. cbn [nStep nOf nB nLeft nSet nReader nDeliver].
      unfold nDeliver, nRoom. cbn [nChan nFromB nSetChan nSet nA nB nFromA]. rewrite repeat_length.
      destruct (Nat.ltb_spec j k); [|lia]. rewrite snoc_repeat.
      change (exec step (waiting a b i (S j)) (repeat (NlPing false) n) = Some (waiting a (S b - S n) i (j + S n))).
      rewrite IH by lia. rewrite Nat.add_succ_comm. reflexivity.
  Qed.
End Deadlock.

(** If the backend holds fewer packets than a side sends pings in an iteration
    (12), the two readers may wait for each other, and then nothing can happen. *)
Theorem C121_deadlock_refuted : forall k a b, k < a -> k < b ->
  exists ls s, exec (nStep (Some k)) (nInit a b) ls = Some s
    /\ ~ answered s /\ (forall l, nStep (Some k) s l = None).
Proof.
  intros k a b Ha Hb. destruct a as [|a]; [lia|]. destruct b as [|b]; [lia|].
  exists (first k ++ repeat (NlPing true) k ++ repeat (NlPing false) k), (waiting (a - k) (b - k) (0 + k) (0 + k)).
  split; [|split].
  - rewrite (exec_app _ _ _ _ _ (first_run k a b)).
    rewrite (exec_app _ _ _ _ _ (fill_A k k a b 0 0 ltac:(lia) ltac:(lia))). apply fill_B; lia.
  - intro H. destruct (H true) as (X & _). discriminate.
  - intro l. apply nStuck_step. intro p. destruct p; cbn; rewrite repeat_length; (split; [eexists; reflexivity|lia]).
Qed.
Print Assumptions C121_deadlock_refuted.

(** With net.Pipe it is enough that one side sends two pings. *)
Theorem C121_one_sided_refuted :
  exists ls s, exec (nStep (Some 0)) (nInit 2 0) ls = Some s
    /\ ~ answered s /\ (forall l, nStep (Some 0) s l = None).
Proof.
  exists [NlPing true; NlWrote false; NlPing true]. eexists. split; [vm_compute; reflexivity|]. split.
  - intro H. destruct (H true) as (X & _). discriminate.
  - intro l. apply nStuck_step. intro p. destruct p; cbn; (split; [eexists; reflexivity|lia]).
Qed.
Print Assumptions C121_one_sided_refuted.

(** *** Enough room *)

Definition nAny (cap : option nat) (s s' : nst) : Prop := lstep (nStep cap) s s'.

(** What is still to be written, by anybody: each ping causes two more packets. *)
Definition cWire (w : nwire) : nat := match w with NPing => 3 | NPong => 2 | NControl => 1 end.
Fixpoint cChan (l : list nwire) : nat := match l with [] => 0 | w :: l => cWire w + cChan l end.
Definition cReader (r : nreader) : nat := match r with NrRead => 0 | NrWrite w => cWire w end.
Definition cSide (x : nside) : nat := cReader (nReader x) + 3 * nLeft x.
(** Packets on the wire count for themselves and for what they cause. *)
Definition volume (s : nst) : nat := cSide (nA s) + cSide (nB s) + cChan (nFromA s) + cChan (nFromB s).

Lemma cChan_app : forall a b, cChan (a ++ b) = cChan a + cChan b.
Proof. induction a as [|w a IH]; intro b; cbn [app cChan]; [reflexivity|]. rewrite IH. lia. Qed.
Lemma cChan_length : forall l, length l <= cChan l.
Proof. induction l as [|w l IH]; cbn [length cChan]; [lia|]. destruct w; cbn [cWire]; lia. Qed.

Lemma vol_set : forall s p x, volume (nSet s p x) + cSide (nOf s p) = volume s + cSide x.
Proof. intros s p x. destruct p; unfold volume, nSet, nOf; cbn [nA nB nFromA nFromB]; generalize (cSide x) (cSide (nA s)) (cSide (nB s)); intros; lia. Qed.
Lemma vol_chan : forall s p l, volume (nSetChan s p l) + cChan (nChan s p) = volume s + cChan l.
Proof. intros s p l. destruct p; unfold volume, nSetChan, nChan; cbn [nA nB nFromA nFromB]; generalize (cSide (nA s)) (cSide (nB s)); intros; lia. Qed.
Definition inFlight (s : nst) : nat := length (nFromA s) + length (nFromB s).
Lemma fl_set : forall s p x, inFlight (nSet s p x) = inFlight s.
Proof. intros s p x. destruct p; reflexivity. Qed.
Lemma fl_chan : forall s p l, inFlight (nSetChan s p l) + length (nChan s p) = inFlight s + length l.
Proof. intros s p l. unfold inFlight. destruct p; cbn; lia. Qed.
Lemma fl_vol : forall s, inFlight s <= volume s.
Proof. intro s. unfold inFlight, volume. pose proof (cChan_length (nFromA s)). pose proof (cChan_length (nFromB s)). lia. Qed.
Lemma fl_side : forall s p, inFlight s + cSide (nOf s p) <= volume s.
Proof.
  intros s p. unfold inFlight, volume. pose proof (cChan_length (nFromA s)). pose proof (cChan_length (nFromB s)).
  destruct p; cbn [nOf]; generalize (cSide (nA s)) (cSide (nB s)); intros; lia.
Qed.
Lemma fl_one : forall s p, length (nChan s p) <= inFlight s.
Proof. intros s p. unfold inFlight. destruct p; cbn; lia. Qed.

Lemma handle_cost : forall x w, nReads x = true -> cSide (nHandle x w) + 1 = cSide x + cWire w.
Proof.
  intros x w H. unfold nReads in H. unfold cSide, nHandle. cbn [nReader nLeft].
  destruct (nReader x); [|discriminate]. destruct w; cbn [cReader cWire]; lia.
Qed.

(** Every step is a write or a read. *)
Definition nMeasure (s : nst) : nat := 2 * volume s - inFlight s.

Lemma deliver_cost : forall cap s p w s', nDeliver cap s p w = Some s' ->
  (volume s' = volume s + cWire w /\ inFlight s' = inFlight s + 1) \/ (volume s' + 1 = volume s + cWire w /\ inFlight s' = inFlight s).
Proof.
  intros cap s p w s' H. unfold nDeliver in H. destruct (nRoom cap s p).
  - left. injection H as <-. pose proof (vol_chan s p (nChan s p ++ [w])) as V. pose proof (fl_chan s p (nChan s p ++ [w])) as F.
    rewrite cChan_app in V. rewrite app_length in F. cbn [cChan length] in *. lia.
  - right. destruct (nChan s p); [|discriminate]. destruct (nReads (nOf s (negb p))) eqn:R; [|discriminate]. injection H as <-.
    pose proof (vol_set s (negb p) (nHandle (nOf s (negb p)) w)) as V. pose proof (handle_cost _ w R) as C.
    rewrite fl_set. lia.
Qed.

Lemma cost_step : forall cap s l s', nStep cap s l = Some s' -> volume s' <= volume s /\ nMeasure s' < nMeasure s.
Proof.
  intros cap s l s' H. unfold nMeasure. pose proof (fl_vol s) as Fs. pose proof (fl_vol s') as Fs'.
  destruct l as [p|p|p]; cbn [nStep] in H.
  - destruct (nLeft (nOf s p)) as [|n] eqn:El; [discriminate|].
    pose proof (vol_set s p {| nReader := nReader (nOf s p); nLeft := n |}) as V.
    pose proof (fl_set s p {| nReader := nReader (nOf s p); nLeft := n |}) as F.
    assert (C : cSide {| nReader := nReader (nOf s p); nLeft := n |} + 3 = cSide (nOf s p)).
    { unfold cSide. cbn [nReader nLeft]. rewrite El. lia. }
    destruct (deliver_cost _ _ _ _ _ H) as [(A & B)|(A & B)]; cbn [cWire] in A; lia.
  - destruct (nChan s (negb p)) as [|w rest] eqn:Ec; [discriminate|]. destruct (nReads (nOf s p)) eqn:R; [|discriminate].
    injection H as <-.
    set (x := nHandle (nOf s p) w) in *.
    pose proof (vol_set s p x) as V. pose proof (vol_chan (nSet s p x) (negb p) rest) as V2.
    pose proof (fl_chan (nSet s p x) (negb p) rest) as F2. rewrite fl_set in F2.
    assert (Ec' : nChan (nSet s p x) (negb p) = w :: rest) by (rewrite <- Ec; destruct p; reflexivity).
    rewrite Ec' in V2, F2. cbn [cChan length] in V2, F2.
    pose proof (handle_cost (nOf s p) w R) as C. fold x in C. lia.
  - destruct (nReader (nOf s p)) as [|w] eqn:Er; [discriminate|].
    pose proof (vol_set s p {| nReader := NrRead; nLeft := nLeft (nOf s p) |}) as V.
    pose proof (fl_set s p {| nReader := NrRead; nLeft := nLeft (nOf s p) |}) as F.
    assert (C : cSide {| nReader := NrRead; nLeft := nLeft (nOf s p) |} + cWire w = cSide (nOf s p)).
    { unfold cSide. cbn [nReader nLeft]. rewrite Er. cbn [cReader]. lia. }
    destruct (deliver_cost _ _ _ _ _ H) as [(A & B)|(A & B)]; lia.
Qed.

(** The backend can take everything. *)
Definition roomy (cap : option nat) (v : nat) : Prop := match cap with None => True | Some k => v <= k end.

Lemma roomy_deliver : forall cap s p x w, roomy cap (volume s) -> 0 < cSide (nOf s p) ->
  exists s', nDeliver cap (nSet s p x) p w = Some s'.
Proof.
  intros cap s p x w Hr Hc. unfold nDeliver.
  assert (R : nRoom cap (nSet s p x) p = true).
  { unfold nRoom. destruct cap as [k|]; [|reflexivity]. cbn [roomy] in Hr. apply Nat.ltb_lt.
    assert (nChan (nSet s p x) p = nChan s p) as -> by (destruct p; reflexivity).
    pose proof (fl_side s p). pose proof (fl_one s p). lia. }
  rewrite R. eexists. reflexivity.
Qed.

Lemma pong_progress : forall cap s, roomy cap (volume s) -> answered s \/ exists s', nAny cap s s'.
Proof.
  intros cap s Hr.
  assert (W : forall p, (exists s', nAny cap s s') \/ nReader (nOf s p) = NrRead).
  { intro p. destruct (nReader (nOf s p)) as [|w] eqn:Er; [right; reflexivity|]. left.
    destruct (roomy_deliver cap s p {| nReader := NrRead; nLeft := nLeft (nOf s p) |} w Hr) as (s' & E).
    { unfold cSide. rewrite Er. destruct w; cbn [cReader cWire]; lia. }
    exists s', (NlWrote p). cbn [nStep]. rewrite Er. exact E. }
  assert (L : forall p, (exists s', nAny cap s s') \/ nLeft (nOf s p) = 0).
  { intro p. destruct (nLeft (nOf s p)) as [|n] eqn:El; [right; reflexivity|]. left.
    destruct (roomy_deliver cap s p {| nReader := nReader (nOf s p); nLeft := n |} NPing Hr) as (s' & E).
    { unfold cSide. rewrite El. lia. }
    exists s', (NlPing p). cbn [nStep]. rewrite El. exact E. }
  destruct (W true) as [X|W1]; [right; exact X|]. destruct (W false) as [X|W2]; [right; exact X|].
  destruct (L true) as [X|L1]; [right; exact X|]. destruct (L false) as [X|L2]; [right; exact X|].
  assert (C : forall p, (exists s', nAny cap s s') \/ nChan s p = []).
  { intro p. destruct (nChan s p) as [|w rest] eqn:Ec; [right; reflexivity|]. left.
    eexists. exists (NlRead (negb p)). cbn [nStep]. rewrite negb_involutive, Ec.
    assert (nReads (nOf s (negb p)) = true) as -> by (unfold nReads; destruct p; cbn [negb]; [rewrite W2|rewrite W1]; reflexivity).
    reflexivity. }
  destruct (C true) as [X|C1]; [right; exact X|]. destruct (C false) as [X|C2]; [right; exact X|].
  left. intro p. destruct p; auto.
Qed.

(** With a backend that can hold all packets of an iteration, and with one whose
    writes never wait, every schedule ends with everything answered. *)
Theorem C121_room_partial : forall cap a b,
  match cap with None => True | Some k => 3 * (a + b) <= k end ->
  always_ends (nAny cap) answered (nInit a b).
Proof.
  intros cap a b H.
  apply (ends_by_measure (nAny cap) (fun s => roomy cap (volume s)) answered nMeasure).
  - intros s s' Hr (l & E). destruct (cost_step _ _ _ _ E) as (V & M). split; [|exact M].
    destruct cap as [k|]; [|exact I]. cbn [roomy] in *. lia.
  - intros s Hr. destruct (pong_progress cap s Hr) as [A|G]; [|left; exact G]. right. split; [|exact A].
    intros s' (l & E). destruct (A true) as (A1 & A2 & A3). destruct (A false) as (B1 & B2 & B3).
    destruct l as [p|p|p]; cbn [nStep] in E.
    + destruct p; [rewrite A2 in E|rewrite B2 in E]; discriminate.
    + destruct p; cbn [negb] in E; [rewrite B3 in E|rewrite A3 in E]; discriminate.
    + destruct p; [rewrite A1 in E|rewrite B1 in E]; discriminate.
  - destruct cap as [k|]; [|exact I]. unfold roomy, volume, nInit, cSide. cbn [nA nB nReader nLeft nFromA nFromB cReader cChan]. lia.
Qed.
Print Assumptions C121_room_partial.

Example C121_ex :
  exists s, exec (nStep (Some 1)) (nInit 1 1)
    [NlPing true; NlPing false; NlRead true; NlRead false; NlWrote true; NlWrote false; NlRead true; NlRead false;
     NlWrote true; NlWrote false; NlRead true; NlRead false] = Some s /\ answered s.
Proof. eexists. split; [vm_compute; reflexivity|]. intro p. destruct p; repeat split. Qed.
