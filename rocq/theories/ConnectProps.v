(** What becoming established does to the goroutine that reads, and what Close
    can end: properties C119, C120. *)
From Coq Require Import List Bool Arith Lia.
From Verif Require Import Base TS ConnectModel.
Import ListNotations.
Local Open Scope nat_scope.

(** The property: whatever has happened, the reader of a session that nobody has
    closed gets back to reading, as long as the goroutines of both sides go on;
    and after Close the reader and the sender end. *)
Definition appLabel (l : clabel) : bool := match l with CnCall _ | CnClose _ => true | _ => false end.
Definition readerStuck (s : cn) (p : bool) : Prop := exists n, pReader (side s p) = CrWrite n.

(** *** Everybody waits for everybody *)

Section Deadlock.
  Variable k : nat.    (* what the backend holds per direction *)
  Let step := cnStep (Some k).

  Definition stuck (s : cn) : Prop :=
    forall p, readerStuck s p /\ k <= length (chan s p) /\ pAnswer (side s p) = false
              /\ (pSender (side s p) = CsOff).

  Lemma no_room : forall s p w, k <= length (chan s p) -> reading (side s (negb p)) = false -> deliver (Some k) s p w = None.
  Proof.
    intros s p w H R. unfold deliver, hasRoom.
    destruct (Nat.ltb_spec (length (chan s p)) k); [lia|]. rewrite R. destruct (chan s p); reflexivity.
  Qed.

  Lemma stuck_step : forall s l s', stuck s -> step s l = Some s' -> stuck s'.
  Proof.
    intros s l s' H E. unfold step in E.
    assert (Hr : forall p, reading (side s p) = false).
    { intro p. destruct (H p) as ((n & Hn) & _). unfold reading. rewrite Hn. reflexivity. }
    assert (Hd : forall p w x, k <= length (chan (setSide s p x) p) -> deliver (Some k) (setSide s p x) p w = None).
    { intros p w x Hl. apply no_room; [exact Hl|]. destruct p; cbn; [exact (Hr false)|exact (Hr true)]. }
    assert (Hk : forall p x, k <= length (chan (setSide s p x) p)).
    { intros p x. destruct (H p) as (_ & Hl & _). destruct p; exact Hl. }
    assert (keep : forall p x, pReader x = pReader (side s p) -> pAnswer x = pAnswer (side s p) ->
              pSender x = pSender (side s p) -> stuck (setSide s p x)).
    { intros p x X1 X2 X3 q. specialize (H q). unfold readerStuck in *.
      destruct p, q; cbn [side setSide chan cA cB cFromA cFromB] in *; rewrite ?X1, ?X2, ?X3; exact H. }
    destruct l as [p|p|p|p|p|p|p|p|p]; cbn [cnStep] in E; destruct (H p) as ((n & Hn) & Hl & Ha & Hs).
    - destruct (pDone (side s p)); [discriminate|]. injection E as <-.
      apply keep; destruct (pEst (side s p)); reflexivity.
    - destruct (pWait (side s p)); [discriminate|].
      destruct (pEst (side s p)); [injection E as <-; apply keep; reflexivity|].
      destruct (pDone (side s p)); [injection E as <-; apply keep; reflexivity|discriminate].
    - destruct (pDone (side s p)); [discriminate|]. injection E as <-. apply keep; reflexivity.
    - rewrite Ha in E. discriminate.
    - destruct (chan s (negb p)); [discriminate|]. rewrite Hr in E. discriminate.
    - rewrite Hn in E. discriminate.
    - rewrite Hn in E. rewrite Hd in E by apply Hk. discriminate.
    - rewrite Hs in E. discriminate.
    - rewrite Hs in E. discriminate.
  Qed.

  Lemma stuck_run : forall ls s s', stuck s -> exec step s ls = Some s' -> stuck s'.
  Proof.
    induction ls as [|l ls IH]; intros s s' H E; cbn [exec] in E.
    - injection E as <-. exact H.
    - destruct (step s l) as [s1|] eqn:E1; [|discriminate]. eapply IH; [|exact E]. eapply stuck_step; eauto.
  Qed.

  (** How to get there: both sides have a message waiting when the answers
      arrive, and then a further one whenever the reader looks for more. *)
  Definition busy (r : creader) (b : nat) (d : bool) : peer :=
    {| pReader := r; pAnswer := false; pEst := true; pWait := 0; pBuf := b; pSender := CsOff; pDone := d |}.
  Definition both (ra rb : creader) (ba bb : nat) (la lb : list wire) : cn :=
    {| cA := busy ra ba false; cB := busy rb bb false; cFromA := la; cFromB := lb |}.
  Definition ones (j : nat) : list wire := repeat (WData 1) j.

  Definition arrive : list clabel :=
    match k with
    | O => [CnAnswer true; CnAnswer false]
    | S _ => [CnAnswer true; CnRead false; CnAnswer false; CnRead true]
    end ++ [CnReader true; CnReader false].
  Lemma arrive_run : exec step cnInit arrive = Some (both CrFlush CrFlush 0 0 [] []).
  Proof. unfold step, arrive. destruct k as [|k']; vm_compute; reflexivity. Qed.

  Definition round (p : bool) : list clabel := [CnCall p; CnReader p; CnReaderWrite p].
  Fixpoint rounds (p : bool) (n : nat) : list clabel := match n with O => [] | S n => round p ++ rounds p n end.

  Lemma room_ones : forall j, j < k -> Nat.ltb (length (ones j)) k = true.
  Proof. intros j H. unfold ones. rewrite repeat_length. apply Nat.ltb_lt. exact H. Qed.
  Lemma ones_S : forall j, ones j ++ [WData 1] = ones (S j).
  Proof. intro j. unfold ones. change [WData 1] with (repeat (WData 1) 1). rewrite <- repeat_app, Nat.add_1_r. reflexivity. Qed.

  Lemma round_A : forall j rb bb lb, j < k ->
    exec step (both CrFlush rb 0 bb (ones j) lb) (round true) = Some (both CrFlush rb 0 bb (ones (S j)) lb).
  Proof.
    intros j rb bb lb H. unfold round, both, step. cbn [exec cnStep side cA pDone pEst busy setSide setBuf pWait pBuf
      pReader pAnswer pSender setReader]. unfold deliver, hasRoom. cbn [chan cFromA setChan setSide cA cB cFromB].
    rewrite room_ones by exact H. rewrite ones_S. reflexivity.
  Qed.
  Lemma round_B : forall j ra ba la, j < k ->
    exec step (both ra CrFlush ba 0 la (ones j)) (round false) = Some (both ra CrFlush ba 0 la (ones (S j))).
  Proof.
    intros j ra ba la H. unfold round, both, step. cbn [exec cnStep side cB pDone pEst busy setSide setBuf pWait pBuf
      pReader pAnswer pSender setReader]. unfold deliver, hasRoom. cbn [chan cFromB setChan setSide cA cB cFromA].
    rewrite room_ones by exact H. rewrite ones_S. reflexivity.
  Qed.

  Lemma rounds_A : forall n j rb bb lb, j + n <= k ->
    exec step (both CrFlush rb 0 bb (ones j) lb) (rounds true n) = Some (both CrFlush rb 0 bb (ones (j + n)) lb).
  Proof.
    induction n as [|n IH]; intros j rb bb lb H; cbn [rounds].
    - rewrite Nat.add_0_r. reflexivity.
    - rewrite (exec_app _ _ _ _ _ (round_A j rb bb lb ltac:(lia))).
      rewrite IH by lia. rewrite Nat.add_succ_comm. reflexivity.
  Qed.
  Lemma rounds_B : forall n j ra ba la, j + n <= k ->
    exec step (both ra CrFlush ba 0 la (ones j)) (rounds false n) = Some (both ra CrFlush ba 0 la (ones (j + n))).
  Proof.
    induction n as [|n IH]; intros j ra ba la H; cbn [rounds].
    - rewrite Nat.add_0_r. reflexivity.
    - rewrite (exec_app _ _ _ _ _ (round_B j ra ba la ltac:(lia))).
      rewrite IH by lia. rewrite Nat.add_succ_comm. reflexivity.
  Qed.

  Definition deadly : list clabel :=
    arrive ++ rounds true k ++ rounds false k ++ [CnCall true; CnReader true; CnCall false; CnReader false].
  Lemma deadly_run : exec step cnInit deadly = Some (both (CrWrite 1) (CrWrite 1) 0 0 (ones k) (ones k)).
  Proof.
    unfold deadly. rewrite (exec_app _ _ _ _ _ arrive_run).
    change (@nil wire) with (ones 0) at 1. rewrite (exec_app _ _ _ _ _ (rounds_A k 0 CrFlush 0 [] ltac:(lia))).
    change (@nil wire) with (ones 0). rewrite (exec_app _ _ _ _ _ (rounds_B k 0 CrFlush 0 (ones (0 + k)) ltac:(lia))).
    cbn [Nat.add]. reflexivity.
  Qed.
  Lemma deadly_stuck : stuck (both (CrWrite 1) (CrWrite 1) 0 0 (ones k) (ones k)).
  Proof.
    intro p. unfold readerStuck, ones. destruct p; cbn; rewrite repeat_length; repeat split; try (exists 1; reflexivity); lia.
  Qed.
End Deadlock.

(** The readers are the ones who send what was written before the session was
    established.  When both do, and the backend holds no more, each waits in
    backend.Write for the other to read: neither ever reads again, whatever else
    happens, and Close does not end them either. *)
Theorem C119_deadlock_refuted : forall k,
  exists ls s, exec (cnStep (Some k)) cnInit ls = Some s
    /\ forallb (fun l => match l with CnClose _ => false | _ => true end) ls = true
    /\ forall ls' s', exec (cnStep (Some k)) s ls' = Some s' -> readerStuck s' true /\ readerStuck s' false.
Proof.
  intro k. exists (deadly k), (both (CrWrite 1) (CrWrite 1) 0 0 (ones k) (ones k)).
  split; [apply deadly_run|]. split.
  - unfold deadly, arrive. rewrite !forallb_app.
    assert (R : forall p n, forallb (fun l => match l with CnClose _ => false | _ => true end) (rounds p n) = true).
    { intros p n. induction n as [|n IH]; [reflexivity|]. cbn [rounds]. rewrite forallb_app, IH. reflexivity. }
    rewrite !R. destruct k; reflexivity.
  - intros ls' s' E. pose proof (stuck_run k ls' _ _ (deadly_stuck k) E) as H.
    split; [exact (proj1 (H true))|exact (proj1 (H false))].
Qed.
Print Assumptions C119_deadlock_refuted.

Example C119_ex_pipe :
  (* net.Pipe: one message on each side is enough *)
  exists s, exec (cnStep (Some 0)) cnInit
    [CnAnswer true; CnAnswer false; CnReader true; CnReader false; CnCall true; CnReader true; CnCall false; CnReader false;
     CnClose true; CnClose false] = Some s
    /\ pReader (cA s) = CrWrite 1 /\ pReader (cB s) = CrWrite 1
    /\ forallb (fun l => match cnStep (Some 0) s l with None => true | Some _ => false end)
         [CnCall true; CnWake true; CnClose true; CnAnswer true; CnRead true; CnReader true; CnReaderWrite true; CnSender true;
          CnSenderWrite true; CnCall false; CnWake false; CnClose false; CnAnswer false; CnRead false; CnReader false;
          CnReaderWrite false; CnSender false; CnSenderWrite false] = true.
Proof. eexists. split; [vm_compute; reflexivity|]. repeat split. Qed.

(** *** Writers that keep the reader busy *)

(** Even if the backend never makes anybody wait: a side whose application goes
    on writing may send for ever from the goroutine that should read, while the
    peer's packets wait. *)
Theorem C119_livelock_refuted :
  exists pre loop s,
    exec (cnStep None) cnInit pre = Some s
    /\ loop <> [] /\ exec (cnStep None) s loop = Some s
    /\ (forall a b t, loop = a ++ b -> exec (cnStep None) s a = Some t ->
          pReader (cA t) <> CrRead /\ cFromB t <> [])
    /\ existsb (fun l => match l with CnReaderWrite true => true | _ => false end) loop = true
    /\ existsb (fun l => match l with CnRead false => true | _ => false end) loop = true.
Proof.
  exists [CnAnswer true; CnRead false; CnAnswer false; CnRead true; CnReader true; CnReader false; CnReader false;
          CnCall false; CnSender false; CnSenderWrite false],
         [CnCall true; CnReader true; CnReaderWrite true; CnRead false],
         {| cA := busy CrFlush 0 false;
            cB := {| pReader := CrRead; pAnswer := false; pEst := true; pWait := 0; pBuf := 0; pSender := CsIdle; pDone := false |};
            cFromA := []; cFromB := [WData 1] |}.
  split; [vm_compute; reflexivity|]. split; [discriminate|]. split; [vm_compute; reflexivity|].
  split; [|split; reflexivity].
  intros a b t E Ht.
  destruct a as [|x1 [|x2 [|x3 [|x4 [|x5 a]]]]]; cbn [app] in E.
  - injection Ht as <-. split; discriminate.
  - injection E as <- _. vm_compute in Ht. injection Ht as <-. split; discriminate.
  - injection E as <- <- _. vm_compute in Ht. injection Ht as <-. split; discriminate.
  - injection E as <- <- <- _. vm_compute in Ht. injection Ht as <-. split; discriminate.
  - injection E as <- <- <- <- _. vm_compute in Ht. injection Ht as <-. split; discriminate.
  - discriminate.
Qed.
Print Assumptions C119_livelock_refuted.

(** *** When all is well *)

(** The applications do nothing more; everything else goes on. *)
Definition quietStep (cap : option nat) (s s' : cn) : Prop := exists l, appLabel l = false /\ cnStep cap s l = Some s'.

(** Both readers read, and everything that was written has been handed over. *)
Definition allOver (s : cn) : Prop :=
  forall p, pReader (side s p) = CrRead /\ pEst (side s p) = true /\ pWait (side s p) = 0 /\ pBuf (side s p) = 0
            /\ pSender (side s p) = CsIdle /\ chan s p = [].

Definition wWire (w : wire) : nat := match w with WAnswer => 10 | WData _ => 1 end.
Fixpoint wChan (l : list wire) : nat := match l with [] => 0 | w :: l => wWire w + wChan l end.
Definition wReader (r : creader) : nat := match r with CrRead => 1 | CrConn => 5 | CrFlush => 4 | CrWrite _ => 6 | CrExit => 0 end.
Definition wSender (d : csender) : nat := match d with CsIdle => 1 | CsWrite _ => 3 | _ => 0 end.
Definition wPeer (x : peer) : nat :=
  6 * pWait x + 5 * pBuf x + wReader (pReader x) + wSender (pSender x) + (if pAnswer x then 12 else 0).
Definition wAll (s : cn) : nat := wPeer (cA s) + wPeer (cB s) + wChan (cFromA s) + wChan (cFromB s).

Lemma wChan_app : forall a b, wChan (a ++ b) = wChan a + wChan b.
Proof. induction a as [|w a IH]; intro b; cbn [app wChan]; [reflexivity|]. rewrite IH. lia. Qed.

Lemma wAll_side : forall s p x, wAll (setSide s p x) + wPeer (side s p) = wAll s + wPeer x.
Proof. intros s p x. destruct p; unfold wAll, setSide, side; cbn [cA cB cFromA cFromB]; generalize (wPeer x) (wPeer (cA s)) (wPeer (cB s)); intros; lia. Qed.
Lemma wAll_chan : forall s p l, wAll (setChan s p l) + wChan (chan s p) = wAll s + wChan l.
Proof. intros s p l. destruct p; unfold wAll, setChan, chan; cbn [cA cB cFromA cFromB]; generalize (wPeer (cA s)) (wPeer (cB s)); intros; lia. Qed.
Lemma side_set : forall s p x, side (setSide s p x) p = x.
Proof. intros s p x. destruct p; reflexivity. Qed.
Lemma side_other : forall s p x, side (setSide s p x) (negb p) = side s (negb p).
Proof. intros s p x. destruct p; reflexivity. Qed.
Lemma side_other2 : forall s p x, side (setSide s (negb p) x) p = side s p.
Proof. intros s p x. destruct p; reflexivity. Qed.
Lemma chan_side : forall s p q x, chan (setSide s p x) q = chan s q.
Proof. intros s p q x. destruct p, q; reflexivity. Qed.
Lemma side_chan : forall s p q l, side (setChan s p l) q = side s q.
Proof. intros s p q l. destruct p, q; reflexivity. Qed.
Lemma chan_set : forall s p l, chan (setChan s p l) p = l.
Proof. intros s p l. destruct p; reflexivity. Qed.
Lemma chan_other : forall s p l, chan (setChan s p l) (negb p) = chan s (negb p).
Proof. intros s p l. destruct p; reflexivity. Qed.
Lemma chan_other2 : forall s p l, chan (setChan s (negb p) l) p = chan s p.
Proof. intros s p l. destruct p; reflexivity. Qed.

Lemma w_got : forall x w, reading x = true -> wPeer (gotPacket x w) + 1 <= wPeer x + wWire w.
Proof.
  intros x w H. unfold reading in H. destruct (pReader x) eqn:E; try discriminate.
  destruct w; cbn [gotPacket wWire]; [|lia]. unfold wPeer, setReader; cbn [pWait pBuf pReader pSender pAnswer].
  rewrite E. cbn [wReader]. lia.
Qed.

Lemma w_deliver : forall cap s p w s', deliver cap s p w = Some s' -> wAll s' <= wAll s + wWire w.
Proof.
  intros cap s p w s' H. unfold deliver in H. destruct (hasRoom cap s p).
  - injection H as <-. pose proof (wAll_chan s p (chan s p ++ [w])) as W. rewrite wChan_app in W. cbn [wChan] in W. lia.
  - destruct (chan s p); [|discriminate]. destruct (reading (side s (negb p))) eqn:R; [|discriminate]. injection H as <-.
    pose proof (wAll_side s (negb p) (gotPacket (side s (negb p)) w)) as W.
    pose proof (w_got _ w R) as G. lia.
Qed.

Lemma w_side : forall s p x, wPeer x < wPeer (side s p) -> wAll (setSide s p x) < wAll s.
Proof. intros s p x H. pose proof (wAll_side s p x). lia. Qed.
Lemma w_side_deliver : forall cap s p x w s', wPeer x + wWire w < wPeer (side s p) ->
  deliver cap (setSide s p x) p w = Some s' -> wAll s' < wAll s.
Proof. intros cap s p x w s' H D. pose proof (wAll_side s p x). pose proof (w_deliver _ _ _ _ _ D). lia. Qed.

Lemma w_step : forall cap s l s', appLabel l = false -> cnStep cap s l = Some s' -> wAll s' < wAll s.
Proof.
  intros cap s l s' A H. destruct l as [p|p|p|p|p|p|p|p|p]; try discriminate; cbn [cnStep] in H.
  - destruct (pWait (side s p)) as [|w] eqn:Ew; [discriminate|].
    destruct (pEst (side s p)); [|destruct (pDone (side s p)); [|discriminate]]; injection H as <-;
      apply w_side; unfold wPeer; cbn [setBuf pWait pBuf pReader pSender pAnswer]; rewrite Ew; lia.
  - destruct (pAnswer (side s p)) eqn:Ea; [|discriminate].
    assert (D : wPeer (setAnswered (side s p)) + 11 < wPeer (side s p)).
    { unfold wPeer. cbn [setAnswered pWait pBuf pReader pSender pAnswer]. rewrite Ea. lia. }
    destruct (pDone _); [injection H as <-; apply w_side; lia|].
    eapply w_side_deliver; [|exact H]. cbn [wWire]. lia.
  - destruct (chan s (negb p)) as [|w rest] eqn:Ec; [discriminate|].
    destruct (reading (side s p)) eqn:R; [|discriminate]. injection H as <-.
    pose proof (wAll_chan (setSide s p (gotPacket (side s p) w)) (negb p) rest) as W.
    rewrite chan_side, Ec in W. cbn [wChan] in W.
    pose proof (wAll_side s p (gotPacket (side s p) w)) as W2. pose proof (w_got _ w R) as G. lia.
  - destruct (pReader (side s p)) eqn:Er; try discriminate.
    + destruct (pDone (side s p)); [|discriminate]. injection H as <-.
      apply w_side. unfold wPeer. cbn [setReader pWait pBuf pReader pSender pAnswer]. rewrite Er. cbn [wReader]. lia.
    + injection H as <-.
      apply w_side. unfold wPeer. cbn [setEst setReader pWait pBuf pReader pSender pAnswer]. rewrite Er. cbn [wReader]. lia.
    + destruct (pBuf (side s p)) as [|b] eqn:Eb; injection H as <-; apply w_side; unfold wPeer.
      * cbn [setSender setReader pWait pBuf pReader pSender pAnswer]. rewrite Er. cbn [wReader wSender]. lia.
      * cbn [setBuf setReader pWait pBuf pReader pSender pAnswer]. rewrite Er, Eb.
        destruct (pDone (side s p)); cbn [wReader]; lia.
  - destruct (pReader (side s p)) as [| | |n|] eqn:Er; try discriminate.
    eapply w_side_deliver; [|exact H]. unfold wPeer. cbn [setReader pWait pBuf pReader pSender pAnswer].
    rewrite Er. cbn [wReader wWire]. lia.
  - destruct (pSender (side s p)) eqn:Es; try discriminate.
    destruct (pDone (side s p)).
    + injection H as <-. apply w_side. unfold wPeer. cbn [setSender pWait pBuf pReader pSender pAnswer].
      rewrite Es. cbn [wSender]. lia.
    + destruct (pBuf (side s p)) as [|b] eqn:Eb; [discriminate|]. injection H as <-. apply w_side. unfold wPeer.
      cbn [setBuf setSender pWait pBuf pReader pSender pAnswer]. rewrite Es, Eb. cbn [wSender]. lia.
  - destruct (pSender (side s p)) as [| |n|] eqn:Es; try discriminate.
    eapply w_side_deliver; [|exact H]. unfold wPeer. cbn [setSender pWait pBuf pReader pSender pAnswer].
    rewrite Es. cbn [wSender wWire]. lia.
Qed.

(** Nothing was written by the application. *)
Definition silent (x : peer) : Prop :=
  pWait x = 0 /\ pBuf x = 0 /\ (forall n, pReader x <> CrWrite n) /\ (forall n, pSender x <> CsWrite n).

(** What holds as long as nobody closes; [pending]: the answer is still to come. *)
Definition opened (x : peer) (pending : Prop) : Prop :=
  pDone x = false /\ pReader x <> CrExit /\ pSender x <> CsEnd
  /\ (pEst x = false -> pSender x = CsOff /\ (pReader x = CrConn \/ pReader x = CrRead /\ pending))
  /\ (pEst x = true -> pReader x = CrRead -> pSender x <> CsOff).
Definition pendingFor (s : cn) (p : bool) : Prop := pAnswer (side s (negb p)) = true \/ In WAnswer (chan s (negb p)).

Lemma opened_mono : forall x (a b : Prop), (a -> b) -> opened x a -> opened x b.
Proof. unfold opened. intros x a b H (H1 & H2 & H3 & H4 & H5). repeat split; auto; destruct (H4 H0) as (? & [?|[? ?]]); auto. Qed.

Lemma opened_got : forall x w (a : Prop), opened x a -> reading x = true ->
  forall b : Prop, (a -> w <> WAnswer -> b) -> opened (gotPacket x w) b.
Proof.
  unfold opened, reading. intros x w a (H1 & H2 & H3 & H4 & H5) R b Hb.
  destruct (pReader x) eqn:Er; try discriminate. destruct w as [|n]; cbn [gotPacket].
  - cbn [setReader pDone pReader pSender pEst]. repeat split; auto; try discriminate; intros; destruct (H4 H) as (? & _); auto.
  - rewrite Er. repeat split; auto; intros; destruct (H4 H) as (? & [?|[? ?]]); auto; try discriminate.
    right. split; auto. apply Hb; [assumption|discriminate].
Qed.

(** [deliver] as seen by both sides. *)
Lemma open_deliver : forall cap s p w s',
  deliver cap s p w = Some s' ->
  opened (side s p) (pendingFor s p) ->
  opened (side s (negb p)) (pendingFor s (negb p) \/ w = WAnswer) ->
  opened (side s' p) (pendingFor s' p) /\ opened (side s' (negb p)) (pendingFor s' (negb p)).
Proof.
  intros cap s p w s' D Hp Hn. unfold deliver in D. destruct (hasRoom cap s p).
  - injection D as <-. split.
    + rewrite side_chan. eapply opened_mono; [|exact Hp]. unfold pendingFor. rewrite side_chan, chan_other. auto.
    + rewrite side_chan. eapply opened_mono; [|exact Hn]. unfold pendingFor.
      rewrite side_chan, negb_involutive, chan_set, in_app_iff. intros [[H|H]| ->]; auto. right. right. left. reflexivity.
  - destruct (chan s p) eqn:Ec; [|discriminate]. destruct (reading (side s (negb p))) eqn:R; [|discriminate].
    injection D as <-. split.
    + rewrite side_other2. eapply opened_mono; [|exact Hp]. unfold pendingFor.
      rewrite side_set, chan_side. destruct w; cbn [gotPacket setReader pAnswer]; auto.
    + rewrite side_set. eapply opened_got; [exact Hn|exact R|]. unfold pendingFor.
      rewrite negb_involutive, chan_side, side_other2.
      intros [[H|H]|H] Hw; try contradiction; auto.
Qed.

Definition isClose (l : clabel) : bool := match l with CnClose _ => true | _ => false end.
Definition allOpen (s : cn) : Prop := forall p, opened (side s p) (pendingFor s p).

Lemma allOpen_by : forall s p, opened (side s p) (pendingFor s p) -> opened (side s (negb p)) (pendingFor s (negb p)) -> allOpen s.
Proof. intros s p H1 H2 q. destruct p, q; cbn [negb] in *; assumption. Qed.

(** One side changes, not its answer. *)
Lemma open_side : forall s p x, allOpen s -> (forall a, opened (side s p) a -> opened x a) -> pAnswer x = pAnswer (side s p) ->
  allOpen (setSide s p x).
Proof.
  intros s p x H Hx Ha. apply (allOpen_by _ p).
  - rewrite side_set. apply Hx. unfold pendingFor. rewrite side_other, chan_side. apply H.
  - rewrite side_other. eapply opened_mono; [|apply H]. unfold pendingFor.
    rewrite negb_involutive, side_set, chan_side, Ha. auto.
Qed.

Lemma open_step : forall cap s l s', allOpen s -> isClose l = false -> cnStep cap s l = Some s' -> allOpen s'.
Proof.
  intros cap s l s' H C E. pose proof (fun p => H p) as Hp.
  destruct l as [p|p|p|p|p|p|p|p|p]; try discriminate; cbn [cnStep] in E; specialize (Hp p);
    pose proof Hp as (H1 & H2 & H3 & H4 & H5).
  - rewrite H1 in E. injection E as <-. apply open_side; [exact H| |]; destruct (pEst (side s p)) eqn:Ee; auto;
      unfold opened; cbn [setBuf pDone pReader pSender pEst]; rewrite ?Ee; auto.
  - destruct (pWait (side s p)); [discriminate|]. rewrite H1 in E. destruct (pEst (side s p)) eqn:Ee; [|discriminate].
    injection E as <-. apply open_side; auto. 
  - destruct (pAnswer (side s p)) eqn:Ea; [|discriminate].
    rewrite side_set in E. cbn [setAnswered pDone] in E. rewrite H1 in E.
    destruct (open_deliver _ _ p _ _ E) as (A & B).
    + rewrite side_set. unfold pendingFor. rewrite side_other, chan_side. exact Hp.
    + rewrite side_other. eapply opened_mono; [|apply H]. auto.
    + exact (allOpen_by _ p A B).
  - destruct (chan s (negb p)) as [|w rest] eqn:Ec; [discriminate|].
    destruct (reading (side s p)) eqn:R; [|discriminate]. injection E as <-.
    apply (allOpen_by _ p).
    + rewrite side_chan, side_set. eapply opened_got; [exact Hp|exact R|].
      unfold pendingFor. rewrite side_chan, side_other, chan_set, Ec.
      intros [Hx|[Hx|Hx]] Hw; try contradiction; auto.
    + rewrite side_chan, side_other. eapply opened_mono; [|apply H]. unfold pendingFor.
      rewrite side_chan, negb_involutive, side_set. rewrite chan_other2, chan_side.
      destruct w; cbn [gotPacket setReader pAnswer]; auto.
  - destruct (pReader (side s p)) eqn:Er; try discriminate.
    + rewrite H1 in E. discriminate.
    + injection E as <-. apply open_side; auto. intros a _. unfold opened. cbn [setEst setReader pDone pReader pSender pEst].
      repeat split; auto; discriminate.
    + assert (Ee : pEst (side s p) = true).
      { destruct (pEst (side s p)); [reflexivity|]. destruct (H4 eq_refl) as (_ & [X|[X _]]); discriminate. }
      destruct (pBuf (side s p)); injection E as <-; apply open_side; auto; intros a _; unfold opened.
      * cbn [setSender setReader pDone pReader pSender pEst]. rewrite Ee. repeat split; auto; discriminate.
      * rewrite H1. cbn [setBuf setReader pDone pReader pSender pEst]. rewrite Ee. repeat split; auto; discriminate.
  - destruct (pReader (side s p)) as [| | |n|] eqn:Er; try discriminate.
    assert (Ee : pEst (side s p) = true).
    { destruct (pEst (side s p)); [reflexivity|]. destruct (H4 eq_refl) as (_ & [X|[X _]]); discriminate. }
    destruct (open_deliver _ _ p _ _ E) as (A & B).
    + rewrite side_set. unfold opened. cbn [setReader pDone pReader pSender pEst]. rewrite Ee. repeat split; auto; discriminate.
    + rewrite side_other. eapply opened_mono; [|apply H]. unfold pendingFor. rewrite negb_involutive, side_set, chan_side. auto.
    + exact (allOpen_by _ p A B).
  - destruct (pSender (side s p)) eqn:Es; try discriminate. rewrite H1 in E.
    destruct (pBuf (side s p)); [discriminate|]. injection E as <-. apply open_side; auto. intros a (A1 & A2 & A3 & A4 & A5).
    unfold opened. cbn [setBuf setSender pDone pReader pSender pEst]. repeat split; auto; try discriminate.
    + destruct (A4 H0) as (X & _). rewrite Es in X. discriminate.
    + destruct (A4 H0) as (X & _). rewrite Es in X. discriminate.
  - destruct (pSender (side s p)) as [| |n|] eqn:Es; try discriminate.
    destruct (open_deliver _ _ p _ _ E) as (A & B).
    + rewrite side_set. unfold opened. cbn [setSender pDone pReader pSender pEst]. repeat split; auto; try discriminate;
        intros; destruct (H4 H0) as (X & _); discriminate.
    + rewrite side_other. eapply opened_mono; [|apply H]. unfold pendingFor. rewrite negb_involutive, side_set, chan_side. auto.
    + exact (allOpen_by _ p A B).
Qed.

Lemma silent_deliver : forall cap s p w s' q, deliver cap s p w = Some s' -> silent (side s q) -> silent (side s' q).
Proof.
  intros cap s p w s' q D H. unfold deliver in D. destruct (hasRoom cap s p).
  - injection D as <-. rewrite side_chan. exact H.
  - destruct (chan s p); [|discriminate]. destruct (reading (side s (negb p))); [|discriminate]. injection D as <-.
    destruct (bool_dec q (negb p)) as [->|Hq].
    + rewrite side_set. destruct w; cbn [gotPacket]; [|exact H]. unfold silent in *. cbn [setReader pWait pBuf pReader pSender].
      destruct H as (? & ? & ? & ?). repeat split; auto; discriminate.
    + assert (p = q) as -> by (destruct p, q; cbn in Hq; congruence). rewrite side_other2. exact H.
Qed.

Lemma silent_side : forall s p q x, silent (side s q) -> (silent (side s p) -> silent x) -> silent (side (setSide s p x) q).
Proof. intros s p q x H Hx. destruct p, q; cbn [side setSide cA cB] in *; auto. Qed.

Lemma silent_step : forall cap s l s' q, silent (side s q) -> l <> CnCall q -> cnStep cap s l = Some s' -> silent (side s' q).
Proof.
  intros cap s l s' q H C E. destruct l as [p|p|p|p|p|p|p|p|p]; cbn [cnStep] in E.
  - destruct (pDone (side s p)); [discriminate|]. injection E as <-.
    destruct p, q; try contradiction; exact H.
  - destruct (pWait (side s p)) as [|w] eqn:Ew; [discriminate|].
    destruct (pEst (side s p)); [|destruct (pDone (side s p)); [|discriminate]]; injection E as <-;
      apply silent_side; auto; intros (X & _); rewrite Ew in X; discriminate.
  - destruct (pDone (side s p)); [discriminate|]. injection E as <-. apply silent_side; auto.
    intros (? & ? & ? & ?). repeat split; auto.
  - destruct (pAnswer (side s p)); [|discriminate].
    assert (X : silent (side (setSide s p (setAnswered (side s p))) q)) by (apply silent_side; auto).
    destruct (pDone (side (setSide s p (setAnswered (side s p))) p)); [injection E as <-; exact X|].
    eapply silent_deliver; eauto.
  - destruct (chan s (negb p)) as [|w rest]; [discriminate|]. destruct (reading (side s p)); [|discriminate].
    injection E as <-. rewrite side_chan. apply silent_side; auto. destruct w; cbn [gotPacket]; auto.
    intros (? & ? & ? & ?). repeat split; auto; discriminate.
  - destruct (pReader (side s p)) eqn:Er; try discriminate.
    + destruct (pDone (side s p)); [|discriminate]. injection E as <-. apply silent_side; auto.
      intros (? & ? & ? & ?). repeat split; auto; discriminate.
    + injection E as <-. apply silent_side; auto. intros (? & ? & ? & ?). repeat split; auto; discriminate.
    + destruct (pBuf (side s p)) eqn:Eb; injection E as <-; apply silent_side; auto.
      * intros (? & ? & ? & ?). repeat split; auto; discriminate.
      * intros (_ & X & _). rewrite Eb in X. discriminate.
  - destruct (pReader (side s p)) as [| | |n|] eqn:Er; try discriminate.
    eapply silent_deliver; [exact E|]. apply silent_side; auto. intros (_ & _ & X & _). destruct (X _ Er).
  - destruct (pSender (side s p)) eqn:Es; try discriminate.
    destruct (pDone (side s p)).
    + injection E as <-. apply silent_side; auto. intros (? & ? & ? & ?). repeat split; auto; discriminate.
    + destruct (pBuf (side s p)) eqn:Eb; [discriminate|]. injection E as <-. apply silent_side; auto.
      intros (_ & X & _). rewrite Eb in X. discriminate.
  - destruct (pSender (side s p)) as [| |n|] eqn:Es; try discriminate.
    eapply silent_deliver; [exact E|]. apply silent_side; auto. intros (_ & _ & _ & X). destruct (X _ Es).
Qed.

Section Progress.
  Variable cap : option nat.
  Variable s : cn.
  Hypothesis Ho : allOpen s.
  Let goes := exists s', quietStep cap s s'.

  Lemma go : forall l s', appLabel l = false -> cnStep cap s l = Some s' -> goes.
  Proof. intros l s' A E. exists s', l. split; assumption. Qed.

  Lemma local : forall p, goes \/
    ((pReader (side s p) = CrRead \/ exists n, pReader (side s p) = CrWrite n)
     /\ (pEst (side s p) = true -> pWait (side s p) = 0)
     /\ (pSender (side s p) = CsIdle -> pBuf (side s p) = 0)).
  Proof.
    intro p. destruct (Ho p) as (H1 & H2 & _).
    assert (R : goes \/ (pReader (side s p) = CrRead \/ exists n, pReader (side s p) = CrWrite n)).
    { destruct (pReader (side s p)) as [| | |n|] eqn:Er.
      - right. left. reflexivity.
      - left. eapply (go (CnReader p)); [reflexivity|]. cbn [cnStep]. rewrite Er. reflexivity.
      - left. destruct (pBuf (side s p)) eqn:Eb; (eapply (go (CnReader p)); [reflexivity|]; cbn [cnStep]; rewrite Er, Eb; reflexivity).
      - right. right. exists n. reflexivity.
      - contradiction. }
    destruct R as [R|R]; [left; exact R|].
    assert (W : goes \/ (pEst (side s p) = true -> pWait (side s p) = 0)).
    { destruct (pWait (side s p)) as [|w] eqn:Ew; [right; reflexivity|].
      destruct (pEst (side s p)) eqn:Ee; [|right; discriminate].
      left. eapply (go (CnWake p)); [reflexivity|]. cbn [cnStep]. rewrite Ew, Ee. reflexivity. }
    destruct W as [W|W]; [left; exact W|].
    destruct (pSender (side s p)) eqn:Es; try (right; repeat split; auto; discriminate).
    destruct (pBuf (side s p)) eqn:Eb; [right; auto|].
    left. eapply (go (CnSender p)); [reflexivity|]. cbn [cnStep]. rewrite Es, H1, Eb. reflexivity.
  Qed.

  Lemma sends : forall p, (forall x w, exists s', deliver cap (setSide s p x) p w = Some s') -> goes \/
    ((forall n, pReader (side s p) <> CrWrite n) /\ (forall n, pSender (side s p) <> CsWrite n) /\ pAnswer (side s p) = false).
  Proof.
    intros p D. destruct (Ho p) as (H1 & _).
    assert (A : goes \/ forall n, pReader (side s p) <> CrWrite n).
    { destruct (pReader (side s p)) as [| | |n|] eqn:Er; try (right; discriminate).
      left. destruct (D (setReader (side s p) CrFlush) (WData n)) as (s' & E).
      apply (go (CnReaderWrite p) s'); [reflexivity|]. cbn [cnStep]. rewrite Er. exact E. }
    destruct A as [A|A]; [left; exact A|].
    assert (B : goes \/ forall n, pSender (side s p) <> CsWrite n).
    { destruct (pSender (side s p)) as [| |n|] eqn:Es; try (right; discriminate).
      left. destruct (D (setSender (side s p) CsIdle) (WData n)) as (s' & E).
      apply (go (CnSenderWrite p) s'); [reflexivity|]. cbn [cnStep]. rewrite Es. exact E. }
    destruct B as [B|B]; [left; exact B|].
    destruct (pAnswer (side s p)) eqn:Ea; [left|right; auto].
    destruct (D (setAnswered (side s p)) WAnswer) as (s' & E).
    apply (go (CnAnswer p) s'); [reflexivity|]. cbn [cnStep]. rewrite Ea, side_set. cbn [setAnswered pDone]. rewrite H1. exact E.
  Qed.

  Lemma reads : forall p, pReader (side s p) = CrRead -> goes \/ chan s (negb p) = [].
  Proof.
    intros p Hr. destruct (Ho p) as (H1 & _).
    destruct (chan s (negb p)) as [|w rest] eqn:Ec; [right; reflexivity|]. left.
    eapply (go (CnRead p)); [reflexivity|]. cbn [cnStep]. rewrite Ec. unfold reading. rewrite Hr, H1. reflexivity.
  Qed.

  Lemma empty_sends : forall p, pReader (side s (negb p)) = CrRead -> chan s p = [] ->
    forall x w, exists s', deliver cap (setSide s p x) p w = Some s'.
  Proof.
    intros p Hr Hc x w. destruct (Ho (negb p)) as (H1 & _). unfold deliver. destruct (hasRoom _ _ _); [eexists; reflexivity|].
    rewrite chan_side, Hc, side_other. unfold reading. rewrite Hr, H1. eexists. reflexivity.
  Qed.

  Lemma finished : (forall p, pReader (side s p) = CrRead) -> (forall p, chan s p = []) ->
    (forall p n, pSender (side s p) <> CsWrite n) -> (forall p, pAnswer (side s p) = false) -> goes \/ allOver s.
  Proof.
    intros R C W A.
    destruct (local true) as [L|(_ & L1 & L2)]; [left; exact L|].
    destruct (local false) as [M|(_ & M1 & M2)]; [left; exact M|]. right.
    assert (E : forall p, pEst (side s p) = true).
    { intro p. destruct (Ho p) as (_ & _ & _ & H4 & _). destruct (pEst (side s p)); [reflexivity|].
      destruct (H4 eq_refl) as (_ & [X|[_ [X|X]]]); [rewrite R in X; discriminate|rewrite A in X; discriminate|].
      rewrite C in X. destruct X. }
    assert (I : forall p, pSender (side s p) = CsIdle).
    { intro p. destruct (Ho p) as (_ & _ & H3 & _ & H5). specialize (H5 (E p) (R p)). specialize (W p).
      destruct (pSender (side s p)) as [| |n|]; try contradiction; [reflexivity|destruct (W n eq_refl)]. }
    intro p. repeat split; auto; destruct p; auto.
  Qed.

  Lemma progress : cap = None \/ silent (side s false) -> goes \/ allOver s.
  Proof.
    intros [Hc|Hs].
    - assert (D : forall p x w, exists s', deliver cap (setSide s p x) p w = Some s').
      { intros p x w. unfold deliver, hasRoom. rewrite Hc. eexists. reflexivity. }
      destruct (local true) as [L|(L & _)]; [left; exact L|]. destruct (local false) as [M|(M & _)]; [left; exact M|].
      destruct (sends true (D true)) as [X|(X1 & X2 & X3)]; [left; exact X|].
      destruct (sends false (D false)) as [Y|(Y1 & Y2 & Y3)]; [left; exact Y|].
      destruct L as [L|(n & L)]; [|destruct (X1 n L)]. destruct M as [M|(n & M)]; [|destruct (Y1 n M)].
      destruct (reads true L) as [U|U]; [left; exact U|]. destruct (reads false M) as [V|V]; [left; exact V|].
      apply finished; intro p; destruct p; auto.
    - destruct (local false) as [M|(M & _)]; [left; exact M|].
      destruct M as [M|(n & M)]; [|destruct Hs as (_ & _ & X & _); destruct (X n M)].
      destruct (reads false M) as [V|V]; [left; exact V|].
      destruct (sends true (empty_sends true M V)) as [X|(X1 & X2 & X3)]; [left; exact X|].
      destruct (local true) as [L|(L & _)]; [left; exact L|]. destruct L as [L|(n & L)]; [|destruct (X1 n L)].
      destruct (reads true L) as [U|U]; [left; exact U|].
      destruct (sends false (empty_sends false L U)) as [Y|(Y1 & Y2 & Y3)]; [left; exact Y|].
      apply finished; intro p; destruct p; auto.
  Qed.
End Progress.

Lemma quiet_open : forall cap s s', allOpen s -> quietStep cap s s' -> allOpen s'.
Proof.
  intros cap s s' H (l & A & E). eapply open_step; [exact H| |exact E]. destruct l; try reflexivity; discriminate.
Qed.

Lemma open_init : allOpen cnInit.
Proof.
  intro p. unfold pendingFor. destruct p; unfold opened; cbn; repeat split; auto; discriminate.
Qed.
Lemma open_run : forall cap ls s s', allOpen s -> forallb (fun l => negb (isClose l)) ls = true ->
  exec (cnStep cap) s ls = Some s' -> allOpen s'.
Proof.
  induction ls as [|l ls IH]; intros s s' H F E; cbn [exec forallb] in *.
  - injection E as <-. exact H.
  - apply andb_prop in F. destruct F as (F1 & F2). destruct (cnStep cap s l) as [s1|] eqn:E1; [|discriminate].
    eapply IH; [|exact F2|exact E]. eapply open_step; [exact H| |exact E1]. apply negb_true_iff. exact F1.
Qed.
Definition isCallB (l : clabel) : bool := match l with CnCall false => true | _ => false end.
Lemma silent_run : forall cap ls s s', silent (side s false) -> forallb (fun l => negb (isCallB l)) ls = true ->
  exec (cnStep cap) s ls = Some s' -> silent (side s' false).
Proof.
  induction ls as [|l ls IH]; intros s s' H F E; cbn [exec forallb] in *.
  - injection E as <-. exact H.
  - apply andb_prop in F. destruct F as (F1 & F2). destruct (cnStep cap s l) as [s1|] eqn:E1; [|discriminate].
    eapply IH; [|exact F2|exact E]. eapply silent_step; [exact H| |exact E1]. intros ->. discriminate.
Qed.

(** With a backend whose writes do not wait for the peer, and an application that
    writes any number of messages but not for ever: under every schedule both
    sides get back to reading, and everything written arrives. *)
Theorem C119_unbounded_partial : forall ls s,
  exec (cnStep None) cnInit ls = Some s -> forallb (fun l => negb (isClose l)) ls = true ->
  surely (quietStep None) (quietStep None) allOver s.
Proof.
  intros ls s E F. pose proof (open_run _ _ _ _ open_init F E) as H.
  apply (surely_by_measure _ _ allOpen allOver wAll); [| |exact H].
  - intros x x' Hx St. split; [eapply quiet_open; eauto|]. destruct St as (l & A & El). eapply w_step; eauto.
  - intros x Hx. destruct (progress None x Hx (or_introl eq_refl)) as [G|G]; [right; exact G|left; exact G].
Qed.
Print Assumptions C119_unbounded_partial.

(** With any backend, if only one side writes. *)
Theorem C119_one_sided_partial : forall cap ls s,
  exec (cnStep cap) cnInit ls = Some s -> forallb (fun l => negb (isClose l)) ls = true ->
  forallb (fun l => negb (isCallB l)) ls = true ->
  surely (quietStep cap) (quietStep cap) allOver s.
Proof.
  intros cap ls s E F F2. pose proof (open_run _ _ _ _ open_init F E) as H.
  assert (Hs : silent (side s false)).
  { eapply silent_run; [|exact F2|exact E]. repeat split; discriminate. }
  apply (surely_by_measure _ _ (fun x => allOpen x /\ silent (side x false)) allOver wAll); [| |split; [exact H|exact Hs]].
  - intros x x' (Hx & Hy) St. split; [split|].
    + eapply quiet_open; eauto.
    + destruct St as (l & A & El). eapply silent_step; [exact Hy| |exact El]. intros ->. discriminate.
    + destruct St as (l & A & El). eapply w_step; eauto.
  - intros x (Hx & Hy). destruct (progress cap x Hx (or_intror Hy)) as [G|G]; [right; exact G|left; exact G].
Qed.
Print Assumptions C119_one_sided_partial.

Example C119_ex_one_sided :
  (* A's reader waits in the write for B's, which is not reading yet, and gets through *)
  exists s s', exec (cnStep (Some 0)) cnInit
    [CnCall true; CnCall true; CnAnswer true; CnAnswer false; CnReader true; CnWake true; CnReader true] = Some s
    /\ pReader (cA s) = CrWrite 1 /\ cnStep (Some 0) s (CnReaderWrite true) = None
    /\ exec (cnStep (Some 0)) s
         [CnWake true; CnReader false; CnReader false; CnReaderWrite true; CnReader true; CnReaderWrite true; CnReader true] = Some s'
    /\ pReader (cA s') = CrRead /\ pReader (cB s') = CrRead /\ pBuf (cA s') = 0 /\ pSender (cA s') = CsIdle.
Proof. do 2 eexists. split; [vm_compute; reflexivity|]. split; [reflexivity|]. split; [reflexivity|].
  split; [vm_compute; reflexivity|]. repeat split. Qed.

(** *** Close *)

(** Closing interrupts only the reader: a sender that waits in backend.Write for
    a peer that has stopped reading waits for ever, and WaitForClosure with it. *)
Definition endless (k : nat) (s : cn) : Prop :=
  pReader (cB s) = CrExit /\ pSender (cB s) = CsEnd /\ pAnswer (cB s) = false /\ ~ In WAnswer (cFromB s)
  /\ k <= length (cFromA s) /\ (exists n, pSender (cA s) = CsWrite n)
  /\ (pReader (cA s) = CrRead \/ pReader (cA s) = CrExit) /\ pAnswer (cA s) = false.

Lemma endless_step : forall k s l s', endless k s -> cnStep (Some k) s l = Some s' -> endless k s'.
Proof.
  intros k s l s' (Hb & Hsb & Hab & Hi & Hl & (n & Hs) & Hr & Ha) E.
  assert (KA : forall x, pSender x = pSender (cA s) -> pReader x = pReader (cA s) \/ pReader x = CrExit -> pAnswer x = pAnswer (cA s) ->
             endless k (setSide s true x)).
  { intros x X1 X2 X3. unfold endless. cbn [setSide cA cB cFromA cFromB]. rewrite X1, X3.
    repeat split; auto; [exists n; exact Hs|]. destruct X2 as [X2|X2]; rewrite X2; auto. }
  assert (KB : forall x, pSender x = pSender (cB s) -> pReader x = pReader (cB s) -> pAnswer x = pAnswer (cB s) ->
             endless k (setSide s false x)).
  { intros x X1 X2 X3. unfold endless. cbn [setSide cA cB cFromA cFromB]. rewrite X1, X2, X3.
    repeat split; auto. exists n. exact Hs. }
  destruct l as [p|p|p|p|p|p|p|p|p]; cbn [cnStep] in E.
  - destruct (pDone (side s p)); [discriminate|]. injection E as <-.
    destruct p; [apply KA|apply KB]; try (left; reflexivity); destruct (pEst _); auto.
  - destruct (pWait (side s p)); [discriminate|].
    destruct (pEst (side s p)); [|destruct (pDone (side s p)); [|discriminate]]; injection E as <-;
      destruct p; first [apply KA; auto|apply KB; auto].
  - destruct (pDone (side s p)); [discriminate|]. injection E as <-. destruct p; first [apply KA; auto|apply KB; auto].
  - destruct p; cbn [side] in E; [rewrite Ha in E|rewrite Hab in E]; discriminate.
  - destruct p; cbn [side negb chan] in E.
    + destruct (cFromB s) as [|w rest] eqn:Ec; [discriminate|]. destruct (reading (cA s)); [|discriminate]. injection E as <-.
      destruct w as [|m]; [destruct Hi; left; reflexivity|]. cbn [gotPacket].
      unfold endless. cbn [setChan setSide cA cB cFromA cFromB]. repeat split; auto; [|exists n; exact Hs].
      intro X. apply Hi. right. exact X.
    + destruct (cFromA s); [discriminate|]. unfold reading in E. rewrite Hb in E. discriminate.
  - destruct p; cbn [side] in E.
    + destruct Hr as [Hr|Hr]; rewrite Hr in E; [|discriminate]. destruct (pDone (cA s)); [|discriminate]. injection E as <-.
      apply KA; auto.
    + rewrite Hb in E. discriminate.
  - destruct p; cbn [side] in E; [destruct Hr as [Hr|Hr]; rewrite Hr in E|rewrite Hb in E]; discriminate.
  - destruct p; cbn [side] in E; [rewrite Hs in E|rewrite Hsb in E]; discriminate.
  - destruct p; cbn [side] in E; [rewrite Hs in E|rewrite Hsb in E; discriminate].
    rewrite no_room in E; [discriminate|rewrite chan_side; exact Hl|].
    rewrite side_other. unfold reading. cbn [side negb]. rewrite Hb. reflexivity.
Qed.

Lemma endless_run : forall k ls s s', endless k s -> exec (cnStep (Some k)) s ls = Some s' -> endless k s'.
Proof.
  induction ls as [|l ls IH]; intros s s' H E; cbn [exec] in E.
  - injection E as <-. exact H.
  - destruct (cnStep (Some k) s l) as [s1|] eqn:E1; [|discriminate]. eapply IH; [|exact E]. eapply endless_step; eauto.
Qed.

Definition sending (d : csender) (b : nat) (done : bool) : peer :=
  {| pReader := CrRead; pAnswer := false; pEst := true; pWait := 0; pBuf := b; pSender := d; pDone := done |}.
Definition gone : peer :=
  {| pReader := CrExit; pAnswer := false; pEst := true; pWait := 0; pBuf := 0; pSender := CsEnd; pDone := true |}.
Definition leftAlone (d : csender) (la : list wire) : cn := {| cA := sending d 0 false; cB := gone; cFromA := la; cFromB := [] |}.
Fixpoint messages (n : nat) : list clabel :=
  match n with O => [] | S n => [CnCall true; CnSender true; CnSenderWrite true] ++ messages n end.

Lemma messages_run : forall k n j, j + n <= k ->
  exec (cnStep (Some k)) (leftAlone CsIdle (ones j)) (messages n) = Some (leftAlone CsIdle (ones (j + n))).
Proof.
  induction n as [|n IH]; intros j H; cbn [messages].
  - rewrite Nat.add_0_r. reflexivity.
  - assert (R : exec (cnStep (Some k)) (leftAlone CsIdle (ones j)) [CnCall true; CnSender true; CnSenderWrite true]
                = Some (leftAlone CsIdle (ones (S j)))).
    { unfold leftAlone. cbn [exec cnStep side cA pDone pEst sending setSide setBuf pWait pBuf pReader pAnswer pSender setSender].
      unfold deliver, hasRoom. cbn [chan cFromA setChan setSide cA cB cFromB].
      rewrite room_ones by lia. rewrite ones_S. reflexivity. }
    rewrite (exec_app _ _ _ _ _ R). rewrite IH by lia. rewrite Nat.add_succ_comm. reflexivity.
Qed.

Theorem C120_close_refuted : forall k,
  exists ls s, exec (cnStep (Some k)) cnInit (ls ++ [CnClose true; CnReader true]) = Some s
    /\ pDone (cA s) = true /\ pReader (cA s) = CrExit
    /\ forall ls' s', exec (cnStep (Some k)) s ls' = Some s' -> exists n, pSender (cA s') = CsWrite n.
Proof.
  intro k.
  exists (arrive k ++ [CnReader true; CnReader false; CnClose false; CnSender false; CnReader false] ++ messages k
          ++ [CnCall true; CnSender true]).
  exists {| cA := {| pReader := CrExit; pAnswer := false; pEst := true; pWait := 0; pBuf := 0; pSender := CsWrite 1; pDone := true |};
            cB := gone; cFromA := ones k; cFromB := [] |}.
  split; [|split; [reflexivity|split; [reflexivity|]]].
  - rewrite <- !app_assoc. rewrite (exec_app _ _ _ _ _ (arrive_run k)).
    assert (R : exec (cnStep (Some k)) (both CrFlush CrFlush 0 0 [] [])
                  [CnReader true; CnReader false; CnClose false; CnSender false; CnReader false] = Some (leftAlone CsIdle (ones 0)))
      by reflexivity.
    rewrite (exec_app _ _ _ _ _ R). rewrite (exec_app _ _ _ _ _ (messages_run k k 0 ltac:(lia))). reflexivity.
  - intros ls' s' E.
    assert (H : endless k s') by (eapply endless_run; [|exact E]; unfold endless, ones; cbn; rewrite repeat_length;
      repeat split; auto; exists 1; reflexivity).
    destruct H as (_ & _ & _ & _ & _ & H & _). exact H.
Qed.
Print Assumptions C120_close_refuted.

(** If writes never wait, Close always ends the reader and the sender, whatever
    they were doing. *)
Definition ended (x : peer) : Prop := pReader x = CrExit /\ (pSender x = CsEnd \/ pSender x = CsOff).

Lemma done_stays : forall cap s l s' p, pDone (side s p) = true -> cnStep cap s l = Some s' -> pDone (side s' p) = true.
Proof.
  assert (D : forall cap s p w s' q, deliver cap s p w = Some s' -> pDone (side s' q) = pDone (side s q)).
  { intros cap s p w s' q H. unfold deliver in H. destruct (hasRoom cap s p).
    - injection H as <-. rewrite side_chan. reflexivity.
    - destruct (chan s p); [|discriminate]. destruct (reading _); [|discriminate]. injection H as <-.
      destruct p, q, w; reflexivity. }
  assert (K : forall s p q x, pDone (side s p) = true -> (pDone (side s q) = true -> pDone x = true) -> pDone (side (setSide s q x) p) = true).
  { intros s p q x H Hx. destruct p, q; cbn [side setSide cA cB] in *; auto. }
  intros cap s l s' q H E. destruct l as [p|p|p|p|p|p|p|p|p]; cbn [cnStep] in E.
  - destruct (pDone (side s p)) eqn:Ed; [discriminate|]. injection E as <-. apply K; auto. intro X. congruence.
  - destruct (pWait (side s p)); [discriminate|].
    destruct (pEst (side s p)); [|destruct (pDone (side s p)) eqn:Ed; [|discriminate]]; injection E as <-; apply K; auto.
  - destruct (pDone (side s p)) eqn:Ed; [discriminate|]. injection E as <-. apply K; auto.
  - destruct (pAnswer (side s p)); [|discriminate]. 
    destruct (pDone (side (setSide s p (setAnswered (side s p))) p)).
    + injection E as <-. apply K; auto.
    + rewrite (D _ _ _ _ _ q E). apply K; auto.
  - destruct (chan s (negb p)) as [|w rest]; [discriminate|]. destruct (reading (side s p)); [|discriminate]. injection E as <-.
    rewrite side_chan. apply K; auto. destruct w; auto.
  - destruct (pReader (side s p)); try discriminate.
    + destruct (pDone (side s p)) eqn:Ed; [|discriminate]. injection E as <-. apply K; auto.
    + injection E as <-. apply K; auto.
    + destruct (pBuf (side s p)); injection E as <-; apply K; auto.
  - destruct (pReader (side s p)); try discriminate. rewrite (D _ _ _ _ _ q E). apply K; auto.
  - destruct (pSender (side s p)); try discriminate. destruct (pDone (side s p)) eqn:Ed.
    + injection E as <-. apply K; auto.
    + destruct (pBuf (side s p)); [discriminate|]. injection E as <-. apply K; auto.
  - destruct (pSender (side s p)); try discriminate. rewrite (D _ _ _ _ _ q E). apply K; auto.
Qed.

Theorem C120_close_partial : forall p s, pDone (side s p) = true ->
  surely (quietStep None) (quietStep None) (fun s => ended (side s p)) s.
Proof.
  intros p s H. apply (surely_by_measure _ _ (fun s => pDone (side s p) = true) (fun s => ended (side s p)) wAll); [| |exact H].
  - intros x x' Hx (l & A & E). split; [eapply done_stays; eauto|eapply w_step; eauto].
  - intros x Hx.
    assert (D : forall y w, exists s', deliver None (setSide x p y) p w = Some s') by (intros; eexists; reflexivity).
    assert (R : (exists x', quietStep None x x') \/ pReader (side x p) = CrExit).
    { destruct (pReader (side x p)) as [| | |n|] eqn:Er.
      - left. eexists. exists (CnReader p). split; [reflexivity|]. cbn [cnStep]. rewrite Er, Hx. reflexivity.
      - left. eexists. exists (CnReader p). split; [reflexivity|]. cbn [cnStep]. rewrite Er. reflexivity.
      - left. destruct (pBuf (side x p)) eqn:Eb; eexists; exists (CnReader p); (split; [reflexivity|]); cbn [cnStep]; rewrite Er, Eb; reflexivity.
      - left. destruct (D (setReader (side x p) CrFlush) (WData n)) as (s' & E). exists s', (CnReaderWrite p). split; [reflexivity|].
        cbn [cnStep]. rewrite Er. exact E.
      - right. reflexivity. }
    destruct R as [R|R]; [right; exact R|].
    destruct (pSender (side x p)) as [| |n|] eqn:Es.
    + left. split; [exact R|right; exact Es].
    + right. eexists. exists (CnSender p). split; [reflexivity|]. cbn [cnStep]. rewrite Es, Hx. reflexivity.
    + right. destruct (D (setSender (side x p) CsIdle) (WData n)) as (s' & E). exists s', (CnSenderWrite p). split; [reflexivity|].
      cbn [cnStep]. rewrite Es. exact E.
    + left. split; [exact R|left; exact Es].
Qed.
Print Assumptions C120_close_partial.

Example C120_ex :
  (* closed in the middle of sending what had been waiting *)
  exists s s', exec (cnStep None) cnInit
    [CnCall true; CnAnswer false; CnRead true; CnReader true; CnWake true; CnReader true; CnCall true; CnClose true] = Some s
    /\ pReader (cA s) = CrWrite 1 /\ pDone (cA s) = true
    /\ exec (cnStep None) s [CnReaderWrite true; CnReader true; CnReader true; CnSender true] = Some s'
    /\ ended (cA s').
Proof. do 2 eexists. split; [vm_compute; reflexivity|]. split; [reflexivity|]. split; [reflexivity|].
  split; [vm_compute; reflexivity|]. split; [reflexivity|left; reflexivity]. Qed.
