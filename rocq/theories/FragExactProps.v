(** C24 exactly: which of several messages that are fragmented at the same time are
    delivered. *)
From Coq Require Import NArith List Bool Lia.
From Verif Require Import Base BaseLemmas MessageModel PendingChainModel PendingChainProofs FragSpec FragRun FragmentSendModel ReaderModel
  ReaderLoopModel ReaderSpec ReaderProofs ReaderRun FragSession FragFamily FragProps.
Import ListNotations.
Local Open Scope N_scope.

Lemma events_of_reports : forall s t (rs : list report),
  concat (map (reportEvents s t) rs) =
  concat (map (reportEvents s t) (filter (fun r => match r with Delivered _ => true | _ => false end) rs)).
Proof.
  intros s t. induction rs as [|r rs IH]; [reflexivity|]. cbn [map concat filter].
  destruct r; cbn [reportEvents app map concat]; rewrite IH; reflexivity.
Qed.

(** Every piece of message [k] has arrived among [arr]. *)
Definition allArrived (est : N) (m : bytes) (k : N) (arr : list arrival) : Prop :=
  forall f, In f (framesOf est m) -> exists a, In a arr /\ aId a = k /\ fst (aFrag a) = fst f.

Lemma complete_arrived : forall est m k arr,
  complete (framesOf est m) (rev (proj k arr) ++ []) = true <-> allArrived est m k arr.
Proof.
  intros est m k arr. rewrite app_nil_r. unfold complete, allArrived, arrived. rewrite forallb_forall. split.
  - intros H f Hf. specialize (H f Hf). apply existsb_exists in H. destruct H as (g & Hg & E). apply N.eqb_eq in E.
    apply in_rev in Hg. unfold proj in Hg. apply in_map_iff in Hg. destruct Hg as (a & <- & Ha).
    apply filter_In in Ha. destruct Ha as [Ha K]. apply N.eqb_eq in K. exists a. auto.
  - intros H f Hf. destruct (H f Hf) as (a & Ha & K & E). apply existsb_exists. exists (aFrag a). split; [|apply N.eqb_eq; exact E].
    apply -> in_rev. unfold proj. apply in_map. apply filter_In. split; [exact Ha|]. apply N.eqb_eq. exact K.
Qed.

Lemma frames_nonempty : forall est m, 88 <= est < 2^32 -> est < len m -> len m < 2^32 -> framesOf est m <> [].
Proof.
  intros est m He H1 H2. unfold framesOf. rewrite splitMessage_spec by lia.
  destruct (sentPieces_facts est m ltac:(lia)) as (F & _). intros E.
  assert (P : sentPieces est m = []) by (destruct (sentPieces est m); [reflexivity|discriminate E]).
  rewrite P in F. cbn [concat] in F. subst m. unfold len in H1. cbn [length] in H1. lia.
Qed.

(** The state [s] is any state of the receiver: whatever has arrived so far. [arr] is
    what arrives from the first fragment of the newest message [L] on. A message of
    the window is delivered, once, exactly if all its pieces arrive from then on; of
    every other message nothing is delivered, whatever had arrived before. *)
Theorem C24_exactly_partial : forall est s typ msg L arr,
  88 <= est < 2^32 -> handlersReady s -> detachOnMessagesCount s = 0 -> 0 < maxChainIDDiff s ->
  length (pendingChains s) = N.to_nat (maxChainIDDiff s) -> Forall bufok (pendingChains s) ->
  lastRemoteChainID s < L < 2^64 ->
  (forall k, window L (maxChainIDDiff s) k ->
     est < len (msg k) <= maxFragmentedMessageSize s /\ len (msg k) < 2^32 /\ typ k < 2^32 /\
     forall c, In c (pendingChains s) -> len (cdata c) <= len (msg k)) ->
  (exists a r, arr = a :: r /\ aId a = L) ->
  Forall (fun a => aFlags a = 2 /\ window L (maxChainIDDiff s) (aId a) /\
                   In (aFrag a) (framesOf est (msg (aId a)))) arr ->
  exists s' outs, fragRun typ (fun k => len (msg k)) s arr = Ret (s', outs) /\
    forall k, window L (maxChainIDDiff s) k ->
      let events := concat (map snd (filter (fun x => fst x =? k) outs)) in
      (allArrived est (msg k) k arr ->
         events = map toEvent (route (map fst (messengers s)) (readChans s) {| wType := typ k; wFlags := 0; wPayload := msg k |})) /\
      (~ allArrived est (msg k) k arr -> events = []).
Proof.
  intros est s typ msg L arr He Hr Hd Hdf Hlen Hbuf HL Hmsg Hfirst HF.
  destruct (C24_newest_first_partial est s typ msg L arr) as (s' & outs & R1 & _ & _ & R4); auto.
  exists s', outs. split; [exact R1|]. intros k Hk. cbv zeta. rewrite (R4 k Hk), events_of_reports.
  destruct (Hmsg k Hk) as (M1 & M2 & _).
  pose proof (frames_nonempty est (msg k) He ltac:(lia) M2) as Hne.
  assert (C0 : complete (framesOf est (msg k)) [] = false) by (destruct (framesOf est (msg k)); [contradiction|reflexivity]).
  pose proof (C21_ideal_delivers_once (msg k) (framesOf est (msg k)) (proj k arr) [] C0) as D.
  rewrite D.
  match goal with |- context [if ?b then _ else _] => destruct b eqn:E end; split; intros A.
  - cbn [map concat reportEvents]. apply app_nil_r.
  - apply complete_arrived in E. contradiction.
  - apply complete_arrived in A. discriminate (eq_trans (eq_sym A) E).
  - reflexivity.
Qed.
Print Assumptions C24_exactly_partial.

(** Hence, for every receiver and every message: if one of its pieces came before a
    newer message began and does not come again, the message is lost, although all
    pieces have arrived. *)
Theorem C24_lost_refuted : forall est s typ msg L arr k f,
  88 <= est < 2^32 -> handlersReady s -> detachOnMessagesCount s = 0 -> 0 < maxChainIDDiff s ->
  length (pendingChains s) = N.to_nat (maxChainIDDiff s) -> Forall bufok (pendingChains s) ->
  lastRemoteChainID s < L < 2^64 ->
  (forall k, window L (maxChainIDDiff s) k ->
     est < len (msg k) <= maxFragmentedMessageSize s /\ len (msg k) < 2^32 /\ typ k < 2^32 /\
     forall c, In c (pendingChains s) -> len (cdata c) <= len (msg k)) ->
  (exists a r, arr = a :: r /\ aId a = L) ->
  Forall (fun a => aFlags a = 2 /\ window L (maxChainIDDiff s) (aId a) /\
                   In (aFrag a) (framesOf est (msg (aId a)))) arr ->
  window L (maxChainIDDiff s) k -> In f (framesOf est (msg k)) ->
  (forall a, In a arr -> aId a = k -> fst (aFrag a) <> fst f) ->
  exists s' outs, fragRun typ (fun k => len (msg k)) s arr = Ret (s', outs) /\
    forall x, In x outs -> fst x = k -> snd x = [].
Proof.
  intros est s typ msg L arr k f He Hr Hd Hdf Hlen Hbuf HL Hmsg Hfirst HF Hk Hf Hmiss.
  destruct (C24_exactly_partial est s typ msg L arr) as (s' & outs & R & X); auto.
  exists s', outs. split; [exact R|]. intros x Hx Ex. destruct (X k Hk) as [_ N0]. cbv zeta in N0.
  assert (Z : concat (map snd (filter (fun x => fst x =? k) outs)) = []).
  { apply N0. intros A. destruct (A f Hf) as (a & Ha & K & E). exact (Hmiss a Ha K E). }
  destruct (snd x) as [|e l] eqn:E; [reflexivity|]. exfalso.
  assert (I : In e (concat (map snd (filter (fun x => fst x =? k) outs)))).
  { apply in_concat. exists (snd x). split; [|rewrite E; left; reflexivity]. apply in_map. apply filter_In. split; [exact Hx|]. apply N.eqb_eq. exact Ex. }
  rewrite Z in I. destruct I.
Qed.
Print Assumptions C24_lost_refuted.

(** Two messages: the first piece of message 1 comes only before message 2 begins. *)
Example C24_exactly_example :
  let m1 := countUp 200 1 in let m2 := countUp 180 50 in
  match framesOf 100 m1, framesOf 100 m2 with
  | [a1; b1; c1], [a2; b2; c2] =>
      allArrived 100 m2 2 (arrivals 2 [a2; b2] ++ arrivals 1 [b1; c1] ++ arrivals 2 [c2]) /\
      ~ allArrived 100 m1 1 (arrivals 2 [a2; b2] ++ arrivals 1 [b1; c1] ++ arrivals 2 [c2]) /\
      map snd (outsOf (fragRun (fun _ => 7) (fun k => if k =? 1 then 200 else 180) exS
        (arrivals 1 [a1] ++ arrivals 2 [a2; b2] ++ arrivals 1 [b1; c1] ++ arrivals 2 [c2]))) =
      [[]; []; []; []; []; [EvHandler 7 m2]]
  | _, _ => False
  end.
Proof.
  cbv zeta. destruct (framesOf 100 (countUp 200 1)) as [|a1 [|b1 [|c1 [|]]]] eqn:E1; try (vm_compute in E1; discriminate E1).
  destruct (framesOf 100 (countUp 180 50)) as [|a2 [|b2 [|c2 [|]]]] eqn:E2; try (vm_compute in E2; discriminate E2).
  assert (A1 : fst a1 = 0 /\ fst b1 = 76 /\ fst c1 = 152) by (vm_compute in E1; injection E1 as <- <- <-; repeat split).
  split; [|split].
  - unfold allArrived. rewrite E2. intros g [<-|[<-|[<-|[]]]];
      [exists {| aId := 2; aFlags := 2; aFrag := a2 |}|exists {| aId := 2; aFlags := 2; aFrag := b2 |}|exists {| aId := 2; aFlags := 2; aFrag := c2 |}];
      cbn; tauto.
  - unfold allArrived. rewrite E1. intros H. destruct (H a1 ltac:(left; reflexivity)) as (a & Ha & K & F).
    destruct A1 as (A & B & C). rewrite A in F.
    cbn in Ha. destruct Ha as [<-|[<-|[<-|[<-|[<-|[]]]]]]; cbn [aId aFrag fst] in *; first [discriminate K | congruence].
  - vm_compute in E1, E2. injection E1 as <- <- <-. injection E2 as <- <- <-. vm_compute. reflexivity.
Qed.
