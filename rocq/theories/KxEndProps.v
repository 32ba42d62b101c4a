(** Property C152: a key update that ends without a word was answered. *)
From Coq Require Import NArith List Bool Lia.
From Verif Require Import Base TS KxRetryModel KxRetryProps.
Import ListNotations.
Local Open Scope N_scope.

(** What happened since the last key was made (or taken up). *)
Definition isKey (l : rtlabel) : bool := match l with TlKey _ => true | _ => false end.
Definition sinceKey (ls ls2 : list rtlabel) : Prop :=
  exists ls1 now, ls = ls1 ++ TlKey now :: ls2 /\ existsb isKey ls2 = false.

Record endInv (ls : list rtlabel) (s : rt) : Prop := {
  ei_stamp : stampInv s;
  ei_chan : forall v, tChan s = Some v -> v <= tLocal s;
  ei_closed : tChanClosed s = true -> tCtx s = true;
  ei_since : forall k, inUpdate s k -> exists ls2, sinceKey ls ls2 /\ (tHd s <> HdIdle \/ tLocal s = k -> In TlHandle ls2)
}.

Lemma sinceKey_snoc : forall ls ls2 l, sinceKey ls ls2 -> isKey l = false -> sinceKey (ls ++ [l]) (ls2 ++ [l]).
Proof.
  intros ls ls2 l (ls1 & now & -> & N) H. exists ls1, now. split; [rewrite <- app_assoc; reflexivity|].
  rewrite existsb_app, N. cbn. rewrite H. reflexivity.
Qed.

Lemma since_keep : forall ls s s' l, isKey l = false ->
  (forall k, inUpdate s k -> exists ls2, sinceKey ls ls2 /\ (tHd s <> HdIdle \/ tLocal s = k -> In TlHandle ls2)) ->
  (forall k, inUpdate s' k -> inUpdate s k) ->
  (forall k, inUpdate s' k -> tHd s' <> HdIdle \/ tLocal s' = k -> l = TlHandle \/ tHd s <> HdIdle \/ tLocal s = k) ->
  forall k, inUpdate s' k -> exists ls2, sinceKey (ls ++ [l]) ls2 /\ (tHd s' <> HdIdle \/ tLocal s' = k -> In TlHandle ls2).
Proof.
  intros ls s s' l K H U P k I. destruct (H k (U k I)) as (ls2 & S & Q). exists (ls2 ++ [l]). split; [exact (sinceKey_snoc _ _ _ S K)|].
  intros C. apply in_or_app. destruct (P k I C) as [-> |C']; [right; left; reflexivity|left; auto].
Qed.

Lemma end_step : forall ls s l s', endInv ls s -> rtStep s l = Some s' -> endInv (ls ++ [l]) s'.
Proof.
  intros ls s l s' [S C D E] H. pose proof (stamp_step s l s' S H) as S'. destruct S as [I1 I2 I3 I4].
  constructor; [exact S'| | |].
  - (* the channel *)
    destruct l; cbn [rtStep] in H; unfold checkChan, mustSend in H.
    all: repeat match type of H with
    | context [match ?x with _ => _ end] => lazymatch x with context [match _ with _ => _ end] => fail | _ => destruct x eqn:?; try discriminate end
    end; try (injection H as <-); cbn in *; intros w K; try discriminate K; try (apply C; congruence).
    + apply N.le_trans with (tLocal s); [auto|exact I1].
    + injection K as <-. rewrite (I3 _ eq_refl), (I4 _ eq_refl). apply N.le_refl.
  - destruct l; cbn [rtStep] in H; unfold checkChan, mustSend in H.
    all: repeat match type of H with
    | context [match ?x with _ => _ end] => lazymatch x with context [match _ with _ => _ end] => fail | _ => destruct x eqn:?; try discriminate end
    end; try (injection H as <-); cbn in *; auto; congruence.
  - destruct l.
    4: { cbn [rtStep] in H. destruct (tUp s) eqn:U; try discriminate. unfold lockFree in H. destruct (tHd s) eqn:Hh; try discriminate.
      injection H as <-. intros k [K|K]; [|discriminate]. cbn in K. injection K as <-. exists []. split; [exists ls, now; auto|].
      cbn. rewrite Hh. pose proof (next_stamp_gt s now I1) as G. intros [K|K]; [destruct (K eq_refl)|lia]. }
    all: apply (since_keep ls s); [reflexivity|exact E| |].
    all: cbn [rtStep] in H; unfold checkChan, mustSend, inUpdate in *.
    all: repeat match type of H with
    | context [match ?x with _ => _ end] => lazymatch x with context [match _ with _ => _ end] => fail | _ => destruct x eqn:?; try discriminate end
    end; try (injection H as <-); cbn in *; try tauto.
    all: try (intros k0 [K|K]; discriminate K).
    all: try (intros k0 [K|K]; [discriminate K|injection K as <-]; auto; fail).
    all: try (intros; right; left; discriminate).
    all: rewrite Hequ; auto.
Qed.

Lemma exec_snoc : forall ls l s s', exec rtStep s (ls ++ [l]) = Some s' -> exists x, exec rtStep s ls = Some x /\ rtStep x l = Some s'.
Proof.
  induction ls as [|a ls IH]; intros l s s' H; cbn [exec app] in *.
  - destruct (rtStep s l) as [x|] eqn:X; [|discriminate]. injection H as <-. eauto.
  - destruct (rtStep s a) as [x|]; [|discriminate]. exact (IH l x s' H).
Qed.

Lemma end_inv : forall ls s, exec rtStep rtInit ls = Some s -> endInv ls s.
Proof.
  induction ls as [|l ls IH] using rev_ind; intros s H.
  - injection H as <-. constructor; [apply stamp_inv, reach_init; reflexivity| | |]; cbn; try discriminate. intros k [K|K]; discriminate.
  - destruct (exec_snoc _ _ _ _ H) as (x & Hx & Hl). exact (end_step _ _ _ _ (IH x Hx) Hl).
Qed.

(** ** C152.  A wait for an answer that ends while the exchanger stays open (so
    that nothing was reported) ends because a message that means success was
    handled after the key of this update had been made: an announcement left over from
    an earlier update never ends it. *)
Theorem C152_answered : forall ls s k l s',
  exec rtStep rtInit ls = Some s -> tUp s = UpWait k -> rtStep s l = Some s' -> tUp s' = UpIdle -> tCtx s' = false ->
  tLocal s' = k /\ tTimeouts s' = tTimeouts s /\ tSendErrors s' = tSendErrors s /\
  exists ls2, sinceKey ls ls2 /\ In TlHandle ls2.
Proof.
  intros ls s k l s' H U E I X. destruct (end_inv ls s H) as [[I1 I2 _ _] C D Q].
  assert (K : tNext s = k) by (apply I2; right; exact U).
  assert (G : tLocal s' = tLocal s /\ tTimeouts s' = tTimeouts s /\ tSendErrors s' = tSendErrors s /\ tLocal s = k).
  { destruct l; cbn [rtStep] in E; rewrite ?U in E; unfold checkChan, mustSend in E; try discriminate.
    all: repeat match type of E with
    | context [match ?x with _ => _ end] => lazymatch x with context [match _ with _ => _ end] => fail | _ => destruct x eqn:?; try discriminate end
    end; try (injection E as <-); cbn in *; try congruence.
    all: repeat split; auto.
    all: try (exfalso; rewrite D in X by reflexivity; discriminate).
    all: match goal with H : (_ <=? _) = true |- _ => apply N.leb_le in H end.
    all: pose proof (C _ eq_refl); lia. }
  destruct G as (G1 & G2 & G3 & G4). destruct (Q k (or_intror U)) as (ls2 & S & F).
  split; [congruence|]. split; [exact G2|]. split; [exact G3|]. exists ls2. auto.
Qed.
Print Assumptions C152_answered.

(** The second update finds the announcement of a late answer to the first one,
    goes on, sends again, and ends with its own. *)
Definition lateAnswer : list rtlabel :=
  firstUpdate ++ [TlStart; TlEmpty; TlHandle; TlHandleSet; TlNotify NcSend; TlHandleEnd; TlKey 9; TlSend true; TlTick true].
Example C152_example :
  match exec rtStep rtInit lateAnswer with
  | Some s => tUp s = UpWait 9 /\ tLocal s = 5 /\ tSuccess s = 2%nat /\ tSent s = 4%nat /\ tChan s = None /\
      match exec rtStep s [TlHandle; TlHandleSet; TlNotify NcSend; TlHandleEnd] with
      | Some s => tSuccess s = 3%nat /\
          match rtStep s (TlTick true), rtStep s TlTimer, rtStep s TlRecv with
          | Some a, Some b, Some c => tUp a = UpIdle /\ tSent a = 4%nat /\ tUp b = UpIdle /\ tTimeouts b = 0%nat /\ tUp c = UpIdle /\ tCtx c = false
          | _, _, _ => False
          end
      | None => False
      end
  | None => False
  end.
Proof. vm_compute. repeat split. Qed.
