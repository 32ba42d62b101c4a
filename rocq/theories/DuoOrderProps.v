(** C161: with [PacketIDStorageSize] 1 messages are read in the order of writing. *)
From Coq Require Import NArith Arith List Bool Lia.
From Verif Require Import Base BaseLemmas TS MessageModel PacketIDModel PacketIDSpec PacketIDProofs ReaderModel PacketModel PacketSpec PacketProps StateModel
  KxModel KxProps KxPairModel KxPairProps IntegModel DuoModel DuoSpec DuoProofs DuoProps DuoOnceProps DuoAttackModel DuoAttackSpec DuoAttackProps
  DuoRekeySpec DuoRekeyProofs DuoRekeyProps DuoSteadyProps.
Import ListNotations.
Local Open Scope N_scope.

(** [a] is [b] with some of its elements left out. *)
Inductive leavesOut {A} : list A -> list A -> Prop :=
| lo_nil : leavesOut [] []
| lo_take : forall x a b, leavesOut a b -> leavesOut (x :: a) (x :: b)
| lo_skip : forall x a b, leavesOut a b -> leavesOut a (x :: b).

Lemma lo_none : forall A (l : list A), leavesOut [] l.
Proof. induction l; constructor; auto. Qed.

Lemma lo_app : forall A (c a b : list A), leavesOut a b -> leavesOut (c ++ a) (c ++ b).
Proof. induction c; cbn [app]; intros; auto. apply lo_take. auto. Qed.

Lemma lo_flat : forall A B (f : A -> list B) a b, leavesOut a b -> leavesOut (flat_map f a) (flat_map f b).
Proof.
  intros A B f a b H. induction H; cbn [flat_map].
  - constructor.
  - apply lo_app. auto.
  - induction (f x); cbn [app]; [auto|]. apply lo_skip. auto.
Qed.

Lemma increasing_leaves : forall b a m m', increasing_from m a -> increasing_from m' b -> incl a b -> leavesOut a b.
Proof.
  induction b as [|y b IH]; intros a m m' Ha Hb Hi.
  - destruct a as [|x a]; [constructor|]. destruct (Hi x (or_introl eq_refl)).
  - destruct a as [|x a]; [apply lo_none|]. destruct Hb as [Hb1 Hb2]. destruct (Hi x (or_introl eq_refl)) as [<-|Hx].
    + apply lo_take. apply (IH a y y); auto. apply Ha. intros z Hz. destruct (Hi z (or_intror Hz)) as [<-|H]; [|exact H].
      destruct Ha as [_ Ha]. pose proof (increasing_le _ _ _ Ha Hz). lia.
    + apply lo_skip. apply (IH (x :: a) m y); auto. assert (y < x) by (apply (increasing_le _ _ _ Hb2 Hx)).
      intros z Hz. destruct (Hi z Hz) as [<-|H']; [|exact H']. destruct Hz as [<-|Hz]; [lia|].
      destruct Ha as [_ Ha]. pose proof (increasing_le _ _ _ Ha Hz). lia.
Qed.

(** ** C161.  In runs with any number of key pairs and the attacker of C153: what
    is read is what was written, in the same order, some of it possibly missing. *)
Theorem C161_grow_only_in_order : forall verify dh blake3 sha3 stream poly1305 sign pubOf ca cb pas pbs wa wb md mf ls d,
  ideal verify dh sha3 stream poly1305 sign pubOf -> honestConf ca -> honestConf cb -> cPSK (icKx ca) = cPSK (icKx cb) ->
  separate verify sign (cIdentity (icKx ca)) (cIdentity (icKx cb)) -> separate verify sign (cIdentity (icKx cb)) (cIdentity (icKx ca)) ->
  sessBytes (cSession (icKx ca)) <> sessBytes (cSession (icKx cb)) ->
  rekeyedRun verify dh blake3 sha3 stream poly1305 sign pubOf ca cb pas pbs (duoInit ca cb wa wb md mf) ls d ->
  (forall net, In net [dNet (dA d); dNet (dB d)] ->
    unambiguous blake3 stream poly1305 (auxKey blake3 sha3 ca) (keyOfBoth dh blake3 sha3 pubOf (cPSK (icKx ca)) pas pbs)
      (sessBytes (cSession (icKx ca))) (sessBytes (cSession (icKx cb))) net) ->
  N.of_nat (length ls) < 2^64 ->
  (wa = Size 1 -> leavesOut (queued (dSess (dA d))) (dWrote (dB d))) /\
  (wb = Size 1 -> leavesOut (queued (dSess (dB d))) (dWrote (dA d))).
Proof.
  intros verify dh blake3 sha3 stream poly1305 sign pubOf ca cb pas pbs wa wb md mf ls d id Ha Hb psk sA sB ids R U HT.
  destruct (rekeyed_inv verify dh blake3 sha3 stream poly1305 sign pubOf id ca cb pas pbs Ha Hb psk sA sB ids wa wb md mf ls d R) as [_ L];
    [apply U; left; reflexivity|apply U; right; left; reflexivity|].
  destruct (L HT) as [LA LB].
  assert (G : forall g w c' qs x y T, LRg blake3 sha3 stream poly1305 sign pubOf (keyOfBoth dh blake3 sha3 pubOf (cPSK (icKx ca)) pas pbs) g w c' qs x y T -> w = Size 1 -> leavesOut (queued (dSess x)) (dWrote y)).
  { intros g w c' qs x y T (log & _ & Inc & _ & _ & Wr & W) ->. destruct (iWin (dSess x)) as [st|]; [|discriminate].
    destruct W as (acc & own & _ & _ & O & _ & Ia & Q). rewrite Q, <- Wr, <- (payload_all log (increasing_nodup _ _ Inc)).
    apply lo_flat. apply (increasing_leaves _ _ 0 0); [apply O; reflexivity|exact Inc|]. intros z Hz. apply Ia, in_rev, Hz. }
  split; intros Hw; eapply G; eauto.
Qed.
Print Assumptions C161_grow_only_in_order.

(** ** Instances: of three messages the last arrives first *)

Definition grow0 : duo := duoInit (armedConf 1) (armedConf 2) (Size 1) (Size 1) 8 65536.
Definition mixedRun : list alabel :=
  rkRun1 ++ map AStep [DA (SWrite [5]); DA (SWrite [6]); DA (SWrite [7]); DB (SRecv 4); DB (SRecv 6); DB (SRecv 5); DB (SRecv 6); DA (SWrite [8]); DB (SRecv 7)].
Definition growEnd : duo := Eval vm_compute in match rekeyRunB grow0 mixedRun with Some d => d | None => grow0 end.
Definition mixedEnd : duo := Eval vm_compute in match rekeyRunB wide0 mixedRun with Some d => d | None => wide0 end.

Example C161_example :
  rekeyedRun padVerify goodDh quickHash KxProps.toyHash quickStream quickPoly padSign goodPub (armedConf 1) (armedConf 2) twoA twoB grow0 mixedRun growEnd /\
  (forall net, In net [dNet (dA growEnd); dNet (dB growEnd)] -> rkClear net) /\
  dWrote (dA growEnd) = [[1; 2; 3]; [5]; [6]; [7]; [8]] /\ queued (dSess (dB growEnd)) = [[1; 2; 3]; [5]; [7]; [8]] /\ queued (dSess (dA growEnd)) = [[9]].
Proof.
  split. { apply (rekeyRunB_ok grow0 _ grow0 growEnd []); [constructor|]. vm_compute. reflexivity. }
  split. { intros net [<-|[<-|[]]]; apply oneKey_ok; vm_compute; reflexivity. }
  vm_compute. repeat split.
Qed.

(** With the default window the same arrivals are read in another order. *)
Theorem C161_default_window_reorders :
  rekeyedRun padVerify goodDh quickHash KxProps.toyHash quickStream quickPoly padSign goodPub (armedConf 1) (armedConf 2) twoA twoB wide0 mixedRun mixedEnd /\
  (forall net, In net [dNet (dA mixedEnd); dNet (dB mixedEnd)] -> rkClear net) /\
  dWrote (dA mixedEnd) = [[1; 2; 3]; [5]; [6]; [7]; [8]] /\ queued (dSess (dB mixedEnd)) = [[1; 2; 3]; [5]; [7]; [6]; [8]] /\
  ~ leavesOut (queued (dSess (dB mixedEnd))) (dWrote (dA mixedEnd)).
Proof.
  split. { apply (rekeyRunB_ok wide0 _ wide0 mixedEnd []); [constructor|]. vm_compute. reflexivity. }
  split. { intros net [<-|[<-|[]]]; apply oneKey_ok; vm_compute; reflexivity. }
  split; [vm_compute; reflexivity|]. split; [vm_compute; reflexivity|].
  change (~ leavesOut [[1; 2; 3]; [5]; [7]; [6]; [8]] [[1; 2; 3]; [5]; [6]; [7]; [8]]).
  intros H. repeat match goal with X : leavesOut _ _ |- _ => inversion X; subst; clear X end.
Qed.
Print Assumptions C161_default_window_reorders.
