(** C157: with any window, nothing is read twice as long as the newest packet
    number does not jump. *)
From Coq Require Import NArith Arith List Bool Lia Permutation.
From Verif Require Import Base BaseLemmas TS MessageModel PacketIDModel PacketIDSpec PacketIDProofs ReaderModel PacketModel PacketSpec PacketProps StateModel
  KxModel KxProps KxPairModel KxPairProps IntegModel DuoModel DuoSpec DuoProofs DuoProps DuoOnceProps DuoAttackModel DuoAttackSpec DuoAttackProps
  DuoRekeySpec DuoRekeyProofs DuoRekeyProps.
Import ListNotations.
Local Open Scope N_scope.

(** Every step of the run leaves the newest number of this side where it is, or
    moves it by at most 64. *)
Definition steadyRun verify dh blake3 sha3 stream poly1305 sign pubOf ca cb pas pbs d0 (who : duo -> side) (ls : list alabel) : Prop :=
  forall ls1 l ls2 d1 d2, ls = ls1 ++ l :: ls2 ->
    rekeyedRun verify dh blake3 sha3 stream poly1305 sign pubOf ca cb pas pbs d0 ls1 d1 ->
    astep verify dh blake3 sha3 stream poly1305 sign ca cb d1 l = Some d2 -> steady (who d1) (who d2).

(** ** C157.  For every window option (0: the default of 256), in runs with any
    number of key pairs and the attacker of C153. Without the condition it is
    false for windows above 64 (C131_twice_refuted). *)
Theorem C157_steady_once : forall verify dh blake3 sha3 stream poly1305 sign pubOf ca cb pas pbs na nb md mf ls d,
  ideal verify dh sha3 stream poly1305 sign pubOf -> honestConf ca -> honestConf cb -> cPSK (icKx ca) = cPSK (icKx cb) ->
  separate verify sign (cIdentity (icKx ca)) (cIdentity (icKx cb)) -> separate verify sign (cIdentity (icKx cb)) (cIdentity (icKx ca)) ->
  sessBytes (cSession (icKx ca)) <> sessBytes (cSession (icKx cb)) ->
  rekeyedRun verify dh blake3 sha3 stream poly1305 sign pubOf ca cb pas pbs (duoInit ca cb (Size na) (Size nb) md mf) ls d ->
  (forall net, In net [dNet (dA d); dNet (dB d)] ->
    unambiguous blake3 stream poly1305 (auxKey blake3 sha3 ca) (keyOfBoth dh blake3 sha3 pubOf (cPSK (icKx ca)) pas pbs)
      (sessBytes (cSession (icKx ca))) (sessBytes (cSession (icKx cb))) net) ->
  N.of_nat (length ls) < 2^64 ->
  (steadyRun verify dh blake3 sha3 stream poly1305 sign pubOf ca cb pas pbs (duoInit ca cb (Size na) (Size nb) md mf) dA ls ->
   exists lost, Permutation (queued (dSess (dA d)) ++ lost) (dWrote (dB d))) /\
  (steadyRun verify dh blake3 sha3 stream poly1305 sign pubOf ca cb pas pbs (duoInit ca cb (Size na) (Size nb) md mf) dB ls ->
   exists lost, Permutation (queued (dSess (dB d)) ++ lost) (dWrote (dA d))).
Proof.
  intros verify dh blake3 sha3 stream poly1305 sign pubOf ca cb pas pbs na nb md mf ls d id Ha Hb psk sA sB ids R U HT.
  set (d0 := duoInit ca cb (Size na) (Size nb) md mf) in *.
  set (ga := steadyRun verify dh blake3 sha3 stream poly1305 sign pubOf ca cb pas pbs d0 dA ls).
  set (gb := steadyRun verify dh blake3 sha3 stream poly1305 sign pubOf ca cb pas pbs d0 dB ls).
  destruct (rekeyed_invg verify dh blake3 sha3 stream poly1305 sign pubOf id ca cb pas pbs Ha Hb psk sA sB ids ga gb (Size na) (Size nb) md mf ls d R) as [_ L];
    [|apply U; left; reflexivity|apply U; right; left; reflexivity|].
  { intros ls1 l ls2 d1 d2 E R1 S1. split; intros G; right; eapply G; eauto. }
  destruct (L HT) as [LA0 LB0]. split; intros G; eapply LRg_once; eauto; discriminate.
Qed.
Print Assumptions C157_steady_once.

(** ** An instance with the default window *)

Definition within (n : N) (x x' : side) : bool :=
  match iWin (dSess x), iWin (dSess x') with Some a, Some b => latest b <=? latest a + n | _, _ => true end.

Fixpoint withinRun (n : N) (who : duo -> side) (d : duo) (ls : list alabel) : bool :=
  match ls with
  | [] => true
  | l :: r => match armedStep d l with Some d' => within n (who d) (who d') && withinRun n who d' r | None => true end
  end.

Lemma withinRun_ok : forall n who d0 ls, withinRun n who d0 ls = true -> forall ls1 l ls2 d1 d2 a b, ls = ls1 ++ l :: ls2 ->
  rekeyedRun padVerify goodDh quickHash KxProps.toyHash quickStream quickPoly padSign goodPub (armedConf 1) (armedConf 2) twoA twoB d0 ls1 d1 ->
  armedStep d1 l = Some d2 -> iWin (dSess (who d1)) = Some a -> iWin (dSess (who d2)) = Some b -> latest b <= latest a + n.
Proof.
  intros n who d0 ls H ls1 l ls2 d1 d2 a b -> R E Ea Eb.
  assert (G : withinRun n who d1 (l :: ls2) = true).
  { clear E Ea Eb. revert l ls2 H. induction R as [|ls d l' d' R IH _ E]; intros l ls2 H; [exact H|].
    rewrite <- app_assoc in H. apply IH in H. cbn [app withinRun] in H. unfold armedStep in H. rewrite E in H. apply andb_true_iff in H. apply H. }
  cbn [withinRun] in G. rewrite E in G. apply andb_true_iff in G. destruct G as [G _].
  unfold within in G. rewrite Ea, Eb in G. apply N.leb_le, G.
Qed.

Lemma steadyRun_ok : forall who d0 ls, withinRun 64 who d0 ls = true ->
  steadyRun padVerify goodDh quickHash KxProps.toyHash quickStream quickPoly padSign goodPub (armedConf 1) (armedConf 2) twoA twoB d0 who ls.
Proof. intros who d0 ls H ls1 l ls2 d1 d2 El R E a b Ea Eb. eapply withinRun_ok; eauto. Qed.

Definition wide0 : duo := duoInit (armedConf 1) (armedConf 2) (Size 0) (Size 0) 8 65536.
(** 63 packets of A are lost; then the newest, an older one and copies of both arrive. *)
Definition wideRun : list alabel :=
  rkRun1 ++ map AStep (DA (SWrite [5]) :: repeat (DA (SWrite [])) 61 ++ [DA (SWrite [6]); DB (SRecv 66); DB (SRecv 4); DB (SRecv 66); DB (SRecv 4); DB (SRecv 3)]).
Definition wideEnd : duo := Eval vm_compute in match rekeyRunB wide0 wideRun with Some d => d | None => wide0 end.

Example C157_example :
  rekeyedRun padVerify goodDh quickHash KxProps.toyHash quickStream quickPoly padSign goodPub (armedConf 1) (armedConf 2) twoA twoB wide0 wideRun wideEnd /\
  (forall net, In net [dNet (dA wideEnd); dNet (dB wideEnd)] -> rkClear net) /\
  steadyRun padVerify goodDh quickHash KxProps.toyHash quickStream quickPoly padSign goodPub (armedConf 1) (armedConf 2) twoA twoB wide0 dA wideRun /\
  steadyRun padVerify goodDh quickHash KxProps.toyHash quickStream quickPoly padSign goodPub (armedConf 1) (armedConf 2) twoA twoB wide0 dB wideRun /\
  length (dWrote (dA wideEnd)) = 64%nat /\ queued (dSess (dB wideEnd)) = [[1; 2; 3]; [6]; [5]] /\ queued (dSess (dA wideEnd)) = [[9]].
Proof.
  split. { apply (rekeyRunB_ok wide0 _ wide0 wideEnd []); [constructor|]. vm_compute. reflexivity. }
  split. { intros net [<-|[<-|[]]]; apply oneKey_ok; vm_compute; reflexivity. }
  split; [apply steadyRun_ok; vm_compute; reflexivity|]. split; [apply steadyRun_ok; vm_compute; reflexivity|].
  vm_compute. repeat split.
Qed.

(** One packet more lost, and the number of steps of the receiver is the same: the
    first message is read again. *)
Definition tooWideRun : list alabel :=
  rkRun1 ++ map AStep (DA (SWrite [5]) :: repeat (DA (SWrite [])) 62 ++ [DA (SWrite [6]); DB (SRecv 67); DB (SRecv 4); DB (SRecv 67); DB (SRecv 4); DB (SRecv 3)]).
Definition tooWideEnd : duo := Eval vm_compute in match rekeyRunB wide0 tooWideRun with Some d => d | None => wide0 end.

Theorem C157_bound_is_sharp :
  rekeyedRun padVerify goodDh quickHash KxProps.toyHash quickStream quickPoly padSign goodPub (armedConf 1) (armedConf 2) twoA twoB wide0 tooWideRun tooWideEnd /\
  (forall net, In net [dNet (dA tooWideEnd); dNet (dB tooWideEnd)] -> rkClear net) /\
  (forall ls1 l ls2 d1 d2 a b, tooWideRun = ls1 ++ l :: ls2 ->
    rekeyedRun padVerify goodDh quickHash KxProps.toyHash quickStream quickPoly padSign goodPub (armedConf 1) (armedConf 2) twoA twoB wide0 ls1 d1 ->
    armedStep d1 l = Some d2 -> iWin (dSess (dB d1)) = Some a -> iWin (dSess (dB d2)) = Some b -> latest b <= latest a + 65) /\
  queued (dSess (dB tooWideEnd)) = [[1; 2; 3]; [6]; [5]; [1; 2; 3]] /\ length (filter (bytes_eqb [1; 2; 3]) (dWrote (dA tooWideEnd))) = 1%nat.
Proof.
  split. { apply (rekeyRunB_ok wide0 _ wide0 tooWideEnd []); [constructor|]. vm_compute. reflexivity. }
  split. { intros net [<-|[<-|[]]]; apply oneKey_ok; vm_compute; reflexivity. }
  split; [|vm_compute; repeat split].
  intros ls1 l ls2 d1 d2 a b. apply (withinRun_ok 65 dB wide0 tooWideRun). vm_compute. reflexivity.
Qed.
Print Assumptions C157_bound_is_sharp.
