(** C170: the counters of a session are usable on every platform. *)
From Coq Require Import NArith List Bool String Lia.
From Verif Require Import LayoutModel.
Import ListNotations.
Local Open Scope N_scope.

(** ** What should hold *)
(** Whatever the size of a word, no atomic access to a counter of an allocated
    session panics. *)
Definition allUsable (w : N) (before : list fieldDecl) (spin : kind) : Prop :=
  forall base name, base mod 8 = 0 -> In name atomicFields ->
    atomicAccess w base (sessionFields before spin) name = AccessDone.
(** The names of the fields before are other ones. *)
Definition otherNames (before : list fieldDecl) : Prop :=
  forall n, In n (map fst before) -> ~ In n (map fst (sessionTail KU32)).

(** End of the last field. *)
Fixpoint endFrom (w off : N) (fs : list fieldDecl) : N :=
  match fs with
  | [] => off
  | (_, k) :: rest => endFrom w (roundUp off (alignOf w k) + sizeOf w k) rest
  end.
Lemma offset_app : forall w fs gs name off, ~ In name (map fst fs) ->
  offsetFrom w off (fs ++ gs) name = offsetFrom w (endFrom w off fs) gs name.
Proof.
  induction fs as [|[n k] fs IH]; intros gs name off H; [reflexivity|].
  cbn [app offsetFrom endFrom]. cbn [map fst In] in H.
  destruct (String.eqb_spec n name); [exfalso; apply H; left; exact e|]. apply IH. intros C. apply H. right. exact C.
Qed.
Lemma atomic_in_tail : forall name, In name atomicFields -> In name (map fst (sessionTail KU32)).
Proof. intros name H. cbn in H |- *. tauto. Qed.
Lemma roundUp_mul : forall n a, a <> 0 -> exists q, roundUp n a = q * a.
Proof. intros n a _. exists ((n + a - 1) / a). reflexivity. Qed.
Lemma roundUp_same : forall q a, a <> 0 -> roundUp (q * a) a = q * a.
Proof.
  intros q a Ha. unfold roundUp. f_equal. replace (q * a + a - 1) with (a - 1 + q * a) by lia.
  rewrite N.div_add by exact Ha. rewrite N.div_small by lia. reflexivity.
Qed.
Lemma round4 : forall n, exists q, roundUp n 4 = q * 4.
Proof. intros n. apply roundUp_mul. discriminate. Qed.

(** Offsets with words of 32 bits, from the end [x * 4] of what is before. *)
Lemma r4 : forall q, roundUp (q * 4) 4 = q * 4.
Proof. intros q. apply roundUp_same. discriminate. Qed.
Lemma tail32 : forall off spin, exists q,
  offsetFrom 4 off (sessionTail spin) "lastSendInfoSendID" = Some (q * 4) /\
  offsetFrom 4 off (sessionTail spin) "keyExchangeCount" = Some (q * 4 + 8) /\
  offsetFrom 4 off (sessionTail spin) "sentMessagesCount" = Some (q * 4 + 16) /\
  offsetFrom 4 off (sessionTail spin) "receivedMessagesCount" = Some (q * 4 + 24) /\
  offsetFrom 4 off (sessionTail spin) "sequentialDecryptFailsCount" = Some (q * 4 + 32) /\
  offsetFrom 4 off (sessionTail spin) "unexpectedPacketIDCount" = Some (q * 4 + 40) /\
  offsetFrom 4 off (sessionTail spin) "nextPacketID" = Some (q * 4 + 64) /\
  offsetFrom 4 off (sessionTail spin) "nextLocalChainID" = Some (q * 4 + 92).
Proof.
  intros off spin. destruct (round4 off) as (q & Hq). exists q.
  assert (R : forall m, roundUp (m * 4 + 8) 4 = (m + 2) * 4 /\ roundUp (m * 4 + 4) 4 = (m + 1) * 4 /\ roundUp (m * 4 + 12) 4 = (m + 3) * 4).
  { intros m. replace (m * 4 + 8) with ((m + 2) * 4) by lia. replace (m * 4 + 4) with ((m + 1) * 4) by lia.
    replace (m * 4 + 12) with ((m + 3) * 4) by lia. rewrite !r4. auto. }
  assert (R8 : forall m, roundUp (m * 4 + 8) 4 = (m + 2) * 4) by (intros m; apply R).
  assert (R4 : forall m, roundUp (m * 4 + 4) 4 = (m + 1) * 4) by (intros m; apply R).
  assert (R12 : forall m, roundUp (m * 4 + 12) 4 = (m + 3) * 4) by (intros m; apply R).
  unfold sessionTail. cbn [offsetFrom String.eqb Ascii.eqb Bool.eqb alignOf sizeOf]. change (3 * 4) with 12.
  rewrite Hq. repeat first [rewrite R8 | rewrite R4 | rewrite R12].
  repeat split; f_equal; lia.
Qed.

Lemma mod8 : forall base q n, base mod 8 = 0 -> (base + (q * 4 + n)) mod 8 = (q * 4 + n) mod 8.
Proof. intros base q n H. rewrite N.add_mod by discriminate. rewrite H, N.add_0_l. apply N.mod_mod. discriminate. Qed.
Lemma shift8 : forall x m, (x + m * 8) mod 8 = x mod 8.
Proof. intros x m. apply N.mod_add. discriminate. Qed.
Lemma half8 : forall q, (q * 4) mod 8 = 0 /\ (q * 4 + 4) mod 8 = 4 \/ (q * 4) mod 8 = 4 /\ (q * 4 + 4) mod 8 = 0.
Proof.
  intros q. destruct (N.even q) eqn:E.
  - apply N.even_spec in E. destruct E as (r & ->). left. split.
    + replace (2 * r * 4) with (0 + r * 8) by lia. rewrite shift8. reflexivity.
    + replace (2 * r * 4 + 4) with (4 + r * 8) by lia. rewrite shift8. reflexivity.
  - assert (O : N.odd q = true) by (rewrite <- N.negb_even, E; reflexivity). apply N.odd_spec in O. destruct O as (r & ->). right. split.
    + replace ((2 * r + 1) * 4) with (4 + r * 8) by lia. rewrite shift8. reflexivity.
    + replace ((2 * r + 1) * 4 + 4) with (0 + (r + 1) * 8) by lia. rewrite shift8. reflexivity.
Qed.

(** ** What does not hold *)
(** With words of 32 bits either the next packet ID or the next chain ID cannot be
    taken (and the other one can), whatever the fields before are and wherever the
    session is allocated: their offsets differ by 28. So either no packet can be
    sent, or no message that needs fragments. *)
Theorem C170_words32_refuted : forall base before spin, base mod 8 = 0 -> otherNames before ->
  (getNextPacketIDAccess 4 base before spin = AccessPanics /\ getNextChainIDAccess 4 base before spin = AccessDone) \/
  (getNextPacketIDAccess 4 base before spin = AccessDone /\ getNextChainIDAccess 4 base before spin = AccessPanics).
Proof.
  intros base before spin Hb Ho. unfold getNextPacketIDAccess, getNextChainIDAccess, atomicAccess, offsetOf, sessionFields.
  rewrite !offset_app by (intros C; apply (Ho _ C); cbn; tauto).
  destruct (tail32 (endFrom 4 0 before) spin) as (q & _ & _ & _ & _ & _ & _ & E1 & E2). rewrite E1, E2.
  rewrite !mod8 by exact Hb. replace (q * 4 + 64) with (q * 4 + 8 * 8) by lia. replace (q * 4 + 92) with (q * 4 + 4 + 11 * 8) by lia.
  rewrite !shift8. destruct (half8 q) as [(A & B)|(A & B)]; rewrite A, B; [right|left]; split; reflexivity.
Qed.
Print Assumptions C170_words32_refuted.

(** There is no arrangement of the fields before that helps. *)
Theorem C170_never_usable_refuted : forall before spin, otherNames before -> ~ allUsable 4 before spin.
Proof.
  intros before spin Ho H. assert (A := H 0 "nextPacketID"%string eq_refl ltac:(cbn; tauto)).
  assert (B := H 0 "nextLocalChainID"%string eq_refl ltac:(cbn; tauto)).
  destruct (C170_words32_refuted 0 before spin eq_refl Ho) as [(C & _)|(_ & C)]; unfold getNextPacketIDAccess, getNextChainIDAccess in C; congruence.
Qed.
Print Assumptions C170_never_usable_refuted.

(** ** What holds *)
Lemma tail64 : forall name, In name atomicFields -> forall off spin, exists q, offsetFrom 8 off (sessionTail spin) name = Some (q * 8).
Proof.
  intros name H off spin. cbn [atomicFields In] in H.
  decompose [or] H; subst; try contradiction; unfold sessionTail; cbn [offsetFrom String.eqb Ascii.eqb Bool.eqb alignOf sizeOf];
    eexists; unfold roundUp at 1; reflexivity.
Qed.

(** With words of 64 bits all counters are usable. *)
Theorem C170_words64_partial : forall before spin, otherNames before -> allUsable 8 before spin.
Proof.
  intros before spin Ho base name Hb Hn. unfold atomicAccess, offsetOf, sessionFields.
  rewrite offset_app by (intros C; apply (Ho _ C); apply atomic_in_tail; exact Hn).
  destruct (tail64 name Hn (endFrom 8 0 before) spin) as (q & ->).
  rewrite N.mod_add by discriminate. rewrite Hb. reflexivity.
Qed.
Print Assumptions C170_words64_partial.

(** With words of 32 bits the counters of packets and messages share the fate of
    the packet ID. *)
Theorem C170_together_partial : forall base before spin name, base mod 8 = 0 -> otherNames before ->
  In name ["lastSendInfoSendID"; "keyExchangeCount"; "sentMessagesCount"; "receivedMessagesCount";
           "sequentialDecryptFailsCount"; "unexpectedPacketIDCount"]%string ->
  atomicAccess 4 base (sessionFields before spin) name = getNextPacketIDAccess 4 base before spin.
Proof.
  intros base before spin name Hb Ho Hn. unfold getNextPacketIDAccess, atomicAccess, offsetOf, sessionFields.
  rewrite !offset_app; [| intros C; apply (Ho _ C); cbn; tauto | intros C; apply (Ho _ C); cbn in Hn |- *; tauto].
  destruct (tail32 (endFrom 4 0 before) spin) as (q & E0 & E1 & E2 & E3 & E4 & E5 & E6 & _). rewrite E6.
  rewrite mod8 by exact Hb. replace (q * 4 + 64) with (q * 4 + 8 * 8) by lia. rewrite shift8.
  cbn [In] in Hn. decompose [or] Hn; subst; try contradiction; rewrite ?E0, ?E1, ?E2, ?E3, ?E4, ?E5; f_equal.
  - replace (q * 4) with (q * 4 + 0) at 1 by lia. rewrite mod8 by exact Hb. rewrite N.add_0_r. reflexivity.
  - rewrite mod8 by exact Hb. replace (q * 4 + 8) with (q * 4 + 1 * 8) by lia. rewrite shift8. reflexivity.
  - rewrite mod8 by exact Hb. change 16 with (2 * 8). rewrite shift8. reflexivity.
  - rewrite mod8 by exact Hb. change 24 with (3 * 8). rewrite shift8. reflexivity.
  - rewrite mod8 by exact Hb. change 32 with (4 * 8). rewrite shift8. reflexivity.
  - rewrite mod8 by exact Hb. change 40 with (5 * 8). rewrite shift8. reflexivity.
Qed.
Print Assumptions C170_together_partial.

(** The counter of a [SendInfo] and the state of a session are usable with both
    sizes of words. *)
Theorem C170_sendinfo : forall w base, w = 4 \/ w = 8 -> base mod 8 = 0 ->
  atomicAccess w base sendInfoFields "refCount" = AccessDone /\
  atomicAccess w base stateStorageFields "SessionState" = AccessDone.
Proof.
  intros w base [->| ->] Hb; unfold atomicAccess; split.
  - change (offsetOf 4 sendInfoFields "refCount") with (Some (4 * 8)). cbv beta iota. rewrite shift8, Hb. reflexivity.
  - change (offsetOf 4 stateStorageFields "SessionState") with (Some (0 * 8)). cbv beta iota. rewrite shift8, Hb. reflexivity.
  - change (offsetOf 8 sendInfoFields "refCount") with (Some (7 * 8)). cbv beta iota. rewrite shift8, Hb. reflexivity.
  - change (offsetOf 8 stateStorageFields "SessionState") with (Some (0 * 8)). cbv beta iota. rewrite shift8, Hb. reflexivity.
Qed.
Print Assumptions C170_sendinfo.

(** Two arrangements before, and a word of either size. *)
Example C170_example :
  let even := [("locker"%string, KOther 24 4); ("ctx"%string, KIface)] in
  let odd := (even ++ [("state"%string, KPtr)])%list in
  offsetOf 4 (sessionFields even KU32) "nextPacketID" = Some 96 /\ offsetOf 4 (sessionFields even KU32) "nextLocalChainID" = Some 124 /\
  getNextPacketIDAccess 4 4096 even KU32 = AccessDone /\ getNextChainIDAccess 4 4096 even KU32 = AccessPanics /\
  getNextPacketIDAccess 4 4096 odd KU32 = AccessPanics /\ getNextChainIDAccess 4 4096 odd KU32 = AccessDone /\
  map (atomicAccess 8 4096 (sessionFields odd KU32)) atomicFields = repeat AccessDone 9 /\
  atomicAccess 4 4096 (sessionFields even KU32) "isReadingValue" = AccessDone /\
  offsetOf 8 (sessionFields odd KU32) "nextLocalChainID" = Some 168 /\
  offsetOf 8 sendInfoFields "refCount" = Some 56 /\ offsetOf 4 sendInfoFields "refCount" = Some 32.
Proof. vm_compute. repeat split; reflexivity. Qed.
