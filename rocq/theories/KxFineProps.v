(** C107, C111, C115: the key exchanger with updates of the session's keys taken
    apart. *)
From Coq Require Import String NArith List Bool Lia Arith.
From Verif Require Import Base BaseLemmas TS MessageModel KxModel KxSpec KxProofs KxRunProofs KxProps KxFineModel KxFineSpec KxFineProofs KxFineSim KxKeepProps IntegProofs.
Import ListNotations.
Local Open Scope list_scope.
Local Open Scope N_scope.

Definition toyFine := fstep toyVerify toyDh toyHash toyHash (toyConf None 1).

(** The peer's first request comes before the own loop has made a key.  Both the
    goroutine that answers and the loop make one.  The loop's is the newer, and
    its secrets are handed to the session first; then come those of the other,
    which were computed before. *)
Definition lostUpdate : list flabel :=
  [FStep (KHandle (toyWire 2 (toyMsg 2 7 11 1 false))); FHandleUpd; FHandleUpd; FHandleUpd; FHandleUpd; FHandleUpd; FHandleEnd;
   FStep (KAnswer 0 100); FStep (KAnswer 0 100); FStep (KLoopGo 100); FStep KLoopCheck;
   FStep (KAnswerGen 0 (key32 4) (toyPub (key32 4)) 100); FAnswerUpd 0; FAnswerUpd 0; FAnswerUpd 0; FAnswerUpd 0;
   FStep (KLoopGen (key32 3) (toyPub (key32 3)) 101); FLoopUpd; FLoopUpd; FLoopUpd; FLoopUpd; FLoopUpd;
   FAnswerUpd 0;
   FStep KLoopSend; FStep (KAnswer 0 102); FStep (KAnswer 0 102)].

(** ** C107 (refuted): nobody is updating any more, the peer has been told the
    newest own key, twice, and the session can neither seal nor open with it. *)
Theorem C107_stale_key_refuted : exists s,
  exec toyFine (fxsInit (Some (key32 2))) lostUpdate = Some s /\ settled s /\ xPanic (fX s) = false /\
  kNextLocal (xKx (fX s)) = Some (key32 3) /\ kNextRemote (xKx (fX s)) = Some (toyPub (key32 11)) /\
  map kPub (xSent (fX s)) = [toyPub (key32 3); toyPub (key32 3)] /\
  kKeys (xKx (fX s)) = [Some (toyDh (key32 4) (toyPub (key32 11))); None; None; None] /\
  ~ In (Some (toyDh (key32 3) (toyPub (key32 11)))) (kKeys (xKx (fX s))).
Proof.
  destruct (exec toyFine (fxsInit (Some (key32 2))) lostUpdate) as [s|] eqn:E; [|vm_compute in E; discriminate].
  exists s. split; [reflexivity|]. vm_compute in E. injection E as <-. split.
  { split; [reflexivity|]. split; [reflexivity|]. intros [|i]; reflexivity. }
  repeat (split; [vm_compute; reflexivity|]). vm_compute. intros [H|[H|[H|[H|H]]]]; [discriminate..|exact H].
Qed.
Print Assumptions C107_stale_key_refuted.

(** ** C115 (refuted): this state is not one that could come about if messages
    and new keys were dealt with one at a time. *)
Theorem C115_lost_update_refuted : exists ls s,
  exec toyFine (fxsInit (Some (key32 2))) ls = Some s /\ settled s /\ xPanic (fX s) = false /\
  forall ls', exec (kstep toyVerify toyDh toyHash toyHash (toyConf None 1)) (kxsInit (Some (key32 2))) ls' <> Some (fX s).
Proof.
  destruct C107_stale_key_refuted as (s & E & St & Np & El & Er & _ & Ek & _). exists lostUpdate, s.
  split; [exact E|]. split; [exact St|]. split; [exact Np|]. intros ls' E'.
  assert (R : reachable (eq (kxsInit (Some (key32 2)))) (lstep (kstep toyVerify toyDh toyHash toyHash (toyConf None 1))) (fX s)).
  { eapply exec_reachable; [reflexivity|exact E']. }
  assert (H := newest_key_atomic toyVerify toyDh toyHash toyHash (toyConf None 1) (Some (key32 2)) (fX s) toyDh_len toyHash_len R).
  rewrite El, Er, Ek in H. destruct H as (k & H1 & H2). cbn [toyConf cPSK] in H2. cbn [nth] in H1. rewrite H2 in H1.
  vm_compute in H1. discriminate.
Qed.
Print Assumptions C115_lost_update_refuted.

(** If keys change only while nobody is updating, and the exchanger is not closed
    while it handles a message, the outcome is one of the exchanger that does
    everything at once, in a run with the same messages, the same keys and the
    same other steps. *)
Theorem C115_serial_partial : forall verify dh blake3 sha3 c remote ls s,
  exec (fstep verify dh blake3 sha3 c) (fxsInit remote) ls = Some s ->
  calmRun (fstep verify dh blake3 sha3 c) (fxsInit remote) ls -> settled s -> xPanic (fX s) = false ->
  exists ls', exec (kstep verify dh blake3 sha3 c) (kxsInit remote) ls' = Some (fX s) /\ sameSteps ls' (coarse ls).
Proof.
  intros verify dh blake3 sha3 c remote ls s E C St Np.
  exact (settled_sim verify dh blake3 sha3 c remote s ls (sim_run verify dh blake3 sha3 c remote ls s E C) St Np).
Qed.
Print Assumptions C115_serial_partial.

(** Only the answering goroutines do not hold the lock: if none of them makes a
    key, updates do not overlap. *)
Definition noAnswerGen (l : flabel) : Prop := match l with FStep (KAnswerGen _ _ _ _) => False | _ => True end.

(** The exchanger is closed, or gives up, only between two messages. *)
Fixpoint stopsBetween (step : fxs -> flabel -> option fxs) (s : fxs) (ls : list flabel) : Prop :=
  match ls with
  | [] => True
  | l :: r => (stops l -> fHandle s = None) /\ match step s l with Some s' => stopsBetween step s' r | None => True end
  end.

Section Locked.
  Variable verify : bytes -> bytes -> bytes -> bool.
  Variable dh : bytes -> bytes -> bytes.
  Variables blake3 sha3 : bytes -> bytes.
  Variable c : kxConf.
  Notation step := (kstep verify dh blake3 sha3 c).
  Notation fstep := (fstep verify dh blake3 sha3 c).

  (** One holder of the lock at most, and no answer is updating. *)
  Definition lockInv (s : fxs) : Prop :=
    (forall i, fAns s i = None) /\ (xLoop (fX s) = LpGen -> fHandle s = None /\ fLoop s = None) /\
    (fHandle s = None \/ fLoop s = None).

  Lemma quiet_loop : forall x l x', isUpd l = false -> step x l = Some x' -> xLoop x' = LpGen -> xLoop x = LpGen \/ l = KLoopCheck.
  Proof.
    intros x l x' Hl E Hg. unfold kstep in E. destruct (xPanic x); [discriminate|].
    assert (M : forall y a, xLoop (sendMsg c y a) = xLoop y) by (intros y a; unfold sendMsg; destruct (publicKeyMessage c (xKx y) a); reflexivity).
    destruct l; try discriminate; auto; left.
    - destruct (xLoop x) eqn:El; try discriminate. destruct (kCtxDone (xKx x)); [discriminate|]. destruct (_ <? _); injection E as <-; [congruence|discriminate].
    - destruct (xLoop x); try discriminate. injection E as <-. discriminate.
    - destruct (xLoop x) eqn:El; try discriminate. destruct (kNotify (xKx x)).
      + injection E as <-. destruct (_ <=? _); [discriminate|]. rewrite M in Hg. cbn in Hg. congruence.
      + injection E as <-. rewrite M in Hg. congruence.
    - destruct (xLoop x) eqn:El; try discriminate. destruct (kNotify (xKx x)); [|discriminate]. injection E as <-.
      destruct (_ <=? _); [discriminate|]. cbn in Hg. congruence.
    - destruct (xLoop x); try discriminate. injection E as <-. destruct (match kNotify (xKx x) with Some n => _ | None => _ end); discriminate.
    - destruct (nth_error (xAnswers x) i) as [[]|]; try discriminate; injection E as <-; cbn [setAnswer setX xLoop] in Hg; rewrite ?M in Hg; exact Hg.
    - injection E as <-. exact Hg.
  Qed.

  Lemma lock_quiet : forall s l s', lockInv s -> isUpd l = false -> quiet verify dh blake3 sha3 c s l = Some s' ->
    (l = KLoopCheck -> fHandle s = None /\ fLoop s = None) -> lockInv s'.
  Proof.
    intros s l s' (I1 & I2 & I3) Hl E Hc. unfold quiet in E. destruct (step (fX s) l) as [x|] eqn:Ex; [|discriminate]. injection E as <-.
    split; [exact I1|]. split; [|exact I3]. cbn [setFx fX fHandle fLoop]. intros G. destruct (quiet_loop _ _ _ Hl Ex G); auto.
  Qed.

  Lemma lock_step : forall s l s', lockInv s -> noAnswerGen l -> fstep s l = Some s' ->
    lockInv s' /\ (starts l -> settled s).
  Proof.
    intros s l s' I Hn E. pose proof I as (I1 & I2 & I3). unfold KxFineModel.fstep in E. destruct (xPanic (fX s)); [discriminate|].
    assert (Qu : forall k, isUpd k = false -> k <> KLoopCheck -> quiet verify dh blake3 sha3 c s k = Some s' -> lockInv s').
    { intros k Hk Hc Eq. eapply lock_quiet; eauto. intros ->. contradiction. }
    destruct l as [k| | | |i].
    - destruct k; try contradiction.
      + destruct (flocked s) eqn:Lk; [discriminate|]. unfold flocked in Lk. apply orb_false_iff in Lk. destruct Lk as [Lk L3].
        apply orb_false_iff in Lk. destruct Lk as [L1 L2].
        assert (S1 : fHandle s = None) by (destruct (fHandle s); [discriminate|reflexivity]).
        assert (S2 : fLoop s = None) by (destruct (fLoop s); [discriminate|reflexivity]).
        split; [|intros _; split; [exact S1|]; split; [exact S2|exact I1]].
        destruct (beginHandle verify c (xKx (fX s)) b) as [k [h|m]]; injection E as <-.
        * split; [exact I1|]. split; [|left; exact S1]. cbn. auto.
        * split; [exact I1|]. split; [|right; exact S2]. cbn. intros G. unfold locked in L1. rewrite G in L1. discriminate.
      + destruct (isNone (fLoop s)); [|discriminate]. split; [eapply Qu; eauto; [reflexivity|discriminate]|intros []].
      + destruct (fHandle s) eqn:Eh; [discriminate|]. destruct (fLoop s) eqn:El; [discriminate|].
        split; [|intros []]. cbn [isNone andb] in E. apply (lock_quiet s KLoopCheck s' I eq_refl E). auto.
      + destruct (xLoop (fX s)) eqn:El; try discriminate. destruct (fLoop s) eqn:Ef; [discriminate|]. injection E as <-.
        destruct (I2 eq_refl) as [J1 J2]. split.
        * split; [exact I1|]. split; [|left; exact J1]. cbn. destruct (_ =? 0); discriminate.
        * intros _. split; [exact J1|]. split; [exact Ef|exact I1].
      + destruct (isNone (fLoop s)); [|discriminate]. split; [eapply Qu; eauto; [reflexivity|discriminate]|intros []].
      + destruct (isNone (fLoop s)); [|discriminate]. split; [eapply Qu; eauto; [reflexivity|discriminate]|intros []].
      + destruct (isNone (fLoop s)); [|discriminate]. split; [eapply Qu; eauto; [reflexivity|discriminate]|intros []].
      + destruct (isNone (fLoop s)); [|discriminate]. split; [eapply Qu; eauto; [reflexivity|discriminate]|intros []].
      + destruct (isNone (fAns s i)); [|discriminate]. split; [eapply Qu; eauto; [reflexivity|discriminate]|intros []].
      + split; [eapply Qu; eauto; [reflexivity|discriminate]|intros []].
    - split; [|intros []]. destruct (fHandle s) as [[m [acc|]]|] eqn:Eh; try discriminate.
      assert (Ef : fLoop s = None) by (destruct I3; [discriminate|assumption]).
      destruct (updStep dh blake3 sha3 c (xKx (fX s)) acc) as [[k a]|]; injection E as <-.
      + split; [exact I1|]. split; [|right; exact Ef]. cbn. intros G. destruct (I2 G). discriminate.
      + split; [exact I1|]. split; [|right; exact Ef]. cbn. intros G. destruct (I2 G). congruence.
    - split; [|intros []]. destruct (fHandle s) as [[m [acc|]]|] eqn:Eh; try discriminate.
      assert (Ef : fLoop s = None) by (destruct I3; [discriminate|assumption]).
      destruct (endHandle c (xKx (fX s)) m) as [k h]. injection E as <-. split; [exact I1|]. split; [|right; exact Ef].
      cbn. intros _. auto.
    - split; [|intros []]. destruct (fLoop s) as [acc|] eqn:Ef; [|discriminate].
      assert (Eh : fHandle s = None) by (destruct I3; [assumption|discriminate]).
      destruct (updStep dh blake3 sha3 c (xKx (fX s)) acc) as [[k a]|]; injection E as <-;
        (split; [exact I1|]; split; [|left; exact Eh]; cbn; intros G; destruct (I2 G); congruence).
    - rewrite I1 in E. discriminate.
  Qed.

  Lemma locked_calm : forall ls s s', lockInv s -> Forall noAnswerGen ls -> stopsBetween fstep s ls ->
    exec fstep s ls = Some s' -> calmRun fstep s ls.
  Proof.
    induction ls as [|l ls IH]; intros s s' I Hn Hs E; cbn [calmRun stopsBetween exec] in *; [exact Logic.I|].
    inversion Hn as [|? ? Hl Hn']; subst. destruct Hs as [Hs1 Hs2].
    destruct (fstep s l) as [s1|] eqn:E1; [|discriminate].
    destruct (lock_step _ _ _ I Hl E1) as [I' Hst]. split; [split; assumption|]. eapply IH; eauto.
  Qed.

  Lemma lockInv_init : forall remote, lockInv (fxsInit remote).
  Proof. intros remote. split; [reflexivity|]. split; [discriminate|left; reflexivity]. Qed.
End Locked.

(** So the lock does its work as long as the key is made by the loop only. *)
Theorem C115_serial_loop_partial : forall verify dh blake3 sha3 c remote ls s,
  exec (fstep verify dh blake3 sha3 c) (fxsInit remote) ls = Some s ->
  Forall noAnswerGen ls -> stopsBetween (fstep verify dh blake3 sha3 c) (fxsInit remote) ls ->
  settled s -> xPanic (fX s) = false ->
  exists ls', exec (kstep verify dh blake3 sha3 c) (kxsInit remote) ls' = Some (fX s) /\ sameSteps ls' (coarse ls).
Proof.
  intros verify dh blake3 sha3 c remote ls s E Hn Hs. apply C115_serial_partial; [exact E|].
  eapply locked_calm; eauto. apply lockInv_init.
Qed.
Print Assumptions C115_serial_loop_partial.

(** ** C107: what does hold. *)

(** If updates do not overlap, the key used for sealing is, whenever nobody is
    updating, the one of the newest own key and the newest key of the peer, and it
    is missing only while one of these is. *)
Theorem C107_newest_key_partial : forall verify dh blake3 sha3 c remote ls s,
  (forall x y, List.length (dh x y) = 32%nat) -> (forall x, List.length (sha3 x) = 32%nat) ->
  exec (fstep verify dh blake3 sha3 c) (fxsInit remote) ls = Some s ->
  calmRun (fstep verify dh blake3 sha3 c) (fxsInit remote) ls -> settled s -> xPanic (fX s) = false ->
  match kNextLocal (xKx (fX s)), kNextRemote (xKx (fX s)) with
  | Some l, Some r =>
      exists k, nth 0 (kKeys (xKx (fX s))) None = Some k /\
        match cPSK c with
        | None => k = dh l r
        | Some p => let t := ascii_bytes "xaionaro-go/secureio.KeyExchangercipherKey"%string in
                    xored (dh l r) (sha3 (blake3 (p ++ t) ++ t)) k
        end
  | _, _ => kKeys (xKx (fX s)) = []
  end.
Proof.
  intros verify dh blake3 sha3 c remote ls s Hl Hs E C St Np.
  destruct (C115_serial_partial verify dh blake3 sha3 c remote ls s E C St Np) as (ls' & E' & _).
  apply (newest_key_atomic verify dh blake3 sha3 c remote (fX s) Hl Hs). eapply exec_reachable; [reflexivity|exact E'].
Qed.
Print Assumptions C107_newest_key_partial.

Section Keys.
  Variable verify : bytes -> bytes -> bytes -> bool.
  Variable dh : bytes -> bytes -> bytes.
  Variables blake3 sha3 : bytes -> bytes.
  Variable c : kxConf.

  Lemma begin_keys : forall k b, kKeys (fst (beginHandle verify c k b)) = kKeys k.
  Proof.
    intros k b. unfold beginHandle, parseAndCheck. destruct (_ <? _); [reflexivity|]. destruct (negb _); [reflexivity|].
    destruct (kxDecode _) as [m|]; [|reflexivity]. destruct (negb _); [reflexivity|]. destruct (bytes_eqb _ _); [reflexivity|].
    destruct (kCtxDone k); [reflexivity|]. unfold setRemoteIdentityFromPublicKey, setNextRemotePublicKey.
    destruct (kRemoteIdentity k).
    - destruct (kRemoteSession k); cbn; repeat (match goal with |- context [match ?x with _ => _ end] => destruct x end; cbn); reflexivity.
    - destruct (verify _ _ _); [|reflexivity]. cbn. destruct (kRemoteSession k); cbn; repeat (match goal with |- context [match ?x with _ => _ end] => destruct x end; cbn); reflexivity.
  Qed.

  Lemma upd_keys : forall k acc k' a, updStep dh blake3 sha3 c k acc = Ret (k', a) ->
    kKeys k' = kKeys k \/ exists h r, kKeys k' = Some h :: r.
  Proof.
    intros k acc k' a. unfold updStep. destruct (Nat.ltb _ _).
    - destruct (secretParts _ _). destruct (generateSharedKey _ _ _ _ _ _); [|discriminate]. injection 1 as <- _. auto.
    - destruct acc as [|[[|b0 bs]|] acc]; try (injection 1 as <- _; auto).
      cbn [cipherKeysOf]. destruct (gslice _ 0 32) as [k0|]; [|discriminate]. fold cipherKeysOf.
      destruct (cipherKeysOf acc) as [ks|]; [|discriminate]. injection 1 as <- _. right. exists k0, ks. reflexivity.
  Qed.

  Lemma fstep_keys : forall s l s', fstep verify dh blake3 sha3 c s l = Some s' ->
    kKeys (xKx (fX s')) = kKeys (xKx (fX s)) \/ exists h r, kKeys (xKx (fX s')) = Some h :: r.
  Proof.
    intros s l s' E. unfold KxFineModel.fstep in E. destruct (xPanic (fX s)); [discriminate|].
    assert (Qu : forall k, isUpd k = false -> quiet verify dh blake3 sha3 c s k = Some s' -> kKeys (xKx (fX s')) = kKeys (xKx (fX s))).
    { intros k Hk Eq. unfold quiet in Eq. destruct (kstep verify dh blake3 sha3 c (fX s) k) as [x|] eqn:Ex; [|discriminate]. injection Eq as <-.
      cbn [setFx fX]. destruct (quiet_sim verify dh blake3 sha3 c _ _ _ (xKx (fX s)) Hk Ex (agree_refl _)) as (-> & _). reflexivity. }
    destruct l as [k| | | |i].
    - destruct k; try (left; match type of E with (if ?b then _ else _) = _ => destruct b; [|discriminate] end; eapply Qu; [|exact E]; reflexivity).
      + left. destruct (flocked s); [discriminate|]. assert (B := begin_keys (xKx (fX s)) b).
        destruct (beginHandle verify c (xKx (fX s)) b) as [k [h|m]]; injection E as <-; exact B.
      + left. destruct (xLoop (fX s)); try discriminate. destruct (fLoop s); [discriminate|]. injection E as <-. reflexivity.
      + left. destruct (nth_error _ _) as [[]|]; try discriminate. destruct (fAns s i); [discriminate|]. injection E as <-. reflexivity.
      + left. eapply Qu; [|exact E]. reflexivity.
    - destruct (fHandle s) as [[m [acc|]]|]; try discriminate. destruct (updStep _ _ _ _ _ _) as [[k a]|] eqn:Eu; injection E as <-; [|left; reflexivity].
      exact (upd_keys _ _ _ _ Eu).
    - left. destruct (fHandle s) as [[m [acc|]]|]; try discriminate. unfold endHandle in E. injection E as <-.
      destruct (negb (kxIsAnswer (kFlags m)) && negb (cMode c =? AnswersModeDisable)); destruct (kxIsAnswer (kFlags m) || negb (cMode c =? AnswersModeAnswerAndWait));
        unfold sendSuccessNotifications; cbn; repeat (match goal with |- context [match ?x with _ => _ end] => destruct x end; cbn); reflexivity.
    - destruct (fLoop s) as [acc|]; try discriminate. destruct (updStep _ _ _ _ _ _) as [[k a]|] eqn:Eu; injection E as <-; [|left; reflexivity].
      exact (upd_keys _ _ _ _ Eu).
    - destruct (fAns s i) as [acc|]; try discriminate. destruct (updStep _ _ _ _ _ _) as [[k a]|] eqn:Eu; injection E as <-; [|left; reflexivity].
      exact (upd_keys _ _ _ _ Eu).
  Qed.
End Keys.

(** It never goes away, whatever the goroutines do. *)
Theorem C107_never_lost : forall verify dh blake3 sha3 c ls s0 s,
  exec (fstep verify dh blake3 sha3 c) s0 ls = Some s ->
  nth 0 (kKeys (xKx (fX s0))) None <> None -> nth 0 (kKeys (xKx (fX s))) None <> None.
Proof.
  intros verify dh blake3 sha3 c ls. induction ls as [|l ls IH]; intros s0 s E H; cbn [exec] in E; [injection E as <-; exact H|].
  destruct (fstep verify dh blake3 sha3 c s0 l) as [s1|] eqn:E1; [|discriminate]. apply (IH s1 s E).
  destruct (fstep_keys verify dh blake3 sha3 c _ _ _ E1) as [->|(h & r & ->)]; [exact H|discriminate].
Qed.
Print Assumptions C107_never_lost.

(** A calm run: the loop sends its key while the peer's message is being handled. *)
Definition calmExample : list flabel :=
  [FStep (KLoopGo 100); FStep KLoopCheck; FStep (KLoopGen (key32 3) (toyPub (key32 3)) 100);
   FLoopUpd; FLoopUpd; FLoopUpd; FLoopUpd; FLoopUpd;
   FStep (KHandle (toyWire 2 (toyMsg 2 7 11 1 false))); FHandleUpd; FHandleUpd; FStep KLoopSend; FHandleUpd; FHandleUpd; FHandleUpd; FHandleEnd;
   FStep (KAnswer 0 101); FStep (KAnswer 0 101)].

Example C107_example :
  match exec toyFine (fxsInit (Some (key32 2))) calmExample with
  | Some s => isNone (fHandle s) = true /\ isNone (fLoop s) = true /\ isNone (fAns s 0) = true /\
      nth 0 (kKeys (xKx (fX s))) None = Some (toyDh (key32 3) (toyPub (key32 11))) /\ List.length (xSent (fX s)) = 2%nat
  | None => False
  end.
Proof. vm_compute. auto 10. Qed.

Example C115_example : calmRun toyFine (fxsInit (Some (key32 2))) calmExample /\ Forall noAnswerGen calmExample /\
  stopsBetween toyFine (fxsInit (Some (key32 2))) calmExample.
Proof.
  split; [|split].
  - vm_compute. repeat (split; try discriminate; try contradiction; try (intros; split; [reflexivity|split; reflexivity])).
  - repeat constructor.
  - vm_compute. repeat (split; try contradiction).
Qed.

(** ** C111 (refuted): a message that is being handled when the exchanger is closed
    is handled to the end, and the exchange counts as done. *)
Definition closedMidway : list flabel :=
  [FStep (KLoopGo 100); FStep KLoopCheck; FStep (KLoopGen (key32 3) (toyPub (key32 3)) 100);
   FLoopUpd; FLoopUpd; FLoopUpd; FLoopUpd; FLoopUpd;
   FStep (KHandle (toyWire 2 (toyMsg 2 7 11 1 true))); FStep KCancel].

Theorem C111_message_in_progress_refuted : exists s s',
  exec toyFine (fxsInit (Some (key32 2))) closedMidway = Some s /\ kCtxDone (xKx (fX s)) = true /\
  kDone (xKx (fX s)) = 0 /\ kKeys (xKx (fX s)) = [] /\
  exec toyFine s [FHandleUpd; FHandleUpd; FHandleUpd; FHandleUpd; FHandleUpd; FHandleEnd] = Some s' /\
  kDone (xKx (fX s')) = 1 /\ nth 0 (kKeys (xKx (fX s'))) None = Some (toyDh (key32 3) (toyPub (key32 11))).
Proof.
  destruct (exec toyFine (fxsInit (Some (key32 2))) closedMidway) as [s|] eqn:E; [|vm_compute in E; discriminate].
  vm_compute in E. injection E as <-. eexists. eexists. split; [reflexivity|]. do 4 (split; [vm_compute; reflexivity|]).
  split; vm_compute; reflexivity.
Qed.
Print Assumptions C111_message_in_progress_refuted.

(** Messages that come later change nothing of what is known about the peer, and
    no exchange counts as done. *)
Theorem C111_closed_exchanger_partial : forall verify dh blake3 sha3 c ls s0 s,
  kCtxDone (xKx (fX s0)) = true -> fHandle s0 = None -> exec (fstep verify dh blake3 sha3 c) s0 ls = Some s ->
  kCtxDone (xKx (fX s)) = true /\ peerView (xKx (fX s)) = peerView (xKx (fX s0)).
Proof.
  intros verify dh blake3 sha3 c. induction ls as [|l ls IH]; intros s0 s Hd Hh E; cbn [exec] in E; [injection E as <-; auto|].
  destruct (fstep verify dh blake3 sha3 c s0 l) as [s1|] eqn:E1; [|discriminate].
  enough (G : kCtxDone (xKx (fX s1)) = true /\ fHandle s1 = None /\ peerView (xKx (fX s1)) = peerView (xKx (fX s0))).
  { destruct G as (G1 & G2 & G3). rewrite <- G3. apply IH; assumption. }
  clear IH E s. unfold KxFineModel.fstep in E1. destruct (xPanic (fX s0)); [discriminate|].
  assert (Qu : forall k, isUpd k = false -> quiet verify dh blake3 sha3 c s0 k = Some s1 ->
    kCtxDone (xKx (fX s1)) = true /\ fHandle s1 = None /\ peerView (xKx (fX s1)) = peerView (xKx (fX s0))).
  { intros k Hk Eq. unfold quiet in Eq. destruct (kstep verify dh blake3 sha3 c (fX s0) k) as [x|] eqn:Ex; [|discriminate]. injection Eq as <-.
    cbn [setFx fX fHandle]. destruct (quiet_sim verify dh blake3 sha3 c _ _ _ (xKx (fX s0)) Hk Ex (agree_refl _)) as (Ek & _ & Es & _).
    split; [|split; [exact Hh|rewrite Ek; reflexivity]].
    destruct (isStop k) eqn:Ek'; [|destruct (Es eq_refl) as [-> _]; exact Hd]. clear Es Ek.
    unfold kstep in Ex. destruct (xPanic (fX s0)); [discriminate|]. destruct k; try discriminate.
    - destruct (xLoop (fX s0)); try discriminate. injection Ex as <-. destruct (match kNotify _ with Some n => _ | None => _ end); [exact Hd|reflexivity].
    - injection Ex as <-. reflexivity. }
  assert (Up : forall k acc k' a, updStep dh blake3 sha3 c k acc = Ret (k', a) -> kCtxDone k' = kCtxDone k /\ peerView k' = peerView k).
  { intros k acc k' a. unfold updStep. destruct (Nat.ltb _ _).
    - destruct (secretParts _ _). destruct (generateSharedKey _ _ _ _ _ _); [|discriminate]. injection 1 as <- _. auto.
    - destruct acc as [|[[|b0 bs]|] acc]; try (injection 1 as <- _; auto). destruct (cipherKeysOf _); [|discriminate]. injection 1 as <- _. auto. }
  destruct l as [k| | | |i].
  - destruct k; try (match type of E1 with (if ?b then _ else _) = _ => destruct b; [|discriminate] end; eapply Qu; [|exact E1]; reflexivity).
    + destruct (flocked s0); [discriminate|]. unfold beginHandle in E1.
      assert (P : forall k1 r, parseAndCheck verify c (xKx (fX s0)) b = (k1, r) -> kCtxDone k1 = true /\ peerView k1 = peerView (xKx (fX s0))).
      { unfold parseAndCheck. intros k1 r. destruct (_ <? _); [injection 1 as <- _; auto|]. destruct (negb _); [injection 1 as <- _; auto|].
        destruct (kxDecode _); [|injection 1 as <- _; auto]. destruct (negb _); [injection 1 as <- _; auto|].
        destruct (bytes_eqb _ _); injection 1 as <- _; auto. }
      destruct (parseAndCheck verify c (xKx (fX s0)) b) as [k1 [e|m]] eqn:Ep; destruct (P _ _ eq_refl) as [P1 P2].
      * injection E1 as <-. auto.
      * rewrite P1 in E1. injection E1 as <-. auto.
    + destruct (xLoop (fX s0)); try discriminate. destruct (fLoop s0); [discriminate|]. injection E1 as <-. auto.
    + destruct (nth_error _ _) as [[]|]; try discriminate. destruct (fAns s0 i); [discriminate|]. injection E1 as <-. auto.
    + eapply Qu; [|exact E1]. reflexivity.
  - rewrite Hh in E1. discriminate.
  - rewrite Hh in E1. discriminate.
  - destruct (fLoop s0) as [acc|]; try discriminate. destruct (updStep _ _ _ _ _ _) as [[k a]|] eqn:Eu; injection E1 as <-; [|auto].
    apply Up in Eu. destruct Eu as [U1 U2]. cbn. rewrite U1. auto.
  - destruct (fAns s0 i) as [acc|]; try discriminate. destruct (updStep _ _ _ _ _ _) as [[k a]|] eqn:Eu; injection E1 as <-; [|auto].
    apply Up in Eu. destruct Eu as [U1 U2]. cbn. rewrite U1. auto.
Qed.
Print Assumptions C111_closed_exchanger_partial.

(** A valid request after the end: refused; before it: accepted. *)
Example C111_example :
  match exec toyFine (fxsInit (Some (key32 2))) [FStep KCancel; FStep (KHandle (toyWire 2 (toyMsg 2 9 11 1 false)))],
    exec toyFine (fxsInit (Some (key32 2))) [FStep (KHandle (toyWire 2 (toyMsg 2 9 11 1 false))); FStep KCancel] with
  | Some x, Some y => kNextRemote (xKx (fX x)) = None /\ kNextRemote (xKx (fX y)) = Some (toyPub (key32 11))
  | _, _ => False
  end.
Proof. vm_compute. auto. Qed.
