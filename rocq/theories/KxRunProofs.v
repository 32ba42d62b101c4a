(** Lemmas about the key exchanger as a machine. *)
From Coq Require Import NArith List Bool Lia.
From Verif Require Import Base BaseLemmas TS MessageModel KxModel KxSpec KxProofs.
Import ListNotations.
Local Open Scope N_scope.

(** Everything about keys is the same. *)
Definition sameKeys (k k' : kx) : Prop :=
  kNextLocal k' = kNextLocal k /\ kPrevLocal k' = kPrevLocal k /\ kNextLocalPub k' = kNextLocalPub k /\
  kLocalAt k' = kLocalAt k /\ kNextAt k' = kNextAt k /\ kNextRemote k' = kNextRemote k /\ kPrevRemote k' = kPrevRemote k /\
  kKeys k' = kKeys k /\ kRemoteIdentity k' = kRemoteIdentity k /\ kRemoteSession k' = kRemoteSession k /\ kDone k' = kDone k.
Lemma sameKeys_refl : forall k, sameKeys k k.
Proof. unfold sameKeys. auto 20. Qed.
Global Hint Resolve sameKeys_refl : core.

Definition setNth (l : list answerPc) (i : nat) (p : answerPc) : list answerPc := firstn i l ++ [p] ++ skipn (S i) l.
Lemma in_setNth : forall l i p q, In q (setNth l i p) -> q = p \/ In q l.
Proof.
  intros l i p q H. unfold setNth in H. apply in_app_or in H. destruct H as [H|[H|H]]; auto.
  - right. rewrite <- (firstn_skipn i l). apply in_or_app. auto.
  - right. rewrite <- (firstn_skipn (S i) l). apply in_or_app. auto.
Qed.

Section Run.
  Variable verify : bytes -> bytes -> bytes -> bool.
  Variable dh : bytes -> bytes -> bytes.
  Variables blake3 sha3 : bytes -> bytes.
  Variable c : kxConf.
  Notation step := (kstep verify dh blake3 sha3 c).
  Notation install := (installLocalKey dh blake3 sha3 c).
  Notation handle := (handleKx verify dh blake3 sha3 c).

  (** Where the loop and the answers can go without touching the keys. *)
  Definition quietStep (x x' : kxs) (l : klabel) : Prop :=
    sameKeys (xKx x) (xKx x') /\ xLog x' = xLog x /\
    (xSent x' = xSent x /\ xPanic x' = false \/
     (exists m a, publicKeyMessage c (xKx x) a = Ret m /\ xSent x' = m :: xSent x /\ xPanic x' = false /\
        (a = true -> In ApSend (xAnswers x)) /\ (a = false -> exists t, xLoop x = LpSend t \/ xLoop x = LpWait t)) \/
     (kNextLocalPub (xKx x) = None /\ xSent x' = xSent x /\ xPanic x' = true /\
        (In ApSend (xAnswers x) \/ exists t, xLoop x = LpSend t \/ xLoop x = LpWait t))) /\
    (xLoop x' = xLoop x \/ xLoop x' = LpIdle \/ (xLoop x = LpIdle /\ xLoop x' = LpGo) \/
     (xLoop x = LpGo /\ inProgress (xKx x) = false /\ xLoop x' = LpGen) \/
     (xLoop x = LpGo /\ inProgress (xKx x) = true /\ xLoop x' = LpSend (kNextAt (xKx x))) \/
     (exists t, xLoop x = LpSend t /\ xLoop x' = LpWait t)) /\
    (xAnswers x' = xAnswers x \/
     exists i p q, nth_error (xAnswers x) i = Some p /\ xAnswers x' = setNth (xAnswers x) i q /\
       ((p = ApNew /\ q = ApCheck /\ kNextLocalPub (xKx x) = None) \/
        (p = ApNew /\ q = ApSend /\ kNextLocalPub (xKx x) <> None) \/
        (p = ApCheck /\ q = ApSkip /\ inProgress (xKx x) = true) \/
        (p = ApSkip /\ q = ApSend) \/
        (p = ApCheck /\ q = ApGen /\ inProgress (xKx x) = false) \/
        (p = ApSend /\ q = ApDone))).

  Definition installStep (x x' : kxs) (now : N) : Prop :=
    exists priv pub k, install (xKx x) priv pub now = Ret k /\ sameKeys k (xKx x') /\
      xLog x' = kNextAt k :: xLog x /\ xSent x' = xSent x /\ xPanic x' = false /\
      ((xLoop x = LpGen /\ (xLoop x' = LpIdle \/ xLoop x' = LpSend (kNextAt k)) /\ xAnswers x' = xAnswers x) \/
       (exists i, nth_error (xAnswers x) i = Some ApGen /\ xAnswers x' = setNth (xAnswers x) i ApSkip /\ xLoop x' = xLoop x)).

  Lemma kstep_cases : forall x l x', step x l = Some x' ->
    xPanic x = false /\
    ((exists b k h, l = KHandle b /\ locked x = false /\ handle (xKx x) b = Ret (k, h) /\
        xKx x' = k /\ xLoop x' = xLoop x /\ xSent x' = xSent x /\ xLog x' = xLog x /\ xPanic x' = false /\
        xAnswers x' = match h with HDone true => xAnswers x ++ [ApNew] | _ => xAnswers x end) \/
     (exists b, l = KHandle b /\ locked x = false /\ handle (xKx x) b = Panic /\ x' = crash x) \/
     (exists now, (exists priv pub, l = KLoopGen priv pub now \/ exists i, l = KAnswerGen i priv pub now) /\ installStep x x' now) \/
     (exists priv pub now, install (xKx x) priv pub now = Panic /\ x' = crash x) \/
     quietStep x x' l).
  Proof.
    intros x l x' E. unfold kstep in E. destruct (xPanic x) eqn:Ep; [discriminate|]. split; [reflexivity|]. destruct l.
    - destruct (locked x) eqn:El; [discriminate|]. destruct (handle (xKx x) b) as [[k h]|] eqn:Eh.
      + left. exists b, k, h. injection E as <-. split; [reflexivity|]. split; [reflexivity|]. split; [exact Eh|].
        destruct h as [| |[]]; cbn; auto 10.
      + right. left. exists b. injection E as <-. auto.
    - do 4 right. destruct (xLoop x) eqn:El; try discriminate. destruct (kCtxDone (xKx x)); [discriminate|].
      destruct (_ <? _); injection E as <-; unfold quietStep; cbn; rewrite ?El; (split; [unfold sameKeys; cbn; auto 20|]); auto 10.
    - do 4 right. destruct (xLoop x) eqn:El; try discriminate. destruct (inProgress (xKx x)) eqn:Ei; injection E as <-; unfold quietStep; cbn; auto 20.
    - destruct (xLoop x) eqn:El; try discriminate. destruct (install (xKx x) priv pub now) as [k|] eqn:Ei; injection E as <-.
      + right. right. left. exists now. split; [eauto|]. exists priv, pub, k. split; [exact Ei|]. cbn.
        split; [auto|]. split; [reflexivity|]. split; [reflexivity|]. split; [exact Ep|]. left. split; [exact El|]. split; [|reflexivity].
        destruct (kNextAt k =? 0); auto.
      + right. right. right. left. exists priv, pub, now. auto.
    - do 4 right. destruct (xLoop x) eqn:El; try discriminate. injection E as <-. unfold sendMsg.
      destruct (publicKeyMessage c (xKx x) false) as [m|] eqn:Em; unfold quietStep; cbn; (split; [auto|]; split; [reflexivity|]); split.
      + right. left. exists m, false. split; [auto|]. split; [auto|]. split; [auto|]. split; [discriminate|]. intros _. exists at_. auto.
      + split; [do 5 right; exists at_; auto|auto].
      + right. right. split; [|split; [auto|]; split; [auto|]; right; exists at_; auto]. unfold publicKeyMessage in Em. destruct (kNextLocalPub (xKx x)); [discriminate|auto].
      + split; [do 5 right; exists at_; auto|auto].
    - do 4 right. destruct (xLoop x) eqn:El; try discriminate.
      assert (S : forall k, sameKeys (xKx x) k -> quietStep x (sendMsg c (setX x k) false) KLoopRetry).
      { intros k Sk. assert (Ek : publicKeyMessage c k false = publicKeyMessage c (xKx x) false).
        { unfold publicKeyMessage. destruct Sk as (_ & _ & -> & _). reflexivity. }
        unfold sendMsg. cbn [setX xKx]. rewrite Ek. destruct (publicKeyMessage c (xKx x) false) as [m|] eqn:Em; unfold quietStep; cbn; (split; [auto|]; split; [reflexivity|]); split; auto.
        - right. left. exists m, false. split; [auto|]. split; [auto|]. split; [auto|]. split; [discriminate|]. intros _. exists at_. auto.
        - right. right. split; [|split; [auto|]; split; [auto|]; right; exists at_; auto]. unfold publicKeyMessage in Em. destruct (kNextLocalPub (xKx x)); [discriminate|auto]. }
      assert (Sx : setX x (xKx x) = x) by (destruct x; reflexivity).
      destruct (kNotify (xKx x)) as [n|].
      + injection E as <-. destruct (at_ <=? n).
        * unfold quietStep; cbn. split; [unfold sameKeys; cbn; auto 20|]. auto 10.
        * apply S. unfold sameKeys; cbn; auto 20.
      + injection E as <-. rewrite <- Sx at 2. apply S. auto.
    - do 4 right. destruct (xLoop x) eqn:El; try discriminate. destruct (kNotify (xKx x)) as [n|]; [|discriminate]. injection E as <-.
      destruct (at_ <=? n); unfold quietStep; cbn; (split; [unfold sameKeys; cbn; auto 20|]); auto 10.
    - do 4 right. destruct (xLoop x) eqn:El; try discriminate. injection E as <-.
      destruct (match kNotify (xKx x) with Some n => _ | None => _ end); unfold quietStep; cbn; (split; [unfold sameKeys; cbn; auto 20|]); auto 10.
    - do 4 right. destruct (nth_error (xAnswers x) i) as [[]|] eqn:En; try discriminate; injection E as <-.
      + unfold quietStep; cbn. split; [auto|]. split; [auto|]. split; [auto|]. split; [auto|]. right. exists i, ApNew.
        destruct (kNextLocalPub (xKx x)); eexists; (split; [exact En|]); split; try reflexivity.
        * right. left. split; [auto|]. split; [auto|discriminate].
        * left. auto.
      + destruct (inProgress (xKx x)) eqn:Ei; unfold quietStep; cbn.
        * split; [unfold sameKeys; cbn; auto 20|]. split; [auto|]. split; [auto|]. split; [auto|]. right. exists i, ApCheck, ApSkip. auto 10.
        * split; [auto|]. split; [auto|]. split; [auto|]. split; [auto|]. right. exists i, ApCheck, ApGen. auto 12.
      + unfold quietStep; cbn. split; [unfold sameKeys; cbn; auto 20|]. split; [auto|]. split; [auto|]. split; [auto|]. right. exists i, ApSkip, ApSend. auto 12.
      + unfold sendMsg. assert (Hin : In ApSend (xAnswers x)) by (eapply nth_error_In; eauto).
        destruct (publicKeyMessage c (xKx x) true) as [m|] eqn:Em; unfold quietStep; cbn; (split; [auto|]; split; [reflexivity|]); split.
        * right. left. exists m, true. split; [auto|]. split; [auto|]. split; [auto|]. split; [auto|discriminate].
        * split; [auto|]. right. exists i, ApSend, ApDone. auto 12.
        * right. right. split; [|auto]. unfold publicKeyMessage in Em. destruct (kNextLocalPub (xKx x)); [discriminate|auto].
        * split; [auto|]. right. exists i, ApSend, ApDone. auto 12.
    - destruct (nth_error (xAnswers x) i) as [[]|] eqn:En; try discriminate. destruct (install (xKx x) priv pub now) as [k|] eqn:Ei; injection E as <-.
      + right. right. left. exists now. split; [eauto|]. exists priv, pub, k. split; [exact Ei|]. cbn.
        split; [unfold sameKeys; cbn; auto 20|]. split; [reflexivity|]. split; [reflexivity|]. split; [exact Ep|]. right. exists i. auto.
      + right. right. right. left. exists priv, pub, now. auto.
    - do 4 right. injection E as <-. unfold quietStep; cbn. split; [unfold sameKeys; cbn; auto 20|]. auto 10.
  Qed.

  Lemma install_fields : forall k priv pub now k', install k priv pub now = Ret k' ->
    kNextLocal k' = Some priv /\ kPrevLocal k' = kNextLocal k /\ kNextLocalPub k' = Some pub /\ kLocalAt k' = kLocalAt k /\
    kNextAt k' = (if u64 now <=? kLocalAt k then u64 (kLocalAt k + 1) else u64 now) /\
    kNextRemote k' = kNextRemote k /\ kPrevRemote k' = kPrevRemote k /\ kDone k' = kDone k /\ kRemoteIdentity k' = kRemoteIdentity k.
  Proof.
    intros k priv pub now k' E. unfold installLocalKey in E. apply update_keys in E. rewrite E. cbn. auto 20.
  Qed.

  (** What handling a message does to the keys of this side. *)
  Lemma handle_local : forall k b k' h, handle k b = Ret (k', h) ->
    kNextLocal k' = kNextLocal k /\ kPrevLocal k' = kPrevLocal k /\ kNextLocalPub k' = kNextLocalPub k /\
    kNextAt k' = kNextAt k /\ (kLocalAt k' = kLocalAt k \/ kLocalAt k' = kNextAt k).
  Proof.
    intros k b k' h E. destruct (handle_cases verify dh blake3 sha3 c k b _ E) as [[e R]|[R|[(m & e & D & R & _)|(m & A & R)]]].
    - injection R as -> _. auto 10.
    - injection R as -> _. auto 10.
    - injection R as -> _. cbn. auto 10.
    - symmetry in R. apply accept_fields in R. tauto.
  Qed.
End Run.
