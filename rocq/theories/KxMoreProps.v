(** What does hold of C51, C85 and C86. *)
From Coq Require Import String NArith Arith List Bool Lia.
From Verif Require Import Base BaseLemmas TS MessageModel CodecProofs KxModel KxSpec KxProofs KxRunProofs KxProps KxKeepProps KxPairModel KxPairProps.
Import ListNotations.
Local Open Scope list_scope.
Local Open Scope N_scope.

(** ** C51 *)

(** A message announcing the peer's newest key may be repeated any number of
    times: no key changes, neither a remembered one nor a derived one.  Full
    statement (refuted): the same for every message of the past. *)
Theorem C51_duplicate_partial : forall verify dh blake3 sha3 c remote x b m k' h,
  (forall x y, List.length (dh x y) = 32%nat) -> (forall x, List.length (sha3 x) = 32%nat) ->
  reachable (eq (kxsInit remote)) (lstep (kstep verify dh blake3 sha3 c)) x ->
  kxDecode (firstn 82 (skipn 64 b)) = Some m -> kNextRemote (xKx x) = Some (kPub m) ->
  handleKx verify dh blake3 sha3 c (xKx x) b = Ret (k', h) ->
  kKeys k' = kKeys (xKx x) /\ kNextRemote k' = kNextRemote (xKx x) /\ kPrevRemote k' = kPrevRemote (xKx x) /\
  kNextLocal k' = kNextLocal (xKx x) /\ kPrevLocal k' = kPrevLocal (xKx x).
Proof.
  intros verify dh blake3 sha3 c remote x b m k' h Hl Hs R D Hn E.
  pose proof (current_run verify dh blake3 sha3 c Hl Hs remote x R) as C.
  destruct (handle_remote verify dh blake3 sha3 c Hl Hs _ _ _ _ E C) as (C' & L & P & [[Nr Pr]|(m' & D' & N' & _)]); [|congruence].
  split; [|auto].
  destruct C as [[K [H|H]]|(g0 & g1 & g2 & g3 & K & G0 & G1 & G2 & G3)], C' as [[K' H']|(f0 & f1 & f2 & f3 & K' & F0 & F1 & F2 & F3)];
    rewrite ?L, ?P, ?Nr, ?Pr in *; try congruence.
  - rewrite H in F0. discriminate.
  - destruct H' as [H'|H']; [rewrite H' in G0; discriminate|congruence].
Qed.
Print Assumptions C51_duplicate_partial.

Definition dupRun : list klabel :=
  [KLoopGo 100; KLoopCheck; KLoopGen (key32 3) (toyPub (key32 3)) 100; KLoopSend; KHandle (toyWire 2 (toyMsg 2 7 11 1 false))].
Example C51_duplicate_example :
  match exec (kstep toyVerify toyDh toyHash toyHash (toyConf None 1)) (kxsInit (Some (key32 2))) dupRun with
  | Some x =>
      nth 0 (kKeys (xKx x)) None <> None /\
      match toyHandle None 1 (xKx x) (toyWire 2 (toyMsg 2 7 11 1 true)) with
      | Ret (k', h) => kKeys k' = kKeys (xKx x) /\ h = HDone false /\ kDone k' = 1
      | Panic => False
      end
  | None => False
  end.
Proof. vm_compute. repeat split. discriminate. Qed.

(** ** C85 *)

(** If the peer's identity was given (or learnt), is not the own one, and no
    signature is valid for two identities, an own message that comes back
    changes nothing.  Full statement (refuted): the same before the peer's
    identity is known. *)
Theorem C85_known_peer_partial : forall verify dh blake3 sha3 c s r m b,
  (forall id1 id2 sig body, verify id1 sig body = true -> verify id2 sig body = true -> id1 = id2) ->
  kRemoteIdentity s = Some r -> r <> cIdentity c -> genuine verify (cIdentity c) m b ->
  exists e, handleKx verify dh blake3 sha3 c s b = Ret (s, HErr e).
Proof.
  intros verify dh blake3 sha3 c s r m b Hx Hr Hne (sig & tail & W & V). apply (C46_unsigned_ignored _ _ _ _ _ _ _ r Hr).
  intro S. destruct (signed_parts _ _ _ S) as [_ S2]. destruct (wire_parts _ _ _ _ W) as (W1 & W2 & _). rewrite W1, W2 in S2.
  apply Hne. exact (Hx _ _ _ _ S2 V).
Qed.
Print Assumptions C85_known_peer_partial.

Example C85_known_peer_example :
  let s := setLocalKeys (newKx (Some (key32 2))) None (Some (key32 4)) (Some (toyPub (key32 4))) 1 in
  toyHandle None 1 s (toyWire 1 (toyMsg 1 5 4 1 false)) = Ret (s, HErr KxWrongSignature) /\
  exists s' h, toyHandle None 1 (setRemote s None None) (toyWire 1 (toyMsg 1 5 4 1 false)) = Ret (s', HDone h).
Proof. split; [vm_compute; reflexivity|]. eexists; eexists. vm_compute. reflexivity. Qed.

(** ** C86 *)

Section Answer.
  Variable verify : bytes -> bytes -> bytes -> bool.
  Variable dh : bytes -> bytes -> bytes.
  Variables blake3 sha3 : bytes -> bytes.
  Variable sign : bytes -> bytes -> bytes.
  Hypothesis dh_len : forall x y, List.length (dh x y) = 32%nat.
  Hypothesis sha3_len : forall x, List.length (sha3 x) = 32%nat.
  Hypothesis dh_nonzero : forall x y, dh x y <> zeroKey.
  Hypothesis sign_len : forall id m, List.length (sign id m) = 64%nat.
  Hypothesis sign_ok : forall id m, verify id (sign id m) m = true.

  (** A message of the expected peer that can be taken in. *)
  Definition welcome (c : kxConf) (x : kxs) (from : bytes) (m : kxMsg) : Prop :=
    xPanic x = false /\ locked x = false /\ kCtxDone (xKx x) = false /\
    (kRemoteIdentity (xKx x) = None \/ kRemoteIdentity (xKx x) = Some from) /\
    kxMsg_ok m /\ kMode m = cMode c /\ kPub m <> zeroKey /\ kIdentity m = from.

  Lemma taken : forall c c' x m, cMode c = AnswersModeAnswerAndWait -> welcome c x (cIdentity c') m ->
    exists x', kstep verify dh blake3 sha3 c x (KHandle (signedWire sign c' m)) = Some x' /\
      kNextRemote (xKx x') = Some (kPub m) /\ xPanic x' = false /\ kNextLocalPub (xKx x') = kNextLocalPub (xKx x) /\
      kDone (xKx x') = (if kxIsAnswer (kFlags m) then kDone (xKx x) + 1 else kDone (xKx x)) /\
      xAnswers x' = (if kxIsAnswer (kFlags m) then xAnswers x else xAnswers x ++ [ApNew]) /\
      xSent x' = xSent x /\ xLoop x' = xLoop x.
  Proof.
    intros c c' x m Hmode (Hp & Hlk & Hc & Hr & Hm & Hmm & Hz & Hid).
    assert (W : wire (sign (cIdentity c') (kxEncode m)) (kxEncode m) [] (signedWire sign c' m)).
    { unfold wire, signedWire. rewrite app_nil_r. split; [reflexivity|]. split; [apply sign_len|apply kx_len; exact Hm]. }
    assert (A : acceptable verify c (xKx x) m (signedWire sign c' m)).
    { destruct (wire_parts _ _ _ _ W) as (_ & W2 & _). split; [rewrite W2; pose proof (kx_rt m [] Hm) as R; rewrite app_nil_r in R; exact R|].
      split; [exact Hmm|]. split; [exact Hz|]. split; [exact Hc|].
      assert (match kRemoteIdentity (xKx x) with Some id => id | None => kIdentity m end = cIdentity c') as -> by (destruct Hr as [-> | ->]; [exact Hid|reflexivity]).
      exists (sign (cIdentity c') (kxEncode m)), (kxEncode m), []. split; [exact W|apply sign_ok]. }
    assert (Ha := handle_accept verify dh blake3 sha3 c (xKx x) m _ A).
    assert (T : exists k h, accept dh blake3 sha3 c (xKx x) m = Ret (k, h)).
    { unfold accept. set (s1 := setRemote _ _ _).
      destruct (update_total dh blake3 sha3 dh_len sha3_len dh_nonzero c (setNextRemotePublicKey s1 (kPub m))) as [s2 ->].
      eexists _, _. reflexivity. }
    destruct T as (k & h & T).
    assert (St : kstep verify dh blake3 sha3 c x (KHandle (signedWire sign c' m)) =
                 Some (match h with HDone true => addAnswer (setX x k) | _ => setX x k end)).
    { unfold kstep. rewrite Hp, Hlk, Ha, T. reflexivity. }
    eexists. split; [exact St|].
    pose proof (accept_fields dh blake3 sha3 c (xKx x) m k h T) as (_ & _ & F3 & _ & _ & F6 & _).
    assert (Dn : kDone k = (if kxIsAnswer (kFlags m) then kDone (xKx x) + 1 else kDone (xKx x)) /\ h = HDone (negb (kxIsAnswer (kFlags m)))).
    { unfold accept in T. set (s1 := setRemote _ _ _) in T.
      destruct (updateSecrets dh blake3 sha3 c (setNextRemotePublicKey s1 (kPub m))) as [s2|] eqn:U; [|discriminate].
      pose proof (update_keys dh blake3 sha3 _ _ _ U) as Uk. injection T as <- <-. rewrite Hmode. cbn [N.eqb Pos.eqb negb orb AnswersModeAnswerAndWait AnswersModeDisable].
      change (AnswersModeAnswerAndWait =? AnswersModeAnswerAndWait) with true. change (AnswersModeAnswerAndWait =? AnswersModeDisable) with false. cbn [negb].
      rewrite orb_false_r, andb_true_r. split; [|reflexivity].
      assert (D2 : kDone s2 = kDone (xKx x)).
      { rewrite Uk. cbn [setKeys kDone]. unfold setNextRemotePublicKey. destruct (match kNextRemote s1 with Some _ => _ | None => _ end); reflexivity. }
      destruct (kxIsAnswer (kFlags m)); [cbn; rewrite D2; reflexivity|exact D2]. }
    destruct Dn as [Dn ->]. destruct (kxIsAnswer (kFlags m)); cbn [negb]; cbn; auto 10.
  Qed.

  Lemma answered : forall c x t1 t2 pub, xPanic x = false -> kNextLocalPub (xKx x) = Some pub ->
    forall pre post, xAnswers x = pre ++ ApNew :: post ->
    exists x', exec (kstep verify dh blake3 sha3 c) x [KAnswer (List.length pre) t1; KAnswer (List.length pre) t2] = Some x' /\
      xSent x' = {| kSess := cSession c; kIdentity := cIdentity c; kPub := pub; kMode := cMode c; kFlags := kxSetIsAnswer 0 true |} :: xSent x /\
      kNextRemote (xKx x') = kNextRemote (xKx x) /\ kDone (xKx x') = kDone (xKx x).
  Proof.
    intros c x t1 t2 pub Hp Hl pre post Ha.
    assert (N1 : forall p q, nth_error (pre ++ p :: q) (List.length pre) = Some (p : answerPc)).
    { intros p q. rewrite nth_error_app2 by lia. rewrite Nat.sub_diag. reflexivity. }
    assert (S1 : kstep verify dh blake3 sha3 c x (KAnswer (List.length pre) t1) = Some (setAnswer x (List.length pre) ApSend)).
    { unfold kstep. rewrite Hp, Ha, N1, Hl. reflexivity. }
    assert (A1 : xAnswers (setAnswer x (List.length pre) ApSend) = pre ++ ApSend :: post).
    { cbn [setAnswer xAnswers]. rewrite Ha. rewrite firstn_app, Nat.sub_diag, firstn_all. cbn [firstn]. rewrite app_nil_r.
      f_equal. cbn [app]. f_equal. replace (S (List.length pre)) with (List.length (pre ++ [ApNew])) by (rewrite app_length; cbn; lia).
      replace (pre ++ ApNew :: post) with ((pre ++ [ApNew]) ++ post) by (rewrite <- app_assoc; reflexivity).
      rewrite skipn_app, Nat.sub_diag, skipn_all. reflexivity. }
    set (x1 := setAnswer x (List.length pre) ApSend) in *.
    assert (S2 : kstep verify dh blake3 sha3 c x1 (KAnswer (List.length pre) t2) = Some (setAnswer (sendMsg c x1 true) (List.length pre) ApDone)).
    { unfold kstep. change (xPanic x1) with (xPanic x). rewrite Hp, A1, N1. reflexivity. }
    eexists. split; [cbn [exec]; rewrite S1; cbn [exec]; rewrite S2; reflexivity|].
    unfold sendMsg, publicKeyMessage. change (kNextLocalPub (xKx x1)) with (kNextLocalPub (xKx x)). rewrite Hl. cbn. auto.
  Qed.

  Lemma exec_B : forall ca cb ls s x, exec (kstep verify dh blake3 sha3 cb) (pB s) ls = Some x ->
    (forall l, In l ls -> isHandle l = false) ->
    exec (pstep verify dh blake3 sha3 sign ca cb) s (map PB ls) = Some {| pA := pA s; pB := x |}.
  Proof.
    intros ca cb ls. induction ls as [|l ls IH]; intros s x E H; cbn [exec map] in *.
    - injection E as <-. destruct s; reflexivity.
    - cbn [pstep]. rewrite (H l (or_introl eq_refl)). unfold stepB. destruct (kstep verify dh blake3 sha3 cb (pB s) l) as [x1|]; [|discriminate].
      apply (IH {| pA := pA s; pB := x1 |} x E). intros l' Hl. apply H. right. exact Hl.
  Qed.
End Answer.

(** If B has a key of its own when A's request arrives, one answer is enough: no
    timer, no retry and no rotation is needed for A to be done, in any state of
    the two exchangers.  Full statement (refuted): also if the request arrives
    before B's exchanger has made its first key. *)
Theorem C86_one_answer_partial : forall verify dh blake3 sha3 sign ca cb s n m pub,
  (forall x y, List.length (dh x y) = 32%nat) -> (forall x, List.length (sha3 x) = 32%nat) -> (forall x y, dh x y <> zeroKey) ->
  (forall id m, List.length (sign id m) = 64%nat) -> (forall id m, verify id (sign id m) m = true) ->
  cMode ca = AnswersModeAnswerAndWait -> cMode cb = AnswersModeAnswerAndWait ->
  nth_error (rev (xSent (pA s))) n = Some m -> kxIsAnswer (kFlags m) = false ->
  welcome cb (pB s) (cIdentity ca) m -> kNextLocalPub (xKx (pB s)) = Some pub ->
  let answer := {| kSess := cSession cb; kIdentity := cIdentity cb; kPub := pub; kMode := cMode cb; kFlags := kxSetIsAnswer 0 true |} in
  welcome ca (pA s) (cIdentity cb) answer ->
  forall t, exists s', exec (pstep verify dh blake3 sha3 sign ca cb) s
    [PToB n; PB (KAnswer (List.length (xAnswers (pB s))) t); PB (KAnswer (List.length (xAnswers (pB s))) t); PToA (List.length (xSent (pB s)))] = Some s' /\
    kDone (xKx (pA s')) = kDone (xKx (pA s)) + 1 /\
    kNextRemote (xKx (pB s')) = Some (kPub m) /\ kNextRemote (xKx (pA s')) = Some pub.
Proof.
  intros verify dh blake3 sha3 sign ca cb s n m pub Hd Hs Hz Hsl Hso Ma Mb Hn Hna Wb Hpub answer Wa t.
  destruct (taken verify dh blake3 sha3 sign Hd Hs Hz Hsl Hso cb ca (pB s) m Mb Wb) as (b1 & S1 & R1 & P1 & L1 & _ & A1 & X1 & _).
  rewrite Hna in A1. rewrite <- L1 in Hpub.
  destruct (answered verify dh blake3 sha3 cb b1 t t pub P1 Hpub (xAnswers (pB s)) [] A1) as (b2 & E2 & X2 & R2 & _).
  destruct (taken verify dh blake3 sha3 sign Hd Hs Hz Hsl Hso ca cb (pA s) answer Ma Wa) as (a1 & S3 & R3 & _ & _ & D3 & _).
  exists {| pA := a1; pB := b2 |}. split.
  - cbn [exec pstep]. rewrite Hn. unfold stepB at 1. rewrite S1.
    change (exec (pstep verify dh blake3 sha3 sign ca cb) {| pA := pA s; pB := b1 |}
      (map PB [KAnswer (List.length (xAnswers (pB s))) t; KAnswer (List.length (xAnswers (pB s))) t] ++ [PToA (List.length (xSent (pB s)))]) = Some {| pA := a1; pB := b2 |}).
    rewrite (exec_app (pstep verify dh blake3 sha3 sign ca cb) (map PB [KAnswer (List.length (xAnswers (pB s))) t; KAnswer (List.length (xAnswers (pB s))) t])
      [PToA (List.length (xSent (pB s)))] {| pA := pA s; pB := b1 |} {| pA := pA s; pB := b2 |}).
    + cbn [exec pstep pB pA]. rewrite X2, X1. cbn [rev]. rewrite nth_error_app2 by (rewrite rev_length; lia).
      rewrite rev_length, Nat.sub_diag. cbn [nth_error]. unfold stepA. cbn [pA]. fold answer. rewrite S3. reflexivity.
    + apply (exec_B verify dh blake3 sha3 sign ca cb _ {| pA := pA s; pB := b1 |}); [exact E2|]. intros l [<-|[<-|[]]]; reflexivity.
  - cbn [pA pB]. split; [rewrite D3; reflexivity|]. split; [rewrite R2; exact R1|exact R3].
Qed.
Print Assumptions C86_one_answer_partial.

(** Both start at the same time; A is done after four steps. *)
Definition bothStarted : list plabel :=
  [PA (KLoopGo 100); PA KLoopCheck; PA (KLoopGen (key32 3) (toyPub (key32 3)) 100); PA KLoopSend;
   PB (KLoopGo 100); PB KLoopCheck; PB (KLoopGen (key32 11) (toyPub (key32 11)) 100)].
Example C86_one_answer_example :
  match exec padPair toyPair0 bothStarted with
  | Some s =>
      kNextLocalPub (xKx (pB s)) = Some (toyPub (key32 11)) /\ List.length (xSent (pA s)) = 1%nat /\ kDone (xKx (pA s)) = 0 /\
      match exec padPair s [PToB 0; PB (KAnswer 0 100); PB (KAnswer 0 100); PToA 0] with
      | Some s' => kDone (xKx (pA s')) = 1
      | None => False
      end
  | None => False
  end.
Proof. vm_compute. repeat split. Qed.
