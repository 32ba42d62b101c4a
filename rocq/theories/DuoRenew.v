(** C155: two sessions can always agree on a key again: lemmas. *)
From Coq Require Import NArith Arith List Bool Lia Permutation.
From Verif Require Import Base BaseLemmas TS MessageModel CodecProofs PacketIDModel PacketIDSpec PacketIDProofs PacketIDRun ReaderModel ReaderLoopModel ReaderSpec ReaderProofs
  PacketModel PacketSpec PacketProofs PacketProps StateModel KxModel KxSpec KxProofs KxPairModel IntegModel IntegSpec IntegProofs IntegSafe IntegProps
  DuoModel DuoSpec DuoProofs DuoProps DuoOnceProps DuoAttackModel DuoAttackSpec DuoAttackProofs IntegAuth DuoRekeySpec DuoRekeyProofs DuoReach DuoReachHalf.
Import ListNotations.
Local Open Scope N_scope.

(** ** The first key is the one of the newest pairs *)

Section Fresh.
  Variable verify : bytes -> bytes -> bytes -> bool.
  Variable dh : bytes -> bytes -> bytes.
  Variable blake3 sha3 : bytes -> bytes.
  Variable stream : bytes -> bytes -> nat -> N.
  Variable poly1305 : bytes -> bytes -> bytes.
  Variable sign : bytes -> bytes -> bytes.
  Hypothesis dh_len : forall a b, length (dh a b) = 32%nat.
  Hypothesis sha3_len : forall b, length (sha3 b) = 32%nat.
  Hypothesis dh_nonzero : forall a b, dh a b <> zeroKey.
  Notation mkey := (mk dh blake3 sha3).

  Definition fresh (c : kxConf) (k : kx) : Prop :=
    forall p r, kNextLocal k = Some p -> kNextRemote k = Some r -> hd None (kKeys k) = Some (mkey (cPSK c) p r).

  Lemma fresh_update : forall c k k', updateSecrets dh blake3 sha3 c k = Ret k' -> fresh c k'.
  Proof.
    intros c k k' E p r Hp Hr. rewrite (update_spec dh blake3 sha3 dh_len sha3_len), !(gsk_any dh blake3 sha3 dh_len sha3_len dh_nonzero) in E.
    destruct (kNextLocal k) as [l|] eqn:EL; [|injection E as <-; congruence].
    destruct (kNextRemote k) as [q|] eqn:ER; [|injection E as <-; congruence].
    injection E as <-. cbn in *. congruence.
  Qed.

  Lemma fresh_handle : forall c k b k' h, fresh c k -> handleKx verify dh blake3 sha3 c k b = Ret (k', h) -> fresh c k'.
  Proof.
    intros c k b k' h H E.
    destruct (handle_cases verify dh blake3 sha3 c k b _ eq_refl) as [(e & R)|[R|[(m & e & _ & R & _)|(m & Ac & R)]]]; rewrite R in E; clear R;
      try (injection E as <- _; exact H).
    unfold accept in E. destruct (updateSecrets _ _ _ _ _) as [k2|] eqn:U; [|discriminate]. apply fresh_update in U.
    injection E as <- _. destruct (_ || _); exact U.
  Qed.

  Lemma fresh_kstep : forall c x l x', isHandle l = false -> fresh c (xKx x) -> kstep verify dh blake3 sha3 c x l = Some x' -> fresh c (xKx x').
  Proof.
    intros c x l x' Hl H E. unfold kstep in E. destruct (xPanic x); [discriminate|].
    assert (Nt : fresh c (setNotify (xKx x) None)) by exact H.
    assert (Sd : forall y b, fresh c (xKx y) -> fresh c (xKx (sendMsg c y b))) by (intros y b Hy; unfold sendMsg; destruct (publicKeyMessage _ _ _); exact Hy).
    destruct l; try discriminate.
    - destruct (xLoop x); try discriminate. destruct (kCtxDone (xKx x)); [discriminate|]. destruct (_ <? _); injection E as <-; assumption.
    - destruct (xLoop x); try discriminate. destruct (inProgress _); injection E as <-; exact H.
    - destruct (xLoop x); try discriminate. destruct (installLocalKey _ _ _ _ _ _ _ _) as [k|] eqn:I; injection E as <-; [|exact H]. exact (fresh_update _ _ _ I).
    - destruct (xLoop x); try discriminate. injection E as <-. apply Sd, H.
    - destruct (xLoop x); try discriminate. destruct (kNotify (xKx x)); injection E as <-; [destruct (_ <=? _); [exact Nt|apply Sd, Nt]|apply Sd, H].
    - destruct (xLoop x); try discriminate. destruct (kNotify (xKx x)); try discriminate. injection E as <-. destruct (_ <=? _); exact Nt.
    - destruct (xLoop x); try discriminate. injection E as <-. destruct (match kNotify _ with Some _ => _ | None => _ end); exact Nt.
    - destruct (nth_error (xAnswers x) i) as [[]|]; try discriminate; injection E as <-; try exact H. apply Sd, H.
    - destruct (nth_error (xAnswers x) i) as [[]|]; try discriminate.
      destruct (installLocalKey _ _ _ _ _ _ _ _) as [k|] eqn:I; injection E as <-; [|exact H]. exact (fresh_update _ _ _ I).
    - injection E as <-. exact H.
  Qed.

  Definition freshS (c : iconf) (s : isess) : Prop := fresh (icKx c) (xKx (iKx s)).

  Lemma fresh_istep : forall c s l s', freshS c s -> istep verify dh blake3 sha3 stream poly1305 c s l = Some s' -> freshS c s'.
  Proof.
    intros c s l s' H E. unfold istep in E. destruct (iPanic s); [discriminate|]. destruct l as [raw|k| | | |].
    - destruct (_ || _); [discriminate|]. destruct (iReceive _ _ _ _ _ _ _ _ _) as [s1|] eqn:R; injection E as <-; [|exact H].
      apply (receive_inv verify dh blake3 sha3 stream poly1305 c (freshS c)) with (s := s) (raw := raw); auto.
      intros s0 b k h H0 Eh. apply fresh_handle in Eh; [|exact H0]. split; exact Eh.
    - destruct (isHandle k) eqn:Hk; [discriminate|]. destruct (kstep _ _ _ _ _ _ _) as [x1|] eqn:K; [|discriminate].
      apply fresh_kstep in K; [|exact Hk|exact H].
      assert (X1 : freshS c (afterKx c s x1)).
      { unfold freshS. replace (iKx (afterKx c s x1)) with x1; [exact K|].
        unfold afterKx. cbv beta zeta. destruct (Nat.ltb _ _); destruct ((_ =? 0) && _); unfold reportError; cbv beta zeta; destruct (icCloseOnError c); reflexivity. }
      injection E as <-. destruct (xPanic x1); exact X1.
    - destruct (_ || _); [discriminate|]. destruct (sendPacket _ _ _ _ _ _) as [P [[raw|]|]]; try discriminate; injection E as <-; exact H.
    - destruct (iWritten s); [|discriminate]. destruct (iResult s); [discriminate|]. destruct (nth_error _ _); [|discriminate]. injection E as <-. exact H.
    - destruct (_ || _); [|discriminate]. injection E as <-. exact H.
    - destruct (iResult s); [discriminate|]. destruct (_ =? _); [|discriminate]. injection E as <-. exact H.
  Qed.

  Lemma fresh_side : forall c x net l x', freshS c (dSess x) -> sideStep verify dh blake3 sha3 stream poly1305 sign c x net l = Some x' -> freshS c (dSess x').
  Proof.
    assert (HO : forall c x s cf m w x', freshS c s -> handOver blake3 sha3 stream poly1305 c x s cf m w = Some x' -> freshS c (dSess x')).
    { intros c x s cf m w x' H E. unfold handOver in E. destruct (sendPacket _ _ _ _ _ _) as [P [[raw|]|]]; try discriminate; injection E as <-; exact H. }
    intros c x net l x' H E. destruct l as [k|n|pl| |]; cbn [sideStep] in E.
    - destruct (istep _ _ _ _ _ _ _ _ _) as [s'|] eqn:Es; [|discriminate]. apply fresh_istep in Es; [|exact H].
      destruct (_ && _); [|injection E as <-; exact Es]. destruct (xSent (iKx s')); [discriminate|]. eapply HO; eauto.
    - destruct (nth_error net n); [|discriminate]. destruct (istep _ _ _ _ _ _ _ _ _) eqn:Es; [|discriminate]. injection E as <-. exact (fresh_istep _ _ _ _ H Es).
    - destruct (_ || _); [discriminate|]. eapply HO; [|eauto]. exact H.
    - destruct (iPanic (dSess x)); [discriminate|]. injection E as <-. exact H.
    - destruct (istep _ _ _ _ _ _ _ _ _) eqn:Es; [|discriminate]. injection E as <-. exact (fresh_istep _ _ _ _ H Es).
  Qed.
End Fresh.

(** ** Ambiguous traffic can be recognised *)

Section Dec.
  Variable blake3 : bytes -> bytes.
  Variable stream : bytes -> bytes -> nat -> N.
  Variable poly1305 : bytes -> bytes -> bytes.

  Lemma sealing_eq_dec : forall a b : option bytes * bytes, {a = b} + {a <> b}.
  Proof. intros [a1 a2] [b1 b2]. destruct (option_eq_dec a1 b1), (list_eq_dec N.eq_dec a2 b2); [left; congruence|right; congruence..]. Qed.

  Lemma unambiguous_dec : forall aux K ia ib (S : list (option bytes * bytes)) net, (forall c, sealing aux K ia ib c <-> In c S) ->
    unambiguous blake3 stream poly1305 aux K ia ib net \/ ~ unambiguous blake3 stream poly1305 aux K ia ib net.
  Proof.
    intros aux K ia ib S net HS. unfold unambiguous.
    assert (D1 : Forall bytes_ok net \/ ~ Forall bytes_ok net).
    { destruct (Forall_dec bytes_ok) with (l := net); auto. intros raw. apply Forall_dec. intros b. unfold byte_ok.
      destruct (b <? 256) eqn:E; [left; apply N.ltb_lt; exact E|right; apply N.ltb_ge in E; lia]. }
    set (one := fun pid body => forall c1 c2, sealing aux K ia ib c1 -> sealing aux K ia ib c2 ->
      firstTagFits stream blake3 poly1305 (fst c1) (snd c1 ++ pid) pid body -> firstTagFits stream blake3 poly1305 (fst c2) (snd c2 ++ pid) pid body -> c1 = c2).
    assert (D0 : forall pid body, one pid body \/ ~ one pid body).
    { intros pid body.
      set (ok := fun cc : (option bytes * bytes) * (option bytes * bytes) =>
        firstTagFits stream blake3 poly1305 (fst (fst cc)) (snd (fst cc) ++ pid) pid body ->
        firstTagFits stream blake3 poly1305 (fst (snd cc)) (snd (snd cc) ++ pid) pid body -> fst cc = snd cc).
      assert (Dk : forall cc, {ok cc} + {~ ok cc}).
      { intros [a b]. unfold ok. cbn [fst snd].
        destruct (fits_dec blake3 stream poly1305 (fst a) (snd a ++ pid) pid body); [|left; tauto].
        destruct (fits_dec blake3 stream poly1305 (fst b) (snd b ++ pid) pid body); [|left; tauto].
        destruct (sealing_eq_dec a b); [left; auto|right; auto]. }
      destruct (Forall_dec ok Dk (list_prod S S)) as [F|F].
      - left. intros c1 c2 H1 H2. rewrite Forall_forall in F. apply (F (c1, c2)). apply in_prod; apply HS; assumption.
      - right. intros H. apply F. apply Forall_forall. intros [a b] Hab. apply in_prod_iff in Hab. destruct Hab as [Ia' Ib']. exact (H a b (proj2 (HS a) Ia') (proj2 (HS b) Ib')). }
    assert (D2 : forall raw, (forall pid body, length pid = 8%nat -> raw = idOnWire stream aux pid ++ body -> one pid body) \/
        ~ (forall pid body, length pid = 8%nat -> raw = idOnWire stream aux pid ++ body -> one pid body)).
    { intros raw. set (pid0 := idOnWire stream aux (firstn 8 raw)). set (body0 := skipn 8 raw).
      assert (U : forall pid body, length pid = 8%nat -> raw = idOnWire stream aux pid ++ body -> pid = pid0 /\ body = body0).
      { intros pid body L ->. unfold pid0, body0. assert (L8 : length (idOnWire stream aux pid) = 8%nat) by (rewrite idOnWire_length; exact L).
        rewrite firstn_app_l, skipn_app_l by (symmetry; exact L8). rewrite idOnWire_invol. auto. }
      destruct (le_lt_dec 8 (length raw)) as [L|L].
      2: { left. intros pid body Lp ->. rewrite app_length, idOnWire_length in L. lia. }
      assert (L0 : length pid0 = 8%nat) by (unfold pid0; rewrite idOnWire_length, firstn_length; lia).
      assert (E0 : raw = idOnWire stream aux pid0 ++ body0) by (unfold pid0, body0; rewrite idOnWire_invol, firstn_skipn; reflexivity).
      destruct (D0 pid0 body0) as [F|F].
      - left. intros pid body Lp E. destruct (U pid body Lp E) as [-> ->]. exact F.
      - right. intros H. apply F, (H pid0 body0 L0 E0). }
    assert (D3 : (forall pid body, length pid = 8%nat -> In (idOnWire stream aux pid ++ body) net -> one pid body) \/
        ~ (forall pid body, length pid = 8%nat -> In (idOnWire stream aux pid ++ body) net -> one pid body)).
    { clear D1. induction net as [|raw net IH]; [left; intros pid body _ []|].
      destruct IH as [IH|IH]; [|right; intros H; apply IH; intros; apply H; auto; right; assumption].
      destruct (D2 raw) as [R|R].
      - left. intros pid body L [E|Hi]; [apply R; auto|apply IH; auto].
      - right. intros H. apply R. intros pid body L E. apply H; auto. left. auto. }
    unfold one in D3. destruct D1 as [A|A]; [|right; tauto]. destruct D3 as [B|B]; [left; split; [exact A|]; intros pid body c1 c2 L Hi; apply B; auto|right].
    intros [_ H]. apply B. intros pid body L Hi c1 c2. apply H; auto.
  Qed.
End Dec.

(** ** The steps *)

Section Renew.
  Variable verify : bytes -> bytes -> bytes -> bool.
  Variable dh : bytes -> bytes -> bytes.
  Variable blake3 sha3 : bytes -> bytes.
  Variable stream : bytes -> bytes -> nat -> N.
  Variable poly1305 : bytes -> bytes -> bytes.
  Variable sign : bytes -> bytes -> bytes.
  Variable pubOf : bytes -> bytes.
  Hypothesis id : ideal verify dh sha3 stream poly1305 sign pubOf.
  Variable K : bytes -> Prop.
  Variables ia ib : bytes.
  Hypothesis ids_differ : ia <> ib.
  Hypothesis len_a : length ia = 16%nat.
  Hypothesis len_b : length ib = 16%nat.
  Variable aux : option bytes.

  Notation sr := (SR dh blake3 sha3 stream poly1305 sign pubOf K).
  Notation fit := (fitting dh blake3 sha3 pubOf K ia ib).
  Notation clear := (unambiguous blake3 stream poly1305 aux K ia ib).
  Notation sstep := (sideStep verify dh blake3 sha3 stream poly1305 sign).
  Notation kst := (kstep verify dh blake3 sha3).
  Notation pkt := (kxPacket blake3 sha3 stream poly1305 sign pubOf).
  Notation mkey := (mk dh blake3 sha3).
  Hypothesis clear_dec : forall net, clear net \/ ~ clear net.

  (** Two sides with all that is known of them. *)
  Record pairOk (c c' : iconf) (ps qs : list bytes) : Prop := {
    po_fit : fit c c' ps qs;
    po_fit' : fit c' c qs ps;
    po_sep : separate verify sign (cIdentity (icKx c)) (cIdentity (icKx c'));
    po_sep' : separate verify sign (cIdentity (icKx c')) (cIdentity (icKx c));
    po_aux : auxKey blake3 sha3 c = aux;
    po_aux' : auxKey blake3 sha3 c' = aux
  }.

  Lemma pairOk_swap : forall c c' ps qs, pairOk c c' ps qs -> pairOk c' c qs ps.
  Proof. intros c c' ps qs []. split; assumption. Qed.

  (** The first side ([true]) or the second moves. *)
  Inductive path (c c' : iconf) (ps qs : list bytes) : side -> side -> list (bool * slabel) -> side -> side -> Prop :=
  | pt_nil : forall x y, path c c' ps qs x y [] x y
  | pt_fst : forall x y l x1 ls x' y', drawsFrom pubOf ps l -> sstep c x (dNet y) l = Some x1 -> path c c' ps qs x1 y ls x' y' ->
      path c c' ps qs x y ((true, l) :: ls) x' y'
  | pt_snd : forall x y l y1 ls x' y', drawsFrom pubOf qs l -> sstep c' y (dNet x) l = Some y1 -> path c c' ps qs x y1 ls x' y' ->
      path c c' ps qs x y ((false, l) :: ls) x' y'.

  Definition other (e : bool * slabel) : bool * slabel := (negb (fst e), snd e).

  Lemma path_swap : forall c c' ps qs x y ls x' y', path c c' ps qs x y ls x' y' -> path c' c qs ps y x (map other ls) y' x'.
  Proof. intros c c' ps qs x y ls x' y' R. induction R; cbn [map other fst snd negb]; econstructor; eauto. Qed.

  Lemma path_app : forall c c' ps qs x y ls x1 y1 ls2 x2 y2, path c c' ps qs x y ls x1 y1 -> path c c' ps qs x1 y1 ls2 x2 y2 -> path c c' ps qs x y (ls ++ ls2) x2 y2.
  Proof. intros c c' ps qs x y ls x1 y1 ls2 x2 y2 R1 R2. induction R1; cbn [app]; [exact R2|econstructor; eauto|econstructor; eauto]. Qed.

  Lemma path_net : forall c c' ps qs x y ls x' y', path c c' ps qs x y ls x' y' -> incl (dNet x) (dNet x') /\ incl (dNet y) (dNet y').
  Proof.
    intros c c' ps qs x y ls x' y' R. induction R as [|x y l x1 ls x' y' _ E _ [I1 I2]|x y l y1 ls x' y' _ E _ [I1 I2]]; [split; apply incl_refl| |].
    - split; [eapply incl_tran; [eapply side_net; eauto|exact I1]|exact I2].
    - split; [exact I1|eapply incl_tran; [eapply side_net; eauto|exact I2]].
  Qed.

  Definition good (c c' : iconf) (ps qs : list bytes) (w w' : sizeOption) (m : nat) (x y : side) : Prop :=
    exists T, both dh blake3 sha3 stream poly1305 sign pubOf K c c' ps qs w w' x y T /\ T + N.of_nat m < 2^64 /\ winLe x y /\ winLe y x /\
      freshS dh blake3 sha3 c (dSess x) /\ freshS dh blake3 sha3 c' (dSess y) /\ clear (dNet x) /\ clear (dNet y).

  Lemma both_swap : forall c c' ps qs w w' x y T, both dh blake3 sha3 stream poly1305 sign pubOf K c c' ps qs w w' x y T ->
    both dh blake3 sha3 stream poly1305 sign pubOf K c' c qs ps w' w y x T.
  Proof. intros c c' ps qs w w' x y T [[? ?] L]. split; [auto|]. intros HT. destruct (L HT). auto. Qed.

  Lemma good_swap : forall c c' ps qs w w' m x y, good c c' ps qs w w' m x y -> good c' c qs ps w' w m y x.
  Proof. intros c c' ps qs w w' m x y (T & B & HT & W1 & W2 & F1 & F2 & C1 & C2). exists T. split; [apply both_swap, B|]. auto 10. Qed.

  Lemma good_less : forall c c' ps qs w w' m m' x y, (m <= m')%nat -> good c c' ps qs w w' m' x y -> good c c' ps qs w w' m x y.
  Proof. clear len_a len_b ids_differ clear_dec id. intros c c' ps qs w w' m m' x y H (T & B & HT & R). exists T. split; [exact B|]. split; [lia|exact R]. Qed.

  Lemma good_move : forall c c' ps qs w w' m x y l x1, pairOk c c' ps qs -> good c c' ps qs w w' (S m) x y -> drawsFrom pubOf ps l ->
    sstep c x (dNet y) l = Some x1 -> clear (dNet x1) -> good c c' ps qs w w' m x1 y.
  Proof.
    intros c c' ps qs w w' m x y l x1 [F F' S S' A A'] (T & B & HT & W1 & W2 & F1 & F2 & C1 & C2) D E C3. exists (T + 1).
    assert (C1' := C1). assert (C2' := C2). rewrite <- A in C1', C2'.
    split; [apply (one_move verify dh blake3 sha3 stream poly1305 sign pubOf id K ia ib ids_differ len_a len_b c c' ps qs w w' x y (inl l) x1 T F S C1' C2' B D E)|].
    split; [lia|].
    assert (HT' : T + 1 < 2^64) by lia.
    destruct (winLe_step verify dh blake3 sha3 stream poly1305 sign pubOf id K ia ib ids_differ len_a len_b c c' ps qs w w' x y l x1 T F S C2' B HT' D E W1 W2) as [W1' W2'].
    split; [exact W1'|]. split; [exact W2'|]. split; [|auto]. destruct id as [I1 I2 I3 I4 I5 I6 I7 I8 I9].
    exact (fresh_side verify dh blake3 sha3 stream poly1305 sign I2 I3 I4 c x (dNet y) l x1 F1 E).
  Qed.

  Lemma good_path : forall c c' ps qs w w' m x y ls x' y', pairOk c c' ps qs -> path c c' ps qs x y ls x' y' ->
    good c c' ps qs w w' (length ls + m) x y -> clear (dNet x') -> clear (dNet y') -> good c c' ps qs w w' m x' y'.
  Proof.
    intros c c' ps qs w w' m x y ls x' y' O R.
    assert (Cl : forall net net', incl net net' -> clear net' -> clear net) by (intros; eapply clear_incl; eauto).
    revert R. revert x y x' y'. induction ls as [|e ls IH]; intros x y x' y' R G CX CY.
    - inversion R; subst. exact G.
    - inversion R as [|x0 y0 l x1 ls0 x0' y0' D E R1|x0 y0 l y1 ls0 x0' y0' D E R1]; subst; destruct (path_net _ _ _ _ _ _ _ _ _ R1) as [N1 N2].
      + apply (IH x1 y); auto. eapply good_move; eauto.
      + apply (IH x y1); auto. apply good_swap. eapply good_move; [apply pairOk_swap, O|apply good_swap, G|exact D|exact E|eauto].
  Qed.

  Definition reach (c c' : iconf) (ps qs : list bytes) (n : nat) (Q : side -> side -> Prop) (x y : side) : Prop :=
    exists ls x' y', (length ls <= n)%nat /\ path c c' ps qs x y ls x' y' /\ (clear (dNet x') -> clear (dNet y') -> Q x' y').

  Lemma reach_swap : forall c c' ps qs n Q x y, reach c' c qs ps n (fun y' x' => Q x' y') y x -> reach c c' ps qs n Q x y.
  Proof.
    intros c c' ps qs n Q x y (ls & y' & x' & L & R & H). exists (map other ls), x', y'. split; [rewrite map_length; exact L|].
    split; [apply path_swap, R|auto].
  Qed.

  Lemma reach_now : forall c c' ps qs n (Q : side -> side -> Prop) x y, Q x y -> reach c c' ps qs n Q x y.
  Proof. clear len_a len_b ids_differ clear_dec id. intros c c' ps qs n Q x y H. exists [], x, y. split; [cbn; lia|]. split; [constructor|auto]. Qed.

  Lemma reach_more : forall c c' ps qs n m (Q : side -> side -> Prop) x y, (n <= m)%nat -> reach c c' ps qs n Q x y -> reach c c' ps qs m Q x y.
  Proof. clear len_a len_b ids_differ clear_dec id. intros c c' ps qs n m Q x y H (ls & x' & y' & L & R). exists ls, x', y'. split; [lia|exact R]. Qed.

  Lemma reach_bind : forall c c' ps qs w w' n m (P Q : side -> side -> Prop) x y, pairOk c c' ps qs -> good c c' ps qs w w' (n + m) x y ->
    reach c c' ps qs n P x y -> (forall x' y', good c c' ps qs w w' m x' y' -> P x' y' -> reach c c' ps qs m Q x' y') -> reach c c' ps qs (n + m) Q x y.
  Proof.
    intros c c' ps qs w w' n m P Q x y O G (ls & x' & y' & L & R & HP) HQ.
    destruct (clear_dec (dNet x')) as [CX|CX]; [|exists ls, x', y'; split; [lia|split; [exact R|intros Z; contradiction]]].
    destruct (clear_dec (dNet y')) as [CY|CY]; [|exists ls, x', y'; split; [lia|split; [exact R|intros _ Z; contradiction]]].
    destruct (HQ x' y') as (ls2 & x2 & y2 & L2 & R2 & H2); [|auto|].
    - eapply good_path; [exact O|exact R| |exact CX|exact CY]. eapply good_less; [|exact G]. lia.
    - exists (ls ++ ls2), x2, y2. split; [rewrite app_length; lia|]. split; [eapply path_app; eauto|exact H2].
  Qed.

  (** One step of the first side. *)
  Lemma reach_step : forall c c' ps qs w w' n (Q : side -> side -> Prop) x y l x1, pairOk c c' ps qs -> good c c' ps qs w w' (S n) x y ->
    drawsFrom pubOf ps l -> sstep c x (dNet y) l = Some x1 -> (good c c' ps qs w w' n x1 y -> reach c c' ps qs n Q x1 y) -> reach c c' ps qs (S n) Q x y.
  Proof.
    intros c c' ps qs w w' n Q x y l x1 O G D E H. apply (reach_bind c c' ps qs w w' 1 n (fun x' y' => x' = x1 /\ y' = y) Q x y O G).
    - exists [(true, l)], x1, y. split; [cbn; lia|]. split; [|auto]. eapply pt_fst; eauto. constructor.
    - intros x' y' Gd [-> ->]. auto.
  Qed.

  (** ** One side *)

  Definition newer (x y : side) : Prop :=
    iNext (dSess x) + 1 < 2^64 /\ match iWin (dSess y) with Some st => latest st <= iNext (dSess x) /\ words_ok (table st) | None => True end.

  Lemma good_newer : forall c c' ps qs w w' m x y, good c c' ps qs w w' (S m) x y -> newer x y.
  Proof. clear len_a len_b ids_differ clear_dec id.
    intros c c' ps qs w w' m x y (T & [_ L] & HT & W1 & W2 & _). destruct L as [L1 (log & _ & _ & _ & LeT & _ & W)]; [lia|]. split; [lia|].
    destruct (iWin (dSess y)) as [st|] eqn:Ew; [|exact I]. split; [apply W2, Ew|]. destruct W as (acc & own & S & _). exact (s_ok _ _ _ S).
  Qed.

  Lemma good_sr : forall c c' ps qs w w' m x y, good c c' ps qs w w' m x y -> sr c c' ps qs x y /\ sr c' c qs ps y x.
  Proof. intros c c' ps qs w w' m x y (T & [S _] & _). exact S. Qed.

  Definition free (x : side) : Prop := iOver (dSess x) = false /\ isDoneState (stateOf (dSess x)) = false /\ locked (xOf x) = false.

  (** The newest packet of [x] is a message with the newest key of [x], and [y] has not got it. *)
  Definition sent (c : iconf) (ps : list bytes) (fl : bool) (x y : side) : Prop :=
    exists p net raw, kNextLocal (xKx (xOf x)) = Some p /\ In p ps /\ dNet x = net ++ [raw] /\ pkt c p raw (iNext (dSess x)) fl /\ iNext (dSess x) < 2^64 /\
      match iWin (dSess y) with Some st => latest st < iNext (dSess x) /\ words_ok (table st) | None => True end.

  Lemma local_pub : forall c c' ps qs x y, sr c c' ps qs x y -> forall p, kNextLocal (xKx (xOf x)) = Some p -> In p ps /\ kNextLocalPub (xKx (xOf x)) = Some (pubOf p).
  Proof. intros c c' ps qs x y ((_ & (B1 & _ & B3 & _) & _) & _) p H. unfold xOf in *. rewrite H in *. split; [exact B1|exact B3]. Qed.

  Lemma send_side : forall c c' ps qs x y net k x1 p fl, fit c c' ps qs -> sr c c' ps qs x y -> drawsFrom pubOf ps (SKx k) ->
    isHandle k = false -> kst (icKx c) (xOf x) k = Some x1 -> DuoReach.quiet x x1 -> isDoneState (stateOf (dSess x)) = false ->
    xSent x1 = msgOf pubOf (icKx c) p fl :: xSent (xOf x) ->
    exists raw, sstep c x net (SKx k) =
        Some {| dSess := upPkt (upKx (dSess x) x1) (add64 (iNext (dSess x)) 1) (iWin (dSess x)); dNet := dNet x ++ [raw]; dWrote := dWrote x ++ [] |} /\
      pkt c p raw (add64 (iNext (dSess x)) 1) fl.
  Proof.
    intros c c' ps qs x y net k x1 p fl HF SX HC Hk E Q Hd Es. assert (Hc : honestConf c) by apply HF.
    assert (Hp : iPanic (dSess x) = false) by apply SX. destruct SX as (KIx & _).
    assert (HC' : freeKx pubOf ps k) by (destruct k; exact HC). assert (id0 := id). destruct id as [I1 I2 I3 I4 I5 I6 I7 I8 I9].
    destruct (kx_ownR verify dh blake3 sha3 pubOf I2 I3 I4 (icKx c) (icKx c') ps qs _ _ _ _ KIx HC' Hk E) as [KI1 _].
    cbn [sideStep]. rewrite (quiet_istep verify dh blake3 sha3 stream poly1305 c x k x1 Hp Hk E Q). cbn [upKx iKx]. unfold xOf in Es. rewrite Es. cbn [length].
    replace (Nat.ltb _ _) with true by (symmetry; apply Nat.ltb_lt; lia).
    change (stateOf (upKx (dSess x) x1)) with (stateOf (dSess x)). rewrite Hd. cbn [negb andb].
    set (s := upKx (dSess x) x1). unfold handOver. cbn [concat]. rewrite app_nil_r. unfold sendPacket. set (P0 := peerOf blake3 sha3 c s).
    assert (PO : peer_ok P0) by (eapply (peerR verify dh blake3 sha3 stream poly1305 sign pubOf id0 c c' ps qs _ s); exact KI1).
    destruct (takePacketID P0) as [P pid] eqn:ET. unfold takePacketID in ET. injection ET as EP Epid.
    assert (PO1 : peer_ok P) by (subst P; exact PO).
    assert (Lp : length pid = 8%nat) by (subst pid; apply le_enc_length).
    set (msg := encodeMsg _ _ _).
    assert (Lm : len msg + 44 < 2^32).
    { unfold msg. destruct (kxMsgOf_ok sign pubOf I6 I8 c p fl Hc) as [Mk Lk].
      change (encodeMsg _ _ _) with (encodeMsg (wType (kxMsgOf sign pubOf c p fl)) (wFlags (kxMsgOf sign pubOf c p fl)) (wPayload (kxMsgOf sign pubOf c p fl))).
      rewrite (encodeMsg_wire _ Mk), (wire_len _ Mk), Lk. reflexivity. }
    destruct (seal_spec stream blake3 poly1305 I1 P false pid msg PO1 Lp Lm ltac:(discriminate)) as (body & Es' & _).
    rewrite Es'. eexists. split; [subst P; reflexivity|]. exists P. split; [exact PO1|]. split; [subst P; reflexivity|]. subst pid. exact Es'.
  Qed.

  Lemma just_sent : forall c ps p fl x y x1 raw, newer x y -> pkt c p raw (add64 (iNext (dSess x)) 1) fl -> kNextLocal (xKx x1) = Some p -> In p ps ->
    sent c ps fl {| dSess := upPkt (upKx (dSess x) x1) (add64 (iNext (dSess x)) 1) (iWin (dSess x)); dNet := dNet x ++ [raw]; dWrote := dWrote x ++ [] |} y.
  Proof. clear len_a len_b ids_differ clear_dec id.
    intros c ps p fl x y x1 raw [N1 N2] Pk Hl Hp. exists p, (dNet x), raw. cbn [dNet dSess upPkt iNext]. split; [exact Hl|]. split; [exact Hp|].
    split; [reflexivity|]. split; [exact Pk|].
    assert (E : add64 (iNext (dSess x)) 1 = iNext (dSess x) + 1) by (unfold add64; apply N.mod_small; lia). rewrite E. split; [lia|].
    destruct (iWin (dSess y)); [|exact I]. destruct N2. split; [lia|assumption].
  Qed.

  Lemma sent_accepted : forall c ps fl x y, sent c ps fl x y -> exists w, checkAndRemember (iWin (dSess y)) (packetIDValue (packetIDBytes (iNext (dSess x)))) = Ret (w, true).
  Proof. clear len_a len_b ids_differ clear_dec id.
    intros c ps fl x y (p & net & raw & _ & _ & _ & _ & Lt & W).
    replace (packetIDValue (packetIDBytes (iNext (dSess x)))) with (iNext (dSess x)) by (symmetry; unfold packetIDValue, packetIDBytes; apply le_dec_enc; exact Lt).
    destruct (iWin (dSess y)) as [st|]; cbn [checkAndRemember]; [|eauto]. destruct W as [W1 W2].
    destruct (push_newer st (iNext (dSess x)) W2) as (t & Ep & _); [lia|]. rewrite Ep. eauto.
  Qed.
End Renew.
