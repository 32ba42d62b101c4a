(** Identities and their key files: C62, C63, C64.

    The full C63 is refuted: a process that dies while the private key file is
    written leaves a directory on which NewIdentity panics for ever. *)
From Coq Require Import Ascii String NArith Arith List Bool Lia.
From Verif Require Import Base BaseLemmas IdentityModel IdentityProofs.
Import ListNotations.
Local Open Scope list_scope.
Local Open Scope N_scope.

(** What GenerateKey returns: 64 bytes. *)
Definition goodKey (k : bytes) : Prop := bytes_ok k /\ len k = 64.

Local Opaque pemEncode.

Lemma priv_oneLine : oneLine privType.
Proof. unfold oneLine, privType, txt. cbn. repeat constructor; discriminate. Qed.
Lemma pub_oneLine : oneLine pubType.
Proof. unfold oneLine, pubType, txt. cbn. repeat constructor; discriminate. Qed.
Lemma good_nonempty : forall k, goodKey k -> k <> [].
Proof. intros k [_ H] ->. discriminate. Qed.
Lemma half_ok : forall k, goodKey k -> bytes_ok (publicHalf k) /\ len (publicHalf k) = 32 /\ publicHalf k <> [].
Proof.
  intros k [H1 H2]. unfold publicHalf.
  assert (L : len (firstn 32 (skipn 32 k)) = 32).
  { unfold len in *. rewrite firstn_length, skipn_length. lia. }
  split; [|split; [exact L|intro E; rewrite E in L; discriminate]].
  unfold bytes_ok in *. rewrite Forall_forall in *. intros x Hx. apply H1.
  rewrite <- (firstn_skipn 32 k). apply in_or_app. right.
  rewrite <- (firstn_skipn 32 (skipn 32 k)). apply in_or_app. left. exact Hx.
Qed.

Lemma over_all : forall old new, exists tail, overwrite old new (length new) = new ++ tail.
Proof. intros. unfold overwrite. rewrite firstn_all. eauto. Qed.
Lemma over_none : forall new n, overwrite None new n = firstn n new.
Proof. intros. unfold overwrite. rewrite skipn_nil. apply app_nil_r. Qed.

(** Decoded keys consist of bytes. *)
Lemma b64val_lt : forall c v, b64val c = Some v -> v < 64.
Proof.
  intros c v H. unfold b64val in H.
  destruct ((65 <=? c) && (c <=? 90)) eqn:E1; [apply andb_prop in E1 as [A B]; apply N.leb_le in A, B; injection H as <-; lia|].
  destruct ((97 <=? c) && (c <=? 122)) eqn:E2; [apply andb_prop in E2 as [A B]; apply N.leb_le in A, B; injection H as <-; lia|].
  destruct ((48 <=? c) && (c <=? 57)) eqn:E3; [apply andb_prop in E3 as [A B]; apply N.leb_le in A, B; injection H as <-; lia|].
  destruct (c =? 43); [injection H as <-; lia|]. destruct (c =? 47); [injection H as <-; lia|discriminate].
Qed.
Lemma dec_byte1 : forall w x, w < 64 -> x < 64 -> w * 4 + x / 16 < 256.
Proof. intros w x H1 H2. assert (x / 16 < 4) by (apply N.div_lt_upper_bound; lia). generalize dependent (x / 16). intros. lia. Qed.
Lemma dec_byte2 : forall x y, y < 64 -> x mod 16 * 16 + y / 4 < 256.
Proof.
  intros x y H. assert (y / 4 < 16) by (apply N.div_lt_upper_bound; lia). pose proof (N.mod_lt x 16 ltac:(lia)).
  generalize dependent (y / 4). generalize dependent (x mod 16). intros. lia.
Qed.
Lemma dec_byte3 : forall y z, z < 64 -> y mod 4 * 64 + z < 256.
Proof. intros y z H. pose proof (N.mod_lt y 4 ltac:(lia)). generalize dependent (y mod 4). intros. lia. Qed.
Lemma b64dec_ok : forall n cs bs, (length cs <= n)%nat -> b64dec cs = Some bs -> bytes_ok bs.
Proof.
  induction n as [|n IH]; intros cs bs Hn H.
  - destruct cs; [injection H as <-; constructor|cbn in Hn; lia].
  - destruct cs as [|w [|x [|y [|z r]]]]; try discriminate; [injection H as <-; constructor|].
    cbn [b64dec] in H. unfold bytes_ok, byte_ok in *.
    destruct (b64val w) as [w'|] eqn:Ew; [|discriminate]. destruct (b64val x) as [x'|] eqn:Ex; [|discriminate].
    apply b64val_lt in Ew, Ex. pose proof (dec_byte1 w' x' Ew Ex) as B1.
    destruct (y =? padChar).
    { destruct ((z =? padChar) && match r with [] => true | _ => false end); [|discriminate]. injection H as <-. repeat constructor. exact B1. }
    destruct (b64val y) as [y'|] eqn:Ey; [|discriminate]. apply b64val_lt in Ey. pose proof (dec_byte2 x' y' Ey) as B2.
    destruct (z =? padChar).
    { destruct r; [|discriminate]. injection H as <-. repeat constructor; assumption. }
    destruct (b64val z) as [z'|] eqn:Ez; [|discriminate]. apply b64val_lt in Ez. pose proof (dec_byte3 y' z' Ez) as B3.
    destruct (b64dec r) as [t|] eqn:Er; [|discriminate]. injection H as <-.
    constructor; [exact B1|]. constructor; [exact B2|]. constructor; [exact B3|].
    apply (IH r t); [cbn [length] in Hn; lia|exact Er].
Qed.
Lemma decode_ok : forall s b, pemDecode s = Some b -> bytes_ok b.
Proof.
  intros s b H. unfold pemDecode in H.
  destruct (stripPrefix pemBegin s) as [s1|]; [|discriminate]. destruct (cutLine s1) as [line s2].
  destruct (stripSuffix pemEol line) as [ty|]; [|discriminate]. destruct (cutAt (nl :: pemEnd) s2) as [[body s3]|]; [|discriminate].
  destruct (stripPrefix (ty ++ pemEol) s3) as [s4|]; [|discriminate].
  destruct (match fst (cutLine s4) with [] => true | _ => false end); [|discriminate].
  exact (b64dec_ok _ _ b (Nat.le_refl _) H).
Qed.
Lemma load_good : forall c k, loadKey privateKeySize (Some c) = Ret (Some k) -> goodKey k.
Proof.
  intros c k H. unfold loadKey, privateKeySize in H. destruct (pemDecode c) as [b|] eqn:E; [|discriminate].
  destruct (N.eqb_spec (len b) 64); cbn [negb] in H; [|discriminate]. injection H as <-. split; [exact (decode_ok c b E)|assumption].
Qed.

(** ** C62 *)

(** Opening the directory again and again, each time with another key that would
    be generated; the results, and the directory in the end. *)
Fixpoint reopen (s : fs) (gens : list bytes) : list idResult * fs :=
  match gens with
  | [] => ([], s)
  | g :: r => let '(_, (s1, res)) := newIdentity noFaults g s in let '(l, s2) := reopen s1 r in (res :: l, s2)
  end.

Lemma load_saved : forall ty size key tail, oneLine ty -> bytes_ok key -> len key = size -> key <> [] ->
  loadKey size (Some (pemEncode ty key ++ tail)) = Ret (Some key).
Proof.
  intros ty size key tail Ht Hk Hl Hn. unfold loadKey. rewrite pem_roundtrip by assumption.
  rewrite Hl, N.eqb_refl. reflexivity.
Qed.

(** A directory in the state that a successful opening leaves behind. *)
Definition settled (k : keys) (s : fs) : Prop :=
  f_dir s = true /\ f_pub s <> None /\
  (exists c, f_priv s = Some c /\ loadKey privateKeySize (Some c) = Ret (Some (kPrivate k))) /\ kPublic k = publicHalf (kPrivate k).

Lemma open_settled : forall k s gen, settled k s -> newIdentity noFaults gen s = ([s], (s, IdOk k)).
Proof.
  intros k [d p q] gen (H1 & H2 & (c & H3 & H4) & H5). cbn in H1, H2, H3. subst.
  destruct q as [q|]; [|congruence]. unfold newIdentity, noFaults. cbn [f_dir f_priv f_pub]. rewrite H4. rewrite <- H5. destruct k; reflexivity.
Qed.

Lemma open_settles : forall gen s t s' k, goodKey gen -> newIdentity noFaults gen s = (t, (s', IdOk k)) -> settled k s'.
Proof.
  intros gen [d p q] t s' k Hg H. unfold newIdentity, noFaults in H. cbn [f_dir f_priv f_pub] in H.
  destruct p as [c|].
  - destruct (loadKey privateKeySize (Some c)) as [[b|]|] eqn:E; try discriminate.
    destruct q as [q|].
    + injection H as <- <- <-. repeat split; try discriminate. exists c. split; [reflexivity|exact E].
    + unfold savePub, noFaults in H. cbn [f_pub] in H. injection H as <- <- <-. repeat split; try discriminate. exists c. split; [reflexivity|exact E].
  - unfold savePriv, savePub, noFaults in H. cbn [f_priv f_pub f_dir withPriv] in H. injection H as <- <- <-. repeat split; try discriminate.
    cbn [f_priv withPub withPriv]. eexists. split; [reflexivity|].
    destruct (over_all None (pemEncode privType gen)) as [tail E]. rewrite E.
    apply load_saved; [apply priv_oneLine|apply Hg|apply Hg|apply good_nonempty; exact Hg].
Qed.

Theorem C62_stable : forall gen s t s' k gens, goodKey gen -> newIdentity noFaults gen s = (t, (s', IdOk k)) ->
  reopen s' gens = (repeat (IdOk k) (length gens), s').
Proof.
  intros gen s t s' k gens Hg H. pose proof (open_settles gen s t s' k Hg H) as S. clear H.
  induction gens as [|g gens IH]; cbn [reopen length repeat]; [reflexivity|].
  rewrite (open_settled k s' g S). rewrite IH. reflexivity.
Qed.
Print Assumptions C62_stable.

(** A new directory gets the generated key; the public key file can be read back. *)
Theorem C62_created : forall gen s, goodKey gen -> f_priv s = None ->
  exists t s', newIdentity noFaults gen s = (t, (s', IdOk {| kPublic := publicHalf gen; kPrivate := gen |})) /\
    newRemoteIdentity (f_pub s') = IdOk {| kPublic := publicHalf gen; kPrivate := [] |}.
Proof.
  intros gen [d p q] Hg Hp. cbn in Hp. subst p. eexists _, _.
  unfold newIdentity, noFaults, savePriv, savePub. cbn [f_priv f_pub f_dir withPriv].
  split; [reflexivity|]. cbn [f_pub withPub].
  destruct (over_all q (pemEncode pubType (publicHalf gen))) as [tail E]. rewrite E. unfold newRemoteIdentity.
  destruct (half_ok gen Hg) as (A & B & C). rewrite load_saved; [reflexivity|apply pub_oneLine|exact A|exact B|exact C].
Qed.
Print Assumptions C62_created.

(** A missing public key file is restored from the private one. *)
Theorem C62_public_restored : forall gen s c priv, f_priv s = Some c -> f_pub s = None ->
  loadKey privateKeySize (Some c) = Ret (Some priv) ->
  exists t s', newIdentity noFaults gen s = (t, (s', IdOk {| kPublic := publicHalf priv; kPrivate := priv |})) /\
    f_priv s' = Some c /\ newRemoteIdentity (f_pub s') = IdOk {| kPublic := publicHalf priv; kPrivate := [] |}.
Proof.
  intros gen [d p q] c priv Hp Hq HL. cbn in Hp, Hq. subst. eexists _, _.
  unfold newIdentity, noFaults, savePub. cbn [f_priv f_pub f_dir]. rewrite HL. split; [reflexivity|].
  cbn [f_priv f_pub withPub]. split; [reflexivity|].
  destruct (over_all None (pemEncode pubType (publicHalf priv))) as [tail E]. rewrite E. unfold newRemoteIdentity.
  destruct (half_ok priv (load_good c priv HL)) as (A & B & C).
  rewrite load_saved; [reflexivity|apply pub_oneLine|exact A|exact B|exact C].
Qed.
Print Assumptions C62_public_restored.

(** Whatever fails, an existing private key file is never touched. *)
Theorem C62_private_file_kept : forall flt gen s c, f_priv s = Some c ->
  let '(t, (s', _)) := newIdentity flt gen s in Forall (fun x => f_priv x = Some c) (s' :: t).
Proof.
  intros flt gen [d p q] c Hp. cbn in Hp. subst p.
  assert (P : forall s0 pub, f_priv s0 = Some c -> let '(t, (s', _)) := savePub flt s0 pub in Forall (fun x => f_priv x = Some c) (s' :: t)).
  { intros s0 pub H0. unfold savePub. destruct (flt OOpenPub); [repeat constructor; exact H0|].
    assert (M : forall l, Forall (fun x => f_priv x = Some c) (map (withPub s0) l)).
    { intro l. apply Forall_forall. intros x Hx. apply in_map_iff in Hx as (y & <- & _). exact H0. }
    destruct (flt OWritePub); (constructor; [exact H0|apply M]). }
  unfold newIdentity. destruct (flt OMkdir); [repeat constructor|]. cbn [f_priv f_pub f_dir].
  destruct (loadKey privateKeySize match flt OReadPriv with Some _ => None | None => Some c end) as [[b|]|]; try (repeat constructor; fail).
  destruct (match q with Some _ => false | None => match flt OStatPub with Some _ => false | None => true end end) eqn:E;
    try rewrite E; [|repeat constructor].
  specialize (P {| f_dir := true; f_priv := Some c; f_pub := q |} (publicHalf b) eq_refl).
  destruct (savePub flt _ (publicHalf b)) as [t [s1 ok]]. inversion P; subst. constructor; [assumption|]. constructor; [reflexivity|assumption].
Qed.
Print Assumptions C62_private_file_kept.

Definition key1 : bytes := map N.of_nat (seq 1 64).
Definition key2 : bytes := map N.of_nat (seq 101 64).
Definition emptyDir : fs := {| f_dir := false; f_priv := None; f_pub := None |}.
(** Whatever fails on the way: if an identity is returned, its private key is in
    the file and will be loaded again, and unless asking for it failed there is a public
    file. *)
Theorem C62_success_saved : forall flt gen s t s' k, goodKey gen -> newIdentity flt gen s = (t, (s', IdOk k)) ->
  (exists c, f_priv s' = Some c /\ loadKey privateKeySize (Some c) = Ret (Some (kPrivate k))) /\
  kPublic k = publicHalf (kPrivate k) /\ (flt OStatPub = None -> f_pub s' <> None).
Proof.
  intros flt gen [d p q] t s' k Hg H. unfold newIdentity in H. cbn [f_dir f_priv f_pub] in H.
  destruct (flt OMkdir); [discriminate|].
  assert (Loaded : forall c b, p = Some c -> loadKey privateKeySize (Some c) = Ret (Some b) ->
    (if match q, flt OStatPub with None, None => true | _, _ => false end
     then let '(t, (s1, ok)) := savePub flt {| f_dir := true; f_priv := p; f_pub := q |} (publicHalf b) in
       ({| f_dir := true; f_priv := p; f_pub := q |} :: t, (s1, if ok then IdOk {| kPublic := publicHalf b; kPrivate := b |} else IdErr))
     else ([{| f_dir := true; f_priv := p; f_pub := q |}],
           ({| f_dir := true; f_priv := p; f_pub := q |}, IdOk {| kPublic := publicHalf b; kPrivate := b |}))) = (t, (s', IdOk k)) ->
    (exists c, f_priv s' = Some c /\ loadKey privateKeySize (Some c) = Ret (Some (kPrivate k))) /\
    kPublic k = publicHalf (kPrivate k) /\ (flt OStatPub = None -> f_pub s' <> None)).
  { intros c b -> E H'. unfold savePub in H'. destruct q as [q|].
    - injection H' as <- <- <-. split; [exists c; auto|]. split; [reflexivity|]. intros _. discriminate.
    - destruct (flt OStatPub) eqn:Es.
      + injection H' as <- <- <-. split; [exists c; auto|]. split; [reflexivity|]. discriminate.
      + destruct (flt OOpenPub); [discriminate|]. destruct (flt OWritePub); [discriminate|]. injection H' as <- <- <-.
        split; [exists c; auto|]. split; [reflexivity|]. intros _. discriminate. }
  destruct p as [c|].
  - destruct (flt OReadPriv); [discriminate|].
    destruct (loadKey privateKeySize (Some c)) as [[b|]|] eqn:E; try discriminate. exact (Loaded c b eq_refl E H).
  - destruct (flt OStatPriv) eqn:Es; [destruct (flt OReadPriv); discriminate|].
    unfold savePriv, savePub in H. destruct (flt OOpenPriv); [discriminate|]. destruct (flt OWritePriv); [discriminate|].
    destruct (flt OOpenPub); [discriminate|]. destruct (flt OWritePub); [discriminate|]. injection H as <- <- <-.
    split; [|split; [reflexivity|intros _; discriminate]]. eexists. split; [reflexivity|].
    destruct (over_all None (pemEncode privType gen)) as [tail E]. cbn [f_priv withPriv]. rewrite E.
    apply load_saved; [apply priv_oneLine|apply Hg|apply Hg|apply good_nonempty; exact Hg].
Qed.
Print Assumptions C62_success_saved.

(** A public file that cannot be written is an error, and the private one stays. *)
Example C62_fault_example :
  let r := newIdentity (fun o => match o with OOpenPub => Some 0%nat | _ => None end) key1 emptyDir in
  snd (snd r) = IdErr /\ f_priv (fst (snd r)) = Some (pemEncode privType key1) /\ f_pub (fst (snd r)) = None.
Proof. vm_compute. repeat split. Qed.

Example C62_example :
  fst (reopen emptyDir [key1; key2; key2]) =
    [IdOk {| kPublic := skipn 32 key1; kPrivate := key1 |}; IdOk {| kPublic := skipn 32 key1; kPrivate := key1 |};
     IdOk {| kPublic := skipn 32 key1; kPrivate := key1 |}] /\
  f_pub (snd (reopen emptyDir [key1])) =
    Some (txt "-----BEGIN ED25519 PUBLIC KEY-----" ++ [10] ++ txt "ISIjJCUmJygpKissLS4vMDEyMzQ1Njc4OTo7PD0+P0A=" ++ [10] ++
          txt "-----END ED25519 PUBLIC KEY-----" ++ [10]).
Proof. vm_compute. auto. Qed.

(** ** C63 *)

(** The process dies after [n] bytes of the private key file (any [n] that misses
    more than the last line break): every later NewIdentity panics, and nothing
    ever repairs the directory. *)
Theorem C63_dies_while_creating_refuted : forall gen n, goodKey gen -> (n < length (pemEncode privType gen) - 1)%nat ->
  let c := {| f_dir := true; f_priv := Some (firstn n (pemEncode privType gen)); f_pub := None |} in
  In c (fst (newIdentity noFaults gen emptyDir)) /\
  forall gens, reopen c gens = (repeat IdPanic (length gens), c).
Proof.
  intros gen n Hg Hn c. split.
  - unfold newIdentity, noFaults, savePriv, savePub, emptyDir. cbn [f_priv f_pub f_dir withPriv].
    cbn [fst]. right. apply in_or_app. left. apply in_map_iff. exists (firstn n (pemEncode privType gen)).
    split; [reflexivity|]. unfold writeTrace. apply in_map_iff. exists n. split; [apply over_none|]. apply in_seq. lia.
  - assert (E : forall g, newIdentity noFaults g c = ([c], (c, IdPanic))).
    { intro g. unfold newIdentity, noFaults, c. cbn [f_priv f_pub f_dir]. unfold loadKey.
      rewrite pem_cut; [reflexivity|apply priv_oneLine|apply Hg|apply good_nonempty; exact Hg|exact Hn]. }
    induction gens as [|g gens IH]; cbn [reopen length repeat]; [reflexivity|]. rewrite E, IH. reflexivity.
Qed.
Print Assumptions C63_dies_while_creating_refuted.

(** Dying while the public key file is written makes reading that file panic;
    NewIdentity never repairs it. *)
Theorem C63_public_file_panics_refuted : forall gen n, goodKey gen ->
  (n < length (pemEncode pubType (publicHalf gen)) - 1)%nat ->
  exists c, In c (fst (newIdentity noFaults gen emptyDir)) /\ newRemoteIdentity (f_pub c) = IdPanic /\
    forall gens, reopen c gens = (repeat (IdOk {| kPublic := publicHalf gen; kPrivate := gen |}) (length gens), c).
Proof.
  intros gen n Hg Hn.
  exists {| f_dir := true; f_priv := Some (pemEncode privType gen); f_pub := Some (firstn n (pemEncode pubType (publicHalf gen))) |}.
  destruct (half_ok gen Hg) as (A & B & C). split; [|split].
  - unfold newIdentity, noFaults, savePriv, savePub, emptyDir. cbn [f_priv f_pub f_dir withPriv].
    cbn [fst]. right. apply in_or_app. right. apply in_map_iff. exists (firstn n (pemEncode pubType (publicHalf gen))).
    split.
    + unfold withPub, withPriv. cbn [f_dir f_priv]. rewrite over_none, firstn_all. reflexivity.
    + unfold writeTrace. apply in_map_iff. exists n. split; [apply over_none|]. apply in_seq. lia.
  - unfold newRemoteIdentity, loadKey. cbn [f_pub]. rewrite pem_cut; [reflexivity|apply pub_oneLine|exact A|exact C|exact Hn].
  - assert (S : settled {| kPublic := publicHalf gen; kPrivate := gen |}
      {| f_dir := true; f_priv := Some (pemEncode privType gen); f_pub := Some (firstn n (pemEncode pubType (publicHalf gen))) |}).
    { repeat split; try discriminate. cbn [f_priv kPrivate]. eexists. split; [reflexivity|].
      rewrite <- (app_nil_r (pemEncode privType gen)).
      apply load_saved; [apply priv_oneLine|apply Hg|apply Hg|apply good_nonempty; exact Hg]. }
    induction gens as [|g gens IH]; cbn [reopen length repeat]; [reflexivity|]. rewrite (open_settled _ _ g S), IH. reflexivity.
Qed.
Print Assumptions C63_public_file_panics_refuted.

(** Weaker than C63: if the private key file appears as a whole (or lacks only
    its last line break), the next NewIdentity succeeds, wherever the process
    died, and with the key that had been generated if the file was there. *)
Theorem C63_recovers_partial : forall gen gen' c, goodKey gen -> goodKey gen' ->
  In c (fst (newIdentity noFaults gen emptyDir)) ->
  (f_priv c = None \/ exists n, (length (pemEncode privType gen) - 1 <= n)%nat /\ f_priv c = Some (firstn n (pemEncode privType gen))) ->
  exists k, snd (snd (newIdentity noFaults gen' c)) = IdOk k /\
    (f_priv c = None -> kPrivate k = gen') /\ (f_priv c <> None -> kPrivate k = gen).
Proof.
  intros gen gen' [d p q] Hg Hg' _ H. cbn [f_priv] in *. destruct H as [->|(n & Hn & ->)].
  - destruct (C62_created gen' {| f_dir := d; f_priv := None; f_pub := q |} Hg' eq_refl) as (t & s' & E & _).
    rewrite E. eexists. split; [reflexivity|]. split; [reflexivity|congruence].
  - assert (L : loadKey privateKeySize (Some (firstn n (pemEncode privType gen))) = Ret (Some gen)).
    { unfold loadKey. set (e := pemEncode privType gen) in *.
      assert (D : firstn n e = firstn (length e - 1) e \/ firstn n e = e ++ []).
      { destruct (Nat.le_gt_cases (length e) n); [right; rewrite app_nil_r; apply firstn_all2; lia|].
        left. f_equal. lia. }
      destruct D as [-> | ->]; unfold e.
      - rewrite pem_cut_last; [|apply priv_oneLine|apply Hg|apply good_nonempty; exact Hg].
        unfold privateKeySize. rewrite (proj2 Hg). reflexivity.
      - rewrite pem_roundtrip; [|apply priv_oneLine|apply Hg|apply good_nonempty; exact Hg].
        unfold privateKeySize. rewrite (proj2 Hg). reflexivity. }
    unfold newIdentity, noFaults. cbn [f_priv f_pub f_dir]. rewrite L.
    destruct q as [q|]; unfold savePub; cbn [snd]; (eexists; split; [reflexivity|]; split; [discriminate|reflexivity]).
Qed.
Print Assumptions C63_recovers_partial.

Example C63_example : exists c, nth_error (fst (newIdentity noFaults key1 emptyDir)) 51 = Some c /\
  option_map (@length N) (f_priv c) = Some 50%nat /\ snd (snd (newIdentity noFaults key2 c)) = IdPanic.
Proof. eexists. split; [vm_compute; reflexivity|]. split; vm_compute; reflexivity. Qed.

(** ** C64 *)
Theorem C64_private : forall b,
  (length b = 64%nat <-> newIdentityFromPrivateKey b <> IdErr) /\ newIdentityFromPrivateKey b <> IdPanic /\
  (forall k, newIdentityFromPrivateKey b = IdOk k -> kPrivate k = b /\ exists seed, length seed = 32%nat /\ b = seed ++ kPublic k).
Proof.
  intro b. unfold newIdentityFromPrivateKey, privateKeySize.
  destruct (N.eqb_spec (len b) 64) as [e|e]; cbn [negb]; unfold len in e.
  - split; [split; [discriminate|lia]|]. split; [discriminate|]. intros k H. injection H as <-. split; [reflexivity|].
    exists (firstn 32 b). split; [rewrite firstn_length; lia|]. cbn [kPublic]. unfold publicHalf.
    rewrite (firstn_all2 (skipn 32 b)) by (rewrite skipn_length; lia). symmetry. apply firstn_skipn.
  - split; [split; [lia|congruence]|]. split; [discriminate|]. intros k H. discriminate.
Qed.
Print Assumptions C64_private.
Theorem C64_public : forall b,
  (length b = 32%nat <-> newRemoteIdentityFromPublicKey b <> IdErr) /\ newRemoteIdentityFromPublicKey b <> IdPanic /\
  (forall k, newRemoteIdentityFromPublicKey b = IdOk k -> kPublic k = b).
Proof.
  intro b. unfold newRemoteIdentityFromPublicKey, publicKeySize.
  destruct (N.eqb_spec (len b) 32) as [e|e]; cbn [negb]; unfold len in e.
  - split; [split; [discriminate|lia]|]. split; [discriminate|]. intros k H. injection H as <-. reflexivity.
  - split; [split; [lia|congruence]|]. split; [discriminate|]. intros k H. discriminate.
Qed.
Print Assumptions C64_public.
(** Keys from files: a decodable file with a key of another length is an error. *)
Theorem C64_from_files : forall size content b, pemDecode content = Some b ->
  (len b = size -> loadKey size (Some content) = Ret (Some b)) /\ (len b <> size -> loadKey size (Some content) = Ret None).
Proof.
  intros size content b H. unfold loadKey. rewrite H. destruct (N.eqb_spec (len b) size); split; intro; try congruence; reflexivity.
Qed.
Print Assumptions C64_from_files.
Example C64_example :
  newIdentityFromPrivateKey key1 = IdOk {| kPublic := map N.of_nat (seq 33 32); kPrivate := key1 |} /\
  newIdentityFromPrivateKey (skipn 1 key1) = IdErr /\ newRemoteIdentityFromPublicKey [] = IdErr /\
  loadKey publicKeySize (Some (pemEncode privType key1)) = Ret None.
Proof. vm_compute. auto. Qed.
