(** Lemmas about sealing and opening packets. *)
From Coq Require Import NArith List Bool Lia Arith.
From Verif Require Import Base BaseLemmas MessageModel CodecProofs PacketIDModel ReaderModel ReaderLoopModel PacketModel PacketSpec.
Import ListNotations.
Local Open Scope N_scope.

Lemma skipn_skipn : forall A x y (l : list A), skipn x (skipn y l) = skipn (x + y) l.
Proof.
  intros A x y. revert x. induction y as [|y IH]; intros x l.
  - rewrite Nat.add_0_r. reflexivity.
  - rewrite Nat.add_succ_r. destruct l; [rewrite !skipn_nil; reflexivity|]. cbn [skipn]. apply IH.
Qed.

Lemma gslice_tail : forall A (a b : list A) n, n = len a -> gslice (a ++ b) n (len (a ++ b)) = Some b.
Proof.
  intros A a b n ->. unfold gslice.
  replace ((len a <=? len (a ++ b)) && (len (a ++ b) <=? len (a ++ b))) with true
    by (symmetry; apply andb_true_iff; split; apply N.leb_le; rewrite ?len_app; lia).
  unfold len. rewrite Nat2N.id, skipn_app_l by reflexivity. rewrite firstn_all2; auto. rewrite app_length. lia.
Qed.

Lemma gslice_all : forall A (a : list A) n, n = len a -> gslice a 0 n = Some a.
Proof.
  intros A a n ->. unfold gslice.
  replace ((0 <=? len a) && (len a <=? len a)) with true
    by (symmetry; apply andb_true_iff; split; apply N.leb_le; lia).
  change (N.to_nat 0) with 0%nat. cbn [skipn]. rewrite firstn_all2; auto. unfold len. lia.
Qed.

Section Proofs.
  Variable stream : bytes -> bytes -> nat -> N.
  Variable blake3 : bytes -> bytes.
  Variable poly1305 : bytes -> bytes -> bytes.
  Hypothesis prim : primitives_ok stream poly1305.

  Notation xorFrom := (xorFrom stream).
  Notation xorStream := (xorStream stream).
  Notation plainOf := (plainOf stream).
  Notation tags := (tags blake3 poly1305).
  Notation sealed := (sealed stream blake3 poly1305).
  Notation firstTagFits := (firstTagFits stream blake3 poly1305).

  Lemma xorFrom_length : forall k iv src n, length (xorFrom k iv n src) = length src.
  Proof. induction src; intros; cbn [PacketModel.xorFrom length]; auto. Qed.

  Lemma xorFrom_invol : forall k iv src n, xorFrom k iv n (xorFrom k iv n src) = src.
  Proof.
    induction src as [|b r IH]; intros; cbn [PacketModel.xorFrom]; auto.
    rewrite N.lxor_assoc, N.lxor_nilpotent, N.lxor_0_r, IH. reflexivity.
  Qed.

  Lemma xorStream_length : forall k iv src, length (xorStream k iv src) = length src.
  Proof. intros. apply xorFrom_length. Qed.

  Lemma xorStream_invol : forall k iv src, xorStream k iv (xorStream k iv src) = src.
  Proof. intros. apply xorFrom_invol. Qed.

  Lemma xorFrom_ok : forall k iv src n, bytes_ok src -> bytes_ok (xorFrom k iv n src).
  Proof.
    destruct prim as [Hs _]. induction src as [|b r IH]; intros n H; cbn [PacketModel.xorFrom]; [constructor|].
    inversion H; subst. constructor; [|apply IH; auto].
    unfold byte_ok in *. specialize (Hs k iv n).
    assert (B : forall x, x < 256 <-> x = N.land x (N.ones 8)).
    { intros x. rewrite N.land_ones. change (2^8) with 256. split; intros E; [symmetry; apply N.mod_small; auto|].
      rewrite E. apply N.mod_lt. lia. }
    rewrite B in *. rewrite Hs, H2 at 1. apply N.bits_inj. intros i.
    rewrite !N.land_spec, !N.lxor_spec, !N.land_spec. destruct (N.testbit (N.ones 8) i), (N.testbit b i), (N.testbit (stream k iv n) i); reflexivity.
  Qed.

  Lemma plainOf_length : forall k iv b, length (plainOf k iv b) = length b.
  Proof. intros [k|] iv b; cbn [PacketSpec.plainOf]; [apply xorStream_length|reflexivity]. Qed.

  Lemma plainOf_invol : forall k iv b, plainOf k iv (plainOf k iv b) = b.
  Proof. intros [k|] iv b; cbn [PacketSpec.plainOf]; [apply xorStream_invol|reflexivity]. Qed.

  Lemma plainOf_inj : forall k iv a b, plainOf k iv a = plainOf k iv b -> a = b.
  Proof. intros k iv a b H. rewrite <- (plainOf_invol k iv a), H. apply plainOf_invol. Qed.

  Lemma plainOf_ok : forall k iv b, bytes_ok b -> bytes_ok (plainOf k iv b).
  Proof. intros [k|] iv b H; cbn [PacketSpec.plainOf]; [apply xorFrom_ok|]; auto. Qed.

  (** Keys and nonces of usable sizes. *)
  Definition usable (k : option bytes) (iv : bytes) : Prop :=
    match k with Some b => length b = 32%nat /\ (length iv = 8%nat \/ length iv = 24%nat) | None => True end.

  Lemma crypt_usable : forall k iv src, usable (Some k) iv -> crypt stream k iv src = Ret (xorStream k iv src).
  Proof.
    intros k iv src [H1 H2]. unfold crypt, len. rewrite H1. destruct H2 as [-> | ->]; reflexivity.
  Qed.

  Lemma plain_usable : forall k iv b, usable k iv ->
    match k with Some key => crypt stream key iv b | None => Ret b end = Ret (plainOf k iv b).
  Proof. intros [k|] iv b H; [apply crypt_usable; auto|reflexivity]. Qed.

  (** [tryDecrypt] completely described. *)
  Lemma tryDecrypt_spec : forall pid body k iv, usable k iv -> (36 <= length body)%nat -> bytes_ok body ->
    let d := plainOf k iv body in
    let l := le_dec (firstn 4 (skipn 32 d)) in
    let m := skipn 36 d in
    (~ firstTagFits k iv pid body /\ tryDecrypt stream blake3 poly1305 pid body k iv = Ret (Ok None)) \/
    (firstTagFits k iv pid body /\ ~ sealed k iv pid body l m /\
       tryDecrypt stream blake3 poly1305 pid body k iv = Ret (Err ErrInvalidChecksum)) \/
    (firstTagFits k iv pid body /\ sealed k iv pid body l m /\
       tryDecrypt stream blake3 poly1305 pid body k iv = Ret (Ok (Some (l, m)))).
  Proof.
    intros pid body k iv Hu Hl Hb d l m.
    assert (Hd : length d = length body) by apply plainOf_length.
    assert (Hk : bytes_ok d) by (apply plainOf_ok; auto).
    unfold tryDecrypt. rewrite plain_usable by auto. fold d.
    unfold contReadAfterIV. replace (len d <? 36) with false by (symmetry; apply N.ltb_ge; unfold len; lia).
    rewrite !skipn_skipn. change (16 + 16)%nat with 32%nat. fold l.
    set (F := firstn 4 (skipn 32 d)) in *.
    assert (HF : le_enc 4 l = F).
    { unfold l. replace 4%nat with (length F) at 1.
      - apply le_enc_dec. apply Forall_firstn, Forall_skipn. exact Hk.
      - unfold F. rewrite firstn_length, skipn_length. lia. }
    unfold headersChecksum. rewrite HF.
    assert (Hfit : firstTagFits k iv pid body <-> poly1305 (calculatePoly1305Key blake3 pid k) F = firstn 16 d).
    { unfold PacketSpec.firstTagFits. fold d F. split; intros; congruence. }
    destruct (bytes_eqb (poly1305 (calculatePoly1305Key blake3 pid k) F) (firstn 16 d)) eqn:E1; cbn [negb].
    - right. apply bytes_eqb_eq in E1. assert (Hfits := proj2 Hfit E1).
      unfold gslice. change (messagesContainerHeadersSize - 8) with 36.
      replace ((36 <=? len d) && (len d <=? len d)) with true
        by (symmetry; apply andb_true_iff; split; apply N.leb_le; unfold len; lia).
      change (N.to_nat 36) with 36%nat. rewrite firstn_all2 by (rewrite skipn_length; unfold len; lia).
      fold m. unfold messagesChecksum.
      assert (Hsplit : d = firstn 16 d ++ firstn 16 (skipn 16 d) ++ F ++ m).
      { unfold F, m. replace (skipn 36 d) with (skipn 4 (skipn 32 d)) by (rewrite skipn_skipn; reflexivity).
        rewrite firstn_skipn. replace (skipn 32 d) with (skipn 16 (skipn 16 d)) by (rewrite skipn_skipn; reflexivity).
        rewrite !firstn_skipn. reflexivity. }
      assert (Hseal : sealed k iv pid body l m <-> poly1305 (calculatePoly1305Key blake3 pid k) m = firstn 16 (skipn 16 d)).
      { unfold PacketSpec.sealed, PacketSpec.tags. fold d. rewrite HF, E1. rewrite Hsplit at 1. rewrite <- app_assoc. split; intros H.
        - apply app_inv_head in H. symmetry. apply app_inv_tail in H. exact H.
        - rewrite H. reflexivity. }
      destruct (bytes_eqb (poly1305 (calculatePoly1305Key blake3 pid k) m) (firstn 16 (skipn 16 d))) eqn:E2; cbn [negb].
      + right. apply bytes_eqb_eq in E2. split; [exact Hfits|]. split; [apply Hseal; auto|reflexivity].
      + left. apply bytes_eqb_neq in E2. split; [exact Hfits|]. split; [|reflexivity]. intros H. apply Hseal in H. congruence.
    - left. apply bytes_eqb_neq in E1. split; [|reflexivity]. intros H. apply Hfit in H. congruence.
  Qed.

  Lemma sealed_fits : forall k iv pid body l m, sealed k iv pid body l m -> firstTagFits k iv pid body.
  Proof.
    intros k iv pid body l m H. unfold PacketSpec.firstTagFits. rewrite H. unfold PacketSpec.tags.
    destruct prim as [_ Hp]. rewrite <- !app_assoc.
    rewrite firstn_app_l by (rewrite Hp; reflexivity). f_equal.
    rewrite app_assoc, skipn_app_l by (rewrite app_length, !Hp; reflexivity).
    rewrite firstn_app_l by (rewrite le_enc_length; reflexivity). reflexivity.
  Qed.

  Lemma sealed_length : forall k iv pid body l m, sealed k iv pid body l m -> length body = (36 + length m)%nat.
  Proof.
    intros k iv pid body l m H. rewrite <- (plainOf_length k iv body), H. unfold PacketSpec.tags.
    destruct prim as [_ Hp]. rewrite !app_length, !Hp, le_enc_length. lia.
  Qed.

  Lemma sealed_parts : forall k iv pid body l m, l < 2^32 -> sealed k iv pid body l m ->
    le_dec (firstn 4 (skipn 32 (plainOf k iv body))) = l /\ skipn 36 (plainOf k iv body) = m.
  Proof.
    intros k iv pid body l m Hl H. rewrite H. unfold PacketSpec.tags. destruct prim as [_ Hp].
    assert (L : length (poly1305 (calculatePoly1305Key blake3 pid k) (le_enc 4 l) ++
                        poly1305 (calculatePoly1305Key blake3 pid k) m) = 32%nat) by (rewrite app_length, !Hp; reflexivity).
    split.
    - rewrite skipn_app_l by auto. rewrite firstn_app_l by (rewrite le_enc_length; reflexivity).
      apply le_dec_enc. exact Hl.
    - rewrite app_assoc. apply skipn_app_l. rewrite app_length, L, le_enc_length. reflexivity.
  Qed.

  Lemma sealed_open : forall k iv pid body l m, usable k iv -> bytes_ok body -> l < 2^32 ->
    sealed k iv pid body l m -> tryDecrypt stream blake3 poly1305 pid body k iv = Ret (Ok (Some (l, m))).
  Proof.
    intros k iv pid body l m Hu Hb Hl H. destruct (sealed_parts _ _ _ _ _ _ Hl H) as [E1 E2].
    pose proof (sealed_length _ _ _ _ _ _ H) as L.
    destruct (tryDecrypt_spec pid body k iv Hu ltac:(lia) Hb) as [[N _]|[(_ & N & _)|(_ & _ & R)]].
    - exfalso. apply N. eapply sealed_fits; eauto.
    - rewrite E1, E2 in N. contradiction.
    - rewrite E1, E2 in R. exact R.
  Qed.

  (** A loop over the keys. *)
  Lemma tryKeys_skip : forall pid body iv pre rest, (36 <= length body)%nat -> bytes_ok body ->
    Forall (fun k => k = None \/ usable k iv /\ ~ firstTagFits k iv pid body) pre ->
    tryKeys stream blake3 poly1305 pid body iv (pre ++ rest) = tryKeys stream blake3 poly1305 pid body iv rest.
  Proof.
    induction pre as [|k pre IH]; intros rest Hl Hb HF; [reflexivity|]. inversion HF as [|? ? H1 H2]; subst.
    destruct k as [k|]; cbn [app tryKeys].
    - destruct H1 as [H1|[Hu Hn]]; [discriminate|].
      destruct (tryDecrypt_spec pid body (Some k) iv Hu Hl Hb) as [[_ R]|[(F & _)|(F & _)]]; try contradiction.
      rewrite R. apply IH; auto.
    - apply IH; auto.
  Qed.

  Lemma tryKeys_result : forall pid body iv ks, (36 <= length body)%nat -> bytes_ok body ->
    Forall (fun k => k = None \/ usable k iv) ks ->
    (tryKeys stream blake3 poly1305 pid body iv ks = Ret (Ok None) /\
       Forall (fun k => k = None \/ ~ firstTagFits k iv pid body) ks) \/
    (exists e, tryKeys stream blake3 poly1305 pid body iv ks = Ret (Err e)) \/
    (exists k l m, In (Some k) ks /\ sealed (Some k) iv pid body l m /\
       tryKeys stream blake3 poly1305 pid body iv ks = Ret (Ok (Some (l, m)))).
  Proof.
    induction ks as [|k ks IH]; intros Hl Hb HF; [left; split; [reflexivity|constructor]|].
    inversion HF as [|? ? H1 H2]; subst. specialize (IH Hl Hb H2).
    destruct k as [k|]; cbn [tryKeys].
    - destruct H1 as [H1|Hu]; [discriminate|].
      destruct (tryDecrypt_spec pid body (Some k) iv Hu Hl Hb) as [[N R]|[(_ & _ & R)|(_ & S & R)]]; rewrite R.
      + destruct IH as [[R' F]|[[e R']|(k' & l & m & I & S & R')]].
        * left. split; [exact R'|]. constructor; auto.
        * right. left. eauto.
        * right. right. exists k', l, m. split; [right; auto|auto].
      + right. left. eauto.
      + right. right. eexists k, _, _. split; [left; reflexivity|]. split; [exact S|reflexivity].
    - destruct IH as [[R' F]|[[e R']|(k' & l & m & I & S & R')]].
      + left. split; [exact R'|]. constructor; auto.
      + right. left. eauto.
      + right. right. exists k', l, m. split; [right; auto|auto].
  Qed.

  (** ** What sealing produces *)
  Lemma roundSize_1 : forall n, n < 2^32 -> roundSize n cipherBlockSize = n.
  Proof.
    intros n H. unfold roundSize, cipherBlockSize, sub32, add32. change ((1 + (2^32 - 1)) mod 2^32) with 0.
    rewrite N.add_0_r, N.mod_small by auto. change (N.lxor 0 (2^32 - 1)) with (N.ones 32).
    rewrite N.land_ones. apply N.mod_small. auto.
  Qed.

  Definition sealKey (p : peer) (conf : bool) : option bytes :=
    if conf then nth secretIDRecentBoth (pKeys p) None else pAux p.
  Definition sealIV (p : peer) (conf : bool) (pid : bytes) : bytes := if conf then pOwnID p ++ pid else pid.

  Lemma seal_spec : forall p conf pid msgs, peer_ok p -> length pid = 8%nat -> len msgs + 44 < 2^32 ->
    (conf = true -> sealKey p conf <> None) ->
    exists body, sealPacket stream blake3 poly1305 p conf pid msgs = Ret (Ok (idOnWire stream (pAux p) pid ++ body)) /\
      sealed (sealKey p conf) (sealIV p conf pid) pid body (len msgs) msgs /\
      usable (sealKey p conf) (sealIV p conf pid).
  Proof.
    intros p conf pid msgs (Ha & Hk & Ho & _) Hp Hl Hc. unfold sealPacket. fold (sealKey p conf).
    set (k := sealKey p conf) in *.
    assert (Ku : usable k (sealIV p conf pid)).
    { unfold usable. destruct k as [b|] eqn:E; [|exact I]. unfold sealIV. split.
      - unfold k, sealKey in E. destruct conf.
        + unfold secretIDRecentBoth in E. destruct (pKeys p) as [|x l]; [discriminate|]. cbn in E. subst x.
          inversion Hk; auto.
        + rewrite E in Ha. exact Ha.
      - destruct conf; [rewrite app_length, Ho, Hp; auto|auto]. }
    assert (U : u32 (len msgs) = len msgs) by (apply N.mod_small; lia).
    unfold contWrite. change (len (repeat 0 44) <? messagesContainerHeadersSize) with false. cbn match.
    unfold contSet. cbn [cPacketID cHdrSum cMsgSum cLength]. rewrite U.
    change (skipn 44 (repeat 0 44)) with (@nil N). rewrite app_nil_r.
    unfold headersChecksum, messagesChecksum.
    set (T := poly1305 (calculatePoly1305Key blake3 pid k) (le_enc 4 (len msgs)) ++
              poly1305 (calculatePoly1305Key blake3 pid k) msgs).
    assert (LT : length T = 32%nat) by (unfold T; destruct prim as [_ P]; rewrite app_length, !P; reflexivity).
    set (rest := T ++ le_enc 4 (len msgs) ++ msgs).
    assert (EP : (pid ++ poly1305 (calculatePoly1305Key blake3 pid k) (le_enc 4 (len msgs)) ++
                  poly1305 (calculatePoly1305Key blake3 pid k) msgs ++ le_enc 4 (len msgs)) ++ msgs = pid ++ rest).
    { unfold rest, T. rewrite <- !app_assoc. reflexivity. }
    rewrite EP.
    assert (LR : len (pid ++ rest) = 44 + len msgs).
    { unfold rest. rewrite !len_app. unfold len. rewrite LT, Hp, le_enc_length. lia. }
    destruct k as [key|] eqn:Ek.
    - rewrite LR. unfold u32. rewrite N.mod_small by lia. rewrite roundSize_1 by lia.
      rewrite gslice_all by (symmetry; exact LR).
      rewrite gslice_tail by (unfold len; rewrite Hp; reflexivity).
      change (if conf then pOwnID p ++ pid else pid) with (sealIV p conf pid).
      rewrite crypt_usable by exact Ku.
      exists (xorStream key (sealIV p conf pid) rest). split; [|split; [|exact Ku]].
      + unfold idOnWire. destruct (pAux p) as [a|] eqn:Ea; [|reflexivity].
        rewrite crypt_usable; [reflexivity|]. split; [exact Ha|right; reflexivity].
      + unfold PacketSpec.sealed, PacketSpec.plainOf. rewrite xorStream_invol. reflexivity.
    - exists rest. split; [|split; [reflexivity|exact I]].
      assert (Ea : pAux p = None).
      { destruct conf; [exfalso; apply Hc; auto|]. unfold k, sealKey in Ek. exact Ek. }
      rewrite Ea. reflexivity.
  Qed.

  Lemma idOnWire_length : forall a pid, length (idOnWire stream a pid) = length pid.
  Proof. intros [a|] pid; cbn [idOnWire]; [apply xorStream_length|reflexivity]. Qed.

  Lemma decryptID : forall p w, peer_ok p ->
    decryptPacketIDBytes stream p w = Ret (idOnWire stream (pAux p) w).
  Proof.
    intros p w (Ha & _). unfold decryptPacketIDBytes, idOnWire. destruct (pAux p) as [a|]; [|reflexivity].
    apply crypt_usable. split; [exact Ha|right; reflexivity].
  Qed.

  Lemma idOnWire_invol : forall a pid, idOnWire stream a (idOnWire stream a pid) = pid.
  Proof. intros [a|] pid; cbn [idOnWire]; [apply xorStream_invol|reflexivity]. Qed.

  Lemma peer_keys_usable : forall p pid, peer_ok p -> length pid = 8%nat ->
    Forall (fun k => k = None \/ usable k (remoteIV p pid)) (pKeys p).
  Proof.
    intros p pid (_ & Hk & _ & Hr) Hp. unfold remoteIV. rewrite Forall_forall in *. intros k Hin.
    destruct k as [k|]; [|left; reflexivity]. right. destruct (pRemoteID p) as [i|].
    - split; [apply Hk in Hin; exact Hin|]. right. rewrite app_length, Hr, Hp. reflexivity.
    - rewrite Forall_forall in Hr. apply Hr in Hin. discriminate.
  Qed.

  Lemma aux_usable : forall p pid, peer_ok p -> length pid = 8%nat -> usable (pAux p) pid.
  Proof. intros p pid (Ha & _) Hp. unfold usable. destruct (pAux p); [split; auto|exact I]. Qed.

  (** Opening, for any input: what acceptance means. *)
  Lemma decryptPacket_sound : forall p raw pid l m, peer_ok p -> bytes_ok raw ->
    decryptPacket stream blake3 poly1305 p raw = Ret (Ok (pid, l, m)) ->
    (44 <= length raw)%nat /\ idOnWire stream (pAux p) pid = firstn 8 raw /\
    ((exists k, In (Some k) (pKeys p) /\ sealed (Some k) (remoteIV p pid) pid (skipn 8 raw) l m) \/
     (sealed (pAux p) pid pid (skipn 8 raw) l m /\
      Forall (fun k => k = None \/ ~ firstTagFits k (remoteIV p pid) pid (skipn 8 raw)) (pKeys p))).
  Proof.
    intros p raw pid l m Hok Hb H. unfold decryptPacket in H.
    destruct (len raw <? messagesContainerHeadersSize) eqn:El; [discriminate|].
    apply N.ltb_ge in El. unfold messagesContainerHeadersSize, len in El.
    rewrite decryptID in H by auto. set (pid0 := idOnWire stream (pAux p) (firstn 8 raw)) in *.
    assert (Lp : length pid0 = 8%nat) by (unfold pid0; rewrite idOnWire_length, firstn_length; lia).
    assert (Lb : (36 <= length (skipn 8 raw))%nat) by (rewrite skipn_length; lia).
    assert (Hb' : bytes_ok (skipn 8 raw)) by (apply Forall_skipn; auto).
    split; [lia|].
    destruct (tryKeys_result pid0 (skipn 8 raw) (remoteIV p pid0) (pKeys p) Lb Hb' (peer_keys_usable p pid0 Hok Lp))
      as [[R F]|[[e R]|(k & l' & m' & I & S & R)]]; rewrite R in H.
    - destruct (tryDecrypt_spec pid0 (skipn 8 raw) (pAux p) pid0 (aux_usable p pid0 Hok Lp) Lb Hb')
        as [[_ R']|[(_ & _ & R')|(_ & S & R')]]; rewrite R' in H; try discriminate.
      injection H as <- <- <-. split; [apply idOnWire_invol|]. right. split; [exact S|exact F].
    - discriminate.
    - injection H as <- <- <-. split; [apply idOnWire_invol|]. left. exists k. split; auto.
  Qed.

  Lemma decryptPacket_total : forall p raw, peer_ok p -> bytes_ok raw ->
    exists r, decryptPacket stream blake3 poly1305 p raw = Ret r.
  Proof.
    intros p raw Hok Hb. unfold decryptPacket.
    destruct (len raw <? messagesContainerHeadersSize) eqn:El; [eauto|].
    apply N.ltb_ge in El. unfold messagesContainerHeadersSize, len in El.
    rewrite decryptID by auto. set (pid0 := idOnWire stream (pAux p) (firstn 8 raw)) in *.
    assert (Lp : length pid0 = 8%nat) by (unfold pid0; rewrite idOnWire_length, firstn_length; lia).
    assert (Lb : (36 <= length (skipn 8 raw))%nat) by (rewrite skipn_length; lia).
    assert (Hb' : bytes_ok (skipn 8 raw)) by (apply Forall_skipn; auto).
    destruct (tryKeys_result pid0 (skipn 8 raw) (remoteIV p pid0) (pKeys p) Lb Hb' (peer_keys_usable p pid0 Hok Lp))
      as [[R F]|[[e R]|(k & l' & m' & I & S & R)]]; rewrite R; eauto.
    destruct (tryDecrypt_spec pid0 (skipn 8 raw) (pAux p) pid0 (aux_usable p pid0 Hok Lp) Lb Hb')
        as [[_ R']|[(_ & _ & R')|(_ & S & R')]]; rewrite R'; eauto.
  Qed.

  Lemma decrypt_split : forall p pid body, peer_ok p -> length pid = 8%nat -> (36 <= length body)%nat ->
    decryptPacket stream blake3 poly1305 p (idOnWire stream (pAux p) pid ++ body) =
      match tryKeys stream blake3 poly1305 pid body (remoteIV p pid) (pKeys p) with
      | Panic => Panic
      | Ret (Err e) => Ret (Err e)
      | Ret (Ok (Some (l, m))) => Ret (Ok (pid, l, m))
      | Ret (Ok None) =>
          match tryDecrypt stream blake3 poly1305 pid body (pAux p) pid with
          | Panic => Panic
          | Ret (Err e) => Ret (Err e)
          | Ret (Ok (Some (l, m))) => Ret (Ok (pid, l, m))
          | Ret (Ok None) => Ret (Err ErrCannotDecrypt)
          end
      end.
  Proof.
    intros p pid body Hok Lp LB.
    assert (Lw : length (idOnWire stream (pAux p) pid) = 8%nat) by (rewrite idOnWire_length; auto).
    unfold decryptPacket. replace (len _ <? messagesContainerHeadersSize) with false
      by (symmetry; apply N.ltb_ge; unfold messagesContainerHeadersSize; rewrite len_app; unfold len; lia).
    rewrite firstn_app_l, skipn_app_l by auto. rewrite decryptID, idOnWire_invol by auto. reflexivity.
  Qed.

  (** Opening succeeds if some key fits and no key tried before has a fitting
      first tag. *)
  Lemma decryptPacket_key : forall p pid body k l m pre post, peer_ok p -> length pid = 8%nat -> bytes_ok body ->
    l < 2^32 -> pKeys p = pre ++ Some k :: post ->
    sealed (Some k) (remoteIV p pid) pid body l m ->
    Forall (fun k' => k' = None \/ ~ firstTagFits k' (remoteIV p pid) pid body) pre ->
    decryptPacket stream blake3 poly1305 p (idOnWire stream (pAux p) pid ++ body) = Ret (Ok (pid, l, m)).
  Proof.
    intros p pid body k l m pre post Hok Lp Hb Hl Hks S HF.
    pose proof (sealed_length _ _ _ _ _ _ S) as LB.
    pose proof (peer_keys_usable p pid Hok Lp) as HU. rewrite Hks in HU.
    rewrite decrypt_split by (auto; lia).
    apply Forall_app in HU. destruct HU as [HU1 HU2]. inversion HU2 as [|? ? HUk _]; subst.
    destruct HUk as [HUk|HUk]; [discriminate|].
    rewrite Hks, tryKeys_skip; [|lia|auto|].
    - cbn [tryKeys]. rewrite (sealed_open (Some k) (remoteIV p pid) pid body l m) by auto. reflexivity.
    - rewrite Forall_forall in *. intros k' Hk'. destruct (HF k' Hk') as [?|Hn]; [auto|].
      destruct (HU1 k' Hk'); auto.
  Qed.

  Lemma decryptPacket_aux : forall p pid body l m, peer_ok p -> length pid = 8%nat -> bytes_ok body -> l < 2^32 ->
    sealed (pAux p) pid pid body l m ->
    Forall (fun k' => k' = None \/ ~ firstTagFits k' (remoteIV p pid) pid body) (pKeys p) ->
    decryptPacket stream blake3 poly1305 p (idOnWire stream (pAux p) pid ++ body) = Ret (Ok (pid, l, m)).
  Proof.
    intros p pid body l m Hok Lp Hb Hl S HF.
    pose proof (sealed_length _ _ _ _ _ _ S) as LB.
    pose proof (peer_keys_usable p pid Hok Lp) as HU.
    rewrite decrypt_split by (auto; lia).
    rewrite <- (app_nil_r (pKeys p)) at 1. rewrite tryKeys_skip; [|lia|auto|].
    - cbn [tryKeys]. rewrite (sealed_open (pAux p) pid pid body l m); auto. apply aux_usable; auto.
    - rewrite Forall_forall in *. intros k' Hk'. destruct (HF k' Hk') as [?|Hn]; [auto|].
      destruct (HU k' Hk'); auto.
  Qed.

  Lemma decryptPacket_none : forall p pid body, peer_ok p -> length pid = 8%nat -> bytes_ok body -> (36 <= length body)%nat ->
    Forall (fun k' => k' = None \/ ~ firstTagFits k' (remoteIV p pid) pid body) (pKeys p) ->
    ~ firstTagFits (pAux p) pid pid body ->
    decryptPacket stream blake3 poly1305 p (idOnWire stream (pAux p) pid ++ body) = Ret (Err ErrCannotDecrypt).
  Proof.
    intros p pid body Hok Lp Hb Hl HF HA.
    pose proof (peer_keys_usable p pid Hok Lp) as HU.
    rewrite decrypt_split by auto.
    rewrite <- (app_nil_r (pKeys p)) at 1. rewrite tryKeys_skip; [|lia|auto|].
    - cbn [tryKeys]. destruct (tryDecrypt_spec pid body (pAux p) pid (aux_usable p pid Hok Lp) Hl Hb)
        as [[_ R]|[(F & _)|(F & _)]]; try contradiction. rewrite R. reflexivity.
    - rewrite Forall_forall in *. intros k' Hk'. destruct (HF k' Hk') as [?|Hn]; [auto|].
      destruct (HU k' Hk'); auto.
  Qed.
End Proofs.
