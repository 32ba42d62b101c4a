(** PEM and base64: what is written is read back, and what is cut is not. *)
From Coq Require Import Ascii String NArith Arith List Bool Lia.
From Verif Require Import Base BaseLemmas IdentityModel.
Import ListNotations.
Local Open Scope list_scope.
Local Open Scope N_scope.

Lemma b64_table : forall v, v < 64 -> b64val (b64char v) = Some v /\ b64char v <> padChar /\ b64char v <> nl /\ b64char v <> 45.
Proof.
  intros v H.
  assert (F : forallb (fun k => let c := b64char (N.of_nat k) in
      match b64val c with Some w => N.of_nat k =? w | None => false end && negb (c =? padChar) && negb (c =? nl) && negb (c =? 45)) (seq 0 64) = true)
    by (vm_compute; reflexivity).
  rewrite forallb_forall in F. specialize (F (N.to_nat v)). rewrite N2Nat.id in F.
  assert (I : In (N.to_nat v) (seq 0 64)) by (apply in_seq; lia). specialize (F I). cbv zeta in F.
  repeat (apply andb_prop in F; destruct F as [F ?]).
  destruct (b64val (b64char v)) as [w|]; [|discriminate]. apply N.eqb_eq in F. subst w.
  repeat match goal with H : negb (?a =? ?b) = true |- _ => apply negb_true_iff in H; apply N.eqb_neq in H end. auto.
Qed.
Lemma b64_val : forall v, v < 64 -> b64val (b64char v) = Some v.
Proof. intros v H. apply (b64_table v H). Qed.
Lemma b64_pad : forall v, v < 64 -> b64char v =? padChar = false.
Proof. intros v H. apply N.eqb_neq. apply (b64_table v H). Qed.

Lemma list3_ind : forall (P : bytes -> Prop), P [] -> (forall a, P [a]) -> (forall a b, P [a; b]) ->
  (forall a b c r, P r -> P (a :: b :: c :: r)) -> forall l, P l.
Proof.
  intros P H0 H1 H2 H3. fix IH 1. intros [|a [|b [|c r]]]; [exact H0|apply H1|apply H2|apply H3, IH].
Qed.

(** Arithmetic of one group. *)
Lemma hi6 : forall a, a < 256 -> a / 4 < 64.
Proof. intros. apply N.div_lt_upper_bound; lia. Qed.
Lemma mix2 : forall a b, b < 256 -> a mod 4 * 16 + b / 16 < 64.
Proof.
  intros a b H. pose proof (N.mod_lt a 4 ltac:(lia)).
  assert (b / 16 < 16) by (apply N.div_lt_upper_bound; lia). generalize dependent (a mod 4). generalize dependent (b / 16). intros. lia.
Qed.
Lemma mix3 : forall b c, c < 256 -> b mod 16 * 4 + c / 64 < 64.
Proof.
  intros b c H. pose proof (N.mod_lt b 16 ltac:(lia)).
  assert (c / 64 < 4) by (apply N.div_lt_upper_bound; lia). generalize dependent (b mod 16). generalize dependent (c / 64). intros. lia.
Qed.
Lemma back1 : forall a b, b < 256 -> a / 4 * 4 + (a mod 4 * 16 + b / 16) / 16 = a.
Proof.
  intros a b H. assert (b / 16 < 16) by (apply N.div_lt_upper_bound; lia).
  rewrite N.div_add_l by lia. rewrite (N.div_small (b / 16)) by assumption. pose proof (N.div_mod' a 4). lia.
Qed.
Lemma back2 : forall a b c, b < 256 -> c < 256 ->
  (a mod 4 * 16 + b / 16) mod 16 * 16 + (b mod 16 * 4 + c / 64) / 4 = b.
Proof.
  intros a b c Hb Hc. assert (c / 64 < 4) by (apply N.div_lt_upper_bound; lia). assert (b / 16 < 16) by (apply N.div_lt_upper_bound; lia).
  rewrite (N.add_comm (a mod 4 * 16)). rewrite N.mod_add by lia. rewrite (N.mod_small (b / 16)) by assumption.
  rewrite N.div_add_l by lia. rewrite (N.div_small (c / 64)) by assumption. pose proof (N.div_mod' b 16). lia.
Qed.
Lemma back3 : forall b c, c < 256 -> (b mod 16 * 4 + c / 64) mod 4 * 64 + c mod 64 = c.
Proof.
  intros b c H. assert (c / 64 < 4) by (apply N.div_lt_upper_bound; lia).
  rewrite (N.add_comm (b mod 16 * 4)). rewrite N.mod_add by lia. rewrite (N.mod_small (c / 64)) by assumption.
  pose proof (N.div_mod' c 64). lia.
Qed.

Lemma b64_roundtrip : forall bs, bytes_ok bs -> b64dec (b64enc bs) = Some bs.
Proof.
  unfold bytes_ok, byte_ok. intro bs. induction bs as [|a|a b|a b c r IH] using list3_ind; intro H.
  - reflexivity.
  - inversion H; subst. cbn [b64enc b64dec].
    rewrite (b64_val (a / 4)) by (apply hi6; auto). pose proof (mix2 a 0 ltac:(lia)) as M. change (0 / 16) with 0 in M. rewrite N.add_0_r in M.
    rewrite (b64_val (a mod 4 * 16)) by exact M. rewrite !N.eqb_refl. cbn [andb].
    pose proof (back1 a 0 ltac:(lia)) as B. change (0 / 16) with 0 in B. rewrite N.add_0_r in B. rewrite B. reflexivity.
  - inversion H as [|? ? Ha H']; subst. inversion H' as [|? ? Hb _]; subst. cbn [b64enc b64dec].
    pose proof (mix3 b 0 ltac:(lia)) as M. change (0 / 64) with 0 in M. rewrite N.add_0_r in M.
    rewrite (b64_val (a / 4)) by (apply hi6; auto). rewrite (b64_val (a mod 4 * 16 + b / 16)) by (apply mix2; auto).
    rewrite (b64_pad (b mod 16 * 4)) by exact M. rewrite (b64_val (b mod 16 * 4)) by exact M. rewrite N.eqb_refl.
    rewrite (back1 a b) by auto. pose proof (back2 a b 0 Hb ltac:(lia)) as B. change (0 / 64) with 0 in B. rewrite N.add_0_r in B. rewrite B. reflexivity.
  - inversion H as [|? ? Ha H']; subst. inversion H' as [|? ? Hb H'']; subst. inversion H'' as [|? ? Hc Hr]; subst. cbn [b64enc b64dec].
    assert (C6 : c mod 64 < 64) by (apply N.mod_lt; lia).
    rewrite (b64_val (a / 4)) by (apply hi6; auto). rewrite (b64_val (a mod 4 * 16 + b / 16)) by (apply mix2; auto).
    rewrite (b64_pad (b mod 16 * 4 + c / 64)) by (apply mix3; auto). rewrite (b64_val (b mod 16 * 4 + c / 64)) by (apply mix3; auto).
    rewrite (b64_pad (c mod 64)) by exact C6. rewrite (b64_val (c mod 64)) by exact C6. rewrite (IH Hr).
    rewrite (back1 a b), (back2 a b c), (back3 b c) by auto. reflexivity.
Qed.

Definition plain (c : N) : Prop := c <> nl /\ c <> 45.
Lemma b64_plain : forall bs, bytes_ok bs -> Forall plain (b64enc bs).
Proof.
  assert (T : forall v, v < 64 -> plain (b64char v)) by (intros v H; split; apply (b64_table v H)).
  assert (Pd : plain padChar) by (split; discriminate).
  unfold bytes_ok, byte_ok. intro bs. induction bs as [|a|a b|a b c r IH] using list3_ind; intro H; cbn [b64enc].
  - constructor.
  - inversion H; subst. pose proof (mix2 a 0 ltac:(lia)) as M. change (0 / 16) with 0 in M. rewrite N.add_0_r in M.
    repeat constructor; try apply Pd; try (apply T; auto; apply hi6; auto).
  - inversion H as [|? ? Ha H']; subst. inversion H' as [|? ? Hb _]; subst.
    pose proof (mix3 b 0 ltac:(lia)) as M. change (0 / 64) with 0 in M. rewrite N.add_0_r in M.
    constructor; [apply T, hi6; auto|]. constructor; [apply T, mix2; auto|]. constructor; [apply T; auto|]. constructor; auto.
  - inversion H as [|? ? Ha H']; subst. inversion H' as [|? ? Hb H'']; subst. inversion H'' as [|? ? Hc Hr]; subst.
    constructor; [apply T, hi6; auto|]. constructor; [apply T, mix2; auto|]. constructor; [apply T, mix3; auto|].
    constructor; [apply T, N.mod_lt; lia|]. auto.
Qed.
Lemma b64_nonempty : forall a bs, b64enc (a :: bs) <> [].
Proof. intros a [|b [|c r]]; discriminate. Qed.

(** Broken into lines: ends with a line break, no dashes, same text. *)
Lemma break_spec : forall cs k, (0 < k <= 64)%nat -> Forall plain cs -> (cs <> [] \/ k <> 64%nat) ->
  exists L, breakLines k cs = L ++ [nl] /\ filter (fun c => negb (c =? nl)) L = cs /\ Forall (fun c => c <> 45) L.
Proof.
  induction cs as [|c cs IH]; intros k Hk Hp Hn.
  - destruct Hn as [Hn|Hn]; [congruence|]. exists []. cbn [breakLines].
    destruct (Nat.eqb_spec k 64); [contradiction|]. repeat split. constructor.
  - inversion Hp as [|? ? [Hc1 Hc2] Hp']; subst.
    assert (Ec : negb (c =? nl) = true) by (apply negb_true_iff, N.eqb_neq; exact Hc1).
    destruct k as [|[|k]]; [lia| |].
    + cbn [breakLines]. destruct cs as [|d cs].
      * exists [c]. cbn [breakLines filter app Nat.eqb]. rewrite Ec. repeat split. repeat constructor; auto.
      * assert (Hd : d :: cs <> [] \/ 64%nat <> 64%nat) by (left; discriminate).
        assert (H64 : (0 < 64 <= 64)%nat) by lia.
        destruct (IH 64%nat H64 Hp' Hd) as (L & E & F & G).
        exists (c :: nl :: L). rewrite E. cbn [filter app]. rewrite Ec. change (nl =? nl) with true. cbn [negb]. rewrite F.
        repeat split. constructor; [exact Hc2|]. constructor; [discriminate|exact G].
    + cbn [breakLines pred].
      assert (Hd : cs <> [] \/ S k <> 64%nat) by (right; lia).
      assert (H64 : (0 < S k <= 64)%nat) by lia.
      destruct (IH (S k) H64 Hp' Hd) as (L & E & F & G).
      exists (c :: L). rewrite E. cbn [filter app]. rewrite Ec, F. repeat split. constructor; auto.
Qed.

Lemma strip_full : forall p s, stripPrefix p (p ++ s) = Some s.
Proof. induction p as [|a p IH]; intro s; cbn [stripPrefix app]; [destruct s; reflexivity|]. rewrite N.eqb_refl. apply IH. Qed.
Lemma strip_cut : forall p s n, stripPrefix p (firstn n (p ++ s)) = if Nat.ltb n (length p) then None else Some (firstn (n - length p) s).
Proof.
  induction p as [|a p IH]; intros s n.
  - cbn [stripPrefix app length]. replace (n - 0)%nat with n by lia. destruct (Nat.ltb_spec n 0); [lia|].
    destruct (firstn n s); reflexivity.
  - destruct n as [|n]; cbn [firstn app stripPrefix length]; [reflexivity|]. rewrite N.eqb_refl, IH. reflexivity.
Qed.

Lemma cut_line : forall a r, Forall (fun c => c <> nl) a -> cutLine (a ++ nl :: r) = (a, r).
Proof.
  induction a as [|c a IH]; intros r H; cbn [cutLine app]; [change (nl =? nl) with true; reflexivity|].
  inversion H; subst. apply N.eqb_neq in H2. rewrite H2, IH by assumption. reflexivity.
Qed.
Lemma cut_line_none : forall a, Forall (fun c => c <> nl) a -> cutLine a = (a, []).
Proof.
  induction a as [|c a IH]; intro H; cbn [cutLine]; [reflexivity|].
  inversion H; subst. apply N.eqb_neq in H2. rewrite H2, IH by assumption. reflexivity.
Qed.
Lemma strip_suffix : forall p s, stripSuffix p (s ++ p) = Some s.
Proof. intros p s. unfold stripSuffix. rewrite rev_app_distr, strip_full, rev_involutive. reflexivity. Qed.

Definition pat : bytes := nl :: pemEnd.
Lemma pat_head : forall c x, c <> 45 -> stripPrefix pat (nl :: c :: x) = None.
Proof.
  intros c x H. unfold pat, pemEnd, txt. cbn [map list_ascii_of_string stripPrefix]. change (nl =? nl) with true. cbv iota.
  change (N_of_ascii "-"%char) with 45. destruct (N.eqb_spec 45 c); [congruence|reflexivity].
Qed.
Lemma pat_other : forall c x, c <> nl -> stripPrefix pat (c :: x) = None.
Proof. intros c x H. unfold pat. cbn [stripPrefix]. destruct (N.eqb_spec nl c); [congruence|reflexivity]. Qed.

Lemma cut_at : forall L r, Forall (fun c => c <> 45) L -> cutAt pat (L ++ pat ++ r) = Some (L, r).
Proof.
  induction L as [|c L IH]; intros r H.
  - cbn [app]. assert (E : pat ++ r = nl :: (pemEnd ++ r)) by reflexivity.
    rewrite E. unfold cutAt; fold cutAt. rewrite <- E, strip_full. reflexivity.
  - inversion H as [|? ? Hc HL]; subst. cbn [app]. unfold cutAt; fold cutAt.
    assert (N : stripPrefix pat (c :: L ++ pat ++ r) = None).
    { destruct (N.eq_dec c nl) as [->|e]; [|apply pat_other; exact e].
      destruct L as [|d L]; [apply pat_head; discriminate|]. inversion HL; subst. apply pat_head. assumption. }
    rewrite N, IH by exact HL. reflexivity.
Qed.

(** The same for a text that is cut after [n] characters. *)
Lemma cut_at_prefix : forall L r n, Forall (fun c => c <> 45) L ->
  cutAt pat (firstn n (L ++ pat ++ r)) =
  if Nat.ltb n (length L + length pat) then None else Some (L, firstn (n - (length L + length pat)) r).
Proof.
  induction L as [|c L IH]; intros r n H.
  - cbn [app length]. rewrite Nat.add_0_l.
    destruct (Nat.ltb_spec n (length pat)) as [B|B].
    + assert (G : forall m, (m <= n)%nat -> stripPrefix pat (firstn m (pat ++ r)) = None).
      { intros m Hm. rewrite strip_cut. destruct (Nat.ltb_spec m (length pat)); [reflexivity|lia]. }
      assert (Sx : forall x, Forall (fun c => c <> nl) x -> cutAt pat x = None).
      { induction x as [|d x IHx]; intro Hx; unfold cutAt; fold cutAt; [reflexivity|].
        inversion Hx; subst. rewrite pat_other by assumption. rewrite IHx by assumption. reflexivity. }
      destruct n as [|n]; [reflexivity|].
      assert (E : firstn (S n) (pat ++ r) = nl :: firstn n (pemEnd ++ r)) by reflexivity.
      rewrite E. unfold cutAt; fold cutAt. rewrite <- E, G by lia. rewrite Sx; [reflexivity|].
      rewrite firstn_app. replace (n - length pemEnd)%nat with 0%nat by (unfold pat in B; cbn [length] in B; lia).
      cbn [firstn]. rewrite app_nil_r. apply Forall_forall. intros x Hx.
      assert (In x pemEnd) as Hx' by (rewrite <- (firstn_skipn n pemEnd); apply in_or_app; auto).
      intros ->. revert Hx'. unfold pemEnd, txt, nl. cbn. intuition discriminate.
    + rewrite firstn_app. rewrite firstn_all2 by lia.
      assert (E : pat ++ firstn (n - length pat) r = nl :: (pemEnd ++ firstn (n - length pat) r)) by reflexivity.
      rewrite E. unfold cutAt; fold cutAt. rewrite <- E, strip_full. reflexivity.
  - inversion H as [|? ? Hc HL]; subst. destruct n as [|n]; [cbn; reflexivity|]. cbn [app firstn length].
    unfold cutAt; fold cutAt.
    assert (N : stripPrefix pat (c :: firstn n (L ++ pat ++ r)) = None).
    { destruct (N.eq_dec c nl) as [->|e]; [|apply pat_other; exact e].
      destruct n as [|n]; [reflexivity|].
      destruct L as [|d L]; [apply pat_head; discriminate|]. inversion HL; subst. apply pat_head. assumption. }
    rewrite N, IH by exact HL. change (S n <? S (length L) + length pat)%nat with (n <? length L + length pat)%nat.
    destruct (n <? length L + length pat)%nat; reflexivity.
Qed.

Definition oneLine (ty : bytes) : Prop := Forall (fun c => c <> nl) ty.
Lemma eol_line : forall ty, oneLine ty -> Forall (fun c => c <> nl) (ty ++ pemEol).
Proof. intros ty H. apply Forall_app. split; [exact H|]. unfold pemEol, txt. cbn. repeat constructor; discriminate. Qed.

Lemma pem_layout : forall ty key, bytes_ok key -> key <> [] -> exists L,
  pemEncode ty key = pemBegin ++ (ty ++ pemEol) ++ nl :: L ++ pat ++ (ty ++ pemEol) ++ [nl] /\
  filter (fun c => negb (c =? nl)) L = b64enc key /\ Forall (fun c => c <> 45) L.
Proof.
  intros ty key H Hn. destruct key as [|a key]; [congruence|].
  destruct (break_spec (b64enc (a :: key)) 64 ltac:(lia) (b64_plain _ H) (or_introl (b64_nonempty a key))) as (L & E & F & G).
  exists L. split; [|auto]. unfold pemEncode. rewrite E. unfold pat. rewrite <- !app_assoc. cbn [app]. reflexivity.
Qed.

Lemma pem_roundtrip : forall ty key tail, oneLine ty -> bytes_ok key -> key <> [] ->
  pemDecode (pemEncode ty key ++ tail) = Some key.
Proof.
  intros ty key tail Ht Hk Hn. destruct (pem_layout ty key Hk Hn) as (L & E & F & G). rewrite E.
  assert (A : (pemBegin ++ (ty ++ pemEol) ++ nl :: L ++ pat ++ (ty ++ pemEol) ++ [nl]) ++ tail =
    pemBegin ++ (ty ++ pemEol) ++ nl :: (L ++ pat ++ ((ty ++ pemEol) ++ nl :: tail)))
    by (repeat (rewrite <- !app_assoc; cbn [app]); reflexivity).
  rewrite A. unfold pemDecode. rewrite strip_full.
  rewrite cut_line by (apply eol_line; exact Ht). rewrite strip_suffix.
  change (nl :: pemEnd) with pat. rewrite cut_at by exact G. rewrite strip_full.
  cbn [cutLine]. change (nl =? nl) with true. cbn [fst]. rewrite F. apply b64_roundtrip. exact Hk.
Qed.

(** Cut anywhere before the last line is complete: nothing is read. *)
Lemma pem_cut : forall ty key n, oneLine ty -> bytes_ok key -> key <> [] ->
  (n < length (pemEncode ty key) - 1)%nat -> pemDecode (firstn n (pemEncode ty key)) = None.
Proof.
  intros ty key n Ht Hk Hn Hl. destruct (pem_layout ty key Hk Hn) as (L & E & F & G). rewrite E in *. clear E.
  unfold pemDecode. rewrite strip_cut. destruct (Nat.ltb_spec n (length pemBegin)) as [B|B]; [reflexivity|].
  set (m := (n - length pemBegin)%nat) in *.
  destruct (Nat.le_gt_cases m (length (ty ++ pemEol))) as [B2|B2].
  - rewrite firstn_app. replace (m - length (ty ++ pemEol))%nat with 0%nat by lia. cbn [firstn]. rewrite app_nil_r.
    rewrite cut_line_none.
    + destruct (stripSuffix pemEol (firstn m (ty ++ pemEol))); reflexivity.
    + pose proof (eol_line ty Ht) as X. rewrite Forall_forall in X |- *. intros x Hx. apply X.
      rewrite <- (firstn_skipn m (ty ++ pemEol)). apply in_or_app. auto.
  - rewrite firstn_app. rewrite firstn_all2 by lia.
    destruct (m - length (ty ++ pemEol))%nat as [|q] eqn:Q; [lia|]. cbn [firstn].
    rewrite cut_line by (apply eol_line; exact Ht). rewrite strip_suffix. change (nl :: pemEnd) with pat.
    rewrite cut_at_prefix by exact G. destruct (Nat.ltb_spec q (length L + length pat)) as [B3|B3]; [reflexivity|].
    rewrite strip_cut. destruct (Nat.ltb_spec (q - (length L + length pat)) (length (ty ++ pemEol))) as [B4|B4]; [reflexivity|].
    exfalso. rewrite !app_length in *. cbn [length] in *. rewrite !app_length in *. cbn [length] in *. lia.
Qed.

(** Only the final line break missing: still read. *)
Lemma pem_cut_last : forall ty key, oneLine ty -> bytes_ok key -> key <> [] ->
  pemDecode (firstn (length (pemEncode ty key) - 1) (pemEncode ty key)) = Some key.
Proof.
  intros ty key Ht Hk Hn. destruct (pem_layout ty key Hk Hn) as (L & E & F & G). rewrite E.
  replace (firstn _ _) with (pemBegin ++ (ty ++ pemEol) ++ nl :: (L ++ pat ++ (ty ++ pemEol))).
  2:{ set (A := pemBegin ++ (ty ++ pemEol) ++ nl :: (L ++ pat ++ (ty ++ pemEol))).
      replace (pemBegin ++ (ty ++ pemEol) ++ nl :: L ++ pat ++ (ty ++ pemEol) ++ [nl]) with (A ++ [nl])
        by (unfold A; repeat (rewrite <- !app_assoc; cbn [app]); reflexivity).
      rewrite app_length. cbn [length]. replace (length A + 1 - 1)%nat with (length A) by lia.
      rewrite firstn_app, firstn_all, Nat.sub_diag. cbn [firstn]. rewrite app_nil_r. reflexivity. }
  unfold pemDecode. rewrite strip_full, cut_line by (apply eol_line; exact Ht). rewrite strip_suffix.
  change (nl :: pemEnd) with pat. rewrite cut_at by exact G.
  pose proof (strip_full (ty ++ pemEol) []) as S. rewrite app_nil_r in S. rewrite S. cbn [cutLine fst]. rewrite F. apply b64_roundtrip. exact Hk.
Qed.
