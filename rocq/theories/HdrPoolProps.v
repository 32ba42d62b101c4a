(** C163: a pooled header carries nothing over from its earlier uses.
    C164: headers go back to their pool. *)
From Coq Require Import NArith List Bool Lia.
From Verif Require Import Base BaseLemmas TS MessageModel HdrPoolModel.
Import ListNotations.
Open Scope N_scope.

(** ** Specification *)
(** The header of a message and of a fragment, without any pool: bit 0 tells that
    the packet is sealed with a session key, bit 1 that this is a fragment. *)
Definition headerOf (c : call) : msgHdr :=
  match c with
  | CMsg t p => {| mType := t; mLength := len p mod 2^32; mFlags := if t =? 4294967294 then 0 else 1 |}
  | CFrag t p => {| mType := t; mLength := len p mod 2^32; mFlags := 2 |}
  end.

(** ** Taking one element out of a list *)
Lemma takeNth_spec : forall A i (l : list A) x r, takeNth i l = Some (x, r) ->
  In x l /\ length l = S (length r) /\ (forall P, Forall P l -> P x /\ Forall P r).
Proof.
  induction i as [|i IH]; intros [|y l] x r H; cbn [takeNth] in H; try discriminate.
  - injection H as <- <-. split; [left; reflexivity|]. split; [reflexivity|]. intros P F. inversion F; subst. split; assumption.
  - destruct (takeNth i l) as [[z r']|] eqn:E; [|discriminate]. injection H as <- <-.
    destruct (IH _ _ _ E) as (A1 & A2 & A3). split; [right; exact A1|]. split; [cbn [length]; lia|].
    intros P F. inversion F as [|? ? F1 F2]; subst. destruct (A3 P F2). split; [assumption|constructor; assumption].
Qed.

(** ** Message headers *)
Definition blank (o : hobj) : Prop := o = newHobj.
Definition threadOk (th : hthread) : Prop :=
  ho_busy (ht_obj th) = true /\
  match ht_pc th with
  | HSet => ho (ht_obj th) = ho newHobj
  | HFlag => ho (ht_obj th) = {| mType := mType (headerOf (ht_call th)); mLength := mLength (headerOf (ht_call th)); mFlags := 0 |}
  | _ => ho (ht_obj th) = headerOf (ht_call th)
  end.
Definition hpInv (s : hps) : Prop :=
  hp_panic s = false /\ Forall blank (hp_pool s) /\ Forall threadOk (hp_run s) /\
  Forall (fun e => snd e = headerOf (fst e)) (hp_wire s) /\
  hp_made s = len (hp_pool s) + len (hp_run s) + hp_dropped s /\ hp_fragBack s = 0.

Lemma hp_step : forall s l s', hpInv s -> hpstep s l = Some s' -> hpInv s'.
Proof.
  intros s l s' (I1 & I2 & I3 & I4 & I5 & I6) H. unfold hpstep in H. rewrite I1 in H.
  destruct l as [c pick|i|i].
  - assert (G : forall o rest new, blank o -> Forall blank rest ->
             hp_made s + new = len rest + (1 + len (hp_run s)) + hp_dropped s ->
             match acquireHdr o with Panic => Some (hpanic s) | Ret o => Some
               {| hp_pool := rest; hp_run := {| ht_call := c; ht_obj := o; ht_pc := HSet |} :: hp_run s;
                  hp_wire := hp_wire s; hp_made := hp_made s + new; hp_dropped := hp_dropped s;
                  hp_frags := hp_frags s + (if isFragCall c then 1 else 0);
                  hp_fragBack := hp_fragBack s; hp_panic := false |} end = Some s' -> hpInv s').
    { intros o rest new -> F M E. cbn [acquireHdr newHobj ho_busy ho] in E. injection E as <-.
      unfold hpInv. cbn [hp_panic hp_pool hp_run hp_wire hp_made hp_dropped hp_fragBack].
      split; [reflexivity|]. split; [exact F|]. split; [constructor; [split; reflexivity|exact I3]|]. split; [exact I4|].
      split; [|exact I6]. rewrite len_cons. lia. }
    destruct pick as [i|].
    + destruct (takeNth i (hp_pool s)) as [[o r]|] eqn:E; [|discriminate].
      destruct (takeNth_spec _ _ _ _ _ E) as (A1 & A2 & A3). destruct (A3 _ I2) as [B1 B2].
      apply (G o r 0 B1 B2); [unfold len in *; lia|exact H].
    + apply (G newHobj (hp_pool s) 1); [reflexivity|exact I2|lia|exact H].
  - destruct (takeNth i (hp_run s)) as [[th rest]|] eqn:E; [|discriminate].
    destruct (takeNth_spec _ _ _ _ _ E) as (A1 & A2 & A3). destruct (A3 _ I3) as [[B0 B1] B2].
    destruct th as [c [o b] pc]. cbn [ht_call ht_obj ht_pc ho_busy ho] in *. subst b.
    destruct pc.
    + injection H as <-. unfold hpInv. cbn [hp_panic hp_pool hp_run hp_wire hp_made hp_dropped hp_fragBack].
      subst o. split; [reflexivity|]. split; [exact I2|]. split.
      * constructor; [|exact B2]. split; [destruct c; reflexivity|]. cbn [ht_pc ht_obj ht_call]. destruct c; reflexivity.
      * split; [exact I4|]. split; [|exact I6]. rewrite len_cons. unfold len in *. lia.
    + injection H as <-. unfold hpInv. cbn [hp_panic hp_pool hp_run hp_wire hp_made hp_dropped hp_fragBack].
      subst o. split; [reflexivity|]. split; [exact I2|]. split.
      * constructor; [|exact B2]. split; [destruct c; reflexivity|]. cbn [ht_pc ht_obj ht_call].
        destruct c as [t p|t p]; cbn [callFlag withFlags ho mType mLength mFlags headerOf]; [|reflexivity].
        unfold messageTypeKeyExchange. change (2 ^ 32 - 1 - 1) with 4294967294.
        destruct (t =? 4294967294); reflexivity.
      * split; [exact I4|]. split; [|exact I6]. rewrite len_cons. unfold len in *. lia.
    + injection H as <-. unfold hpInv. cbn [hp_panic hp_pool hp_run hp_wire hp_made hp_dropped hp_fragBack].
      split; [reflexivity|]. split; [exact I2|]. split; [constructor; [split; [reflexivity|exact B1]|exact B2]|].
      split; [constructor; [exact B1|exact I4]|]. split; [|exact I6]. rewrite len_cons. unfold len in *. lia.
    + cbn [releaseHdr ho_busy negb resetHdr ho] in H. injection H as <-.
      unfold hpInv. cbn [hp_panic hp_pool hp_run hp_wire hp_made hp_dropped hp_fragBack].
      split; [reflexivity|]. split; [constructor; [reflexivity|exact I2]|]. split; [exact B2|]. split; [exact I4|].
      split; [|exact I6]. rewrite len_cons. unfold len in *. lia.
  - destruct (takeNth i (hp_pool s)) as [[o r]|] eqn:E; [|discriminate]. injection H as <-.
    destruct (takeNth_spec _ _ _ _ _ E) as (A1 & A2 & A3). destruct (A3 _ I2) as [B1 B2].
    unfold hpInv. cbn [hp_panic hp_pool hp_run hp_wire hp_made hp_dropped hp_fragBack].
    split; [reflexivity|]. split; [exact B2|]. split; [exact I3|]. split; [exact I4|]. split; [|exact I6].
    unfold len in *. lia.
Qed.

Lemma hp_inv : forall s, reachable hpinit (lstep hpstep) s -> hpInv s.
Proof.
  apply reachable_inv.
  - intros s ->. repeat split; constructor.
  - intros s s' I [l H]. exact (hp_step s l s' I H).
Qed.

(** Any number of concurrent calls, in every order, whatever objects the pool
    hands out: nothing panics, and the header written for a call is the one
    computed from the call alone. *)
Theorem C163_message_headers : forall s, reachable hpinit (lstep hpstep) s ->
  hp_panic s = false /\ forall c h, In (c, h) (hp_wire s) -> h = headerOf c.
Proof.
  intros s R. destruct (hp_inv s R) as (I1 & _ & _ & I4 & _). split; [exact I1|].
  intros c h I. rewrite Forall_forall in I4. exact (I4 (c, h) I).
Qed.
Print Assumptions C163_message_headers.

(** ** Packet headers *)
Section Packets.
  Variable hsum : bytes -> N -> bytes.
  Variable msum : bytes -> bytes -> bytes.

  (** The header of a packet with content [msgs] that took the ID [id]. *)
  Definition packetHeaderOf (msgs : bytes) (id : N) : contHdr :=
    {| cPacketID := le_enc 8 id; cHdrSum := hsum (le_enc 8 id) (len msgs mod 2^32);
       cMsgSum := msum (le_enc 8 id) msgs; cLength := len msgs mod 2^32 |}.

  Definition senderOk (th : csender) : Prop :=
    co_busy (cs_obj th) = true /\ co_id (cs_obj th) = le_enc 8 (cs_taken th) /\
    (cs_set th = true -> contOf (cs_obj th) = packetHeaderOf (cs_msgs th) (cs_taken th)).
  Definition held (s : cps) : N := match cp_reader s with Some _ => 1 | None => 0 end.
  Definition cpInv (s : cps) : Prop :=
    cp_panic s = false /\ Forall (fun o => co_busy o = false) (cp_pool s) /\ Forall senderOk (cp_run s) /\
    (forall o, cp_reader s = Some o -> co_busy o = true) /\
    Forall (fun e => snd e = packetHeaderOf (fst (fst e)) (snd (fst e))) (cp_wire s) /\
    cp_made s = len (cp_pool s) + len (cp_run s) + held s + cp_dropped s + len (cp_lost s).

  Lemma pick_spec : forall s pick o rest new, Forall (fun o => co_busy o = false) (cp_pool s) ->
    pickCont s pick = Some (o, rest, new) ->
    co_busy o = false /\ Forall (fun o => co_busy o = false) rest /\ len rest + 1 = len (cp_pool s) + new.
  Proof.
    intros s pick o rest new F H. unfold pickCont in H. destruct pick as [i|].
    - destruct (takeNth i (cp_pool s)) as [[o' r]|] eqn:E; [|discriminate]. injection H as <- <- <-.
      destruct (takeNth_spec _ _ _ _ _ E) as (_ & A2 & A3). destruct (A3 _ F). unfold len. split; [assumption|]. split; [assumption|lia].
    - injection H as <- <- <-. split; [reflexivity|]. split; [exact F|lia].
  Qed.

  Lemma cp_step : forall s l s', cpInv s -> cpstep hsum msum s l = Some s' -> cpInv s'.
  Proof.
    intros s l s' (I1 & I2 & I3 & I4 & I5 & I6) H. unfold cpstep in H. rewrite I1 in H.
    destruct l as [msgs pick|i|pick|id hs ms n|c|i].
    - destruct (pickCont s pick) as [[[o rest] new]|] eqn:E; [|discriminate].
      destruct (pick_spec _ _ _ _ _ I2 E) as (P1 & P2 & P3). unfold acquireCont in H. rewrite P1 in H. injection H as <-.
      unfold cpInv, held in *. cbn [cp_panic cp_pool cp_run cp_reader cp_wire cp_made cp_dropped cp_lost].
      split; [reflexivity|]. split; [exact P2|]. split; [constructor; [|exact I3]|].
      { split; [reflexivity|]. split; [reflexivity|]. discriminate. }
      split; [exact I4|]. split; [exact I5|]. rewrite len_cons. lia.
    - destruct (takeNth i (cp_run s)) as [[th rest]|] eqn:E; [|discriminate].
      destruct (takeNth_spec _ _ _ _ _ E) as (_ & A2 & A3). destruct (A3 _ I3) as [(B0 & B1 & B3) B2].
      assert (L : len (cp_run s) = 1 + len rest) by (unfold len; lia).
      destruct (cs_set th) eqn:Es; cbn [negb] in H; [destruct (cs_written th) eqn:Ew; cbn [negb] in H|].
      + unfold releaseCont in H. rewrite B0 in H. cbn [negb] in H. injection H as <-.
        unfold cpInv, held in *. cbn [cp_panic cp_pool cp_run cp_reader cp_wire cp_made cp_dropped cp_lost].
        split; [reflexivity|]. split; [constructor; [reflexivity|exact I2]|]. split; [exact B2|]. split; [exact I4|].
        split; [exact I5|]. rewrite len_cons. lia.
      + injection H as <-. unfold cpInv, held in *. cbn [cp_panic cp_pool cp_run cp_reader cp_wire cp_made cp_dropped cp_lost].
        split; [reflexivity|]. split; [exact I2|]. split; [constructor; [|exact B2]|].
        { split; [exact B0|]. split; [exact B1|]. intros _. exact (B3 eq_refl). }
        split; [exact I4|]. split; [constructor; [exact (B3 eq_refl)|exact I5]|]. rewrite len_cons. lia.
      + injection H as <-. unfold cpInv, held in *. cbn [cp_panic cp_pool cp_run cp_reader cp_wire cp_made cp_dropped cp_lost].
        split; [reflexivity|]. split; [exact I2|]. split; [constructor; [|exact B2]|].
        { split; [exact B0|]. split; [exact B1|]. intros _. cbn [cs_obj cs_msgs cs_taken].
          unfold contOf, setCont, packetHeaderOf. cbn [co_id co_hsum co_msum co_len]. rewrite B1. reflexivity. }
        split; [exact I4|]. split; [exact I5|]. rewrite len_cons. lia.
    - destruct (cp_reader s) as [o0|] eqn:Er; [discriminate|].
      destruct (pickCont s pick) as [[[o rest] new]|] eqn:E; [|discriminate].
      destruct (pick_spec _ _ _ _ _ I2 E) as (P1 & P2 & P3). unfold acquireCont in H. rewrite P1 in H. injection H as <-.
      unfold cpInv, held in *. rewrite Er in I6. cbn [cp_panic cp_pool cp_run cp_reader cp_wire cp_made cp_dropped cp_lost].
      split; [reflexivity|]. split; [exact P2|]. split; [exact I3|]. split; [intros x X; injection X as <-; reflexivity|].
      split; [exact I5|]. lia.
    - destruct (cp_reader s) as [o0|] eqn:Er; [|discriminate]. injection H as <-.
      unfold cpInv, held in *. rewrite Er in I6. cbn [cp_panic cp_pool cp_run cp_reader cp_wire cp_made cp_dropped cp_lost].
      split; [reflexivity|]. split; [exact I2|]. split; [exact I3|].
      split; [intros x X; injection X as <-; exact (I4 _ eq_refl)|]. split; [exact I5|]. lia.
    - destruct (cp_reader s) as [o0|] eqn:Er; [|discriminate]. pose proof (I4 _ eq_refl) as B. unfold releaseCont in H. rewrite B in H.
      cbn [negb] in H. destruct c; injection H as <-;
        unfold cpInv, held in *; rewrite Er in I6; cbn [cp_panic cp_pool cp_run cp_reader cp_wire cp_made cp_dropped cp_lost];
        (split; [reflexivity|]); (split; [first [exact I2|constructor; [reflexivity|exact I2]]|]); (split; [exact I3|]);
        (split; [discriminate|]); (split; [exact I5|]); rewrite ?len_cons; lia.
    - destruct (takeNth i (cp_pool s)) as [[o r]|] eqn:E; [|discriminate]. injection H as <-.
      destruct (takeNth_spec _ _ _ _ _ E) as (_ & A2 & A3). destruct (A3 _ I2) as [B1 B2].
      unfold cpInv, held in *. cbn [cp_panic cp_pool cp_run cp_reader cp_wire cp_made cp_dropped cp_lost].
      split; [reflexivity|]. split; [exact B2|]. split; [exact I3|]. split; [exact I4|]. split; [exact I5|]. unfold len in *. lia.
  Qed.

  Lemma cp_inv : forall s, reachable cpinit (lstep (cpstep hsum msum)) s -> cpInv s.
  Proof.
    apply reachable_inv.
    - intros s ->. repeat split; try constructor. discriminate.
    - intros s s' I [l H]. exact (cp_step s l s' I H).
  Qed.

  (** The same for packets: whatever a header object was used for before, also by
      the reader for packets of the peer, what is written is made of the content
      and of the packet ID taken for it. *)
  Theorem C163_packet_headers : forall s, reachable cpinit (lstep (cpstep hsum msum)) s ->
    cp_panic s = false /\ forall msgs id h, In (msgs, id, h) (cp_wire s) -> h = packetHeaderOf msgs id.
  Proof.
    intros s R. destruct (cp_inv s R) as (I1 & _ & _ & _ & I5 & _). split; [exact I1|].
    intros msgs id h I. rewrite Forall_forall in I5. exact (I5 (msgs, id, h) I).
  Qed.

  (** ** C164 *)
  (** Every packet header ever made is in the pool, in use, was dropped by the
      runtime or is one of a duplicate. *)
  Theorem C164_packet_headers_partial : forall s, reachable cpinit (lstep (cpstep hsum msum)) s ->
    cp_made s = len (cp_pool s) + len (cp_run s) + held s + cp_dropped s + len (cp_lost s).
  Proof. intros s R. apply (cp_inv s R). Qed.

  Definition isDup (l : clabel) : bool := match l with CEnd RDup => true | _ => false end.
  Fixpoint dups (ls : list clabel) : N :=
    match ls with [] => 0 | l :: r => (if isDup l then 1 else 0) + dups r end.

  Lemma lost_step : forall s l s', cpstep hsum msum s l = Some s' ->
    len (cp_lost s') = len (cp_lost s) + (if isDup l then 1 else 0).
  Proof.
    intros s l s' H. unfold cpstep in H. destruct (cp_panic s); [discriminate|].
    destruct l as [msgs pick|i|pick|id hs ms n|c|i]; cbn [isDup].
    - destruct (pickCont s pick) as [[[o rest] new]|]; [|discriminate].
      destruct (acquireCont _ _); injection H as <-; cbn [cp_lost cpanic]; lia.
    - destruct (takeNth i (cp_run s)) as [[th rest]|]; [|discriminate].
      destruct (negb _); [injection H as <-; cbn [cp_lost]; lia|]. destruct (negb _); [injection H as <-; cbn [cp_lost]; lia|].
      destruct (releaseCont _); injection H as <-; cbn [cp_lost cpanic]; lia.
    - destruct (cp_reader s); [discriminate|]. destruct (pickCont s pick) as [[[o rest] new]|]; [|discriminate].
      destruct (acquireCont _ _); injection H as <-; cbn [cp_lost cpanic]; lia.
    - destruct (cp_reader s); [|discriminate]. injection H as <-. cbn [cp_lost]. lia.
    - destruct (cp_reader s); [|discriminate]. destruct c; cbn [isDup].
      + destruct (releaseCont _); injection H as <-; cbn [cp_lost cpanic]; lia.
      + injection H as <-. cbn [cp_lost]. rewrite len_cons. lia.
      + destruct (releaseCont _); injection H as <-; cbn [cp_lost cpanic]; lia.
    - destruct (takeNth _ _) as [[? ?]|]; [|discriminate]. injection H as <-. cbn [cp_lost]. lia.
  Qed.

  (** ... and every duplicate takes one away for ever: in every run as many are
      lost as there were duplicates. *)
  Theorem C164_duplicates_refuted : forall ls s, exec (cpstep hsum msum) cps0 ls = Some s -> len (cp_lost s) = dups ls.
  Proof.
    assert (G : forall ls s0 s, exec (cpstep hsum msum) s0 ls = Some s -> len (cp_lost s) = len (cp_lost s0) + dups ls).
    { induction ls as [|l ls IH]; intros s0 s H; cbn [exec dups] in H |- *.
      - injection H as <-. lia.
      - destruct (cpstep hsum msum s0 l) as [s1|] eqn:E; [|discriminate].
        rewrite (IH _ _ H), (lost_step _ _ _ E). lia. }
    intros ls s H. rewrite (G _ _ _ H). reflexivity.
  Qed.
End Packets.
Print Assumptions C163_packet_headers.
Print Assumptions C164_packet_headers_partial.
Print Assumptions C164_duplicates_refuted.

(** Message headers are never lost. *)
Theorem C164_message_headers_partial : forall s, reachable hpinit (lstep hpstep) s ->
  hp_made s = len (hp_pool s) + len (hp_run s) + hp_dropped s.
Proof. intros s R. apply (hp_inv s R). Qed.
Print Assumptions C164_message_headers_partial.

(** Fragment headers: none is ever given back, and any number can be acquired by
    calls that have all ended. *)
Theorem C164_fragment_headers_refuted :
  (forall s, reachable hpinit (lstep hpstep) s -> hp_fragBack s = 0) /\
  (forall n, exists s, reachable hpinit (lstep hpstep) s /\ hp_run s = [] /\ hp_frags s = N.of_nat n).
Proof.
  split; [intros s R; apply (hp_inv s R)|].
  induction n as [|n (s & R & E1 & E2)].
  - exists hps0. split; [apply reach_init; reflexivity|]. split; reflexivity.
  - pose proof (hp_inv s R) as (I1 & _).
    assert (G : exists s', exec hpstep s [HCall (CFrag 5 [1]) None; HStep 0; HStep 0; HStep 0; HStep 0] = Some s' /\
                hp_run s' = [] /\ hp_frags s' = hp_frags s + 1).
    { cbn [exec]. unfold hpstep at 1. rewrite I1. cbn [acquireHdr newHobj ho_busy ho].
      cbn. eexists. split; [reflexivity|]. cbn. split; [exact E1|reflexivity]. }
    destruct G as (s' & G1 & G2 & G3). exists s'. split; [|split; [exact G2|rewrite G3, E2; lia]].
    revert G1. generalize [HCall (CFrag 5 [1]) None; HStep 0; HStep 0; HStep 0; HStep 0]. intros ls.
    revert s R E1 E2 I1 G3. clear. intros s R _ _ _ _. revert s R. induction ls as [|l ls IH]; intros s R H; cbn [exec] in H.
    + injection H as <-. exact R.
    + destruct (hpstep s l) as [s1|] eqn:E; [|discriminate]. apply (IH s1); [|exact H].
      apply (reach_step _ _ s); [exact R|]. exists l. exact E.
Qed.
Print Assumptions C164_fragment_headers_refuted.

(** The header of a fragment, then of a confidential message, then of a key
    exchange message: one object, three headers. *)
Definition runHdr (c : call) (pick : option nat) : list hlabel := [HCall c pick; HStep 0; HStep 0; HStep 0; HStep 0].
Example C163_example : exists s,
  exec hpstep hps0 (runHdr (CFrag 9 [1;2;3]) None ++ runHdr (CMsg 7 [1]) (Some 0%nat) ++ runHdr (CMsg 4294967294 [1;2]) (Some 0%nat)) = Some s /\
  map snd (hp_wire s) =
    [{| mType := 4294967294; mLength := 2; mFlags := 0 |}; {| mType := 7; mLength := 1; mFlags := 1 |};
     {| mType := 9; mLength := 3; mFlags := 2 |}] /\
  hp_made s = 1 /\ hp_frags s = 1 /\ hp_fragBack s = 0.
Proof. eexists. split; [vm_compute; reflexivity|]. repeat split. Qed.

(** A packet of the peer is opened, is a duplicate; another one fails; then a
    packet is sent with the header the second one used. *)
Example C164_example : exists s,
  exec (cpstep (fun id n => id) (fun id m => m)) cps0
    [COpen None; CRead [9] [8] [7] 6; CEnd RDup; COpen None; CRead [5] [4] [3] 2; CEnd RFails;
     CSend [1; 2] (Some 0%nat); CStep 0; CStep 0; CStep 0] = Some s /\
  len (cp_lost s) = 1 /\ len (cp_pool s) = 1 /\ cp_made s = 2 /\
  map snd (cp_wire s) = [packetHeaderOf (fun id n => id) (fun id m => m) [1; 2] 3].
Proof. eexists. split; [vm_compute; reflexivity|]. repeat split. Qed.
