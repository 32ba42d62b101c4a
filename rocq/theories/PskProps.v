(** C49 and C128: the keys that are made of a pre-shared key (models KxModel,
    IntegModel). The theorems turn equal keys into a collision of one of the two
    hash functions; the colliding inputs are named. *)
From Coq Require Import String NArith List Bool Arith Lia.
From Verif Require Import Base BaseLemmas TS MessageModel CodecProofs PacketModel KxModel KxSpec KxProofs KxProps ReaderModel ReaderLoopModel IntegModel.
Import ListNotations.
Local Open Scope string_scope.
Local Open Scope list_scope.
Local Open Scope N_scope.

Definition collision (h : bytes -> bytes) (x y : bytes) : Prop := x <> y /\ h x = h y.

(** What is hashed, hash.go 11-29: the key with a text behind it, and the outcome
    with the text again. *)
Definition inner (text psk : bytes) : bytes := psk ++ text.
Definition outer (blake3 : bytes -> bytes) (text psk : bytes) : bytes := blake3 (inner text psk) ++ text.
Definition sessionText : bytes := ascii_bytes "xaionaro-go/secureio.KeyExchangercipherKey".
Definition packetText : bytes := ascii_bytes "xaionaro-go/secureio.KeyExchangerauxCipherKey".

Lemma hash_text : forall blake3 sha3 p, hash blake3 sha3 p [Salt; purpose] = sha3 (outer blake3 sessionText p) /\
  hash blake3 sha3 p [Salt; auxPurpose] = sha3 (outer blake3 packetText p).
Proof. intros. split; reflexivity. Qed.

Lemma same_text : forall blake3 sha3 text p q, p <> q -> sha3 (outer blake3 text p) = sha3 (outer blake3 text q) ->
  collision blake3 (inner text p) (inner text q) \/ collision sha3 (outer blake3 text p) (outer blake3 text q).
Proof.
  intros blake3 sha3 text p q N E.
  destruct (list_eq_dec N.eq_dec (blake3 (inner text p)) (blake3 (inner text q))) as [D|D].
  - left. split; [|exact D]. intros H. apply N. unfold inner in H. apply app_inv_tail in H. exact H.
  - right. split; [|exact E]. intros H. apply D. unfold outer in H. apply app_inv_tail in H. exact H.
Qed.

(** ** C49: two pre-shared keys *)

(** Equal session keys in any slot, in spite of different pre-shared keys, come
    with a collision. *)
Theorem C49_equal_keys_collide : forall dh blake3 sha3 ca cb s a' b' la ra i k p q,
  (forall x y, length (dh x y) = 32%nat) -> (forall x, length (sha3 x) = 32%nat) ->
  kNextLocal s = Some la -> kNextRemote s = Some ra ->
  cPSK ca = Some p -> cPSK cb = Some q -> p <> q ->
  updateSecrets dh blake3 sha3 ca s = Ret a' -> updateSecrets dh blake3 sha3 cb s = Ret b' ->
  nth i (kKeys a') None = Some k -> nth i (kKeys b') None = Some k ->
  collision blake3 (inner sessionText p) (inner sessionText q) \/
  collision sha3 (outer blake3 sessionText p) (outer blake3 sessionText q).
Proof.
  intros dh blake3 sha3 ca cb s a' b' la ra i k p q Hl Hs El Er Pa Pb N Ea Eb Ka Kb.
  apply same_text; [exact N|].
  destruct (list_eq_dec N.eq_dec (sha3 (outer blake3 sessionText p)) (sha3 (outer blake3 sessionText q))) as [E|E]; [exact E|].
  exfalso. refine (C49_different_psk_different_keys dh blake3 sha3 ca cb s a' b' la ra i k Hl Hs El Er _ Ea Eb Ka Kb).
  cbv beta zeta. rewrite Pa, Pb. exact E.
Qed.
Print Assumptions C49_equal_keys_collide.

(** ** C128: two purposes *)

(** The key for packet IDs and unconfidential packets made of one pre-shared key
    is never what session keys are masked with, be it for the same or another
    pre-shared key, unless SHA3 collides. *)
Theorem C128_purposes_differ : forall blake3 sha3 c p q a,
  (forall x, length (sha3 x) = 32%nat) -> (forall x, length (blake3 x) = 32%nat) ->
  cPSK (icKx c) = Some p -> auxKey blake3 sha3 c = Some a ->
  a = sha3 (outer blake3 sessionText q) ->
  collision sha3 (outer blake3 packetText p) (outer blake3 sessionText q).
Proof.
  intros blake3 sha3 c p q a Hs Hb Hc Ha E. unfold auxKey in Ha. rewrite Hc in Ha. rewrite (proj2 (hash_text blake3 sha3 p)) in Ha.
  rewrite firstn_all2 in Ha by (rewrite Hs; auto). assert (Ea : a = sha3 (outer blake3 packetText p)) by congruence. rewrite Ea in E.
  split; [|exact E]. intros H. apply (f_equal (@List.length N)) in H. unfold outer in H. rewrite !app_length, !Hb in H.
  vm_compute in H. discriminate.
Qed.
Print Assumptions C128_purposes_differ.

(** Two sessions with different pre-shared keys have different keys for packet
    IDs, unless a hash function collides. *)
Theorem C128_psk_differ : forall blake3 sha3 c d p q a,
  (forall x, length (sha3 x) = 32%nat) -> cPSK (icKx c) = Some p -> cPSK (icKx d) = Some q -> p <> q ->
  auxKey blake3 sha3 c = Some a -> auxKey blake3 sha3 d = Some a ->
  collision blake3 (inner packetText p) (inner packetText q) \/ collision sha3 (outer blake3 packetText p) (outer blake3 packetText q).
Proof.
  intros blake3 sha3 c d p q a Hs Hc Hd N Ea Eb. unfold auxKey in *. rewrite Hc in Ea. rewrite Hd in Eb.
  rewrite (proj2 (hash_text blake3 sha3 p)) in Ea. rewrite (proj2 (hash_text blake3 sha3 q)) in Eb.
  rewrite firstn_all2 in Ea by (rewrite Hs; auto). rewrite firstn_all2 in Eb by (rewrite Hs; auto).
  apply same_text; [exact N|congruence].
Qed.
Print Assumptions C128_psk_differ.

(** With a hash function that looks at everything all these keys differ; with one
    that looks at the beginning only the two purposes share their key, and the
    collision the theorem promises is there. *)
Definition sumHash (b : bytes) : bytes := le_enc 32 (fold_left (fun a x => (a * 257 + x + 1) mod (2 ^ 256 - 189)) b 0).
Definition pskConf (p : bytes) : iconf :=
  {| icKx := toyConf (Some p) 1; icDetachFails := 3; icErrorOn := None; icCloseOnError := false |}.
Definition secret : bytes := ascii_bytes "correct horse battery staple".
Definition secret2 : bytes := ascii_bytes "correct horse battery stapler".

Example C49_collide_example :
  sumHash (outer sumHash sessionText secret) <> sumHash (outer sumHash sessionText secret2) /\
  (exists a b, updateSecrets toyDh sumHash sumHash (toyConf (Some secret) 1) (toyPeer 3 4 5 6) = Ret a /\
     updateSecrets toyDh sumHash sumHash (toyConf (Some secret2) 1) (toyPeer 3 4 5 6) = Ret b /\
     nth 0 (kKeys a) None <> None /\ nth 0 (kKeys a) None <> nth 0 (kKeys b) None) /\
  (exists a b k, updateSecrets toyDh (fun _ => []) sumHash (toyConf (Some secret) 1) (toyPeer 3 4 5 6) = Ret a /\
     updateSecrets toyDh (fun _ => []) sumHash (toyConf (Some secret2) 1) (toyPeer 3 4 5 6) = Ret b /\
     nth 0 (kKeys a) None = Some k /\ nth 0 (kKeys b) None = Some k).
Proof.
  split; [vm_compute; discriminate|]. split.
  - do 2 eexists. split; [vm_compute; reflexivity|]. split; [vm_compute; reflexivity|]. split; vm_compute; discriminate.
  - do 3 eexists. split; [vm_compute; reflexivity|]. split; [vm_compute; reflexivity|]. split; vm_compute; reflexivity.
Qed.

Example C128_example : exists a b c,
  auxKey sumHash sumHash (pskConf secret) = Some a /\ auxKey sumHash sumHash (pskConf secret2) = Some b /\
  c = sumHash (outer sumHash sessionText secret) /\ List.length a = 32%nat /\ a <> b /\ a <> c /\
  auxKey toyHash toyHash (pskConf secret) = Some (toyHash (outer toyHash sessionText secret)).
Proof.
  do 3 eexists. split; [vm_compute; reflexivity|]. split; [vm_compute; reflexivity|]. split; [vm_compute; reflexivity|].
  repeat split; try (vm_compute; discriminate); vm_compute; reflexivity.
Qed.
