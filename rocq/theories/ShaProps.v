(** Property theorems C04-C06 and C69 (SHA-256, both copies). *)
From Coq Require Import NArith ZArith Lia List Arith.
From Verif Require Import Res Mem MemSpec Concrete ShaSpec ShaModel ShaProofs.
Import ListNotations.

(** C04: the HMAC folder's function computes FIPS 180-4 SHA-256 and changes
    nothing but the 32 digest bytes.  The digest buffer may overlap the message. *)
Theorem C04_sha256_is_fips : forall m digest message data,
  has_bytes m message data -> writable m digest 32 ->
  (Z.of_nat (length data) + 73 <= 2^31)%Z ->
  sha256_auth m digest message (N.of_nat (length data)) =
  Ret (write_at m digest (SHA256 data)).
Proof. exact sha256_auth_ok. Qed.
Print Assumptions C04_sha256_is_fips.

(** "abc", checked against the published digest. *)
Example C04_instance :
  let m := [holding [97; 98; 99]%N; fresh 32] in
  has_bytes m (Ptr 0 0) [97; 98; 99]%N /\ writable m (Ptr 1 0) 32 /\
  sha256_auth m (Ptr 1 0) (Ptr 0 0) 3 = Ret [holding [97; 98; 99]%N; holding
    [0xba; 0x78; 0x16; 0xbf; 0x8f; 0x01; 0xcf; 0xea; 0x41; 0x41; 0x40; 0xde; 0x5d; 0xae; 0x22; 0x23;
     0xb0; 0x03; 0x61; 0xa3; 0x96; 0x17; 0x7a; 0x9c; 0xb4; 0x10; 0xff; 0x61; 0xf2; 0x00; 0x15; 0xad]%N].
Proof. split; [conc_has_bytes|split; [conc_writable|vm_compute; reflexivity]]. Qed.

(** C05 is false: a 63-byte message makes the Hash folder's function write
    outside its padding buffer. *)
Theorem C05_sha256_hash_folder_refuted : exists m digest message data,
  has_bytes m message data /\ writable m digest 32 /\ length data = 63 /\
  sha256_hash m digest message (N.of_nat (length data)) = UB.
Proof.
  exists [holding (repeat 97%N 63); fresh 32], (Ptr 1 0), (Ptr 0 0), (repeat 97%N 63).
  split; [conc_has_bytes|split; [conc_writable|split; [reflexivity|vm_compute; reflexivity]]].
Qed.
Print Assumptions C05_sha256_hash_folder_refuted.

(** C05/C06, exact extent: the Hash folder's function goes wrong exactly at
    the lengths that are 63 modulo 64. *)
Theorem C05_sha256_hash_folder_exact : forall m digest message data,
  has_bytes m message data -> writable m digest 32 ->
  (Z.of_nat (length data) + 73 <= 2^31)%Z ->
  (length data mod 64 <> 63 ->
   sha256_hash m digest message (N.of_nat (length data)) = Ret (write_at m digest (SHA256 data))) /\
  (length data mod 64 = 63 ->
   sha256_hash m digest message (N.of_nat (length data)) = UB).
Proof.
  intros m digest message data Hm Hd Hs. split; intros H.
  - apply sha256_hash_ok; auto.
  - apply sha256_hash_ub; auto.
Qed.
Print Assumptions C05_sha256_hash_folder_exact.
Example C05_instance :
  let m := [holding (repeat 97%N 63); fresh 32] in
  has_bytes m (Ptr 0 0) (repeat 97%N 62) /\ has_bytes m (Ptr 0 0) (repeat 97%N 63) /\ writable m (Ptr 1 0) 32 /\
  62 mod 64 <> 63 /\ 63 mod 64 = 63.
Proof. split; [conc_has_bytes|]. split; [conc_has_bytes|]. split; [conc_writable|]. split; [discriminate|reflexivity]. Qed.

Theorem C06_sha256_copies_agree : forall m digest message data,
  has_bytes m message data -> writable m digest 32 ->
  (Z.of_nat (length data) + 73 <= 2^31)%Z ->
  (length data mod 64 <> 63 <->
   sha256_hash m digest message (N.of_nat (length data)) =
   sha256_auth m digest message (N.of_nat (length data))).
Proof.
  intros m digest message data Hm Hd Hs. split; intros H.
  - rewrite sha256_hash_ok, sha256_auth_ok; auto.
  - intros E. rewrite sha256_hash_ub, sha256_auth_ok in H by auto. discriminate.
Qed.
Print Assumptions C06_sha256_copies_agree.

(** A 64-byte message (two blocks after padding), digest placed over the message. *)
Example C06_instance :
  let m := [holding (repeat 97%N 64)] in
  has_bytes m (Ptr 0 0) (repeat 97%N 64) /\ writable m (Ptr 0 0) 32 /\ 64 mod 64 <> 63 /\
  sha256_hash m (Ptr 0 0) (Ptr 0 0) 64 = Ret [holding (SHA256 (repeat 97%N 64) ++ repeat 97%N 32)].
Proof.
  split; [conc_has_bytes|split; [conc_writable|split; [discriminate|vm_compute; reflexivity]]].
Qed.

(** C69 is false: the length parameter has 64 bits but the padded length is
    kept in an int, so every message from 2^31-72 bytes on is undefined. *)
Theorem C69_sha256_long_messages_refuted : exists m digest message data,
  has_bytes m message data /\ writable m digest 32 /\
  (Z.of_nat (length data) < 2^64 - 128)%Z /\
  sha256_auth m digest message (N.of_nat (length data)) = UB.
Proof.
  assert (X : exists data, (Z.of_nat (length data) = 2^31)%Z /\ Forall (fun x => (x < 256)%N) data).
  { exists (repeat 0%N (Z.to_nat (2^31))). rewrite repeat_length, Z2Nat.id by discriminate.
    split; [reflexivity|]. apply Forall_forall. intros x Hx. apply repeat_spec in Hx. subst. reflexivity. }
  destruct X as (data & L & F).
  assert (H : has_bytes [holding data; fresh 32] (Ptr 0 0) data).
  { split.
    - exact F.
    - exists (holding data). split; [reflexivity|]. split.
      + unfold holding. rewrite map_length. simpl. apply le_n.
      + cbn [poff skipn]. unfold holding. rewrite <- (map_length Some data). apply firstn_all. }
  exists [holding data; fresh 32], (Ptr 1 0), (Ptr 0 0), data.
  split; [exact H|]. split; [conc_writable|].
  split; [rewrite L; reflexivity|].
  apply sha256_auth_too_long; auto; rewrite L; reflexivity.
Qed.
Print Assumptions C69_sha256_long_messages_refuted.

Theorem C69_sha256_long_messages_exact : forall m digest message data,
  has_bytes m message data -> writable m digest 32 ->
  (Z.of_nat (length data) < 2^64 - 128)%Z ->
  (sha256_auth m digest message (N.of_nat (length data)) = Ret (write_at m digest (SHA256 data)) <->
   (Z.of_nat (length data) <= 2^31 - 73)%Z).
Proof.
  intros m digest message data Hm Hd Hs. split; intros H.
  - destruct (Z.lt_ge_cases (2^31) (Z.of_nat (length data) + 73)); [|lia].
    rewrite sha256_auth_too_long in H; auto; [discriminate|lia].
  - apply sha256_auth_ok; auto. lia.
Qed.
Print Assumptions C69_sha256_long_messages_exact.
(** Messages of both kinds exist; the longest that is hashed has 2^31 - 73 bytes. *)
Example C69_instance : forall n, n = (2^31 - 73)%Z \/ n = (2^31 - 72)%Z ->
  exists m data, has_bytes m (Ptr 0 0) data /\ writable m (Ptr 1 0) 32 /\ Z.of_nat (length data) = n /\ (n < 2^64 - 128)%Z.
Proof.
  intros n Hn. exists [holding (repeat 0%N (Z.to_nat n)); fresh 32], (repeat 0%N (Z.to_nat n)).
  assert (H0 : (0 <= n < 2^64 - 128)%Z) by (destruct Hn as [-> | ->]; split; discriminate || reflexivity). clear Hn.
  split.
  { split; [apply Forall_forall; intros x Hx; apply repeat_spec in Hx; subst x; reflexivity|].
    exists (holding (repeat 0%N (Z.to_nat n))). split; [reflexivity|]. unfold holding. rewrite map_length. split; [apply Nat.le_refl|].
    cbn [poff skipn]. rewrite <- (map_length Some (repeat 0%N (Z.to_nat n))) at 1. apply firstn_all. }
  split; [conc_writable|]. rewrite repeat_length, Z2Nat.id by apply H0. split; [reflexivity|apply H0].
Qed.
