(** Property theorems C07-C10 (HMAC-SHA-256). *)
From Coq Require Import NArith ZArith Lia List Arith.
From Verif Require Import Res Mem MemSpec Concrete Finite ShaSpec ShaModel HmacModel HmacProofs.
Import ListNotations.

(** C07 *)
Theorem C07_hmac_generation_is_rfc2104 : forall m key k tag message data t,
  has_bytes m key k -> (Z.of_nat (length k) + 73 <= 2^31)%Z ->
  has_bytes m message data -> 0 < length data -> (Z.of_nat (length data) + 137 <= 2^31)%Z ->
  writable m tag t -> t <= 32 ->
  exists cs, hmac_load_key sha256_auth m key (Z.of_nat (length k)) = Ret cs /\
    hmac_tag_generation sha256_auth cs m tag message (N.of_nat (length data)) (Z.of_nat t) =
    Ret (write_at m tag (firstn t (HMAC k data))).
Proof.
  intros m key k tag message data t Hk Lk Hm H0 Lm Wt Ht. eexists. split.
  - apply (load_key_ok _ _ auth_hash_ok); auto.
  - apply (generation_ok _ _ auth_hash_ok); auto. apply (MemLemmas.has_bytes_bytes _ _ _ Hk).
Qed.
Print Assumptions C07_hmac_generation_is_rfc2104.

(** RFC 4231 test case 2 (key "Jefe"), full tag. *)
Example C07_instance :
  let key := [74; 101; 102; 101]%N in
  let msg := [119; 104; 97; 116; 32; 100; 111; 32; 121; 97; 32; 119; 97; 110; 116; 32; 102; 111; 114; 32;
              110; 111; 116; 104; 105; 110; 103; 63]%N in
  let m := [holding key; holding msg; fresh 32] in
  has_bytes m (Ptr 0 0) key /\ has_bytes m (Ptr 1 0) msg /\ writable m (Ptr 2 0) 32 /\
  (let* cs := hmac_load_key sha256_auth m (Ptr 0 0) 4 in
   hmac_tag_generation sha256_auth cs m (Ptr 2 0) (Ptr 1 0) 28 32) =
  Ret [holding key; holding msg; holding
   [0x5b; 0xdc; 0xc1; 0x46; 0xbf; 0x60; 0x75; 0x4e; 0x6a; 0x04; 0x24; 0x26; 0x08; 0x95; 0x75; 0xc7;
    0x5a; 0x00; 0x3f; 0x08; 0x9d; 0x27; 0x39; 0x83; 0x9d; 0xec; 0x58; 0xb9; 0x64; 0xec; 0x38; 0x43]%N].
Proof.
  split; [conc_has_bytes|split; [conc_has_bytes|split; [conc_writable|vm_compute; reflexivity]]].
Qed.

(** C08: the answer is 1 for the right tag and 0 for every other tag. *)
Theorem C08_hmac_validation_exact : forall m key k tag message data t,
  has_bytes m key k -> (Z.of_nat (length k) + 73 <= 2^31)%Z ->
  has_bytes m message data -> 0 < length data -> (Z.of_nat (length data) + 137 <= 2^31)%Z ->
  has_bytes m tag t -> length t <= 32 ->
  exists cs, hmac_load_key sha256_auth m key (Z.of_nat (length k)) = Ret cs /\
    (t = firstn (length t) (HMAC k data) ->
     hmac_tag_validation sha256_auth cs m tag message (N.of_nat (length data)) (Z.of_nat (length t)) = Ret 1%N) /\
    (t <> firstn (length t) (HMAC k data) ->
     hmac_tag_validation sha256_auth cs m tag message (N.of_nat (length data)) (Z.of_nat (length t)) = Ret 0%N).
Proof.
  intros m key k tag message data t Hk Lk Hm H0 Lm Wt Ht. eexists. split.
  - apply (load_key_ok _ _ auth_hash_ok); auto.
  - fold (keyed k).
    rewrite (validation_ok _ _ auth_hash_ok); auto; [|apply (MemLemmas.has_bytes_bytes _ _ _ Hk)].
    destruct (list_N_eqb t (firstn (length t) (HMAC k data))) eqn:E.
    + split; auto. intros N. apply list_N_eqb_eq in E. congruence.
    + split; auto. intros E'. apply list_N_eqb_iff in E'. congruence.
Qed.
Print Assumptions C08_hmac_validation_exact.

(** A 2-byte tag: the right one is accepted, a wrong one is not. *)
Example C08_instance :
  let m := [holding [1; 2; 3]%N; holding [5; 6]%N; holding (firstn 2 (HMAC [1; 2; 3] [5; 6])%N); holding [0; 0]%N] in
  has_bytes m (Ptr 0 0) [1; 2; 3]%N /\ has_bytes m (Ptr 1 0) [5; 6]%N /\
  has_bytes m (Ptr 2 0) (firstn 2 (HMAC [1; 2; 3] [5; 6])%N) /\
  (let* cs := hmac_load_key sha256_auth m (Ptr 0 0) 3 in
   let* a := hmac_tag_validation sha256_auth cs m (Ptr 2 0) (Ptr 1 0) 2 2 in
   let* b := hmac_tag_validation sha256_auth cs m (Ptr 3 0) (Ptr 1 0) 2 2 in Ret (a, b)) = Ret (1, 0)%N.
Proof.
  split; [conc_has_bytes|split; [conc_has_bytes|split]].
  - vm_compute. conc_has_bytes.
  - vm_compute. reflexivity.
Qed.

(** C09 is false: for the empty message no tag is written, and validation of
    any tag of at least one byte reads an uninitialised buffer. *)
Theorem C09_hmac_empty_message_refuted : exists m key k tag message t,
  has_bytes m key k /\ has_bytes m message [] /\ has_bytes m tag t /\
  length t = 32 /\ t = HMAC k [] /\
  exists cs, hmac_load_key sha256_auth m key (Z.of_nat (length k)) = Ret cs /\
    hmac_tag_validation sha256_auth cs m tag message 0 32 = UB.
Proof.
  exists [holding [1; 2; 3]%N; []; holding (HMAC [1; 2; 3]%N [])], (Ptr 0 0), [1; 2; 3]%N, (Ptr 2 0), (Ptr 1 0),
    (HMAC [1; 2; 3]%N []).
  split; [conc_has_bytes|]. split; [conc_has_bytes|].
  split; [vm_compute; conc_has_bytes|]. split; [vm_compute; reflexivity|]. split; [reflexivity|].
  eexists. split; [vm_compute; reflexivity|]. vm_compute. reflexivity.
Qed.
Print Assumptions C09_hmac_empty_message_refuted.

Theorem C09_hmac_empty_message_exact : forall m cs tag message t,
  hmac_tag_generation sha256_auth cs m tag message 0 t = Ret m /\
  (forall x l, has_bytes m tag (x :: l) ->
     hmac_tag_validation sha256_auth cs m tag message 0 (Z.of_nat (length (x :: l))) = UB) /\
  hmac_tag_validation sha256_auth cs m tag message 0 0 = Ret 1%N.
Proof.
  intros m cs tag message t. split; [apply generation_empty|]. split.
  - intros x l H. apply validation_empty_ub. auto.
  - reflexivity.
Qed.
Print Assumptions C09_hmac_empty_message_exact.
Example C09_instance :
  let m := [holding [1; 2; 3]%N; holding [4; 5]%N] in
  has_bytes m (Ptr 1 0) [4; 5]%N /\
  exists cs, hmac_load_key sha256_auth m (Ptr 0 0) 3 = Ret cs /\
    hmac_tag_generation sha256_auth cs m (Ptr 1 0) (Ptr 0 0) 0 2 = Ret m /\
    hmac_tag_validation sha256_auth cs m (Ptr 1 0) (Ptr 0 0) 0 2 = UB /\
    hmac_tag_validation sha256_auth cs m (Ptr 1 0) (Ptr 0 0) 0 0 = Ret 1%N.
Proof. split; [conc_has_bytes|]. eexists. split; [vm_compute; reflexivity|]. repeat split. Qed.

Lemma cons_eq_inv {A} (x y : A) l l' : x :: l = y :: l' -> x = y /\ l = l'.
Proof. intros H. injection H. auto. Qed.

(** C10: only the normalised key matters. *)
Theorem C10_hmac_key_normalisation : forall m1 m2 key1 k1 key2 k2,
  has_bytes m1 key1 k1 -> (Z.of_nat (length k1) + 73 <= 2^31)%Z ->
  has_bytes m2 key2 k2 -> (Z.of_nat (length k2) + 73 <= 2^31)%Z ->
  (hmac_key k1 = hmac_key k2 <->
   hmac_load_key sha256_auth m1 key1 (Z.of_nat (length k1)) =
   hmac_load_key sha256_auth m2 key2 (Z.of_nat (length k2))).
Proof.
  intros m1 m2 key1 k1 key2 k2 H1 L1 H2 L2.
  rewrite !(load_key_ok _ _ auth_hash_ok) by auto. split.
  - intros ->. reflexivity.
  - intros E. injection E as E _. revert E. generalize (hmac_key k1) (hmac_key k2).
    induction l as [|x l IH]; intros [|y l'] E; cbn [map] in E; try discriminate; auto.
    apply cons_eq_inv in E. destruct E as [Ex El]. f_equal; auto.
    apply (f_equal (N.lxor 54)) in Ex.
    rewrite <- !N.lxor_assoc, N.lxor_nilpotent, !N.lxor_0_l in Ex. exact Ex.
Qed.
Print Assumptions C10_hmac_key_normalisation.

(** Trailing zero bytes below 64 bytes, and the hash of a key above 64 bytes. *)
Theorem C10_hmac_equivalent_keys : forall k n,
  (length k + n <= 64 -> hmac_key (k ++ repeat 0%N n) = hmac_key k) /\
  (64 < length k -> hmac_key (SHA256 k) = hmac_key k).
Proof.
  intros k n. split; intros H; unfold hmac_key.
  - rewrite app_length, repeat_length.
    destruct (Nat.leb_spec (length k + n) 64); [|lia]. destruct (Nat.leb_spec (length k) 64); [|lia].
    rewrite app_length, repeat_length, <- app_assoc, <- repeat_app. do 2 f_equal. lia.
  - rewrite SHA256_length. destruct (Nat.leb_spec (length k) 64); [lia|].
    destruct (Nat.leb_spec 32 64); [|lia]. reflexivity.
Qed.
Print Assumptions C10_hmac_equivalent_keys.

Example C10_instance :
  let m := [holding [9; 8]%N; holding [9; 8; 0; 0; 0]%N] in
  has_bytes m (Ptr 0 0) [9; 8]%N /\ has_bytes m (Ptr 1 0) [9; 8; 0; 0; 0]%N /\
  hmac_key [9; 8]%N = hmac_key [9; 8; 0; 0; 0]%N.
Proof. split; [conc_has_bytes|split; [conc_has_bytes|vm_compute; reflexivity]]. Qed.
