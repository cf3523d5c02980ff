(** Property C119: tag and key lengths that HMAC does not have. *)
From Coq Require Import NArith ZArith Lia List Arith Bool.
From Verif Require Import Res Mem MemSpec ListLemmas MemLemmas Concrete Finite ShaSpec ShaModel ShaProofs HmacModel HmacProofs HmacProps.
Import ListNotations.

(** Reading past the end of a block is undefined. *)
Lemma ld_cells_past m b : forall n p, nth_error m (pblk p) = Some b -> length b < poff p + n -> poff p <= length b -> ld_cells m p n = UB.
Proof.
  induction n as [|n IH]; intros p E L O; [lia|]. cbn [ld_cells]. rewrite E. destruct (nth_error b (poff p)) as [c|] eqn:Q; [|reflexivity].
  assert (H : poff p < length b) by (apply nth_error_Some; congruence).
  rewrite (IH (padd p 1)); [reflexivity|exact E| |]; unfold padd; cbn [poff]; lia.
Qed.
Lemma memcpy_past m dst src n b : nth_error m (pblk src) = Some b -> length b < poff src + n -> poff src <= length b -> memcpy m dst src n = UB.
Proof. intros E L O. unfold memcpy. rewrite (ld_cells_past m b n src E L O). destruct (negb (n =? 0) && overlaps dst src n); reflexivity. Qed.

(** With a message of any length but 0, every tag length that is negative or above
    32 is undefined, in generation and in validation, whatever the buffers;
    lengths from 0 to 32 give the leading bytes of the tag. *)
Theorem C119_hmac_tag_length_exact : forall m key k message data tag tl,
  has_bytes m key k -> (Z.of_nat (length k) + 73 <= 2^31)%Z ->
  has_bytes m message data -> 0 < length data -> (Z.of_nat (length data) + 137 <= 2^31)%Z ->
  exists cs, hmac_load_key sha256_auth m key (Z.of_nat (length k)) = Ret cs /\
    ((tl < 0 \/ 32 < tl)%Z -> hmac_tag_generation sha256_auth cs m tag message (N.of_nat (length data)) tl = UB /\
                              hmac_tag_validation sha256_auth cs m tag message (N.of_nat (length data)) tl = UB) /\
    ((0 <= tl <= 32)%Z -> writable m tag (Z.to_nat tl) ->
       hmac_tag_generation sha256_auth cs m tag message (N.of_nat (length data)) tl =
       Ret (write_at m tag (firstn (Z.to_nat tl) (HMAC k data)))).
Proof.
  intros m key k message data tag tl Hk Lk Hm H0 Hl. eexists. split; [apply (load_key_ok _ _ auth_hash_ok); auto|].
  fold (keyed k). pose proof (has_bytes_bytes _ _ _ Hk) as Kok. split.
  - intros T.
    assert (G : forall m' t, has_bytes m' message data -> hmac_tag_generation sha256_auth (keyed k) m' t message (N.of_nat (length data)) tl = UB).
    { intros m' t Hm'. destruct (generation_upto _ _ auth_hash_ok m' k t message data tl Kok Hm' H0 Hl I I) as (a & b & c & ->).
      unfold memcpy_int. destruct (Z.ltb_spec tl 0); [reflexivity|].
      rewrite (memcpy_past _ _ _ _ (map Some (HMAC k data))); [reflexivity| | |].
      - cbn [pblk]. apply nth_error_last.
      - cbn [poff]. rewrite map_length. unfold HMAC. rewrite SHA256_length. lia.
      - cbn [poff]. lia. }
    split; [apply G, Hm|]. unfold hmac_tag_validation, alloc. destruct (Z.ltb_spec tl 0); [reflexivity|].
    rewrite G; [reflexivity|]. apply has_bytes_alloc. exact Hm.
  - intros T W. replace tl with (Z.of_nat (Z.to_nat tl)) at 1 by lia. apply (generation_ok _ _ auth_hash_ok); auto; lia.
Qed.
Print Assumptions C119_hmac_tag_length_exact.

(** A negative key length is undefined whatever the memory holds. *)
Theorem C119_hmac_negative_key_length_undefined : forall m key keysize, (keysize < 0)%Z ->
  hmac_load_key sha256_auth m key keysize = UB.
Proof.
  intros m key keysize H. unfold hmac_load_key, alloc, memcpy_int. destruct (Z.ltb_spec 64 keysize); [lia|].
  destruct (Z.ltb_spec keysize 0); [reflexivity|lia].
Qed.
Print Assumptions C119_hmac_negative_key_length_undefined.

(** Refuted: a buffer of 33 bytes for the tag, and a length of 33. *)
Theorem C119_hmac_tag_length_refuted : exists m key k message data tag tl cs,
  has_bytes m key k /\ has_bytes m message data /\ writable m tag (Z.to_nat tl) /\ 0 < length data /\ (0 <= tl)%Z /\
  hmac_load_key sha256_auth m key (Z.of_nat (length k)) = Ret cs /\
  hmac_tag_generation sha256_auth cs m tag message (N.of_nat (length data)) tl = UB.
Proof.
  set (m := [holding [1; 2; 3]%N; holding [5; 6]%N; fresh 33]).
  assert (Hk : has_bytes m (Ptr 0 0) [1; 2; 3]%N) by conc_has_bytes. assert (Hm : has_bytes m (Ptr 1 0) [5; 6]%N) by conc_has_bytes.
  destruct (C119_hmac_tag_length_exact m (Ptr 0 0) [1; 2; 3]%N (Ptr 1 0) [5; 6]%N (Ptr 2 0) 33 Hk ltac:(cbn; lia) Hm ltac:(cbn; lia) ltac:(cbn; lia)) as (cs & E & U & _).
  exists m, (Ptr 0 0), [1; 2; 3]%N, (Ptr 1 0), [5; 6]%N, (Ptr 2 0), 33%Z, cs.
  split; [exact Hk|]. split; [exact Hm|]. split; [conc_writable|]. split; [cbn; lia|]. split; [lia|]. split; [exact E|]. apply U. lia.
Qed.
Print Assumptions C119_hmac_tag_length_refuted.

Example C119_instance : let m := [holding [1; 2; 3]%N; holding [5; 6]%N; fresh 33] in
  has_bytes m (Ptr 0 0) [1; 2; 3]%N /\ has_bytes m (Ptr 1 0) [5; 6]%N /\ writable m (Ptr 2 0) 32 /\
  (let* cs := hmac_load_key sha256_auth m (Ptr 0 0) 3 in hmac_tag_generation sha256_auth cs m (Ptr 2 0) (Ptr 1 0) 2 33) = UB /\
  (let* cs := hmac_load_key sha256_auth m (Ptr 0 0) 3 in hmac_tag_validation sha256_auth cs m (Ptr 2 0) (Ptr 1 0) 2 (-1)) = UB /\
  (let* cs := hmac_load_key sha256_auth m (Ptr 0 0) 3 in
   let* m := hmac_tag_generation sha256_auth cs m (Ptr 2 0) (Ptr 1 0) 2 32 in ldn m (Ptr 2 0) 32) = Ret (HMAC [1; 2; 3] [5; 6])%N.
Proof.
  split; [conc_has_bytes|]. split; [conc_has_bytes|]. split; [conc_writable|]. split; [vm_compute; reflexivity|].
  split; [vm_compute; reflexivity|]. vm_compute. reflexivity.
Qed.
