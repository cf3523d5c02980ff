(** Property theorems C126 and C127: what is left in released memory. *)
From Coq Require Import NArith ZArith Lia List Arith.
From Verif Require Import Res Words Mem Ints MemSpec ListLemmas MemLemmas WordsLemmas SpecWords XorProofs Concrete Finite
  ShaSpec ShaModel ShaProofs HmacModel HmacProofs ChachaSpec ChachaModel ChachaProofs RemainsModel.
Import ListNotations.
Local Open Scope nat_scope.

(** The functions with the released buffers are the functions. *)
Lemma hmac_released_same sha cs m tag message n t :
  hmac_tag_generation sha cs m tag message n t =
  (let* (m, _) := hmac_tag_generation_released sha cs m tag message n t in Ret m).
Proof.
  unfold hmac_tag_generation, hmac_tag_generation_released. destruct (n <? 1)%N; [reflexivity|].
  unfold alloc. cbv beta iota zeta.
  repeat match goal with |- (let* _ := ?x in _) = _ => destruct x; cbn [bind]; [|reflexivity|reflexivity] end. reflexivity.
Qed.

Section Hash.
Variable P : nat -> Prop.
Variable sha : mem -> ptr -> ptr -> N -> res mem.
Hypothesis Hsha : hash_ok P sha.

Lemma generation_released m k tag message data t :
  bytes_ok k -> has_bytes m message data -> writable m tag t -> t <= 32 ->
  0 < length data -> (Z.of_nat (length data) + 137 <= 2^31)%Z ->
  P (64 + length data) -> P 96 ->
  hmac_tag_generation_released sha (keyed k) m tag message (N.of_nat (length data)) (Z.of_nat t) =
  Ret (write_at m tag (firstn t (HMAC k data)), [map Some (map (N.lxor 0x36) (hmac_key k) ++ data)]).
Proof.
  intros Kok Hm Wt Ht H0 Hl P1 P2.
  assert (B : (Z.of_nat (length data) + 137 <= 2147483648)%Z) by exact Hl.
  unfold hmac_tag_generation_released.
  destruct (N.ltb_spec (N.of_nat (length data)) 1) as [|_]; [lia|].
  assert (EA : add64 (N.of_nat (length data)) 64 = N.of_nat (64 + length data)).
  { unfold add64. rewrite u64_id by (change (2^64)%N with 18446744073709551616%N; lia). lia. }
  rewrite !EA. rewrite !Nat2N.id. unfold alloc. cbv beta iota zeta.
  pose proof (hmac_key_length k) as KL. pose proof (hmac_key_ok k Kok) as KO.
  set (hk := hmac_key k) in *.
  set (ipad := map (N.lxor 0x36) hk). set (opad := map (N.lxor 0x5c) hk).
  assert (IL : length ipad = 64) by (unfold ipad; rewrite map_length; auto).
  assert (OL : length opad = 64) by (unfold opad; rewrite map_length; auto).
  assert (IO : bytes_ok ipad) by (apply map_lxor_ok; [reflexivity|auto]).
  assert (OO : bytes_ok opad) by (apply map_lxor_ok; [reflexivity|auto]).
  pose proof (has_bytes_bytes _ _ _ Hm) as DO.
  pose proof (ptr_lt _ _ _ (has_bytes_writable _ _ _ Hm)) as Mlt.
  unfold keyed at 1. cbn [inner_key outer_key]. fold hk. fold ipad.
  (* inner buffer *)
  rewrite stn_write.
  2:{ rewrite IL. apply writable_last. rewrite repeat_length. lia. }
  cbn [bind].
  rewrite (memcpy_write _ _ _ data).
  2:{ apply has_bytes_write_other.
      - rewrite IL. apply writable_last. rewrite repeat_length. lia.
      - left. simpl. lia.
      - apply has_bytes_alloc; auto. }
  2:{ apply writable_write_at.
      - rewrite IL. apply writable_last. rewrite repeat_length. lia.
      - apply writable_padd. apply writable_last. rewrite repeat_length. lia. }
  2:{ left. simpl. lia. }
  cbn [bind].
  rewrite write_at_app_n; [|auto|].
  2:{ apply writable_last. rewrite repeat_length. lia. }
  rewrite write_at_last, splice_full.
  2:{ rewrite app_length, IL, repeat_length. reflexivity. }
  set (M1 := m ++ [map Some (ipad ++ data)]).
  (* inner hash *)
  assert (LI : length (ipad ++ data) = 64 + length data) by (rewrite app_length, IL; reflexivity).
  rewrite <- LI.
  rewrite (Hsha (M1 ++ [repeat None 32]) {| pblk := length M1; poff := 0 |} {| pblk := length m; poff := 0 |} (ipad ++ data)).
  2:{ apply has_bytes_alloc. apply has_bytes_last. apply Forall_app; auto. }
  2:{ apply writable_last. rewrite repeat_length. lia. }
  2:{ rewrite LI. lia. }
  2:{ rewrite LI. auto. }
  cbn [bind]. rewrite write_at_last, splice_full by (rewrite SHA256_length, repeat_length; reflexivity).
  set (M2 := M1 ++ [map Some (SHA256 (ipad ++ data))]).
  (* outer buffer *)
  rewrite stn_write.
  2:{ rewrite repeat_length. apply writable_last. rewrite repeat_length. lia. }
  cbn [bind]. rewrite write_at_last, splice_full by (rewrite !repeat_length; reflexivity).
  set (B0 := map Some (repeat 0%N 96)).
  assert (B0L : length B0 = 96) by (unfold B0; rewrite map_length, repeat_length; reflexivity).
  unfold keyed. cbn [inner_key outer_key]. fold hk. fold opad.
  rewrite stn_write.
  2:{ apply writable_last. rewrite B0L, OL. lia. }
  cbn [bind].
  rewrite (memcpy_write_n _ _ _ (SHA256 (ipad ++ data)) 32).
  2:{ apply has_bytes_write_other.
      - apply writable_last. rewrite B0L, OL. lia.
      - left. simpl. unfold M2. rewrite app_length. simpl. lia.
      - apply has_bytes_alloc. apply has_bytes_last. apply SHA256_ok. }
  2:{ rewrite SHA256_length. reflexivity. }
  2:{ apply writable_write_at.
      - apply writable_last. rewrite B0L, OL. lia.
      - apply writable_padd. apply writable_last. rewrite B0L. lia. }
  2:{ left. simpl. unfold M2. rewrite app_length. simpl. lia. }
  cbn [bind].
  rewrite write_at_app_n; [|auto|].
  2:{ rewrite SHA256_length. apply writable_last. rewrite B0L. lia. }
  rewrite write_at_last, splice_full.
  2:{ rewrite app_length, SHA256_length, OL, B0L. reflexivity. }
  set (inner := SHA256 (ipad ++ data)).
  set (M3 := M2 ++ [map Some (opad ++ inner)]).
  (* outer hash *)
  assert (LO : length (opad ++ inner) = 96).
  { unfold inner. rewrite app_length, OL, SHA256_length. reflexivity. }
  change 96%N with (N.of_nat 96). rewrite <- LO.
  rewrite (Hsha (M3 ++ [repeat None 32]) {| pblk := length M3; poff := 0 |} {| pblk := length M2; poff := 0 |} (opad ++ inner)).
  2:{ apply has_bytes_alloc. apply has_bytes_last. apply Forall_app. split; auto. apply SHA256_ok. }
  2:{ apply writable_last. rewrite repeat_length. lia. }
  2:{ rewrite LO. discriminate. }
  2:{ rewrite LO. auto. }
  cbn [bind]. rewrite write_at_last, splice_full by (rewrite SHA256_length, repeat_length; reflexivity).
  change (SHA256 (opad ++ inner)) with (HMAC k data).

  pose proof (ptr_lt _ _ _ Wt) as Tlt.
  assert (HL : length (HMAC k data) = 32) by apply SHA256_length.
  assert (HO : bytes_ok (HMAC k data)) by apply SHA256_ok.
  set (T := HMAC k data) in *.
  (* copy out *)
  unfold memcpy_int. destruct (Z.ltb_spec (Z.of_nat t) 0); [lia|]. rewrite Nat2Z.id.
  assert (Lt : length (firstn t T) = t) by (rewrite firstn_length; lia).
  rewrite (memcpy_write_n _ _ _ (firstn t T) t).
  2:{ apply has_bytes_firstn. apply has_bytes_last. auto. }
  2: auto.
  2:{ unfold M3, M2, M1. repeat apply writable_alloc. auto. }
  2:{ left. simpl. unfold M3, M2, M1. rewrite !app_length. simpl. lia. }
  cbn [bind].
  unfold M3, M2, M1.
  rewrite (write_at_alloc _ tag _ t) by (repeat apply writable_alloc; auto).
  rewrite (write_at_alloc _ tag _ t) by (repeat apply writable_alloc; auto).
  rewrite (write_at_alloc _ tag _ t) by (repeat apply writable_alloc; auto).
  rewrite (write_at_alloc _ tag _ t) by auto.
  rewrite !drop_last_app. do 3 f_equal. cbn [pblk].
  rewrite <- !app_assoc. rewrite app_nth2 by (rewrite length_write_at; lia).
  rewrite length_write_at, Nat.sub_diag. reflexivity.
Qed.
End Hash.

Lemma hmac_key_twice k : hmac_key (hmac_key k) = hmac_key k.
Proof.
  unfold hmac_key at 1. rewrite hmac_key_length. change (64 <=? 64) with true. cbv iota. rewrite hmac_key_length.
  change (64 - 64) with 0. apply app_nil_r.
Qed.
Lemma unmask c l : map (N.lxor c) (map (N.lxor c) l) = l.
Proof.
  rewrite map_map. rewrite (map_ext _ (fun x => x)); [apply map_id|]. intros x. rewrite <- N.lxor_assoc, N.lxor_nilpotent. apply N.lxor_0_l.
Qed.

(** C126: the buffer that tag generation gives back holds 64 bytes [w] and the
    message, and the bytes of [w], each exclusive-ored with 0x36, are a key that
    gives the tag of every message. *)
Theorem C126_hmac_released_memory_exact : forall m key k tag message data t,
  has_bytes m key k -> (Z.of_nat (length k) + 73 <= 2^31)%Z ->
  has_bytes m message data -> 0 < length data -> (Z.of_nat (length data) + 137 <= 2^31)%Z ->
  writable m tag t -> t <= 32 ->
  exists cs w, hmac_load_key sha256_auth m key (Z.of_nat (length k)) = Ret cs /\
    hmac_tag_generation_released sha256_auth cs m tag message (N.of_nat (length data)) (Z.of_nat t) =
      Ret (write_at m tag (firstn t (HMAC k data)), [map Some (w ++ data)]) /\
    length w = 64 /\ forall d, HMAC (map (N.lxor 0x36) w) d = HMAC k d.
Proof.
  intros m key k tag message data t Hk Lk Hm H0 Lm Wt Ht. do 2 eexists. split.
  { apply (load_key_ok _ _ auth_hash_ok); auto. }
  split.
  { apply (generation_released _ _ auth_hash_ok); auto. apply (has_bytes_bytes _ _ _ Hk). }
  split; [rewrite map_length; apply hmac_key_length|].
  intros d. rewrite unmask. unfold HMAC. rewrite hmac_key_twice. reflexivity.
Qed.
Print Assumptions C126_hmac_released_memory_exact.

(** Refuted: with two keys, all else equal, what is released differs. *)
Theorem C126_hmac_released_memory_refuted : exists m k k' cs cs' r r' data,
  has_bytes m (Ptr 0 0) k /\ has_bytes m (Ptr 1 0) k' /\ length k = 16 /\ length k' = 16 /\
  has_bytes m (Ptr 2 0) data /\ writable m (Ptr 3 0) 32 /\ length data = 5 /\
  hmac_load_key sha256_auth m (Ptr 0 0) 16 = Ret cs /\ hmac_load_key sha256_auth m (Ptr 1 0) 16 = Ret cs' /\
  (exists m1, hmac_tag_generation_released sha256_auth cs m (Ptr 3 0) (Ptr 2 0) 5 32 = Ret (m1, [r])) /\
  (exists m1, hmac_tag_generation_released sha256_auth cs' m (Ptr 3 0) (Ptr 2 0) 5 32 = Ret (m1, [r'])) /\ r <> r'.
Proof.
  exists [holding (repeat 1%N 16); holding (repeat 2%N 16); holding (repeat 3%N 5); fresh 32], (repeat 1%N 16), (repeat 2%N 16).
  do 4 eexists. exists (repeat 3%N 5).
  split; [conc_has_bytes|]. split; [conc_has_bytes|]. split; [reflexivity|]. split; [reflexivity|]. split; [conc_has_bytes|].
  split; [conc_writable|]. split; [reflexivity|]. split; [vm_compute; reflexivity|]. split; [vm_compute; reflexivity|].
  split; [eexists; vm_compute; reflexivity|]. split; [eexists; vm_compute; reflexivity|]. vm_compute. discriminate.
Qed.
Print Assumptions C126_hmac_released_memory_refuted.

Example C126_instance :
  let m := [holding [74; 101; 102; 101]%N; holding [1; 2; 3]%N; fresh 16] in
  has_bytes m (Ptr 0 0) [74; 101; 102; 101]%N /\ has_bytes m (Ptr 1 0) [1; 2; 3]%N /\ writable m (Ptr 2 0) 16.
Proof. split; [conc_has_bytes|]. split; [conc_has_bytes|conc_writable]. Qed.

(** *** ChaCha *)
Lemma chacha_released_same nr cs m out inp size :
  chacha_process_packet nr cs m out inp size =
  (let* (cs, m, _) := chacha_process_packet_released nr cs m out inp size in Ret (cs, m)).
Proof.
  unfold chacha_process_packet_released, chacha_keystream_buffer.
  assert (E : forall A (x : res (A * mem)), x = let* (cs, m) := x in Ret (cs, m)) by (intros A [[]| |]; reflexivity).
  destruct (double_to_int (ceil_div (Z.of_N size) 4)) as [nw| |] eqn:E1; cbn [bind].
  2,3: unfold chacha_process_packet; rewrite E1; reflexivity.
  destruct (double_to_int (ceil_div nw 16)) as [ni| |] eqn:E2; cbn [bind].
  2,3: unfold chacha_process_packet; rewrite E1; cbn [bind]; rewrite E2; reflexivity.
  destruct (int_ret (ni * 16)) as [len| |] eqn:E3; cbn [bind].
  2,3: unfold chacha_process_packet; rewrite E1; cbn [bind]; rewrite E2; cbn [bind]; rewrite E3; reflexivity.
  destruct (iter_n _ _ _ _) as [[c ks] n]. cbn [bind].
  destruct (chacha_process_packet nr cs m out inp size) as [[cs' m']| |]; reflexivity.
Qed.

Lemma buffer_ok nr k n c size : bytes_ok k -> bytes_ok n -> length k = 32 -> length n = 12 ->
  (Z.of_nat size < 2^31)%Z ->
  chacha_keystream_buffer nr (init_words k n c) (N.of_nat size) = Ret (ks_words k n nr ((size + 63) / 64)).
Proof.
  intros Ok On Lk Ln H. assert (B : (Z.of_nat size < 2147483648)%Z) by exact H.
  assert (IR : forall z, (-2147483648 <= z <= 2147483647)%Z -> int_ret z = Ret z).
  { intros z Hz. unfold int_ret, int_min, int_max.
    destruct (Z.leb_spec (-2147483648) z), (Z.leb_spec z 2147483647); try lia. reflexivity. }
  unfold chacha_keystream_buffer, double_to_int, ceil_div. rewrite nat_N_Z.
  set (nw := ((Z.of_nat size + (4 - 1)) / 4)%Z).
  set (ni := ((nw + (16 - 1)) / 16)%Z).
  assert (Hnw : (Z.of_nat size <= 4 * nw < Z.of_nat size + 4)%Z) by (unfold nw; lia).
  assert (Hni : (nw <= 16 * ni < nw + 16)%Z) by (unfold ni; lia).
  rewrite IR by lia. cbn [bind]. fold ni. rewrite IR by lia. cbn [bind]. rewrite IR by lia. cbn [bind].
  pose proof (gen_loop k n Ok On Lk Ln nr (Z.to_nat ni) c 1 [] 0) as G.
  change (N.of_nat 1 mod 2^32)%N with 1%N in G. rewrite G. clear G. cbn [app]. fold (ks_words k n nr (Z.to_nat ni)).
  do 2 f_equal. pose proof (Nat.div_mod (size + 63) 64 ltac:(lia)).
  pose proof (Nat.mod_upper_bound (size + 63) 64 ltac:(lia)). lia.
Qed.

(** C127: the buffer that packet processing gives back holds the key stream;
    with the ciphertext it gives the message. *)
Theorem C127_chacha_released_memory_exact : forall nr m key k nonce n out inp data,
  has_bytes m key k -> length k = 32 -> has_bytes m nonce n -> length n = 12 ->
  has_bytes m inp data -> writable m out (length data) ->
  same_or_disjoint out inp (length data) -> (Z.of_nat (length data) < 2^31)%Z ->
  exists cs cs' ks,
    chacha_initialize m key nonce = Ret cs /\
    chacha_process_packet_released nr cs m out inp (N.of_nat (length data)) =
      Ret (cs', write_at m out (chacha_encrypt nr k n data), map Some ks) /\
    ks = chacha_stream nr k n ((length data + 63) / 64) /\
    xor_bytes (chacha_encrypt nr k n data) ks = data.
Proof.
  intros nr m key k nonce n out inp data Hk Lk Hn Ln Hin Hout Hov Hlen.
  pose proof (has_bytes_bytes _ _ _ Hk) as Ok. pose proof (has_bytes_bytes _ _ _ Hn) as On.
  destruct (process_ok k n Ok On Lk Ln nr 1 m out inp data) as [c E]; auto.
  exists (init_words k n 1). do 2 eexists. split; [apply initialize_spec; auto|].
  split; [|split; [reflexivity|]].
  - unfold chacha_process_packet_released. rewrite buffer_ok by auto. cbn [bind]. rewrite E. cbn [bind].
    do 3 f_equal. apply (ks_words_bytes k n).
  - rewrite <- (xor_stream_any k n Ok On Lk Ln nr ((length data + 63) / 64)).
    2:{ pose proof (Nat.div_mod (length data + 63) 64 ltac:(lia)).
        pose proof (Nat.mod_upper_bound (length data + 63) 64 ltac:(lia)). lia. }
    apply xor_bytes_invol. rewrite stream_length by auto.
    pose proof (Nat.div_mod (length data + 63) 64 ltac:(lia)).
    pose proof (Nat.mod_upper_bound (length data + 63) 64 ltac:(lia)). lia.
Qed.
Print Assumptions C127_chacha_released_memory_exact.

(** Refuted: with two keys, all else equal, what is released differs. *)
Theorem C127_chacha_released_memory_refuted : exists m k k' n data cs cs' r r',
  has_bytes m (Ptr 0 0) k /\ has_bytes m (Ptr 1 0) k' /\ length k = 32 /\ length k' = 32 /\
  has_bytes m (Ptr 2 0) n /\ length n = 12 /\ has_bytes m (Ptr 3 0) data /\ length data = 5 /\
  chacha_initialize m (Ptr 0 0) (Ptr 2 0) = Ret cs /\ chacha_initialize m (Ptr 1 0) (Ptr 2 0) = Ret cs' /\
  (exists c m1, chacha_process_packet_released 20 cs m (Ptr 3 0) (Ptr 3 0) 5 = Ret (c, m1, r)) /\
  (exists c m1, chacha_process_packet_released 20 cs' m (Ptr 3 0) (Ptr 3 0) 5 = Ret (c, m1, r')) /\ r <> r'.
Proof.
  exists [holding (repeat 1%N 32); holding (repeat 2%N 32); holding (repeat 3%N 12); holding (repeat 4%N 5)],
    (repeat 1%N 32), (repeat 2%N 32), (repeat 3%N 12), (repeat 4%N 5).
  do 4 eexists.
  split; [conc_has_bytes|]. split; [conc_has_bytes|]. split; [reflexivity|]. split; [reflexivity|]. split; [conc_has_bytes|].
  split; [reflexivity|]. split; [conc_has_bytes|]. split; [reflexivity|].
  split; [vm_compute; reflexivity|]. split; [vm_compute; reflexivity|].
  split; [do 2 eexists; vm_compute; reflexivity|]. split; [do 2 eexists; vm_compute; reflexivity|]. vm_compute. discriminate.
Qed.
Print Assumptions C127_chacha_released_memory_refuted.

Example C127_instance :
  let m := [holding (repeat 1%N 32); holding (repeat 3%N 12); holding (repeat 4%N 67)] in
  has_bytes m (Ptr 0 0) (repeat 1%N 32) /\ has_bytes m (Ptr 1 0) (repeat 3%N 12) /\
  has_bytes m (Ptr 2 0) (repeat 4%N 67) /\ writable m (Ptr 2 0) 67 /\ same_or_disjoint (Ptr 2 0) (Ptr 2 0) 67.
Proof. split; [conc_has_bytes|]. split; [conc_has_bytes|]. split; [conc_has_bytes|]. split; [conc_writable|]. left. reflexivity. Qed.
