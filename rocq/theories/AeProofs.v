(** Correctness of the sections of the authenticated-encryption example. *)
From Coq Require Import Arith NArith ZArith List Bool Lia.
From Verif Require Import Res Words Mem MemSpec Ints ListLemmas MemLemmas SpecWords WordsLemmas Finite XorProofs IoProofs
  SyncSpec ShaSpec ShaModel ShaProofs HmacModel HmacProofs HexSpec HexModel HexProofs
  HcModel HcProofs AesSpec AesModel AesCfbProofs AesCfbLink AesProps AeSpec AeModel.
From Verif Require HcSpec.
Import ListNotations.
Local Open Scope nat_scope.

(** ** HMAC over the Hash folder's SHA-256 *)
Definition hash_len (n : nat) : Prop := n mod 64 <> 63.

Lemma hash_len_64 n : hash_len n -> hash_len (64 + n).
Proof.
  unfold hash_len. replace (64 + n) with (n + 1 * 64) by lia. rewrite Nat.mod_add by lia. auto.
Qed.

Lemma tag128_length k d : length (tag128 k d) = 16.
Proof. unfold tag128. rewrite firstn_length. unfold HMAC. rewrite SHA256_length. reflexivity. Qed.
Lemma tag128_ok k d : bytes_ok (tag128 k d).
Proof. unfold tag128. apply Forall_firstn. apply SHA256_ok. Qed.

Lemma gen_ok m k tag message data :
  bytes_ok k -> has_bytes m message data -> writable m tag 16 ->
  0 < length data -> (Z.of_nat (length data) + 137 <= 2^31)%Z -> hash_len (length data) ->
  hmac_tag_generation sha256_hash (keyed k) m tag message (N.of_nat (length data)) (Z.of_nat TAGSIZE) =
  Ret (write_at m tag (tag128 k data)).
Proof.
  intros K H W P L D. apply (generation_ok _ _ hash_hash_ok); auto.
  - unfold TAGSIZE. lia.
  - apply hash_len_64. exact D.
  - discriminate.
Qed.

Lemma val_ok m k tag message data t :
  bytes_ok k -> has_bytes m message data -> has_bytes m tag t -> length t = 16 ->
  0 < length data -> (Z.of_nat (length data) + 137 <= 2^31)%Z -> hash_len (length data) ->
  hmac_tag_validation sha256_hash (keyed k) m tag message (N.of_nat (length data)) (Z.of_nat TAGSIZE) =
  Ret (if list_N_eqb t (tag128 k data) then 1%N else 0%N).
Proof.
  intros K H W P L D X. change TAGSIZE with 16. rewrite <- P.
  rewrite (validation_ok _ _ hash_hash_ok); auto.
  - unfold tag128. rewrite P. reflexivity.
  - lia.
  - apply hash_len_64. exact X.
  - discriminate.
Qed.

(** Messages of length 63 modulo 64 (and only those) make it undefined. *)
Lemma gen_ub m k tag message data t :
  bytes_ok k -> has_bytes m message data ->
  0 < length data -> (Z.of_nat (length data) + 137 <= 2^31)%Z -> length data mod 64 = 63 ->
  hmac_tag_generation sha256_hash (keyed k) m tag message (N.of_nat (length data)) t = UB.
Proof.
  intros Kok Hm H0 Hl D.
  assert (B : (Z.of_nat (length data) + 137 <= 2147483648)%Z) by exact Hl.
  unfold hmac_tag_generation.
  destruct (N.ltb_spec (N.of_nat (length data)) 1) as [|_]; [lia|].
  assert (EA : add64 (N.of_nat (length data)) 64 = N.of_nat (64 + length data)).
  { unfold add64. rewrite u64_id by (change (2^64)%N with 18446744073709551616%N; lia). lia. }
  rewrite !EA. rewrite !Nat2N.id. unfold alloc. cbv beta iota zeta.
  pose proof (hmac_key_length k) as KL. pose proof (hmac_key_ok k Kok) as KO.
  set (hk := hmac_key k) in *. set (ipad := map (N.lxor 0x36) hk).
  assert (IL : length ipad = 64) by (unfold ipad; rewrite map_length; auto).
  assert (IO : bytes_ok ipad) by (apply map_lxor_ok; [reflexivity|auto]).
  pose proof (has_bytes_bytes _ _ _ Hm) as DO.
  pose proof (ptr_lt _ _ _ (has_bytes_writable _ _ _ Hm)) as Mlt.
  unfold keyed at 1. cbn [inner_key outer_key]. fold hk. fold ipad.
  rewrite stn_write.
  2:{ rewrite IL. apply writable_last. rewrite repeat_length. lia. }
  cbn [bind].
  rewrite (memcpy_write _ _ _ data).
  2:{ apply has_bytes_write_other.
      - rewrite IL. apply writable_last. rewrite repeat_length. lia.
      - left. simpl. lia.
      - apply has_bytes_alloc; auto. }
  2:{ apply writable_write_at.
      - rewrite IL. apply writable_last. rewrite repeat_length. lia.
      - apply writable_padd. apply writable_last. rewrite repeat_length. lia. }
  2:{ left. simpl. lia. }
  cbn [bind].
  rewrite write_at_app_n; [|auto|].
  2:{ apply writable_last. rewrite repeat_length. lia. }
  rewrite write_at_last, splice_full.
  2:{ rewrite app_length, IL, repeat_length. reflexivity. }
  set (M1 := m ++ [map Some (ipad ++ data)]).
  assert (LI : length (ipad ++ data) = 64 + length data) by (rewrite app_length, IL; reflexivity).
  rewrite <- LI.
  rewrite (sha256_hash_ub (M1 ++ [repeat None 32]) {| pblk := length M1; poff := 0 |} {| pblk := length m; poff := 0 |} (ipad ++ data)).
  - reflexivity.
  - apply has_bytes_alloc. apply has_bytes_last. apply Forall_app; auto.
  - rewrite LI. lia.
  - rewrite LI. replace (64 + length data) with (length data + 1 * 64) by lia. rewrite Nat.mod_add by lia. exact D.
Qed.

Lemma val_ub m k tag message data t :
  bytes_ok k -> has_bytes m message data ->
  0 < length data -> (Z.of_nat (length data) + 137 <= 2^31)%Z -> length data mod 64 = 63 ->
  hmac_tag_validation sha256_hash (keyed k) m tag message (N.of_nat (length data)) t = UB.
Proof.
  intros K H P L D. unfold hmac_tag_validation. destruct (t <? 0)%Z; [reflexivity|].
  unfold alloc. rewrite (gen_ub _ k _ _ data); auto using has_bytes_alloc.
Qed.

Lemma int_len n : (Z.of_nat n + 137 <= 2^31)%Z -> to_int (Z.of_nat n) = Z.of_nat n.
Proof. intros H. apply to_int_id. unfold int_max. change (2^31)%Z with 2147483648%Z in H. lia. Qed.

Lemma new_bytes_ok m l : bytes_ok l -> new_bytes m l = Ret (m ++ [map Some l], Ptr (length m) 0).
Proof.
  intros H. unfold new_bytes, alloc. rewrite stn_write by (apply writable_last; rewrite repeat_length; lia).
  cbn [bind]. rewrite write_at_last, splice_full by (rewrite repeat_length; reflexivity). reflexivity.
Qed.

Lemma hex_string_ok m msg l : has_bytes m msg l -> (Z.of_nat (length l) < 2^30)%Z ->
  hex_string m msg (length l) = Ret (hex_text l).
Proof.
  intros H L. unfold hex_string, alloc.
  rewrite to_int_id by (unfold int_max; change (2^30)%Z with 1073741824%Z in L; lia).
  pose proof (ptr_lt _ _ _ (has_bytes_writable _ _ _ H)) as Lt.
  rewrite hex_encode_writes; auto.
  2: apply has_bytes_alloc; auto.
  2: apply writable_last; rewrite repeat_length; lia.
  2: left; cbn; lia.
  cbn [bind]. rewrite write_at_last, splice_full.
  2:{ rewrite app_length, hex_text_length, repeat_length. cbn. lia. }
  rewrite <- hex_text_length. apply has_bytes_ldn.
  assert (B : Forall (fun x => (x < 256)%N) (hex_text l ++ [0%N])).
  { apply Forall_app. split; [|repeat constructor].
    eapply Forall_impl; [|apply hex_text_upper; apply (has_bytes_bytes _ _ _ H)].
    intros x Hx. unfold is_upper_hex, upper_digits in Hx. cbn in Hx. intuition (subst; reflexivity). }
  pose proof (has_bytes_last m _ B) as X. apply has_bytes_app in X. apply X.
Qed.

(** The initialisation depends on the bytes only. *)
Lemma init_same m1 m2 k1 k2 i1 i2 key iv : length key = 16 -> length iv = 16 ->
  has_bytes m1 k1 key -> has_bytes m2 k2 key -> has_bytes m1 i1 iv -> has_bytes m2 i2 iv ->
  aes_cfb_initialize m1 k1 i1 = aes_cfb_initialize m2 k2 i2.
Proof.
  intros Lk Li A1 A2 B1 B2. unfold aes_cfb_initialize.
  assert (E : aes_key_expansion m1 k1 = aes_key_expansion m2 k2).
  { unfold aes_key_expansion. cbn [for_n]. 
    rewrite !(fun i H => has_bytes_nth m1 k1 key i H A1) by (rewrite Lk; cbn; lia).
    rewrite !(fun i H => has_bytes_nth m2 k2 key i H A2) by (rewrite Lk; cbn; lia). reflexivity. }
  rewrite E, (ld32_at0 _ _ _ B1), (ld32_at0 _ _ _ B2), !(ld32_at _ _ _ _ B1), !(ld32_at _ _ _ _ B2) by lia.
  reflexivity.
Qed.

(** ** Section 1 *)
Section Ae.
Variable oor : N -> Z -> res N.

Notation T := (Table false).

Lemma enc1 cs m out inp d : (Z.of_nat (length d) + 137 <= 2^31)%Z -> io m out inp d ->
  aes_cfb_process_packet oor T ENCRYPT cs m out inp (to_int (Z.of_nat (length d))) =
  let* (cs, o) := cfb_run oor T feed_out cs (length d / 16) d in Ret (cs, write_at m out o).
Proof.
  intros L H. rewrite int_len by exact L. pose proof (cfb_packet_enc oor T cs m out inp d H) as X.
  unfold cfb_packet in X. rewrite nat_N_Z in X. exact X.
Qed.
Lemma dec1 cs m out inp d : (Z.of_nat (length d) + 137 <= 2^31)%Z ->
  has_bytes m inp d -> writable m out (length d) -> disjoint out (length d) inp (length d) ->
  aes_cfb_process_packet oor T DECRYPT cs m out inp (to_int (Z.of_nat (length d))) =
  let* (cs, o) := cfb_run oor T feed_in cs (length d / 16) d in Ret (cs, write_at m out o).
Proof.
  intros L H1 H2 H3. rewrite int_len by exact L. pose proof (cfb_packet_dec oor T cs m out inp d H1 H2 H3) as X.
  unfold cfb_packet in X. rewrite nat_N_Z in X. exact X.
Qed.

(** Reading back a new buffer that has been written in full. *)
Lemma fresh_back (m : mem) n o : length o = n -> bytes_ok o ->
  ldn (write_at (m ++ [repeat None n]) (Ptr (length m) 0) o) (Ptr (length m) 0) n = Ret o.
Proof.
  intros L B. rewrite write_at_last, splice_full by (rewrite repeat_length; exact L).
  rewrite <- L. apply has_bytes_ldn. apply has_bytes_last. exact B.
Qed.

Lemma recv1 m ka c t e_key iv msg cs :
  bytes_ok ka -> aes_cfb_initialize m e_key iv = Ret cs -> aes_inv cs ->
  has_bytes m msg (c ++ t) -> length t = 16 -> 0 < length c -> (Z.of_nat (length c) + 137 <= 2^31)%Z ->
  hash_len (length c) ->
  section1_receive oor (keyed ka) m e_key iv msg (length c) =
  if list_N_eqb t (tag128 ka c)
  then let* (cs, p) := cfb_run oor T feed_in cs (length c / 16) c in Ret (true, [ValidTag; Recovered p])
  else Ret (false, [InvalidTag]).
Proof.
  intros K I V H Lt P L D. unfold section1_receive. rewrite I. cbn [bind].
  apply has_bytes_app in H as [Hc Ht].
  rewrite (val_ok m ka _ _ c t) by auto. cbn [bind].
  destruct (list_N_eqb t (tag128 ka c)); [|reflexivity]. cbn [N.eqb]. unfold alloc.
  pose proof (ptr_lt _ _ _ (has_bytes_writable _ _ _ Hc)) as Lp.
  rewrite dec1; auto using has_bytes_alloc.
  2: apply writable_last; rewrite repeat_length; lia.
  2: left; cbn; lia.
  destruct (cfb_run oor T feed_in cs (length c / 16) c) as [[s o]| |] eqn:R; try reflexivity. cbn [bind].
  destruct (div16 c) as [E Hr].
  pose proof (cfb_run_length _ _ _ _ _ _ _ _ _ Hr E R) as Lo.
  rewrite fresh_back; [reflexivity|exact Lo|].
  destruct (cfb_inv_run oor T feed_in _ _ _ _ _ _ Hr E (has_bytes_bytes _ _ _ Hc) (or_intror eq_refl) V R) as [_ B].
  exact B.
Qed.

Lemma send1 m ka p plaintext cs :
  bytes_ok ka -> aes_inv cs -> has_bytes m plaintext p ->
  0 < length p -> (Z.of_nat (length p) + 16 < 2^30)%Z -> hash_len (length p) ->
  section1_send oor (keyed ka) cs m plaintext (length p) =
  let* (cs, c) := cfb_run oor T feed_out cs (length p / 16) p in
  Ret (m ++ [map Some (sealed ka c)], Ptr (length m) 0, [Msg (hex_text (sealed ka c))]).
Proof.
  intros K V H P L D. unfold section1_send, alloc.
  assert (L31 : (Z.of_nat (length p) + 137 <= 2^31)%Z).
  { change (2^30)%Z with 1073741824%Z in L. change (2^31)%Z with 2147483648%Z. lia. }
  pose proof (ptr_lt _ _ _ (has_bytes_writable _ _ _ H)) as Lp.
  set (M := m ++ [repeat None (length p + TAGSIZE)]).
  assert (W : writable M (Ptr (length m) 0) (length p + 16)) by (apply writable_last; rewrite repeat_length; unfold TAGSIZE; lia).
  rewrite enc1; [|exact L31|].
  2:{ split; [apply has_bytes_alloc; exact H|]. split; [apply (writable_le _ _ _ _ W); lia|].
      right. left. cbn. lia. }
  destruct (cfb_run oor T feed_out cs (length p / 16) p) as [[s c]| |] eqn:R; try reflexivity. cbn [bind].
  destruct (div16 p) as [E Hr].
  pose proof (cfb_run_length _ _ _ _ _ _ _ _ _ Hr E R) as Lo.
  destruct (cfb_inv_run oor T feed_out _ _ _ _ _ _ Hr E (has_bytes_bytes _ _ _ H) (or_introl eq_refl) V R) as [_ B].
  rewrite <- Lo.
  assert (Wc : writable M (Ptr (length m) 0) (length c)) by (apply (writable_le _ _ _ _ W); lia).
  rewrite (gen_ok _ ka _ _ c); rewrite ?Lo in *; auto.
  2:{ apply has_bytes_write_same; [rewrite Lo; exact Wc|exact B]. }
  2:{ apply writable_write_at; [rewrite Lo; exact Wc|]. apply writable_padd. exact W. }
  cbn [bind]. rewrite write_at_app_n; [|auto|rewrite tag128_length; exact W].
  fold (sealed ka c).
  assert (Ls : length (sealed ka c) = length p + 16) by (unfold sealed; rewrite app_length, tag128_length, Lo; reflexivity).
  unfold M. rewrite write_at_last, splice_full by (rewrite repeat_length; exact Ls).
  change TAGSIZE with 16. rewrite <- Ls. rewrite hex_string_ok; [reflexivity| |].
  - apply has_bytes_last. unfold sealed. apply Forall_app. split; [exact B|apply tag128_ok].
  - rewrite Ls. lia.
Qed.

End Ae.

(** ** Section 2 *)
Lemma hc_encrypt_length k v d : length (HcSpec.hc_encrypt k v d) = length d.
Proof.
  rewrite <- encrypt_words. rewrite xor_bytes_length_min, le_bytes_length, hc_words_length.
  pose proof (n_words_bound (length d)). lia.
Qed.

Lemma hc_encrypt_ok k v d : bytes_ok d -> bytes_ok (HcSpec.hc_encrypt k v d).
Proof. intros H. rewrite <- encrypt_words. apply xor_bytes_ok; [exact H|apply le_bytes_ok]. Qed.

Lemma hc_encrypt_twice k v d : HcSpec.hc_encrypt k v (HcSpec.hc_encrypt k v d) = d.
Proof.
  rewrite <- encrypt_words, hc_encrypt_length, <- encrypt_words. apply xor_bytes_invol.
  rewrite le_bytes_length, hc_words_length. pose proof (n_words_bound (length d)). lia.
Qed.

Lemma hc_packet m key k iv v m' out inp d :
  has_bytes m key k -> length k = 16 -> has_bytes m iv v -> length v = 16 ->
  has_bytes m' inp d -> writable m' out (length d) -> disjoint out (length d) inp (length d) ->
  (Z.of_nat (length d) + 137 <= 2^31)%Z ->
  exists cs cs', hc128_initialize m key iv = Ret cs /\
    hc128_process_packet cs m' out inp (N.of_nat (length d)) = Ret (cs', write_at m' out (HcSpec.hc_encrypt k v d)).
Proof.
  intros Hk Lk Hv Lv Hi Ho Hd L.
  destruct (initialize_ok m key iv k v Hk Hv Lk Lv) as (cs & E & O & V).
  destruct (process_ok cs m' out inp d O) as (cs' & E' & _); auto.
  { change (2^31)%Z with 2147483648%Z in *. lia. }
  { right. exact Hd. }
  exists cs, cs'. split; [exact E|]. rewrite E', V, encrypt_words. reflexivity.
Qed.

Lemma recv2 m ka ke v c t e_key msg :
  bytes_ok ka -> has_bytes m e_key ke -> length ke = 16 ->
  has_bytes m msg (v ++ c ++ t) -> length v = 16 -> length t = 16 ->
  (Z.of_nat (16 + length c) + 137 <= 2^31)%Z -> hash_len (16 + length c) ->
  section2_receive (keyed ka) m e_key msg (length c) =
  Ret ((if list_N_eqb t (tag128 ka (v ++ c)) then [] else [InvalidTag]) ++
       [ValidTag; Recovered (HcSpec.hc_encrypt ke v c)]).
Proof.
  intros K Hk Lk H Lv Lt L D. unfold section2_receive.
  rewrite app_assoc in H. apply has_bytes_app in H as [Hvc Ht].
  assert (Lvc : length (v ++ c) = HC128_IV_SIZE + length c) by (rewrite app_length, Lv; reflexivity).
  rewrite <- Lvc. rewrite (val_ok m ka _ _ (v ++ c) t); auto.
  2:{ rewrite Lvc. unfold HC128_IV_SIZE. lia. }
  2:{ rewrite Lvc. exact L. }
  2:{ rewrite Lvc. exact D. }
  cbn [bind]. unfold alloc.
  apply has_bytes_app in Hvc as [Hv Hc]. rewrite Lv in Hc.
  pose proof (ptr_lt _ _ _ (has_bytes_writable _ _ _ Hv)) as Lp.
  destruct (hc_packet m e_key ke msg v (m ++ [repeat None (length c)]) (Ptr (length m) 0) (padd msg 16) c Hk Lk Hv Lv)
    as (cs & cs' & E1 & E2).
  { apply has_bytes_alloc. exact Hc. }
  { apply writable_last. rewrite repeat_length. lia. }
  { left. cbn. lia. }
  { lia. }
  rewrite E1. cbn [bind]. change HC128_IV_SIZE with 16. rewrite E2. cbn [bind].
  rewrite fresh_back; [|apply hc_encrypt_length|apply hc_encrypt_ok; apply (has_bytes_bytes _ _ _ Hc)].
  cbn [bind]. destruct (list_N_eqb t (tag128 ka (v ++ c))); reflexivity.
Qed.

Lemma send2 m ka ke v p e_key iv plaintext :
  bytes_ok ka -> has_bytes m e_key ke -> length ke = 16 -> has_bytes m iv v -> length v = 16 ->
  has_bytes m plaintext p ->
  (Z.of_nat (length p) + 32 < 2^30)%Z -> hash_len (16 + length p) ->
  section2_send (keyed ka) m e_key iv plaintext (length p) =
  let s := sealed ka (hc_body ke v p) in
  Ret (m ++ [map Some s], Ptr (length m) 0, [Msg (hex_text s)]).
Proof.
  intros K Hk Lk Hv Lv H L D. unfold section2_send.
  assert (L31 : (Z.of_nat (16 + length p) + 137 <= 2^31)%Z).
  { change (2^30)%Z with 1073741824%Z in L. change (2^31)%Z with 2147483648%Z. lia. }
  pose proof (ptr_lt _ _ _ (has_bytes_writable _ _ _ H)) as Lp.
  pose proof (ptr_lt _ _ _ (has_bytes_writable _ _ _ Hv)) as Lpv.
  set (M := m ++ [repeat None (HC128_IV_SIZE + length p + TAGSIZE)]).
  assert (W : writable M (Ptr (length m) 0) (16 + length p + 16)).
  { apply writable_last. rewrite repeat_length. unfold TAGSIZE, HC128_IV_SIZE. lia. }
  set (M1 := write_at M (Ptr (length m) 0) v).
  assert (W1 : forall q n, writable M q n -> writable M1 q n).
  { intros q n X. apply writable_write_at; [|exact X]. rewrite Lv. apply (writable_le _ _ _ _ W). lia. }
  destruct (hc_packet m e_key ke iv v M1 (Ptr (length m) 16) plaintext p Hk Lk Hv Lv)
    as (cs & cs' & E1 & E2).
  { unfold M1, M. apply has_bytes_write_other.
    - rewrite Lv. apply (writable_le _ _ _ _ W). lia.
    - left. cbn. lia.
    - apply has_bytes_alloc. exact H. }
  { apply W1. apply writable_last. rewrite repeat_length. unfold TAGSIZE, HC128_IV_SIZE. lia. }
  { left. cbn. lia. }
  { lia. }
  rewrite E1. cbn [bind]. unfold alloc. fold M.
  rewrite (memcpy_write_n M _ iv v).
  2:{ apply has_bytes_alloc. exact Hv. }
  2:{ symmetry. exact Lv. }
  2:{ apply (writable_le _ _ _ _ W). unfold HC128_IV_SIZE. lia. }
  2:{ left. cbn. lia. }
  cbn [bind]. fold M1. change (padd (Ptr (length m) 0) HC128_IV_SIZE) with (Ptr (length m) 16).
  rewrite E2. cbn [bind]. change (Ptr (length m) 16) with (padd (Ptr (length m) 0) 16).
  unfold M1. rewrite write_at_app_n.
  2: symmetry; exact Lv.
  2:{ rewrite hc_encrypt_length. apply (writable_le _ _ _ _ W). lia. }
  fold (hc_body ke v p). set (b := hc_body ke v p).
  assert (Lb : length b = HC128_IV_SIZE + length p).
  { unfold b, hc_body. rewrite app_length, hc_encrypt_length, Lv. reflexivity. }
  assert (Lb16 : length b = 16 + length p) by exact Lb.
  assert (B : bytes_ok b).
  { unfold b, hc_body. apply Forall_app. split; [apply (has_bytes_bytes _ _ _ Hv)|].
    apply hc_encrypt_ok. apply (has_bytes_bytes _ _ _ H). }
  rewrite <- Lb.
  assert (Wb : writable M (Ptr (length m) 0) (length b)) by (apply (writable_le _ _ _ _ W); lia).
  rewrite (gen_ok _ ka _ _ b); auto.
  2:{ apply has_bytes_write_same; assumption. }
  2:{ apply writable_write_at; [exact Wb|]. apply writable_padd. rewrite Lb16. exact W. }
  2: lia.
  2: rewrite Lb16; exact L31.
  2: rewrite Lb16; exact D.
  cbn [bind]. rewrite write_at_app_n; [|auto|rewrite tag128_length, Lb16; exact W].
  fold (sealed ka b).
  assert (Ls : length (sealed ka b) = length b + TAGSIZE) by (unfold sealed; rewrite app_length, tag128_length; reflexivity).
  unfold M. rewrite write_at_last, splice_full.
  2:{ rewrite repeat_length, Ls, Lb. reflexivity. }
  rewrite <- Ls. rewrite hex_string_ok; [reflexivity| |].
  - apply has_bytes_last. unfold sealed. apply Forall_app. split; [exact B|apply tag128_ok].
  - rewrite Ls, Lb16. unfold TAGSIZE. lia.
Qed.

Lemma send2_ub m ka ke v p e_key iv plaintext :
  bytes_ok ka -> has_bytes m e_key ke -> length ke = 16 -> has_bytes m iv v -> length v = 16 ->
  has_bytes m plaintext p ->
  (Z.of_nat (length p) + 32 < 2^30)%Z -> (16 + length p) mod 64 = 63 ->
  section2_send (keyed ka) m e_key iv plaintext (length p) =
  UB.
Proof.
  intros K Hk Lk Hv Lv H L D. unfold section2_send.
  assert (L31 : (Z.of_nat (16 + length p) + 137 <= 2^31)%Z).
  { change (2^30)%Z with 1073741824%Z in L. change (2^31)%Z with 2147483648%Z. lia. }
  pose proof (ptr_lt _ _ _ (has_bytes_writable _ _ _ H)) as Lp.
  pose proof (ptr_lt _ _ _ (has_bytes_writable _ _ _ Hv)) as Lpv.
  set (M := m ++ [repeat None (HC128_IV_SIZE + length p + TAGSIZE)]).
  assert (W : writable M (Ptr (length m) 0) (16 + length p + 16)).
  { apply writable_last. rewrite repeat_length. unfold TAGSIZE, HC128_IV_SIZE. lia. }
  set (M1 := write_at M (Ptr (length m) 0) v).
  assert (W1 : forall q n, writable M q n -> writable M1 q n).
  { intros q n X. apply writable_write_at; [|exact X]. rewrite Lv. apply (writable_le _ _ _ _ W). lia. }
  destruct (hc_packet m e_key ke iv v M1 (Ptr (length m) 16) plaintext p Hk Lk Hv Lv)
    as (cs & cs' & E1 & E2).
  { unfold M1, M. apply has_bytes_write_other.
    - rewrite Lv. apply (writable_le _ _ _ _ W). lia.
    - left. cbn. lia.
    - apply has_bytes_alloc. exact H. }
  { apply W1. apply writable_last. rewrite repeat_length. unfold TAGSIZE, HC128_IV_SIZE. lia. }
  { left. cbn. lia. }
  { lia. }
  rewrite E1. cbn [bind]. unfold alloc. fold M.
  rewrite (memcpy_write_n M _ iv v).
  2:{ apply has_bytes_alloc. exact Hv. }
  2:{ symmetry. exact Lv. }
  2:{ apply (writable_le _ _ _ _ W). unfold HC128_IV_SIZE. lia. }
  2:{ left. cbn. lia. }
  cbn [bind]. fold M1. change (padd (Ptr (length m) 0) HC128_IV_SIZE) with (Ptr (length m) 16).
  rewrite E2. cbn [bind]. change (Ptr (length m) 16) with (padd (Ptr (length m) 0) 16).
  unfold M1. rewrite write_at_app_n.
  2: symmetry; exact Lv.
  2:{ rewrite hc_encrypt_length. apply (writable_le _ _ _ _ W). lia. }
  fold (hc_body ke v p). set (b := hc_body ke v p).
  assert (Lb : length b = HC128_IV_SIZE + length p).
  { unfold b, hc_body. rewrite app_length, hc_encrypt_length, Lv. reflexivity. }
  assert (Lb16 : length b = 16 + length p) by exact Lb.
  assert (B : bytes_ok b).
  { unfold b, hc_body. apply Forall_app. split; [apply (has_bytes_bytes _ _ _ Hv)|].
    apply hc_encrypt_ok. apply (has_bytes_bytes _ _ _ H). }
  rewrite <- Lb.
  assert (Wb : writable M (Ptr (length m) 0) (length b)) by (apply (writable_le _ _ _ _ W); lia).
  rewrite (gen_ub _ ka _ _ b); auto.
  - apply has_bytes_write_same; assumption.
  - lia.
  - rewrite Lb16. exact L31.
  - rewrite Lb16. exact D.
Qed.
