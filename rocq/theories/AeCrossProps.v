(** Property C131: messages of one section of the authenticated-encryption
    example given to the receiver of the other.  The code modelled is
    [section1_send], [section1_receive], [section2_send] and [section2_receive]
    of AeModel, with the keys that main() shares between the sections. *)
From Coq Require Import Arith NArith ZArith List Bool Lia.
From Verif Require Import Res Words Mem MemSpec Ints ListLemmas MemLemmas SpecWords WordsLemmas Finite XorProofs IoProofs
  SyncSpec Concrete ShaSpec ShaModel ShaProofs HmacModel HmacProofs HexSpec HexModel HexProofs
  HcModel HcProofs AesSpec AesModel AesProofs AesCtrProofs AesCtrLink AesCfbProofs AesCfbLink AesProps AeSpec AeModel AeProofs AeProps.
From Verif Require HcSpec.
Import ListNotations.
Local Open Scope nat_scope.

(** Whether the partial last word of [n] bytes has a meaning (AesModel). *)
Definition settled (oor : N -> Z -> res N) (n : nat) : Prop := n mod 4 <= 1 \/ (forall w i, exists x, oor w i = Ret x).

Lemma small_31 n : (Z.of_nat n + 32 < 2^30)%Z -> (Z.of_nat n + 16 < 2^30)%Z /\ (Z.of_nat n + 137 <= 2^31)%Z /\ (Z.of_nat (16 + n) + 137 <= 2^31)%Z.
Proof. change (2^30)%Z with 1073741824%Z. change (2^31)%Z with 2147483648%Z. lia. Qed.
Lemma key_31 (ka : list N) : length ka <= 64 -> (Z.of_nat (length ka) + 73 <= 2^31)%Z.
Proof. change (2^31)%Z with 2147483648%Z. lia. Qed.

(** C131: what the second receiver makes of a message of the first section: the
    tag is valid, the first block of the ciphertext is taken for the IV. *)
Theorem C131_ae_section1_message_in_section2 : forall oor m a_key ka e_key ke iv v plaintext p,
  has_bytes m a_key ka -> length ka <= 64 -> has_bytes m e_key ke -> length ke = 16 ->
  has_bytes m iv v -> length v = 16 -> has_bytes m plaintext p ->
  16 <= length p -> length p mod 64 <> 63 -> settled oor (length p) -> (Z.of_nat (length p) + 32 < 2^30)%Z ->
  exists a_cs e_cs m1 msg o c,
    hmac_load_key sha256_hash m a_key (Z.of_nat (length ka)) = Ret a_cs /\
    aes_cfb_initialize m e_key iv = Ret e_cs /\
    section1_send oor a_cs e_cs m plaintext (length p) = Ret (m1, msg, o) /\
    length c = length p /\ has_bytes m1 msg (c ++ tag128 ka c) /\ (forall q l, has_bytes m q l -> has_bytes m1 q l) /\
    forall m2 e_key2 msg2, has_bytes m2 e_key2 ke -> has_bytes m2 msg2 (c ++ tag128 ka c) ->
      section2_receive a_cs m2 e_key2 msg2 (length p - 16) =
      Ret [ValidTag; Recovered (HcSpec.hc_encrypt ke (firstn 16 c) (skipn 16 c))].
Proof.
  intros oor m a_key ka e_key ke iv v plaintext p Ha La Hk Lk Hv Lv Hp P D T L.
  pose proof (has_bytes_bytes _ _ _ Ha) as Ba. pose proof (has_bytes_bytes _ _ _ Hp) as Bp.
  destruct (small_31 _ L) as (L30 & L31 & _).
  destruct (cfb_init_ok m e_key iv ke v Hk Lk Hv Lv) as (ks & E & R & S & C).
  assert (I : aes_inv (cfb_st v ks)) by (apply cfb_st_inv; [apply S|exact R]).
  destruct (div16 p) as [Ep Hr].
  assert (Dr : tail_defined oor (length p mod 16)).
  { destruct T as [T|T]; [left; rewrite mod16_4; exact T|right; exact T]. }
  destruct (cfb_run_defined oor (Table false) feed_out _ (cfb_st v ks) _ p Hr Ep Dr) as (s & c & Rc).
  pose proof (cfb_run_length _ _ _ _ _ _ _ _ _ Hr Ep Rc) as Lc.
  assert (P0 : 0 < length p) by lia.
  pose proof (send1 oor m ka p plaintext _ Ba I Hp P0 L30 D) as X. rewrite Rc in X. cbn [bind] in X.
  assert (Bs : bytes_ok (sealed ka c)).
  { unfold sealed. apply Forall_app. split; [|apply tag128_ok].
    exact (proj2 (cfb_inv_run oor (Table false) feed_out _ _ _ _ _ _ Hr Ep Bp (or_introl eq_refl) I Rc)). }
  assert (Ls : length (sealed ka c) = length p + 16) by (unfold sealed; rewrite app_length, tag128_length, Lc; reflexivity).
  exists (keyed ka), (cfb_st v ks). do 3 eexists. exists c. split.
  { apply (load_key_ok _ _ hash_hash_ok); auto; [apply key_31; exact La|lia]. }
  split; [exact E|]. split; [exact X|]. split; [exact Lc|]. split.
  { apply (has_bytes_last m (sealed ka c)). exact Bs. }
  split; [intros q l Hq; apply has_bytes_alloc; exact Hq|].
  intros m2 e_key2 msg2 Hk2 Hs.
  assert (Lf : length (firstn 16 c) = 16) by (rewrite firstn_length; lia).
  assert (Lr : length (skipn 16 c) = length p - 16) by (rewrite skipn_length; lia).
  rewrite <- Lr.
  assert (Hs' : has_bytes m2 msg2 (firstn 16 c ++ skipn 16 c ++ tag128 ka c)) by (rewrite app_assoc, firstn_skipn; exact Hs).
  rewrite (recv2 m2 ka ke (firstn 16 c) (skipn 16 c) (tag128 ka c) e_key2 msg2 Ba Hk2 Lk Hs' Lf (tag128_length ka c)).
  - rewrite firstn_skipn, list_N_eqb_refl. reflexivity.
  - rewrite Lr. replace (16 + (length p - 16)) with (length p) by lia. exact L31.
  - unfold hash_len. rewrite Lr. replace (16 + (length p - 16)) with (length p) by lia. exact D.
Qed.
Print Assumptions C131_ae_section1_message_in_section2.

(** And the other way round: the IV is decrypted as if it were ciphertext. *)
Theorem C131_ae_section2_message_in_section1 : forall oor m a_key ka e_key ke iv v plaintext p,
  has_bytes m a_key ka -> length ka <= 64 -> has_bytes m e_key ke -> length ke = 16 ->
  has_bytes m iv v -> length v = 16 -> has_bytes m plaintext p ->
  length p mod 64 <> 47 -> settled oor (length p) -> (Z.of_nat (length p) + 32 < 2^30)%Z ->
  exists a_cs m1 msg o c,
    hmac_load_key sha256_hash m a_key (Z.of_nat (length ka)) = Ret a_cs /\
    section2_send a_cs m e_key iv plaintext (length p) = Ret (m1, msg, o) /\
    c = v ++ HcSpec.hc_encrypt ke v p /\ has_bytes m1 msg (c ++ tag128 ka c) /\ (forall q l, has_bytes m q l -> has_bytes m1 q l) /\
    forall m2 e_key2 iv2 v2 msg2,
      has_bytes m2 e_key2 ke -> has_bytes m2 iv2 v2 -> length v2 = 16 -> has_bytes m2 msg2 (c ++ tag128 ka c) ->
      exists r, section1_receive oor a_cs m2 e_key2 iv2 msg2 (16 + length p) = Ret (true, [ValidTag; Recovered r]) /\
        length r = 16 + length p /\ (length p mod 16 = 0 -> r = cfb128_decrypt (aes128 ke) v2 c).
Proof.
  intros oor m a_key ka e_key ke iv v plaintext p Ha La Hk Lk Hv Lv Hp D T L.
  pose proof (has_bytes_bytes _ _ _ Ha) as Ba. pose proof (has_bytes_bytes _ _ _ Hp) as Bp.
  destruct (small_31 _ L) as (L30 & L31 & L31').
  assert (M64 : (16 + length p) mod 64 <> 63).
  { pose proof (Nat.div_mod_eq (length p) 64). pose proof (Nat.mod_upper_bound (length p) 64).
    pose proof (Nat.div_mod_eq (16 + length p) 64). pose proof (Nat.mod_upper_bound (16 + length p) 64). lia. }
  pose proof (send2 m ka ke v p e_key iv plaintext Ba Hk Lk Hv Lv Hp L M64) as X. cbv zeta in X.
  set (c := hc_body ke v p) in *.
  assert (Lc : length c = 16 + length p) by (unfold c, hc_body; rewrite app_length, hc_encrypt_length, Lv; reflexivity).
  assert (Bc : bytes_ok c).
  { unfold c, hc_body. apply Forall_app. split; [exact (has_bytes_bytes _ _ _ Hv)|apply hc_encrypt_ok; exact Bp]. }
  assert (Bs : bytes_ok (sealed ka c)) by (unfold sealed; apply Forall_app; split; [exact Bc|apply tag128_ok]).
  assert (Ls : length (sealed ka c) = 16 + length p + 16) by (unfold sealed; rewrite app_length, tag128_length, Lc; reflexivity).
  exists (keyed ka). do 3 eexists. exists c. split.
  { apply (load_key_ok _ _ hash_hash_ok); auto; [apply key_31; exact La|lia]. }
  split; [exact X|]. split; [reflexivity|]. split.
  { apply (has_bytes_last m (sealed ka c)). exact Bs. }
  split; [intros q l Hq; apply has_bytes_alloc; exact Hq|].
  intros m2 e_key2 iv2 v2 msg2 Hk2 Hv2 Lv2 Hs.
  destruct (cfb_init_ok m2 e_key2 iv2 ke v2 Hk2 Lk Hv2 Lv2) as (ks2 & E2 & R2 & S2 & C2).
  assert (I2 : aes_inv (cfb_st v2 ks2)) by (apply cfb_st_inv; [apply S2|exact R2]).
  assert (P : 0 < length c) by lia.
  pose proof (recv1 oor m2 ka c (tag128 ka c) e_key2 iv2 msg2 _ Ba E2 I2 Hs (tag128_length ka c)) as Y.
  rewrite Lc in Y. specialize (Y ltac:(lia) L31' M64). rewrite list_N_eqb_refl in Y.
  destruct (div16 c) as [Ec Hr].
  assert (M4 : length c mod 4 = length p mod 4).
  { rewrite Lc. replace (16 + length p) with (length p + 4 * 4) by lia. apply Nat.mod_add. lia. }
  assert (Dr : tail_defined oor (length c mod 16)).
  { destruct T as [T|T]; [left; rewrite mod16_4, M4; exact T|right; exact T]. }
  destruct (cfb_run_defined oor (Table false) feed_in _ (cfb_st v2 ks2) _ c Hr Ec Dr) as (s & r & Rr).
  pose proof (cfb_run_length _ _ _ _ _ _ _ _ _ Hr Ec Rr) as Lr.
  rewrite <- Lc in Y. rewrite Rr in Y. cbn [bind] in Y. rewrite Lc in Y.
  exists r. split; [exact Y|]. split; [lia|]. intros W.
  assert (Wc : length c mod 16 = 0).
  { rewrite Lc. replace (16 + length p) with (length p + 1 * 16) by lia. rewrite Nat.mod_add by lia. exact W. }
  destruct (dec_blocks oor (Table false) ks2 (length c / 16) v2 c S2 R2 Bc (whole_div c Wc)) as [Q _].
  rewrite Q in Rr. apply Ret_pair in Rr as [_ <-].
  unfold cfb128_decrypt. rewrite (dec_blocks_ext _ _ _ (C2 (Table false))). reflexivity.
Qed.
Print Assumptions C131_ae_section2_message_in_section1.

(** Refuted: a message of the first section is accepted in the second, which
    prints as recovered a text that nobody sent. *)
Definition cross_mem : mem :=
  [holding (repeat 0%N 64); holding (repeat 5%N 16); holding (repeat 0%N 16); holding (repeat 65%N 32)].
Theorem C131_ae_sections_kept_apart_refuted : exists m a_key e_key iv plaintext p a_cs e_cs m1 msg o r,
  has_bytes m plaintext p /\ length p = 32 /\
  hmac_load_key sha256_hash m a_key 64 = Ret a_cs /\ aes_cfb_initialize m e_key iv = Ret e_cs /\
  section1_send ub_shift a_cs e_cs m plaintext 32 = Ret (m1, msg, o) /\
  section2_receive a_cs m1 e_key msg 16 = Ret [ValidTag; Recovered r] /\ length r = 16.
Proof.
  destruct (C131_ae_section1_message_in_section2 ub_shift cross_mem (Ptr 0 0) (repeat 0%N 64) (Ptr 1 0) (repeat 5%N 16)
    (Ptr 2 0) (repeat 0%N 16) (Ptr 3 0) (repeat 65%N 32)) as (a_cs & e_cs & m1 & msg & o & c & E1 & E2 & E3 & Lc & E4 & K & X).
  1,3,5,7: conc_has_bytes.
  1,2,3,4: rewrite repeat_length; lia.
  { rewrite repeat_length. discriminate. }
  { left. rewrite repeat_length. cbn. lia. }
  { rewrite repeat_length. reflexivity. }
  rewrite repeat_length in *.
  exists cross_mem, (Ptr 0 0), (Ptr 1 0), (Ptr 2 0), (Ptr 3 0), (repeat 65%N 32), a_cs, e_cs, m1, msg, o.
  exists (HcSpec.hc_encrypt (repeat 5%N 16) (firstn 16 c) (skipn 16 c)).
  split; [conc_has_bytes|]. split; [reflexivity|]. split; [exact E1|]. split; [exact E2|]. split; [exact E3|].
  split; [|rewrite hc_encrypt_length, skipn_length; lia].
  apply (X m1 (Ptr 1 0) msg); [|exact E4]. apply K. conc_has_bytes.
Qed.
Print Assumptions C131_ae_sections_kept_apart_refuted.

Example C131_instance :
  has_bytes cross_mem (Ptr 0 0) (repeat 0%N 64) /\ has_bytes cross_mem (Ptr 1 0) (repeat 5%N 16) /\
  has_bytes cross_mem (Ptr 2 0) (repeat 0%N 16) /\ has_bytes cross_mem (Ptr 3 0) (repeat 65%N 32) /\
  16 <= length (repeat 65%N 32) /\ length (repeat 65%N 32) mod 64 <> 63 /\ length (repeat 65%N 32) mod 64 <> 47 /\ settled ub_shift (length (repeat 65%N 32)).
Proof. repeat (split; [conc_has_bytes|]). rewrite repeat_length. repeat split; try (cbn; lia). left. cbn. lia. Qed.
