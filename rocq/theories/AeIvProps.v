(** Property C129: the first section of the authenticated-encryption example
    with a receiver set up with another IV.  The code modelled is
    [section1_send] and [section1_receive] of AeModel. *)
From Coq Require Import Arith NArith ZArith List Bool Lia.
From Verif Require Import Res Words Mem MemSpec Ints ListLemmas MemLemmas SpecWords WordsLemmas Finite XorProofs IoProofs
  SyncSpec Concrete ShaSpec ShaModel ShaProofs HmacModel HmacProofs HexSpec HexModel HexProofs
  AesSpec AesModel AesProofs AesCtrProofs AesCtrLink AesCfbProofs AesCfbLink AesProps AesInj AesInjProps AesCfbReuseProps AeSpec AeModel AeProofs AeProps.
Import ListNotations.
Local Open Scope nat_scope.

Lemma xor_twice a : forall b, length a = length b -> xor_bytes (xor_bytes a b) b = a.
Proof. intros b L. apply xor_bytes_invol. lia. Qed.
Lemma xor_assoc a : forall b c, xor_bytes (xor_bytes a b) c = xor_bytes a (xor_bytes b c).
Proof.
  unfold xor_bytes. induction a as [|x a IH]; intros [|y b] [|z c]; cbn [combine map fst snd]; try reflexivity.
  rewrite IH, N.lxor_assoc. reflexivity.
Qed.
Lemma xor_same_zero a : forall b, length a = length b -> xor_bytes a b = repeat 0%N (length a) -> a = b.
Proof.
  unfold xor_bytes. induction a as [|x a IH]; intros [|y b] L; cbn [combine map fst snd length repeat] in *; try discriminate; [reflexivity|].
  intros E. injection E as E1 E2. apply N.lxor_eq in E1. rewrite E1, (IH b) by (lia || exact E2). reflexivity.
Qed.

Lemma xor_fixed a : forall x, length a = length x -> xor_bytes a x = a -> x = repeat 0%N (length x).
Proof.
  unfold xor_bytes. induction a as [|y a IH]; intros [|z x] L; cbn [combine map fst snd length repeat] in *; try discriminate; [reflexivity|].
  intros E. injection E as E1 E2. rewrite <- (IH x) by (lia || exact E2). f_equal.
  rewrite <- (N.lxor_0_l z), <- (N.lxor_nilpotent y), N.lxor_assoc, E1. reflexivity.
Qed.

Section Modes.
Variable E : list N -> list N.
Hypothesis E16 : forall s, st16 s -> st16 (E s).

Lemma cfb_round_trip q : forall iv d, st16 iv -> bytes_ok d -> length d = 16 * q ->
  cfb128_decrypt E iv (cfb128_encrypt E iv d) = d.
Proof.
  unfold cfb128_decrypt, cfb128_encrypt. induction q as [|q IH]; intros iv d S B L.
  - destruct d; [reflexivity|discriminate L].
  - assert (X : exists d1 d2, d = d1 ++ d2 /\ length d1 = 16).
    { exists (firstn 16 d), (skipn 16 d). split; [symmetry; apply firstn_skipn|]. rewrite firstn_length. lia. }
    destruct X as (d1 & d2 & -> & L1). rewrite app_length, L1 in L.
    apply Forall_app in B. destruct B as [B1 B2]. rewrite chunks16 by exact L1. cbn [cfb_enc_blocks concat].
    destruct (E16 iv S) as [X1 X2].
    assert (Sx : st16 (xor_bytes d1 (E iv))).
    { split; [apply xor_bytes_ok; assumption|]. rewrite xor_bytes_length_min, L1, X2. reflexivity. }
    rewrite chunks16 by apply Sx. cbn [cfb_dec_blocks concat]. rewrite xor_twice by lia.
    rewrite IH by (assumption || lia). reflexivity.
Qed.

Lemma cfb_other_iv iv iv' d q : st16 iv -> st16 iv' -> bytes_ok d -> length d = 16 * S q ->
  cfb128_decrypt E iv' (cfb128_encrypt E iv d) = xor_bytes (firstn 16 d) (xor_bytes (E iv) (E iv')) ++ skipn 16 d.
Proof.
  intros Si Si' B L. unfold cfb128_decrypt, cfb128_encrypt.
  assert (X : exists d1 d2, d = d1 ++ d2 /\ length d1 = 16).
  { exists (firstn 16 d), (skipn 16 d). split; [symmetry; apply firstn_skipn|]. rewrite firstn_length. lia. }
  destruct X as (d1 & d2 & -> & L1). rewrite app_length, L1 in L.
  apply Forall_app in B. destruct B as [B1 B2]. rewrite chunks16 by exact L1. cbn [cfb_enc_blocks concat].
  destruct (E16 iv Si) as [X1 X2].
  assert (Sx : st16 (xor_bytes d1 (E iv))).
  { split; [apply xor_bytes_ok; assumption|]. rewrite xor_bytes_length_min, L1, X2. reflexivity. }
  rewrite chunks16 by apply Sx. cbn [cfb_dec_blocks concat].
  rewrite firstn_app, L1, Nat.sub_diag, firstn_O, app_nil_r, firstn_all2 by lia.
  rewrite skipn_app, L1, Nat.sub_diag, skipn_all2 by lia. cbn [skipn app].
  rewrite xor_assoc. f_equal. apply (cfb_round_trip q); [exact Sx|exact B2|lia].
Qed.
End Modes.

(** C129: what a receiver with the right keys prints for a message sent under
    the IV [v] when it has been set up with [v2]: the tag is valid, all but the
    first block is right, and the whole only if the IVs agree. *)
Theorem C129_ae_section1_other_iv : forall oor m a_key ka e_key ke iv v plaintext p,
  has_bytes m a_key ka -> length ka <= 64 -> has_bytes m e_key ke -> length ke = 16 ->
  has_bytes m iv v -> length v = 16 -> has_bytes m plaintext p ->
  0 < length p -> length p mod 16 = 0 -> (Z.of_nat (length p) + 16 < 2^30)%Z ->
  exists a_cs e_cs m1 msg o sent,
    hmac_load_key sha256_hash m a_key (Z.of_nat (length ka)) = Ret a_cs /\
    aes_cfb_initialize m e_key iv = Ret e_cs /\
    section1_send oor a_cs e_cs m plaintext (length p) = Ret (m1, msg, o) /\
    ldn m1 msg (length p + 16) = Ret sent /\
    forall m2 e_key2 iv2 v2 msg2,
      has_bytes m2 e_key2 ke -> has_bytes m2 iv2 v2 -> length v2 = 16 -> has_bytes m2 msg2 sent ->
      exists r, section1_receive oor a_cs m2 e_key2 iv2 msg2 (length p) = Ret (true, [ValidTag; Recovered r]) /\
        skipn 16 r = skipn 16 p /\
        firstn 16 r = xor_bytes (firstn 16 p) (xor_bytes (aes128 ke v) (aes128 ke v2)) /\
        (r = p <-> v2 = v).
Proof.
  intros oor m a_key ka e_key ke iv v plaintext p Ha La Hk Lk Hv Lv Hp P W L.
  pose proof (has_bytes_bytes _ _ _ Ha) as Ba. pose proof (has_bytes_bytes _ _ _ Hp) as Bp.
  assert (L31 : (Z.of_nat (length p) + 137 <= 2^31)%Z).
  { change (2^30)%Z with 1073741824%Z in L. change (2^31)%Z with 2147483648%Z. lia. }
  assert (D : hash_len (length p)).
  { unfold hash_len. pose proof (Nat.div_mod_eq (length p) 64). pose proof (Nat.div_mod_eq (length p) 16).
    pose proof (Nat.mod_upper_bound (length p) 64). lia. }
  destruct (cfb_init_ok m e_key iv ke v Hk Lk Hv Lv) as (ks & E & R & Sv & C).
  assert (I : aes_inv (cfb_st v ks)) by (apply cfb_st_inv; [apply Sv|exact R]).
  destruct (enc_blocks oor (Table false) ks (length p / 16) v p Sv R Bp (whole_div p W)) as [Rn _].
  pose proof (send1 oor m ka p plaintext _ Ba I Hp P L D) as X. rewrite Rn in X. cbn [bind] in X.
  fold (cfb128_encrypt (cipher_of (Table false) ks) v p) in X. set (c := cfb128_encrypt (cipher_of (Table false) ks) v p) in X.
  assert (E16 : forall s, st16 s -> st16 (cipher_of (Table false) ks s)) by (intros s Hs; apply cipher_of_st16; assumption).
  destruct (enc_block_at (cipher_of (Table false) ks) (length p / 16) E16 v p Sv Bp (whole_div p W)) as (Bc & Lc & _).
  fold c in Bc, Lc. rewrite <- (whole_div p W) in Lc.
  assert (Bs : bytes_ok (sealed ka c)) by (unfold sealed; apply Forall_app; split; [exact Bc|apply tag128_ok]).
  assert (Ls : length (sealed ka c) = length p + 16) by (unfold sealed; rewrite app_length, tag128_length, Lc; reflexivity).
  do 6 eexists. split.
  { apply (load_key_ok _ _ hash_hash_ok); auto; [change (2^31)%Z with 2147483648%Z; lia|lia]. }
  split; [exact E|]. split; [exact X|]. split.
  { rewrite <- Ls. apply has_bytes_ldn. apply has_bytes_last. exact Bs. }
  intros m2 e_key2 iv2 v2 msg2 Hk2 Hv2 Lv2 Hs.
  destruct (cfb_init_ok m2 e_key2 iv2 ke v2 Hk2 Lk Hv2 Lv2) as (ks2 & E2 & R2 & Sv2 & C2).
  assert (I2 : aes_inv (cfb_st v2 ks2)) by (apply cfb_st_inv; [apply Sv2|exact R2]).
  assert (Wc : length c mod 16 = 0) by (rewrite Lc; exact W).
  pose proof (recv1 oor m2 ka c (tag128 ka c) e_key2 iv2 msg2 _ Ba E2 I2 Hs (tag128_length ka c)) as Y.
  rewrite Lc in Y. specialize (Y P L31 D). rewrite list_N_eqb_refl in Y.
  destruct (dec_blocks oor (Table false) ks2 (length c / 16) v2 c Sv2 R2 Bc (whole_div c Wc)) as [Q _].
  rewrite Lc in Q. rewrite Q in Y. cbn [bind] in Y.
  eexists. split; [exact Y|].
  rewrite (dec_blocks_ext _ (cipher_of (Table false) ks)) by (intros s; rewrite C, C2; reflexivity).
  fold (cfb128_decrypt (cipher_of (Table false) ks) v2 c). unfold c.
  assert (Hq : length p = 16 * S (length p / 16 - 1)).
  { pose proof (whole_div p W). destruct (length p / 16); lia. }
  rewrite (cfb_other_iv _ E16 v v2 p _ Sv Sv2 Bp Hq).
  destruct (E16 v Sv) as [_ Le]. destruct (E16 v2 Sv2) as [_ Le2].
  assert (Lx : length (xor_bytes (firstn 16 p) (xor_bytes (cipher_of (Table false) ks v) (cipher_of (Table false) ks v2))) = 16).
  { rewrite !xor_bytes_length_min, Le, Le2, firstn_length. lia. }
  split; [rewrite skipn_app, Lx, Nat.sub_diag, skipn_all2 by lia; reflexivity|].
  split.
  { rewrite firstn_app, Lx, Nat.sub_diag, firstn_O, app_nil_r, firstn_all2 by lia. rewrite !C. reflexivity. }
  split.
  - intros Q'. apply (f_equal (firstn 16)) in Q'.
    rewrite firstn_app, Lx, Nat.sub_diag, firstn_O, app_nil_r, firstn_all2 in Q' by lia.
    apply (cipher_of_inj (Table false) ks); try assumption. symmetry. apply xor_same_zero; [lia|].
    apply xor_fixed in Q'; [|rewrite xor_bytes_length_min, Le, Le2, firstn_length; lia].
    rewrite xor_bytes_length_min, Le, Le2 in Q'. rewrite Le. exact Q'.
  - intros ->. rewrite <- xor_assoc, xor_twice by (rewrite firstn_length, Le; lia). apply firstn_skipn.
Qed.
Print Assumptions C129_ae_section1_other_iv.

(** Refuted: a message with a valid tag of which the first block is lost. *)
Definition other_iv_mem : mem :=
  [holding (repeat 0%N 64); holding (repeat 5%N 16); holding (repeat 0%N 16); holding (repeat 1%N 16); holding (repeat 65%N 32)].
Theorem C129_ae_section1_needs_iv_refuted : exists m a_key e_key iv iv2 plaintext p a_cs e_cs m1 msg o r,
  has_bytes m plaintext p /\ length p = 32 /\
  hmac_load_key sha256_hash m a_key 64 = Ret a_cs /\ aes_cfb_initialize m e_key iv = Ret e_cs /\
  section1_send ub_shift a_cs e_cs m plaintext 32 = Ret (m1, msg, o) /\
  section1_receive ub_shift a_cs m1 e_key iv2 msg 32 = Ret (true, [ValidTag; Recovered r]) /\ r <> p.
Proof.
  exists other_iv_mem, (Ptr 0 0), (Ptr 1 0), (Ptr 2 0), (Ptr 3 0), (Ptr 4 0), (repeat 65%N 32). do 6 eexists.
  split; [conc_has_bytes|]. split; [reflexivity|]. split; [vm_compute; reflexivity|]. split; [vm_compute; reflexivity|].
  split; [vm_compute; reflexivity|]. split; [vm_compute; reflexivity|]. discriminate.
Qed.
Print Assumptions C129_ae_section1_needs_iv_refuted.

Example C129_instance :
  has_bytes other_iv_mem (Ptr 0 0) (repeat 0%N 64) /\ has_bytes other_iv_mem (Ptr 1 0) (repeat 5%N 16) /\
  has_bytes other_iv_mem (Ptr 2 0) (repeat 0%N 16) /\ has_bytes other_iv_mem (Ptr 3 0) (repeat 1%N 16) /\
  has_bytes other_iv_mem (Ptr 4 0) (repeat 65%N 32) /\ length (repeat 65%N 32) mod 16 = 0.
Proof. repeat (split; [conc_has_bytes|]). reflexivity. Qed.
