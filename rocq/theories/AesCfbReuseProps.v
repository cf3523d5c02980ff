(** Property C120: what equal AES-CFB ciphertext blocks show. *)
From Coq Require Import Arith NArith List Bool Lia.
From Verif Require Import Res Words Mem MemSpec ListLemmas MemLemmas SpecWords WordsLemmas SyncSpec XorProofs Concrete AesSpec AesModel AesProofs AesCfbLink AesProps AesInj AesInjProps.
Import ListNotations.
Local Open Scope nat_scope.

Lemma enc_block_at (E : list N -> list N) q : (forall s, st16 s -> st16 (E s)) ->
  forall iv d, st16 iv -> bytes_ok d -> length d = 16 * q ->
  bytes_ok (cfb128_encrypt E iv d) /\ length (cfb128_encrypt E iv d) = 16 * q /\
  forall j, j < q -> block_at j (cfb128_encrypt E iv d) = xor_bytes (block_at j d) (E (block_at j (iv ++ cfb128_encrypt E iv d))).
Proof.
  intros HE. unfold cfb128_encrypt. induction q as [|q IH]; intros iv d S B L.
  - destruct d; [|discriminate L]. split; [constructor|]. split; [reflexivity|]. intros j J. lia.
  - assert (X : exists d1 d2, d = d1 ++ d2 /\ length d1 = 16).
    { exists (firstn 16 d), (skipn 16 d). split; [symmetry; apply firstn_skipn|]. rewrite firstn_length. lia. }
    destruct X as (d1 & d2 & -> & L1). rewrite app_length, L1 in L.
    apply Forall_app in B. destruct B as [B1 B2]. rewrite chunks16 by exact L1. cbn [cfb_enc_blocks concat].
    assert (Sx : st16 (xor_bytes d1 (E iv))).
    { destruct (HE iv S) as [X1 X2]. split; [apply xor_bytes_ok; assumption|]. rewrite xor_bytes_length_min, L1, X2. reflexivity. }
    destruct (IH _ d2 Sx B2 ltac:(lia)) as (IB & IL & IJ). split; [apply Forall_app; split; [apply Sx|exact IB]|].
    split; [rewrite app_length, IL, (proj2 Sx); lia|]. intros [|j] J.
    + rewrite !block_at_app0 by (assumption || apply S || apply Sx). reflexivity.
    + rewrite !block_at_appS by (assumption || apply S || apply Sx). rewrite IJ by lia. reflexivity.
Qed.

(** Two senders hold the same key.  Write each one's ciphertext after the
    initialisation vector it started from.  Block [i] of the one equals block [j]
    of the other if and only if the next ciphertext blocks differ by exactly the
    difference of their plaintexts.  With [i] = [j] = 0 this is an initialisation
    vector used twice. *)
Theorem C120_aes_cfb_equal_blocks : forall oor oor' b b' m kp ivp iv m' kp' ivp' iv' key ds ds',
  (b = Table true <-> b' = Table true) ->
  has_bytes m kp key -> has_bytes m' kp' key -> length key = 16 ->
  has_bytes m ivp iv -> length iv = 16 -> has_bytes m' ivp' iv' -> length iv' = 16 ->
  Forall (fun d => bytes_ok d /\ length d mod 16 = 0) ds ->
  Forall (fun d => bytes_ok d /\ length d mod 16 = 0) ds' ->
  exists cs cs' t t' es es',
    aes_cfb_initialize m kp ivp = Ret cs /\ aes_cfb_initialize m' kp' ivp' = Ret cs' /\
    sends (cfb_packet oor b ENCRYPT) cs ds t es /\ sends (cfb_packet oor' b' ENCRYPT) cs' ds' t' es' /\
    length (concat es) = length (concat ds) /\ length (concat es') = length (concat ds') /\
    forall i j, 16 * (i + 1) <= length (concat ds) -> 16 * (j + 1) <= length (concat ds') ->
      (block_at i (iv ++ concat es) = block_at j (iv' ++ concat es') <->
       xor_bytes (block_at i (concat es)) (block_at j (concat es')) =
       xor_bytes (block_at i (concat ds)) (block_at j (concat ds'))).
Proof.
  intros oor oor' b b' m kp ivp iv m' kp' ivp' iv' key ds ds' HB K1 K2 Lk V1 Lv1 V2 Lv2 F1 F2.
  destruct (cfb_init_ok m kp ivp key iv K1 Lk V1 Lv1) as (k1 & E1 & O1 & S1 & C1).
  destruct (cfb_init_ok m' kp' ivp' key iv' K2 Lk V2 Lv2) as (k2 & E2 & O2 & S2 & C2).
  destruct (cfb_sends oor b k1 ds O1 F1 iv S1) as (s1 & es1 & R1 & D1).
  destruct (cfb_sends oor' b' k2 ds' O2 F2 iv' S2) as (s2 & es2 & R2 & D2).
  destruct (concat_whole ds F1) as [B1 W1]. destruct (concat_whole ds' F2) as [B2 W2].
  destruct (enc_block_at (cipher_of b k1) _ (fun s => cipher_of_st16 b k1 s O1) iv (concat ds) S1 B1 W1) as (G1 & L1 & J1).
  destruct (enc_block_at (cipher_of b' k2) _ (fun s => cipher_of_st16 b' k2 s O2) iv' (concat ds') S2 B2 W2) as (G2 & L2 & J2).
  rewrite <- D1 in G1, L1, J1. rewrite <- D2 in G2, L2, J2.
  exists (cfb_st iv k1), (cfb_st iv' k2), s1, s2, es1, es2.
  split; [exact E1|]. split; [exact E2|]. split; [exact R1|]. split; [exact R2|].
  split; [rewrite L1; symmetry; exact W1|]. split; [rewrite L2; symmetry; exact W2|]. intros i j I J.
  assert (T1 : st16 (block_at i (iv ++ concat es1))).
  { apply block_at_st16; [apply Forall_app; split; [apply S1|exact G1]|]. rewrite app_length. lia. }
  assert (T2 : st16 (block_at j (iv' ++ concat es2))).
  { apply block_at_st16; [apply Forall_app; split; [apply S2|exact G2]|]. rewrite app_length. lia. }
  rewrite J1, J2 by lia.
  pose proof (proj2 (block_at_st16 i _ B1 I)) as M1. pose proof (proj2 (block_at_st16 j _ B2 J)) as M2.
  pose proof (proj2 (cipher_of_st16 b k1 _ O1 T1)) as N1. pose proof (proj2 (cipher_of_st16 b' k2 _ O2 T2)) as N2.
  rewrite xor_bytes_inj_l by congruence.
  assert (Q : forall s, cipher_of b k1 s = cipher_of b' k2 s).
  { intros s. rewrite C1, C2. unfold build_cipher.
    destruct b as [[|]| |], b' as [[|]| |]; try reflexivity; exfalso; destruct HB as [X Y];
      try (specialize (X eq_refl); discriminate X); specialize (Y eq_refl); discriminate Y. }
  rewrite <- Q. split; [intros ->; reflexivity|]. intros X. apply (cipher_of_inj b k1 _ _ O1 T1 T2 X).
Qed.
Print Assumptions C120_aes_cfb_equal_blocks.

(** The key of FIPS 197 and an initialisation vector used twice, for SP 800-38A's
    two blocks and for two blocks of zeros. *)
Example C120_instance :
  let m := [holding fips_key; holding nist_iv; holding nist_pt; holding (repeat 0%N 32); fresh 32; fresh 32] in
  has_bytes m (Ptr 0 0) fips_key /\ has_bytes m (Ptr 1 0) nist_iv /\ bytes_ok nist_pt /\ length nist_pt mod 16 = 0 /\
  bytes_ok (repeat 0%N 32) /\
  exists cs s1 s2 m1 m2 e1 e2, aes_cfb_initialize m (Ptr 0 0) (Ptr 1 0) = Ret cs /\
    cfb_packet ub_shift (Table false) ENCRYPT cs m (Ptr 4 0) (Ptr 2 0) 32 = Ret (s1, m1) /\ ldn m1 (Ptr 4 0) 32 = Ret e1 /\
    cfb_packet ub_shift X86 ENCRYPT cs m (Ptr 5 0) (Ptr 3 0) 32 = Ret (s2, m2) /\ ldn m2 (Ptr 5 0) 32 = Ret e2 /\
    block_at 0 (nist_iv ++ e1) = block_at 0 (nist_iv ++ e2) /\
    xor_bytes (block_at 0 e1) (block_at 0 e2) = block_at 0 nist_pt /\
    xor_bytes (block_at 1 e1) (block_at 1 e2) <> block_at 1 nist_pt.
Proof.
  cbv zeta. split; [conc_has_bytes|]. split; [conc_has_bytes|]. split; [cbv [nist_pt repeat]; repeat (apply Forall_cons; [vm_compute; reflexivity|]); apply Forall_nil|].
  split; [reflexivity|]. split; [cbv [nist_pt repeat]; repeat (apply Forall_cons; [vm_compute; reflexivity|]); apply Forall_nil|].
  do 7 eexists. split; [vm_compute; reflexivity|]. split; [vm_compute; reflexivity|]. split; [vm_compute; reflexivity|].
  split; [vm_compute; reflexivity|]. split; [vm_compute; reflexivity|]. split; [vm_compute; reflexivity|].
  split; [vm_compute; reflexivity|]. vm_compute. discriminate.
Qed.
