(** Property C92: distinct counter blocks give distinct key stream blocks. *)
From Coq Require Import Arith NArith ZArith List Bool Lia.
From Verif Require Import Res Words Mem MemSpec ListLemmas MemLemmas SpecWords WordsLemmas XorProofs IoProofs
  SyncSpec SyncProofs Concrete AesTables AesSpec AesModel AesProofs AesCtrProofs AesCtrLink AesCfbProofs AesCfbLink
  AesProps AesInj.
Import ListNotations.
Local Open Scope nat_scope.

(** Under one loaded key, in every build, two register contents with the same
    encryption are the same. *)
Theorem C92_aes_block_injective : forall b cs cs' m p key,
  has_bytes m p key -> length key = 16 -> regs_32 cs -> regs_32 cs' ->
  exists k k', aes_load_key cs m p = Ret k /\ aes_load_key cs' m p = Ret k' /\
    (ctr_aes_encrypt b k = ctr_aes_encrypt b k' -> reg_bytes cs = reg_bytes cs').
Proof.
  intros b cs cs' m p key H L R R'. destruct (schedule_ok m p key H L) as (ks & E & K & C).
  unfold aes_load_key. rewrite E. cbn [bind]. eexists. eexists. split; [reflexivity|]. split; [reflexivity|].
  destruct (reg_state cs R) as (s & S & Es & Eb). destruct (reg_state cs' R') as (s' & S' & Es' & Eb').
  rewrite Eb, Eb'.
  assert (X : Aes (reg1 cs) (reg2 cs) (reg3 cs) (reg4 cs) ks = cfb_st s ks).
  { rewrite Es. unfold cfb_st. destruct (vstore s) as [[[x y] z] w]. reflexivity. }
  assert (X' : Aes (reg1 cs') (reg2 cs') (reg3 cs') (reg4 cs') ks = cfb_st s' ks).
  { rewrite Es'. unfold cfb_st. destruct (vstore s') as [[[x y] z] w]. reflexivity. }
  rewrite X, X'. unfold ctr_aes_encrypt. rewrite !regs_cfb_st, !rk_cfb_st, !rounds_ok by assumption.
  intros Q. apply (f_equal le_bytes) in Q. rewrite !le_bytes_vstore in Q by (apply cipher_of_st16; assumption).
  apply (cipher_of_inj b ks s s' K S S' Q).
Qed.
Print Assumptions C92_aes_block_injective.

(** The [i]-th 16 bytes of key stream that turned the packets [ds] into [es]. *)
Definition used_stream (ds es : list (list N)) (i : nat) : list N :=
  xor_bytes (firstn 16 (skipn (16 * i) (concat ds))) (firstn 16 (skipn (16 * i) (concat es))).

Lemma xor_cancel d k : length k = length d -> xor_bytes d (xor_bytes d k) = k.
Proof.
  revert k. induction d as [|x d IH]; intros [|y k] L; try discriminate; [reflexivity|].
  unfold xor_bytes in *. cbn [combine map fst snd length] in *. f_equal; [|apply IH; lia].
  rewrite <- N.lxor_assoc, N.lxor_nilpotent. apply N.lxor_0_l.
Qed.

Lemma firstn_xor n d k : firstn n (xor_bytes d k) = xor_bytes (firstn n d) (firstn n k).
Proof.
  unfold xor_bytes. revert d k. induction n as [|n IH]; intros [|x d] [|y k]; cbn [firstn combine map fst snd]; try reflexivity.
  f_equal. apply IH.
Qed.
Lemma skipn_xor n d k : skipn n (xor_bytes d k) = xor_bytes (skipn n d) (skipn n k).
Proof.
  unfold xor_bytes. revert d k. induction n as [|n IH]; intros [|x d] [|y k]; cbn [skipn combine map fst snd]; try reflexivity.
  - destruct (skipn n d); reflexivity.
  - apply IH.
Qed.

Lemma stream_block b rk nonce n : nonce_ok nonce -> rk_ok rk -> forall c i, i < n ->
  firstn 16 (skipn (16 * i) (ctr_stream (cipher_of b rk) nonce c n)) = ctr_block (cipher_of b rk) nonce (c + N.of_nat i).
Proof.
  intros Hn Hk. induction n as [|n IH]; intros c i Hi; [lia|]. rewrite ctr_stream_S.
  destruct (ctr_encrypt_ok b nonce c rk Hn Hk) as (_ & _ & _ & L).
  destruct i as [|i].
  - rewrite Nat.mul_0_r. cbn [skipn]. change (N.of_nat 0) with 0%N. rewrite N.add_0_r.
    rewrite firstn_app, L, Nat.sub_diag, (firstn_all2 (ctr_block _ _ _)) by lia. cbn [firstn]. apply app_nil_r.
  - replace (16 * S i) with (16 + 16 * i) by lia.
    rewrite skipn_app, (skipn_all2 (ctr_block _ _ _)) by lia. cbn [app]. rewrite L.
    replace (16 + 16 * i - 16) with (16 * i) by lia. rewrite IH by lia. f_equal. lia.
Qed.

Lemma whole_concat {A} (ds : list (list A)) : Forall (fun d => length d mod 16 = 0) ds -> length (concat ds) mod 16 = 0.
Proof.
  induction 1 as [|d ds Hd H IH]; [reflexivity|]. cbn [concat]. rewrite app_length.
  rewrite Nat.add_mod, Hd, IH by lia. reflexivity.
Qed.

Lemma used_stream_ok b rk nonce ds i : nonce_ok nonce -> rk_ok rk ->
  Forall (fun d => length d mod 16 = 0) ds -> 16 * (i + 1) <= length (concat ds) ->
  used_stream ds (ctr_packets (cipher_of b rk) nonce 1 ds) i = ctr_block (cipher_of b rk) nonce (1 + N.of_nat i).
Proof.
  intros Hn Hk F Hi. unfold used_stream.
  rewrite (ctr_concat b rk nonce ds Hn Hk).
  2:{ clear - F. induction F as [|d ds Hd F IH]; [constructor|]. destruct ds; [constructor|].
      change (removelast (d :: l :: ds)) with (d :: removelast (l :: ds)). constructor; assumption. }
  unfold ctr_crypt. rewrite skipn_xor, firstn_xor.
  assert (B : i < length (chunks 16 (concat ds))).
  { rewrite <- blocks_of_chunks. unfold blocks_of. rewrite (whole_concat ds F). cbn [Nat.eqb].
    pose proof (Nat.div_mod_eq (length (concat ds)) 16). rewrite (whole_concat ds F) in H. lia. }
  rewrite (stream_block b rk nonce _ Hn Hk 1%N i B).
  apply xor_cancel. rewrite firstn_length, skipn_length.
  destruct (ctr_encrypt_ok b nonce (1 + N.of_nat i) rk Hn Hk) as (_ & _ & _ & L). rewrite L. lia.
Qed.

Lemma be4_inj x y : (x < 2^32)%N -> (y < 2^32)%N -> be_str 4 x = be_str 4 y -> x = y.
Proof.
  intros Hx Hy E. rewrite <- (bswap_be x Hx), <- (bswap_be y Hy), E. reflexivity.
Qed.

Lemma ctr_block_inj b rk nonce nonce' c c' : nonce_ok nonce -> nonce_ok nonce' -> rk_ok rk ->
  (ctr_block (cipher_of b rk) nonce c = ctr_block (cipher_of b rk) nonce' c' <->
   nonce = nonce' /\ (c mod 2^32 = c' mod 2^32)%N).
Proof.
  intros Hn Hn' Hk. unfold ctr_block. split.
  - intros E. apply cipher_of_inj in E; [|exact Hk|apply (ctr_in_st16 nonce c Hn)|apply (ctr_in_st16 nonce' c' Hn')].
    apply app_inv_length in E; [|rewrite (proj2 Hn), (proj2 Hn'); reflexivity].
    destruct E as [E1 E2]. split; [exact E1|]. apply be4_inj; [apply N.mod_lt; discriminate..|exact E2].
  - intros [-> ->]. reflexivity.
Qed.

Lemma mod_shift i j : ((1 + i) mod 2^32 = (1 + j) mod 2^32 <-> i mod 2^32 = j mod 2^32)%N.
Proof.
  assert (P : (2^32 <> 0)%N) by discriminate. split; intros E.
  - assert (X : forall z, (z mod 2^32 = ((1 + z) mod 2^32 + (2^32 - 1)) mod 2^32)%N).
    { intros z. rewrite N.add_mod_idemp_l by exact P.
      replace (1 + z + (2^32 - 1))%N with (z + 1 * 2^32)%N by (change (2^32)%N with 4294967296%N; lia).
      rewrite N.mod_add by exact P. reflexivity. }
    rewrite (X i), (X j), E. reflexivity.
  - rewrite (N.add_mod 1 i), (N.add_mod 1 j), E by exact P. reflexivity.
Qed.

(** Two conversations under one key, each of whole-block packets: a block of key
    stream of the first is a block of the second exactly when the nonces are the
    same and the block numbers agree modulo 2^32.  In particular one nonce
    repeats no block before 2^32 blocks, and every block afterwards. *)
Theorem C92_aes_ctr_stream_repeats : forall oor wild b cs cs' m kp np np' key nonce nonce' ds ds',
  has_bytes m kp key -> length key = 16 ->
  has_bytes m np nonce -> length nonce = 12 -> has_bytes m np' nonce' -> length nonce' = 12 ->
  Forall (fun d => length d mod 16 = 0) ds -> Forall (fun d => length d mod 16 = 0) ds' ->
  exists k k' s s' t t' es es',
    aes_load_key cs m kp = Ret k /\ ctr_load_iv k m np = Ret s /\
    aes_load_key cs' m kp = Ret k' /\ ctr_load_iv k' m np' = Ret s' /\
    sends (ctr_packet oor wild b) s ds t es /\ sends (ctr_packet oor wild b) s' ds' t' es' /\
    forall i j, 16 * (i + 1) <= length (concat ds) -> 16 * (j + 1) <= length (concat ds') ->
      (used_stream ds es i = used_stream ds' es' j <->
       nonce = nonce' /\ (N.of_nat i mod 2^32 = N.of_nat j mod 2^32)%N).
Proof.
  intros oor wild b cs cs' m kp np np' key nonce nonce' ds ds' H L Hn Ln Hn' Ln' F F'.
  assert (G : forall ds : list (list N), Forall (fun d => length d mod 16 = 0) ds ->
    Forall (fun d => length d mod 4 = 0 /\ (wild = Ret tt \/ length d mod 16 = 0)) ds).
  { intros l X. eapply Forall_impl; [|exact X]. cbv beta. intros d D. split; [|right; exact D].
    pose proof (Nat.div_mod_eq (length d) 16) as Y. rewrite D, Nat.add_0_r in Y. rewrite Y.
    replace (16 * (length d / 16)) with (0 + (4 * (length d / 16)) * 4) by lia. rewrite Nat.mod_add by lia. reflexivity. }
  destruct (schedule_ok m kp key H L) as (ks & E & K & C).
  destruct (ctr_init_ok cs m kp np key nonce H L Hn Ln) as (k1 & ks1 & E1 & E2 & K1 & N1 & C1).
  destruct (ctr_init_ok cs' m kp np' key nonce' H L Hn' Ln') as (k2 & ks2 & E3 & E4 & K2 & N2 & C2).
  assert (X1 : ks1 = ks).
  { clear - E E1 E2. unfold aes_load_key in E1. rewrite E in E1. cbn [bind] in E1. apply Ret_inj in E1. subst k1.
    unfold ctr_load_iv in E2. cbn [rk] in E2.
    repeat match type of E2 with bind ?e _ = _ => destruct e; cbn [bind] in E2; try discriminate end.
    apply Ret_inj in E2. apply (f_equal rk) in E2. rewrite rk_ctr_st in E2. cbn in E2. auto. }
  assert (X2 : ks2 = ks).
  { clear - E E3 E4. unfold aes_load_key in E3. rewrite E in E3. cbn [bind] in E3. apply Ret_inj in E3. subst k2.
    unfold ctr_load_iv in E4. cbn [rk] in E4.
    repeat match type of E4 with bind ?e _ = _ => destruct e; cbn [bind] in E4; try discriminate end.
    apply Ret_inj in E4. apply (f_equal rk) in E4. rewrite rk_ctr_st in E4. cbn in E4. auto. }
  subst ks1 ks2.
  destruct (ctr_sends oor wild b nonce ks ds N1 K (G ds F) 1%N) as [t S1].
  destruct (ctr_sends oor wild b nonce' ks ds' N2 K (G ds' F') 1%N) as [t' S2].
  exists k1, k2, (ctr_st nonce 1 ks), (ctr_st nonce' 1 ks), t, t'. eexists. eexists.
  split; [exact E1|]. split; [exact E2|]. split; [exact E3|]. split; [exact E4|].
  split; [exact S1|]. split; [exact S2|]. intros i j Hi Hj.
  rewrite !used_stream_ok by assumption. rewrite ctr_block_inj by assumption. rewrite mod_shift. reflexivity.
Qed.
Print Assumptions C92_aes_ctr_stream_repeats.
(** Hypotheses met by the key of RFC 3686, its nonce and another one; the key
    stream blocks of both, by running the code on zeros, are pairwise different. *)
Definition other_nonce : list N := [0;0;0;0x30; 0;0;0;0;0;0;0;1]%N.
Example C92_instance :
  let m := [holding rfc3686_key; holding rfc3686_nonce; holding other_nonce; holding (repeat 0%N 48)] in
  let run np := (let* cs := aes_load_key (Aes 0 0 0 0 []) m (Ptr 0 0) in
                 let* cs := ctr_load_iv cs m np in
                 let* (cs, m1) := aes_ctr_process_packet ub_shift UB (Table false) cs m (Ptr 3 0) (Ptr 3 0) 48 in
                 ldn m1 (Ptr 3 0) 48) in
  has_bytes m (Ptr 0 0) rfc3686_key /\ length rfc3686_key = 16 /\
  has_bytes m (Ptr 1 0) rfc3686_nonce /\ length rfc3686_nonce = 12 /\
  has_bytes m (Ptr 2 0) other_nonce /\ length other_nonce = 12 /\
  Forall (fun d : list N => length d mod 16 = 0) [repeat 0%N 48] /\
  match run (Ptr 1 0), run (Ptr 2 0) with
  | Ret a, Ret b => NoDup (chunks 16 (a ++ b)) /\ length (chunks 16 (a ++ b)) = 6
  | _, _ => False
  end.
Proof.
  cbv zeta. split; [conc_has_bytes|]. split; [reflexivity|]. split; [conc_has_bytes|]. split; [reflexivity|].
  split; [conc_has_bytes|]. split; [reflexivity|].
  split; [apply Forall_cons; [vm_compute; reflexivity|apply Forall_nil]|].
  vm_compute. split; [|reflexivity].
  repeat (apply NoDup_cons; [intros X; repeat (destruct X as [X|X]; [discriminate X|]); exact X|]). apply NoDup_nil.
Qed.

(** ** C99: what a difference between two AES-CFB receptions does. *)
(** The [j]-th 16 bytes. *)
Definition block_at (j : nat) (l : list N) : list N := firstn 16 (skipn (16 * j) l).

Lemma block_at_app0 a l : length a = 16 -> block_at 0 (a ++ l) = a.
Proof.
  intros L. unfold block_at. rewrite Nat.mul_0_r. cbn [skipn].
  rewrite firstn_app, L, Nat.sub_diag, (firstn_all2 a) by lia. cbn [firstn]. apply app_nil_r.
Qed.
Lemma block_at_appS a l j : length a = 16 -> block_at (S j) (a ++ l) = block_at j l.
Proof.
  intros L. unfold block_at. replace (16 * S j) with (16 + 16 * j) by lia.
  rewrite skipn_app, (skipn_all2 a) by lia. cbn [app]. rewrite L. do 2 f_equal. lia.
Qed.
Lemma block_at_st16 j l : bytes_ok l -> 16 * (j + 1) <= length l -> st16 (block_at j l).
Proof.
  intros B L. unfold block_at. split; [apply Forall_firstn, Forall_skipn; exact B|].
  rewrite firstn_length, skipn_length. lia.
Qed.

Lemma dec_block_at (E : list N -> list N) q : (forall s, st16 s -> length (E s) = 16) ->
  forall iv d j, st16 iv -> bytes_ok d -> length d = 16 * q -> j < q ->
  block_at j (cfb128_decrypt E iv d) = xor_bytes (block_at j d) (E (block_at j (iv ++ d))).
Proof.
  intros HE. unfold cfb128_decrypt. induction q as [|q IH]; intros iv d j S B L Hj; [lia|].
  assert (X : exists d1 d2, d = d1 ++ d2 /\ length d1 = 16).
  { exists (firstn 16 d), (skipn 16 d). split; [symmetry; apply firstn_skipn|]. rewrite firstn_length. lia. }
  destruct X as (d1 & d2 & -> & L1). rewrite app_length, L1 in L.
  apply Forall_app in B. destruct B as [B1 B2].
  rewrite chunks16 by exact L1. cbn [cfb_dec_blocks concat].
  assert (Lx : length (xor_bytes d1 (E iv)) = 16) by (rewrite xor_bytes_length_min, L1, HE by exact S; reflexivity).
  destruct j as [|j].
  - rewrite !block_at_app0 by (assumption || apply S). reflexivity.
  - rewrite !block_at_appS by (assumption || apply S). rewrite IH; [reflexivity|split; assumption|exact B2|lia|lia].
Qed.

Lemma xor_bytes_inj_l (a b : list N) : forall x y, length a = length b -> length x = length a -> length y = length a ->
  (xor_bytes (xor_bytes a x) (xor_bytes b y) = xor_bytes a b <-> x = y).
Proof.
  revert b. induction a as [|p a IH]; intros [|q b] [|u x] [|v y] L1 L2 L3; try discriminate; [split; reflexivity|].
  unfold xor_bytes in *. cbn [combine map fst snd length] in *.
  specialize (IH b x y ltac:(lia) ltac:(lia) ltac:(lia)).
  assert (Z : N.lxor (N.lxor p u) (N.lxor q v) = N.lxor (N.lxor p q) (N.lxor u v)).
  { apply N.bits_inj. intros i. rewrite !N.lxor_spec.
    destruct (N.testbit p i), (N.testbit q i), (N.testbit u i), (N.testbit v i); reflexivity. }
  rewrite Z. split.
  - intros H. injection H as H1 H2. apply IH in H2 as ->. f_equal.
    apply (f_equal (N.lxor (N.lxor p q))) in H1. rewrite <- N.lxor_assoc, N.lxor_nilpotent, N.lxor_0_l in H1.
    apply N.lxor_eq. exact H1.
  - intros H. injection H as -> ->. rewrite N.lxor_nilpotent, N.lxor_0_r. f_equal. apply IH. reflexivity.
Qed.

Lemma concat_whole (ds : list (list N)) : Forall (fun d => bytes_ok d /\ length d mod 16 = 0) ds ->
  bytes_ok (concat ds) /\ length (concat ds) = 16 * (length (concat ds) / 16).
Proof.
  intros F. split.
  - clear - F. induction F as [|d ds [B _] F IH]; [constructor|]. cbn [concat]. apply Forall_app. split; assumption.
  - apply whole_div, whole_concat. eapply Forall_impl; [|exact F]. intros d [_ X]. exact X.
Qed.

(** Two receivers hold the same key.  Write the ciphertext each got after the
    initialisation vector it started from.  Where block [j] of the two agrees,
    the next ciphertext block's differences are exactly the plaintext's
    differences; where it does not, they are not. *)
Theorem C99_aes_cfb_damage : forall oor b m1 kp1 ivp1 iv1 m2 kp2 ivp2 iv2 key ds1 ds2,
  has_bytes m1 kp1 key -> has_bytes m2 kp2 key -> length key = 16 ->
  has_bytes m1 ivp1 iv1 -> length iv1 = 16 -> has_bytes m2 ivp2 iv2 -> length iv2 = 16 ->
  Forall (fun d => bytes_ok d /\ length d mod 16 = 0) ds1 ->
  Forall (fun d => bytes_ok d /\ length d mod 16 = 0) ds2 ->
  exists cs1 cs2 s1 s2 es1 es2,
    aes_cfb_initialize m1 kp1 ivp1 = Ret cs1 /\ aes_cfb_initialize m2 kp2 ivp2 = Ret cs2 /\
    receives (cfb_packet oor b DECRYPT) cs1 ds1 s1 es1 /\ receives (cfb_packet oor b DECRYPT) cs2 ds2 s2 es2 /\
    forall j, 16 * (j + 1) <= length (concat ds1) -> 16 * (j + 1) <= length (concat ds2) ->
      (block_at j (iv1 ++ concat ds1) = block_at j (iv2 ++ concat ds2) <->
       xor_bytes (block_at j (concat es1)) (block_at j (concat es2)) =
       xor_bytes (block_at j (concat ds1)) (block_at j (concat ds2))).
Proof.
  intros oor b m1 kp1 ivp1 iv1 m2 kp2 ivp2 iv2 key ds1 ds2 K1 K2 Lk V1 Lv1 V2 Lv2 F1 F2.
  destruct (cfb_init_ok m1 kp1 ivp1 key iv1 K1 Lk V1 Lv1) as (k1 & E1 & O1 & S1 & C1).
  destruct (cfb_init_ok m2 kp2 ivp2 key iv2 K2 Lk V2 Lv2) as (k2 & E2 & O2 & S2 & C2).
  destruct (cfb_receives oor b k1 ds1 O1 F1 iv1 S1) as (s1 & es1 & R1 & D1).
  destruct (cfb_receives oor b k2 ds2 O2 F2 iv2 S2) as (s2 & es2 & R2 & D2).
  exists (cfb_st iv1 k1), (cfb_st iv2 k2), s1, s2, es1, es2.
  split; [exact E1|]. split; [exact E2|]. split; [exact R1|]. split; [exact R2|].
  intros j J1 J2. destruct (concat_whole ds1 F1) as [B1 W1]. destruct (concat_whole ds2 F2) as [B2 W2].
  assert (Le : forall k, rk_ok k -> forall s, st16 s -> length (cipher_of b k s) = 16)
    by (intros k Hk s Hs; apply (cipher_of_st16 b k s Hk Hs)).
  rewrite D1, D2.
  rewrite (dec_block_at _ _ (Le k1 O1) iv1 _ j S1 B1 W1) by lia.
  rewrite (dec_block_at _ _ (Le k2 O2) iv2 _ j S2 B2 W2) by lia.
  assert (T1 : st16 (block_at j (iv1 ++ concat ds1))).
  { apply block_at_st16; [apply Forall_app; split; [apply S1|exact B1]|]. rewrite app_length. lia. }
  assert (T2 : st16 (block_at j (iv2 ++ concat ds2))).
  { apply block_at_st16; [apply Forall_app; split; [apply S2|exact B2]|]. rewrite app_length. lia. }
  pose proof (proj2 (block_at_st16 j _ B1 J1)) as L1. pose proof (proj2 (block_at_st16 j _ B2 J2)) as L2.
  rewrite xor_bytes_inj_l; [|congruence|rewrite L1; auto|rewrite L1; auto].
  split.
  - intros ->. rewrite C1, C2. reflexivity.
  - intros X. rewrite C2, <- C1 in X. apply (cipher_of_inj b k1 _ _ O1 T1 T2 X).
Qed.
Print Assumptions C99_aes_cfb_damage.

(** Concrete case: one bit of the first ciphertext block of SP 800-38A F.3.13
    is flipped.  The first plaintext block differs in that bit, the second
    is garbled, the third is as sent. *)
Example C99_instance :
  let c := nist_ct ++ nist_ct in
  let c' := N.lxor (nth 0 c 0%N) 1 :: skipn 1 c in
  let m := [holding fips_key; holding nist_iv; holding c; holding c'; fresh 64; fresh 64] in
  has_bytes m (Ptr 0 0) fips_key /\ has_bytes m (Ptr 1 0) nist_iv /\ has_bytes m (Ptr 2 0) c /\ has_bytes m (Ptr 3 0) c' /\
  length c mod 16 = 0 /\ length c' = length c /\
  exists cs s1 s2 m1 m2 e1 e2, aes_cfb_initialize m (Ptr 0 0) (Ptr 1 0) = Ret cs /\
    cfb_packet ub_shift (Table false) DECRYPT cs m (Ptr 4 0) (Ptr 2 0) 64 = Ret (s1, m1) /\ ldn m1 (Ptr 4 0) 64 = Ret e1 /\
    cfb_packet ub_shift (Table false) DECRYPT cs m (Ptr 5 0) (Ptr 3 0) 64 = Ret (s2, m2) /\ ldn m2 (Ptr 5 0) 64 = Ret e2 /\
    xor_bytes (block_at 0 e1) (block_at 0 e2) = 1%N :: repeat 0%N 15 /\
    xor_bytes (block_at 1 e1) (block_at 1 e2) <> repeat 0%N 16 /\
    xor_bytes (block_at 2 e1) (block_at 2 e2) = repeat 0%N 16 /\
    xor_bytes (block_at 3 e1) (block_at 3 e2) = repeat 0%N 16.
Proof.
  split; [conc_has_bytes|]. split; [conc_has_bytes|]. split; [conc_has_bytes|]. split; [conc_has_bytes|].
  split; [reflexivity|]. split; [reflexivity|].
  do 7 eexists. do 5 (split; [vm_compute; reflexivity|]). split; [vm_compute; reflexivity|].
  split; [vm_compute; discriminate|]. split; vm_compute; reflexivity.
Qed.
