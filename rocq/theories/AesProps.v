(** Properties C31-C40 and C75: AES, AES-CTR and AES-CFB. *)
From Coq Require Import Arith NArith ZArith List Bool Lia.
From Verif Require Import Res Words Mem MemSpec ListLemmas MemLemmas SpecWords WordsLemmas XorProofs IoProofs
  SyncSpec SyncProofs StreamSpec StreamProofs Concrete AesTables AesSpec AesModel AesProofs AesCtrProofs AesCtrLink AesCfbProofs AesCfbLink.
Import ListNotations.
Local Open Scope nat_scope.

(** The register bytes, in memory order. *)
Definition reg_bytes (cs : aes_state) : list N :=
  flat_map (le_str 4) [reg1 cs; reg2 cs; reg3 cs; reg4 cs].
(** The registers hold 32-bit values, as their C++ type says. *)
Definition regs_32 (cs : aes_state) : Prop := words_ok [reg1 cs; reg2 cs; reg3 cs; reg4 cs].
(** The cipher of a build: AES-128, or its round-reduced variant where the
    table code is compiled with ROUND_REDUCED. *)
Definition build_cipher (b : build) (key : list N) : list N -> list N :=
  match b with Table true => aes128_reduced key | _ => aes128 key end.

Lemma build_cipher_of b key s : aes_of b key s = build_cipher b key s.
Proof. unfold aes_of, build_cipher. destruct b as [[|]| |]; reflexivity. Qed.

Lemma schedule_ok m p key : has_bytes m p key -> length key = 16 ->
  exists ks, aes_key_expansion m p = Ret ks /\ rk_ok ks /\ forall b s, cipher_of b ks s = build_cipher b key s.
Proof.
  intros H L. destruct (aes_key_expansion_ok m p key H L) as (E & F & Lw).
  exists (map le_num (key_words key)). split; [exact E|]. split.
  - split; [apply words4_ok; exact F|rewrite map_length; exact Lw].
  - intros b s. rewrite (cipher_of_aes b key s F). apply build_cipher_of.
Qed.

Lemma regs_32_inv cs : regs_32 cs -> rk_ok (rk cs) -> aes_inv cs.
Proof. intros H K. split; [exact H|exact K]. Qed.

Lemma reg_bytes_st s k : st16 s -> reg_bytes (cfb_st s k) = s.
Proof.
  intros S. unfold reg_bytes. rewrite <- (le_bytes_vstore s S) at 5. rewrite <- (regs_cfb_st s k).
  unfold regs, quad. rewrite le_bytes_spec. reflexivity.
Qed.

Lemma reg_state cs : regs_32 cs -> exists s, st16 s /\ cs = cfb_st s (rk cs) /\ reg_bytes cs = s.
Proof.
  intros H. destruct (words_st cs H) as (s & S & E). exists s. split; [exact S|]. split; [exact E|].
  rewrite E. apply reg_bytes_st. exact S.
Qed.

(** ** C31: the block function after the key has been loaded is FIPS 197, for
    every key and register contents; in the CTR and in the CFB folder. *)
Theorem C31_aes_is_fips197 : forall reduced cs m p key,
  has_bytes m p key -> length key = 16 -> regs_32 cs ->
  exists cs', aes_load_key cs m p = Ret cs' /\
    flat_map (le_str 4) (ctr_aes_encrypt (Table reduced) cs') =
      (if reduced then aes128_reduced key (reg_bytes cs) else aes128 key (reg_bytes cs)).
Proof.
  intros reduced cs m p key H L R. destruct (schedule_ok m p key H L) as (ks & E & K & C).
  unfold aes_load_key. rewrite E. cbn [bind]. eexists. split; [reflexivity|].
  destruct (reg_state cs R) as (s & S & Es & Eb). rewrite Eb.
  assert (X : Aes (reg1 cs) (reg2 cs) (reg3 cs) (reg4 cs) ks = cfb_st s ks).
  { rewrite Es. unfold cfb_st. destruct (vstore s) as [[[x y] z] w]. reflexivity. }
  rewrite X. unfold ctr_aes_encrypt. rewrite regs_cfb_st, rk_cfb_st, rounds_ok by assumption.
  rewrite <- le_bytes_spec, le_bytes_vstore by (apply cipher_of_st16; assumption).
  rewrite C. unfold build_cipher. destruct reduced; reflexivity.
Qed.
Print Assumptions C31_aes_is_fips197.

Lemma cfb_init_ok m kp ivp key iv : has_bytes m kp key -> length key = 16 -> has_bytes m ivp iv -> length iv = 16 ->
  exists ks, aes_cfb_initialize m kp ivp = Ret (cfb_st iv ks) /\ rk_ok ks /\ st16 iv /\
  forall b s, cipher_of b ks s = build_cipher b key s.
Proof.
  intros H L Hi Li. destruct (schedule_ok m kp key H L) as (ks & E & K & C).
  exists ks. split; [|split; [exact K|split; [split; [exact (has_bytes_bytes _ _ _ Hi)|exact Li]|exact C]]].
  unfold aes_cfb_initialize. rewrite E. cbn [bind].
  rewrite (ld32_at0 _ _ _ Hi), !(ld32_at _ _ _ _ Hi) by lia. cbn [bind].
  change ks with (rk (Aes 0 0 0 0 ks)) at 2. rewrite <- (full_upd_st (Aes 0 0 0 0 ks) iv Li). reflexivity.
Qed.

Lemma enc_key_snd b cs : enc_key b cs = snd (cfb_aes_encrypt b cs).
Proof. reflexivity. Qed.
Lemma enc_key_ctr b cs : enc_key b cs = ctr_aes_encrypt b cs.
Proof. unfold enc_key, cfb_aes_encrypt, ctr_aes_encrypt. destruct b; cbn [snd]; reflexivity. Qed.

Theorem C31_aes_cfb_is_fips197 : forall reduced m kp ivp key iv,
  has_bytes m kp key -> length key = 16 -> has_bytes m ivp iv -> length iv = 16 ->
  exists cs, aes_cfb_initialize m kp ivp = Ret cs /\ reg_bytes cs = iv /\
    flat_map (le_str 4) (snd (cfb_aes_encrypt (Table reduced) cs)) =
      (if reduced then aes128_reduced key iv else aes128 key iv).
Proof.
  intros reduced m kp ivp key iv H L Hi Li.
  destruct (cfb_init_ok m kp ivp key iv H L Hi Li) as (ks & E & K & S & C).
  exists (cfb_st iv ks). split; [exact E|]. split; [apply reg_bytes_st; exact S|].
  rewrite <- enc_key_snd, <- le_bytes_spec, (proj2 (enc_key_st (Table reduced) iv ks S K)), C.
  unfold build_cipher. destruct reduced; reflexivity.
Qed.
Print Assumptions C31_aes_cfb_is_fips197.

(** FIPS 197 appendix B. *)
Definition fips_key : list N :=
  [0x2b; 0x7e; 0x15; 0x16; 0x28; 0xae; 0xd2; 0xa6; 0xab; 0xf7; 0x15; 0x88; 0x09; 0xcf; 0x4f; 0x3c]%N.
Definition fips_in : list N :=
  [0x32; 0x43; 0xf6; 0xa8; 0x88; 0x5a; 0x30; 0x8d; 0x31; 0x31; 0x98; 0xa2; 0xe0; 0x37; 0x07; 0x34]%N.
Definition fips_out : list N :=
  [0x39; 0x25; 0x84; 0x1d; 0x02; 0xdc; 0x09; 0xfb; 0xdc; 0x11; 0x85; 0x97; 0x19; 0x6a; 0x0b; 0x32]%N.
Example C31_instance :
  let m := [holding fips_key; holding fips_in] in
  has_bytes m (Ptr 0 0) fips_key /\ has_bytes m (Ptr 1 0) fips_in /\
  (let* cs := aes_cfb_initialize m (Ptr 0 0) (Ptr 1 0) in
   let* cs := aes_load_key cs m (Ptr 0 0) in
   Ret (flat_map (le_str 4) (ctr_aes_encrypt (Table false) cs))) = Ret fips_out.
Proof. split; [conc_has_bytes|]. split; [conc_has_bytes|]. vm_compute. reflexivity. Qed.

(** ** C32: the three builds give the same block, for every register contents
    and every key schedule (44 words), in both folders. *)
Theorem C32_aes_builds_agree : forall cs, regs_32 cs -> words_ok (rk cs) -> length (rk cs) = 44 ->
  ctr_aes_encrypt X86 cs = ctr_aes_encrypt (Table false) cs /\
  ctr_aes_encrypt Arm cs = ctr_aes_encrypt (Table false) cs /\
  snd (cfb_aes_encrypt X86 cs) = snd (cfb_aes_encrypt (Table false) cs) /\
  snd (cfb_aes_encrypt Arm cs) = snd (cfb_aes_encrypt (Table false) cs).
Proof.
  intros cs R W L. pose proof (regs_32_inv cs R (conj W L)) as I.
  assert (F : forall b, full b -> enc_key b cs = enc_key (Table false) cs).
  { intros b Fb. apply enc_key_full; [right; split; [exact Fb|discriminate]|exact I]. }
  rewrite <- !enc_key_ctr, <- !enc_key_snd.
  repeat split; apply F; discriminate.
Qed.
Print Assumptions C32_aes_builds_agree.

Lemma state_update_inv cs : aes_inv cs -> aes_inv (state_update cs).
Proof.
  intros [W K]. split; [|exact K]. unfold state_update, regs in *. cbn [reg1 reg2 reg3 reg4 quad] in *.
  unfold words_ok in *. rewrite !Forall_cons_iff in *. destruct W as (A & B & C & D & _).
  repeat split; auto. apply bswap_lt. apply add32_lt.
Qed.

Lemma ctr_keys_builds oor wild b1 b2 q r : full b1 -> full b2 -> forall cs, aes_inv cs ->
  ctr_keys oor wild b1 cs q r = ctr_keys oor wild b2 cs q r.
Proof.
  intros F1 F2.
  induction q as [|q IH]; intros cs I; cbn [ctr_keys];
    rewrite <- !enc_key_ctr, (enc_key_full b1 b2 cs (or_intror (conj F1 F2)) I); [reflexivity|].
  rewrite (IH _ (state_update_inv _ I)). reflexivity.
Qed.

(** Whole packets of AES-CTR: same ciphertext, same state, same failures. *)
Theorem C32_aes_ctr_packets_agree : forall oor wild b1 b2 cs m out inp data,
  b1 <> Table true -> b2 <> Table true -> regs_32 cs -> words_ok (rk cs) -> length (rk cs) = 44 ->
  has_bytes m inp data -> writable m out (length data) -> same_or_disjoint out inp (length data) ->
  aes_ctr_process_packet oor wild b1 cs m out inp (Z.of_nat (length data)) =
  aes_ctr_process_packet oor wild b2 cs m out inp (Z.of_nat (length data)).
Proof.
  intros oor wild b1 b2 cs m out inp data F1 F2 R W L H1 H2 H3.
  rewrite !ctr_process_ok by (split; auto).
  rewrite (ctr_keys_builds oor wild b1 b2 _ _ F1 F2 cs (regs_32_inv cs R (conj W L))). reflexivity.
Qed.
Print Assumptions C32_aes_ctr_packets_agree.
Example C32_instance :
  let m := [holding fips_key; holding fips_in] in
  exists cs, aes_cfb_initialize m (Ptr 0 0) (Ptr 1 0) = Ret cs /\ regs_32 cs /\ words_ok (rk cs) /\ length (rk cs) = 44 /\
  flat_map (le_str 4) (ctr_aes_encrypt X86 cs) = fips_out /\
  flat_map (le_str 4) (ctr_aes_encrypt Arm cs) = fips_out.
Proof.
  intros m. assert (H1 : has_bytes m (Ptr 0 0) fips_key) by conc_has_bytes.
  assert (H2 : has_bytes m (Ptr 1 0) fips_in) by conc_has_bytes.
  destruct (cfb_init_ok m _ _ _ _ H1 eq_refl H2 eq_refl) as (ks & E & [K1 K2] & S & C).
  exists (cfb_st fips_in ks). split; [exact E|]. split; [exact (vstore_words fips_in (proj1 S))|].
  rewrite rk_cfb_st. split; [exact K1|]. split; [exact K2|]. clear C S K1 K2 H1 H2.
  assert (X : (let* cs := aes_cfb_initialize m (Ptr 0 0) (Ptr 1 0) in
    Ret (flat_map (le_str 4) (ctr_aes_encrypt X86 cs), flat_map (le_str 4) (ctr_aes_encrypt Arm cs))) = Ret (fips_out, fips_out))
    by (vm_compute; reflexivity).
  rewrite E in X. cbn [bind] in X. apply Ret_pair in X. exact X.
Qed.

(** ** C33 *)
Definition ctr_packet oor wild b : aes_state -> mem -> ptr -> ptr -> N -> res (aes_state * mem) :=
  fun s m out inp n => aes_ctr_process_packet oor wild b s m out inp (Z.of_N n).

Lemma ctr_init_ok cs m kp np key nonce : has_bytes m kp key -> length key = 16 ->
  has_bytes m np nonce -> length nonce = 12 ->
  exists cs1 ks, aes_load_key cs m kp = Ret cs1 /\ ctr_load_iv cs1 m np = Ret (ctr_st nonce 1 ks) /\
  rk_ok ks /\ nonce_ok nonce /\ forall b s, cipher_of b ks s = build_cipher b key s.
Proof.
  intros H L Hn Ln. destruct (schedule_ok m kp key H L) as (ks & E & K & C).
  unfold aes_load_key. rewrite E. cbn [bind]. eexists. exists ks. split; [reflexivity|].
  split; [|split; [exact K|split; [split; [exact (has_bytes_bytes _ _ _ Hn)|exact Ln]|exact C]]].
  unfold ctr_load_iv. rewrite (ld32_at0 _ _ _ Hn), !(ld32_at _ _ _ _ Hn) by lia. cbn [bind rk].
  unfold ctr_st, ctr_in. rewrite vstore_ctr by (first [exact Ln|apply be_str_length]).
  destruct (list12 nonce Ln) as (a0&a1&a2&a3&a4&a5&a6&a7&a8&a9&a10&a11&->).
  unfold word_at, vword. cbn [firstn skipn Nat.mul Nat.add nth set_regs rk]. rewrite !le_num_W. reflexivity.
Qed.

Lemma ctr_block_ext E E' nonce c : (forall s, E s = E' s) -> ctr_block E nonce c = ctr_block E' nonce c.
Proof. intros H. unfold ctr_block. apply H. Qed.
Lemma ctr_stream_ext E E' nonce n : (forall s, E s = E' s) -> forall c, ctr_stream E nonce c n = ctr_stream E' nonce c n.
Proof.
  intros H. induction n as [|n IH]; intros c; [reflexivity|].
  rewrite !ctr_stream_S, IH. f_equal. apply ctr_block_ext. exact H.
Qed.
Lemma ctr_crypt_ext E E' nonce c d : (forall s, E s = E' s) -> ctr_crypt E nonce c d = ctr_crypt E' nonce c d.
Proof. intros H. unfold ctr_crypt. rewrite (ctr_stream_ext E E' nonce _ H). reflexivity. Qed.
Lemma ctr_packets_ext E E' nonce ds : (forall s, E s = E' s) -> forall c, ctr_packets E nonce c ds = ctr_packets E' nonce c ds.
Proof.
  intros H. induction ds as [|d ds IH]; intros c; [reflexivity|]. cbn [ctr_packets]. rewrite IH. f_equal.
  apply ctr_crypt_ext. exact H.
Qed.

Lemma ctr_crypt_length b nonce rk c d : nonce_ok nonce -> rk_ok rk ->
  length (ctr_crypt (cipher_of b rk) nonce c d) = length d.
Proof.
  intros Hn Hk. unfold ctr_crypt. rewrite xor_bytes_length_min, ctr_stream_length by assumption.
  rewrite <- blocks_of_chunks. unfold blocks_of.
  pose proof (Nat.div_mod_eq (length d) 16). pose proof (Nat.mod_upper_bound (length d) 16 ltac:(lia)).
  destruct (Nat.eqb_spec (length d mod 16) 0); lia.
Qed.

Lemma ctr_sends oor wild b nonce rk ds : nonce_ok nonce -> rk_ok rk ->
  Forall (fun d => length d mod 4 = 0 /\ (wild = Ret tt \/ length d mod 16 = 0)) ds ->
  forall c, exists s', sends (ctr_packet oor wild b) (ctr_st nonce c rk) ds s' (ctr_packets (cipher_of b rk) nonce c ds).
Proof.
  intros Hn Hk F. induction F as [|d ds [H4 Hw] F IH]; intros c; cbn [sends ctr_packets].
  - exists (ctr_st nonce c rk). reflexivity.
  - destruct (IH (c + N.of_nat (length (chunks 16 d)))%N) as [s' IHs]. exists s'.
    eexists. split; [|exact IHs]. split; [apply ctr_crypt_length; assumption|].
    intros m out inp H1 H2 H3. unfold ctr_packet. rewrite nat_N_Z.
    apply ctr_words_packet; auto. split; auto.
Qed.

(** Any sequence of packets whose lengths are multiples of 4, each packet
    starting a new counter block.  [oor] is arbitrary; the uninitialised pointer
    read ([wild]) must do nothing unless every packet is whole blocks. *)
Theorem C33_aes_ctr_is_counter_mode : forall oor wild b cs m kp np key nonce ds,
  has_bytes m kp key -> length key = 16 -> has_bytes m np nonce -> length nonce = 12 ->
  Forall (fun d => length d mod 4 = 0 /\ (wild = Ret tt \/ length d mod 16 = 0)) ds ->
  exists cs1 cs2 cs3, aes_load_key cs m kp = Ret cs1 /\ ctr_load_iv cs1 m np = Ret cs2 /\
    sends (ctr_packet oor wild b) cs2 ds cs3 (ctr_packets (build_cipher b key) nonce 1 ds).
Proof.
  intros oor wild b cs m kp np key nonce ds H1 H2 H3 H4 F.
  destruct (ctr_init_ok cs m kp np key nonce H1 H2 H3 H4) as (cs1 & ks & E1 & E2 & K & Hn & C).
  destruct (ctr_sends oor wild b nonce ks ds Hn K F 1%N) as [cs3 S].
  exists cs1, (ctr_st nonce 1 ks), cs3. split; [exact E1|]. split; [exact E2|].
  rewrite <- (ctr_packets_ext _ _ nonce ds (C b)). exact S.
Qed.
Print Assumptions C33_aes_ctr_is_counter_mode.

Lemma ctr_stream_app b rk nonce n k : forall c,
  ctr_stream (cipher_of b rk) nonce c (n + k) =
  ctr_stream (cipher_of b rk) nonce c n ++ ctr_stream (cipher_of b rk) nonce (c + N.of_nat n) k.
Proof.
  induction n as [|n IH]; intros c.
  - cbn [Nat.add ctr_stream app]. change (N.of_nat 0) with 0%N. rewrite N.add_0_r. reflexivity.
  - change (S n + k) with (S (n + k)). rewrite !ctr_stream_S, IH, app_assoc. do 2 f_equal. lia.
Qed.

Lemma chunks_length_app (d1 d2 : list N) : length d1 mod 16 = 0 ->
  length (chunks 16 (d1 ++ d2)) = length (chunks 16 d1) + length (chunks 16 d2).
Proof.
  intros H. rewrite <- !blocks_of_chunks, app_length. unfold blocks_of.
  pose proof (Nat.div_mod_eq (length d1) 16) as E. rewrite H, Nat.add_0_r in E. set (q := length d1 / 16) in *.
  rewrite E. replace (16 * q + length d2) with (length d2 + q * 16) by lia.
  rewrite Nat.div_add, Nat.mod_add by lia. replace (16 * q) with (0 + q * 16) by lia.
  rewrite Nat.mod_add by lia. change (0 mod 16 =? 0) with true. destruct (length d2 mod 16 =? 0); lia.
Qed.

Lemma ctr_concat b rk nonce ds : nonce_ok nonce -> rk_ok rk ->
  Forall (fun d => length d mod 16 = 0) (removelast ds) ->
  forall c, concat (ctr_packets (cipher_of b rk) nonce c ds) = ctr_crypt (cipher_of b rk) nonce c (concat ds).
Proof.
  intros Hn Hk. induction ds as [|d ds IH]; intros F c; [reflexivity|].
  cbn [ctr_packets concat]. destruct ds as [|d2 ds].
  - cbn [ctr_packets concat]. rewrite !app_nil_r. reflexivity.
  - change (removelast (d :: d2 :: ds)) with (d :: removelast (d2 :: ds)) in F.
    inversion F as [|? ? Hd F']; subst. rewrite (IH F').
    set (e := concat (d2 :: ds)). unfold ctr_crypt. rewrite (chunks_length_app d e Hd), ctr_stream_app.
    rewrite xor_bytes_app; [reflexivity|]. rewrite ctr_stream_length by assumption.
    rewrite <- blocks_of_chunks. unfold blocks_of. rewrite Hd. cbn [Nat.eqb].
    pose proof (Nat.div_mod_eq (length d) 16). lia.
Qed.

(** Whole-block packets, the last one possibly shorter: together one message in
    counter mode, however it is cut into packets. *)
Theorem C33_aes_ctr_continues_across_packets : forall oor wild b cs m kp np key nonce ds,
  has_bytes m kp key -> length key = 16 -> has_bytes m np nonce -> length nonce = 12 ->
  Forall (fun d => length d mod 4 = 0 /\ (wild = Ret tt \/ length d mod 16 = 0)) ds ->
  Forall (fun d => length d mod 16 = 0) (removelast ds) ->
  exists cs1 cs2 cs3 es, aes_load_key cs m kp = Ret cs1 /\ ctr_load_iv cs1 m np = Ret cs2 /\
    sends (ctr_packet oor wild b) cs2 ds cs3 es /\
    concat es = ctr_crypt (build_cipher b key) nonce 1 (concat ds).
Proof.
  intros oor wild b cs m kp np key nonce ds H1 H2 H3 H4 F W.
  destruct (ctr_init_ok cs m kp np key nonce H1 H2 H3 H4) as (cs1 & ks & E1 & E2 & K & Hn & C).
  destruct (ctr_sends oor wild b nonce ks ds Hn K F 1%N) as [cs3 S].
  exists cs1, (ctr_st nonce 1 ks), cs3, (ctr_packets (cipher_of b ks) nonce 1 ds).
  split; [exact E1|]. split; [exact E2|]. split; [exact S|].
  rewrite (ctr_concat b ks nonce ds Hn K W). apply ctr_crypt_ext. apply C.
Qed.
Print Assumptions C33_aes_ctr_continues_across_packets.

(** RFC 3686 test vector 1, cut into a packet. *)
Definition rfc3686_key : list N :=
  [0xAE; 0x68; 0x52; 0xF8; 0x12; 0x10; 0x67; 0xCC; 0x4B; 0xF7; 0xA5; 0x76; 0x55; 0x77; 0xF3; 0x9E]%N.
Definition rfc3686_nonce : list N := [0; 0; 0; 0x30; 0; 0; 0; 0; 0; 0; 0; 0]%N.
Definition rfc3686_pt : list N :=
  [0x53; 0x69; 0x6E; 0x67; 0x6C; 0x65; 0x20; 0x62; 0x6C; 0x6F; 0x63; 0x6B; 0x20; 0x6D; 0x73; 0x67]%N.
Definition rfc3686_ct : list N :=
  [0xE4; 0x09; 0x5D; 0x4F; 0xB7; 0xA7; 0xB3; 0x79; 0x2D; 0x61; 0x75; 0xA3; 0x26; 0x13; 0x11; 0xB8]%N.
Example C33_instance :
  let m := [holding rfc3686_key; holding rfc3686_nonce; holding rfc3686_pt] in
  has_bytes m (Ptr 0 0) rfc3686_key /\ has_bytes m (Ptr 1 0) rfc3686_nonce /\
  (let* cs := aes_load_key (Aes 0 0 0 0 []) m (Ptr 0 0) in
   let* cs := ctr_load_iv cs m (Ptr 1 0) in
   let* (cs, m1) := aes_ctr_process_packet ub_shift UB X86 cs m (Ptr 2 0) (Ptr 2 0) 16 in
   ldn m1 (Ptr 2 0) 16) = Ret rfc3686_ct.
Proof. split; [conc_has_bytes|]. split; [conc_has_bytes|]. vm_compute. reflexivity. Qed.

(** ** C34: when the call is defined. *)
Lemma ctr_keys_ub b q r : r < 16 -> 2 <= r mod 4 -> forall cs, ctr_keys ub_shift (Ret tt) b cs q r = UB.
Proof.
  intros Hr D. induction q as [|q IH]; intros cs; cbn [ctr_keys].
  - destruct (Nat.eqb_spec r 0) as [->|]; [cbn in D; lia|]. cbn [bind]. apply tail_keys_ub. exact D.
  - rewrite IH. reflexivity.
Qed.
Lemma ctr_keys_defined oor b q r : tail_defined oor r -> forall cs, exists ks, ctr_keys oor (Ret tt) b cs q r = Ret ks.
Proof.
  intros D. induction q as [|q IH]; intros cs; cbn [ctr_keys].
  - destruct (Nat.eqb_spec r 0); [eauto|]. cbn [bind]. apply tail_keys_defined. exact D.
  - destruct (IH (state_update cs)) as [ks ->]. cbn [bind]. eauto.
Qed.
Lemma ctr_keys_wild oor b q r : r <> 0 -> forall cs, ctr_keys oor UB b cs q r = UB.
Proof.
  intros D. induction q as [|q IH]; intros cs; cbn [ctr_keys].
  - destruct (Nat.eqb_spec r 0); [contradiction|]. reflexivity.
  - rewrite IH. reflexivity.
Qed.
Lemma ctr_keys_0 oor wild b q : forall cs, exists ks, ctr_keys oor wild b cs q 0 = Ret ks.
Proof.
  induction q as [|q IH]; intros cs; cbn [ctr_keys]; [cbn [Nat.eqb]; eauto|].
  destruct (IH (state_update cs)) as [ks ->]. cbn [bind]. eauto.
Qed.

(** Standard C++: undefined for every length that is not a multiple of 16.  If
    the read of the uninitialised pointer is ignored: undefined for the lengths
    2 and 3 modulo 4. *)
Theorem C34_aes_ctr_undefined_exactly : forall b cs m out inp data,
  has_bytes m inp data -> writable m out (length data) -> same_or_disjoint out inp (length data) ->
  (aes_ctr_process_packet ub_shift UB b cs m out inp (Z.of_nat (length data)) = UB <-> length data mod 16 <> 0) /\
  (aes_ctr_process_packet ub_shift (Ret tt) b cs m out inp (Z.of_nat (length data)) = UB <-> 2 <= length data mod 4).
Proof.
  intros b cs m out inp d H1 H2 H3.
  pose proof (Nat.mod_upper_bound (length d) 16 ltac:(lia)) as B.
  rewrite !ctr_process_ok by (split; auto). split.
  - split; intros H.
    + intros Z. rewrite Z in H. destruct (ctr_keys_0 ub_shift UB b (length d / 16) cs) as [ks E].
      rewrite E in H. discriminate H.
    + rewrite ctr_keys_wild by exact H. reflexivity.
  - split; intros H.
    + destruct (Nat.le_gt_cases 2 (length d mod 4)) as [|Hlt]; [assumption|exfalso].
      assert (Dr : tail_defined ub_shift (length d mod 16)) by (left; rewrite mod16_4; lia).
      destruct (ctr_keys_defined ub_shift b (length d / 16) (length d mod 16) Dr cs) as [ks E]. rewrite E in H. discriminate H.
    + rewrite ctr_keys_ub; [reflexivity|exact B|rewrite mod16_4; exact H].
Qed.
Print Assumptions C34_aes_ctr_undefined_exactly.

Theorem C34_aes_ctr_every_length_refuted : exists cs m out inp data,
  has_bytes m inp data /\ writable m out (length data) /\ disjoint out (length data) inp (length data) /\
  aes_ctr_process_packet ub_shift UB (Table false) cs m out inp (Z.of_nat (length data)) = UB /\
  aes_ctr_process_packet ub_shift (Ret tt) (Table false) cs m out inp (Z.of_nat (length data)) = UB.
Proof.
  exists (Aes 1 2 3 4 (repeat 5%N 44)), [holding [1; 2]%N; fresh 2], (Ptr 1 0), (Ptr 0 0), [1; 2]%N.
  assert (H1 : has_bytes [holding [1; 2]%N; fresh 2] (Ptr 0 0) [1; 2]%N) by conc_has_bytes.
  assert (H2 : writable [holding [1; 2]%N; fresh 2] (Ptr 1 0) (length [1; 2]%N)) by conc_writable.
  assert (H3 : disjoint (Ptr 1 0) (length [1; 2]%N) (Ptr 0 0) (length [1; 2]%N)) by conc_disjoint.
  split; [exact H1|]. split; [exact H2|]. split; [exact H3|].
  destruct (C34_aes_ctr_undefined_exactly (Table false) (Aes 1 2 3 4 (repeat 5%N 44)) _ _ _ _ H1 H2 (or_intror H3))
    as [[_ A] [_ B]].
  split; [apply A; discriminate|apply B; cbn; lia].
Qed.
Print Assumptions C34_aes_ctr_every_length_refuted.

(** Lengths 1 modulo 4: every byte but the last follows counter mode; the last
    one uses the key stream byte three places further on. *)
Lemma tail_one_key oor s n : st16 s -> n < 16 -> n mod 4 = 1 ->
  tail_keys oor (quad (vstore s)) n = Ret (firstn (n - 1) s ++ [nth (n + 2) s 0%N]).
Proof.
  intros S Hn Hm. pose proof S as [B L].
  destruct (list16 s L) as (a0&a1&a2&a3&a4&a5&a6&a7&a8&a9&a10&a11&a12&a13&a14&a15&->).
  unfold bytes_ok in B. repeat rewrite Forall_cons_iff in B. decompose [and] B. clear B.
  assert (Top : forall a b c d, (a < 256 -> b < 256 -> c < 256 -> d < 256 ->
    u8 (shr32 (le32_of_bytes a b c d) 24) = d)%N).
  { intros a b c d Ha Hb Hc Hd.
    change (u8 (shr32 (le32_of_bytes a b c d) 24)) with (nth 3 (bytes_of_le32 (le32_of_bytes a b c d)) 0%N).
    rewrite bytes_of_le32_of by assumption. reflexivity. }
  assert (Bt : forall a b c d, (a < 256 -> b < 256 -> c < 256 -> d < 256 ->
    bytes_of_le32 (le32_of_bytes a b c d) = [a; b; c; d])%N).
  { intros. apply bytes_of_le32_of; assumption. }
  unfold tail_keys. rewrite Hm. cbn [tail_ks].
  change (shr_int oor (nth (n / 4) (quad _) 0%N) (24 - 8 * 0)) with
    (Ret (shr32 (nth (n / 4) (quad (vstore [a0;a1;a2;a3;a4;a5;a6;a7;a8;a9;a10;a11;a12;a13;a14;a15])) 0%N) 24)).
  cbn [bind]. unfold vstore, vword, quad. cbn [Nat.mul Nat.add nth].
  do 16 (destruct n as [|n]; [try (exfalso; cbn in Hm; lia);
    try match goal with |- context [?k / 4] => let v := eval vm_compute in (k / 4) in change (k / 4) with v end;
    cbn [nth firstn le_bytes flat_map app Nat.sub Nat.add]; unfold le_bytes; cbn [flat_map];
    rewrite ?Bt, Top by assumption; reflexivity|]). lia.
Qed.

Theorem C34_aes_ctr_odd_byte : forall oor b cs m kp np key nonce out inp data,
  has_bytes m kp key -> length key = 16 -> has_bytes m np nonce -> length nonce = 12 ->
  has_bytes m inp data -> writable m out (length data) -> same_or_disjoint out inp (length data) ->
  length data mod 4 = 1 ->
  exists cs1 cs2 cs3, aes_load_key cs m kp = Ret cs1 /\ ctr_load_iv cs1 m np = Ret cs2 /\
    let n := length data in
    let ks := ctr_stream (build_cipher b key) nonce 1 (n / 16 + 1) in
    aes_ctr_process_packet oor (Ret tt) b cs2 m out inp (Z.of_nat n) =
      Ret (cs3, write_at m out (xor_bytes data (firstn (n - 1) ks ++ [nth (n + 2) ks 0%N]))).
Proof.
  intros oor b cs m kp np key nonce out inp d H1 H2 H3 H4 H5 H6 H7 Hm.
  destruct (ctr_init_ok cs m kp np key nonce H1 H2 H3 H4) as (cs1 & rk & E1 & E2 & K & Hn & C).
  exists cs1, (ctr_st nonce 1 rk). eexists. split; [exact E1|]. split; [exact E2|]. cbv zeta.
  rewrite ctr_process_ok by (split; auto).
  pose proof (Nat.div_mod_eq (length d) 16) as E. pose proof (Nat.mod_upper_bound (length d) 16 ltac:(lia)) as B.
  set (q := length d / 16) in *. set (r := length d mod 16) in *.
  assert (Hr : r mod 4 = 1) by (unfold r; rewrite mod16_4; exact Hm).
  assert (R0 : r <> 0) by (intros Z; rewrite Z in Hr; discriminate Hr).
  assert (X : forall c, ctr_keys oor (Ret tt) b (ctr_st nonce c rk) q r =
    Ret (let ks := ctr_stream (build_cipher b key) nonce c (q + 1) in
         firstn (16 * q + r - 1) ks ++ [nth (16 * q + r + 2) ks 0%N])).
  { clearbody q r. clear E. cbv zeta. induction q as [|q IH]; intros c; cbn [ctr_keys].
    - destruct (Nat.eqb_spec r 0); [contradiction|]. cbn [bind].
      destruct (ctr_encrypt_ok b nonce c rk Hn K) as (-> & _ & St).
      rewrite tail_one_key by assumption. cbn [Nat.add Nat.mul].
      rewrite ctr_stream_S. cbn [ctr_stream]. rewrite app_nil_r.
      rewrite <- (ctr_block_ext _ _ nonce c (C b)). reflexivity.
    - rewrite state_update_ok by exact Hn. rewrite IH. cbn [bind].
      destruct (ctr_encrypt_ok b nonce c rk Hn K) as (_ & -> & St).
      change (S q + 1) with (S (q + 1)). rewrite ctr_stream_S, (ctr_block_ext _ _ nonce c (C b)) in *.
      rewrite firstn_app, (proj2 St), (firstn_all2 (ctr_block _ _ _)) by (rewrite (proj2 St); lia).
      rewrite (app_nth2 (ctr_block _ _ _)) by (rewrite (proj2 St); lia). rewrite (proj2 St), <- app_assoc.
      replace (16 * S q + r - 1 - 16) with (16 * q + r - 1) by lia.
      replace (16 * S q + r + 2 - 16) with (16 * q + r + 2) by lia. reflexivity. }
  rewrite X. cbn [bind]. cbv zeta. rewrite <- E. reflexivity.
Qed.
Print Assumptions C34_aes_ctr_odd_byte.

(** So a one-byte packet is not counter mode. *)
Theorem C34_aes_ctr_follows_counter_mode_refuted : exists m kp np key nonce out inp data cs1 cs2 cs3 m',
  has_bytes m kp key /\ length key = 16 /\ has_bytes m np nonce /\ length nonce = 12 /\
  has_bytes m inp data /\ length data = 1 /\ writable m out 1 /\ disjoint out 1 inp 1 /\
  aes_load_key (Aes 0 0 0 0 []) m kp = Ret cs1 /\ ctr_load_iv cs1 m np = Ret cs2 /\
  aes_ctr_process_packet ub_shift (Ret tt) (Table false) cs2 m out inp 1 = Ret (cs3, m') /\
  ldn m' out 1 <> Ret (ctr_crypt (aes128 key) nonce 1 data).
Proof.
  pose (m := [holding rfc3686_key; holding rfc3686_nonce; holding [0x53%N]; fresh 1]).
  assert (H1 : has_bytes m (Ptr 0 0) rfc3686_key) by conc_has_bytes.
  assert (H2 : has_bytes m (Ptr 1 0) rfc3686_nonce) by conc_has_bytes.
  assert (H3 : has_bytes m (Ptr 2 0) [0x53%N]) by conc_has_bytes.
  assert (H4 : writable m (Ptr 3 0) 1) by conc_writable.
  assert (H5 : disjoint (Ptr 3 0) 1 (Ptr 2 0) 1) by conc_disjoint.
  destruct (C34_aes_ctr_odd_byte ub_shift (Table false) (Aes 0 0 0 0 []) m _ _ _ _ (Ptr 3 0) _ _ H1 eq_refl H2 eq_refl
    H3 H4 (or_intror H5) eq_refl) as (cs1 & cs2 & cs3 & E1 & E2 & E3).
  cbv zeta in E3. eexists m, (Ptr 0 0), (Ptr 1 0), rfc3686_key, rfc3686_nonce, (Ptr 3 0), (Ptr 2 0), [0x53%N], cs1, cs2, cs3, _.
  do 8 (split; [first [exact H1|exact H2|exact H3|exact H4|exact H5|reflexivity]|]).
  split; [exact E1|]. split; [exact E2|]. split; [exact E3|].
  clear. vm_compute. discriminate.
Qed.
Print Assumptions C34_aes_ctr_follows_counter_mode_refuted.
Example C34_instance : has_bytes [holding [1; 2; 3]%N] (Ptr 0 0) [1; 2; 3]%N /\ 2 <= length [1; 2; 3]%N mod 4 /\
  length [1; 2; 3; 4; 5]%N mod 4 = 1.
Proof. split; [conc_has_bytes|]. split; [cbn; lia|reflexivity]. Qed.

(** ** C35: every packet sequence on which the code is defined, from any state,
    on any platform: lengths 0 and 1 modulo 4 always, the others where the
    out-of-range shift has some result. *)
Theorem C35_aes_ctr_round_trip : forall oor wild b cs pks,
  Forall packet_ok pks ->
  Forall (fun k => length (pk_data k) mod 16 = 0 \/
    (wild = Ret tt /\ (length (pk_data k) mod 4 <= 1 \/ forall w n, exists v, oor w n = Ret v))) pks ->
  talk (ctr_packet oor wild b) cs cs pks.
Proof.
  intros oor wild b cs pks H F.
  pose (len_ok := fun n => n mod 16 = 0 \/ (wild = Ret tt /\ (n mod 4 <= 1 \/ forall w n, exists v, oor w n = Ret v))).
  assert (Def : forall s n, len_ok n -> exists ks, ctr_keys oor wild b s (n / 16) (n mod 16) = Ret ks).
  { intros s n [Z|[-> D]]; [rewrite Z; apply ctr_keys_0|]. apply ctr_keys_defined.
    destruct D as [D|D]; [left; rewrite mod16_4; exact D|right; exact D]. }
  apply (sync_talk (ctr_packet oor wild b) (fun _ => True) len_ok
    (fun s n => match ctr_keys oor wild b s (n / 16) (n mod 16) with Ret ks => ks | _ => [] end)
    (fun s n => Nat.iter (blocks_of n) state_update s)); auto.
  - intros s m out inp data _ L H1 H2 H3. unfold ctr_packet. rewrite nat_N_Z, ctr_process_ok by (split; auto).
    destruct (Def s (length data) L) as [ks E]. rewrite E. reflexivity.
  - intros s n _ L. destruct (Def s n L) as [ks E]. rewrite E.
    apply ctr_keys_length in E; [|apply Nat.mod_upper_bound; lia]. pose proof (Nat.div_mod_eq n 16). lia.
Qed.
Print Assumptions C35_aes_ctr_round_trip.
Example C35_instance :
  let k1 := Packet [holding [1; 2; 3; 4; 5]%N; fresh 5] (Ptr 1 0) (Ptr 0 0) [1; 2; 3; 4; 5]%N in
  let k2 := Packet [holding (repeat 7%N 20)] (Ptr 0 0) (Ptr 0 0) (repeat 7%N 20) in
  packet_ok k1 /\ packet_ok k2 /\ length (pk_data k1) mod 4 <= 1 /\ length (pk_data k2) mod 4 <= 1.
Proof.
  split; [split; [conc_has_bytes|split; [conc_writable|right; conc_disjoint]]|].
  split; [split; [conc_has_bytes|split; [conc_writable|left; reflexivity]]|]. split; cbn; lia.
Qed.

(** ** C36 *)
Theorem C36_aes_cfb_round_trip : forall oor b cs pks,
  Forall packet_ok pks ->
  Forall (fun k => length (pk_data k) mod 4 <= 1 \/ forall w n, exists v, oor w n = Ret v) pks ->
  talk_apart (cfb_packet oor b ENCRYPT) (cfb_packet oor b DECRYPT) cs cs pks.
Proof.
  intros oor b cs pks H F. apply cfb_talk; auto. left. left. reflexivity.
Qed.
Print Assumptions C36_aes_cfb_round_trip.

(** The lengths left out are undefined in standard C++, in both directions. *)
Theorem C36_aes_cfb_undefined_exactly : forall b cs m out inp data,
  has_bytes m inp data -> writable m out (length data) ->
  (same_or_disjoint out inp (length data) ->
   (aes_cfb_process_packet ub_shift b ENCRYPT cs m out inp (Z.of_nat (length data)) = UB <-> 2 <= length data mod 4)) /\
  (disjoint out (length data) inp (length data) ->
   (aes_cfb_process_packet ub_shift b DECRYPT cs m out inp (Z.of_nat (length data)) = UB <-> 2 <= length data mod 4)).
Proof.
  intros b cs m out inp d H1 H2. destruct (div16 d) as [E Hr].
  assert (G : forall fb mode, io m out inp d -> fed mode fb out inp (length d) ->
    (aes_cfb_process_packet ub_shift b mode cs m out inp (Z.of_nat (length d)) = UB <-> 2 <= length d mod 4)).
  { intros fb mode I F. rewrite (cfb_process_ok ub_shift b mode fb cs m out inp d I F). split; intros X.
    - destruct (Nat.le_gt_cases 2 (length d mod 4)) as [|Hlt]; [assumption|exfalso].
      assert (Dr : tail_defined ub_shift (length d mod 16)) by (left; rewrite mod16_4; lia).
      destruct (cfb_run_defined ub_shift b fb _ cs _ d Hr E Dr) as (c & o & R).
      rewrite R in X. discriminate X.
    - rewrite (cfb_run_ub b fb _ cs _ d Hr E) by (rewrite mod16_4; exact X). reflexivity. }
  split; intros D.
  - apply (G feed_out); [split; auto|left; split; [reflexivity|left; reflexivity]].
  - apply (G feed_in); [split; [exact H1|split; [exact H2|right; exact D]]|].
    right. split; [reflexivity|split; [discriminate|exact D]].
Qed.
Print Assumptions C36_aes_cfb_undefined_exactly.
Example C36_instance :
  let k1 := Packet [holding [1; 2; 3; 4; 5]%N; fresh 5] (Ptr 1 0) (Ptr 0 0) [1; 2; 3; 4; 5]%N in
  let k2 := Packet [holding (repeat 7%N 20)] (Ptr 0 0) (Ptr 0 0) (repeat 7%N 20) in
  packet_ok k1 /\ packet_ok k2 /\ length (pk_data k1) mod 4 <= 1 /\ length (pk_data k2) mod 4 <= 1 /\
  exists cs, aes_cfb_initialize [holding fips_key; holding fips_in] (Ptr 0 0) (Ptr 1 0) = Ret cs.
Proof.
  split; [split; [conc_has_bytes|split; [conc_writable|right; conc_disjoint]]|].
  split; [split; [conc_has_bytes|split; [conc_writable|left; reflexivity]]|]. split; [cbn; lia|]. split; [cbn; lia|].
  eexists. reflexivity.
Qed.

(** ** C37: whole-block packets are CFB-128. *)
Lemma whole_div (d : list N) : length d mod 16 = 0 -> length d = 16 * (length d / 16).
Proof. intros H. pose proof (Nat.div_mod_eq (length d) 16). lia. Qed.

Lemma enc_blocks_ext E E' ps : (forall s, E s = E' s) -> forall iv, cfb_enc_blocks E iv ps = cfb_enc_blocks E' iv ps.
Proof. intros H. induction ps as [|p ps IH]; intros iv; cbn [cfb_enc_blocks]; [reflexivity|]. rewrite H, IH. reflexivity. Qed.
Lemma dec_blocks_ext E E' ps : (forall s, E s = E' s) -> forall iv, cfb_dec_blocks E iv ps = cfb_dec_blocks E' iv ps.
Proof. intros H. induction ps as [|p ps IH]; intros iv; cbn [cfb_dec_blocks]; [reflexivity|]. rewrite H, IH. reflexivity. Qed.

Lemma enc_blocks_app E ps qs : forall iv,
  cfb_enc_blocks E iv (ps ++ qs) = cfb_enc_blocks E iv ps ++ cfb_enc_blocks E (last (cfb_enc_blocks E iv ps) iv) qs.
Proof.
  induction ps as [|p ps IH]; intros iv; [reflexivity|]. cbn [cfb_enc_blocks app]. rewrite last_cons, IH. reflexivity.
Qed.
Lemma dec_blocks_app E ps qs : forall iv,
  cfb_dec_blocks E iv (ps ++ qs) = cfb_dec_blocks E iv ps ++ cfb_dec_blocks E (last ps iv) qs.
Proof.
  induction ps as [|p ps IH]; intros iv; [reflexivity|]. cbn [cfb_dec_blocks app]. rewrite last_cons, IH. reflexivity.
Qed.
Lemma chunks_app16 (d1 d2 : list N) : length d1 mod 16 = 0 -> chunks 16 (d1 ++ d2) = chunks 16 d1 ++ chunks 16 d2.
Proof.
  intros H. apply whole_div in H. remember (length d1 / 16) as q eqn:Q. clear Q. revert d1 H.
  induction q as [|q IH]; intros d1 H.
  - destruct d1; [reflexivity|discriminate].
  - assert (X : exists a c, d1 = a ++ c /\ length a = 16).
    { exists (firstn 16 d1), (skipn 16 d1). split; [symmetry; apply firstn_skipn|]. rewrite firstn_length. lia. }
    destruct X as (a & c & -> & La). rewrite app_length in H. rewrite <- app_assoc, (chunks16 a (c ++ d2)), (chunks16 a c) by exact La.
    cbn [app]. f_equal. apply IH. lia.
Qed.

Lemma cfb_sends oor b rk ds : rk_ok rk ->
  Forall (fun d => bytes_ok d /\ length d mod 16 = 0) ds -> forall iv, st16 iv ->
  exists s' es, sends (cfb_packet oor b ENCRYPT) (cfb_st iv rk) ds s' es /\
    concat es = cfb128_encrypt (cipher_of b rk) iv (concat ds).
Proof.
  intros K F. induction F as [|d ds [B W] F IH]; intros iv S; cbn [sends].
  - exists (cfb_st iv rk), []. split; reflexivity.
  - destruct (enc_blocks oor b rk (length d / 16) iv d S K B (whole_div d W)) as [R S'].
    destruct (IH _ S') as (s' & es & H & C).
    exists s', (concat (cfb_enc_blocks (cipher_of b rk) iv (chunks 16 d)) :: es). cbn [sends concat]. split.
    + eexists. split; [|exact H]. pose proof (whole_div d W) as E. rewrite <- (Nat.add_0_r (16 * _)) in E.
      split; [exact (cfb_run_length _ _ _ _ _ 0 _ _ _ ltac:(lia) E R)|].
      intros m out inp H1 H2 H3. rewrite cfb_packet_enc by (split; auto). rewrite R. reflexivity.
    + rewrite C. unfold cfb128_encrypt. rewrite (chunks_app16 d) by exact W.
      rewrite enc_blocks_app, concat_app. reflexivity.
Qed.

Lemma cfb_receives oor b rk ds : rk_ok rk ->
  Forall (fun d => bytes_ok d /\ length d mod 16 = 0) ds -> forall iv, st16 iv ->
  exists s' es, receives (cfb_packet oor b DECRYPT) (cfb_st iv rk) ds s' es /\
    concat es = cfb128_decrypt (cipher_of b rk) iv (concat ds).
Proof.
  intros K F. induction F as [|d ds [B W] F IH]; intros iv S; cbn [receives].
  - exists (cfb_st iv rk), []. split; reflexivity.
  - destruct (dec_blocks oor b rk (length d / 16) iv d S K B (whole_div d W)) as [R S'].
    destruct (IH _ S') as (s' & es & H & C).
    exists s', (concat (cfb_dec_blocks (cipher_of b rk) iv (chunks 16 d)) :: es). cbn [receives concat]. split.
    + eexists. split; [|exact H]. pose proof (whole_div d W) as E. rewrite <- (Nat.add_0_r (16 * _)) in E.
      split; [exact (cfb_run_length _ _ _ _ _ 0 _ _ _ ltac:(lia) E R)|].
      intros m out inp H1 H2 H3. rewrite cfb_packet_dec by assumption. rewrite R. reflexivity.
    + rewrite C. unfold cfb128_decrypt. rewrite (chunks_app16 d) by exact W.
      rewrite dec_blocks_app, concat_app. reflexivity.
Qed.

Theorem C37_aes_cfb_is_cfb128 : forall oor b m kp ivp key iv ds,
  has_bytes m kp key -> length key = 16 -> has_bytes m ivp iv -> length iv = 16 ->
  Forall (fun d => bytes_ok d /\ length d mod 16 = 0) ds ->
  exists cs, aes_cfb_initialize m kp ivp = Ret cs /\
    (exists s' es, sends (cfb_packet oor b ENCRYPT) cs ds s' es /\
       concat es = cfb128_encrypt (build_cipher b key) iv (concat ds)) /\
    (exists s' es, receives (cfb_packet oor b DECRYPT) cs ds s' es /\
       concat es = cfb128_decrypt (build_cipher b key) iv (concat ds)).
Proof.
  intros oor b m kp ivp key iv ds H1 H2 H3 H4 F.
  destruct (cfb_init_ok m kp ivp key iv H1 H2 H3 H4) as (ks & E & K & S & C).
  exists (cfb_st iv ks). split; [exact E|]. split.
  - destruct (cfb_sends oor b ks ds K F iv S) as (s' & es & X & Y). exists s', es. split; [exact X|].
    rewrite Y. unfold cfb128_encrypt. rewrite (enc_blocks_ext _ _ _ (C b)). reflexivity.
  - destruct (cfb_receives oor b ks ds K F iv S) as (s' & es & X & Y). exists s', es. split; [exact X|].
    rewrite Y. unfold cfb128_decrypt. rewrite (dec_blocks_ext _ _ _ (C b)). reflexivity.
Qed.
Print Assumptions C37_aes_cfb_is_cfb128.

(** SP 800-38A F.3.13, two segments. *)
Definition nist_iv : list N := [0;1;2;3;4;5;6;7;8;9;10;11;12;13;14;15]%N.
Definition nist_pt : list N :=
  [0x6b; 0xc1; 0xbe; 0xe2; 0x2e; 0x40; 0x9f; 0x96; 0xe9; 0x3d; 0x7e; 0x11; 0x73; 0x93; 0x17; 0x2a;
   0xae; 0x2d; 0x8a; 0x57; 0x1e; 0x03; 0xac; 0x9c; 0x9e; 0xb7; 0x6f; 0xac; 0x45; 0xaf; 0x8e; 0x51]%N.
Definition nist_ct : list N :=
  [0x3b; 0x3f; 0xd9; 0x2e; 0xb7; 0x2d; 0xad; 0x20; 0x33; 0x34; 0x49; 0xf8; 0xe8; 0x3c; 0xfb; 0x4a;
   0xc8; 0xa6; 0x45; 0x37; 0xa0; 0xb3; 0xa9; 0x3f; 0xcd; 0xe3; 0xcd; 0xad; 0x9f; 0x1c; 0xe5; 0x8b]%N.
Example C37_instance :
  let m := [holding fips_key; holding nist_iv; holding nist_pt; fresh 32] in
  has_bytes m (Ptr 0 0) fips_key /\ has_bytes m (Ptr 1 0) nist_iv /\ length nist_pt mod 16 = 0 /\
  (let* cs := aes_cfb_initialize m (Ptr 0 0) (Ptr 1 0) in
   let* (cs, m1) := aes_cfb_process_packet ub_shift (Table false) ENCRYPT cs m (Ptr 3 0) (Ptr 2 0) 32 in
   ldn m1 (Ptr 3 0) 32) = Ret nist_ct.
Proof. split; [conc_has_bytes|]. split; [conc_has_bytes|]. split; [reflexivity|]. vm_compute. reflexivity. Qed.

(** ** C38: a sender and a receiver of different builds.  Table and ARM always
    understand each other; with x86 the packets before the last must be whole
    blocks. *)
Theorem C38_aes_cfb_builds_interoperate : forall oor b1 b2 cs pks,
  b1 <> Table true -> b2 <> Table true ->
  regs_32 cs -> words_ok (rk cs) -> length (rk cs) = 44 ->
  Forall packet_ok pks ->
  Forall (fun k => length (pk_data k) mod 4 <= 1 \/ forall w n, exists v, oor w n = Ret v) pks ->
  (b1 <> X86 /\ b2 <> X86) \/ Forall (fun k => length (pk_data k) mod 16 = 0) (removelast pks) ->
  talk_apart (cfb_packet oor b1 ENCRYPT) (cfb_packet oor b2 DECRYPT) cs cs pks.
Proof.
  intros oor b1 b2 cs pks F1 F2 R W L H D A. apply cfb_talk; auto.
  - destruct A as [[A1 A2]|A]; [left; right; auto|right; exact A].
  - right. apply regs_32_inv; [exact R|split; assumption].
Qed.
Print Assumptions C38_aes_cfb_builds_interoperate.

Definition cfb_two (b : build) (mode : Z) (m : mem) (out1 in1 out2 in2 : ptr) (n1 n2 : Z) : res mem :=
  let* cs := aes_cfb_initialize m (Ptr 0 0) (Ptr 1 0) in
  let* (cs, m) := aes_cfb_process_packet ub_shift b mode cs m out1 in1 n1 in
  let* (cs, m) := aes_cfb_process_packet ub_shift b mode cs m out2 in2 n2 in
  Ret m.

(** A 4-byte packet and a 16-byte packet, encrypted on x86, decrypted with the
    table build: the first comes back, the second does not. *)
Theorem C38_aes_cfb_x86_to_table_refuted : exists m key iv d1 d2 m1 m2,
  has_bytes m (Ptr 0 0) key /\ length key = 16 /\ has_bytes m (Ptr 1 0) iv /\ length iv = 16 /\
  has_bytes m (Ptr 2 0) d1 /\ length d1 = 4 /\ has_bytes m (Ptr 3 0) d2 /\ length d2 = 16 /\
  cfb_two X86 ENCRYPT m (Ptr 4 0) (Ptr 2 0) (Ptr 5 0) (Ptr 3 0) 4 16 = Ret m1 /\
  cfb_two (Table false) DECRYPT m1 (Ptr 6 0) (Ptr 4 0) (Ptr 7 0) (Ptr 5 0) 4 16 = Ret m2 /\
  ldn m2 (Ptr 6 0) 4 = Ret d1 /\ ldn m2 (Ptr 7 0) 16 <> Ret d2.
Proof.
  pose (m := [holding fips_key; holding nist_iv; holding [1;2;3;4]%N; holding fips_in; fresh 4; fresh 16; fresh 4; fresh 16]).
  assert (V : match cfb_two X86 ENCRYPT m (Ptr 4 0) (Ptr 2 0) (Ptr 5 0) (Ptr 3 0) 4 16 with
    | Ret m1 => match cfb_two (Table false) DECRYPT m1 (Ptr 6 0) (Ptr 4 0) (Ptr 7 0) (Ptr 5 0) 4 16 with
       | Ret m2 => match ldn m2 (Ptr 6 0) 4, ldn m2 (Ptr 7 0) 16 with
          | Ret a, Ret c => (Finite.list_N_eqb a [1;2;3;4]%N && negb (Finite.list_N_eqb c fips_in))%bool
          | _, _ => false end
       | _ => false end
    | _ => false end = true) by (vm_compute; reflexivity).
  destruct (cfb_two X86 ENCRYPT m _ _ _ _ _ _) as [m1| |] eqn:E1; try discriminate V.
  destruct (cfb_two (Table false) DECRYPT m1 _ _ _ _ _ _) as [m2| |] eqn:E2; try discriminate V.
  destruct (ldn m2 (Ptr 6 0) 4) as [a| |] eqn:E3; try discriminate V.
  destruct (ldn m2 (Ptr 7 0) 16) as [c| |] eqn:E4; try discriminate V.
  apply andb_true_iff in V. destruct V as [V1 V2]. apply Finite.list_N_eqb_eq in V1. subst a.
  exists m, fips_key, nist_iv, [1;2;3;4]%N, fips_in, m1, m2.
  split; [conc_has_bytes|]. split; [reflexivity|]. split; [conc_has_bytes|]. split; [reflexivity|].
  split; [conc_has_bytes|]. split; [reflexivity|]. split; [conc_has_bytes|]. split; [reflexivity|].
  split; [exact E1|]. split; [exact E2|]. split; [exact E3|].
  rewrite E4. intros X. apply Ret_inj in X. subst c. rewrite Finite.list_N_eqb_refl in V2. discriminate V2.
Qed.
Print Assumptions C38_aes_cfb_x86_to_table_refuted.
Example C38_instance :
  let k1 := Packet [holding (repeat 7%N 16)] (Ptr 0 0) (Ptr 0 0) (repeat 7%N 16) in
  let k2 := Packet [holding [1; 2; 3; 4; 5]%N; fresh 5] (Ptr 1 0) (Ptr 0 0) [1; 2; 3; 4; 5]%N in
  regs_32 (Aes 1 2 3 4 (repeat 5%N 44)) /\ packet_ok k1 /\ packet_ok k2 /\
  Forall (fun k => length (pk_data k) mod 16 = 0) (removelast [k1; k2]).
Proof.
  split; [repeat constructor|].
  split; [split; [conc_has_bytes|split; [conc_writable|left; reflexivity]]|].
  split; [split; [conc_has_bytes|split; [conc_writable|right; conc_disjoint]]|]. repeat constructor.
Qed.

(** ** C39: after whole blocks the receiver holds the last 16 ciphertext bytes,
    whatever it held before. *)
Theorem C39_aes_cfb_resynchronises : forall oor b cs data,
  bytes_ok data -> length data mod 16 = 0 -> 0 < length data ->
  exists cs' e, decrypts (cfb_packet oor b DECRYPT) cs data cs' e /\
    rk cs' = rk cs /\ reg_bytes cs' = skipn (length data - 16) data /\ regs_32 cs'.
Proof.
  intros oor b cs d B W P. apply whole_div in W as E.
  destruct (length d / 16) as [|q] eqn:Q; [lia|].
  destruct (dec_resync oor b q cs d E) as (o & R & Lo).
  exists (cfb_st (skipn (16 * q) d) (rk cs)), o.
  assert (S : st16 (skipn (16 * q) d)).
  { split; [apply Forall_skipn; exact B|rewrite skipn_length; lia]. }
  split; [|split; [apply rk_cfb_st|split; [|exact (vstore_words _ (proj1 S))]]].
  - split; [exact Lo|]. intros m out inp H1 H2 H3. rewrite cfb_packet_dec by assumption. rewrite Q, R. reflexivity.
  - rewrite reg_bytes_st by exact S. f_equal. lia.
Qed.
Print Assumptions C39_aes_cfb_resynchronises.

Lemma reg_bytes_inj cs1 cs2 : regs_32 cs1 -> regs_32 cs2 -> reg_bytes cs1 = reg_bytes cs2 -> rk cs1 = rk cs2 -> cs1 = cs2.
Proof.
  intros R1 R2 Eb Ek. destruct (reg_state cs1 R1) as (s1 & _ & E1 & B1). destruct (reg_state cs2 R2) as (s2 & _ & E2 & B2).
  rewrite E1, E2, Ek. congruence.
Qed.

(** Hence two receivers with the same key, one of them with the wrong
    registers, end in the same state. *)
Theorem C39_aes_cfb_receivers_converge : forall oor b cs1 cs2 data,
  bytes_ok data -> length data mod 16 = 0 -> 0 < length data -> rk cs1 = rk cs2 ->
  exists cs' e1 e2, decrypts (cfb_packet oor b DECRYPT) cs1 data cs' e1 /\
                    decrypts (cfb_packet oor b DECRYPT) cs2 data cs' e2.
Proof.
  intros oor b cs1 cs2 d B W P K.
  destruct (C39_aes_cfb_resynchronises oor b cs1 d B W P) as (s1 & e1 & D1 & K1 & R1 & V1).
  destruct (C39_aes_cfb_resynchronises oor b cs2 d B W P) as (s2 & e2 & D2 & K2 & R2 & V2).
  assert (s1 = s2) as -> by (apply reg_bytes_inj; congruence). exists s2, e1, e2. auto.
Qed.
Print Assumptions C39_aes_cfb_receivers_converge.
Example C39_instance : bytes_ok nist_ct /\ length nist_ct mod 16 = 0 /\ 0 < length nist_ct.
Proof. split; [repeat constructor|]. split; [reflexivity|cbn; lia]. Qed.

(** ** C40: encryption gives the same bytes and state wherever the output is. *)
Theorem C40_aes_cfb_encrypts_in_place : forall oor b cs data,
  bytes_ok data -> length data mod 4 <= 1 \/ (forall w n, exists v, oor w n = Ret v) ->
  exists cs' e, encrypts (cfb_packet oor b ENCRYPT) cs data cs' e.
Proof.
  intros oor b cs d B D. destruct (div16 d) as [E Hr].
  assert (Dr : tail_defined oor (length d mod 16)).
  { destruct D as [D|D]; [left; rewrite mod16_4; exact D|right; exact D]. }
  destruct (cfb_run_defined oor b feed_out _ cs _ d Hr E Dr) as (s' & o & R).
  exists s', o. split; [exact (cfb_run_length _ _ _ _ _ _ _ _ _ Hr E R)|].
  intros m out inp H1 H2 H3. rewrite cfb_packet_enc by (split; auto). rewrite R. reflexivity.
Qed.
Print Assumptions C40_aes_cfb_encrypts_in_place.

(** Decryption in place does what encryption in place does: the mode has no
    effect. *)
Theorem C40_aes_cfb_decrypt_in_place_is_encrypt : forall oor b mode cs m p size,
  aes_cfb_process_packet oor b mode cs m p p size = aes_cfb_process_packet oor b ENCRYPT cs m p p size.
Proof.
  intros oor b mode cs m p size. unfold aes_cfb_process_packet.
  assert (G : forall fuel size cs m p,
    while fuel (fun '(size, _, _, _, _) => (0 <? size)%Z)
      (fun '(size, cs, out, inp, m) =>
         let w_state_ptr := if (mode =? 0)%Z then out else inp in
         let '(cs, keystream) := cfb_aes_encrypt b cs in
         if (16 <=? size)%Z then
           let* m := xor_block m out inp keystream in
           let* cs := full_state_update cs m w_state_ptr in
           Ret ((size - 16)%Z, cs, padd out 16, padd inp 16, m)
         else
           let* m := cfb_tail oor m out inp size keystream in
           let* cs := partial_state_update cs m w_state_ptr size in
           Ret (0%Z, cs, out, inp, m)) (size, cs, p, p, m) =
    while fuel (fun '(size, _, _, _, _) => (0 <? size)%Z)
      (fun '(size, cs, out, inp, m) =>
         let w_state_ptr := if (ENCRYPT =? 0)%Z then out else inp in
         let '(cs, keystream) := cfb_aes_encrypt b cs in
         if (16 <=? size)%Z then
           let* m := xor_block m out inp keystream in
           let* cs := full_state_update cs m w_state_ptr in
           Ret ((size - 16)%Z, cs, padd out 16, padd inp 16, m)
         else
           let* m := cfb_tail oor m out inp size keystream in
           let* cs := partial_state_update cs m w_state_ptr size in
           Ret (0%Z, cs, out, inp, m)) (size, cs, p, p, m)).
  { clear. induction fuel as [|fuel IH]; intros size cs m p; cbn [while]; [reflexivity|].
    destruct (0 <? size)%Z; [|reflexivity]. cbv zeta. change (ENCRYPT =? 0)%Z with true. cbv iota.
    destruct (cfb_aes_encrypt b cs) as [c ks].
    replace (if (mode =? 0)%Z then p else p) with p by (destruct (mode =? 0)%Z; reflexivity).
    destruct (16 <=? size)%Z.
    - destruct (xor_block m p p ks) as [m1| |]; cbn [bind]; try reflexivity.
      destruct (full_state_update c m1 p) as [c1| |]; cbn [bind]; try reflexivity. apply IH.
    - destruct (cfb_tail oor m p p size ks) as [m1| |]; cbn [bind]; try reflexivity.
      destruct (partial_state_update c m1 p size) as [c1| |]; cbn [bind]; try reflexivity. apply IH. }
  rewrite G. reflexivity.
Qed.
Print Assumptions C40_aes_cfb_decrypt_in_place_is_encrypt.

Definition cfb_one (b : build) (mode : Z) (m : mem) (out inp : ptr) (n : Z) : res mem :=
  let* cs := aes_cfb_initialize m (Ptr 0 0) (Ptr 1 0) in
  let* (cs, m) := aes_cfb_process_packet ub_shift b mode cs m out inp n in
  Ret m.

(** Two blocks encrypted, then decrypted in place: not the plaintext. *)
Theorem C40_aes_cfb_decrypts_in_place_refuted : exists m key iv data m1 m2,
  has_bytes m (Ptr 0 0) key /\ length key = 16 /\ has_bytes m (Ptr 1 0) iv /\ length iv = 16 /\
  has_bytes m (Ptr 2 0) data /\ length data = 32 /\
  cfb_one (Table false) ENCRYPT m (Ptr 3 0) (Ptr 2 0) 32 = Ret m1 /\
  cfb_one (Table false) DECRYPT m1 (Ptr 3 0) (Ptr 3 0) 32 = Ret m2 /\
  ldn m2 (Ptr 3 0) 32 <> Ret data.
Proof.
  pose (m := [holding fips_key; holding nist_iv; holding nist_pt; fresh 32]).
  assert (V : match cfb_one (Table false) ENCRYPT m (Ptr 3 0) (Ptr 2 0) 32 with
    | Ret m1 => match cfb_one (Table false) DECRYPT m1 (Ptr 3 0) (Ptr 3 0) 32 with
       | Ret m2 => match ldn m2 (Ptr 3 0) 32 with
          | Ret a => negb (Finite.list_N_eqb a nist_pt)
          | _ => false end
       | _ => false end
    | _ => false end = true) by (vm_compute; reflexivity).
  destruct (cfb_one (Table false) ENCRYPT m _ _ _) as [m1| |] eqn:E1; try discriminate V.
  destruct (cfb_one (Table false) DECRYPT m1 _ _ _) as [m2| |] eqn:E2; try discriminate V.
  destruct (ldn m2 (Ptr 3 0) 32) as [a| |] eqn:E3; try discriminate V.
  exists m, fips_key, nist_iv, nist_pt, m1, m2.
  split; [conc_has_bytes|]. split; [reflexivity|]. split; [conc_has_bytes|]. split; [reflexivity|].
  split; [conc_has_bytes|]. split; [reflexivity|]. split; [exact E1|]. split; [exact E2|].
  rewrite E3. intros X. apply Ret_inj in X. subst a. rewrite Finite.list_N_eqb_refl in V. discriminate V.
Qed.
Print Assumptions C40_aes_cfb_decrypts_in_place_refuted.
Example C40_instance : bytes_ok nist_pt /\ length nist_pt mod 4 <= 1.
Proof. split; [repeat constructor|cbn; lia]. Qed.

(** ** C75: a final packet shorter than a block. *)
(** Exactly: for a packet of one, two or three words the key stream words are
    used from the last to the first. *)
Theorem C75_aes_cfb_short_packet : forall oor b m kp ivp key iv out inp data,
  has_bytes m kp key -> length key = 16 -> has_bytes m ivp iv -> length iv = 16 ->
  has_bytes m inp data -> writable m out (length data) -> same_or_disjoint out inp (length data) ->
  length data mod 4 = 0 -> length data < 16 ->
  exists cs cs', aes_cfb_initialize m kp ivp = Ret cs /\
    aes_cfb_process_packet oor b ENCRYPT cs m out inp (Z.of_nat (length data)) =
      Ret (cs', write_at m out (xor_bytes data (concat (rev (chunks 4 (build_cipher b key iv)))))).
Proof.
  intros oor b m kp ivp key iv out inp d H1 H2 H3 H4 H5 H6 H7 Hm Hl.
  destruct (cfb_init_ok m kp ivp key iv H1 H2 H3 H4) as (ks & E & K & S & C).
  rewrite E. exists (cfb_st iv ks). rewrite <- C.
  rewrite (cfb_process_ok oor b ENCRYPT feed_out) by (first [split; auto|left; split; [reflexivity|left; reflexivity]]).
  rewrite Nat.div_small by exact Hl. cbn [cfb_run].
  destruct (Nat.eqb_spec (length d) 0) as [Z|Z].
  - destruct d; [|discriminate]. cbn [bind]. eexists. split; [reflexivity|]. reflexivity.
  - destruct (enc_key_st b iv ks S K) as [-> _].
    pose proof (cipher_of_st16 b ks iv K S) as [Bc Lc].
    unfold tail_keys. rewrite Hm. cbn [tail_ks bind]. rewrite app_nil_r.
    eexists. split; [reflexivity|]. do 2 f_equal.
    rewrite <- (xor_bytes_trunc d (concat _)). f_equal. f_equal. clear C E.
    remember (cipher_of b ks iv) as c eqn:Q. clear Q.
    destruct (list16 c Lc) as (a0&a1&a2&a3&a4&a5&a6&a7&a8&a9&a10&a11&a12&a13&a14&a15&->).
    unfold bytes_ok in Bc. repeat rewrite Forall_cons_iff in Bc. decompose [and] Bc. clear Bc.
    unfold vstore, vword, quad. cbn [Nat.mul Nat.add nth rev app]. unfold le_bytes.
    assert (X : forall k, firstn k [bytes_of_le32 (le32_of_bytes a12 a13 a14 a15); bytes_of_le32 (le32_of_bytes a8 a9 a10 a11);
       bytes_of_le32 (le32_of_bytes a4 a5 a6 a7); bytes_of_le32 (le32_of_bytes a0 a1 a2 a3)] =
       firstn k [[a12;a13;a14;a15];[a8;a9;a10;a11];[a4;a5;a6;a7];[a0;a1;a2;a3]]).
    { intros k. rewrite !bytes_of_le32_of by assumption. reflexivity. }
    rewrite flat_map_concat_map, <- firstn_map. cbn [map]. rewrite X.
    remember (length d) as n eqn:Hn. clear - Hm Hl Z.
    do 16 (destruct n as [|n]; [try (exfalso; cbn in Hm; lia); try contradiction; reflexivity|]). lia.
Qed.
Print Assumptions C75_aes_cfb_short_packet.

Theorem C75_aes_cfb_short_packet_is_cfb_refuted : exists m key iv data m1,
  has_bytes m (Ptr 0 0) key /\ length key = 16 /\ has_bytes m (Ptr 1 0) iv /\ length iv = 16 /\
  has_bytes m (Ptr 2 0) data /\ length data = 4 /\
  cfb_one (Table false) ENCRYPT m (Ptr 3 0) (Ptr 2 0) 4 = Ret m1 /\
  ldn m1 (Ptr 3 0) 4 <> Ret (cfb128_encrypt (aes128 key) iv data).
Proof.
  pose (m := [holding fips_key; holding nist_iv; holding [1;2;3;4]%N; fresh 4]).
  assert (V : match cfb_one (Table false) ENCRYPT m (Ptr 3 0) (Ptr 2 0) 4 with
    | Ret m1 => match ldn m1 (Ptr 3 0) 4 with
          | Ret a => negb (Finite.list_N_eqb a (cfb128_encrypt (aes128 fips_key) nist_iv [1;2;3;4]%N))
          | _ => false end
    | _ => false end = true) by (vm_compute; reflexivity).
  destruct (cfb_one (Table false) ENCRYPT m _ _ _) as [m1| |] eqn:E1; try discriminate V.
  destruct (ldn m1 (Ptr 3 0) 4) as [a| |] eqn:E3; try discriminate V.
  exists m, fips_key, nist_iv, [1;2;3;4]%N, m1.
  split; [conc_has_bytes|]. split; [reflexivity|]. split; [conc_has_bytes|]. split; [reflexivity|].
  split; [conc_has_bytes|]. split; [reflexivity|]. split; [exact E1|].
  rewrite E3. intros X. apply Ret_inj in X. rewrite X in V. rewrite Finite.list_N_eqb_refl in V. discriminate V.
Qed.
Print Assumptions C75_aes_cfb_short_packet_is_cfb_refuted.
Example C75_instance : has_bytes [holding [1;2;3;4;5;6;7;8]%N] (Ptr 0 0) [1;2;3;4;5;6;7;8]%N /\
  length [1;2;3;4;5;6;7;8]%N mod 4 = 0 /\ length [1;2;3;4;5;6;7;8]%N < 16.
Proof. split; [conc_has_bytes|]. split; [reflexivity|cbn; lia]. Qed.

(** ** C98: altering AES-CTR packets on their way alters the received data in
    the same bits, and nothing else. *)
Theorem C98_aes_ctr_damage : forall oor wild b cs ds,
  Forall (fun d => length d mod 16 = 0 \/
    (wild = Ret tt /\ (length d mod 4 <= 1 \/ forall w n, exists v, oor w n = Ret v))) ds ->
  damage_stays (ctr_packet oor wild b) (ctr_packet oor wild b) cs cs ds.
Proof.
  intros oor wild b cs ds F.
  pose (len_ok := fun n => n mod 16 = 0 \/ (wild = Ret tt /\ (n mod 4 <= 1 \/ forall w n, exists v, oor w n = Ret v))).
  assert (Def : forall s n, len_ok n -> exists ks, ctr_keys oor wild b s (n / 16) (n mod 16) = Ret ks).
  { intros s n [Z|[-> D]]; [rewrite Z; apply ctr_keys_0|]. apply ctr_keys_defined.
    destruct D as [D|D]; [left; rewrite mod16_4; exact D|right; exact D]. }
  assert (P : forall s m out inp data, True -> len_ok (length data) -> has_bytes m inp data -> writable m out (length data) ->
    same_or_disjoint out inp (length data) -> ctr_packet oor wild b s m out inp (N.of_nat (length data)) =
      Ret (Nat.iter (blocks_of (length data)) state_update s, write_at m out (xor_bytes data
        (match ctr_keys oor wild b s (length data / 16) (length data mod 16) with Ret ks => ks | _ => [] end)))).
  { intros s m out inp data _ L H1 H2 H3. unfold ctr_packet. rewrite nat_N_Z, ctr_process_ok by (split; auto).
    destruct (Def s (length data) L) as [ks E]. rewrite E. reflexivity. }
  apply (sync_damage (ctr_packet oor wild b) (ctr_packet oor wild b) (fun _ => True) len_ok
    (fun s n => match ctr_keys oor wild b s (n / 16) (n mod 16) with Ret ks => ks | _ => [] end)
    (fun s n => Nat.iter (blocks_of n) state_update s)); auto.
  intros s n _ L. destruct (Def s n L) as [ks E]. rewrite E.
  apply ctr_keys_length in E; [|apply Nat.mod_upper_bound; lia]. pose proof (Nat.div_mod_eq n 16). lia.
Qed.
Print Assumptions C98_aes_ctr_damage.
Example C98_aes_ctr_instance :
  Forall (fun d : list N => length d mod 16 = 0 \/ (Ret tt = Ret tt /\ (length d mod 4 <= 1 \/
    forall w n : N, exists v, (fun _ _ => Ret 0%N) w n = Ret v))) [[1; 2; 3; 4; 5]; [6; 7]]%N /\
  altered [[1; 2; 3; 4; 5]; [6; 7]]%N [[0; 0; 0; 0; 0]; [0; 128]]%N = [[1; 2; 3; 4; 5]; [6; 135]]%N.
Proof.
  split; [|reflexivity]. do 2 (apply Forall_cons; [right; split; [reflexivity|right; intros; eexists; reflexivity]|]).
  apply Forall_nil.
Qed.
