(** Property theorems C139 and C140: when a newly loaded key takes effect, and
    in which order key and IV may be loaded (AES-CTR, Rabbit, Sosemanuk). *)
From Coq Require Import Arith NArith ZArith List Bool Lia.
From Verif Require Import Res Words Mem MemSpec ListLemmas MemLemmas SpecWords WordsLemmas XorProofs IoProofs ShaProofs Finite Concrete
  SyncSpec SyncProofs AesSpec AesModel AesProofs AesCtrProofs AesCtrLink AesCfbProofs AesCfbLink AesProps.
From Verif Require RabbitSpec RabbitModel RabbitProofs RabbitProps.
From Verif Require SerpentModel SerpentSpec SosemanukSpec SosemanukModel SosemanukProofs SosemanukProps.
Import ListNotations.
Local Open Scope nat_scope.

(** ** C139: when a new key takes effect *)

(** *** AES-CTR: at once, the counter going on from where it was *)

(** The counter blocks that packets take: each starts a new one. *)
Definition blocks_used (ds : list (list N)) : nat := fold_right (fun d n => length (chunks 16 d) + n) 0 ds.

Lemma ctr_sends_end oor wild b nonce rk ds : nonce_ok nonce -> rk_ok rk ->
  Forall (fun d => length d mod 4 = 0 /\ (wild = Ret tt \/ length d mod 16 = 0)) ds ->
  forall c, sends (ctr_packet oor wild b) (ctr_st nonce c rk) ds (ctr_st nonce (c + N.of_nat (blocks_used ds)) rk)
    (ctr_packets (cipher_of b rk) nonce c ds).
Proof.
  intros Hn Hk F. induction F as [|d ds [H4 Hw] F IH]; intros c; cbn [sends ctr_packets blocks_used fold_right].
  - change (N.of_nat 0) with 0%N. rewrite N.add_0_r. reflexivity.
  - eexists. split.
    2:{ fold (blocks_used ds).
        replace (c + N.of_nat (length (chunks 16 d) + blocks_used ds))%N
          with (c + N.of_nat (length (chunks 16 d)) + N.of_nat (blocks_used ds))%N by lia.
        apply IH. }
    split; [apply ctr_crypt_length; assumption|].
    intros m out inp H1 H2 H3. unfold ctr_packet. rewrite nat_N_Z.
    apply ctr_words_packet; auto. split; auto.
Qed.

Lemma rekey_ctr nonce c ks m kp key : has_bytes m kp key -> length key = 16 ->
  exists ks', aes_load_key (ctr_st nonce c ks) m kp = Ret (ctr_st nonce c ks') /\ rk_ok ks' /\
    forall b s, cipher_of b ks' s = build_cipher b key s.
Proof.
  intros H L. destruct (schedule_ok m kp key H L) as (ks' & E & K & C). exists ks'.
  split; [|split; [exact K|exact C]]. unfold aes_load_key. rewrite E. reflexivity.
Qed.

Theorem C139_aes_ctr_key_takes_effect_at_once : forall oor wild b cs m kp np key nonce ds m' kp' key' ds',
  has_bytes m kp key -> length key = 16 -> has_bytes m np nonce -> length nonce = 12 ->
  has_bytes m' kp' key' -> length key' = 16 ->
  Forall (fun d => length d mod 4 = 0 /\ (wild = Ret tt \/ length d mod 16 = 0)) (ds ++ ds') ->
  exists cs1 cs2 cs3 cs4 cs5,
    aes_load_key cs m kp = Ret cs1 /\ ctr_load_iv cs1 m np = Ret cs2 /\
    sends (ctr_packet oor wild b) cs2 ds cs3 (ctr_packets (build_cipher b key) nonce 1 ds) /\
    aes_load_key cs3 m' kp' = Ret cs4 /\
    sends (ctr_packet oor wild b) cs4 ds' cs5
      (ctr_packets (build_cipher b key') nonce (1 + N.of_nat (blocks_used ds)) ds').
Proof.
  intros oor wild b cs m kp np key nonce ds m' kp' key' ds' H1 H2 H3 H4 H5 H6 F.
  apply Forall_app in F. destruct F as [F F'].
  destruct (ctr_init_ok cs m kp np key nonce H1 H2 H3 H4) as (cs1 & ks & E1 & E2 & K & Hn & C).
  pose proof (ctr_sends_end oor wild b nonce ks ds Hn K F 1%N) as S.
  destruct (rekey_ctr nonce (1 + N.of_nat (blocks_used ds)) ks m' kp' key' H5 H6) as (ks' & E3 & K' & C').
  pose proof (ctr_sends_end oor wild b nonce ks' ds' Hn K' F' (1 + N.of_nat (blocks_used ds))%N) as S'.
  exists cs1. do 4 eexists. split; [exact E1|]. split; [exact E2|].
  split; [rewrite <- (ctr_packets_ext _ _ nonce ds (C b)); exact S|].
  split; [exact E3|]. rewrite <- (ctr_packets_ext _ _ nonce ds' (C' b)). exact S'.
Qed.
Print Assumptions C139_aes_ctr_key_takes_effect_at_once.

(** *** Sosemanuk: not before the next IV *)

Import SerpentModel SosemanukModel SosemanukProofs.

(** A state with other Serpent subkeys. *)
Definition with_subkeys (rk : list N) (cs : sosemanuk_state) : sosemanuk_state := Sosemanuk rk (s cs) (R1 cs) (R2 cs).

Lemma fsm_subkeys rk cs : sosemanuk_fsm_update (with_subkeys rk cs) =
  (fst (sosemanuk_fsm_update cs), with_subkeys rk (snd (sosemanuk_fsm_update cs))).
Proof. reflexivity. Qed.
Lemma lfsr_subkeys rk cs : sosemanuk_lfsr_update (with_subkeys rk cs) =
  (fst (sosemanuk_lfsr_update cs), with_subkeys rk (snd (sosemanuk_lfsr_update cs))).
Proof. reflexivity. Qed.

#[local] Opaque sosemanuk_fsm_update sosemanuk_lfsr_update with_subkeys.
Lemma block_subkeys scratch rk cs :
  sosemanuk_block scratch (with_subkeys rk cs) =
  (fst (sosemanuk_block scratch cs), with_subkeys rk (snd (sosemanuk_block scratch cs))).
Proof.
  unfold sosemanuk_block.
  do 4 (rewrite fsm_subkeys; match goal with |- context [sosemanuk_fsm_update ?c] => destruct (sosemanuk_fsm_update c) end;
    cbn [fst snd]; rewrite lfsr_subkeys;
    match goal with |- context [sosemanuk_lfsr_update ?c] => destruct (sosemanuk_lfsr_update c) end; cbn [fst snd]).
  match goal with |- context [serpent1 ?a ?b ?c ?d scratch] => destruct (serpent1 a b c d scratch) as [[[f0 f1] f2] f3] end.
  reflexivity.
Qed.
#[local] Transparent sosemanuk_fsm_update sosemanuk_lfsr_update with_subkeys.
#[local] Opaque sosemanuk_block.

Lemma pair_parts {A B} (p : A * B) a b : p = (a, b) -> fst p = a /\ snd p = b.
Proof. intros ->. split; reflexivity. Qed.
Lemma block_fst scratch rk cs : fst (sosemanuk_block scratch (with_subkeys rk cs)) = fst (sosemanuk_block scratch cs).
Proof. exact (proj1 (pair_parts _ _ _ (block_subkeys scratch rk cs))). Qed.
Lemma block_snd scratch rk cs :
  snd (sosemanuk_block scratch (with_subkeys rk cs)) = with_subkeys rk (snd (sosemanuk_block scratch cs)).
Proof. exact (proj2 (pair_parts _ _ _ (block_subkeys scratch rk cs))). Qed.

Lemma st_at_subkeys scratch rk cs n : st_at scratch (with_subkeys rk cs) n = with_subkeys rk (st_at scratch cs n).
Proof.
  induction n as [|n IH]; [reflexivity|]. rewrite <- !st_at_S, IH. apply block_snd.
Qed.

Lemma ks_words_subkeys scratch rk cs n : ks_words scratch (with_subkeys rk cs) n = ks_words scratch cs n.
Proof.
  unfold ks_words. apply flat_map_ext. intros i. unfold blk_at. rewrite st_at_subkeys. apply block_fst.
Qed.

Lemma sends_subkeys scratch rk ds : forall cs t es,
  sends (sosemanuk_process_packet scratch) cs ds t es ->
  sends (sosemanuk_process_packet scratch) (with_subkeys rk cs) ds (with_subkeys rk t) es.
Proof.
  induction ds as [|d ds IH]; intros cs t [|e es] H; cbn [sends] in *; try contradiction.
  - rewrite H. reflexivity.
  - destruct H as (u & [L H] & S). exists (with_subkeys rk u). split; [|apply IH; exact S].
    split; [exact L|]. intros m out inp Hd Ho Hv. specialize (H m out inp Hd Ho Hv).
    rewrite process_ok in H by assumption. apply Ret_pair in H. destruct H as [<- <-].
    rewrite process_ok by assumption. rewrite ks_words_subkeys, st_at_subkeys. reflexivity.
Qed.

(** After a key has been loaded, every sequence of packets is encrypted exactly
    as it would have been without it, from any state. *)
Theorem C139_sosemanuk_key_waits_for_iv : forall scratch scratch' cs m key keysize cs1 ds t es,
  sosemanuk_load_key scratch cs m key keysize = Ret (Some cs1) ->
  sends (sosemanuk_process_packet scratch') cs ds t es ->
  sends (sosemanuk_process_packet scratch') cs1 ds (with_subkeys (serpent_cs cs1) t) es.
Proof.
  intros scratch scratch' cs m key keysize cs1 ds t es E S. unfold sosemanuk_load_key in E.
  destruct (serpent_key_schedule scratch m key keysize) as [[rk|]| |]; cbn [bind option_map] in E; try discriminate E.
  apply Ret_inj in E. injection E as <-. cbn [serpent_cs]. apply (sends_subkeys scratch' rk ds cs t es S).
Qed.
Print Assumptions C139_sosemanuk_key_waits_for_iv.

(** The ciphertexts of packets from a generator state. *)
Fixpoint ciphertexts (q : SosemanukSpec.state) (ds : list (list N)) : list (list N) :=
  match ds with
  | [] => []
  | d :: ds =>
      let (ws, q) := SosemanukSpec.quads false (length d / 16 + 1) q in
      xor_bytes d (flat_map (le_str 4) ws) :: ciphertexts q ds
  end.

Lemma sends_loaded scratch rk ds : forall q, st_ok q ->
  exists q', sends (sosemanuk_process_packet scratch) (unview rk q) ds (unview rk q') (ciphertexts q ds).
Proof.
  induction ds as [|d ds IH]; intros q H; [exists q; reflexivity|].
  destruct (ks_words_ok scratch rk (length d / 16 + 1) q H) as (_ & _ & H').
  pose proof (process_loaded scratch rk q) as P. pose proof (gen_ks_length q (length d)) as G. unfold gen_ks in P, G.
  cbn [ciphertexts].
  destruct (SosemanukSpec.quads false (length d / 16 + 1) q) as [ws q1] eqn:E. cbn [fst snd] in *.
  destruct (IH q1 H') as [q' S]. exists q'. cbn [sends]. exists (unview rk q1). split; [|exact S].
  split; [rewrite xor_bytes_length_min; lia|].
  intros m out inp Hd Ho Hv. specialize (P m out inp d H Hd Ho Hv). rewrite E in P. exact P.
Qed.

(** Key, IV, new key: the packets are encrypted under the old key. *)
Theorem C139_sosemanuk_old_key_stays : forall scratch cs0 m key k m' p iv m1 key1 k1 ds,
  has_bytes m key k -> length k <= 32 -> has_bytes m' p iv -> length iv = 16 ->
  has_bytes m1 key1 k1 -> length k1 <= 32 ->
  exists ks cs cs1 t,
    sosemanuk_load_key scratch cs0 m key (Z.of_nat (length k)) = Ret (Some ks) /\
    sosemanuk_load_iv scratch ks m' p = Ret cs /\
    sosemanuk_load_key scratch cs m1 key1 (Z.of_nat (length k1)) = Ret (Some cs1) /\
    sends (sosemanuk_process_packet scratch) cs1 ds t
      (ciphertexts (SosemanukSpec.init (SerpentSpec.subkeys_of (SerpentSpec.pad_with 0x80 k)) iv) ds).
Proof.
  intros scratch cs0 m key k m' p iv m1 key1 k1 ds Hk Lk Hiv Liv Hk1 Lk1.
  destruct (SosemanukProps.loading scratch scratch cs0 m key k m' p iv Hk Lk Hiv Liv) as (ks & E1 & E2).
  set (q := SosemanukSpec.init (SosemanukProps.code_subkeys k) iv) in *.
  destruct (SosemanukProps.loading scratch scratch (unview (concat (SosemanukProps.code_subkeys k)) q)
    m1 key1 k1 m' p iv Hk1 Lk1 Hiv Liv) as (cs1 & E3 & _).
  destruct (sends_loaded scratch (concat (SosemanukProps.code_subkeys k)) ds q) as [q' S].
  { apply SosemanukProps.loaded_ok; [eapply has_bytes_bytes; exact Hiv|exact Liv]. }
  exists ks. do 3 eexists. split; [exact E1|]. split; [exact E2|]. split; [exact E3|].
  exact (C139_sosemanuk_key_waits_for_iv _ _ _ _ _ _ _ _ _ _ E3 S).
Qed.
Print Assumptions C139_sosemanuk_old_key_stays.

(** So two parties with different new keys still understand each other, and a
    party that has kept the old key reads everything. *)
Theorem C139_new_key_takes_effect_refuted : exists scratch m key k p iv key1 k1 key2 k2 cs0 ks cs cs1 cs2,
  has_bytes m key k /\ length k = 16 /\ has_bytes m p iv /\ length iv = 16 /\
  has_bytes m key1 k1 /\ length k1 = 16 /\ has_bytes m key2 k2 /\ length k2 = 16 /\ k1 <> k2 /\ k1 <> k /\
  sosemanuk_load_key scratch cs0 m key 16 = Ret (Some ks) /\ sosemanuk_load_iv scratch ks m p = Ret cs /\
  sosemanuk_load_key scratch cs m key1 16 = Ret (Some cs1) /\
  sosemanuk_load_key scratch cs m key2 16 = Ret (Some cs2) /\
  forall ds, exists es t t1 t2,
    sends (sosemanuk_process_packet scratch) cs ds t es /\
    sends (sosemanuk_process_packet scratch) cs1 ds t1 es /\
    sends (sosemanuk_process_packet scratch) cs2 ds t2 es.
Proof.
  set (k := repeat 1%N 16). set (iv := repeat 2%N 16). set (k1 := repeat 3%N 16). set (k2 := repeat 4%N 16).
  set (m := [holding k; holding iv; holding k1; holding k2]).
  assert (Hk : has_bytes m (Ptr 0 0) k) by conc_has_bytes. assert (Hiv : has_bytes m (Ptr 1 0) iv) by conc_has_bytes.
  assert (H1 : has_bytes m (Ptr 2 0) k1) by conc_has_bytes. assert (H2 : has_bytes m (Ptr 3 0) k2) by conc_has_bytes.
  assert (L : length k <= 32) by (unfold k; rewrite repeat_length; lia).
  assert (L1 : length k1 <= 32) by (unfold k1; rewrite repeat_length; lia).
  assert (L2 : length k2 <= 32) by (unfold k2; rewrite repeat_length; lia).
  destruct (SosemanukProps.loading 0 0 (Sosemanuk [] [] 0 0) m (Ptr 0 0) k m (Ptr 1 0) iv Hk L Hiv eq_refl) as (ks & E1 & E2).
  pose proof (SosemanukProps.loaded_ok k iv (has_bytes_bytes _ _ _ Hiv) eq_refl) as Q.
  pose proof (fun rk ds => sends_loaded 0 rk ds _ Q) as S.
  remember (SosemanukSpec.init (SosemanukProps.code_subkeys k) iv) as q eqn:Eq.
  remember (concat (SosemanukProps.code_subkeys k)) as rk eqn:Er. clear Eq Er.
  destruct (SosemanukProps.loading 0 0 (unview rk q) m (Ptr 2 0) k1 m (Ptr 1 0) iv H1 L1 Hiv eq_refl) as (c1 & E3 & _).
  destruct (SosemanukProps.loading 0 0 (unview rk q) m (Ptr 3 0) k2 m (Ptr 1 0) iv H2 L2 Hiv eq_refl) as (c2 & E4 & _).
  exists 0%N, m, (Ptr 0 0), k, (Ptr 1 0), iv, (Ptr 2 0), k1, (Ptr 3 0), k2, (Sosemanuk [] [] 0 0), ks, (unview rk q), c1, c2.
  split; [exact Hk|]. split; [reflexivity|]. split; [exact Hiv|]. split; [reflexivity|].
  split; [exact H1|]. split; [reflexivity|]. split; [exact H2|]. split; [reflexivity|].
  split; [discriminate|]. split; [discriminate|].
  split; [exact E1|]. split; [exact E2|]. split; [exact E3|]. split; [exact E4|].
  intros ds. destruct (S rk ds) as [q' Sd]. do 4 eexists. split; [exact Sd|].
  split; [exact (C139_sosemanuk_key_waits_for_iv _ _ _ _ _ _ _ _ _ _ E3 Sd)|].
  exact (C139_sosemanuk_key_waits_for_iv _ _ _ _ _ _ _ _ _ _ E4 Sd).
Qed.
Print Assumptions C139_new_key_takes_effect_refuted.

Example C139_instance :
  let m := [holding fips_key; holding (repeat 2%N 12); holding rfc3686_key] in
  has_bytes m (Ptr 0 0) fips_key /\ has_bytes m (Ptr 1 0) (repeat 2%N 12) /\ has_bytes m (Ptr 2 0) rfc3686_key /\
  fips_key <> rfc3686_key /\
  Forall (fun d : list N => length d mod 4 = 0 /\ (@Ret unit tt = Ret tt \/ length d mod 16 = 0))
    ([repeat 5%N 16; repeat 6%N 20] ++ [repeat 7%N 48]) /\
  blocks_used [repeat 5%N 16; repeat 6%N 20] = 3.
Proof.
  split; [conc_has_bytes|]. split; [conc_has_bytes|]. split; [conc_has_bytes|]. split; [discriminate|].
  split; [|vm_compute; reflexivity]. repeat constructor.
Qed.

(** ** C140: the order of loading key and IV *)

(** AES-CTR: either order gives the same state, whatever it held before, and
    counter mode from there. *)
Theorem C140_aes_ctr_either_order : forall cs m kp key m' np nonce,
  has_bytes m kp key -> length key = 16 -> has_bytes m' np nonce -> length nonce = 12 ->
  exists c1 c1' c2,
    aes_load_key cs m kp = Ret c1 /\ ctr_load_iv c1 m' np = Ret c2 /\
    ctr_load_iv cs m' np = Ret c1' /\ aes_load_key c1' m kp = Ret c2 /\
    forall oor wild b ds,
      Forall (fun d => length d mod 4 = 0 /\ (wild = Ret tt \/ length d mod 16 = 0)) ds ->
      exists c3, sends (ctr_packet oor wild b) c2 ds c3 (ctr_packets (build_cipher b key) nonce 1 ds).
Proof.
  intros cs m kp key m' np nonce Hk Lk Hn Ln. destruct (schedule_ok m kp key Hk Lk) as (ks & E & K & C).
  assert (Hno : nonce_ok nonce) by (split; [exact (has_bytes_bytes _ _ _ Hn)|exact Ln]).
  assert (I : forall c : aes_state, ctr_load_iv c m' np = Ret (ctr_st nonce 1 (rk c))).
  { intros c. unfold ctr_load_iv. rewrite (ld32_at0 _ _ _ Hn), !(ld32_at _ _ _ _ Hn) by lia. cbn [bind rk].
    unfold ctr_st, ctr_in. rewrite vstore_ctr by (first [exact Ln|apply be_str_length]).
    destruct (list12 nonce Ln) as (a0&a1&a2&a3&a4&a5&a6&a7&a8&a9&a10&a11&->).
    unfold word_at, vword. cbn [firstn skipn Nat.mul Nat.add nth set_regs rk]. rewrite !le_num_W. reflexivity. }
  assert (J : forall c, aes_load_key c m kp = Ret (Aes (reg1 c) (reg2 c) (reg3 c) (reg4 c) ks)).
  { intros c. unfold aes_load_key. rewrite E. reflexivity. }
  exists (Aes (reg1 cs) (reg2 cs) (reg3 cs) (reg4 cs) ks), (ctr_st nonce 1 (rk cs)), (ctr_st nonce 1 ks).
  split; [apply J|]. split; [rewrite I; reflexivity|]. split; [apply I|]. split; [rewrite J; reflexivity|].
  intros oor wild b ds F. eexists. rewrite <- (ctr_packets_ext _ _ nonce ds (C b)).
  exact (ctr_sends_end oor wild b nonce ks ds Hno K F 1%N).
Qed.
Print Assumptions C140_aes_ctr_either_order.

(** Sosemanuk, on a state that has held the key [k0]: key before IV gives the
    key stream of the new key, IV before key that of [k0]. *)
Theorem C140_sosemanuk_order_exact : forall scratch c0 m0 key0 k0 m key k m' p iv ds,
  has_bytes m0 key0 k0 -> length k0 <= 32 ->
  has_bytes m key k -> length k <= 32 -> has_bytes m' p iv -> length iv = 16 ->
  let gen k := SosemanukSpec.init (SerpentSpec.subkeys_of (SerpentSpec.pad_with 0x80 k)) iv in
  exists cs a b a' b' t t',
    sosemanuk_load_key scratch c0 m0 key0 (Z.of_nat (length k0)) = Ret (Some cs) /\
    sosemanuk_load_key scratch cs m key (Z.of_nat (length k)) = Ret (Some a) /\
    sosemanuk_load_iv scratch a m' p = Ret b /\
    sends (sosemanuk_process_packet scratch) b ds t (ciphertexts (gen k) ds) /\
    sosemanuk_load_iv scratch cs m' p = Ret a' /\
    sosemanuk_load_key scratch a' m key (Z.of_nat (length k)) = Ret (Some b') /\
    sends (sosemanuk_process_packet scratch) b' ds t' (ciphertexts (gen k0) ds).
Proof.
  intros scratch c0 m0 key0 k0 m key k m' p iv ds H0 L0 Hk Lk Hiv Liv gen.
  destruct (C139_sosemanuk_old_key_stays scratch c0 m0 key0 k0 m' p iv m key k ds H0 L0 Hiv Liv Hk Lk)
    as (cs & a' & b' & t' & E1 & E2 & E3 & S').
  destruct (SosemanukProps.loading scratch scratch cs m key k m' p iv Hk Lk Hiv Liv) as (a & E4 & E5).
  destruct (sends_loaded scratch (concat (SosemanukProps.code_subkeys k)) ds _
    (SosemanukProps.loaded_ok k iv (has_bytes_bytes _ _ _ Hiv) Liv)) as [q' S].
  exists cs, a. do 5 eexists. split; [exact E1|]. split; [exact E4|]. split; [exact E5|]. split; [exact S|].
  split; [exact E2|]. split; [exact E3|exact S'].
Qed.
Print Assumptions C140_sosemanuk_order_exact.

(** Rabbit: an IV loaded before the key is lost, as loading the key assigns the
    whole state.  For keys and IVs whose counter never loses a carry (see C20)
    the packets come out as RFC 4503 says for the key alone. *)
Theorem C140_rabbit_iv_before_key_is_lost : forall sq cs m iv m' key k m'' out inp data c1 c2 c3 m3,
  sq = RabbitModel.strict_sq \/ sq = RabbitModel.wrap_sq ->
  has_bytes m' key k -> length k = 16 ->
  has_bytes m'' inp data -> writable m'' out (length data) -> same_or_disjoint out inp (length data) ->
  RabbitSpec.clean 4 (RabbitSpec.key_words (le_num k)) ->
  RabbitSpec.clean ((length data + 15) / 16) (RabbitSpec.key_setup (le_num k)) ->
  RabbitModel.rabbit_load_iv sq cs m iv = Ret c1 ->
  RabbitModel.rabbit_load_key sq m' key = Ret c2 ->
  RabbitModel.rabbit_process_packet sq c2 m'' out inp (N.of_nat (length data)) = Ret (c3, m3) ->
  m3 = write_at m'' out (RabbitSpec.rabbit_encrypt_no_iv k data).
Proof.
  intros sq cs m iv m' key k m'' out inp data c1 c2 c3 m3 Hsq Hk Lk Hd Ho Hv C1 C2 _ E2 E3.
  exact (RabbitProps.C20_rabbit_is_rfc4503_when_clean_no_iv sq m' key k m'' out inp data c2 c3 m3
    Hsq Hk Lk Hd Ho Hv C1 C2 E2 E3).
Qed.
Print Assumptions C140_rabbit_iv_before_key_is_lost.

(** The two orders give different ciphertexts. *)
Theorem C140_sosemanuk_either_order_refuted : exists scratch m key0 k0 key k p iv c0 cs a b a' b' d t e t' e',
  has_bytes m key0 k0 /\ has_bytes m key k /\ length k = 16 /\ has_bytes m p iv /\ length iv = 16 /\
  sosemanuk_load_key scratch c0 m key0 (Z.of_nat (length k0)) = Ret (Some cs) /\
  sosemanuk_load_key scratch cs m key 16 = Ret (Some a) /\ sosemanuk_load_iv scratch a m p = Ret b /\
  sosemanuk_load_iv scratch cs m p = Ret a' /\ sosemanuk_load_key scratch a' m key 16 = Ret (Some b') /\
  sends (sosemanuk_process_packet scratch) b [d] t [e] /\
  sends (sosemanuk_process_packet scratch) b' [d] t' [e'] /\ e <> e'.
Proof.
  set (k0 := repeat 0%N 16). set (k := repeat 1%N 16). set (iv := repeat 2%N 16). set (d := [0; 0; 0; 0]%N).
  set (m := [holding k0; holding k; holding iv]).
  assert (H0 : has_bytes m (Ptr 0 0) k0) by conc_has_bytes. assert (Hk : has_bytes m (Ptr 1 0) k) by conc_has_bytes.
  assert (Hiv : has_bytes m (Ptr 2 0) iv) by conc_has_bytes.
  assert (L0 : length k0 <= 32) by (unfold k0; rewrite repeat_length; lia).
  assert (L : length k <= 32) by (unfold k; rewrite repeat_length; lia).
  destruct (C140_sosemanuk_order_exact 0 (Sosemanuk [] [] 0 0) m (Ptr 0 0) k0 m (Ptr 1 0) k m (Ptr 2 0) iv [d]
    H0 L0 Hk L Hiv eq_refl) as (cs & a & b & a' & b' & t & t' & E1 & E2 & E3 & S & E4 & E5 & S').
  assert (X : forall q, ciphertexts q [d] = [hd [] (ciphertexts q [d])]).
  { intros q. cbn [ciphertexts]. destruct (SosemanukSpec.quads _ _ q). reflexivity. }
  rewrite X in S, S'.
  exists 0%N, m, (Ptr 0 0), k0, (Ptr 1 0), k, (Ptr 2 0), iv, (Sosemanuk [] [] 0 0), cs, a, b, a', b', d, t.
  eexists. exists t'. eexists.
  split; [exact H0|]. split; [exact Hk|]. split; [reflexivity|]. split; [exact Hiv|]. split; [reflexivity|].
  split; [exact E1|]. split; [exact E2|]. split; [exact E3|]. split; [exact E4|]. split; [exact E5|].
  split; [exact S|]. split; [exact S'|]. clear. vm_compute. discriminate.
Qed.
Print Assumptions C140_sosemanuk_either_order_refuted.

Lemma rabbit_orders cs m key iv :
  (let* a := RabbitModel.rabbit_load_key RabbitModel.wrap_sq m key in
   let* b := RabbitModel.rabbit_load_iv RabbitModel.wrap_sq a m iv in
   let* a' := RabbitModel.rabbit_load_iv RabbitModel.wrap_sq cs m iv in
   let* (x, _) := RabbitModel.rabbit_extract_keystream RabbitModel.wrap_sq b in
   let* (y, _) := RabbitModel.rabbit_extract_keystream RabbitModel.wrap_sq a in
   Ret (list_N_eqb x y)) = Ret false ->
  exists a b a' x y bx ay,
    RabbitModel.rabbit_load_key RabbitModel.wrap_sq m key = Ret a /\
    RabbitModel.rabbit_load_iv RabbitModel.wrap_sq a m iv = Ret b /\
    RabbitModel.rabbit_load_iv RabbitModel.wrap_sq cs m iv = Ret a' /\
    RabbitModel.rabbit_extract_keystream RabbitModel.wrap_sq b = Ret (x, bx) /\
    RabbitModel.rabbit_extract_keystream RabbitModel.wrap_sq a = Ret (y, ay) /\ x <> y.
Proof.
  intros X.
  destruct (RabbitModel.rabbit_load_key RabbitModel.wrap_sq m key) as [a| |] eqn:E1; cbn [bind] in X; try discriminate X.
  destruct (RabbitModel.rabbit_load_iv RabbitModel.wrap_sq a m iv) as [b| |] eqn:E2; cbn [bind] in X; try discriminate X.
  destruct (RabbitModel.rabbit_load_iv RabbitModel.wrap_sq cs m iv) as [a'| |] eqn:E3; cbn [bind] in X; try discriminate X.
  destruct (RabbitModel.rabbit_extract_keystream RabbitModel.wrap_sq b) as [[x bx]| |] eqn:E4; cbn [bind] in X; try discriminate X.
  destruct (RabbitModel.rabbit_extract_keystream RabbitModel.wrap_sq a) as [[y ay]| |] eqn:E5; cbn [bind] in X; try discriminate X.
  exists a, b, a', x, y, bx, ay.
  split; [reflexivity|]. split; [exact E2|]. split; [reflexivity|]. split; [exact E4|]. split; [exact E5|].
  intros B. rewrite B, list_N_eqb_refl in X. discriminate X.
Qed.

(** Rabbit, on a state holding zeros: [b] is the state after key and IV, [a]
    the one after IV and key; their first key-stream blocks differ. *)
Theorem C140_rabbit_either_order_refuted : exists cs m key k iv v a b a' x y bx ay,
  has_bytes m key k /\ length k = 16 /\ has_bytes m iv v /\ length v = 8 /\
  RabbitModel.rabbit_load_key RabbitModel.wrap_sq m key = Ret a /\
  RabbitModel.rabbit_load_iv RabbitModel.wrap_sq a m iv = Ret b /\
  RabbitModel.rabbit_load_iv RabbitModel.wrap_sq cs m iv = Ret a' /\
  RabbitModel.rabbit_extract_keystream RabbitModel.wrap_sq b = Ret (x, bx) /\
  RabbitModel.rabbit_extract_keystream RabbitModel.wrap_sq a = Ret (y, ay) /\ x <> y.
Proof.
  pose (z := repeat 0%N 8). pose (cs := RabbitModel.Rabbit z z z z 0).
  pose (m := [holding (repeat 1%N 16); holding (repeat 2%N 8)]).
  destruct (rabbit_orders cs m (Ptr 0 0) (Ptr 1 0)) as (a & b & a' & x & y & bx & ay & H); [vm_compute; reflexivity|].
  exists cs, m, (Ptr 0 0), (repeat 1%N 16), (Ptr 1 0), (repeat 2%N 8), a, b, a', x, y, bx, ay.
  split; [conc_has_bytes|]. split; [reflexivity|]. split; [conc_has_bytes|]. split; [reflexivity|exact H].
Qed.
Print Assumptions C140_rabbit_either_order_refuted.

Example C140_instance :
  let m := [holding fips_key; holding (repeat 2%N 12); holding (repeat 9%N 32); holding (repeat 4%N 16)] in
  has_bytes m (Ptr 0 0) fips_key /\ has_bytes m (Ptr 1 0) (repeat 2%N 12) /\
  has_bytes m (Ptr 2 0) (repeat 9%N 32) /\ has_bytes m (Ptr 3 0) (repeat 4%N 16) /\
  RabbitSpec.clean 4 (RabbitSpec.key_words (le_num fips_key)) /\
  RabbitSpec.clean 2 (RabbitSpec.key_setup (le_num fips_key)).
Proof.
  split; [conc_has_bytes|]. split; [conc_has_bytes|]. split; [conc_has_bytes|]. split; [conc_has_bytes|].
  assert (D : forall n s, (fix go n s := match n with O => true | S n' =>
      andb (negb (existsb (N.eqb (2^32)) (RabbitSpec.sums (RabbitSpec.sC s) RabbitSpec.A_const (RabbitSpec.sb s))))
           (go n' (RabbitSpec.iterate s)) end) n s = true -> RabbitSpec.clean n s).
  { induction n as [|n IH]; intros s H; [exact I|]. apply Bool.andb_true_iff in H. destruct H as [H1 H2].
    split; [|apply IH; exact H2]. intros K. apply Bool.negb_true_iff in H1.
    assert (existsb (N.eqb (2^32)) (RabbitSpec.sums (RabbitSpec.sC s) RabbitSpec.A_const (RabbitSpec.sb s)) = true).
    { apply existsb_exists. exists (2^32)%N. split; [exact K|reflexivity]. }
    congruence. }
  split; apply D; vm_compute; reflexivity.
Qed.
