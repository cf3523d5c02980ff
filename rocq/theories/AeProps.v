(** Properties C67 and C89-C91: the authenticated-encryption example. *)
From Coq Require Import String.
From Coq Require Import Arith NArith ZArith List Bool Lia.
From Verif Require Import Res Words Mem MemSpec Ints ListLemmas MemLemmas SpecWords WordsLemmas Finite XorProofs IoProofs
  SyncSpec Concrete ShaSpec ShaModel ShaProofs HmacModel HmacProofs HexSpec HexModel HexProofs
  HcModel HcProofs AesSpec AesModel AesProofs AesCtrProofs AesCtrLink AesCfbProofs AesCfbLink AesProps AesCarrySpec AesCfbCarryProps AeSpec AeModel AeProofs.
From Verif Require HcSpec.
Import ListNotations.
Local Open Scope nat_scope.

Lemma list_N_neq a b : list_N_eqb a b = false -> a <> b.
Proof. intros E ->. rewrite list_N_eqb_refl in E. discriminate. Qed.

(** ** C89: HMAC as the example links it (SHA-256 of the Hash folder). *)
Theorem C89_hmac_hash_folder_exact : forall m key k tag message data t,
  has_bytes m key k -> (Z.of_nat (length k) + 73 <= 2^31)%Z ->
  has_bytes m message data -> 0 < length data -> (Z.of_nat (length data) + 137 <= 2^31)%Z ->
  writable m tag t -> t <= 32 ->
  (64 < length k -> length k mod 64 = 63 -> hmac_load_key sha256_hash m key (Z.of_nat (length k)) = UB) /\
  ((length k <= 64 \/ length k mod 64 <> 63) ->
   exists cs, hmac_load_key sha256_hash m key (Z.of_nat (length k)) = Ret cs /\
    (length data mod 64 <> 63 ->
     hmac_tag_generation sha256_hash cs m tag message (N.of_nat (length data)) (Z.of_nat t) =
       Ret (write_at m tag (firstn t (HMAC k data)))) /\
    (length data mod 64 = 63 ->
     hmac_tag_generation sha256_hash cs m tag message (N.of_nat (length data)) (Z.of_nat t) = UB /\
     hmac_tag_validation sha256_hash cs m tag message (N.of_nat (length data)) (Z.of_nat t) = UB)).
Proof.
  intros m key k tag message data t Hk Lk Hm H0 Lm Wt Ht. pose proof (has_bytes_bytes _ _ _ Hk) as Bk. split.
  - intros L64 X. unfold hmac_load_key, alloc. cbv beta iota zeta.
    destruct (Z.ltb_spec 64 (Z.of_nat (length k))) as [_|]; [|lia].
    replace (Z.to_N (Z.of_nat (length k))) with (N.of_nat (length k)) by lia.
    rewrite (sha256_hash_ub _ _ key k); auto. do 2 apply has_bytes_alloc. exact Hk.
  - intros X. eexists. split.
    { apply (load_key_ok _ _ hash_hash_ok); auto. intros. destruct X; [lia|assumption]. }
    fold (keyed k). split; intros D.
    + apply (generation_ok _ _ hash_hash_ok); auto. { apply hash_len_64. exact D. } discriminate.
    + split; [apply gen_ub; auto|apply val_ub; auto].
Qed.
Print Assumptions C89_hmac_hash_folder_exact.

Theorem C89_hmac_hash_folder_refuted : exists m key k tag message data cs,
  has_bytes m key k /\ length k = 32 /\ has_bytes m message data /\ length data = 63 /\ writable m tag 32 /\
  hmac_load_key sha256_hash m key (Z.of_nat (length k)) = Ret cs /\
  hmac_tag_generation sha256_hash cs m tag message (N.of_nat (length data)) 32 = UB.
Proof.
  set (m := [holding (repeat 1%N 32); holding (repeat 2%N 63); fresh 32]).
  assert (Hk : has_bytes m (Ptr 0 0) (repeat 1%N 32)) by conc_has_bytes.
  assert (Hd : has_bytes m (Ptr 1 0) (repeat 2%N 63)) by conc_has_bytes.
  assert (Wt : writable m (Ptr 2 0) 32) by conc_writable.
  destruct (C89_hmac_hash_folder_exact m _ _ (Ptr 2 0) _ _ 32 Hk ltac:(cbn; lia) Hd ltac:(cbn; lia) ltac:(cbn; lia) Wt
              ltac:(lia)) as [_ X].
  destruct X as (cs & E & _ & U); [left; cbn; lia|].
  exists m, (Ptr 0 0), (repeat 1%N 32), (Ptr 2 0), (Ptr 1 0), (repeat 2%N 63), cs.
  repeat (split; [assumption || reflexivity|]). exact (proj1 (U eq_refl)).
Qed.
Print Assumptions C89_hmac_hash_folder_refuted.
Example C89_instance :
  let m := [holding [74; 101; 102; 101]%N; holding (repeat 2%N 64); fresh 16] in
  has_bytes m (Ptr 0 0) [74; 101; 102; 101]%N /\ has_bytes m (Ptr 1 0) (repeat 2%N 64) /\ writable m (Ptr 2 0) 16 /\
  64 mod 64 <> 63 /\ 63 mod 64 = 63 /\ (64 < 127 /\ 127 mod 64 = 63).
Proof.
  split; [conc_has_bytes|]. split; [conc_has_bytes|]. split; [conc_writable|]. split; [discriminate|].
  split; [reflexivity|]. split; [lia|reflexivity].
Qed.

(** ** C67: the receiving halves, given any message. *)
Lemma build_table key : build_cipher (Table false) key = aes128 key.
Proof. reflexivity. Qed.
Theorem C67_ae_section1_decrypts_only_valid : forall oor m a_key ka e_key ke iv v msg c t,
  has_bytes m a_key ka -> length ka <= 64 -> has_bytes m e_key ke -> length ke = 16 ->
  has_bytes m iv v -> length v = 16 ->
  has_bytes m msg (c ++ t) -> length t = 16 ->
  0 < length c -> (Z.of_nat (length c) + 137 <= 2^31)%Z -> length c mod 64 <> 63 ->
  exists a_cs, hmac_load_key sha256_hash m a_key (Z.of_nat (length ka)) = Ret a_cs /\
  (t <> tag128 ka c -> section1_receive oor a_cs m e_key iv msg (length c) = Ret (false, [InvalidTag])) /\
  (t = tag128 ka c -> length c mod 4 <= 1 \/ (forall w n, exists x, oor w n = Ret x) ->
   exists p, section1_receive oor a_cs m e_key iv msg (length c) = Ret (true, [ValidTag; Recovered p]) /\
     length p = length c /\ (length c mod 4 <= 1 -> p = packet_pt (aes128 ke) v c)).
Proof.
  intros oor m a_key ka e_key ke iv v msg c t Ha La Hk Lk Hv Lv H Lt P L D.
  pose proof (has_bytes_bytes _ _ _ Ha) as Ba.
  exists (keyed ka). split.
  { apply (load_key_ok _ _ hash_hash_ok); auto; [change (2^31)%Z with 2147483648%Z; lia|lia]. }
  destruct (cfb_init_ok m e_key iv ke v Hk Lk Hv Lv) as (ks & E & R & S & C).
  assert (I : aes_inv (cfb_st v ks)) by (apply cfb_st_inv; [apply S|exact R]).
  pose proof (recv1 oor m ka c t e_key iv msg _ Ba E I H Lt P L D) as X.
  split.
  - intros N. rewrite X. destruct (list_N_eqb t (tag128 ka c)) eqn:Q; [|reflexivity].
    apply list_N_eqb_iff in Q. contradiction.
  - intros -> T. rewrite X, list_N_eqb_refl. apply has_bytes_app in H as [Hc _].
    pose proof (has_bytes_bytes _ _ _ Hc) as Bc. destruct (div16 c) as [Ec Hr].
    assert (Dr : tail_defined oor (length c mod 16)).
    { destruct T as [T|T]; [left; rewrite mod16_4; exact T|right; exact T]. }
    destruct (cfb_run_defined oor (Table false) feed_in _ (cfb_st v ks) _ c Hr Ec Dr) as (s & o & Ro).
    rewrite Ro. cbn [bind]. exists o. split; [reflexivity|].
    split; [exact (cfb_run_length _ _ _ _ _ _ _ _ _ Hr Ec Ro)|]. intros W.
    destruct (cfb_run_pt oor (Table false) (build_cipher (Table false) ke) v ks c (C (Table false)) S R Bc W) as [x Q].
    rewrite build_table in Q. rewrite Q in Ro. apply Ret_pair in Ro as [_ <-]. reflexivity.
Qed.
Print Assumptions C67_ae_section1_decrypts_only_valid.

(** Section 2 decrypts every message, whatever its tag. *)
Theorem C67_ae_section2_exact : forall m a_key ka e_key ke msg v c t,
  has_bytes m a_key ka -> length ka <= 64 -> has_bytes m e_key ke -> length ke = 16 ->
  has_bytes m msg (v ++ c ++ t) -> length v = 16 -> length t = 16 ->
  (Z.of_nat (16 + length c) + 137 <= 2^31)%Z -> (16 + length c) mod 64 <> 63 ->
  exists a_cs, hmac_load_key sha256_hash m a_key (Z.of_nat (length ka)) = Ret a_cs /\
  (t = tag128 ka (v ++ c) -> section2_receive a_cs m e_key msg (length c) =
     Ret [ValidTag; Recovered (HcSpec.hc_encrypt ke v c)]) /\
  (t <> tag128 ka (v ++ c) -> section2_receive a_cs m e_key msg (length c) =
     Ret [InvalidTag; ValidTag; Recovered (HcSpec.hc_encrypt ke v c)]).
Proof.
  intros m a_key ka e_key ke msg v c t Ha La Hk Lk H Lv Lt L D.
  pose proof (has_bytes_bytes _ _ _ Ha) as Ba.
  exists (keyed ka). split.
  { apply (load_key_ok _ _ hash_hash_ok); auto; [change (2^31)%Z with 2147483648%Z; lia|lia]. }
  pose proof (recv2 m ka ke v c t e_key msg Ba Hk Lk H Lv Lt L D) as X. rewrite X. split.
  - intros ->. rewrite list_N_eqb_refl. reflexivity.
  - intros N. destruct (list_N_eqb t (tag128 ka (v ++ c))) eqn:Q; [|reflexivity].
    apply list_N_eqb_iff in Q. contradiction.
Qed.
Print Assumptions C67_ae_section2_exact.

(** A forged message (zero tag) is decrypted and its plaintext is printed. *)
Definition forged_mem : mem :=
  [holding (repeat 0%N 64); holding (repeat 0%N 16); holding (repeat 0%N 16 ++ [1; 2; 3]%N ++ repeat 0%N 16)].
Theorem C67_ae_never_decrypts_bad_tag_refuted : exists m a_key ka e_key ke msg v c t a_cs,
  has_bytes m a_key ka /\ has_bytes m e_key ke /\ has_bytes m msg (v ++ c ++ t) /\
  length v = 16 /\ length t = 16 /\ length c = 3 /\ t <> tag128 ka (v ++ c) /\
  hmac_load_key sha256_hash m a_key (Z.of_nat (length ka)) = Ret a_cs /\
  exists p, section2_receive a_cs m e_key msg (length c) = Ret [InvalidTag; ValidTag; Recovered p] /\
    p = HcSpec.hc_encrypt ke v c.
Proof.
  assert (Ha : has_bytes forged_mem (Ptr 0 0) (repeat 0%N 64)) by conc_has_bytes.
  assert (Hk : has_bytes forged_mem (Ptr 1 0) (repeat 0%N 16)) by conc_has_bytes.
  assert (Hm : has_bytes forged_mem (Ptr 2 0) (repeat 0%N 16 ++ [1; 2; 3]%N ++ repeat 0%N 16)) by conc_has_bytes.
  assert (N : repeat 0%N 16 <> tag128 (repeat 0%N 64) (repeat 0%N 16 ++ [1; 2; 3]%N)).
  { apply list_N_neq. vm_compute. reflexivity. }
  destruct (C67_ae_section2_exact forged_mem _ _ _ _ _ _ _ _ Ha ltac:(cbn; lia) Hk eq_refl Hm eq_refl eq_refl
              ltac:(cbn; lia) ltac:(cbn; lia)) as (a_cs & E & _ & X).
  exists forged_mem, (Ptr 0 0), (repeat 0%N 64), (Ptr 1 0), (repeat 0%N 16), (Ptr 2 0), (repeat 0%N 16), [1; 2; 3]%N,
    (repeat 0%N 16), a_cs.
  repeat (split; [assumption || reflexivity|]). eexists. split; [exact (X N)|reflexivity].
Qed.
Print Assumptions C67_ae_never_decrypts_bad_tag_refuted.

(** Section 1's hypotheses, with the tag accepted and with a tag refused. *)
Example C67_instance :
  let ka := repeat 0%N 64 in let k := repeat 7%N 16 in let c := [10; 20; 30; 40; 50]%N in
  let m := [holding ka; holding k; holding k; holding (c ++ tag128 ka c); holding (c ++ repeat 1%N 16)] in
  has_bytes m (Ptr 0 0) ka /\ has_bytes m (Ptr 1 0) k /\ has_bytes m (Ptr 2 0) k /\
  has_bytes m (Ptr 3 0) (c ++ tag128 ka c) /\ has_bytes m (Ptr 4 0) (c ++ repeat 1%N 16) /\
  repeat 1%N 16 <> tag128 ka c /\ length c mod 4 <= 1 /\ length c mod 64 <> 63.
Proof.
  intros ka k c m.
  assert (B : bytes_ok (c ++ tag128 ka c)) by (apply Forall_app; split; [repeat constructor|apply tag128_ok]).
  split; [conc_has_bytes|]. split; [conc_has_bytes|]. split; [conc_has_bytes|]. split.
  { split; [exact B|]. exists (holding (c ++ tag128 ka c)). split; [reflexivity|]. cbn [poff Nat.add skipn].
    unfold holding. rewrite map_length. split; [lia|]. rewrite <- (map_length Some). apply firstn_all. }
  split; [conc_has_bytes|]. split.
  { apply list_N_neq. vm_compute. reflexivity. }
  split; cbn; lia.
Qed.

(** ** C90, C91: the whole program, for any keys, IV and plaintexts. *)
Lemma hex_string_fresh (m : mem) : hex_string (m ++ [repeat None 16]) (Ptr (length m) 0) 16 = UB.
Proof.
  unfold hex_string, alloc, hex_encode. cbn -[app repeat ld8 sprintf_02X].
  replace (ld8 _ _) with (@UB N); [reflexivity|].
  unfold ld8. cbn [pblk padd]. rewrite nth_error_app1 by (rewrite app_length; cbn; lia).
  rewrite nth_error_last. reflexivity.
Qed.

Lemma mod_47 n : (16 + n) mod 64 = 63 <-> n mod 64 = 47.
Proof.
  pose proof (Nat.div_mod_eq n 64). pose proof (Nat.mod_upper_bound n 64 ltac:(lia)).
  pose proof (Nat.div_mod_eq (16 + n) 64). pose proof (Nat.mod_upper_bound (16 + n) 64 ltac:(lia)). lia.
Qed.

Section Main.
Context (oor : N -> Z -> res N) (ka ke v p1 p2 : list N).
Hypothesis Ba : bytes_ok ka.
Hypothesis La : length ka <= 64.
Hypothesis Bk : bytes_ok ke.
Hypothesis Lk : length ke = 16.
Hypothesis Bv : bytes_ok v.
Hypothesis Lv : length v = 16.
Hypothesis B1 : bytes_ok p1.
Hypothesis L1 : (Z.of_nat (length p1) + 16 < 2^30)%Z.
Hypothesis B2 : bytes_ok p2.
Hypothesis L2 : (Z.of_nat (length p2) + 32 < 2^30)%Z.

Let M0 : mem := [map Some ka; map Some ke; map Some v; map Some p1].

Lemma M0_ka tl : has_bytes (M0 ++ tl) (Ptr 0 0) ka.
Proof. apply (has_bytes_alloc [map Some ka] _ _ (map Some ke :: map Some v :: map Some p1 :: tl)). apply (has_bytes_last []). exact Ba. Qed.
Lemma M0_ke tl : has_bytes (M0 ++ tl) (Ptr 1 0) ke.
Proof. apply (has_bytes_alloc [map Some ka; map Some ke] _ _ (map Some v :: map Some p1 :: tl)). apply (has_bytes_last [map Some ka]). exact Bk. Qed.
Lemma M0_v tl : has_bytes (M0 ++ tl) (Ptr 2 0) v.
Proof. apply (has_bytes_alloc [map Some ka; map Some ke; map Some v] _ _ (map Some p1 :: tl)). apply (has_bytes_last [map Some ka; map Some ke]). exact Bv. Qed.
Lemma M0_p1 tl : has_bytes (M0 ++ tl) (Ptr 3 0) p1.
Proof. apply (has_bytes_alloc M0 _ _ tl). apply (has_bytes_last [map Some ka; map Some ke; map Some v]). exact B1. Qed.

(** The program after its initialisations. *)
Lemma main_start : exists ks, rk_ok ks /\ (forall s, cipher_of (Table false) ks s = aes128 ke s) /\ st16 v /\
  (forall tl, aes_cfb_initialize (M0 ++ tl) (Ptr 1 0) (Ptr 2 0) = Ret (cfb_st v ks)) /\
  ae_main oor ka ke v p1 p2 =
  (let out := [Plaintext p1] in
   let* (m, msg, o) := section1_send oor (keyed ka) (cfb_st v ks) M0 (Ptr 3 0) (length p1) in
   let out := out ++ o in
   let* (go, o) := section1_receive oor (keyed ka) m (Ptr 1 0) (Ptr 2 0) msg (length p1) in
   let out := out ++ o in
   if negb go then Ret (out, 1%Z) else
   let* (m, plaintext2) := new_bytes m p2 in
   let out := out ++ [Plaintext p2] in
   let* (m, msg2, o) := section2_send (keyed ka) m (Ptr 1 0) (Ptr 2 0) plaintext2 (length p2) in
   let out := out ++ o in
   let* o := section2_receive (keyed ka) m (Ptr 1 0) msg2 (length p2) in
   Ret (out ++ o, 0%Z)).
Proof.
  destruct (cfb_init_ok (M0 ++ []) _ _ ke v (M0_ke []) Lk (M0_v []) Lv) as (ks & E & R & S & C).
  exists ks. split; [exact R|]. split; [intros s; rewrite (C (Table false) s); reflexivity|]. split; [exact S|]. split.
  - intros tl. rewrite <- E. exact (init_same (M0 ++ tl) (M0 ++ []) _ _ _ _ ke v Lk Lv (M0_ke tl) (M0_ke []) (M0_v tl) (M0_v [])).
  - unfold ae_main. rewrite new_bytes_ok by exact Ba. cbn [bind app length].
    rewrite new_bytes_ok by exact Bk. cbn [bind app length].
    rewrite (load_key_ok _ _ hash_hash_ok).
    2:{ apply (has_bytes_alloc [map Some ka] _ _ [map Some ke]). apply (has_bytes_last []). exact Ba. }
    2:{ change (2^31)%Z with 2147483648%Z. lia. }
    2: lia.
    cbn [bind]. fold (keyed ka). rewrite new_bytes_ok by exact Bv. cbn [bind app length].
    assert (E3 : aes_cfb_initialize [map Some ka; map Some ke; map Some v] (Ptr 1 0) (Ptr 2 0) = Ret (cfb_st v ks)).
    {   rewrite <- E. symmetry. apply (init_same (M0 ++ []) _ _ _ _ _ ke v Lk Lv (M0_ke [])); [|apply M0_v|].
        - apply (has_bytes_alloc [map Some ka; map Some ke] _ _ [map Some v]). apply (has_bytes_last [map Some ka]). exact Bk.
        - apply (has_bytes_last [map Some ka; map Some ke]). exact Bv. }
    rewrite E3. cbn [bind]. rewrite new_bytes_ok by exact B1. cbn [bind app length]. reflexivity.
Qed.

Lemma tail_or_ub : tail_defined oor (length p1) \/ oor = ub_shift -> tail_defined oor (length p1) \/ (oor = ub_shift /\ 2 <= length p1 mod 4).
Proof.
  intros [H| ->]; [left; exact H|]. destruct (Nat.le_gt_cases 2 (length p1 mod 4)); [right; auto|left; left; lia].
Qed.

Lemma L1_31 : (Z.of_nat (length p1) + 137 <= 2^31)%Z.
Proof. change (2^31)%Z with 2147483648%Z. change (2^30)%Z with 1073741824%Z in L1. lia. Qed.
Lemma L2_31 : (Z.of_nat (16 + length p2) + 137 <= 2^31)%Z.
Proof. change (2^31)%Z with 2147483648%Z. change (2^30)%Z with 1073741824%Z in L2. lia. Qed.

Definition good_lines (c : list N) : list line :=
  [Plaintext p1; Msg (hex_text (sealed ka c)); ValidTag; Recovered p1;
   Plaintext p2; Msg (hex_text (sealed ka (hc_body ke v p2))); ValidTag; Recovered p2].

(** Section 1 done, with the message it made. *)
Lemma main_section1 : p1 <> [] -> length p1 mod 64 <> 63 -> tail_defined oor (length p1) ->
  exists c, length c = length p1 /\ (length p1 mod 4 <= 1 -> c = packet_ct (aes128 ke) v p1) /\
  let M := M0 ++ [map Some (sealed ka c); map Some p2] in
  ae_main oor ka ke v p1 p2 =
  (let out := [Plaintext p1; Msg (hex_text (sealed ka c)); ValidTag; Recovered p1; Plaintext p2] in
   let* (m, msg2, o) := section2_send (keyed ka) M (Ptr 1 0) (Ptr 2 0) (Ptr 5 0) (length p2) in
   let out := out ++ o in
   let* o := section2_receive (keyed ka) m (Ptr 1 0) msg2 (length p2) in
   Ret (out ++ o, 0%Z)).
Proof.
  intros NE D T. destruct main_start as (ks & R & C & S & I & E). rewrite E. clear E.
  assert (Inv : aes_inv (cfb_st v ks)) by (apply cfb_st_inv; [apply S|exact R]).
  assert (P : 0 < length p1) by (destruct p1; [contradiction|cbn; lia]).
  destruct (div16 p1) as [Ep Hr].
  assert (Dr : tail_defined oor (length p1 mod 16)).
  { destruct T as [T|T]; [left; rewrite mod16_4; exact T|right; exact T]. }
  destruct (cfb_run_defined oor (Table false) feed_out _ (cfb_st v ks) _ p1 Hr Ep Dr) as (s & c & Rc).
  pose proof (cfb_run_length _ _ _ _ _ _ _ _ _ Hr Ep Rc) as Lc.
  pose proof (cfb_invert _ _ _ _ _ _ _ _ Hr Ep Rc) as Rp.
  destruct (cfb_inv_run oor (Table false) feed_out _ _ _ _ _ _ Hr Ep B1 (or_introl eq_refl) Inv Rc) as [_ Bc].
  exists c. split; [exact Lc|]. split.
  { intros W. destruct (cfb_run_ct oor (Table false) (aes128 ke) v ks p1 C S R B1 W) as [x Q].
    rewrite Q in Rc. apply Ret_pair in Rc as [_ <-]. reflexivity. }
  pose proof (M0_p1 []) as Hp. rewrite app_nil_r in Hp.
  rewrite (send1 oor M0 ka p1 (Ptr 3 0) (cfb_st v ks) Ba Inv Hp P L1 D). rewrite Rc. cbn [bind]. cbv zeta.
  set (M1 := M0 ++ [map Some (sealed ka c)]).
  assert (Bs : bytes_ok (sealed ka c)) by (apply Forall_app; split; [exact Bc|apply tag128_ok]).
  assert (Hs : has_bytes M1 (Ptr (length M0) 0) (c ++ tag128 ka c)) by (apply has_bytes_last; exact Bs).
  rewrite <- Lc.
  rewrite (recv1 oor M1 ka c (tag128 ka c) (Ptr 1 0) (Ptr 2 0) (Ptr (length M0) 0) (cfb_st v ks) Ba (I _) Inv Hs
             (tag128_length _ _)); rewrite ?Lc; auto using L1_31.
  rewrite list_N_eqb_refl, Rp. cbn [bind negb]. rewrite new_bytes_ok by exact B2. cbn [bind].
  unfold M1. rewrite <- app_assoc. reflexivity.
Qed.

Lemma main_ok : p1 <> [] -> length p1 mod 64 <> 63 -> length p2 mod 64 <> 47 -> tail_defined oor (length p1) ->
  exists c, length c = length p1 /\ (length p1 mod 4 <= 1 -> c = packet_ct (aes128 ke) v p1) /\
  ae_main oor ka ke v p1 p2 = Ret (good_lines c, 0%Z).
Proof.
  intros NE D1 D2 T. destruct (main_section1 NE D1 T) as (c & Lc & Cc & E).
  exists c. split; [exact Lc|]. split; [exact Cc|]. rewrite E. clear E. cbv zeta.
  set (tl := [map Some (sealed ka c); map Some p2]).
  assert (Hp : has_bytes (M0 ++ tl) (Ptr 5 0) p2).
  { change (M0 ++ tl) with ((M0 ++ [map Some (sealed ka c)]) ++ [map Some p2]).
    apply (has_bytes_last (M0 ++ [map Some (sealed ka c)])). exact B2. }
  assert (HL : hash_len (16 + length p2)).
  { unfold hash_len. rewrite mod_47. exact D2. }
  rewrite (send2 (M0 ++ tl) ka ke v p2 (Ptr 1 0) (Ptr 2 0) (Ptr 5 0) Ba (M0_ke tl) Lk (M0_v tl) Lv Hp L2 HL).
  cbv zeta. cbn [bind].
  assert (Lb : length (HcSpec.hc_encrypt ke v p2) = length p2) by apply hc_encrypt_length.
  rewrite <- Lb.
  rewrite (recv2 _ ka ke v (HcSpec.hc_encrypt ke v p2) (tag128 ka (hc_body ke v p2)) (Ptr 1 0)
     (Ptr (length (M0 ++ tl)) 0) Ba); auto using tag128_length; rewrite ?Lb; auto using L2_31.
  - unfold hc_body. rewrite list_N_eqb_refl, hc_encrypt_twice. reflexivity.
  - apply has_bytes_alloc. apply M0_ke.
  - rewrite app_assoc. apply has_bytes_last. apply Forall_app. split; [|apply tag128_ok].
    apply Forall_app. split; [exact Bv|apply hc_encrypt_ok; exact B2].
Qed.

Lemma main_ub : p1 = [] \/ length p1 mod 64 = 63 \/ length p2 mod 64 = 47 \/ (oor = ub_shift /\ 2 <= length p1 mod 4) ->
  tail_defined oor (length p1) \/ oor = ub_shift -> ae_main oor ka ke v p1 p2 = UB.
Proof.
  intros X T. apply tail_or_ub in T.
  destruct main_start as (ks & R & C & S & I & E).
  assert (Inv : aes_inv (cfb_st v ks)) by (apply cfb_st_inv; [apply S|exact R]).
  assert (Q : p1 = [] \/ p1 <> []) by (destruct p1; [left; reflexivity|right; discriminate]).
  destruct Q as [Q|NE].
  { rewrite E. assert (Q0 : length p1 = 0) by (rewrite Q; reflexivity). replace (section1_send _ _ _ _ _ _) with (@UB (mem * ptr * list line)); [reflexivity|].
    unfold section1_send, alloc. rewrite Q0. change (to_int (Z.of_nat 0)) with 0%Z.
    cbn -[app repeat hex_string].
    match goal with |- context [hex_string ?a ?b ?c] =>
      change (hex_string a b c) with (hex_string (M0 ++ [repeat None 16]) (Ptr (length M0) 0) 16) end.
    rewrite (hex_string_fresh M0). reflexivity. }
  assert (P : 0 < length p1) by (destruct p1; [contradiction|cbn; lia]).
  pose proof (M0_p1 []) as Hp. rewrite app_nil_r in Hp.
  set (MM := M0 ++ [repeat None (length p1 + TAGSIZE)]).
  assert (W : writable MM (Ptr (length M0) 0) (length p1 + 16)).
  { apply writable_last. rewrite repeat_length. unfold TAGSIZE. lia. }
  assert (IO : io MM (Ptr (length M0) 0) (Ptr 3 0) p1).
  { split; [apply has_bytes_alloc; exact Hp|]. split; [apply (writable_le _ _ _ _ W); lia|].
    right. left. cbn. discriminate. }
  destruct T as [T|[-> T]].
  2:{ (* the out-of-range shift *)
    rewrite E. replace (section1_send _ _ _ _ _ _) with (@UB (mem * ptr * list line)); [reflexivity|].
    unfold section1_send, alloc. fold MM. rewrite int_len by exact L1_31.
    destruct IO as (H1 & H2 & H3).
    rewrite (proj2 (proj1 (C36_aes_cfb_undefined_exactly (Table false) (cfb_st v ks) MM _ _ p1 H1 H2) H3) T).
    reflexivity. }
  destruct (Nat.eq_dec (length p1 mod 64) 63) as [D1|D1].
  - (* the tag of section 1 *)
    rewrite E. replace (section1_send _ _ _ _ _ _) with (@UB (mem * ptr * list line)); [reflexivity|].
    unfold section1_send, alloc. fold MM. rewrite enc1 by (exact L1_31 || exact IO).
    destruct (div16 p1) as [Ed Hr].
    assert (Dr : tail_defined oor (length p1 mod 16)).
    { destruct T as [T|T]; [left; rewrite mod16_4; exact T|right; exact T]. }
    destruct (cfb_run_defined oor (Table false) feed_out _ (cfb_st v ks) _ p1 Hr Ed Dr) as (s & c & Rc).
    pose proof (cfb_run_length _ _ _ _ _ _ _ _ _ Hr Ed Rc) as Lc.
    destruct (cfb_inv_run oor (Table false) feed_out _ _ _ _ _ _ Hr Ed B1 (or_introl eq_refl) Inv Rc) as [_ Bc].
    rewrite Rc. cbn [bind]. rewrite <- Lc. rewrite (gen_ub _ ka _ _ c); rewrite ?Lc; auto using L1_31.
    apply has_bytes_write_same; [rewrite Lc; apply (writable_le _ _ _ _ W); lia|exact Bc].
  - destruct X as [X|[X|[X|[-> X]]]]; try contradiction.
    2:{ exfalso. destruct T as [T|T]; [lia|]. destruct (T 0%N 0%Z) as [y Y]. discriminate. }
    destruct (main_section1 NE D1 T) as (c & Lc & Cc & E'). rewrite E'. cbv zeta.
    set (tl := [map Some (sealed ka c); map Some p2]).
    assert (Hp2 : has_bytes (M0 ++ tl) (Ptr 5 0) p2).
    { change (M0 ++ tl) with ((M0 ++ [map Some (sealed ka c)]) ++ [map Some p2]).
      apply (has_bytes_last (M0 ++ [map Some (sealed ka c)])). exact B2. }
    rewrite (send2_ub (M0 ++ tl) ka ke v p2 (Ptr 1 0) (Ptr 2 0) (Ptr 5 0) Ba (M0_ke tl) Lk (M0_v tl) Lv Hp2 L2).
    + reflexivity.
    + apply mod_47. exact X.
Qed.
End Main.

(** C90, where the shift instruction has some result: exactly which plaintexts
    the program handles, and what it then prints. *)
Theorem C90_ae_example_recovers : forall oor ka ke v p1 p2,
  bytes_ok ka -> length ka <= 64 -> bytes_ok ke -> length ke = 16 -> bytes_ok v -> length v = 16 ->
  bytes_ok p1 -> (Z.of_nat (length p1) + 16 < 2^30)%Z -> bytes_ok p2 -> (Z.of_nat (length p2) + 32 < 2^30)%Z ->
  (forall w n, exists x, oor w n = Ret x) ->
  (p1 <> [] -> length p1 mod 64 <> 63 -> length p2 mod 64 <> 47 ->
   exists c, length c = length p1 /\ (length p1 mod 4 <= 1 -> c = packet_ct (aes128 ke) v p1) /\
   ae_main oor ka ke v p1 p2 = Ret
     ([Plaintext p1; Msg (hex_text (sealed ka c)); ValidTag; Recovered p1;
       Plaintext p2; Msg (hex_text (sealed ka (hc_body ke v p2))); ValidTag; Recovered p2], 0%Z)) /\
  (p1 = [] \/ length p1 mod 64 = 63 \/ length p2 mod 64 = 47 -> ae_main oor ka ke v p1 p2 = UB).
Proof.
  intros oor ka ke v p1 p2 Ba La Bk Lk Bv Lv B1 L1 B2 L2 T. split.
  - intros N D1 D2. apply main_ok; auto. right. exact T.
  - intros X. apply main_ub; auto.
    + destruct X as [X|[X|X]]; auto.
    + left. right. exact T.
Qed.
Print Assumptions C90_ae_example_recovers.

(** In standard C++ the lengths 2 and 3 modulo 4 are undefined as well. *)
Theorem C91_ae_example_standard_exact : forall ka ke v p1 p2,
  bytes_ok ka -> length ka <= 64 -> bytes_ok ke -> length ke = 16 -> bytes_ok v -> length v = 16 ->
  bytes_ok p1 -> (Z.of_nat (length p1) + 16 < 2^30)%Z -> bytes_ok p2 -> (Z.of_nat (length p2) + 32 < 2^30)%Z ->
  (ae_main ub_shift ka ke v p1 p2 = UB <->
   p1 = [] \/ length p1 mod 64 = 63 \/ length p2 mod 64 = 47 \/ 2 <= length p1 mod 4).
Proof.
  intros ka ke v p1 p2 Ba La Bk Lk Bv Lv B1 L1 B2 L2. split.
  - intros U. destruct p1 as [|x p] eqn:Ep; [left; reflexivity|]. right.
    destruct (Nat.eq_dec (length (x :: p) mod 64) 63) as [|D1]; [left; assumption|right].
    destruct (Nat.eq_dec (length p2 mod 64) 47) as [|D2]; [left; assumption|right].
    destruct (Nat.le_gt_cases 2 (length (x :: p) mod 4)) as [|T]; [assumption|exfalso].
    destruct (main_ok ub_shift ka ke v (x :: p) p2 Ba La Bk Lk Bv Lv B1 L1 B2 L2) as (c & _ & _ & E); auto.
    + discriminate.
    + left. lia.
    + rewrite E in U. discriminate U.
  - intros X. apply main_ub; auto. destruct X as [X|[X|[X|X]]]; auto.
Qed.
Print Assumptions C91_ae_example_standard_exact.

(** The plaintexts of main(), lines 53 and 104. *)
Definition main_p1 : list N :=
  text "Hello world! This is an example of AE with a self-synchronizing cipher."%string.
Definition main_p2 : list N :=
  text "Hello world! This is an example of AE with a synchronous cipher."%string.

(** The program as shipped makes an out-of-range shift. *)
Theorem C91_ae_example_defined_refuted : exists ka ke v,
  ka = repeat 0%N 64 /\ ke = repeat 0%N 16 /\ v = repeat 0%N 16 /\
  ae_main ub_shift ka ke v main_p1 main_p2 = UB.
Proof.
  exists (repeat 0%N 64), (repeat 0%N 16), (repeat 0%N 16). repeat (split; [reflexivity|]).
  assert (B : bytes_ok main_p1 /\ bytes_ok main_p2) by (split; repeat constructor).
  refine (proj2 (C91_ae_example_standard_exact (repeat 0%N 64) (repeat 0%N 16) (repeat 0%N 16) main_p1 main_p2 _ _ _ eq_refl _ eq_refl (proj1 B) _ (proj2 B) _) _).
  - repeat constructor.
  - cbn. lia.
  - repeat constructor.
  - repeat constructor.
  - cbn. lia.
  - cbn. lia.
  - right. right. right. cbn. lia.
Qed.
Print Assumptions C91_ae_example_defined_refuted.
(** Plaintexts of each kind: undefined for a second one of 47 bytes, defined for
    5 and 8 bytes. *)
Example C91_instance :
  bytes_ok (repeat 65%N 5) /\ bytes_ok (repeat 66%N 8) /\ bytes_ok (repeat 66%N 47) /\
  (Z.of_nat (length (repeat 65%N 5)) + 16 < 2^30 /\ Z.of_nat (length (repeat 66%N 47)) + 32 < 2^30)%Z /\
  5 mod 64 <> 63 /\ 8 mod 64 <> 47 /\ ~ 2 <= 5 mod 4 /\ 47 mod 64 = 47.
Proof.
  split; [repeat constructor|]. split; [repeat constructor|]. split; [repeat constructor|]. split; [split; reflexivity|].
  split; [discriminate|]. split; [discriminate|]. split; [cbn; lia|reflexivity].
Qed.

Theorem C90_ae_example_every_plaintext_refuted : forall oor, (forall w n, exists x, oor w n = Ret x) ->
  exists p1 p2, length p1 = 63 /\ ae_main oor (repeat 0%N 64) (repeat 0%N 16) (repeat 0%N 16) p1 p2 = UB.
Proof.
  intros oor T. exists (repeat 97%N 63), main_p2. split; [reflexivity|].
  assert (B : bytes_ok (repeat 97%N 63) /\ bytes_ok main_p2) by (split; repeat constructor).
  refine (proj2 (C90_ae_example_recovers oor (repeat 0%N 64) (repeat 0%N 16) (repeat 0%N 16) (repeat 97%N 63) main_p2 _ _ _ eq_refl _ eq_refl (proj1 B) _ (proj2 B) _ T) _).
  - repeat constructor.
  - cbn. lia.
  - repeat constructor.
  - repeat constructor.
  - cbn. lia.
  - cbn. lia.
  - right. left. reflexivity.
Qed.
Print Assumptions C90_ae_example_every_plaintext_refuted.

(** The program's own plaintexts are among those handled. *)
Example C90_instance : bytes_ok main_p1 /\ bytes_ok main_p2 /\ main_p1 <> [] /\
  length main_p1 mod 64 <> 63 /\ length main_p2 mod 64 <> 47 /\ (forall w n, exists x, (fun (_ : N) (_ : Z) => Ret 0%N) w n = Ret x).
Proof.
  split; [repeat constructor|]. split; [repeat constructor|]. split; [discriminate|].
  split; [cbn; lia|]. split; [cbn; lia|]. intros w n. exists 0%N. reflexivity.
Qed.
