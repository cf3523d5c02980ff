(** Properties C107 and C108: the demonstrations of MD5, Serpent and DES. *)
From Coq Require Import String.
From Coq Require Import Arith NArith ZArith List Bool Lia.
From Verif Require Import Res Words Mem MemSpec ListLemmas MemLemmas SpecWords WordsLemmas Ints Finite IoProofs XorProofs Concrete
  HexSpec HexModel HexProofs AeModel AeProofs DemoModel DemoProofs DemoProps.
From Verif Require Md5Spec Md5Model Md5Link Md5Props MerkleProps SerpentSpec SerpentModel SerpentProofs SerpentProps SosemanukProofs.
From Verif Require Import DesSpec DesModel DesProofs DesLink DesProps.
Import ListNotations.
Local Open Scope nat_scope.

(** ** C107: MD5 and Serpent *)
Theorem C107_md5_demo : forall c msg, Md5Props.context c -> bytes_ok msg -> (N.of_nat (length msg) < 2^32)%N ->
  md5_main c msg = Ret [Said "Digest: " (hex_text (Md5Spec.md5 msg))].
Proof.
  intros c msg C B L. unfold md5_main. rewrite new_bytes_ok by exact B. blocks.
  rewrite u32_id by exact L.
  rewrite Md5Props.C55_md5_packet_is_rfc1321; [|exact C|here|room|exact L].
  pose proof (Md5Link.md5_length msg) as Ld. pose proof (MerkleProps.md5_bytes msg) as Bd.
  set (d := Md5Spec.md5 msg) in *. clearbody d. cbn [bind]. store Ld. cbn [upd].
  rewrite <- Ld. rewrite hex_c_string_ok by (try here; rewrite Ld; reflexivity). reflexivity.
Qed.
Print Assumptions C107_md5_demo.

Theorem C107_serpent_demo : forall scratch k p,
  bytes_ok k -> length k = 32 -> bytes_ok p -> length p = 16 ->
  serpent_main scratch (hex_text k) (hex_text p) =
  Ret [Said "Ciphertext: " (hex_text (flat_map (le_str 4)
         (concat (SerpentSpec.serpent24 (SerpentSpec.subkey_list k) (SerpentSpec.block_words p)))))].
Proof.
  intros scratch k p Bk Lk Bp Lp. unfold serpent_main.
  rewrite from_hex_ok by (auto; rewrite ?Lk; reflexivity). blocks.
  rewrite from_hex_ok by (auto; rewrite ?Lp; reflexivity). blocks.
  match goal with |- context [SerpentModel.serpent_key_schedule ?s ?m ?a _] =>
    destruct (SerpentProps.C74_serpent_is_serpent24 s s m a k (m ++ [repeat None 48]) (Ptr (length m) 0) (Ptr 3 0) p)
      as (RK & E1 & _ & E2); [here|exact Lk|here|exact Lp|room|] end.
  rewrite E1. blocks. cbn [app length] in E2. rewrite E2. cbn [bind].
  set (o := flat_map _ _).
  assert (Lo : length o = 48).
  { unfold o. rewrite <- le_bytes_spec, le_bytes_length.
    destruct (SosemanukProofs.serpent24_words (SerpentSpec.subkey_list k) (SerpentSpec.block_words p))
      as (a0 & a1 & a2 & a3 & b0 & b1 & b2 & b3 & c0 & c1 & c2 & c3 & A & _).
    - apply SerpentProofs.subkey_list_ok.
    - apply SerpentProofs.subkey_list_length.
    - apply SerpentProps.block_words_is4; assumption.
    - rewrite A. reflexivity. }
  assert (Bo : bytes_ok o) by (unfold o; rewrite <- le_bytes_spec; apply AesCfbProofs.le_bytes_ok).
  clearbody o. store Lo. blocks. rewrite <- Lo. rewrite hex_string_ok by (try here; rewrite Lo; reflexivity). reflexivity.
Qed.
Print Assumptions C107_serpent_demo.

Definition md5_demo_text : list N := HexSpec.text "message digest".
Example C107_instance :
  Md5Props.context (Md5Model.Ctx [7; 7; 7; 7]%N 7%N 7%N (fresh 64)) /\ bytes_ok md5_demo_text /\
  hex_text (Md5Spec.md5 md5_demo_text) = HexSpec.text "F96B697D7CB7938D525A2F31AAF161D0" /\
  bytes_ok (repeat 1%N 32) /\ hex_text (0x11 :: repeat 1 15)%N = HexSpec.text "11010101010101010101010101010101".
Proof.
  split; [split; reflexivity|]. split; [apply SosemanukProps.bytes_ok_forallb; reflexivity|].
  split; [vm_compute; reflexivity|]. split; [apply SosemanukProps.bytes_ok_forallb; reflexivity|reflexivity].
Qed.

(** ** C108: DES *)
(** The ciphertext of the FIPS 46-3 block cipher in ECB mode. *)
Definition fips_des (key block : list N) : list N := bits_bytes (des_encrypt (bytes_bits key) (bytes_bits block)).
Definition fips_ecb (key msg : list N) : list N := flat_map (fips_des key) (chunks 8 msg).
(** In counter mode, with the 64-bit big-endian counter starting at 0. *)
Definition fips_ctr (key msg : list N) : list N :=
  xor_bytes msg (flat_map (fun i => fips_des key (rev (le_str 8 (N.of_nat i)))) (seq 0 (length msg))).

Definition whole_text (l : list N) : Prop := demo_text l /\ length l mod 8 = 0.

(** What the programs print. *)
Theorem C108_des_demo : forall key msg, bytes_ok key -> length key = 8 -> whole_text msg ->
  des_main (hex_text key) msg =
  Ret [Said "Hex CT: " (hex_text (flat_map (one_subkey_des (first_subkey key)) (chunks 8 msg)))].
Proof.
  intros key msg Bk Lk ((B & P & L) & M). change (2^29)%Z with 536870912%Z in L. unfold des_main.
  rewrite from_hex_ok by (auto; rewrite ?Lk; reflexivity). blocks.
  match goal with |- context [des_key_schedule_encrypt ?m ?a] =>
    destruct (enc_schedule m a key) as (ks & E & S1); [here|exact Lk|] end.
  rewrite E. cbn [bind]. rewrite new_bytes_ok by exact B. blocks.
  assert (X : exists n, length msg = 8 * n) by (exists (length msg / 8); apply Nat.div_exact; [discriminate|exact M]).
  destruct X as (n & Ln). pose proof (ecb_data_length (sub1 ks) n msg Ln) as Lo. pose proof (ecb_data_ok (sub1 ks) n msg Ln) as Bo.
  assert (Sz : (N.of_nat (8 * n) < 2^64)%N) by (change (2^64)%N with 18446744073709551616%N; lia).
  fold (ecb_data (first_subkey key) msg). rewrite <- S1. set (o := ecb_data (sub1 ks) msg) in *. rewrite Ln.
  rewrite (des_ecb_packet_ok ks _ _ _ msg n Ln Sz).
  2:{ split; [here|]. split; [room|right; apart]. }
  fold o. clearbody o. cbn [bind]. store Lo. blocks. rewrite <- Lo.
  rewrite hex_c_string_ok by (try here; change (2^30)%Z with 1073741824%Z; lia). reflexivity.
Qed.
Print Assumptions C108_des_demo.

Theorem C108_des_ctr_demo : forall key msg nonce, bytes_ok key -> length key = 8 -> whole_text msg ->
  bytes_ok nonce -> length nonce = 12 ->
  des_ctr_main (hex_text key) msg nonce =
  Ret [Said "Hex CT: " (hex_text (flat_map (fun d => xor_bytes d (one_subkey_des (first_subkey key) (firstn 8 nonce))) (chunks 8 msg)))].
Proof.
  intros key msg nonce Bk Lk ((B & P & L) & M) Bn Lnn. change (2^29)%Z with 536870912%Z in L. unfold des_ctr_main.
  rewrite from_hex_ok by (auto; rewrite ?Lk; reflexivity). blocks.
  match goal with |- context [des_key_schedule_encrypt ?m ?a] =>
    destruct (enc_schedule m a key) as (ks & E & S1); [here|exact Lk|] end.
  rewrite E. cbn [bind]. rewrite new_bytes_ok by exact B. blocks. rewrite new_bytes_ok by exact Bn. blocks.
  assert (X : exists n, length msg = 8 * n) by (exists (length msg / 8); apply Nat.div_exact; [discriminate|exact M]).
  destruct X as (n & Ln).
  assert (Sz : (N.of_nat (8 * n) < 2^64)%N) by (change (2^64)%N with 18446744073709551616%N; lia).
  rewrite <- S1. set (K := one_subkey_des (sub1 ks) (firstn 8 nonce)).
  assert (LK : length K = 8) by apply one_subkey_length. assert (BK : bytes_ok K) by apply one_subkey_ok.
  fold (ctr_data K msg).
  pose proof (ctr_data_length K n LK msg Ln) as Lo. pose proof (ctr_data_ok K n BK LK msg Ln B) as Bo.
  set (o := ctr_data K msg) in *. rewrite Ln.
  rewrite (des_ctr_packet_ok ks _ _ _ _ nonce msg n); [|here|exact Lnn|exact Ln|exact Sz|].
  2:{ split; [here|]. split; [room|right; apart]. }
  fold K. fold o. clearbody o. cbn [bind]. store Lo. blocks. rewrite <- Lo.
  rewrite hex_c_string_ok by (try here; change (2^30)%Z with 1073741824%Z; lia). reflexivity.
Qed.
Print Assumptions C108_des_ctr_demo.

(** This is not DES, as the shipped key and texts show. *)
Definition starfall : list N := HexSpec.text "STARFALLSTARFALL".
Theorem C108_des_demo_refuted : exists key msg, bytes_ok key /\ length key = 8 /\ whole_text msg /\
  des_main (hex_text key) msg <> Ret [Said "Hex CT: " (hex_text (fips_ecb key msg))].
Proof.
  exists (repeat 0%N 8), starfall.
  assert (W : whole_text starfall).
  { split; [|reflexivity]. split; [apply SosemanukProps.bytes_ok_forallb; reflexivity|split; [cbn; lia|reflexivity]]. }
  split; [apply bytes_zero|]. split; [reflexivity|]. split; [exact W|].
  rewrite C108_des_demo by auto using bytes_zero.
  assert (V : list_N_eqb (hex_text (flat_map (one_subkey_des (first_subkey (repeat 0%N 8))) (chunks 8 starfall)))
    (hex_text (fips_ecb (repeat 0%N 8) starfall)) = false) by (vm_compute; reflexivity).
  revert V. generalize (hex_text (flat_map (one_subkey_des (first_subkey (repeat 0%N 8))) (chunks 8 starfall)))
    (hex_text (fips_ecb (repeat 0%N 8) starfall)).
  intros a b V H. apply Ret_inj in H. injection H as ->. rewrite list_N_eqb_refl in V. discriminate.
Qed.
Print Assumptions C108_des_demo_refuted.

Theorem C108_des_ctr_demo_refuted : exists key msg, bytes_ok key /\ length key = 8 /\ whole_text msg /\
  des_ctr_main (hex_text key) msg (repeat 0%N 12) <> Ret [Said "Hex CT: " (hex_text (fips_ctr key msg))].
Proof.
  exists (repeat 0%N 8), (starfall ++ starfall).
  assert (W : whole_text (starfall ++ starfall)).
  { split; [|reflexivity]. split; [apply SosemanukProps.bytes_ok_forallb; reflexivity|split; [cbn; lia|reflexivity]]. }
  split; [apply bytes_zero|]. split; [reflexivity|]. split; [exact W|].
  rewrite C108_des_ctr_demo by auto using bytes_zero.
  set (a := hex_text (flat_map _ _)). set (b := hex_text (fips_ctr _ _)).
  assert (V : list_N_eqb a b = false) by (vm_compute; reflexivity).
  revert V. generalize a b. clear.
  intros a b V H. apply Ret_inj in H. injection H as ->. rewrite list_N_eqb_refl in V. discriminate.
Qed.
Print Assumptions C108_des_ctr_demo_refuted.
(** The digits of the two ciphertexts. *)
Example C108_instance : whole_text starfall /\
  hex_text (flat_map (one_subkey_des (first_subkey (repeat 0%N 8))) (chunks 8 starfall)) <> hex_text (fips_ecb (repeat 0%N 8) starfall) /\
  fips_des (repeat 0%N 8) (repeat 0%N 8) = [0x8C;0xA6;0x4D;0xE9;0xC1;0xB1;0x23;0xA7]%N.
Proof.
  split.
  { split; [|reflexivity]. split; [apply SosemanukProps.bytes_ok_forallb; reflexivity|split; [cbn; lia|reflexivity]]. }
  split; vm_compute; [discriminate|reflexivity].
Qed.
