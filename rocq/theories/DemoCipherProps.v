(** Properties C105 and C106: the demonstrations of AES in CFB mode and AEGIS. *)
From Coq Require Import String.
From Coq Require Import Arith NArith ZArith List Bool Lia.
From Verif Require Import Res Words Mem MemSpec ListLemmas MemLemmas SpecWords WordsLemmas Ints Finite IoProofs Concrete
  HexSpec HexModel HexProofs AesSpec AesModel AesProofs AesCfbProofs AesCfbLink AesCarrySpec AeModel AeProofs DemoModel DemoProofs DemoProps.
From Verif Require AesProps AesCfbCarryProps AegisSpec AegisModel AegisProps.
Import ListNotations.
Local Open Scope nat_scope.

(** ** C105: AES in CFB mode *)
Theorem C105_aes_cfb_demo : forall oor b k v pt,
  bytes_ok k -> length k = 16 -> bytes_ok v -> length v = 16 -> demo_text pt ->
  length pt mod 4 <= 1 \/ (forall w n, exists x, oor w n = Ret x) ->
  exists c, length c = length pt /\
  (length pt mod 4 <= 1 -> c = packet_ct (AesProps.build_cipher b k) v pt) /\
  aes_cfb_main oor b k v pt =
  Ret [Said "Plaintext: " pt; Said "Ciphertext: " c; Said "Recovered: " pt].
Proof.
  intros oor b k v pt Bk Lk Bv Lv (B & P & L) D. change (2^29)%Z with 536870912%Z in L. unfold aes_cfb_main.
  rewrite new_bytes_ok by exact Bk. blocks. rewrite new_bytes_ok by exact Bv. blocks.
  match goal with |- context [aes_cfb_initialize ?m ?a ?i] =>
    destruct (AesProps.cfb_init_ok m a i k v) as (ks & E & K & S & Ci); [here|exact Lk|here|exact Lv|] end.
  rewrite E. cbn [bind]. rewrite new_bytes_ok by exact B. blocks.
  assert (V : aes_inv (cfb_st v ks)) by (apply cfb_st_inv; [exact Bv|exact K]).
  set (cs := cfb_st v ks) in *.
  destruct (div16 pt) as [Eq Hr].
  assert (Dr : tail_defined oor (length pt mod 16)).
  { destruct D as [Dk|Dk]; [left; rewrite mod16_4; exact Dk|right; exact Dk]. }
  destruct (cfb_run_defined oor b feed_out _ cs _ pt Hr Eq Dr) as (s' & c & R).
  pose proof (cfb_run_length _ _ _ _ _ _ _ _ _ Hr Eq R) as Lc.
  destruct (cfb_inv_run oor b feed_out _ _ _ _ _ _ Hr Eq B (or_introl eq_refl) V R) as [_ Bc].
  pose proof (cfb_invert _ _ _ _ _ _ _ _ Hr Eq R) as R'.
  exists c. split; [exact Lc|]. split.
  { intros W. destruct (AesCfbCarryProps.cfb_run_ct oor b (AesProps.build_cipher b k) v ks pt (Ci b) S K B W) as [x Rb].
    change (cfb_st v ks) with cs in Rb. rewrite Rb in R. apply Ret_pair in R. destruct R as [_ <-]. reflexivity. }
  rewrite int_small by (change (2^31)%Z with 2147483648%Z; lia).
  match goal with |- context [aes_cfb_process_packet _ _ _ _ ?m ?o ?i _] =>
    pose proof (cfb_packet_enc oor b cs m o i pt) as X; unfold cfb_packet in X; rewrite nat_N_Z in X; rewrite X end.
  2:{ split; [here|]. split; [room|right; apart]. }
  rewrite R. cbn [bind]. store Lc. blocks.
  rewrite <- Lc at 1. erewrite has_bytes_ldn by here. blocks. rewrite new_bytes_ok by exact Bc. blocks.
  match goal with |- context [aes_cfb_initialize ?m ?a ?i] =>
    rewrite (init_same m [map Some k; map Some v] a (Ptr 0 0) i (Ptr 1 0) k v) by (auto; here) end.
  rewrite E. blocks.
  match goal with |- context [aes_cfb_process_packet _ _ _ _ ?m ?o ?i _] =>
    pose proof (cfb_packet_dec oor b cs m o i c) as Y; unfold cfb_packet in Y; rewrite nat_N_Z in Y end.
  rewrite Lc in Y. rewrite Y by (here || room || apart). rewrite R'. cbn [bind]. store Lc. blocks.
  erewrite has_bytes_ldn by here. reflexivity.
Qed.
Print Assumptions C105_aes_cfb_demo.

(** In standard C++ the other lengths are undefined. *)
Theorem C105_aes_cfb_demo_undefined : forall b k v pt,
  bytes_ok k -> length k = 16 -> bytes_ok v -> length v = 16 -> demo_text pt ->
  2 <= length pt mod 4 -> aes_cfb_main ub_shift b k v pt = UB.
Proof.
  intros b k v pt Bk Lk Bv Lv (B & P & L) D. change (2^29)%Z with 536870912%Z in L. unfold aes_cfb_main.
  rewrite new_bytes_ok by exact Bk. blocks. rewrite new_bytes_ok by exact Bv. blocks.
  match goal with |- context [aes_cfb_initialize ?m ?a ?i] =>
    destruct (AesProps.cfb_init_ok m a i k v) as (ks & E & _ & _ & _); [here|exact Lk|here|exact Lv|] end.
  rewrite E. cbn [bind]. rewrite new_bytes_ok by exact B. blocks.
  rewrite int_small by (change (2^31)%Z with 2147483648%Z; lia).
  match goal with |- context [aes_cfb_process_packet _ _ _ ?c ?m ?o ?i _] =>
    assert (X : aes_cfb_process_packet ub_shift b ENCRYPT c m o i (Z.of_nat (length pt)) = UB) end.
  { apply AesProps.C36_aes_cfb_undefined_exactly; [here|room|right; apart|exact D]. }
  rewrite X. reflexivity.
Qed.
Print Assumptions C105_aes_cfb_demo_undefined.

(** So for the text of AES/AES_CFB/main.cpp (87 characters). *)
Definition aes_demo_text : list N :=
  HexSpec.text "Hello world! This program demonstrates how the implementation is to be used............".
Theorem C105_aes_cfb_demo_refuted : demo_text aes_demo_text /\
  forall b, aes_cfb_main ub_shift b (repeat 0%N 16) (repeat 0%N 16) aes_demo_text = UB.
Proof.
  assert (D : demo_text aes_demo_text).
  { split; [apply SosemanukProps.bytes_ok_forallb; vm_compute; reflexivity|split; [cbn; lia|reflexivity]]. }
  split; [exact D|]. intros b.
  apply C105_aes_cfb_demo_undefined; auto using bytes_zero; vm_compute; lia.
Qed.
Print Assumptions C105_aes_cfb_demo_refuted.

(** The texts of the programs for the other builds have 1544 characters. *)
Example C105_instance : length (repeat 104%N 1544) mod 4 <= 1 /\ demo_text (repeat 104%N 1544) /\
  2 <= length aes_demo_text mod 4 /\ bytes_ok (repeat 0%N 16).
Proof.
  split; [vm_compute; lia|]. split; [|split; [vm_compute; lia|apply bytes_zero]].
  split; [apply SosemanukProps.bytes_ok_forallb; vm_compute; reflexivity|split; [rewrite repeat_length; lia|vm_compute; reflexivity]].
Qed.

(** ** C106: AEGIS-128 *)
Theorem C106_aegis_demo : forall b cs k v pt,
  bytes_ok k -> length k = 16 -> bytes_ok v -> length v = 16 -> demo_text pt -> 15 <= length pt ->
  aegis_main b cs k v pt =
  Ret ([Said "Successfully Encrypted" []; Said "Successfully Decrypted" [];
        Said "Hex CT: " (hex_text (fst (AegisSpec.aegis128_encrypt k v v pt)) ++ [0%N]);
        Said "Plaintext: " pt; Said "Recovered: " pt], 0%Z).
Proof.
  intros b cs k v pt Bk Lk Bv Lv (B & P & L) L15. change (2^29)%Z with 536870912%Z in L. unfold aegis_main.
  rewrite new_bytes_ok by exact Bk. blocks. rewrite new_bytes_ok by exact Bv. blocks.
  rewrite new_bytes_ok by exact B. blocks. rewrite new_bytes_ok by apply bytes_zero. blocks.
  rewrite new_bytes_ok by apply bytes_zero. blocks.
  match goal with |- context [AegisModel.aegis_load_key ?c ?m ?a] =>
    assert (H : has_bytes m a k) by here;
    destruct (AegisModel.aegis_load_key c m a) as [cs1| |] eqn:E;
    [|unfold AegisModel.aegis_load_key in E; rewrite (AegisProofs.ld_words4 _ _ _ H Lk) in E; discriminate E..];
    pose proof (AegisProps.session_load _ _ _ _ _ H Lk E) as S1 end.
  cbn [bind].
  assert (HI : AesProofs.st16 v) by (split; assumption). assert (HK : AesProofs.st16 k) by (split; assumption).
  destruct (AegisLink.seal_facts true true k v v pt HK HI Bv B) as (Lc & Bc & Bt & Lt). rewrite AegisLink.seal_encrypt in *.
  pose proof (AegisLink.encrypt_open k v v pt HK HI Bv B) as EO.
  assert (Sup : AegisProps.supported (length pt)) by (split; [right; exact L15|change (2^64)%N with 18446744073709551616%N; lia]).
  assert (L16 : 16%N = AegisSpec.len v) by (unfold AegisSpec.len; rewrite Lv; reflexivity).
  match goal with |- bind (AegisModel.aegis_encrypt_packet ?b ?c ?m ?ct ?tag ?p ?ad ?iv _ _) _ = _ =>
    destruct (AegisProps.C42_aegis_encrypt_is_aegis128 b k c m ct tag p ad iv v v pt S1) as (cs2 & E2) end;
    [split; [here|split; [exact Lv|split; [here|rewrite <- L16; vm_compute; discriminate]]]|here|exact Sup|room|room|apart|].
  rewrite <- L16 in E2. change (AegisSpec.len pt) with (N.of_nat (length pt)) in E2.
  pose proof (AegisProps.session_encrypt _ _ _ _ _ _ _ _ _ _ _ _ _ S1 E2) as S2.
  rewrite E2. clear E2. destruct (AegisSpec.aegis128_encrypt k v v pt) as [c t] eqn:EE. cbn [fst snd bind] in *.
  store Lc. blocks. store Lt. blocks.
  rewrite new_bytes_ok by apply bytes_zero. blocks.
  rewrite <- Lc.
  match goal with |- bind (AegisModel.aegis_decrypt_packet ?b ?c1 ?m ?p ?ct ?ad ?iv ?tag _ _) _ = _ =>
    destruct (AegisProps.C42_aegis_decrypt_is_aegis128 b k c1 m p ct ad iv tag v v c t S2) as (cs3 & E3) end;
    [split; [here|split; [exact Lv|split; [here|rewrite <- L16; vm_compute; discriminate]]]|here|rewrite Lc; exact Sup|here|exact Lt|room|right; apart|].
  rewrite <- L16 in E3. change (AegisSpec.len c) with (N.of_nat (length c)) in E3. rewrite E3. unfold AegisSpec.aegis128_decrypt. rewrite EO. cbn [fst snd].
  destruct (list_eq_dec N.eq_dec t t) as [_|N]; [|congruence]. cbn [bind N.eqb].
  store Lc. blocks.
  rewrite hex_encode_writes; [|here|room|left; cbn; lia|rewrite Lc; change (2^30)%Z with 1073741824%Z; lia|lia]. cbn [bind].
  assert (Lh : length (hex_text c ++ [0%N]) = 2 * length c + 1) by (rewrite app_length, hex_text_length; reflexivity).
  store Lh. rewrite <- Lh. erewrite has_bytes_ldn.
  2:{ apply block_has; [reflexivity|]. apply Forall_app. split; [apply hex_text_bytes; exact Bc|repeat constructor]. }
  cbn [bind]. rewrite Lc. erewrite has_bytes_ldn by here. reflexivity.
Qed.
Print Assumptions C106_aegis_demo.

(** Shorter texts are undefined. *)
Theorem C106_aegis_demo_short_undefined : forall b cs k v pt,
  bytes_ok k -> length k = 16 -> bytes_ok v -> length v = 16 -> demo_text pt -> length pt <= 14 ->
  aegis_main b cs k v pt = UB.
Proof.
  intros b cs k v pt Bk Lk Bv Lv (B & P & L) L15. unfold aegis_main.
  rewrite new_bytes_ok by exact Bk. blocks. rewrite new_bytes_ok by exact Bv. blocks.
  rewrite new_bytes_ok by exact B. blocks. rewrite new_bytes_ok by apply bytes_zero. blocks.
  rewrite new_bytes_ok by apply bytes_zero. blocks.
  match goal with |- context [AegisModel.aegis_load_key ?c ?m ?a] =>
    assert (H : has_bytes m a k) by here;
    destruct (AegisModel.aegis_load_key c m a) as [cs1| |] eqn:E;
    [|unfold AegisModel.aegis_load_key in E; rewrite (AegisProofs.ld_words4 _ _ _ H Lk) in E; discriminate E..] end.
  cbn [bind].
  match goal with |- bind (AegisModel.aegis_encrypt_packet ?b ?c ?m ?ct ?tag ?p ?ad ?iv ?al ?n) _ = _ =>
    destruct (AegisProps.C43_aegis_1_to_14_always_undefined b c m ct tag p ad iv al n) as [E2 _] end.
  - lia.
  - intros blk Hb. cbn in Hb. injection Hb as <-. rewrite map_length. change (2^63)%N with 9223372036854775808%N. lia.
  - rewrite E2. reflexivity.
Qed.
Print Assumptions C106_aegis_demo_short_undefined.

(** The property, that any text is recovered, fails for short ones. *)
Theorem C106_aegis_demo_recovers_refuted : exists k v pt,
  bytes_ok k /\ length k = 16 /\ bytes_ok v /\ length v = 16 /\ demo_text pt /\
  forall b cs, aegis_main b cs k v pt = UB.
Proof.
  exists (repeat 0%N 16), (repeat 0%N 16), (HexSpec.text "Hello world!").
  assert (D : demo_text (HexSpec.text "Hello world!")).
  { split; [apply SosemanukProps.bytes_ok_forallb; vm_compute; reflexivity|split; [cbn; lia|reflexivity]]. }
  split; [apply bytes_zero|]. split; [reflexivity|]. split; [apply bytes_zero|]. split; [reflexivity|]. split; [exact D|].
  intros b cs. apply C106_aegis_demo_short_undefined; auto using bytes_zero; cbn; lia.
Qed.
Print Assumptions C106_aegis_demo_recovers_refuted.

Definition aegis_demo_text : list N := HexSpec.text "Hello world! This is the sample program for AEGIS".
Example C106_instance : demo_text aegis_demo_text /\ 15 <= length aegis_demo_text /\
  bytes_ok (0x10 :: 0x01 :: repeat 0 14)%N /\ bytes_ok (0x10 :: 0 :: 0x02 :: repeat 0 13)%N.
Proof.
  split; [split; [apply SosemanukProps.bytes_ok_forallb; vm_compute; reflexivity|split; [cbn; lia|reflexivity]]|].
  split; [cbn; lia|]. split; apply SosemanukProps.bytes_ok_forallb; reflexivity.
Qed.
