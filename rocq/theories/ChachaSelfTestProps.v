(** Property C113: the three programs that test ChaCha. *)
From Coq Require Import String.
From Coq Require Import Arith NArith ZArith List Bool Lia.
From Verif Require Import Res Words Mem MemSpec ListLemmas MemLemmas SpecWords WordsLemmas Ints Finite IoProofs XorProofs Concrete
  HexSpec HexModel HexProofs HmacProofs AeModel AeProofs DemoModel DemoProofs DemoProps SelfTestModel.
From Verif Require ChachaSpec ChachaModel ChachaProofs ChachaProps AesCfbProofs.
Import ListNotations.
Local Open Scope nat_scope.

(** ** The cipher: the encryption of the text in two parts of the hexadecimal form *)
Theorem C113_chacha_cipher_test : forall nr k n msg,
  demo_text msg -> bytes_ok k -> length k = 32 -> bytes_ok n -> length n = 12 ->
  chacha_cipher_test nr (hex_text k) (hex_text n) msg =
  Ret (if length msg <? 64 then None else
       let c := ChachaSpec.chacha_encrypt nr k n msg in
       Some [Said "Ciphertext part 1: " (hex_text (firstn 64 c)); Said "Ciphertext part 2: " (hex_text (skipn 64 c))]).
Proof.
  intros nr k n msg (B & P & L) Bk Lk Bn Ln. change (2^29)%Z with 536870912%Z in L. unfold chacha_cipher_test.
  rewrite from_hex_ok by (auto; rewrite ?Lk; reflexivity). blocks.
  rewrite from_hex_ok by (auto; rewrite ?Ln; reflexivity). blocks.
  rewrite (ChachaProofs.initialize_spec k n) by (auto; here). blocks.
  rewrite new_bytes_ok by exact B. blocks.
  set (c := ChachaSpec.chacha_encrypt nr k n msg).
  assert (Lc : length c = length msg) by (apply ChachaProofs.chacha_encrypt_length; auto).
  assert (Bc : bytes_ok c) by (apply ChachaProofs.chacha_encrypt_ok; exact B).
  match goal with |- bind (ChachaModel.chacha_process_packet _ _ ?m ?o ?i _) _ = _ =>
    destruct (ChachaProofs.process_ok k n Bk Bn Lk Ln nr 1 m o i msg) as (c1 & E1); [here|room|right; apart|lia|] end.
  rewrite E1. fold c. cbn [bind]. store Lc. blocks.
  rewrite <- Lc. rewrite hex_c_string_ok by (try here; rewrite Lc; change (2^30)%Z with 1073741824%Z; lia). blocks.
  rewrite hex_text_length. clearbody c.
  destruct (Nat.ltb_spec (2 * length c) 128); destruct (Nat.ltb_spec (length c) 64); try lia; [reflexivity|].
  cbv zeta. do 2 f_equal.
  assert (X : hex_text c = hex_text (firstn 64 c) ++ hex_text (skipn 64 c)) by (rewrite <- hex_text_app, firstn_skipn; reflexivity).
  assert (Lf : length (hex_text (firstn 64 c)) = 128) by (rewrite hex_text_length, firstn_length; lia).
  rewrite X. rewrite firstn_app, skipn_app, Lf. change (128 - 128) with 0. rewrite firstn_O, skipn_O, app_nil_r.
  rewrite firstn_all2, skipn_all2 by lia. reflexivity.
Qed.
Print Assumptions C113_chacha_cipher_test.

(** ** Words written most significant byte first *)
Definition be_text (ws : list N) : list N := hex_text (flat_map (be_str 4) ws).

Lemma swap32_lt w : (ChachaModel.swap32 w < 2^32)%N.
Proof.
  unfold ChachaModel.swap32. repeat apply lor_lt; (apply land_lt_r; reflexivity).
Qed.
Lemma be_le ws : words_ok ws -> flat_map (be_str 4) ws = le_bytes (map ChachaModel.swap32 ws).
Proof.
  intros W. induction W as [|w ws Hw W IH]; [reflexivity|]. unfold le_bytes in *. cbn [flat_map map]. rewrite IH.
  rewrite ChachaProofs.swap32_rev by exact Hw. reflexivity.
Qed.
Lemma be_swapped ws : words_ok ws -> flat_map (fun w => rev (le_str 4 w)) (map ChachaModel.swap32 ws) = le_bytes ws.
Proof.
  intros W. induction W as [|w ws Hw W IH]; [reflexivity|]. unfold le_bytes in *. cbn [flat_map map]. rewrite IH. f_equal.
  rewrite <- bytes_of_le32_str, ChachaProofs.swap32_rev, rev_involutive by exact Hw. symmetry. apply bytes_of_le32_str.
Qed.
Lemma words_swapped ws : words_ok (map ChachaModel.swap32 ws).
Proof. apply Forall_forall. intros x H. apply in_map_iff in H as (w & <- & _). apply swap32_lt. Qed.
Lemma be_length ws : length (flat_map (be_str 4) ws) = 4 * length ws.
Proof. induction ws as [|w ws IH]; [reflexivity|]. cbn [flat_map]. rewrite app_length, IH. unfold be_str. rewrite rev_length, le_str_length. cbn [length]. lia. Qed.
Lemma be_bytes ws : words_ok ws -> bytes_ok (flat_map (be_str 4) ws).
Proof. intros W. rewrite be_le by exact W. apply AesCfbProofs.le_bytes_ok. Qed.
Lemma swap_be m o p ws : words_ok ws -> has_bytes m p (flat_map (be_str 4) ws) ->
  ChachaModel.byte_swap m o p (Z.of_nat (4 * length ws)) = Ret (write_at m p (le_bytes ws)).
Proof.
  intros W H. rewrite be_le in H by exact W. rewrite <- (map_length ChachaModel.swap32 ws).
  rewrite (ChachaProps.C71_byte_swap_exact m o p _ H (words_swapped ws)). rewrite be_swapped by exact W. reflexivity.
Qed.
Lemma words_le_bytes ws : words_ok ws -> map le_num (chunks 4 (le_bytes ws)) = ws.
Proof.
  intros W. induction W as [|w ws Hw W IH]; [reflexivity|]. unfold le_bytes in *. cbn [flat_map].
  rewrite chunks_cons by (try lia; discriminate). cbn [bytes_of_le32 app firstn skipn map]. rewrite IH. f_equal.
  change [byte_of w 0; byte_of w 1; byte_of w 2; byte_of w 3] with (bytes_of_le32 w).
  rewrite bytes_of_le32_str, le_num_str. apply N.mod_small. exact Hw.
Qed.
Lemma grid_add_ok nr ws : words_ok (ChachaSpec.chacha_block_words nr ws) /\
  (length ws = 16 -> length (ChachaSpec.chacha_block_words nr ws) = 16).
Proof.
  unfold ChachaSpec.chacha_block_words. split.
  - apply Forall_forall. intros x H. apply in_map_iff in H as (p & <- & _). apply add_w32_lt.
  - intros L. rewrite map_length, combine_length, ChachaProofs.grid_words_length, L. reflexivity.
Qed.

(** ** The block function: the state's sixteen words and the result's are in
    hexadecimal, most significant byte first; the counter is set to 1. *)
Theorem C113_chacha_block_test : forall nr ws, length ws = 16 -> words_ok ws ->
  chacha_block_test nr (be_text ws) =
  Ret [Said "Output: " (be_text (ChachaSpec.chacha_block_words nr (firstn 12 ws ++ [1%N] ++ skipn 13 ws)))].
Proof.
  intros nr ws L W. unfold chacha_block_test, be_text. rewrite half_hex.
  assert (Lb : length (flat_map (be_str 4) ws) = 4 * length ws) by apply be_length.
  pose proof (be_bytes ws W) as B. pose proof (AesCfbProofs.le_bytes_ok ws) as Bl.
  assert (Ll : length (le_bytes ws) = 4 * length ws) by apply le_bytes_length.
  rewrite from_hex_ok by (auto; rewrite Lb, L; reflexivity). blocks.
  rewrite Lb. rewrite swap_be by (try here; assumption). cbn [bind]. store Ll. blocks.
  rewrite (has_bytes_words _ _ (le_bytes ws) 16) by (try here; lia). rewrite words_le_bytes by exact W. cbn [bind].
  assert (U : upd 12 1%N ws = firstn 12 ws ++ [1%N] ++ skipn 13 ws).
  { clear -L. do 16 (destruct ws as [|? ws]; [discriminate L|]). destruct ws; [reflexivity|discriminate L]. }
  rewrite ChachaProofs.chacha_block_spec; [|exact L|apply Forall_upd; [reflexivity|exact W]]. rewrite U.
  set (ks := ChachaSpec.chacha_block_words nr _).
  assert (K : words_ok ks) by apply grid_add_ok.
  assert (Lk : length ks = 16).
  { apply grid_add_ok. rewrite <- U. rewrite upd_length. exact L. }
  clearbody ks. fold (le_bytes ks). assert (Lk' : length (le_bytes ks) = 64) by (rewrite le_bytes_length; lia).
  rewrite stn_write by (rewrite Lk'; room). cbn [bind]. store Lk'. blocks.
  pose proof (AesCfbProofs.le_bytes_ok ks) as Bk. assert (Lk2 : length (flat_map (be_str 4) ks) = 64) by (rewrite be_length; lia).
  replace 64%Z with (Z.of_nat (4 * length ks)) by (rewrite Lk; reflexivity).
  rewrite ChachaProps.C71_byte_swap_exact by (try here; assumption). cbn [bind].
  change (flat_map (fun w => rev (le_str 4 w)) ks) with (flat_map (be_str 4) ks). pose proof (be_bytes ks K) as Bk2.
  store Lk2. blocks.
  rewrite <- Lk2 at 1. rewrite hex_c_string_ok by (try here; rewrite Lk2; reflexivity). reflexivity.
Qed.
Print Assumptions C113_chacha_block_test.

Lemma quarter_words ws : length ws = 16 -> words_ok ws ->
  ChachaModel.q_round ws 2 7 8 13 =
  (let '(a, b, c, d) := ChachaSpec.quarter (nth 2 ws 0%N) (nth 7 ws 0%N) (nth 8 ws 0%N) (nth 13 ws 0%N) in
   upd 2 a (upd 7 b (upd 8 c (upd 13 d ws)))) /\ words_ok (ChachaModel.q_round ws 2 7 8 13).
Proof.
  intros L W. do 16 (destruct ws as [|? ws]; [discriminate L|]). destruct ws; [|discriminate L].
  unfold words_ok in *. repeat match goal with H : Forall _ (_ :: _) |- _ => inversion H; clear H; subst end.
  cbn [nth]. ChachaProofs.mqstep. split; [reflexivity|]. repeat (constructor; [assumption|]). constructor.
Qed.

(** ** The quarter round: a word and its rotation by 7, least significant byte
    first, and sixteen words of which those at 2, 7, 8 and 13 are mixed. *)
Theorem C113_chacha_quarter_test : forall t w ws,
  (t < 2^32)%N -> (w < 2^32)%N -> length ws = 16 -> words_ok ws ->
  chacha_quarter_test t (hex_text (le_str 4 w)) (be_text ws) =
  Ret (rol_w32 7 t,
    [Said "Rot: " (hex_text (le_str 4 (rol_w32 7 w))); Said "Input: " (be_text ws);
     Said "Output: " (be_text (let '(a, b, c, d) := ChachaSpec.quarter (nth 2 ws 0%N) (nth 7 ws 0%N) (nth 8 ws 0%N) (nth 13 ws 0%N) in
       firstn 2 ws ++ [a] ++ firstn 4 (skipn 3 ws) ++ [b; c] ++ firstn 4 (skipn 9 ws) ++ [d] ++ skipn 14 ws))]).
Proof.
  intros t w ws Ht Hw L W. unfold chacha_quarter_test, be_text. rewrite half_hex.
  assert (Lb : length (flat_map (be_str 4) ws) = 4 * length ws) by apply be_length.
  pose proof (be_bytes ws W) as B. pose proof (AesCfbProofs.le_bytes_ok ws) as Bl.
  assert (Ll : length (le_bytes ws) = 4 * length ws) by apply le_bytes_length.
  rewrite !(ChachaProofs.rotr_rol _ 7) by (assumption || (split; reflexivity)).
  rewrite <- (bytes_of_le32_str w). pose proof (bytes_of_le32_ok w) as Bw.
  rewrite from_hex_ok by (auto; reflexivity). blocks.
  replace (ld32 _ (Ptr 1 0)) with (Ret w).
  2: { symmetry. transitivity (Ret (le32_of_bytes (byte_of w 0) (byte_of w 1) (byte_of w 2) (byte_of w 3))).
       - apply (has_bytes_ld32 _ _ _ _ _ _ []). here.
       - rewrite le32_bytes_of by exact Hw. reflexivity. }
  cbn [bind]. rewrite !(ChachaProofs.rotr_rol _ 7) by (assumption || (split; reflexivity)).
  rewrite <- (bytes_of_le32_str (rol_w32 7 w)). set (rw := rol_w32 7 w). pose proof (bytes_of_le32_ok rw) as Br.
  rewrite new_bytes_ok by exact Br. blocks.
  change 4 with (length (bytes_of_le32 rw)) at 1. rewrite hex_c_string_ok by (try here; reflexivity). cbn [bind].
  rewrite from_hex_ok by (auto; rewrite Lb, L; reflexivity). blocks.
  rewrite Lb. rewrite swap_be by (try here; assumption). cbn [bind]. store Ll. blocks.
  unfold ChachaModel.test_q.
  rewrite (has_bytes_words _ _ (le_bytes ws) 16) by (try here; lia). rewrite words_le_bytes by exact W. cbn [bind].
  destruct (quarter_words ws L W) as [Q Qk].
  match goal with |- context [ChachaSpec.quarter ?a ?b ?c ?d] => destruct (ChachaSpec.quarter a b c d) as [[[qa qb] qc] qd] end.
  assert (U : upd 2 qa (upd 7 qb (upd 8 qc (upd 13 qd ws))) =
    firstn 2 ws ++ [qa] ++ firstn 4 (skipn 3 ws) ++ [qb; qc] ++ firstn 4 (skipn 9 ws) ++ [qd] ++ skipn 14 ws).
  { clear -L. do 16 (destruct ws as [|? ws]; [discriminate L|]). destruct ws; [reflexivity|discriminate L]. }
  cbn [app] in U. rewrite Q in Qk. rewrite Q. rewrite <- U. clear Q. assert (Lk : length (upd 2 qa (upd 7 qb (upd 8 qc (upd 13 qd ws)))) = 16) by (rewrite !upd_length; exact L).
  clear U. revert Qk Lk. generalize (upd 2 qa (upd 7 qb (upd 8 qc (upd 13 qd ws)))). intros ks K Lk.
  fold (le_bytes ks). assert (Lk' : length (le_bytes ks) = 64) by (rewrite le_bytes_length; lia).
  rewrite stn_write by (rewrite Lk'; room). cbn [bind]. store Lk'. blocks.
  pose proof (AesCfbProofs.le_bytes_ok ks) as Bk. assert (Lk2 : length (flat_map (be_str 4) ks) = 64) by (rewrite be_length; lia).
  replace (length ws) with (length ks) by congruence.
  rewrite ChachaProps.C71_byte_swap_exact by (try here; assumption). cbn [bind].
  change (flat_map (fun w => rev (le_str 4 w)) ks) with (flat_map (be_str 4) ks). pose proof (be_bytes ks K) as Bk2.
  store Lk2. blocks.
  replace (4 * length ks) with (length (flat_map (be_str 4) ks)) by lia.
  rewrite hex_c_string_ok by (try here; rewrite Lk2; reflexivity). reflexivity.
Qed.
Print Assumptions C113_chacha_quarter_test.

(** The programs as they are: RFC 7539 sections 2.1.1 (the rotation), 2.2.1,
    2.3.2 and 2.4.2. *)
Definition lecture : list N := HexSpec.text "Ladies and Gentlemen of the class of '99: If I could offer you only one tip for the future, sunscreen would be it.".
Definition rfc_state : list N :=
  [0x61707865; 0x3320646e; 0x79622d32; 0x6b206574; 0x03020100; 0x07060504; 0x0b0a0908; 0x0f0e0d0c;
   0x13121110; 0x17161514; 0x1b1a1918; 0x1f1e1d1c; 1; 0x09000000; 0x4a000000; 0]%N.
Definition rfc_mixed : list N :=
  [0x879531e0; 0xc5ecf37d; 0x516461b1; 0xc9a62f8a; 0x44c20ef3; 0x3390af7f; 0xd9fc690b; 0x2a5f714c;
   0x53372767; 0xb00a5631; 0x974c541a; 0x359e9963; 0x5c971061; 0x3d631689; 0x2098d9d6; 0x91dbd320]%N.
Lemma words_ok_forallb ws : forallb (fun w => N.ltb w (2^32)) ws = true -> words_ok ws.
Proof. intros H. apply Forall_forall. intros x Hx. apply N.ltb_lt. exact (proj1 (forallb_forall _ _) H x Hx). Qed.
Example C113_instance :
  be_text rfc_state = HexSpec.text "617078653320646E79622D326B20657403020100070605040B0A09080F0E0D0C13121110171615141B1A19181F1E1D1C00000001090000004A00000000000000" /\
  chacha_block_test 20 (be_text rfc_state) =
    Ret [Said "Output: " (HexSpec.text "E4E7F11015593BD11FDD0F50C47120A3C7F4D1C70368C0339AAA22044E6CD4C3466482D209AA9F0705D7C214A2028BD9D19C12B5B94E16DEE883D0CB4E3C50A2")] /\
  chacha_quarter_test 0x7998bfda (HexSpec.text "DABF9879") (be_text rfc_mixed) =
    Ret (0xcc5fed3c%N, [Said "Rot: " (HexSpec.text "3CED5FCC"); Said "Input: " (be_text rfc_mixed);
      Said "Output: " (HexSpec.text "879531E0C5ECF37DBDB886DCC9A62F8A44C20EF33390AF7FD9FC690BCFACAFD2E46BEA80B00A5631974C541A359E99635C971061CCC07C792098D9D691DBD320")]) /\
  (exists p1 p2, chacha_cipher_test 20 (hex_text (map N.of_nat (seq 0 32))) (hex_text [0; 0; 0; 0; 0; 0; 0; 0x4a; 0; 0; 0; 0]%N) lecture =
    Ret (Some [Said "Ciphertext part 1: " p1; Said "Ciphertext part 2: " p2]) /\
    p1 = HexSpec.text "6E2E359A2568F98041BA0728DD0D6981E97E7AEC1D4360C20A27AFCCFD9FAE0BF91B65C5524733AB8F593DABCD62B3571639D624E65152AB8F530C359F0861D8" /\
    p2 = HexSpec.text "07CA0DBF500D6A6156A38E088A22B65E52BC514D16CCF806818CE91AB77937365AF90BBF74A35BE6B40B8EEDF2785E42874D") /\
  chacha_cipher_test 20 (hex_text (map N.of_nat (seq 0 32))) (hex_text [0; 0; 0; 0; 0; 0; 0; 0x4a; 0; 0; 0; 0]%N) (firstn 63 lecture) = Ret None.
Proof.
  assert (D : forall n, 0 < n -> n <= 114 -> demo_text (firstn n lecture)).
  { intros n H1 H2. split; [apply Forall_firstn, SosemanukProps.bytes_ok_forallb; vm_compute; reflexivity|].
    rewrite firstn_length. change (length lecture) with 114. split; [lia|]. change (2^29)%Z with 536870912%Z. lia. }
  assert (Dl : demo_text lecture) by (apply (D 114); lia).
  assert (Bk : bytes_ok (map N.of_nat (seq 0 32))) by (apply SosemanukProps.bytes_ok_forallb; vm_compute; reflexivity).
  assert (Bn : bytes_ok [0; 0; 0; 0; 0; 0; 0; 0x4a; 0; 0; 0; 0]%N) by (apply SosemanukProps.bytes_ok_forallb; vm_compute; reflexivity).
  split; [vm_compute; reflexivity|]. split; [|split; [|split]].
  - rewrite C113_chacha_block_test by (try reflexivity; apply words_ok_forallb; vm_compute; reflexivity). vm_compute. reflexivity.
  - change (HexSpec.text "DABF9879") with (hex_text (le_str 4 0x7998bfda)).
    rewrite C113_chacha_quarter_test by (try reflexivity; apply words_ok_forallb; vm_compute; reflexivity). vm_compute. reflexivity.
  - rewrite C113_chacha_cipher_test by (assumption || reflexivity). cbv zeta.
    change (length lecture <? 64) with false. cbv iota. do 2 eexists. split; [reflexivity|]. split; vm_compute; reflexivity.
  - rewrite C113_chacha_cipher_test by (reflexivity || assumption || (apply D; lia)).
    rewrite firstn_length. change (length lecture) with 114. reflexivity.
Qed.
