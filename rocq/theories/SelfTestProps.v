(** Property C111: the program that checks AES in counter mode against published
    vectors. *)
From Coq Require Import String.
From Coq Require Import Arith NArith ZArith List Bool Lia.
From Verif Require Import Res Words Mem MemSpec ListLemmas MemLemmas SpecWords WordsLemmas Ints Finite IoProofs Concrete
  HexSpec HexModel HexProofs HmacProofs AeModel AeProofs DemoModel DemoProofs DemoProps SelfTestModel.
From Verif Require AesSpec AesModel AesProofs AesCtrProofs AesCtrLink AesCfbProofs AesCfbLink AesProps AegisSpec AegisModel AegisProofs AegisProps AegisLink
  ChachaSpec ChachaModel ChachaProofs ChachaProps.
Import ListNotations.
Local Open Scope nat_scope.

Lemma hex_nul_string_ok m p l : has_bytes m p l -> (Z.of_nat (length l) < 2^30)%Z ->
  hex_nul_string m p (length l) = Ret (hex_text l ++ [0%N]).
Proof.
  intros H L. unfold hex_nul_string, alloc.
  pose proof (ptr_lt _ _ _ (has_bytes_writable _ _ _ H)) as Lt. pose proof (has_bytes_bytes _ _ _ H) as B.
  rewrite hex_encode_writes; auto.
  2: apply has_bytes_alloc; auto.
  2: apply writable_last; rewrite repeat_length; lia.
  2: left; cbn; lia.
  cbn [bind]. assert (E : length (hex_text l ++ [0%N]) = 2 * length l + 1) by (rewrite app_length, hex_text_length; cbn; lia).
  rewrite write_at_last, splice_full by (rewrite E, repeat_length; lia). rewrite <- E. apply has_bytes_ldn.
  apply has_bytes_last. apply Forall_app. split; [apply hex_text_bytes; exact B|]. repeat constructor.
Qed.

(** ** C111: AES in counter mode *)
Definition differs (a b : list N) : bool := if list_eq_dec N.eq_dec a b then false else true.

Lemma wrong_from_ok m p q a b : has_bytes m p a -> has_bytes m q b -> length a = length b -> forall n i, n + i = length a ->
  wrong_from m p q n i = Ret (differs (skipn i a) (skipn i b)).
Proof.
  intros Ha Hb L. induction n as [|n IH]; intros i Hi; cbn [wrong_from].
  - rewrite !skipn_all2 by lia. reflexivity.
  - rewrite (has_bytes_nth _ _ a i), (has_bytes_nth _ _ b i) by (assumption || lia). cbn [bind].
    rewrite (IH (S i)) by lia. rewrite (skipn_cons_nth a i 0%N), (skipn_cons_nth b i 0%N) by lia. unfold differs.
    destruct (N.eqb_spec (nth i a 0%N) (nth i b 0%N)) as [E|E]; cbn [negb].
    + f_equal. rewrite E. destruct (list_eq_dec _ (skipn (S i) a) _) as [F|F]; destruct (list_eq_dec _ (_ :: _) _) as [G|G]; try reflexivity; exfalso.
      * apply G. rewrite F. reflexivity.
      * apply F. injection G. auto.
    + destruct (list_eq_dec _ (_ :: _) _) as [G|G]; [exfalso; injection G; auto|reflexivity].
Qed.

Lemma ctr_stream_bytes b nonce rk n : forall c, AesCtrLink.nonce_ok nonce -> AesProofs.rk_ok rk ->
  bytes_ok (AesSpec.ctr_stream (AesProofs.cipher_of b rk) nonce c n).
Proof.
  induction n as [|n IH]; intros c Hn Hk; [constructor|].
  rewrite AesCtrLink.ctr_stream_S. apply Forall_app. split; [|apply IH; assumption].
  destruct (AesCtrLink.ctr_encrypt_ok b nonce c rk Hn Hk) as (_ & _ & S). exact (proj1 S).
Qed.

(** What the program should find for a vector, and whether it is in the vector. *)
Definition ctr_of (b : AesModel.build) (v : ctr_vector) : list N :=
  AesSpec.ctr_crypt (AesProps.build_cipher b (cv_key v)) (cv_nonce v) 1 (cv_plain v).
Definition ctr_right (b : AesModel.build) (v : ctr_vector) : bool :=
  if list_eq_dec N.eq_dec (ctr_of b v) (cv_cipher v) then true else false.
Definition ctr_vector_ok (v : ctr_vector) : Prop :=
  bytes_ok (cv_key v) /\ length (cv_key v) = 16 /\ bytes_ok (cv_nonce v) /\ length (cv_nonce v) = 12 /\
  demo_text (cv_plain v) /\ bytes_ok (cv_cipher v) /\ length (cv_cipher v) = length (cv_plain v).

Lemma ctr_test_ok oor wild b cs v : ctr_vector_ok v ->
  length (cv_plain v) mod 4 = 0 /\ (wild = Ret tt \/ length (cv_plain v) mod 16 = 0) ->
  exists cs', ctr_test oor wild b cs v = Ret (cs', Said "Output: " (hex_text (ctr_of b v) ++ [0%N]), negb (ctr_right b v)).
Proof.
  intros (Bk & Lk & Bn & Ln & (B & P & L) & Bc & Lc) D. change (2^29)%Z with 536870912%Z in L. unfold ctr_test.
  rewrite new_bytes_ok by exact Bk. blocks. rewrite new_bytes_ok by exact Bn. blocks.
  rewrite new_bytes_ok by exact B. blocks. rewrite new_bytes_ok by exact Bc. blocks.
  match goal with |- context [AesModel.aes_load_key ?c ?m ?a] =>
    assert (Hk : has_bytes m a (cv_key v)) by here;
    destruct (AesProps.C33_aes_ctr_is_counter_mode oor wild b c m a (Ptr 1 0) (cv_key v) (cv_nonce v) [cv_plain v]) as (cs1 & cs2 & cs3 & E1 & E2 & E3);
      [here|exact Lk|here|exact Ln|constructor; [exact D|constructor]|];
    destruct (AesProps.ctr_init_ok c m a (Ptr 1 0) (cv_key v) (cv_nonce v)) as (cs1' & ks & _ & _ & K & Hn & C);
      [here|exact Lk|here|exact Ln|] end.
  rewrite E1. cbn [bind]. rewrite E2. cbn [bind].
  cbn [SyncSpec.sends AesSpec.ctr_packets] in E3. destruct E3 as (t & [Lo E3] & _). fold (ctr_of b v) in *.
  unfold AesProps.ctr_packet in E3. rewrite nat_N_Z in E3. rewrite E3; [|here|room|right; apart]. cbn [bind]. store Lo. blocks.
  assert (Bo : bytes_ok (ctr_of b v)).
  { unfold ctr_of, AesSpec.ctr_crypt. apply xor_bytes_ok; [exact B|].
    rewrite <- (AesProps.ctr_stream_ext _ _ _ _ (C b)). apply ctr_stream_bytes; assumption. }
  match goal with |- context [hex_nul_string ?m ?p _] => assert (Ho : has_bytes m p (ctr_of b v)) by here end.
  rewrite <- Lo. rewrite hex_nul_string_ok by (try exact Ho; rewrite Lo; change (2^30)%Z with 1073741824%Z; lia). cbn [bind].
  erewrite (wrong_from_ok _ _ _ (ctr_of b v) (cv_cipher v) Ho); [|here|lia|lia]. cbn [skipn bind].
  exists t. unfold differs, ctr_right. destruct (list_eq_dec _ _ _); reflexivity.
Qed.

Lemma ctr_tests_ok oor wild b vs : Forall ctr_vector_ok vs ->
  Forall (fun v => length (cv_plain v) mod 4 = 0 /\ (wild = Ret tt \/ length (cv_plain v) mod 16 = 0)) vs ->
  forall cs w, ctr_tests oor wild b cs w vs =
  Ret (map (fun v => Said "Output: " (hex_text (ctr_of b v) ++ [0%N])) vs, (w + Z.of_nat (length vs) - Z.of_nat (length (filter (ctr_right b) vs)))%Z).
Proof.
  intros F. induction F as [|v vs Hv F IH]; intros D cs w; cbn [ctr_tests].
  - cbn. f_equal. f_equal. lia.
  - inversion D as [|? ? D1 D2]; subst. destruct (ctr_test_ok oor wild b cs v Hv D1) as (cs' & ->). cbn [bind].
    rewrite (IH D2). cbn [bind map filter length]. f_equal. f_equal. destruct (ctr_right b v); cbn [negb length]; lia.
Qed.

(** For all vectors of whole words (whole blocks where a wild pointer may not be
    formed): the program prints the counter-mode ciphertexts and counts exactly
    the vectors whose ciphertext is right. *)
Theorem C111_aes_ctr_self_test : forall oor wild b cs vs,
  Forall ctr_vector_ok vs ->
  Forall (fun v => length (cv_plain v) mod 4 = 0 /\ (wild = Ret tt \/ length (cv_plain v) mod 16 = 0)) vs ->
  aes_ctr_test_main oor wild b cs vs =
  Ret (map (fun v => Said "Output: " (hex_text (ctr_of b v) ++ [0%N])) vs,
       Z.of_nat (length (filter (ctr_right b) vs)), Z.of_nat (length vs)).
Proof.
  intros oor wild b cs vs F D. unfold aes_ctr_test_main. rewrite ctr_tests_ok by assumption. cbn [bind].
  f_equal. f_equal. f_equal. lia.
Qed.
Print Assumptions C111_aes_ctr_self_test.

(** In standard C++ one vector with a partial block makes the whole run undefined. *)
Theorem C111_aes_ctr_self_test_undefined : forall b cs vs,
  Forall ctr_vector_ok vs -> Exists (fun v => length (cv_plain v) mod 16 <> 0) vs ->
  aes_ctr_test_main AesModel.ub_shift UB b cs vs = UB.
Proof.
  intros b cs vs F X. unfold aes_ctr_test_main. generalize 0%Z as w.
  enough (E : forall w, ctr_tests AesModel.ub_shift UB b cs w vs = UB) by (intros w; rewrite E; reflexivity).
  revert cs. induction F as [|v vs Hv F IH]; intros cs w; [inversion X|]. cbn [ctr_tests].
  destruct (Nat.eq_dec (length (cv_plain v) mod 16) 0) as [Z|NZ].
  - destruct (ctr_test_ok AesModel.ub_shift UB b cs v Hv) as (cs' & ->).
    + split; [|right; exact Z]. rewrite <- AesCfbProofs.mod16_4, Z. reflexivity.
    + cbn [bind]. rewrite IH; [reflexivity|]. inversion X; subst; [contradiction|assumption].
  - enough (E : ctr_test AesModel.ub_shift UB b cs v = UB) by (rewrite E; reflexivity). clear IH X F.
    destruct Hv as (Bk & Lk & Bn & Ln & (B & P & L) & Bc & Lc). unfold ctr_test.
    rewrite new_bytes_ok by exact Bk. blocks. rewrite new_bytes_ok by exact Bn. blocks.
    rewrite new_bytes_ok by exact B. blocks. rewrite new_bytes_ok by exact Bc. blocks.
    match goal with |- context [AesModel.aes_load_key ?c ?m ?a] =>
      destruct (AesProps.ctr_init_ok c m a (Ptr 1 0) (cv_key v) (cv_nonce v)) as (cs1' & ks & E1 & E2 & _);
        [here|exact Lk|here|exact Ln|] end.
    rewrite E1. cbn [bind]. rewrite E2. cbn [bind].
    match goal with |- context [AesModel.aes_ctr_process_packet _ _ _ ?c ?m ?o ?i _] =>
      destruct (AesProps.C34_aes_ctr_undefined_exactly b c m o i (cv_plain v)) as [[_ X] _]; [here|room|right; apart|] end.
    rewrite X by exact NZ. reflexivity.
Qed.
Print Assumptions C111_aes_ctr_self_test_undefined.

(** The vectors of the program (RFC 3686, the first three). *)
Definition rfc3686_vectors : list ctr_vector :=
  [CtrVector [0xAE; 0x68; 0x52; 0xF8; 0x12; 0x10; 0x67; 0xCC; 0x4B; 0xF7; 0xA5; 0x76; 0x55; 0x77; 0xF3; 0x9E]%N
     [0; 0; 0; 0x30; 0; 0; 0; 0; 0; 0; 0; 0]%N
     [0x53; 0x69; 0x6E; 0x67; 0x6C; 0x65; 0x20; 0x62; 0x6C; 0x6F; 0x63; 0x6B; 0x20; 0x6D; 0x73; 0x67]%N
     [0xE4; 0x09; 0x5D; 0x4F; 0xB7; 0xA7; 0xB3; 0x79; 0x2D; 0x61; 0x75; 0xA3; 0x26; 0x13; 0x11; 0xB8]%N;
   CtrVector [0x7E; 0x24; 0x06; 0x78; 0x17; 0xFA; 0xE0; 0xD7; 0x43; 0xD6; 0xCE; 0x1F; 0x32; 0x53; 0x91; 0x63]%N
     [0x00; 0x6C; 0xB6; 0xDB; 0xC0; 0x54; 0x3B; 0x59; 0xDA; 0x48; 0xD9; 0x0B]%N
     (map N.of_nat (seq 0 32))
     [0x51; 0x04; 0xA1; 0x06; 0x16; 0x8A; 0x72; 0xD9; 0x79; 0x0D; 0x41; 0xEE; 0x8E; 0xDA; 0xD3; 0x88;
      0xEB; 0x2E; 0x1E; 0xFC; 0x46; 0xDA; 0x57; 0xC8; 0xFC; 0xE6; 0x30; 0xDF; 0x91; 0x41; 0xBE; 0x28]%N;
   CtrVector [0x76; 0x91; 0xBE; 0x03; 0x5E; 0x50; 0x20; 0xA8; 0xAC; 0x6E; 0x61; 0x85; 0x29; 0xF9; 0xA0; 0xDC]%N
     [0x00; 0xE0; 0x01; 0x7B; 0x27; 0x77; 0x7F; 0x3F; 0x4A; 0x17; 0x86; 0xF0]%N
     (map N.of_nat (seq 0 36))
     [0xC1; 0xCF; 0x48; 0xA8; 0x9F; 0x2F; 0xFD; 0xD9; 0xCF; 0x46; 0x52; 0xE9; 0xEF; 0xDB; 0x72; 0xD7;
      0x45; 0x40; 0xA4; 0x2B; 0xDE; 0x6D; 0x78; 0x36; 0xD5; 0x9A; 0x5C; 0xEA; 0xAE; 0xF3; 0x10; 0x53;
      0x25; 0xB2; 0x07; 0x2F]%N].
Lemma rfc3686_ok : Forall ctr_vector_ok rfc3686_vectors.
Proof.
  repeat (apply Forall_cons || apply Forall_nil);
    (split; [apply SosemanukProps.bytes_ok_forallb; vm_compute; reflexivity|]; split; [reflexivity|];
     split; [apply SosemanukProps.bytes_ok_forallb; vm_compute; reflexivity|]; split; [reflexivity|];
     split; [split; [apply SosemanukProps.bytes_ok_forallb; vm_compute; reflexivity|split; [cbn; lia|reflexivity]]|];
     split; [apply SosemanukProps.bytes_ok_forallb; vm_compute; reflexivity|reflexivity]).
Qed.

(** The full claim is false: the third vector, of 36 bytes, makes the program itself undefined. *)
Theorem C111_aes_ctr_self_test_refuted : Forall ctr_vector_ok rfc3686_vectors /\
  forall b cs, aes_ctr_test_main AesModel.ub_shift UB b cs rfc3686_vectors = UB.
Proof.
  split; [exact rfc3686_ok|]. intros b cs. apply C111_aes_ctr_self_test_undefined; [exact rfc3686_ok|].
  do 2 apply Exists_cons_tl. apply Exists_cons_hd. discriminate.
Qed.
Print Assumptions C111_aes_ctr_self_test_refuted.

(** Concrete cases: where the wild pointer is harmless all three are right, and
    a vector with one wrong byte is counted as wrong. *)
Example C111_instance :
  (forall b cs, b <> AesModel.Table true -> exists out, aes_ctr_test_main AesModel.ub_shift (Ret tt) b cs rfc3686_vectors = Ret (out, 3%Z, 3%Z)) /\
  (forall cs, exists out, aes_ctr_test_main AesModel.ub_shift UB (AesModel.Table false) cs
     [nth 0 rfc3686_vectors (CtrVector [] [] [] []);
      CtrVector (repeat 1%N 16) (repeat 2%N 12) (repeat 3%N 16) (repeat 4%N 16)] = Ret (out, 1%Z, 2%Z)).
Proof.
  split.
  - intros b cs Nb. rewrite C111_aes_ctr_self_test; [|exact rfc3686_ok|repeat (apply Forall_cons || apply Forall_nil); (split; [reflexivity|left; reflexivity])].
    eexists. f_equal. f_equal. f_equal.
    assert (E : filter (ctr_right (AesModel.Table false)) rfc3686_vectors = rfc3686_vectors) by (vm_compute; reflexivity).
    rewrite (filter_ext (ctr_right b) (ctr_right (AesModel.Table false))), E; [reflexivity|].
    intros v. unfold ctr_right, ctr_of.
    replace (AesProps.build_cipher b (cv_key v)) with (AesProps.build_cipher (AesModel.Table false) (cv_key v)); [reflexivity|].
    clear E. destruct b as [[|]| |]; [exfalso; apply Nb; reflexivity|unfold AesProps.build_cipher; reflexivity..].
  - intros cs. rewrite C111_aes_ctr_self_test.
    + match goal with |- context [filter ?f ?l] => assert (E : length (filter f l) = 1) by (vm_compute; reflexivity) end.
      rewrite E. eexists. reflexivity.
    + apply Forall_cons; [exact (Forall_inv rfc3686_ok)|]. apply Forall_cons; [|constructor].
      split; [apply SosemanukProps.bytes_ok_forallb; vm_compute; reflexivity|]; split; [reflexivity|];
      split; [apply SosemanukProps.bytes_ok_forallb; vm_compute; reflexivity|]; split; [reflexivity|];
      split; [split; [apply SosemanukProps.bytes_ok_forallb; vm_compute; reflexivity|split; [cbn; lia|reflexivity]]|];
      split; [apply SosemanukProps.bytes_ok_forallb; vm_compute; reflexivity|reflexivity].
    + repeat (apply Forall_cons || apply Forall_nil); (split; [reflexivity|right; reflexivity]).
Qed.
