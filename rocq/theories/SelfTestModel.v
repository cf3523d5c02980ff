(** Models of the programs that check the ciphers against published vectors.

    The vectors, which the programs fix, are parameters, so that the theorems
    are about any of them.  As in DemoModel, headings and the lines that show
    only a size are left out of the output; the arrays of each vector are put in
    a memory of their own. *)
From Coq Require Import String.
From Coq Require Import NArith ZArith List Bool Arith.
From Verif Require Import Res Words Mem Ints HexModel AesModel ChachaModel AegisModel AeModel DemoModel.
Import ListNotations.

(** std::string(buf, 2n+1) of the digits of the [n] bytes at [p]: the NUL is
    part of it.  BlockCiphers/AES/AES/AES_CTR/test_vectors.cpp:108-110,
    StreamCiphers/AEGIS/AEGIS/test_vectors.cpp:43-45. *)
Definition hex_nul_string (m : mem) (p : ptr) (n : nat) : res (list N) :=
  let (m, buf) := alloc m (2 * n + 1) in
  let* m := hex_encode (S n) m buf p (Z.of_nat n) in
  ldn m buf (2 * n + 1).

(** ** AES in counter mode *)
(** The loop of AES_CTR/test_vectors.cpp:113-120 (and 135-142, 156-163): whether
    some of the [n] bytes differ; it stops at the first. *)
Fixpoint wrong_from (m : mem) (tmp ct : ptr) (n i : nat) : res bool :=
  match n with
  | O => Ret false
  | S n => let* a := ld8 m (padd tmp i) in
           let* b := ld8 m (padd ct i) in
           if negb (N.eqb a b) then Ret true else wrong_from m tmp ct n (S i)
  end.

(** A vector of AES_CTR/test_vectors.cpp:37-92: key, nonce, text and expected result. *)
Record ctr_vector := CtrVector { cv_key : list N; cv_nonce : list N; cv_plain : list N; cv_cipher : list N }.

Section Platform.
Variable oor : N -> Z -> res N.
Variable wild : res unit.

(** One vector, AES_CTR/test_vectors.cpp:103-120 (and 125-142, 146-163). *)
Definition ctr_test (b : build) (e_cs : aes_state) (v : ctr_vector) : res (aes_state * said * bool) :=
  let n := length (cv_plain v) in
  let* (m, key) := new_bytes [] (cv_key v) in
  let* (m, nonce) := new_bytes m (cv_nonce v) in
  let* (m, test_vector) := new_bytes m (cv_plain v) in
  let* (m, ct) := new_bytes m (cv_cipher v) in
  let (m, tmp) := alloc m n in
  let* e_cs := aes_load_key e_cs m key in
  let* e_cs := ctr_load_iv e_cs m nonce in
  let* (e_cs, m) := aes_ctr_process_packet oor wild b e_cs m tmp test_vector (Z.of_nat n) in
  let* print_tmp := hex_nul_string m tmp n in
  let* wrong := wrong_from m tmp ct n 0 in
  Ret (e_cs, Said "Output: "%string print_tmp, wrong).

(** The vectors one after the other, AES_CTR/test_vectors.cpp:99-163; the state e_cs
    is shared and n_wrong is counted up. *)
Fixpoint ctr_tests (b : build) (e_cs : aes_state) (n_wrong : Z) (vs : list ctr_vector) : res (list said * Z) :=
  match vs with
  | [] => Ret ([], n_wrong)
  | v :: vs => let* (e_cs, o, wrong) := ctr_test b e_cs v in
               let* (out, n_wrong) := ctr_tests b e_cs (if (wrong : bool) then n_wrong + 1 else n_wrong)%Z vs in
               Ret (o :: out, n_wrong)
  end.

(** main of BlockCiphers/AES/AES/AES_CTR/test_vectors.cpp:34-167 and of the
    identical programs in AES_x86/AES_CTR and AES_ARM/AES_CTR: the outputs and the
    two numbers of the last line, "TOTAL: ... OF ... CORRECT.".  [e_cs] is the
    uninitialised state. *)
Definition aes_ctr_test_main (b : build) (e_cs : aes_state) (vs : list ctr_vector) : res (list said * Z * Z) :=
  let n_total := Z.of_nat (length vs) in
  let* (out, n_wrong) := ctr_tests b e_cs 0 vs in
  Ret (out, (n_total - n_wrong)%Z, n_total).
End Platform.

(** ** AEGIS *)
(** s[i] of a std::string, AEGIS/test_vectors.cpp:67, 74: the NUL at the end,
    undefined beyond. *)
Definition char_at (s : list N) (i : nat) : res N :=
  if i <? length s then Ret (nth i s 0%N) else if i =? length s then Ret 0%N else UB.

(** The loops of AEGIS/test_vectors.cpp:65-78: all [n] characters are compared. *)
Fixpoint compare_from (expected computed : list N) (n i : nat) (test : Z) : res Z :=
  match n with
  | O => Ret test
  | S n => let* a := char_at expected i in
           let* b := char_at computed i in
           compare_from expected computed n (S i) (if negb (N.eqb a b) then 0%Z else test)
  end.

(** A vector of AEGIS/test_vectors.cpp:19-27 and the like. *)
Record aegis_vector := AegisVector
  { av_key : list N; av_iv : list N; av_ad : list N; av_plain : list N; expected_ct : list N; expected_tag : list N }.

(** One vector, AEGIS/test_vectors.cpp:15-82 (and 86-154, 158-228, 232-310); None
    if exit(1) is reached.  [cs] is the uninitialised state.  Vector 1 has no
    associated data and passes a null pointer, here an empty array: it is not
    read.  The arrays of vector 4 that are set to zero first are left
    uninitialised here. *)
Definition aegis_test (b : aegis_build) (cs : aegis_state) (v : aegis_vector) : res (option (list said * Z)) :=
  let n := length (av_plain v) in
  let* (m, key) := new_bytes [] (av_key v) in
  let* (m, iv) := new_bytes m (av_iv v) in
  let* (m, pt) := new_bytes m (av_plain v) in
  let* (m, ad) := new_bytes m (av_ad v) in
  let* (m, ct) := new_bytes m (repeat 0%N n) in
  let (m, tag) := alloc m 16 in
  let (m, recv) := alloc m n in
  let* cs := aegis_load_key cs m key in
  let* (cs, m) := aegis_encrypt_packet b cs m ct tag pt ad iv (N.of_nat (length (av_ad v))) (N.of_nat n) in
  let* (valid, cs, m) := aegis_decrypt_packet b cs m recv ct ad iv tag (N.of_nat (length (av_ad v))) (N.of_nat n) in
  if N.eqb valid 0 then Ret None else
  let* hexPT := hex_nul_string m pt n in
  let* hexString := hex_nul_string m ct n in
  let* hexTagString := hex_nul_string m tag 16 in
  let* recvPT := hex_c_string m recv n in
  let* test := compare_from (expected_ct v) hexString (2 * n) 0 1 in
  let* test := compare_from (expected_tag v) hexTagString 32 0 test in
  Ret (Some ([Said "Valid tag"%string []; Said "PT: "%string hexPT;
    Said "Expected CT: "%string (expected_ct v); Said "Computed CT: "%string hexString;
    Said "Expected TAG: "%string (expected_tag v); Said "Computed TAG: "%string hexTagString;
    Said "RECOVERED PT: "%string recvPT], test)).

(** The vectors one after the other, AEGIS/test_vectors.cpp:13-310, each with a state
    of its own; the counter
    [successful] goes up where the test remains 1. *)
Fixpoint aegis_tests (b : aegis_build) (cs : nat -> aegis_state) (i : nat) (vs : list aegis_vector)
    : res (option (list said * Z)) :=
  match vs with
  | [] => Ret (Some ([], 0%Z))
  | v :: vs =>
    let* r := aegis_test b (cs i) v in
    match r with
    | None => Ret None
    | Some (o, test) =>
      let* r := aegis_tests b cs (S i) vs in
      match r with
      | None => Ret None
      | Some (out, successful) => Ret (Some (o ++ out, if Z.eqb test 0 then successful else successful + 1)%Z)
      end
    end
  end.

(** main of StreamCiphers/AEGIS/AEGIS/test_vectors.cpp:7-317 and of the identical
    programs in AEGIS_x86 and AEGIS_ARM: the output, the two numbers of the last
    line but one, and the last line.  None if a tag is rejected and the program
    exits. *)
Definition aegis_test_main (b : aegis_build) (cs : nat -> aegis_state) (vs : list aegis_vector)
    : res (option (list said * Z * Z * string)) :=
  let n_tests := Z.of_nat (length vs) in
  let* r := aegis_tests b cs 0 vs in
  match r with
  | None => Ret None
  | Some (out, successful) =>
    Ret (Some (out, successful, n_tests, if Z.eqb successful n_tests then "SUCCESS!" else "FAILURE!")%string)
  end.

(** ** ChaCha *)
(** main of StreamCiphers/ChaCha/cipher_test.cpp:7-47; None if substr(128) throws
    std::out_of_range (line 41), which nothing catches. *)
Definition chacha_cipher_test (nrounds : nat) (key_string nonce_string plaintext : list N) : res (option (list said)) :=
  let n := length plaintext in
  let* (m, key) := from_hex [] 32 key_string in
  let* (m, nonce) := from_hex m 12 nonce_string in
  let* cs := chacha_initialize m key nonce in
  let* (m, data) := new_bytes m plaintext in
  let (m, ciphertext) := alloc m n in
  let* (cs, m) := chacha_process_packet nrounds cs m ciphertext data (N.of_nat n) in
  let* ciphertext_string := hex_c_string m ciphertext n in
  if length ciphertext_string <? 128 then Ret None else
  Ret (Some [Said "Ciphertext part 1: "%string (firstn 128 ciphertext_string);
             Said "Ciphertext part 2: "%string (skipn 128 ciphertext_string)]).

(** main of StreamCiphers/ChaCha/block_test.cpp:7-40.  The key stream goes to an
    array of bytes of which the program takes the words. *)
Definition chacha_block_test (nrounds : nat) (test_state : list N) : res (list said) :=
  let n := Nat.div (length test_state) 2 in
  let* (m, test_state_bytes) := from_hex [] n test_state in
  let* m := byte_swap m test_state_bytes test_state_bytes (Z.of_nat n) in
  let* cs := ld_words m test_state_bytes 16 in
  let (m, keystream) := alloc m 64 in
  let (_, ks) := chacha_block nrounds cs 1 in
  let* m := stn m keystream (flat_map bytes_of_le32 ks) in
  let* m := byte_swap m keystream keystream 64 in
  let* print_hex := hex_c_string m keystream 64 in
  Ret [Said "Output: "%string print_hex].

(** main of StreamCiphers/ChaCha/quarter_test.cpp:7-63; the number is the one
    printed first (line 13).  The line with the size of the input (line 38) is
    left out. *)
Definition chacha_quarter_test (test : N) (HexIn hexInput : list N) : res (N * list said) :=
  let rotated := rotr32 test (32 - 7) in
  let* (m, inp) := from_hex [] 4 HexIn in
  let* w_in := ld32 m inp in
  let in_rot := rotr32 w_in (32 - 7) in
  let* (m, w) := new_bytes m (bytes_of_le32 in_rot) in
  let* printString := hex_c_string m w 4 in
  let n := Nat.div (length hexInput) 2 in
  let* (m, input) := from_hex m n hexInput in
  let (m, output) := alloc m n in
  let* m := byte_swap m input input (Z.of_nat n) in
  let* m := test_q m input output in
  let* m := byte_swap m output output (Z.of_nat n) in
  let* print := hex_c_string m output n in
  Ret (rotated, [Said "Rot: "%string printString; Said "Input: "%string hexInput; Said "Output: "%string print]).
