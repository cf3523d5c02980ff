(** Model of Example_AuthenticatedEncryption/example_ae.cpp, built as its
    readme.txt says: AES-CFB from AES/AES/AES_CFB (the table code),
    HMAC-SHA-256 with the SHA-256 of the Hash folder, HC-128, the hex encoder.

    The keys, the IV and the plaintexts, which main() fixes, are parameters, and
    the halves that produce a message and those that validate and decrypt it
    are separate functions, so that the latter can be given any message.
    [oor] says what a 32-bit shift by an out-of-range amount does (AesModel). *)
From Coq Require Import NArith ZArith List.
From Verif Require Import Res Words Mem Ints ShaModel HmacModel AesModel HcModel HexModel.
Import ListNotations.

(** What is written to std::cout: lines 55 and 106, 73 and 128, 86 and 133, 90
    and 136, 96 and 150.  The two headings are left out. *)
Inductive line :=
| Plaintext (l : list N) | Msg (hex : list N) | InvalidTag | ValidTag | Recovered (l : list N).

(** TAGSIZE, example_ae.cpp:17. *)
Definition TAGSIZE : nat := 16.
(** HC128_IV_SIZE, StreamCiphers/HC-128/hc128.h:35. *)
Definition HC128_IV_SIZE : nat := 16.

(** The printing of lines 70-73 and 125-128: a buffer of 2n+1 characters, the
    encoding of [n] bytes, a std::string of the first 2n. *)
Definition hex_string (m : mem) (msg : ptr) (n : nat) : res (list N) :=
  let (m, buf) := alloc m (2 * n + 1) in
  let* m := hex_encode (S n) m buf msg (to_int (Z.of_nat n)) in
  ldn m buf (2 * n).

Section Platform.
Variable oor : N -> Z -> res N.

(** example_ae.cpp:61-73: encrypt [n] bytes at [plaintext] into a new buffer, append the
    tag, print. *)
Definition section1_send (a_cs : hmac_state) (e_cs : aes_state) (m : mem) (plaintext : ptr) (n : nat)
    : res (mem * ptr * list line) :=
  let (m, msg) := alloc m (n + TAGSIZE) in
  let* (e_cs, m) := aes_cfb_process_packet oor (Table false) ENCRYPT e_cs m msg plaintext (to_int (Z.of_nat n)) in
  let* m := hmac_tag_generation sha256_hash a_cs m (padd msg n) msg (N.of_nat n) (Z.of_nat TAGSIZE) in
  let* hexMsg := hex_string m msg (n + TAGSIZE) in
  Ret (m, msg, [Msg hexMsg]).

(** example_ae.cpp:81-96: validate and decrypt a message of [n] ciphertext bytes and a
    tag.  The boolean is false if exit(1) (line 87) is reached. *)
Definition section1_receive (a_cs : hmac_state) (m : mem) (e_key iv msg : ptr) (n : nat)
    : res (bool * list line) :=
  let* d_cs := aes_cfb_initialize m e_key iv in
  let* valid := hmac_tag_validation sha256_hash a_cs m (padd msg n) msg (N.of_nat n) (Z.of_nat TAGSIZE) in
  if N.eqb valid 0 then Ret (false, [InvalidTag]) else
  let (m, recovered) := alloc m n in
  let* (d_cs, m) := aes_cfb_process_packet oor (Table false) DECRYPT d_cs m recovered msg (to_int (Z.of_nat n)) in
  let* recov := ldn m recovered n in
  Ret (true, [ValidTag; Recovered recov]).

(** example_ae.cpp:109-128. *)
Definition section2_send (a_cs : hmac_state) (m : mem) (e_key iv plaintext2 : ptr) (n : nat)
    : res (mem * ptr * list line) :=
  let* e_cs2 := hc128_initialize m e_key iv in
  let (m, msg2) := alloc m (HC128_IV_SIZE + n + TAGSIZE) in
  let* m := memcpy m msg2 iv HC128_IV_SIZE in
  let* (e_cs2, m) := hc128_process_packet e_cs2 m (padd msg2 HC128_IV_SIZE) plaintext2 (N.of_nat n) in
  let* m := hmac_tag_generation sha256_hash a_cs m (padd msg2 (HC128_IV_SIZE + n)) msg2
              (N.of_nat (HC128_IV_SIZE + n)) (Z.of_nat TAGSIZE) in
  let* hexMsg2 := hex_string m msg2 (HC128_IV_SIZE + n + TAGSIZE) in
  Ret (m, msg2, [Msg hexMsg2]).

(** example_ae.cpp:132-150.  After printing "Invalid tag!" the program goes on. *)
Definition section2_receive (a_cs : hmac_state) (m : mem) (e_key msg2 : ptr) (n : nat) : res (list line) :=
  let* valid := hmac_tag_validation sha256_hash a_cs m (padd msg2 (HC128_IV_SIZE + n)) msg2
                  (N.of_nat (HC128_IV_SIZE + n)) (Z.of_nat TAGSIZE) in
  let out := if N.eqb valid 0 then [InvalidTag] else [] in
  let out := out ++ [ValidTag] in
  let* d_cs2 := hc128_initialize m e_key msg2 in
  let (m, recovered2) := alloc m n in
  let* (d_cs2, m) := hc128_process_packet d_cs2 m recovered2 (padd msg2 HC128_IV_SIZE) (N.of_nat n) in
  let* recov2 := ldn m recovered2 n in
  Ret (out ++ [Recovered recov2]).

(** A new array with the given contents: the initialised arrays of main,
    example_ae.cpp:24-35. *)
Definition new_bytes (m : mem) (l : list N) : res (mem * ptr) :=
  let (m, p) := alloc m (length l) in
  let* m := stn m p l in
  Ret (m, p).

(** main, example_ae.cpp:19-151: the output and the exit status. *)
Definition ae_main (ka ke v p1 p2 : list N) : res (list line * Z) :=
  let* (m, a_key) := new_bytes [] ka in
  let* (m, e_key) := new_bytes m ke in
  let* a_cs := hmac_load_key sha256_hash m a_key (Z.of_nat (length ka)) in
  let* (m, iv) := new_bytes m v in
  let* e_cs := aes_cfb_initialize m e_key iv in
  let* (m, plaintext) := new_bytes m p1 in
  let out := [Plaintext p1] in
  let* (m, msg, o) := section1_send a_cs e_cs m plaintext (length p1) in
  let out := out ++ o in
  let* (go, o) := section1_receive a_cs m e_key iv msg (length p1) in
  let out := out ++ o in
  if negb go then Ret (out, 1%Z) else
  let* (m, plaintext2) := new_bytes m p2 in
  let out := out ++ [Plaintext p2] in
  let* (m, msg2, o) := section2_send a_cs m e_key iv plaintext2 (length p2) in
  let out := out ++ o in
  let* o := section2_receive a_cs m e_key msg2 (length p2) in
  Ret (out ++ o, 0%Z).
End Platform.
