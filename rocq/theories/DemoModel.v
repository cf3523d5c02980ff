(** Models of the demonstration programs main.cpp of the symmetric primitives.

    Texts, keys and IVs, which the programs fix, are parameters, so that the
    theorems are about any of them; the shipped values are the instances.  An
    array is created where it is first used.  Headings and the lines that show
    only a size are left out of the output. *)
From Coq Require Import String.
From Coq Require Import NArith ZArith List Bool.
From Verif Require Import Res Words Mem Ints ShaModel HmacModel AesModel HcModel HexModel ChachaModel RabbitModel
  SerpentModel SosemanukModel AegisModel DesModel Md5Model AeModel.
Import ListNotations.

(** A line written to std::cout: its label and the text after it, e.g.
    StreamCiphers/HC-128/main.cpp:53. *)
Record said := Said { label : string; text : list N }.

(** std::string(p): the characters before the first NUL, e.g.
    StreamCiphers/ChaCha/main.cpp:38. *)
Fixpoint c_string (fuel : nat) (m : mem) (p : ptr) : res (list N) :=
  match fuel with
  | O => NoFuel
  | S fuel => let* c := ld8 m p in
              if N.eqb c 0 then Ret [] else let* l := c_string fuel m (padd p 1) in Ret (c :: l)
  end.

(** A character array for them, the hexadecimal digits of the [n] bytes at [p]
    in it, and a std::string of it up to the NUL.
    StreamCiphers/ChaCha/main.cpp:36-38, StreamCiphers/Rabbit/main.cpp:48-52,
    Legacy/DES/main.cpp:25-29, Legacy/MD5/main.cpp:24-28. *)
Definition hex_c_string (m : mem) (p : ptr) (n : nat) : res (list N) :=
  let (m, buf) := alloc m (2 * n + 1) in
  let* m := hex_encode (S n) m buf p (to_int (Z.of_nat n)) in
  c_string (2 * n + 1) m buf.

(** An array of [n] bytes filled from a hexadecimal string, as in
    StreamCiphers/ChaCha/main.cpp:15-22. *)
Definition from_hex (m : mem) (n : nat) (s : list N) : res (mem * ptr) :=
  let* (m, str) := new_bytes m s in
  let (m, a) := alloc m n in
  let* m := hex_decode m a str (to_int (Z.of_nat (length s))) in
  Ret (m, a).

(** Hash/SHA/SHA-2/SHA-256/main.cpp:18-44 for the message [msg]; the program's
    character array (line 36) has [size] = 64. *)
Definition sha256_main (size : nat) (msg : list N) : res (list said) :=
  let* (m, data) := new_bytes [] msg in
  let* (m, digest) := new_bytes m (repeat 0%N 32) in
  let* m := sha256_hash m digest data (N.of_nat (length msg)) in
  let* dig := ldn m digest 32 in
  let (m, hex_representation) := alloc m size in
  let* m := hex_encode 33 m hex_representation digest 32 in
  let* hex_rep := ldn m hex_representation 64 in
  Ret [Said "Digest: "%string dig; Said "Digest in Hex: "%string hex_rep].

(** Authentication/HMAC-SHA-256/main.cpp:64-71. *)
Fixpoint differ (m : mem) (tag expected : ptr) (n i : nat) (status : Z) : res Z :=
  match n with
  | O => Ret status
  | S n => let* a := ld8 m (padd tag i) in
           let* b := ld8 m (padd expected i) in
           differ m tag expected n (S i) (if N.eqb a b then status else 1%Z)
  end.

(** Authentication/HMAC-SHA-256/main.cpp:17-74: expected tag, key and message in
    hexadecimal. *)
Definition hmac_main (ExpectedTag keystring msg : list N) : res (list said) :=
  let n := Nat.div (length msg) 2 in
  let* (m, message) := from_hex [] n msg in
  let* (m, key) := from_hex m (Nat.div (length keystring) 2) keystring in
  let* hs := hmac_load_key sha256_auth m key (Z.of_nat (Nat.div (length keystring) 2)) in
  let (m, tag) := alloc m 16 in
  let* m := hmac_tag_generation sha256_auth hs m tag message (N.of_nat n) 16 in
  let* hex := AeModel.hex_string m tag 16 in
  let* (m, str) := new_bytes m ExpectedTag in
  let (m, expected_tag) := alloc m 16 in
  let* m := hex_decode m expected_tag str 32 in
  let* valid := hmac_tag_validation sha256_auth hs m tag message (N.of_nat n) 16 in
  let* status := differ m tag expected_tag 16 0 0%Z in
  Ret [Said "Expected tag: "%string ExpectedTag; Said "Hex tag: "%string hex;
       Said (if N.eqb valid 0 then "Validation Tag mismatch" else "Validation Tag confirmed")%string [];
       Said (if Z.eqb status 0 then "SUCCESS!" else "FAILURE")%string []].

(** StreamCiphers/HC-128/main.cpp:14-53. *)
Definition hc128_main (pt hexkey hexIv : list N) : res (list said) :=
  let n := length pt in
  let* (m, data) := new_bytes [] pt in
  let (m, ciphertext) := alloc m n in
  let (m, recovered) := alloc m n in
  let* (m, key) := from_hex m 16 hexkey in
  let* (m, iv) := from_hex m 16 hexIv in
  let* e_cs := hc128_initialize m key iv in
  let* (e_cs, m) := hc128_process_packet e_cs m ciphertext data (N.of_nat n) in
  let* d_cs := hc128_initialize m key iv in
  let* (d_cs, m) := hc128_process_packet d_cs m recovered ciphertext (N.of_nat n) in
  let* print_recovered := ldn m recovered n in
  Ret [Said "Plaintext: "%string pt; Said "Recovered: "%string print_recovered].

(** StreamCiphers/Sosemanuk/main.cpp:7-72.  [e_cs] and [d_cs] are the contents of
    the uninitialised states and [scratch] is as in SosemanukModel.  Nothing is
    loaded if the key is too long, and the states remain uninitialised. *)
Definition sosemanuk_main (scratch : N) (e_cs d_cs : sosemanuk_state) (keyString ivString plain : list N)
    : res (list said) :=
  let n := length plain in
  let* (m, key) := from_hex [] (Nat.div (length keyString) 2) keyString in
  let* (m, iv) := from_hex m (Nat.div (length ivString) 2) ivString in
  let* (m, data) := new_bytes m plain in
  let keysize := Z.of_nat (Nat.div (length keyString) 2) in
  let* loaded := sosemanuk_load_key scratch e_cs m key keysize in
  match loaded with
  | None => UB
  | Some e_cs =>
    let* e_cs := sosemanuk_load_iv scratch e_cs m iv in
    let (m, cipher) := alloc m n in
    let* (e_cs, m) := sosemanuk_process_packet scratch e_cs m cipher data (N.of_nat n) in
    let* hexCtString := AeModel.hex_string m cipher n in
    let* loaded := sosemanuk_load_key scratch d_cs m key keysize in
    match loaded with
    | None => UB
    | Some d_cs =>
      let* d_cs := sosemanuk_load_iv scratch d_cs m iv in
      let (m, recovered) := alloc m n in
      let* (d_cs, m) := sosemanuk_process_packet scratch d_cs m recovered cipher (N.of_nat n) in
      let* recov_string := ldn m recovered n in
      Ret [Said "Plaintext: "%string plain; Said "Ciphertext: "%string hexCtString; Said "Recovered: "%string recov_string]
    end
  end.

(** StreamCiphers/ChaCha/main.cpp:6-58; [nrounds] as in ChachaModel. *)
Definition chacha_main (nrounds : nat) (message key_string nonce_string : list N) : res (list said) :=
  let n := length message in
  let* (m, data) := new_bytes [] message in
  let* (m, key) := from_hex m 32 key_string in
  let* (m, nonce) := from_hex m 12 nonce_string in
  let* e_cs := chacha_initialize m key nonce in
  let (m, ciphertext) := alloc m n in
  let* (e_cs, m) := chacha_process_packet nrounds e_cs m ciphertext data (N.of_nat n) in
  let* print_ciphertext := hex_c_string m ciphertext n in
  let* d_cs := chacha_initialize m key nonce in
  let (m, recovered) := alloc m n in
  let* (d_cs, m) := chacha_process_packet nrounds d_cs m recovered ciphertext (N.of_nat n) in
  let* recov_string := ldn m recovered n in
  Ret [Said "Plaintext: "%string message; Said "Ciphertext: "%string print_ciphertext; Said "Recovered: "%string recov_string].

(** StreamCiphers/Rabbit/main.cpp:7-90; [sq] is the signed square (RabbitModel). *)
Definition rabbit_main (sq : N -> res N) (key_string iv_string plaintext mumbo second_pt : list N) : res (list said) :=
  let n := length plaintext in
  let n2 := length second_pt in
  let* (m, key) := from_hex [] (Nat.div (length key_string) 2) key_string in
  let* (m, iv) := from_hex m (Nat.div (length iv_string) 2) iv_string in
  let* cs := rabbit_load_key sq m key in
  let* cs := rabbit_load_iv sq cs m iv in
  let* (m, data) := new_bytes m plaintext in
  let (m, ct) := alloc m n in
  let* (cs, m) := rabbit_process_packet sq cs m ct data (N.of_nat n) in
  let* (m, more) := new_bytes m mumbo in
  let (m, ct_throw) := alloc m (length mumbo) in
  let* (cs, m) := rabbit_process_packet sq cs m ct_throw more (N.of_nat (length mumbo)) in
  let* cs := rabbit_load_iv sq cs m iv in
  let* (m, data2) := new_bytes m second_pt in
  let (m, second_ct) := alloc m n2 in
  let* (cs, m) := rabbit_process_packet sq cs m second_ct data2 (N.of_nat n2) in
  let* ct_s := hex_c_string m ct n in
  let* d_cs := rabbit_load_key sq m key in
  let* d_cs := rabbit_load_iv sq d_cs m iv in
  let (m, recv) := alloc m n in
  let* (d_cs, m) := rabbit_process_packet sq d_cs m recv ct (N.of_nat n) in
  let* recovered := ldn m recv n in
  let* d_cs := rabbit_load_iv sq d_cs m iv in
  let (m, recv2) := alloc m n2 in
  let* (d_cs, m) := rabbit_process_packet sq d_cs m recv2 second_ct (N.of_nat n2) in
  let* recovered_2 := ldn m recv2 n2 in
  Ret [Said "Plaintext: "%string plaintext; Said "Ciphertext: "%string ct_s;
       Said "Recovered: "%string recovered; Said "Recovered 2: "%string recovered_2].

(** BlockCiphers/AES/AES/AES_CFB/main.cpp:23-101, and with the other builds
    BlockCiphers/AES/AES_x86/AES_CFB_Carry-Over/main.cpp and
    BlockCiphers/AES/AES_ARM/AES_CFB_Carry-Over/main.cpp:23-101, which differ in
    the plaintext only.  [oor] as in AesModel.  The ciphertext that is decrypted
    is the copy in ciphertext_string. *)
Definition aes_cfb_main (oor : N -> Z -> res N) (b : build) (k v plaintext : list N) : res (list said) :=
  let n := length plaintext in
  let* (m, key) := new_bytes [] k in
  let* (m, iv) := new_bytes m v in
  let* e_cs := aes_cfb_initialize m key iv in
  let* (m, data) := new_bytes m plaintext in
  let (m, ciphertext) := alloc m n in
  let* (e_cs, m) := aes_cfb_process_packet oor b ENCRYPT e_cs m ciphertext data (to_int (Z.of_nat n)) in
  let* ct := ldn m ciphertext n in
  let* (m, ciphertext_string) := new_bytes m ct in
  let* d_cs := aes_cfb_initialize m key iv in
  let (m, recovered) := alloc m n in
  let* (d_cs, m) := aes_cfb_process_packet oor b DECRYPT d_cs m recovered ciphertext_string (to_int (Z.of_nat n)) in
  let* recovered_string := ldn m recovered n in
  Ret [Said "Plaintext: "%string plaintext; Said "Ciphertext: "%string ct; Said "Recovered: "%string recovered_string].

(** StreamCiphers/AEGIS/AEGIS/main.cpp:6-74, and the identical programs of
    AEGIS_x86 and AEGIS_ARM; IV_SIZE is 16.  [cs] is the uninitialised state.
    The printed string has the NUL (line 58); the number is the exit status. *)
Definition aegis_main (b : aegis_build) (cs : aegis_state) (k v plaintext : list N) : res (list said * Z) :=
  let n := length plaintext in
  let* (m, key) := new_bytes [] k in
  let* (m, iv) := new_bytes m v in
  let* (m, data) := new_bytes m plaintext in
  let* (m, ct) := new_bytes m (repeat 0%N n) in
  let* (m, tag) := new_bytes m (repeat 0%N 16) in
  let* cs := aegis_load_key cs m key in
  let* (cs, m) := aegis_encrypt_packet b cs m ct tag data iv iv 16 (N.of_nat n) in
  let* (m, recv) := new_bytes m (repeat 0%N n) in
  let* (valid, cs, m) := aegis_decrypt_packet b cs m recv ct iv iv tag 16 (N.of_nat n) in
  if N.eqb valid 0 then Ret ([Said "Successfully Encrypted"%string []; Said "Invalid tag!"%string []], 1%Z) else
  let (m', hexCT) := alloc m (2 * n + 1) in
  let* m' := hex_encode (S n) m' hexCT ct (Z.of_nat n) in
  let* hexString := ldn m' hexCT (2 * n + 1) in
  let* recv_string := ldn m recv n in
  Ret ([Said "Successfully Encrypted"%string []; Said "Successfully Decrypted"%string []; Said "Hex CT: "%string hexString;
        Said "Plaintext: "%string plaintext; Said "Recovered: "%string recv_string], 0%Z).

(** BlockCiphers/Serpent/main.cpp:7-46 with SOSEMANUK_H defined, as serpent.h
    defines it; [scratch] as in SerpentModel. *)
Definition serpent_main (scratch : N) (keyString plainString : list N) : res (list said) :=
  let* (m, key) := from_hex [] 32 keyString in
  let* (m, plain) := from_hex m 16 plainString in
  let* loaded := serpent_key_schedule scratch m key 32 in
  match loaded with
  | None => UB
  | Some e_cs =>
    let (m, cipher) := alloc m 48 in
    let* m := serpent_process_packet e_cs scratch m cipher plain 16 in
    let* hexCtString := AeModel.hex_string m cipher 48 in
    Ret [Said "Ciphertext: "%string hexCtString]
  end.

(** Legacy/MD5/main.cpp:8-32; [cs] is the uninitialised context. *)
Definition md5_main (cs : ctx) (test_string : list N) : res (list said) :=
  let* (m, data) := new_bytes [] test_string in
  let (m, digest) := alloc m 16 in
  let* (m, cs) := md5_process_packet cs m digest data (u32 (N.of_nat (length test_string))) in
  let* hex := hex_c_string m digest 16 in
  Ret [Said "Digest: "%string hex].

(** Legacy/DES/main.cpp:5-32 for messages of any size (the program's is 16). *)
Definition des_main (key_string message : list N) : res (list said) :=
  let n := length message in
  let* (m, key) := from_hex [] 8 key_string in
  let* e_cs := des_key_schedule_encrypt m key in
  let* (m, data) := new_bytes m message in
  let (m, ct) := alloc m n in
  let* m := des_process_packet_ecb e_cs m ct data (N.of_nat n) in
  let* hex_ct_string := hex_c_string m ct n in
  Ret [Said "Hex CT: "%string hex_ct_string].

(** Legacy/DES/main_ctr.cpp:5-34, likewise; the three words of the nonce are the
    12 bytes [nonce]. *)
Definition des_ctr_main (key_string message nonce : list N) : res (list said) :=
  let n := length message in
  let* (m, key) := from_hex [] 8 key_string in
  let* e_cs := des_key_schedule_encrypt m key in
  let* (m, data) := new_bytes m message in
  let (m, ct) := alloc m n in
  let* (m, np) := new_bytes m nonce in
  let* m := des_process_packet_ctr e_cs m ct data np (N.of_nat n) in
  let* hex_ct_string := hex_c_string m ct n in
  Ret [Said "Hex CT: "%string hex_ct_string].
