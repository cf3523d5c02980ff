(** AEGIS-128 as in the CAESAR submission "AEGIS: A Fast Authenticated
    Encryption Algorithm (v1.1)", H. Wu and B. Preneel, 2016, section 2.
    Independent of the model: registers are lists of 16 bytes, the AES round
    is the one of [AesSpec]. *)
From Coq Require Import Arith NArith List Bool.
From Verif Require Import SpecWords AesSpec.
Import ListNotations.
Local Open Scope N_scope.

(** Section 2.1: "the constant in the hexadecimal format; it is the Fibonacci
    sequence modulo 256". *)
Fixpoint fib_from (n : nat) (a b : N) : list N :=
  match n with O => [] | S n' => a :: fib_from n' b ((a + b) mod 256) end.
Definition const0 : list N := firstn 16 (fib_from 32 0 1).
Definition const1 : list N := skipn 16 (fib_from 32 0 1).

Definition and_bytes (a b : list N) : list N := map (fun p => N.land (fst p) (snd p)) (combine a b).

(** The state S_0 .. S_4. *)
Record state := St { S0 : list N; S1 : list N; S2 : list N; S3 : list N; S4 : list N }.

(** StateUpdate128, section 2.2.  AESRound(A, B) is an AES round on A with
    round key B. *)
Definition update (S : state) (m : list N) : state :=
  St (aes_round (S4 S) (xor_bytes (S0 S) m))
     (aes_round (S0 S) (S1 S))
     (aes_round (S1 S) (S2 S))
     (aes_round (S2 S) (S3 S))
     (aes_round (S3 S) (S4 S)).

(** Section 2.3.1, initialization. *)
Definition initial (K IV : list N) : state :=
  St (xor_bytes K IV) const1 const0 (xor_bytes K const0) (xor_bytes K const1).
Fixpoint rounds2 (n : nat) (K m : list N) (S : state) : state :=
  match n with O => S | Datatypes.S n' => rounds2 n' K m (update (update S K) m) end.
Definition initialize (K IV : list N) : state := rounds2 5 K (xor_bytes K IV) (initial K IV).

(** A last block shorter than 16 bytes is padded with zero bytes. *)
Definition pad16 (l : list N) : list N := l ++ repeat 0 (16 - length l)%nat.

(** Section 2.3.2, associated data. *)
Definition absorb (S : state) (ad : list N) : state :=
  fold_left update (map pad16 (chunks 16 ad)) S.

(** Section 2.3.3, encryption of one block, full or partial. *)
Definition key_block (S : state) : list N :=
  xor_bytes (xor_bytes (S1 S) (S4 S)) (and_bytes (S2 S) (S3 S)).
Definition crypt_block (S : state) (b : list N) : list N := xor_bytes b (key_block S).

Fixpoint encrypt_blocks (S : state) (ps : list (list N)) : list N * state :=
  match ps with
  | [] => ([], S)
  | p :: ps => let '(c, T) := encrypt_blocks (update S (pad16 p)) ps in
               (crypt_block S p ++ c, T)
  end.

(** Section 2.3.5, decryption. *)
Fixpoint decrypt_blocks (S : state) (cs : list (list N)) : list N * state :=
  match cs with
  | [] => ([], S)
  | c :: cs => let p := crypt_block S c in
               let '(r, T) := decrypt_blocks (update S (pad16 p)) cs in
               (p ++ r, T)
  end.

(** Section 2.3.4, finalization; lengths in bits, 64-bit little-endian. *)
Fixpoint repeat_update (n : nat) (m : list N) (S : state) : state :=
  match n with O => S | Datatypes.S n' => repeat_update n' m (update S m) end.
Definition lengths (adlen msglen : N) : list N := le_str 8 (8 * adlen) ++ le_str 8 (8 * msglen).
Definition finalize (S : state) (adlen msglen : N) : list N :=
  let S := repeat_update 7 (xor_bytes (S3 S) (lengths adlen msglen)) S in
  xor_bytes (xor_bytes (xor_bytes (xor_bytes (S0 S) (S1 S)) (S2 S)) (S3 S)) (S4 S).

Notation len l := (N.of_nat (length l)).

(** Ciphertext and 128-bit tag. *)
Definition aegis128_encrypt (K IV ad msg : list N) : list N * list N :=
  let '(c, T) := encrypt_blocks (absorb (initialize K IV) ad) (chunks 16 msg) in
  (c, finalize T (len ad) (len msg)).

(** Plaintext and the tag recomputed from it. *)
Definition aegis128_open (K IV ad ct : list N) : list N * list N :=
  let '(p, T) := decrypt_blocks (absorb (initialize K IV) ad) (chunks 16 ct) in
  (p, finalize T (len ad) (len ct)).

(** Section 2.3.5: the plaintext is released only if the tags agree. *)
Definition aegis128_decrypt (K IV ad ct tag : list N) : option (list N) :=
  let '(p, t) := aegis128_open K IV ad ct in
  if list_eq_dec N.eq_dec t tag then Some p else None.

(** ** Checks *)
Example const_values :
  const0 = [0x00;0x01;0x01;0x02;0x03;0x05;0x08;0x0d;0x15;0x22;0x37;0x59;0x90;0xe9;0x79;0x62] /\
  const1 = [0xdb;0x3d;0x18;0x55;0x6d;0xc2;0x2f;0xf1;0x20;0x11;0x31;0x42;0x73;0xb5;0x28;0xdd].
Proof. vm_compute. split; reflexivity. Qed.

Definition hex (n : nat) (x : N) : list N := be_str n x.
(** Test vectors of the submission, section 4 (AEGIS-128). *)
Example vector1 :
  aegis128_encrypt (repeat 0 16%nat) (repeat 0 16%nat) [] (repeat 0 16%nat) =
  (hex 16 0x951B050FA72B1A2FC16D2E1F01B07D7E, hex 16 0xA7D2A99773249542F422217EE888D5F1).
Proof. vm_compute. reflexivity. Qed.
Example vector2 :
  aegis128_encrypt (repeat 0 16%nat) (repeat 0 16%nat) (repeat 0 16%nat) (repeat 0 16%nat) =
  (hex 16 0x10B0DEE65A97D751205C128A992473A1, hex 16 0x46DCB9EE93C46CF13731D41B9646C131).
Proof. vm_compute. reflexivity. Qed.
Example vector3 :
  aegis128_encrypt (hex 16 0x00010000000000000000000000000000) (hex 16 0x00000200000000000000000000000000)
    [0; 1; 2; 3] (repeat 0 16%nat) =
  (hex 16 0x2B78F5C1618DA39AFBB2920F5DAE02B0, hex 16 0x74759CD0E19314650D6C635B563D80FD).
Proof. vm_compute. reflexivity. Qed.
Example vector4 :
  aegis128_encrypt (hex 16 0x10010000000000000000000000000000) (hex 16 0x10000200000000000000000000000000)
    (map N.of_nat (seq 0 8)) (map N.of_nat (seq 0 32)) =
  (hex 32 0xE08EC10685D63C7364ECA78FF6E1A1DDFDFC15D5311A7F2988A0471A13973FD7,
   hex 16 0x27E84B6C4CC46CB6ECE8F1F3E4AA0E78).
Proof. vm_compute. reflexivity. Qed.
