(** AES-128 as in FIPS 197, and the CTR and CFB-128 modes of SP 800-38A.
    Independent of the model: the S-box is computed from inversion in GF(2^8)
    and the affine map, the state is a list of 16 bytes in input order. *)
From Coq Require Import Arith NArith List.
From Verif Require Import SpecWords.
Import ListNotations.
Local Open Scope N_scope.

(** ** GF(2^8), FIPS 197 section 4.2: bytes are polynomials modulo
    x^8 + x^4 + x^3 + x + 1. *)
Definition xtime (a : N) : N :=
  if 128 <=? a then N.lxor (2 * a - 256) 0x1b else 2 * a.

(** Multiplication, scanning the bits of [b] from the least significant. *)
Fixpoint gf_mul_bits (n : nat) (a b : N) : N :=
  match n with
  | O => 0
  | S n' => N.lxor (if N.odd b then a else 0) (gf_mul_bits n' (xtime a) (b / 2))
  end.
Definition gf_mul (a b : N) : N := gf_mul_bits 8 a b.

Fixpoint gf_pow (a : N) (n : nat) : N :=
  match n with O => 1 | S n' => gf_mul a (gf_pow a n') end.
(** The inverse, 0 for 0: a^254 = a^2 a^4 a^8 ... a^128. *)
Fixpoint gf_squares (n : nat) (a : N) : N :=
  match n with O => 1 | S n' => let a2 := gf_mul a a in gf_mul a2 (gf_squares n' a2) end.
Definition gf_inv (a : N) : N := gf_squares 7 a.

(** ** S-box, section 5.1.1: inversion followed by the affine map
    b'_i = b_i + b_(i+4) + b_(i+5) + b_(i+6) + b_(i+7) + c_i, c = 0x63. *)
Definition bit (b : N) (i : nat) : bool := N.testbit b (N.of_nat (i mod 8)%nat).
Definition affine_bit (b : N) (i : nat) : bool :=
  xorb (bit b i) (xorb (bit b (i + 4)%nat) (xorb (bit b (i + 5)%nat)
    (xorb (bit b (i + 6)%nat) (xorb (bit b (i + 7)%nat) (bit 0x63 i))))).
Definition affine (b : N) : N :=
  fold_right (fun i acc => N.b2n (affine_bit b i) * 2 ^ N.of_nat i + acc) 0 (seq 0 8).
Definition sbox (a : N) : N := affine (gf_inv a).

(** ** The cipher, sections 5.1-5.1.4.  Byte r + 4c of the state is row r of
    column c. *)
Definition byte (s : list N) (r c : nat) : N := nth (r + 4 * c)%nat s 0.
Definition positions : list (nat * nat) :=
  flat_map (fun c => map (fun r => (r, c)) (seq 0 4)) (seq 0 4).

Definition sub_bytes (s : list N) : list N := map sbox s.
Definition shift_rows (s : list N) : list N :=
  map (fun p => byte s (fst p) ((snd p + fst p) mod 4)%nat) positions.
(** Row r of the new column: 2 s_r + 3 s_(r+1) + s_(r+2) + s_(r+3). *)
Definition mix_columns (s : list N) : list N :=
  map (fun p : nat * nat => let (r, c) := p in
         N.lxor (gf_mul 2 (byte s r c)) (N.lxor (gf_mul 3 (byte s ((r + 1) mod 4)%nat c))
           (N.lxor (byte s ((r + 2) mod 4)%nat c) (byte s ((r + 3) mod 4)%nat c)))) positions.
Definition add_round_key (s k : list N) : list N := xor_bytes s k.

Definition aes_round (s k : list N) : list N :=
  add_round_key (mix_columns (shift_rows (sub_bytes s))) k.
Definition aes_final_round (s k : list N) : list N :=
  add_round_key (shift_rows (sub_bytes s)) k.

(** The cipher with first round key [k0], keys [ks] of the middle rounds and
    [kl] of the last. *)
Definition cipher (k0 : list N) (ks : list (list N)) (kl : list N) (s : list N) : list N :=
  aes_final_round (fold_left aes_round ks (add_round_key s k0)) kl.

(** ** Key expansion, section 5.2, for Nk = 4, on words of 4 bytes. *)
Definition rot_word (w : list N) : list N :=
  match w with a :: t => t ++ [a] | [] => [] end.
Definition sub_word (w : list N) : list N := map sbox w.
Definition rcon (i : nat) : list N := [gf_pow 2 (i - 1)%nat; 0; 0; 0].

(** The words w(i-4) .. w(i-1), the newest first, give w(i). *)
Definition next_word (i : nat) (prev4 prev1 : list N) : list N :=
  xor_bytes prev4
    (if Nat.eqb (i mod 4)%nat 0 then xor_bytes (sub_word (rot_word prev1)) (rcon (i / 4)%nat) else prev1).
Fixpoint expand (n : nat) (i : nat) (w : list (list N)) : list (list N) :=
  match n with
  | O => w
  | S n' => expand n' (S i) (w ++ [next_word i (nth (i - 4)%nat w []) (nth (i - 1)%nat w [])])
  end.
Definition key_words (key : list N) : list (list N) := expand 40 4 (chunks 4 key).
(** Round key [i]: words 4i .. 4i+3. *)
Definition round_key (key : list N) (i : nat) : list N :=
  concat (firstn 4 (skipn (4 * i)%nat (key_words key))).

Definition aes128 (key block : list N) : list N :=
  cipher (round_key key 0) (map (round_key key) (seq 1 9)) (round_key key 10) block.

(** The round-reduced variant of the library: middle rounds 1 to 4 left out. *)
Definition aes128_reduced (key block : list N) : list N :=
  cipher (round_key key 0) (map (round_key key) (seq 5 5)) (round_key key 10) block.

(** ** CTR mode, SP 800-38A section 6.5, with the counter blocks
    nonce (12 bytes) || counter (32-bit big-endian). *)
Definition ctr_block (E : list N -> list N) (nonce : list N) (ctr : N) : list N :=
  E (nonce ++ be_str 4 (ctr mod 2^32)).
(** [n] key stream blocks from counter value [ctr]. *)
Fixpoint ctr_stream (E : list N -> list N) (nonce : list N) (ctr : N) (n : nat) : list N :=
  match n with
  | O => []
  | S n' => ctr_block E nonce ctr ++ ctr_stream E nonce (ctr + 1) n'
  end.
Definition ctr_crypt (E : list N -> list N) (nonce : list N) (ctr : N) (data : list N) : list N :=
  xor_bytes data (ctr_stream E nonce ctr (length (chunks 16 data))).

(** A sequence of packets, each starting with a fresh counter block. *)
Fixpoint ctr_packets (E : list N -> list N) (nonce : list N) (ctr : N) (ds : list (list N)) : list (list N) :=
  match ds with
  | [] => []
  | d :: ds => ctr_crypt E nonce ctr d ::
               ctr_packets E nonce (ctr + N.of_nat (length (chunks 16 d))) ds
  end.

(** ** CFB mode with 128-bit segments, SP 800-38A section 6.3:
    C_1 = P_1 xor E(IV), C_j = P_j xor E(C_(j-1)). *)
Fixpoint cfb_enc_blocks (E : list N -> list N) (iv : list N) (ps : list (list N)) : list (list N) :=
  match ps with
  | [] => []
  | p :: ps => let c := xor_bytes p (E iv) in c :: cfb_enc_blocks E c ps
  end.
Fixpoint cfb_dec_blocks (E : list N -> list N) (iv : list N) (cs : list (list N)) : list (list N) :=
  match cs with
  | [] => []
  | c :: cs => xor_bytes c (E iv) :: cfb_dec_blocks E c cs
  end.
Definition cfb128_encrypt E iv data := concat (cfb_enc_blocks E iv (chunks 16 data)).
Definition cfb128_decrypt E iv data := concat (cfb_dec_blocks E iv (chunks 16 data)).

(** ** Checks against published values. *)
Example sbox_values : map sbox [0x00; 0x01; 0x53; 0xff] = [0x63; 0x7c; 0xed; 0x16].
Proof. vm_compute. reflexivity. Qed.
Example gf_inv_value : forallb (fun a => gf_mul (N.of_nat a) (gf_inv (N.of_nat a)) =? 1) (seq 1 255) = true.
Proof. vm_compute. reflexivity. Qed.
Example gf_mul_value : gf_mul 0x57 0x83 = 0xc1.   (* FIPS 197 section 4.2 *)
Proof. vm_compute. reflexivity. Qed.
(** FIPS 197 appendix C.1. *)
Example aes128_c1 :
  aes128 (map N.of_nat (seq 0 16))
    [0x00;0x11;0x22;0x33;0x44;0x55;0x66;0x77;0x88;0x99;0xaa;0xbb;0xcc;0xdd;0xee;0xff] =
  [0x69;0xc4;0xe0;0xd8;0x6a;0x7b;0x04;0x30;0xd8;0xcd;0xb7;0x80;0x70;0xb4;0xc5;0x5a].
Proof. vm_compute. reflexivity. Qed.
(** FIPS 197 appendix B. *)
Example aes128_b :
  aes128 [0x2b;0x7e;0x15;0x16;0x28;0xae;0xd2;0xa6;0xab;0xf7;0x15;0x88;0x09;0xcf;0x4f;0x3c]
    [0x32;0x43;0xf6;0xa8;0x88;0x5a;0x30;0x8d;0x31;0x31;0x98;0xa2;0xe0;0x37;0x07;0x34] =
  [0x39;0x25;0x84;0x1d;0x02;0xdc;0x09;0xfb;0xdc;0x11;0x85;0x97;0x19;0x6a;0x0b;0x32].
Proof. vm_compute. reflexivity. Qed.
(** Last round key of appendix A.1. *)
Example round_key_a1 :
  round_key [0x2b;0x7e;0x15;0x16;0x28;0xae;0xd2;0xa6;0xab;0xf7;0x15;0x88;0x09;0xcf;0x4f;0x3c] 10 =
  [0xd0;0x14;0xf9;0xa8;0xc9;0xee;0x25;0x89;0xe1;0x3f;0x0c;0xc8;0xb6;0x63;0x0c;0xa6].
Proof. vm_compute. reflexivity. Qed.
(** SP 800-38A F.3.13, CFB128-AES128, two segments. *)
Example cfb128_f313 :
  cfb128_encrypt
    (aes128 [0x2b;0x7e;0x15;0x16;0x28;0xae;0xd2;0xa6;0xab;0xf7;0x15;0x88;0x09;0xcf;0x4f;0x3c])
    (map N.of_nat (seq 0 16))
    [0x6b;0xc1;0xbe;0xe2;0x2e;0x40;0x9f;0x96;0xe9;0x3d;0x7e;0x11;0x73;0x93;0x17;0x2a;
     0xae;0x2d;0x8a;0x57;0x1e;0x03;0xac;0x9c;0x9e;0xb7;0x6f;0xac;0x45;0xaf;0x8e;0x51] =
  [0x3b;0x3f;0xd9;0x2e;0xb7;0x2d;0xad;0x20;0x33;0x34;0x49;0xf8;0xe8;0x3c;0xfb;0x4a;
   0xc8;0xa6;0x45;0x37;0xa0;0xb3;0xa9;0x3f;0xcd;0xe3;0xcd;0xad;0x9f;0x1c;0xe5;0x8b].
Proof. vm_compute. reflexivity. Qed.
(** RFC 3686 (AES-CTR for IPsec), test vector 1: counter block
    nonce || IV || 00000001. *)
Example ctr_rfc3686 :
  ctr_crypt
    (aes128 [0xAE;0x68;0x52;0xF8;0x12;0x10;0x67;0xCC;0x4B;0xF7;0xA5;0x76;0x55;0x77;0xF3;0x9E])
    [0;0;0;0x30; 0;0;0;0;0;0;0;0] 1
    [0x53;0x69;0x6E;0x67;0x6C;0x65;0x20;0x62;0x6C;0x6F;0x63;0x6B;0x20;0x6D;0x73;0x67] =
  [0xE4;0x09;0x5D;0x4F;0xB7;0xA7;0xB3;0x79;0x2D;0x61;0x75;0xA3;0x26;0x13;0x11;0xB8].
Proof. vm_compute. reflexivity. Qed.
