(** ChaCha as in RFC 7539 (32-bit block counter, 96-bit nonce). *)
From Coq Require Import NArith Arith List.
From Verif Require Import SpecWords.
Import ListNotations.
Local Open Scope N_scope.

Definition row : Type := N * N * N * N.
(** The 4x4 state, by rows. *)
Definition grid : Type := row * row * row * row.

(** Section 2.1 *)
Definition quarter (a b c d : N) : row :=
  let a := add_w32 a b in let d := rol_w32 16 (N.lxor d a) in
  let c := add_w32 c d in let b := rol_w32 12 (N.lxor b c) in
  let a := add_w32 a b in let d := rol_w32 8 (N.lxor d a) in
  let c := add_w32 c d in let b := rol_w32 7 (N.lxor b c) in
  (a, b, c, d).

(** Section 2.3: a round on the columns, and one on the diagonals, the latter
    written as rotating row [i] left by [i] places. *)
Definition columns (g : grid) : grid :=
  let '((a0, a1, a2, a3), (b0, b1, b2, b3), (c0, c1, c2, c3), (d0, d1, d2, d3)) := g in
  let '(a0, b0, c0, d0) := quarter a0 b0 c0 d0 in
  let '(a1, b1, c1, d1) := quarter a1 b1 c1 d1 in
  let '(a2, b2, c2, d2) := quarter a2 b2 c2 d2 in
  let '(a3, b3, c3, d3) := quarter a3 b3 c3 d3 in
  ((a0, a1, a2, a3), (b0, b1, b2, b3), (c0, c1, c2, c3), (d0, d1, d2, d3)).
Definition left1 (r : row) : row := let '(x0, x1, x2, x3) := r in (x1, x2, x3, x0).
Definition shift_rows (g : grid) : grid :=
  let '(a, b, c, d) := g in (a, left1 b, left1 (left1 c), left1 (left1 (left1 d))).
Definition unshift_rows (g : grid) : grid :=
  let '(a, b, c, d) := g in (a, left1 (left1 (left1 b)), left1 (left1 c), left1 d).
Definition double_round (g : grid) : grid :=
  unshift_rows (columns (shift_rows (columns g))).

Definition grid_words (g : grid) : list N :=
  let '((a0, a1, a2, a3), (b0, b1, b2, b3), (c0, c1, c2, c3), (d0, d1, d2, d3)) := g in
  [a0; a1; a2; a3; b0; b1; b2; b3; c0; c1; c2; c3; d0; d1; d2; d3].
Definition grid_of (l : list N) : grid :=
  let x i := nth i l 0 in
  ((x 0%nat, x 1%nat, x 2%nat, x 3%nat), (x 4%nat, x 5%nat, x 6%nat, x 7%nat),
   (x 8%nat, x 9%nat, x 10%nat, x 11%nat), (x 12%nat, x 13%nat, x 14%nat, x 15%nat)).

Definition iter {A} (n : nat) (f : A -> A) (x : A) : A := Nat.iter n f x.

(** "expand 32-byte k" read as four little-endian words. *)
Definition sigma_text : list N :=
  [101; 120; 112; 97; 110; 100; 32; 51; 50; 45; 98; 121; 116; 101; 32; 107].

Definition init_words (key nonce : list N) (counter : N) : list N :=
  map le_num (chunks 4 sigma_text) ++ map le_num (chunks 4 key) ++
  [counter mod 2^32] ++ map le_num (chunks 4 nonce).

(** [rounds] is 20 in RFC 7539; 12 and 8 are the reduced variants. *)
Definition chacha_block_words (rounds : nat) (w : list N) : list N :=
  map (fun p => add_w32 (fst p) (snd p))
      (combine (grid_words (iter (rounds / 2) double_round (grid_of w))) w).

Definition chacha_block_bytes (rounds : nat) (key nonce : list N) (counter : N) : list N :=
  flat_map (le_str 4) (chacha_block_words rounds (init_words key nonce counter)).

(** Key stream of [n] blocks, counters 1, 2, ... modulo 2^32. *)
Definition chacha_stream (rounds : nat) (key nonce : list N) (n : nat) : list N :=
  flat_map (fun i => chacha_block_bytes rounds key nonce (N.of_nat i)) (seq 1 n).

(** Section 2.4 with initial counter 1. *)
Definition chacha_encrypt (rounds : nat) (key nonce data : list N) : list N :=
  xor_bytes data (chacha_stream rounds key nonce (length data / 64 + 1)).

(** *** Test vectors: RFC 7539 sections 2.1.1, 2.3.2 and the start of 2.4.2 *)
Example quarter_rfc : quarter 0x11111111 0x01020304 0x9b8d6f43 0x01234567 =
  (0xea2a92f4, 0xcb1cf8ce, 0x4581472e, 0x5881c4bb).
Proof. vm_compute. reflexivity. Qed.

Example block_rfc :
  chacha_block_bytes 20 (map N.of_nat (seq 0 32)) [0; 0; 0; 9; 0; 0; 0; 0x4a; 0; 0; 0; 0] 1 =
  [0x10; 0xf1; 0xe7; 0xe4; 0xd1; 0x3b; 0x59; 0x15; 0x50; 0x0f; 0xdd; 0x1f; 0xa3; 0x20; 0x71; 0xc4;
   0xc7; 0xd1; 0xf4; 0xc7; 0x33; 0xc0; 0x68; 0x03; 0x04; 0x22; 0xaa; 0x9a; 0xc3; 0xd4; 0x6c; 0x4e;
   0xd2; 0x82; 0x64; 0x46; 0x07; 0x9f; 0xaa; 0x09; 0x14; 0xc2; 0xd7; 0x05; 0xd9; 0x8b; 0x02; 0xa2;
   0xb5; 0x12; 0x9c; 0xd1; 0xde; 0x16; 0x4e; 0xb9; 0xcb; 0xd0; 0x83; 0xe8; 0xa2; 0x50; 0x3c; 0x4e].
Proof. vm_compute. reflexivity. Qed.
