(** The Serpent block cipher (Anderson, Biham, Knudsen, "Serpent: a proposal
    for the Advanced Encryption Standard", bitslice description), and Serpent24
    as defined in section 2.1 of the eSTREAM Sosemanuk specification.  Nothing
    here mentions the model. *)
From Coq Require Import NArith Arith List.
From Verif Require Import SpecWords.
Import ListNotations.
Local Open Scope N_scope.

(** The eight 4-bit S-boxes. *)
Definition S_tables : list (list N) := [
  [ 3;  8; 15;  1; 10;  6;  5; 11; 14; 13;  4;  2;  7;  0;  9; 12];
  [15; 12;  2;  7;  9;  0;  5; 10;  1; 11; 14;  8;  6; 13;  3;  4];
  [ 8;  6;  7;  9;  3; 12; 10; 15; 13;  1; 14;  4;  0; 11;  5;  2];
  [ 0; 15; 11;  8; 12;  9;  6;  3; 13;  1;  2;  4; 10;  7;  5; 14];
  [ 1; 15;  8;  3; 12;  0; 11;  6;  2;  5;  4; 10;  9; 14;  7; 13];
  [15;  5;  2; 11;  4; 10;  9; 12;  0;  3; 14;  8; 13;  6;  7;  1];
  [ 7;  2; 12;  5;  8;  4;  6; 11; 14;  9;  1; 15; 13;  3; 10;  0];
  [ 1; 13; 15;  0; 14;  8;  2; 11;  7;  4; 12; 10;  9;  3;  5;  6]].
Definition S_apply (k : nat) (x : N) : N := nth (N.to_nat x) (nth k S_tables []) 0.

(** The 32-bit word whose bit [i] is [f i]. *)
Definition word_of (f : N -> bool) : N :=
  fold_right N.add 0 (map (fun i => if f (N.of_nat i) then 2 ^ N.of_nat i else 0) (seq 0 32)).

(** Bit column [i] of four words as a number from 0 to 15 (word 0 gives the
    least significant bit), and S-box [k] applied to all 32 columns. *)
Definition column (x : list N) (i : N) : N :=
  fold_right (fun w c => N.b2n (N.testbit w i) + 2 * c) 0 x.
Definition S_words (k : nat) (x : list N) : list N :=
  map (fun j => word_of (fun i => N.testbit (S_apply k (column x i)) j)) [0; 1; 2; 3].

(** The linear transformation. *)
Definition LT (x : list N) : list N :=
  match x with
  | [x0; x1; x2; x3] =>
      let x0 := rol_w32 13 x0 in
      let x2 := rol_w32 3 x2 in
      let x1 := N.lxor x1 (N.lxor x0 x2) in
      let x3 := N.lxor x3 (N.lxor x2 ((x0 * 2^3) mod 2^32)) in
      let x1 := rol_w32 1 x1 in
      let x3 := rol_w32 7 x3 in
      let x0 := N.lxor x0 (N.lxor x1 x3) in
      let x2 := N.lxor x2 (N.lxor x3 ((x1 * 2^7) mod 2^32)) in
      [rol_w32 5 x0; x1; rol_w32 22 x2; x3]
  | _ => x
  end.

Definition xor_words (a b : list N) : list N := map (fun p => N.lxor (fst p) (snd p)) (combine a b).

(** Keys shorter than 256 bits are padded with a one bit and zero bits; bit 0
    of a byte comes first, so the byte after the key is 0x01. *)
Definition pad_with (first : N) (k : list N) : list N := firstn 32 (k ++ [first] ++ repeat 0 32).
Definition pad_key (k : list N) : list N := pad_with 0x01 k.
Definition key_words (k : list N) : list N := map le_num (chunks 4 k).

(** Prekeys w_0, w_1, ...: [l] holds the last eight, oldest first. *)
Definition golden : N := 0x9e3779b9.
Fixpoint prekey_list (n : nat) (i : N) (l : list N) : list N :=
  match n, l with
  | S n', [a; b; c; d; e; f; g; h] =>
      let w := rol_w32 11 (N.lxor a (N.lxor d (N.lxor f (N.lxor h (N.lxor golden i))))) in
      w :: prekey_list n' (i + 1) [b; c; d; e; f; g; h; w]
  | _, _ => []
  end.
(** Subkey K_i = S_((3-i) mod 8) (w_4i, ..., w_4i+3), for a 32-byte key. *)
Definition key_sbox (i : nat) : nat := (35 - i) mod 8.
Definition subkeys_of (k : list N) : list (list N) :=
  let w := prekey_list 100 0 (key_words k) in
  map (fun i => S_words (key_sbox i) (firstn 4 (skipn (4 * i) w))) (seq 0 25).
Definition subkey_list (k : list N) : list (list N) := subkeys_of (pad_key k).

(** Round [i] (from 0) and the state after [n] rounds. *)
Definition round (ks : list (list N)) (i : nat) (x : list N) : list N :=
  LT (S_words (i mod 8) (xor_words x (nth i ks []))).
Definition after (ks : list (list N)) (n : nat) (x : list N) : list N :=
  fold_left (fun x i => round ks i x) (seq 0 n) x.

(** What Sosemanuk takes from Serpent24: the states after 12 and 18 rounds, and
    the output: 24 rounds, all with the linear transformation, and subkey 25. *)
Definition serpent24 (ks : list (list N)) (x : list N) : list (list N) :=
  [after ks 12 x; after ks 18 x; xor_words (after ks 24 x) (nth 24 ks [])].
Definition block_words (b : list N) : list N := map le_num (chunks 4 b).
