(** SHA-256 as in FIPS 180-4, and HMAC as in RFC 2104. *)
From Coq Require Import NArith Arith List.
From Verif Require Import SpecWords.
Import ListNotations.
Local Open Scope N_scope.

(** ** Constants, from their definition by roots of primes (FIPS 180-4, 4.2.2, 5.3.3) *)

Definition is_prime (p : N) : bool :=
  (1 <? p) && forallb (fun d => negb (p mod d =? 0))
                (map N.of_nat (seq 2 (N.to_nat p - 2))).
(** The first 64 primes lie below 312. *)
Definition primes : list N := filter is_prime (map N.of_nat (seq 2 310)).

(** Integer cube root, bit by bit. *)
Fixpoint cbrt_bits (bits : nat) (acc x : N) : N :=
  match bits with
  | O => acc
  | S b => let t := acc + 2 ^ N.of_nat b in
           cbrt_bits b (if t * t * t <=? x then t else acc) x
  end.
Definition cbrt (x : N) : N := cbrt_bits 36 0 x.

(** First 32 bits of the fractional parts of the cube roots of the primes. *)
Definition sha_K : list N := map (fun p => cbrt (p * 2^96) mod 2^32) primes.
(** First 32 bits of the fractional parts of the square roots of the first 8 primes. *)
Definition sha_H0 : list N := map (fun p => N.sqrt (p * 2^64) mod 2^32) (firstn 8 primes).

(** ** Functions (4.1.2) *)
Definition Ch (x y z : N) := N.lxor (N.land x y) (N.land (compl_w32 x) z).
Definition Maj (x y z : N) := N.lxor (N.lxor (N.land x y) (N.land x z)) (N.land y z).
Definition bigS0 x := N.lxor (N.lxor (ror_w32 2 x) (ror_w32 13 x)) (ror_w32 22 x).
Definition bigS1 x := N.lxor (N.lxor (ror_w32 6 x) (ror_w32 11 x)) (ror_w32 25 x).
Definition smallS0 x := N.lxor (N.lxor (ror_w32 7 x) (ror_w32 18 x)) (x / 2^3).
Definition smallS1 x := N.lxor (N.lxor (ror_w32 17 x) (ror_w32 19 x)) (x / 2^10).

(** ** Message schedule and compression (6.2.2) *)

(** Append [n] further schedule words to [w]. *)
Fixpoint extend (n : nat) (w : list N) : list N :=
  match n with
  | O => w
  | S n' =>
      let t := length w in
      let W i := nth i w 0 in
      extend n' (w ++ [(smallS1 (W (t - 2)%nat) + W (t - 7)%nat +
                        smallS0 (W (t - 15)%nat) + W (t - 16)%nat) mod 2^32])
  end.
Definition schedule (block : list N) : list N := extend 48 (map be_num (chunks 4 block)).

Definition state8 : Type := N * N * N * N * N * N * N * N.

Definition sha_step (s : state8) (kw : N * N) : state8 :=
  let '(a, b, c, d, e, f, g, h) := s in
  let t1 := (h + bigS1 e + Ch e f g + fst kw + snd kw) mod 2^32 in
  let t2 := (bigS0 a + Maj a b c) mod 2^32 in
  ((t1 + t2) mod 2^32, a, b, c, (d + t1) mod 2^32, e, f, g).

Definition add8 (x y : state8) : state8 :=
  let '(a, b, c, d, e, f, g, h) := x in
  let '(a', b', c', d', e', f', g', h') := y in
  (add_w32 a a', add_w32 b b', add_w32 c c', add_w32 d d',
   add_w32 e e', add_w32 f f', add_w32 g g', add_w32 h h').

Definition compress (H : state8) (block : list N) : state8 :=
  add8 (fold_left sha_step (combine sha_K (schedule block)) H) H.

Definition list8 (s : state8) : list N :=
  let '(a, b, c, d, e, f, g, h) := s in [a; b; c; d; e; f; g; h].
Definition state_of (l : list N) : state8 :=
  let x i := nth i l 0 in
  (x 0%nat, x 1%nat, x 2%nat, x 3%nat, x 4%nat, x 5%nat, x 6%nat, x 7%nat).

(** ** Padding (5.1.1) and the hash (6.2) *)
Definition pad (msg : list N) : list N :=
  let len := length msg in
  msg ++ [128] ++ repeat 0 ((119 - len mod 64) mod 64)%nat
      ++ be_str 8 ((8 * N.of_nat len) mod 2^64).

Definition SHA256 (msg : list N) : list N :=
  flat_map (be_str 4)
    (list8 (fold_left compress (chunks 64 (pad msg)) (state_of sha_H0))).

(** ** HMAC (RFC 2104) with block length 64 *)
Definition hmac_key (key : list N) : list N :=
  let k := if (length key <=? 64)%nat then key else SHA256 key in
  k ++ repeat 0 (64 - length k).

Definition HMAC (key msg : list N) : list N :=
  let k := hmac_key key in
  SHA256 (map (N.lxor 0x5c) k ++ SHA256 (map (N.lxor 0x36) k ++ msg)).
