(** Which S-box entries a DES implementation with one table per S-box reads, in
    terms of FIPS 46-3 only: the inputs of the S-boxes, as numbers, the first of
    the six bits most significant. *)
From Coq Require Import NArith List Bool.
From Verif Require Import SpecWords DesSpec.
Import ListNotations.

(** The number of the S-box, 1 to 8, and the entry. *)
Definition entry := (nat * N)%type.
(** The group of 2^g neighbouring entries instead of the entry. *)
Definition grouped (g : N) (tr : list entry) : list entry := map (fun '(i, x) => (i, x / 2^g)%N) tr.

(** The eight six-bit groups of 48 bits. *)
Definition six_nums (l : list bool) : list N := map (fun i => bits_num (firstn 6 (skipn (6 * i) l))) (seq 0 8).
(** One round: the inputs of the S-boxes are E(R) xor K; the even S-boxes are used
    first, downwards, then the odd ones. *)
Definition round_entries (R K : list bool) : list entry :=
  map (fun i => (i, nth (i - 1) (six_nums (xor (select E R) K)) 0%N)) [8;6;4;2;7;5;3;1]%nat.
Fixpoint rounds_entries (Ks : list (list bool)) (L R : list bool) : list entry :=
  match Ks with
  | [] => []
  | K :: Ks => round_entries R K ++ rounds_entries Ks R (xor L (f R K))
  end.
(** The library's block function, DES with one subkey in all sixteen rounds. *)
Definition one_subkey_entries (K : list bool) (block : list N) : list entry :=
  let x := select IP (bytes_bits (halves_reversed block)) in
  rounds_entries (repeat K 16) (firstn 32 x) (skipn 32 x).
