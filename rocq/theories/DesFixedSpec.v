(** Blocks that DES with one subkey in all rounds leaves as they are. *)
From Coq Require Import NArith List.
From Verif Require Import DesSpec.
Import ListNotations.

(** The two halves of a block after eight of the sixteen rounds. *)
Definition halfway (K : list bool) (block : list N) : list bool * list bool :=
  let x := select IP (bytes_bits (halves_reversed block)) in rounds (repeat K 8) (firstn 32 x) (skipn 32 x).

(** The block that has [H] in both halves then: from there eight rounds back. *)
Definition unchanged_block (K H : list bool) : list N :=
  let '(R, L) := rounds (repeat K 8) H H in halves_reversed (bits_bytes (select IP_inverse (L ++ R))).
