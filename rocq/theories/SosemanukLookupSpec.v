(** Which table entries a Sosemanuk implementation with one table for
    multiplication by alpha and one for division by alpha reads, in terms of the
    eSTREAM specification only. *)
From Coq Require Import NArith List.
From Verif Require Import SosemanukSpec.
Import ListNotations.

Inductive table := OfDivision | OfMultiplication.
Definition entry := (table * N)%type.

(** Clocking the LFSR divides s_(t+3) by alpha, which takes its least significant
    byte through a table, and multiplies s_t by alpha, which takes its most
    significant byte through the other. *)
Definition step_entries (l : list N) : list entry :=
  [(OfDivision, (nth 3 l 0 mod 256)%N); (OfMultiplication, (nth 0 l 0 / 2^24)%N)].
Fixpoint steps_entries (n : nat) (l : list N) : list entry :=
  match n with
  | O => []
  | S n => step_entries l ++ steps_entries n (lfsr_next l)
  end.
