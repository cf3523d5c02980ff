(** Key stream that goes by constant steps, and packets of at most one word
    encrypted with it. *)
From Coq Require Import NArith List.
From Verif Require Import SpecWords.
Import ListNotations.

(** Word [n] of the stream, from three words that never change. *)
Definition stepping_word (x a d : N) (n : nat) : N := N.lxor x ((a + N.of_nat (S n) * d) mod 2^32)%N.

(** The packets, packet 0 of the list being number [n]. *)
Fixpoint stepping_packets (x a d : N) (n : nat) (ds : list (list N)) : list (list N) :=
  match ds with
  | [] => []
  | e :: ds => xor_bytes e (le_str 4 (stepping_word x a d n)) :: stepping_packets x a d (S n) ds
  end.
