(** Packets whose longest ones end in a word encrypted with key stream that goes
    by constant steps. *)
From Coq Require Import NArith Arith List.
From Verif Require Import SpecWords HcSmallSpec.
Import ListNotations.

(** The packets [ds] became [es]; in those that reach into word [j], this word is
    encrypted with the next word of the stepping stream, [n] being the first. *)
Fixpoint last_words_step (j : nat) (x a d : N) (n : nat) (ds es : list (list N)) : Prop :=
  match ds, es with
  | [], [] => True
  | e :: ds, c :: es =>
      if 4 * j <? length e
      then skipn (4 * j) c = xor_bytes (skipn (4 * j) e) (le_str 4 (stepping_word x a d n)) /\
           last_words_step j x a d (S n) ds es
      else last_words_step j x a d n ds es
  | _, _ => False
  end.
