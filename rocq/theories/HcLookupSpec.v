(** Which entries of its tables HC-128 reads at places that depend on their
    contents, in terms of the eSTREAM specification only. *)
From Coq Require Import NArith Arith List.
From Verif Require Import HcSpec.
Import ListNotations.

Inductive table := TableP | TableQ.
Definition entry := (table * N)%type.

(** h1 and h2 take one entry of either half of a table, by the lowest and the
    third byte of their argument. *)
Definition h_entries (t : table) (x : N) : list entry :=
  [(t, (x mod 256)%N); (t, (256 + (x / 2^16) mod 256)%N)].
(** The argument of h1 or h2 in step [i]: the word twelve places back in the table
    that has just been stepped. *)
Definition h_argument (i : nat) (s : tables) : N :=
  let s' := snd (hc_step i s) in
  at_ (if i mod 1024 <? 512 then fst s' else snd s') (minus512 (i mod 512) 12).
Definition step_entries (i : nat) (s : tables) : list entry :=
  h_entries (if i mod 1024 <? 512 then TableQ else TableP) (h_argument i s).
Fixpoint steps_entries (i n : nat) (s : tables) : list entry :=
  match n with
  | O => []
  | S n => step_entries i s ++ steps_entries (S i) n (snd (hc_step i s))
  end.
