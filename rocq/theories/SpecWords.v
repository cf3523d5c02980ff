(** Arithmetic vocabulary of the specifications.  Nothing here mentions the
    model: words are natural numbers, reduction is [mod 2^n]. *)
From Coq Require Import NArith List.
Import ListNotations.
Local Open Scope N_scope.

(** Addition modulo 2^32, rotations of 32-bit words, complement. *)
Definition add_w32 (x y : N) : N := (x + y) mod 2^32.
Definition rol_w32 (k x : N) : N := (x * 2^k) mod 2^32 + x / 2^(32 - k).
Definition ror_w32 (k x : N) : N := rol_w32 (32 - k) x.
Definition compl_w32 (x : N) : N := 2^32 - 1 - x.

(** Numbers from byte strings, little- and big-endian, and back. *)
Fixpoint le_num (l : list N) : N :=
  match l with [] => 0 | b :: t => b + 256 * le_num t end.
Definition be_num (l : list N) : N := le_num (rev l).
Fixpoint le_str (n : nat) (w : N) : list N :=
  match n with O => [] | S n' => w mod 256 :: le_str n' (w / 256) end.
Definition be_str (n : nat) (w : N) : list N := rev (le_str n w).

(** Cut a list into consecutive pieces of [n] elements (the last may be short). *)
Fixpoint chunks_fuel {A} (fuel n : nat) (l : list A) : list (list A) :=
  match fuel, l with
  | O, _ => []
  | _, [] => []
  | S f, _ => firstn n l :: chunks_fuel f n (skipn n l)
  end.
Definition chunks {A} (n : nat) (l : list A) : list (list A) :=
  chunks_fuel (length l) n l.

(** Bytewise exclusive or; the result has the length of the shorter list. *)
Definition xor_bytes (a b : list N) : list N :=
  map (fun p => N.lxor (fst p) (snd p)) (combine a b).

Definition bytes_ok (l : list N) : Prop := Forall (fun x => x < 256) l.
Definition words_ok (l : list N) : Prop := Forall (fun x => x < 2^32) l.
