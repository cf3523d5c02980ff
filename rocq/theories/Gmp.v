(** The GMP functions used in AsymmetricCryptography/, by their documented
    meaning (GMP manual, chapter 5).  An mpz_t variable is an index into a
    store, so that arguments may be the same variable.  Memory allocation is
    taken to succeed; a division by zero and the use of an undefined result are UB. *)
From Coq Require Import ZArith Zpow_facts List Bool.
From Verif Require Import Res Mem.
Import ListNotations.
Local Open Scope Z_scope.

(** The mpz_t variables: those of Joye_libert/joye_libert.cpp:26-39, LabeledHE/main.cpp:11-188. *)
Definition store := list Z.
(** A variable: the arguments of type mpz_t of Joye_libert/joye_libert.h:15-17. *)
Definition ref := nat.
Bind Scope nat_scope with ref.
(** The value of a variable.  An mpz_t starts as 0 (mpz_init, joye_libert.cpp:28-39). *)
Definition zget (s : store) (v : ref) : Z := nth v s 0.
(** The effect of mpz_set and of every result argument, e.g. joye_libert.cpp:193-194. *)
Definition zset (s : store) (v : ref) (x : Z) : store := upd v x s.

(** gmp_randstate_t, joye_libert.cpp:23-24 and 164: the numbers it is going to produce, before reduction to the
    range asked for.  Nothing is assumed about them. *)
Definition rng := nat -> Z.
(** The generator after one number has been drawn, joye_libert.cpp:45, 104, 147, 175. *)
Definition rng_tail (g : rng) : rng := fun n => g (S n).

(** mpz_urandomb, joye_libert.cpp:45, 104, mu_labeled_he.cpp:35: 0 to 2^n - 1. *)
Definition mpz_urandomb (g : rng) (n : nat) : Z * rng := (g 0%nat mod 2 ^ Z.of_nat n, rng_tail g).
(** mpz_urandomm, joye_libert.cpp:147, 175: 0 to n - 1. *)
Definition mpz_urandomm (g : rng) (n : Z) : res (Z * rng) :=
  if n =? 0 then UB else Ret (g 0%nat mod Z.abs n, rng_tail g).

(** mpz_mod, joye_libert.cpp:50, 194, 247, labeled_he.cpp:81 and others. *)
Definition mpz_mod (n d : Z) : res Z := if d =? 0 then UB else Ret (n mod Z.abs d).
(** mpz_divexact, joye_libert.cpp:83, 226: undefined unless d divides n. *)
Definition mpz_divexact (n d : Z) : res Z :=
  if d =? 0 then UB else if n mod d =? 0 then Ret (n / d) else UB.
(** mpz_ui_pow_ui(_, 2, k), joye_libert.cpp:42, 183, 225, 239, labeled_he.cpp:79 and others. *)
Definition pow2 (k : nat) : Z := 2 ^ Z.of_nat k.

(** mpz_invert, labeled_he.cpp:250, 271: Euclid's algorithm. *)
Fixpoint inv_loop (fuel : nat) (r0 r1 t0 t1 : Z) : Z * Z :=
  match fuel with
  | O => (r0, t0)
  | S f => if r1 =? 0 then (r0, t0) else inv_loop f r1 (r0 mod r1) t1 (t0 - r0 / r1 * t1)
  end.
(** The inverse; None if there is none (labeled_he.cpp:250, 271). *)
Definition inverse (b m : Z) : option Z :=
  let m := Z.abs m in
  let '(g, t) := inv_loop (Z.to_nat (2 * (Z.log2 m + 1))) m (b mod m) 0 1 in
  if (m =? 0) || negb (g =? 1) then None else Some (t mod m).
(** mpz_invert, labeled_he.cpp:250, 271: the code uses the result without looking
    whether there is one. *)
Definition mpz_invert (b m : Z) : res Z := match inverse b m with Some r => Ret r | None => UB end.

(** mpz_powm, joye_libert.cpp:190-191, 228-240, labeled_he.cpp:117-118 and others: a negative exponent needs the inverse. *)
Definition mpz_powm (b e m : Z) : res Z :=
  if m =? 0 then UB
  else if 0 <=? e then Ret (Zpow_mod b e (Z.abs m))
  else let* i := mpz_invert b m in Ret (Zpow_mod i (- e) (Z.abs m)).

(** A local mpz_t that is passed to a function: a new variable at the end of the store
    (labeled_he.cpp:75-77, joye_libert.cpp:170-171). *)
Definition local (s : store) (x : Z) : store * ref := (s ++ [x], length s).
(** The end of its scope, labeled_he.cpp:82, joye_libert.cpp:199: nothing names it any
    more.  The code never calls mpz_clear; that leak is not modelled. *)
Definition drop_local (s : store) : store := removelast s.

(** The [n] low bytes, least significant first (mpz_export, labeled_he.cpp:60). *)
Fixpoint low_bytes (n : nat) (z : Z) : list N :=
  match n with O => [] | S n' => Z.to_N (z mod 256) :: low_bytes n' (z / 256) end.
(** How many bytes mpz_export writes, labeled_he.cpp:60. *)
Definition size_in_bytes (z : Z) : nat := if z =? 0 then 0 else Z.to_nat (Z.log2 (Z.abs z) / 8 + 1).
(** mpz_export(_, _, 1, 1, 0, 0, z), labeled_he.cpp:60: the bytes of |z|, most
    significant first, nothing for 0. *)
Definition mpz_export (m : mem) (p : ptr) (z : Z) : res mem := stn m p (rev (low_bytes (size_in_bytes z) (Z.abs z))).

(** mpz_import(_, n, 1, 4, 0, 0, p), labeled_he.cpp:66: n words, the most significant first, each in the byte order of the host. *)
Definition mpz_import (m : mem) (p : ptr) (n : nat) : res Z :=
  for_n n 0 (fun i z => let* w := ld32 m (padd p (4 * i)) in Ret (z * 2 ^ 32 + Z.of_N w)) 0.
