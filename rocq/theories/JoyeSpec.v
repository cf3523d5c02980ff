(** The Joye-Libert cryptosystem (ia.cr/2013/435, section 4), over the integers. *)
From Coq Require Import ZArith Znumtheory.
Local Open Scope Z_scope.

(** [a] is not a square modulo [p]. *)
Definition nonresidue (a p : Z) : Prop := forall x, (x * x) mod p <> a mod p.

(** Keys: odd primes p = 1 (mod 2^k) and q, and y a non-residue modulo both. *)
Record valid_key (k : nat) (p q y : Z) : Prop := {
  key_p : prime p; key_q : prime q; key_p2 : 2 < p; key_q2 : 2 < q;
  key_k : (2 ^ Z.of_nat k | p - 1);
  key_yp : nonresidue y p; key_yq : nonresidue y q }.

(** [c] is an encryption of [m] with the random number [x]: c = y^m x^(2^k) mod N. *)
Definition encryption (k : nat) (y N m x : Z) : Z := (y ^ m * x ^ (2 ^ Z.of_nat k)) mod N.

(** The random number that encryption takes from the numbers [g 0], [g 1], ...:
    the first that is not a multiple of N, reduced modulo N. *)
Definition draw (g : nat -> Z) (N : Z) (n : nat) : Prop := (forall i, (i < n)%nat -> g i mod N = 0) /\ g n mod N <> 0.
