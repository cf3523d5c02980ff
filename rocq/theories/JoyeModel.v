(** Model of AsymmetricCryptography/Joye_libert/joye_libert.cpp.

    mpz_t arguments are variables of the store, local mpz_t variables are let-bound.
    msgsize and keysize are the values of the uint32_t arguments. *)
From Coq Require Import ZArith List Bool.
From Verif Require Import Res Mem Gmp.
Import ListNotations.
Local Open Scope Z_scope.

(** What keygen (joye_libert.cpp:13-160) uses of GMP's number theory, left open:
    mpz_probab_prime_p(_, 30), mpz_nextprime, mpz_legendre, and the stream of a generator just set up with gmp_randinit_mt. *)
Record gmp := Gmp { probab_prime : Z -> bool; nextprime : Z -> Z; legendre : Z -> Z -> Z; mt : rng }.

(** The search for p, joye_libert.cpp:70-98. *)
Definition find_p (G : gmp) (fuel : nat) (divisor p_test : Z) : res Z :=
  let* (p_test, _) := while fuel (fun '(_, found) => negb found)
    (fun '(p_test, _) =>
       let* found :=
         if probab_prime G p_test then
           let tmp := p_test - 1 in
           let* pseudo_test_p := mpz_divexact tmp divisor in
           Ret (probab_prime G pseudo_test_p)
         else Ret false in
       if (found : bool) then Ret (p_test, true) else Ret (p_test + divisor, false))
    (p_test, false) in
  Ret p_test.

(** The search for q, joye_libert.cpp:106-126. *)
Definition find_q (G : gmp) (fuel : nat) (q_test : Z) : res Z :=
  let* (q_test, _) := while fuel (fun '(_, found) => negb found)
    (fun '(q_test, _) =>
       if probab_prime G q_test && (q_test mod 4 =? 3) then Ret (q_test, true)
       else Ret (nextprime G q_test, false))
    (q_test, false) in
  Ret q_test.

(** The search for y, joye_libert.cpp:143-148. *)
Definition find_y (G : gmp) (fuel : nat) (s : store) (N y p : ref) (q : Z) (g : rng) : res store :=
  let s := zset s y 0 in
  let* (s, _) := while fuel
    (fun '(s, g) => negb (legendre G (zget s y) (zget s p) =? -1) || negb (legendre G (zget s y) q =? -1))
    (fun '(s, g) => let* (v, g) := mpz_urandomm g (zget s N) in Ret (zset s y v, g))
    (s, g) in
  Ret s.

(** joye_libert_keygen, joye_libert.cpp:13-160.  The symbols computed at the end are unused. *)
Definition joye_libert_keygen (G : gmp) (fuel : nat) (s : store) (N y p : ref) (msgsize keysize : nat) : res store :=
  let g := mt G in
  let divisor := pow2 msgsize in
  let (p_test, g) := mpz_urandomb g (keysize / 2) in
  let* mod_ := mpz_mod p_test divisor in
  let p_test := p_test - mod_ in
  let p_test := p_test + 1 in
  let* p_test := find_p G fuel divisor p_test in
  let s := zset s p p_test in
  let (q_test, g) := mpz_urandomb g (keysize / 2) in
  let q_test := nextprime G q_test in
  let* q := find_q G fuel q_test in
  let s := zset s N (zget s p * q) in
  find_y G fuel s N y p q g.

(** joye_libert_encrypt, joye_libert.cpp:162-199. *)
Definition joye_libert_encrypt (fuel : nat) (s : store) (c : ref) (g : rng) (m y N : ref) (msgsize : nat) : res (store * rng) :=
  let* (x, g) := while fuel (fun '(x, _) => x =? 0) (fun '(_, g) => mpz_urandomm g (zget s N)) (0, g) in
  let k_exp := pow2 msgsize in
  let* tmp1 := mpz_powm (zget s y) (zget s m) (zget s N) in
  let* tmp2 := mpz_powm x k_exp (zget s N) in
  let s := zset s c (tmp1 * tmp2) in
  let* r := mpz_mod (zget s c) (zget s N) in
  Ret (zset s c r, g).

(** The loop body of joye_libert_decrypt, joye_libert.cpp:237-251. *)
Definition decrypt_step (m p : ref) (msgsize : nat) (j : nat) (t : store * Z * Z * Z) : res (store * Z * Z * Z) :=
  let '(s, B, D, C) := t in
  let exp_c := pow2 (msgsize - j) in
  let* z := mpz_powm C exp_c (zget s p) in
  let* (s, C) :=
    if negb (z =? 1) then
      let s := zset s m (zget s m + B) in
      let* C := mpz_mod (C * D) (zget s p) in
      Ret (s, C)
    else Ret (s, C) in
  let B := B + B in
  let* D := mpz_powm D 2 (zget s p) in
  Ret (s, B, D, C).

(** joye_libert_decrypt, joye_libert.cpp:201-258.  The loop counts j from 1 to msgsize - 1. *)
Definition joye_libert_decrypt (s : store) (m c p y : ref) (msgsize : nat) : res store :=
  let s := zset s m 0 in
  let B := 1 in
  let p_1 := zget s p - 1 in
  let exp_msgsize := pow2 msgsize in
  let* exp_y := mpz_divexact p_1 exp_msgsize in
  let neg_exp_y := - exp_y in
  let* D := mpz_powm (zget s y) neg_exp_y (zget s p) in
  let* C := mpz_powm (zget s c) exp_y (zget s p) in
  let* (s, B, D, C) := for_n (msgsize - 1) 1 (decrypt_step m p msgsize) (s, B, D, C) in
  if negb (C =? 1) then Ret (zset s m (zget s m + B)) else Ret s.
