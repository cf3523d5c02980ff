(** Model of AsymmetricCryptography/Labeled_homomorphic_encryption/LabeledHE/labeled_he.cpp
    and of muLabeledHE/mu_labeled_he.cpp, whose bodies are the same apart from mu_he_keygen.

    Variables of type mpz_t are those of the store (Gmp.v); output to the terminal and unused
    variables are left out.  The include paths of muLabeledHE are taken to be put right. *)
From Coq Require Import NArith ZArith List Bool.
From Verif Require Import Res Mem Gmp JoyeModel.
From Verif Require HcModel.
Import ListNotations.
Local Open Scope Z_scope.

(** struct he_ct, labeled_he.h:8-12. *)
Record he_ct := Ct { ct_a : ref; ct_beta : ref }.

(** he_keygen, labeled_he.cpp:12-30; mu_he_setup, mu_labeled_he.cpp:13-24. *)
Definition he_keygen := joye_libert_keygen.

(** The computation of b, labeled_he.cpp:55-66; mu_labeled_he.cpp:64-74.  [stack] is what the memory of the array
    holds before: an indeterminate cell or a byte. *)
Definition label_value (stack : nat -> option N) (hc_cs : HcModel.hc128_state) (label : Z) (msgsize : nat)
    : res (HcModel.hc128_state * Z) :=
  let keystream := Ptr 0 0 in
  let m := [map stack (seq 0 (msgsize / 8))] in
  let* m := mpz_export m keystream label in
  let* (hc_cs, m) := HcModel.hc128_process_packet hc_cs m keystream keystream (N.of_nat (msgsize / 8)) in
  let* b := mpz_import m keystream (msgsize / 32) in
  Ret (hc_cs, b).

(** he_encrypt, labeled_he.cpp:32-82; mu_he_encrypt, mu_labeled_he.cpp:41-90. *)
Definition he_encrypt (fuel : nat) (stack : nat -> option N) (s : store) (c : he_ct) (g : rng) (hc_cs : HcModel.hc128_state)
    (b m y N label : ref) (msgsize : nat) : res (store * rng * HcModel.hc128_state) :=
  let* (hc_cs, v) := label_value stack hc_cs (zget s label) msgsize in
  let s := zset s b v in
  let* (s, g) := joye_libert_encrypt fuel s (ct_beta c) g b y N msgsize in
  let ptspace := pow2 msgsize in
  let s := zset s (ct_a c) (zget s m - zget s b) in
  let* r := mpz_mod (zget s (ct_a c)) ptspace in
  Ret (zset s (ct_a c) r, g, hc_cs).

(** alpha = alpha * t mod N, as in labeled_he.cpp:122-125. *)
Definition mul_mod (s : store) (alpha : ref) (t : Z) (N : ref) : res store :=
  let s := zset s alpha (zget s alpha * t) in
  let* r := mpz_mod (zget s alpha) (zget s N) in
  Ret (zset s alpha r).

(** he_eval_mult, labeled_he.cpp:84-126; mu_he_eval_mult, mu_labeled_he.cpp:92-134. *)
Definition he_eval_mult (fuel : nat) (s : store) (alpha : ref) (g : rng) (ct1 ct2 : he_ct) (y N : ref) (msgsize : nat)
    : res (store * rng) :=
  let ptspace := pow2 msgsize in
  let* a1a2 := mpz_mod (zget s (ct_a ct1) * zget s (ct_a ct2)) ptspace in
  let (s, a1a2) := local s a1a2 in
  let* (s, g) := joye_libert_encrypt fuel s alpha g a1a2 y N msgsize in
  let s := drop_local s in
  let* a2beta1 := mpz_powm (zget s (ct_beta ct2)) (zget s (ct_a ct1)) (zget s N) in
  let* a1beta2 := mpz_powm (zget s (ct_beta ct1)) (zget s (ct_a ct2)) (zget s N) in
  let* s := mul_mod s alpha a1beta2 N in
  let* s := mul_mod s alpha a2beta1 N in
  Ret (s, g).

(** he_eval_mult_3, labeled_he.cpp:128-189; mu_he_eval_mult_3, mu_labeled_he.cpp:136-197. *)
Definition he_eval_mult_3 (fuel : nat) (s : store) (alpha : ref) (g : rng) (ct1 ct2 ct3 : he_ct) (beta12 beta13 beta23 y N : ref)
    (msgsize : nat) : res (store * rng) :=
  let ptspace := pow2 msgsize in
  let* a1a2a3 := mpz_mod (zget s (ct_a ct1) * zget s (ct_a ct2)) ptspace in
  let* a1a2a3 := mpz_mod (a1a2a3 * zget s (ct_a ct3)) ptspace in
  let (s, a1a2a3) := local s a1a2a3 in
  let* (s, g) := joye_libert_encrypt fuel s alpha g a1a2a3 y N msgsize in
  let s := drop_local s in
  let* a1beta23 := mpz_powm (zget s beta23) (zget s (ct_a ct1)) (zget s N) in
  let* a2beta13 := mpz_powm (zget s beta13) (zget s (ct_a ct2)) (zget s N) in
  let* a3beta12 := mpz_powm (zget s beta12) (zget s (ct_a ct3)) (zget s N) in
  let* a12beta3 := mpz_powm (zget s (ct_beta ct3)) (zget s (ct_a ct1)) (zget s N) in
  let* a12beta3 := mpz_powm a12beta3 (zget s (ct_a ct2)) (zget s N) in
  let* a13beta2 := mpz_powm (zget s (ct_beta ct2)) (zget s (ct_a ct1)) (zget s N) in
  let* a13beta2 := mpz_powm a13beta2 (zget s (ct_a ct3)) (zget s N) in
  let* a23beta1 := mpz_powm (zget s (ct_beta ct1)) (zget s (ct_a ct2)) (zget s N) in
  let* a23beta1 := mpz_powm a23beta1 (zget s (ct_a ct3)) (zget s N) in
  let* s := mul_mod s alpha a1beta23 N in
  let* s := mul_mod s alpha a2beta13 N in
  let* s := mul_mod s alpha a3beta12 N in
  let* s := mul_mod s alpha a12beta3 N in
  let* s := mul_mod s alpha a13beta2 N in
  let* s := mul_mod s alpha a23beta1 N in
  Ret (s, g).

(** he_eval_add on pairs, labeled_he.cpp:191-211; mu_labeled_he.cpp:199-219. *)
Definition he_eval_add (s : store) (c c1 c2 : he_ct) (N : ref) (msgsize : nat) : res store :=
  let ptspace := pow2 msgsize in
  let s := zset s (ct_a c) (zget s (ct_a c1) + zget s (ct_a c2)) in
  let* r := mpz_mod (zget s (ct_a c)) ptspace in
  let s := zset s (ct_a c) r in
  let s := zset s (ct_beta c) (zget s (ct_beta c1) * zget s (ct_beta c2)) in
  let* r := mpz_mod (zget s (ct_beta c)) (zget s N) in
  Ret (zset s (ct_beta c) r).

(** he_eval_add on products, labeled_he.cpp:213-223; mu_labeled_he.cpp:221-231. *)
Definition he_eval_add_2 (s : store) (c c1 c2 N : ref) : res store :=
  let s := zset s c (zget s c1 * zget s c2) in
  let* r := mpz_mod (zget s c) (zget s N) in
  Ret (zset s c r).

(** he_eval_sub on pairs, labeled_he.cpp:225-259; mu_labeled_he.cpp:233-267. *)
Definition he_eval_sub (s : store) (c c1 c2 : he_ct) (N : ref) (msgsize : nat) : res store :=
  let ptspace := pow2 msgsize in
  let a_inv := - zget s (ct_a c2) in
  let* a_inv := mpz_mod a_inv ptspace in
  let* beta_inv := mpz_invert (zget s (ct_beta c2)) (zget s N) in
  let s := zset s (ct_a c) (zget s (ct_a c1) + a_inv) in
  let* r := mpz_mod (zget s (ct_a c)) ptspace in
  let s := zset s (ct_a c) r in
  let s := zset s (ct_beta c) (zget s (ct_beta c1) * beta_inv) in
  let* r := mpz_mod (zget s (ct_beta c)) (zget s N) in
  Ret (zset s (ct_beta c) r).

(** he_eval_sub on products, labeled_he.cpp:261-274; mu_labeled_he.cpp:269-282. *)
Definition he_eval_sub_2 (s : store) (c c1 c2 N : ref) : res store :=
  let* c2_inv := mpz_invert (zget s c2) (zget s N) in
  let s := zset s c (zget s c1 * c2_inv) in
  let* r := mpz_mod (zget s c) (zget s N) in
  Ret (zset s c r).

(** he_eval_cmult on pairs, labeled_he.cpp:276-295; mu_labeled_he.cpp:284-303. *)
Definition he_eval_cmult (s : store) (c c1 : he_ct) (a N : ref) (msgsize : nat) : res store :=
  let ptspace := pow2 msgsize in
  let s := zset s (ct_a c) (zget s (ct_a c1) * zget s a) in
  let* r := mpz_mod (zget s (ct_a c)) ptspace in
  let s := zset s (ct_a c) r in
  let* r := mpz_powm (zget s (ct_beta c1)) (zget s a) (zget s N) in
  Ret (zset s (ct_beta c) r).

(** he_eval_cmult on products, labeled_he.cpp:297-307; mu_labeled_he.cpp:305-315. *)
Definition he_eval_cmult_2 (s : store) (alpha c constant N : ref) : res store :=
  let* r := mpz_powm (zget s c) (zget s constant) (zget s N) in
  Ret (zset s alpha r).

(** he_decrypt of a pair, labeled_he.cpp:309-337; mu_labeled_he.cpp:317-345. *)
Definition he_decrypt (s : store) (m : ref) (c : he_ct) (p y : ref) (msgsize : nat) : res store :=
  let (s, b) := local s 0 in
  let ptspace := pow2 msgsize in
  let* s := joye_libert_decrypt s b (ct_beta c) p y msgsize in
  let s := zset s m (zget s (ct_a c) + zget s b) in
  let* r := mpz_mod (zget s m) ptspace in
  Ret (drop_local (zset s m r)).

(** he_decrypt of a product, labeled_he.cpp:339-357; mu_labeled_he.cpp:347-365. *)
Definition he_decrypt_2 (s : store) (m c b p y : ref) (msgsize : nat) : res store :=
  let ptspace := pow2 msgsize in
  let* s := joye_libert_decrypt s m c p y msgsize in
  let s := zset s m (zget s m + zget s b) in
  let* r := mpz_mod (zget s m) ptspace in
  Ret (zset s m r).

(** mu_he_keygen, mu_labeled_he.cpp:26-39. *)
Definition mu_he_keygen (fuel : nat) (s : store) (upk usk : ref) (g : rng) (N y : ref) (msgsize : nat) : res (store * rng) :=
  let (v, g) := mpz_urandomb g 128 in
  let s := zset s usk v in
  joye_libert_encrypt fuel s upk g usk y N msgsize.
