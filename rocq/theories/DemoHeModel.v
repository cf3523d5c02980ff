(** Models of the demonstration programs of AsymmetricCryptography/.

    The variables of main are those of the store (Gmp.v) in the order in which
    they are initialised; what is printed is the list of the numbers printed.
    The sizes, messages and labels are parameters.  [fuel] bounds each of the
    loops that wait for suitable random numbers. *)
From Coq Require Import NArith ZArith List.
From Verif Require Import Res Mem Gmp JoyeModel HeModel.
From Verif Require HcModel.
Import ListNotations.
Local Open Scope Z_scope.

(** AsymmetricCryptography/Joye_libert/main.cpp:8-49. *)
Definition joye_main (G : gmp) (fuel keysize msgsize : nat) (v1 v2 : Z) : res (list Z) :=
  let N := 0%nat in let y := 1%nat in let p := 2%nat in
  let s := [0; 0; 0] in
  let* s := joye_libert_keygen G fuel s N y p msgsize keysize in
  let (s, m1) := local s v1 in
  let (s, m2) := local s v2 in
  let (s, c1) := local s 0 in
  let (s, c2) := local s 0 in
  let state := mt G in
  let* (s, state) := joye_libert_encrypt fuel s c1 state m1 y N msgsize in
  let* (s, state) := joye_libert_encrypt fuel s c2 state m2 y N msgsize in
  let s := zset s c1 (zget s c1 * zget s c2) in
  let* r := mpz_mod (zget s c1) (zget s N) in
  let s := zset s c1 r in
  let (s, recov_m) := local s 0 in
  let* s := joye_libert_decrypt s recov_m c1 p y msgsize in
  Ret [zget s m1; zget s m2; zget s recov_m].

(** The variables of AsymmetricCryptography/Labeled_homomorphic_encryption/LabeledHE/main.cpp:11-188, all
    present from the start. *)
(** N, LabeledHE/main.cpp:11. *)
Definition v_N : ref := 0.
(** y, LabeledHE/main.cpp:11. *)
Definition v_y : ref := 1.
(** p, LabeledHE/main.cpp:11. *)
Definition v_p : ref := 2.
(** ptspace, LabeledHE/main.cpp:11. *)
Definition v_ptspace : ref := 3.
(** m1, LabeledHE/main.cpp:49. *)
Definition v_m1 : ref := 4.
(** label1, LabeledHE/main.cpp:49. *)
Definition v_label1 : ref := 5.
(** m2, LabeledHE/main.cpp:53. *)
Definition v_m2 : ref := 6.
(** label2, LabeledHE/main.cpp:53. *)
Definition v_label2 : ref := 7.
(** m3, LabeledHE/main.cpp:57. *)
Definition v_m3 : ref := 8.
(** label3, LabeledHE/main.cpp:57. *)
Definition v_label3 : ref := 9.
(** b1, LabeledHE/main.cpp:61. *)
Definition v_b1 : ref := 10.
(** b2, LabeledHE/main.cpp:61. *)
Definition v_b2 : ref := 11.
(** b3, LabeledHE/main.cpp:61. *)
Definition v_b3 : ref := 12.
(** c1, LabeledHE/main.cpp:41. *)
Definition v_c1 : he_ct := Ct 13 14.
(** c2, LabeledHE/main.cpp:41. *)
Definition v_c2 : he_ct := Ct 15 16.
(** c3, LabeledHE/main.cpp:41. *)
Definition v_c3 : he_ct := Ct 17 18.
(** c_add, LabeledHE/main.cpp:88. *)
Definition v_c_add : he_ct := Ct 19 20.
(** c_sub, LabeledHE/main.cpp:96. *)
Definition v_c_sub : he_ct := Ct 21 22.
(** c_mul, LabeledHE/main.cpp:105. *)
Definition v_c_mul : ref := 23.
(** b_mul, LabeledHE/main.cpp:105. *)
Definition v_b_mul : ref := 24.
(** c_triple_mul, LabeledHE/main.cpp:115. *)
Definition v_c_triple_mul : ref := 25.
(** b_triple_mul, LabeledHE/main.cpp:115. *)
Definition v_b_triple_mul : ref := 26.
(** beta12, LabeledHE/main.cpp:119. *)
Definition v_beta12 : ref := 27.
(** beta13, LabeledHE/main.cpp:119. *)
Definition v_beta13 : ref := 28.
(** beta23, LabeledHE/main.cpp:119. *)
Definition v_beta23 : ref := 29.
(** c_triple_double_add, LabeledHE/main.cpp:160. *)
Definition v_c_triple_double_add : ref := 30.
(** b_triple_double_add, LabeledHE/main.cpp:160. *)
Definition v_b_triple_double_add : ref := 31.
(** c_triple_double_sub, LabeledHE/main.cpp:169. *)
Definition v_c_triple_double_sub : ref := 32.
(** b_triple_double_sub, LabeledHE/main.cpp:169. *)
Definition v_b_triple_double_sub : ref := 33.
(** recov_m1, LabeledHE/main.cpp:178-179. *)
Definition v_recov_m1 : ref := 34.
(** recov_m2, LabeledHE/main.cpp:178-179. *)
Definition v_recov_m2 : ref := 35.
(** recov_add, LabeledHE/main.cpp:178-179. *)
Definition v_recov_add : ref := 36.
(** recov_sub, LabeledHE/main.cpp:178-179. *)
Definition v_recov_sub : ref := 37.
(** recov_mul, LabeledHE/main.cpp:178-179. *)
Definition v_recov_mul : ref := 38.
(** recov_triple_mul, LabeledHE/main.cpp:178-179. *)
Definition v_recov_triple_mul : ref := 39.
(** recov_triple_double_add, LabeledHE/main.cpp:178-179. *)
Definition v_recov_triple_double_add : ref := 40.
(** recov_triple_double_sub, LabeledHE/main.cpp:178-179. *)
Definition v_recov_triple_double_sub : ref := 41.

(** mpz_mul(r, x, y); mpz_mod(r, r, ptspace), and the same with mpz_add and mpz_sub:
    LabeledHE/main.cpp:109-110, 124-131, 138-141, 164-165, 173-174. *)
Definition op_mod (op : Z -> Z -> Z) (s : store) (r x y : ref) : res store :=
  let s := zset s r (op (zget s x) (zget s y)) in
  let* v := mpz_mod (zget s r) (zget s v_ptspace) in
  Ret (zset s r v).

(** AsymmetricCryptography/Labeled_homomorphic_encryption/LabeledHE/main.cpp:7-213.  [stack j] is what the memory of
    the label buffer holds before the call for the j-th message; [hc_key] and [hc_iv] are the arrays of main. *)
Definition he_main (G : gmp) (fuel keysize msgsize : nat) (stack : nat -> nat -> option N) (hc_key hc_iv : list N)
    (m1 label1 m2 label2 m3 label3 : Z) : res (list Z) :=
  let s := [0; 0; 0; pow2 msgsize; m1; label1; m2; label2; m3; label3] ++ repeat 0 32 in
  let state := mt G in
  let* s := he_keygen G fuel s v_N v_y v_p msgsize keysize in
  let* hc_cs := HcModel.hc128_initialize [map Some hc_key; map Some hc_iv] (Ptr 0 0) (Ptr 1 0) in
  let* (s, state, hc_cs) := he_encrypt fuel (stack 1%nat) s v_c1 state hc_cs v_b1 v_m1 v_y v_N v_label1 msgsize in
  let* (s, state, hc_cs) := he_encrypt fuel (stack 2%nat) s v_c2 state hc_cs v_b2 v_m2 v_y v_N v_label2 msgsize in
  let* (s, state, hc_cs) := he_encrypt fuel (stack 3%nat) s v_c3 state hc_cs v_b3 v_m3 v_y v_N v_label3 msgsize in
  let* s := he_eval_add s v_c_add v_c1 v_c2 v_N msgsize in
  let* s := he_eval_sub s v_c_sub v_c2 v_c3 v_N msgsize in
  let* (s, state) := he_eval_mult fuel s v_c_mul state v_c1 v_c2 v_y v_N msgsize in
  let* s := op_mod Z.mul s v_b_mul v_b1 v_b2 in
  let* s := op_mod Z.mul s v_beta12 v_b1 v_b2 in
  let* s := op_mod Z.mul s v_beta13 v_b1 v_b3 in
  let* s := op_mod Z.mul s v_beta23 v_b2 v_b3 in
  let* (s, state) := joye_libert_encrypt fuel s v_beta12 state v_beta12 v_y v_N msgsize in
  let* (s, state) := joye_libert_encrypt fuel s v_beta13 state v_beta13 v_y v_N msgsize in
  let* (s, state) := joye_libert_encrypt fuel s v_beta23 state v_beta23 v_y v_N msgsize in
  let* (s, state) := he_eval_mult_3 fuel s v_c_triple_mul state v_c1 v_c2 v_c3 v_beta12 v_beta13 v_beta23 v_y v_N msgsize in
  let* s := op_mod Z.mul s v_b_triple_mul v_b1 v_b2 in
  let* s := op_mod Z.mul s v_b_triple_mul v_b_triple_mul v_b3 in
  let* s := he_eval_add_2 s v_c_triple_double_add v_c_mul v_c_triple_mul v_N in
  let* s := op_mod Z.add s v_b_triple_double_add v_b_mul v_b_triple_mul in
  let* s := he_eval_sub_2 s v_c_triple_double_sub v_c_triple_mul v_c_mul v_N in
  let* s := op_mod Z.sub s v_b_triple_double_sub v_b_triple_mul v_b_mul in
  let* s := he_decrypt s v_recov_m1 v_c1 v_p v_y msgsize in
  let* s := he_decrypt s v_recov_m2 v_c2 v_p v_y msgsize in
  let* s := he_decrypt s v_recov_add v_c_add v_p v_y msgsize in
  let* s := he_decrypt s v_recov_sub v_c_sub v_p v_y msgsize in
  let* s := he_decrypt_2 s v_recov_mul v_c_mul v_b_mul v_p v_y msgsize in
  let* s := he_decrypt_2 s v_recov_triple_mul v_c_triple_mul v_b_triple_mul v_p v_y msgsize in
  let* s := he_decrypt_2 s v_recov_triple_double_add v_c_triple_double_add v_b_triple_double_add v_p v_y msgsize in
  let* s := he_decrypt_2 s v_recov_triple_double_sub v_c_triple_double_sub v_b_triple_double_sub v_p v_y msgsize in
  Ret (map (zget s) [v_m1; v_m2; v_m3; ct_a v_c1; ct_beta v_c1; ct_a v_c2; ct_beta v_c2; ct_a v_c3; ct_beta v_c3;
    v_recov_m1; v_recov_m2; v_recov_add; v_recov_sub; v_recov_mul; v_recov_triple_mul;
    v_recov_triple_double_add; v_recov_triple_double_sub]).
