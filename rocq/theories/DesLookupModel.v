(** The block function of DesModel, which also lists the entries of Sbox1 to
    Sbox8 it reads, in the order of the source.  Every other address it reads or
    writes depends on the pointers it is given only. *)
From Coq Require Import Arith NArith List Bool.
From Verif Require Import Res Words Mem DesTables DesModel DesLookupSpec.
Import ListNotations.
Local Open Scope N_scope.

(** The tables, des.h:78-236, by number. *)
Definition contents (i : nat) : list N :=
  nth i [[]; Sbox1; Sbox2; Sbox3; Sbox4; Sbox5; Sbox6; Sbox7; Sbox8] [].
(** SboxI[(T >> s) & 0x3f], des.h:253-256, 259-262. *)
Definition sbox_seen (i : nat) (T s : N) (tr : list entry) : N * list entry :=
  let x := N.land (shr32 T s) 0x3f in
  (nth (N.to_nat x) (contents i) 0, tr ++ [(i, x)]).
(** The right-hand side of *Y ^= ..., des.h:253-256, 259-262. *)
Definition sbox_sum_seen (a b c d : nat) (T : N) (tr : list entry) : N * list entry :=
  let '(v0, tr) := sbox_seen a T 0 tr in
  let '(v1, tr) := sbox_seen b T 8 tr in
  let '(v2, tr) := sbox_seen c T 16 tr in
  let '(v3, tr) := sbox_seen d T 24 tr in
  (N.lxor (N.lxor (N.lxor v0 v1) v2) v3, tr).

(** DES_ROUND, des.h:249-263. *)
Definition des_round_seen (cs : list N) (X Y : N) (tr : list entry) : N * list entry :=
  let T := N.lxor (nth 0 cs 0) X in
  let '(v, tr) := sbox_sum_seen 8 6 4 2 T tr in
  let Y := N.lxor Y v in
  let T := N.lxor (nth 1 cs 0) (N.lor (shl32 X 28) (shr32 X 4)) in
  let '(v, tr) := sbox_sum_seen 7 5 3 1 T tr in
  (N.lxor Y v, tr).

(** des_ecb_block, des.cpp:87-104, on the two words read. *)
Definition ecb_words_seen (cs : list N) (X Y : N) : N * N * list entry :=
  let '(X, Y) := des_ip X Y in
  let '(X, Y, tr) := iter_n 8 0 (fun _ '(X, Y, tr) =>
    let '(X, tr) := des_round_seen cs Y X tr in
    let '(Y, tr) := des_round_seen cs X Y tr in
    (X, Y, tr)) (X, Y, []) in
  let '(Y, X) := des_fp Y X in
  (Y, X, tr).

(** des_ecb_block, des.cpp:87-104. *)
Definition des_ecb_block_seen (cs : list N) (m : mem) (output input : ptr) : res (mem * list entry) :=
  let* X := ld32 m input in
  let* Y := ld32 m (padd input 4) in
  let '(a, b, tr) := ecb_words_seen cs X Y in
  let* m := st32 m output a in
  let* m := st32 m (padd output 4) b in
  Ret (m, tr).
