(** Model of StreamCiphers/ChaCha/chacha.cpp and chacha.h. *)
From Coq Require Import NArith ZArith Arith List.
From Verif Require Import Res Words Mem Ints.
Import ListNotations.

(** chacha_state, chacha.h:24-26: the 16 words of [state]. *)
Notation chacha_state := (list N).

(** cs->state[i], chacha.h:36-50. *)
Definition get (cs : chacha_state) (i : nat) : N := nth i cs 0%N.

(** q_round, chacha.h:34-51 (ROTR_32, ROTL_32: lines 21-22). *)
Definition q_round (cs : chacha_state) (a b c d : nat) : chacha_state :=
  let cs := upd a (add32 (get cs a) (get cs b)) cs in
  let cs := upd d (N.lxor (get cs d) (get cs a)) cs in
  let cs := upd d (rotr32 (get cs d) (32 - 16)) cs in
  let cs := upd c (add32 (get cs c) (get cs d)) cs in
  let cs := upd b (N.lxor (get cs b) (get cs c)) cs in
  let cs := upd b (rotr32 (get cs b) (32 - 12)) cs in
  let cs := upd a (add32 (get cs a) (get cs b)) cs in
  let cs := upd d (N.lxor (get cs d) (get cs a)) cs in
  let cs := upd d (rotr32 (get cs d) (32 - 8)) cs in
  let cs := upd c (add32 (get cs c) (get cs d)) cs in
  let cs := upd b (N.lxor (get cs b) (get cs c)) cs in
  upd b (rotr32 (get cs b) (32 - 7)) cs.

(** inner_block, chacha.h:53-63. *)
Definition inner_block (cs : chacha_state) : chacha_state :=
  let cs := q_round cs 0 4 8 12 in
  let cs := q_round cs 1 5 9 13 in
  let cs := q_round cs 2 6 10 14 in
  let cs := q_round cs 3 7 11 15 in
  let cs := q_round cs 0 5 10 15 in
  let cs := q_round cs 1 6 11 12 in
  let cs := q_round cs 2 7 8 13 in
  q_round cs 3 4 9 14.

(** chacha_initialize, chacha.cpp:29-44. *)
Definition chacha_initialize (m : mem) (key nonce : ptr) : res chacha_state :=
  let* k := ld_words m key 8 in
  let* n := ld_words m nonce 3 in
  Ret ([0x61707865; 0x3320646e; 0x79622d32; 0x6b206574]%N ++ k ++ [1%N] ++ n).

(** chacha_block, chacha.cpp:46-75.  [nrounds] is the value selected by the
    macros of lines 55-61 (20, 12 or 8).  Returns the updated state and the 16
    key stream words. *)
Definition chacha_block (nrounds : nat) (cs : chacha_state) (counter : N) : chacha_state * list N :=
  let cs := upd 12 counter cs in
  let work := iter_n (nrounds / 2) 0 (fun _ w => inner_block w) cs in
  let work := iter_n 16 0 (fun i w => upd i (add32 (get w i) (get cs i)) w) work in
  (cs, work).

(** std::ceil(double(n)/c), chacha.cpp:80 and 82 (exact for n < 2^53). *)
Definition ceil_div (n c : Z) : Z := ((n + (c - 1)) / c)%Z.

(** Conversion of a floating value to [int], chacha.cpp:80 and 82: undefined outside
    the range. *)
Definition double_to_int (z : Z) : res Z := int_ret z.

(** chacha_process_packet, chacha.cpp:77-114.  The while loop gets fuel
    n_bytes + 1, which is enough because n_bytes decreases. *)
Definition chacha_process_packet (nrounds : nat) (cs : chacha_state) (m : mem)
    (output input : ptr) (size : N) : res (chacha_state * mem) :=
  let* n_words := double_to_int (ceil_div (Z.of_N size) 4) in
  let* n_iterations := double_to_int (ceil_div n_words 16) in
  let* len := int_ret (n_iterations * 16) in
  let '(cs, ks, counter) :=
    iter_n (Z.to_nat n_iterations) 0
      (fun _ '(cs, ks, counter) =>
         let '(cs, blk) := chacha_block nrounds cs counter in
         (cs, ks ++ blk, add32 counter 1))
      (cs, [], 1%N) in
  let n_bytes := to_int (Z.of_N size) in
  let* (m, input, output, ks_index, n_bytes) :=
    while (S (Z.to_nat n_bytes))
      (fun '(m, input, output, ks_index, n_bytes) => (3 <? n_bytes)%Z)
      (fun '(m, input, output, ks_index, n_bytes) =>
         let* w := ks_word ks ks_index in
         let* m := (let* x := ld32 m input in st32 m output (N.lxor x w)) in
         Ret (m, padd input 4, padd output 4, S ks_index, (n_bytes - 4)%Z))
      (m, input, output, 0, n_bytes) in
  let* m :=
    for_n (Z.to_nat n_bytes) 0
      (fun i m =>
         let* w := ks_word ks (ks_index + i / 4) in
         let* x := ld8 m (padd input i) in
         st8 m (padd output i) (N.lxor x (byte_of w (N.of_nat (i mod 4)))))
      m in
  Ret (cs, m).

(** The swapped word, chacha.cpp:23-24. *)
Definition swap32 (num : N) : N :=
  N.lor (N.lor (N.lor (N.land (shr32 num 24) 0xff) (N.land (shl32 num 8) 0xff0000))
               (N.land (shr32 num 8) 0xff00)) (N.land (shl32 num 24) 0xff000000).
(** byte_swap, chacha.cpp:18-27: swaps the words of [input] in place and never
    writes [output]. *)
Definition byte_swap (m : mem) (output input : ptr) (size : Z) : res mem :=
  for_n (Z.to_nat (Z.quot size 4)) 0
    (fun i m => let* num := ld32 m (padd input (4 * i)) in
                st32 m (padd input (4 * i)) (swap32 num)) m.

(** test_q, chacha.cpp:7-16: one quarter round on columns (2, 7, 8, 13). *)
Definition test_q (m : mem) (input output : ptr) : res mem :=
  let* s := ld_words m input 16 in
  stn m output (flat_map bytes_of_le32 (q_round s 2 7 8 13)).
