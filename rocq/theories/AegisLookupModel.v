(** The state functions of AegisModel up to the end of the initialisation, which
    also list the entries of T0 to T3 they read, in the order of the source.
    Every other address they read or write depends on the pointers they are
    given only. *)
From Coq Require Import NArith ZArith List Bool.
From Verif Require Import Res Words Mem Ints AesTables AesModel AegisModel AesLookupSpec AesLookupModel.
Import ListNotations.
Local Open Scope N_scope.

(** The AES round of each build: round, aegis_128.h:37-90, has the code of
    aes_ctr.h:54-108; the vector instructions of AEGIS_x86/aegis_128.h:135, 154,
    176, 196, 220 and AEGIS_ARM/aegis_128.h:138-142, 163-167, 190-194, 215-217,
    242-246 use no tables. *)
Definition around_seen (b : aegis_build) (s k : list N) (tr : list lookup) : list N * list lookup :=
  match b with
  | ATable => let '(r, tr) := round_seen (nth 0 s 0, nth 1 s 0, nth 2 s 0, nth 3 s 0, tr) k in (quad r, tr)
  | _ => (around b s k, tr)
  end.

(** aegis_state_update, aegis_128.h:93-151, AEGIS_x86/aegis_128.h:99-226,
    AEGIS_ARM/aegis_128.h:100-253. *)
Definition aegis_state_update_seen (b : aegis_build) (st : aegis_state * list lookup) (message : list N)
    : aegis_state * list lookup :=
  let '(cs, tr) := st in
  let tmp_state := s0 cs in
  let tmp_key := xor4 tmp_state message in
  let '(r0, tr) := around_seen b (s4 cs) tmp_key tr in
  let tmp_key := s1 cs in
  let '(r1, tr) := around_seen b tmp_state tmp_key tr in
  let tmp_state := tmp_key in
  let tmp_key := s2 cs in
  let '(r2, tr) := around_seen b tmp_state tmp_key tr in
  let tmp_state := tmp_key in
  let tmp_key := s3 cs in
  let '(r3, tr) := around_seen b tmp_state tmp_key tr in
  let tmp_state := tmp_key in
  let tmp_key := s4 cs in
  let '(r4, tr) := around_seen b tmp_state tmp_key tr in
  (Aegis (key cs) r0 r1 r2 r3 r4, tr).

(** aegis_initialize, aegis_128.cpp:24-77, which aegis_encrypt_packet and
    aegis_decrypt_packet call first, aegis_128.cpp:249-291. *)
Definition aegis_initialize_seen (b : aegis_build) (cs : aegis_state) (m : mem) (iv : ptr) : res (aegis_state * list lookup) :=
  let* v := ld_words m iv 4 in
  let tmp := xor4 (key cs) v in
  let lo := words_of (firstn 16 constant) in
  let hi := words_of (skipn 16 constant) in
  let cs := Aegis (key cs) tmp hi lo (xor4 (key cs) lo) (xor4 (key cs) hi) in
  let message := concat (repeat (key cs ++ tmp) 5) in
  Ret (iter_n 10 0 (fun i st => aegis_state_update_seen b st (firstn 4 (skipn (4 * i) message))) (cs, [])).
