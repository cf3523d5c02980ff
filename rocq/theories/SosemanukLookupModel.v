(** The packet function of SosemanukModel, which also lists the entries of
    inv_alpha and alpha it reads, in the order of the source.  Every other address
    it reads or writes depends on the pointers and the size it is given only, and
    loading a key or an IV reads no table. *)
From Coq Require Import Arith NArith List.
From Verif Require Import Res Words Mem SerpentModel SosemanukTables SosemanukModel SosemanukLookupSpec.
Import ListNotations.
Local Open Scope nat_scope.

(** sosemanuk_lfsr_update, sosemanuk.h:60-77. *)
Definition lfsr_update_seen (cs : sosemanuk_state) (tr : list entry) : N * sosemanuk_state * list entry :=
  let s := s cs in
  let i := u8 (el s 3) in
  let j := u8 (shr32 (el s 0) 24) in
  let tmp := N.lxor (N.lxor (N.lxor (shr32 (el s 3) 8) (el inv_alpha (N.to_nat i)))
                            (N.lxor (shl32 (el s 0) 8) (el alpha (N.to_nat j))))
                    (el s 9) in
  (el s 0, Sosemanuk (serpent_cs cs)
     [el s 1; el s 2; el s 3; el s 4; el s 5; el s 6; el s 7; el s 8; el s 9; tmp] (R1 cs) (R2 cs),
   tr ++ [(OfDivision, i); (OfMultiplication, j)]).

(** Four steps and the output transformation, sosemanuk.cpp:53-70, 81-98. *)
Definition block_seen (scratch : N) (cs : sosemanuk_state) (tr : list entry)
    : list N * sosemanuk_state * list entry :=
  let (f0, cs) := sosemanuk_fsm_update cs in
  let '(s0, cs, tr) := lfsr_update_seen cs tr in
  let (f1, cs) := sosemanuk_fsm_update cs in
  let '(s1, cs, tr) := lfsr_update_seen cs tr in
  let (f2, cs) := sosemanuk_fsm_update cs in
  let '(s2, cs, tr) := lfsr_update_seen cs tr in
  let (f3, cs) := sosemanuk_fsm_update cs in
  let '(s3, cs, tr) := lfsr_update_seen cs tr in
  let '(f0, f1, f2, f3) := serpent1 f0 f1 f2 f3 scratch in
  ([N.lxor s0 f0; N.lxor s1 f1; N.lxor s2 f2; N.lxor s3 f3], cs, tr).

(** sosemanuk_process_packet, sosemanuk.cpp:38-117. *)
Definition process_packet_seen (scratch : N) (cs : sosemanuk_state) (m : mem) (out inp : ptr) (size : N)
    : res (sosemanuk_state * mem * list entry) :=
  let* (cs, m, out, inp, size, tr) :=
    while (S (N.to_nat size))
      (fun '(cs, m, out, inp, size, tr) => (16 <=? size)%N)
      (fun '(cs, m, out, inp, size, tr) =>
         let '(s_buf, cs, tr) := block_seen scratch cs tr in
         let* m := xor_word m out inp (el s_buf 0) in
         let* m := xor_word m (padd out 4) (padd inp 4) (el s_buf 1) in
         let* m := xor_word m (padd out 8) (padd inp 8) (el s_buf 2) in
         let* m := xor_word m (padd out 12) (padd inp 12) (el s_buf 3) in
         Ret (cs, m, padd out 16, padd inp 16, (size - 16)%N, tr))
      (cs, m, out, inp, size, []) in
  let '(s_buf, cs, tr) := block_seen scratch cs tr in
  let* (i, m, out, inp, size) :=
    while (S (N.to_nat size))
      (fun '(i, m, out, inp, size) => (4 <=? size)%N)
      (fun '(i, m, out, inp, size) =>
         let* w := ks_word s_buf i in
         let* m := xor_word m out inp w in
         Ret (S i, m, padd out 4, padd inp 4, (size - 4)%N))
      (0, m, out, inp, size) in
  let* m := for_n (N.to_nat size) 0
    (fun j m => let* w := ks_word s_buf i in
                let* x := ld8 m (padd inp j) in
                st8 m (padd out j) (N.lxor x (byte_of w (N.of_nat j)))) m in
  Ret (cs, m, tr).
