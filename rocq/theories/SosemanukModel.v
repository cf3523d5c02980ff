(** Model of StreamCiphers/Sosemanuk/sosemanuk.h and sosemanuk.cpp. *)
From Coq Require Import NArith ZArith Arith List.
From Verif Require Import Res Words Mem SerpentModel SosemanukTables.
Import ListNotations.

(** sosemanuk_state, sosemanuk.h:11-19. *)
Record sosemanuk_state := Sosemanuk { serpent_cs : list N; s : list N; R1 : N; R2 : N }.

(** M, sosemanuk.h:7. *)
Definition M : N := 0x54655307.
(** mux, sosemanuk.h:37-43. *)
Definition mux (R1 arg1 arg2 : N) : N := if N.eqb (N.land R1 0x1) 0 then arg1 else arg2.
(** Trans, sosemanuk.h:45-49. *)
Definition Trans (R1 : N) : N := let R1 := mul32 M R1 in ROTL_32 R1 7.

(** One word of s, f_buf, s_buf or initial_state, sosemanuk.h:16, sosemanuk.cpp:17, 44-45. *)
Definition el (l : list N) (i : nat) : N := nth i l 0%N.

(** sosemanuk_fsm_update, sosemanuk.h:51-58: the value stored in f_buf and the
    new state. *)
Definition sosemanuk_fsm_update (cs : sosemanuk_state) : N * sosemanuk_state :=
  let r1 := add32 (R2 cs) (mux (R1 cs) (el (s cs) 1) (N.lxor (el (s cs) 8) (el (s cs) 9))) in
  let r2 := Trans r1 in
  (N.lxor (add32 (el (s cs) 9) r1) r2, Sosemanuk (serpent_cs cs) (s cs) r1 r2).

(** sosemanuk_lfsr_update, sosemanuk.h:60-77. *)
Definition sosemanuk_lfsr_update (cs : sosemanuk_state) : N * sosemanuk_state :=
  let s := s cs in
  let tmp := N.lxor (N.lxor (N.lxor (shr32 (el s 3) 8) (el inv_alpha (N.to_nat (u8 (el s 3)))))
                            (N.lxor (shl32 (el s 0) 8) (el alpha (N.to_nat (u8 (shr32 (el s 0) 24))))))
                    (el s 9) in
  (el s 0, Sosemanuk (serpent_cs cs)
     [el s 1; el s 2; el s 3; el s 4; el s 5; el s 6; el s 7; el s 8; el s 9; tmp] (R1 cs) (R2 cs)).

(** Four steps and the output transformation, sosemanuk.cpp:53-70 (the same
    code again at lines 81-98): the final contents of s_buf.  The scratch
    register of serpent1 holds [scratch] (it is overwritten before it is read). *)
Definition sosemanuk_block (scratch : N) (cs : sosemanuk_state) : list N * sosemanuk_state :=
  let (f0, cs) := sosemanuk_fsm_update cs in
  let (s0, cs) := sosemanuk_lfsr_update cs in
  let (f1, cs) := sosemanuk_fsm_update cs in
  let (s1, cs) := sosemanuk_lfsr_update cs in
  let (f2, cs) := sosemanuk_fsm_update cs in
  let (s2, cs) := sosemanuk_lfsr_update cs in
  let (f3, cs) := sosemanuk_fsm_update cs in
  let (s3, cs) := sosemanuk_lfsr_update cs in
  let '(f0, f1, f2, f3) := serpent1 f0 f1 f2 f3 scratch in
  ([N.lxor s0 f0; N.lxor s1 f1; N.lxor s2 f2; N.lxor s3 f3], cs).

(** sosemanuk_load_key, sosemanuk.cpp:5-10.  Only the Serpent subkeys change;
    [Ret None] is exit(1). *)
Definition sosemanuk_load_key (scratch : N) (cs : sosemanuk_state) (m : mem) (key : ptr) (keysize : Z)
    : res (option sosemanuk_state) :=
  let* rk := serpent_key_schedule scratch m key keysize in
  Ret (option_map (fun rk => Sosemanuk rk (s cs) (R1 cs) (R2 cs)) rk).

(** sosemanuk_load_iv, sosemanuk.cpp:12-36. *)
Definition sosemanuk_load_iv (scratch : N) (cs : sosemanuk_state) (m : mem) (iv : ptr) : res sosemanuk_state :=
  let (m, initial_state) := alloc m 48 in
  let* m := serpent_process_packet (serpent_cs cs) scratch m initial_state iv 16 in
  let* i := ld_words m initial_state 12 in
  let i k := el i k in
  Ret (Sosemanuk (serpent_cs cs)
         [i 11; i 10; i 9; i 8; i 5; i 7; i 3; i 2; i 1; i 0] (i 4) (i 6)).

(** One word of a packet, sosemanuk.cpp:73-76, 104. *)
Definition xor_word (m : mem) (out inp : ptr) (w : N) : res mem :=
  let* x := ld32 m inp in st32 m out (N.lxor x w).
(** sosemanuk_process_packet, sosemanuk.cpp:38-117.  Each loop gets fuel
    size + 1. *)
Definition sosemanuk_process_packet (scratch : N) (cs : sosemanuk_state) (m : mem) (out inp : ptr) (size : N)
    : res (sosemanuk_state * mem) :=
  let* (cs, m, out, inp, size) :=
    while (S (N.to_nat size))
      (fun '(cs, m, out, inp, size) => (16 <=? size)%N)
      (fun '(cs, m, out, inp, size) =>
         let (s_buf, cs) := sosemanuk_block scratch cs in
         let* m := xor_word m out inp (el s_buf 0) in
         let* m := xor_word m (padd out 4) (padd inp 4) (el s_buf 1) in
         let* m := xor_word m (padd out 8) (padd inp 8) (el s_buf 2) in
         let* m := xor_word m (padd out 12) (padd inp 12) (el s_buf 3) in
         Ret (cs, m, padd out 16, padd inp 16, (size - 16)%N))
      (cs, m, out, inp, size) in
  let (s_buf, cs) := sosemanuk_block scratch cs in
  let* (i, m, out, inp, size) :=
    while (S (N.to_nat size))
      (fun '(i, m, out, inp, size) => (4 <=? size)%N)
      (fun '(i, m, out, inp, size) =>
         let* w := ks_word s_buf i in
         let* m := xor_word m out inp w in
         Ret (S i, m, padd out 4, padd inp 4, (size - 4)%N))
      (0, m, out, inp, size) in
  let* m := for_n (N.to_nat size) 0
    (fun j m => let* w := ks_word s_buf i in
                let* x := ld8 m (padd inp j) in
                st8 m (padd out j) (N.lxor x (byte_of w (N.of_nat j)))) m in
  Ret (cs, m).
