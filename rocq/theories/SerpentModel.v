(** Model of BlockCiphers/Serpent/serpent.h and serpent.cpp (identical, apart
    from the position of #include <stdint.h>, to the copy in
    StreamCiphers/Sosemanuk), with SOSEMANUK_H defined as in both copies:
    24 rounds, 25 subkeys.  The S-box functions work in place on five registers
    passed by pointer; the pointers are distinct in every call, so here they
    take the contents of the registers and return the new contents.  The fifth
    register is a fresh [new uint32_t]: its contents are a parameter. *)
From Coq Require Import NArith ZArith Arith List.
From Verif Require Import Res Words Mem HmacModel.
Import ListNotations.

(** The five registers of the S-boxes.  serpent.h:43-163. *)
Notation regs := (N * N * N * N * N)%type.

(** ROTL_32, serpent.h:16. *)
Definition ROTL_32 (x n : N) : N := rotl32 x n.

(** S0, serpent.h:43-56. *)
Definition S0 (r0 r1 r2 r3 r4 : N) : regs :=
  let r3 := N.lxor r3 r0 in let r4 := r1 in
  let r1 := N.land r1 r3 in let r4 := N.lxor r4 r2 in
  let r1 := N.lxor r1 r0 in let r0 := N.lor r0 r3 in
  let r0 := N.lxor r0 r4 in let r4 := N.lxor r4 r3 in
  let r3 := N.lxor r3 r2 in let r2 := N.lor r2 r1 in
  let r2 := N.lxor r2 r4 in let r4 := not32 r4 in
  let r4 := N.lor r4 r1 in let r1 := N.lxor r1 r3 in
  let r1 := N.lxor r1 r4 in let r3 := N.lor r3 r0 in
  let r1 := N.lxor r1 r3 in let r4 := N.lxor r4 r3 in
  (r0, r1, r2, r3, r4).

(** S1, serpent.h:58-72. *)
Definition S1 (r0 r1 r2 r3 r4 : N) : regs :=
  let r0 := not32 r0 in let r2 := not32 r2 in
  let r4 := r0 in let r0 := N.land r0 r1 in
  let r2 := N.lxor r2 r0 in let r0 := N.lor r0 r3 in
  let r3 := N.lxor r3 r2 in let r1 := N.lxor r1 r0 in
  let r0 := N.lxor r0 r4 in let r4 := N.lor r4 r1 in
  let r1 := N.lxor r1 r3 in let r2 := N.lor r2 r0 in
  let r2 := N.land r2 r4 in let r0 := N.lxor r0 r1 in
  let r1 := N.land r1 r2 in let r1 := N.lxor r1 r0 in
  let r0 := N.land r0 r2 in let r0 := N.lxor r0 r4 in
  (r0, r1, r2, r3, r4).

(** S2, serpent.h:74-87. *)
Definition S2 (r0 r1 r2 r3 r4 : N) : regs :=
  let r4 := r0 in let r0 := N.land r0 r2 in
  let r0 := N.lxor r0 r3 in let r2 := N.lxor r2 r1 in
  let r2 := N.lxor r2 r0 in let r3 := N.lor r3 r4 in
  let r3 := N.lxor r3 r1 in let r4 := N.lxor r4 r2 in
  let r1 := r3 in let r3 := N.lor r3 r4 in
  let r3 := N.lxor r3 r0 in let r0 := N.land r0 r1 in
  let r4 := N.lxor r4 r0 in let r1 := N.lxor r1 r3 in
  let r1 := N.lxor r1 r4 in let r4 := not32 r4 in
  (r0, r1, r2, r3, r4).

(** S3, serpent.h:89-104. *)
Definition S3 (r0 r1 r2 r3 r4 : N) : regs :=
  let r4 := r0 in let r0 := N.lor r0 r3 in
  let r3 := N.lxor r3 r1 in let r1 := N.land r1 r4 in
  let r4 := N.lxor r4 r2 in let r2 := N.lxor r2 r3 in
  let r3 := N.land r3 r0 in let r4 := N.lor r4 r1 in
  let r3 := N.lxor r3 r4 in let r0 := N.lxor r0 r1 in
  let r4 := N.land r4 r0 in let r1 := N.lxor r1 r3 in
  let r4 := N.lxor r4 r2 in let r1 := N.lor r1 r0 in
  let r1 := N.lxor r1 r2 in let r0 := N.lxor r0 r3 in
  let r2 := r1 in let r1 := N.lor r1 r3 in
  let r1 := N.lxor r1 r0 in
  (r0, r1, r2, r3, r4).

(** S4, serpent.h:106-119. *)
Definition S4 (r0 r1 r2 r3 r4 : N) : regs :=
  let r1 := N.lxor r1 r3 in let r3 := not32 r3 in
  let r2 := N.lxor r2 r3 in let r3 := N.lxor r3 r0 in
  let r4 := r1 in let r1 := N.land r1 r3 in
  let r1 := N.lxor r1 r2 in let r4 := N.lxor r4 r3 in
  let r0 := N.lxor r0 r4 in let r2 := N.land r2 r4 in
  let r2 := N.lxor r2 r0 in let r0 := N.land r0 r1 in
  let r3 := N.lxor r3 r0 in let r4 := N.lor r4 r1 in
  let r4 := N.lxor r4 r0 in let r0 := N.lor r0 r3 in
  let r0 := N.lxor r0 r2 in let r2 := N.land r2 r3 in
  let r0 := not32 r0 in let r4 := N.lxor r4 r2 in
  (r0, r1, r2, r3, r4).

(** S5, serpent.h:121-136. *)
Definition S5 (r0 r1 r2 r3 r4 : N) : regs :=
  let r0 := N.lxor r0 r1 in let r1 := N.lxor r1 r3 in
  let r3 := not32 r3 in let r4 := r1 in
  let r1 := N.land r1 r0 in let r2 := N.lxor r2 r3 in
  let r1 := N.lxor r1 r2 in let r2 := N.lor r2 r4 in
  let r4 := N.lxor r4 r3 in let r3 := N.land r3 r1 in
  let r3 := N.lxor r3 r0 in let r4 := N.lxor r4 r1 in
  let r4 := N.lxor r4 r2 in let r2 := N.lxor r2 r0 in
  let r0 := N.land r0 r3 in let r2 := not32 r2 in
  let r0 := N.lxor r0 r4 in let r4 := N.lor r4 r3 in
  let r2 := N.lxor r2 r4 in
  (r0, r1, r2, r3, r4).

(** S6, serpent.h:138-149. *)
Definition S6 (r0 r1 r2 r3 r4 : N) : regs :=
  let r2 := not32 r2 in let r4 := r3 in
  let r3 := N.land r3 r0 in let r0 := N.lxor r0 r4 in
  let r3 := N.lxor r3 r2 in let r2 := N.lor r2 r4 in
  let r1 := N.lxor r1 r3 in let r2 := N.lxor r2 r0 in
  let r0 := N.lor r0 r1 in let r2 := N.lxor r2 r1 in
  let r4 := N.lxor r4 r0 in let r0 := N.lor r0 r3 in
  let r0 := N.lxor r0 r2 in let r4 := N.lxor r4 r3 in
  let r4 := N.lxor r4 r0 in let r3 := not32 r3 in
  let r2 := N.land r2 r4 in let r2 := N.lxor r2 r3 in
  (r0, r1, r2, r3, r4).

(** S7, serpent.h:151-163. *)
Definition S7 (r0 r1 r2 r3 r4 : N) : regs :=
  let r4 := r1 in let r1 := N.lor r1 r2 in
  let r1 := N.lxor r1 r3 in let r4 := N.lxor r4 r2 in
  let r2 := N.lxor r2 r1 in let r3 := N.lor r3 r4 in
  let r3 := N.land r3 r0 in let r4 := N.lxor r4 r2 in
  let r3 := N.lxor r3 r1 in let r1 := N.lor r1 r4 in
  let r1 := N.lxor r1 r0 in let r0 := N.lor r0 r4 in
  let r0 := N.lxor r0 r2 in let r1 := N.lxor r1 r4 in
  let r2 := N.lxor r2 r1 in let r1 := N.land r1 r0 in
  let r1 := N.lxor r1 r4 in let r2 := not32 r2 in
  let r2 := N.lor r2 r0 in let r4 := N.lxor r4 r2 in
  (r0, r1, r2, r3, r4).

(** LT, serpent.h:165-177. *)
Definition LT (r0 r1 r2 r3 : N) : N * N * N * N :=
  let r0 := ROTL_32 r0 13 in
  let r2 := ROTL_32 r2 3 in
  let r1 := N.lxor (N.lxor r1 r0) r2 in
  let r3 := N.lxor (N.lxor r3 r2) (shl32 r0 3) in
  let r1 := ROTL_32 r1 1 in
  let r3 := ROTL_32 r3 7 in
  let r0 := N.lxor (N.lxor r0 r1) r3 in
  let r2 := N.lxor (N.lxor r2 r3) (shl32 r1 7) in
  let r0 := ROTL_32 r0 5 in
  let r2 := ROTL_32 r2 22 in
  (r0, r1, r2, r3).

(** ARK, serpent.h:179-186. *)
Definition ARK (RK : list N) (r0 r1 r2 r3 : N) (n : nat) : N * N * N * N :=
  (N.lxor r0 (nth (4 * n) RK 0%N), N.lxor r1 (nth (4 * n + 1) RK 0%N),
   N.lxor r2 (nth (4 * n + 2) RK 0%N), N.lxor r3 (nth (4 * n + 3) RK 0%N)).

(** serpent1, serpent.cpp:10-23. *)
Definition serpent1 (r0 r1 r2 r3 r4 : N) : N * N * N * N :=
  let '(r0, r1, r2, r3, r4) := S2 r0 r1 r2 r3 r4 in
  let r0 := r2 in
  let r2 := r1 in
  let r1 := r3 in
  let r3 := r4 in
  (r0, r1, r2, r3).

(** rounds, serpent.cpp:27-99: the twelve words put into output_buffer and the
    final contents of the first four registers. *)
Definition rounds (RK : list N) (r0 r1 r2 r3 r4 : N) : list N * (N * N * N * N) :=
  let '(r0, r1, r2, r3) := ARK RK r0 r1 r2 r3 0 in
  let '(r0, r1, r2, r3, r4) := S0 r0 r1 r2 r3 r4 in
  let '(r1, r4, r2, r0) := LT r1 r4 r2 r0 in
  let '(r1, r4, r2, r0) := ARK RK r1 r4 r2 r0 1 in
  let '(r1, r4, r2, r0, r3) := S1 r1 r4 r2 r0 r3 in
  let '(r2, r1, r0, r4) := LT r2 r1 r0 r4 in
  let '(r2, r1, r0, r4) := ARK RK r2 r1 r0 r4 2 in
  let '(r2, r1, r0, r4, r3) := S2 r2 r1 r0 r4 r3 in
  let '(r0, r4, r1, r3) := LT r0 r4 r1 r3 in
  let '(r0, r4, r1, r3) := ARK RK r0 r4 r1 r3 3 in
  let '(r0, r4, r1, r3, r2) := S3 r0 r4 r1 r3 r2 in
  let '(r4, r1, r3, r2) := LT r4 r1 r3 r2 in
  let '(r4, r1, r3, r2) := ARK RK r4 r1 r3 r2 4 in
  let '(r4, r1, r3, r2, r0) := S4 r4 r1 r3 r2 r0 in
  let '(r1, r0, r4, r2) := LT r1 r0 r4 r2 in
  let '(r1, r0, r4, r2) := ARK RK r1 r0 r4 r2 5 in
  let '(r1, r0, r4, r2, r3) := S5 r1 r0 r4 r2 r3 in
  let '(r0, r2, r1, r4) := LT r0 r2 r1 r4 in
  let '(r0, r2, r1, r4) := ARK RK r0 r2 r1 r4 6 in
  let '(r0, r2, r1, r4, r3) := S6 r0 r2 r1 r4 r3 in
  let '(r0, r2, r3, r1) := LT r0 r2 r3 r1 in
  let '(r0, r2, r3, r1) := ARK RK r0 r2 r3 r1 7 in
  let '(r0, r2, r3, r1, r4) := S7 r0 r2 r3 r1 r4 in
  let '(r4, r1, r2, r0) := LT r4 r1 r2 r0 in
  let '(r4, r1, r2, r0) := ARK RK r4 r1 r2 r0 8 in
  let '(r4, r1, r2, r0, r3) := S0 r4 r1 r2 r0 r3 in
  let '(r1, r3, r2, r4) := LT r1 r3 r2 r4 in
  let '(r1, r3, r2, r4) := ARK RK r1 r3 r2 r4 9 in
  let '(r1, r3, r2, r4, r0) := S1 r1 r3 r2 r4 r0 in
  let '(r2, r1, r4, r3) := LT r2 r1 r4 r3 in
  let '(r2, r1, r4, r3) := ARK RK r2 r1 r4 r3 10 in
  let '(r2, r1, r4, r3, r0) := S2 r2 r1 r4 r3 r0 in
  let '(r4, r3, r1, r0) := LT r4 r3 r1 r0 in
  let '(r4, r3, r1, r0) := ARK RK r4 r3 r1 r0 11 in
  let '(r4, r3, r1, r0, r2) := S3 r4 r3 r1 r0 r2 in
  let '(r3, r1, r0, r2) := LT r3 r1 r0 r2 in
  let out1 := [r3; r1; r0; r2] in
  let '(r3, r1, r0, r2) := ARK RK r3 r1 r0 r2 12 in
  let '(r3, r1, r0, r2, r4) := S4 r3 r1 r0 r2 r4 in
  let '(r1, r4, r3, r2) := LT r1 r4 r3 r2 in
  let '(r1, r4, r3, r2) := ARK RK r1 r4 r3 r2 13 in
  let '(r1, r4, r3, r2, r0) := S5 r1 r4 r3 r2 r0 in
  let '(r4, r2, r1, r3) := LT r4 r2 r1 r3 in
  let '(r4, r2, r1, r3) := ARK RK r4 r2 r1 r3 14 in
  let '(r4, r2, r1, r3, r0) := S6 r4 r2 r1 r3 r0 in
  let '(r4, r2, r0, r1) := LT r4 r2 r0 r1 in
  let '(r4, r2, r0, r1) := ARK RK r4 r2 r0 r1 15 in
  let '(r4, r2, r0, r1, r3) := S7 r4 r2 r0 r1 r3 in
  let '(r3, r1, r2, r4) := LT r3 r1 r2 r4 in
  let '(r3, r1, r2, r4) := ARK RK r3 r1 r2 r4 16 in
  let '(r3, r1, r2, r4, r0) := S0 r3 r1 r2 r4 r0 in
  let '(r1, r0, r2, r3) := LT r1 r0 r2 r3 in
  let '(r1, r0, r2, r3) := ARK RK r1 r0 r2 r3 17 in
  let '(r1, r0, r2, r3, r4) := S1 r1 r0 r2 r3 r4 in
  let '(r2, r1, r3, r0) := LT r2 r1 r3 r0 in
  let out2 := [r2; r1; r3; r0] in
  let '(r2, r1, r3, r0) := ARK RK r2 r1 r3 r0 18 in
  let '(r2, r1, r3, r0, r4) := S2 r2 r1 r3 r0 r4 in
  let '(r3, r0, r1, r4) := LT r3 r0 r1 r4 in
  let '(r3, r0, r1, r4) := ARK RK r3 r0 r1 r4 19 in
  let '(r3, r0, r1, r4, r2) := S3 r3 r0 r1 r4 r2 in
  let '(r0, r1, r4, r2) := LT r0 r1 r4 r2 in
  let '(r0, r1, r4, r2) := ARK RK r0 r1 r4 r2 20 in
  let '(r0, r1, r4, r2, r3) := S4 r0 r1 r4 r2 r3 in
  let '(r1, r3, r0, r2) := LT r1 r3 r0 r2 in
  let '(r1, r3, r0, r2) := ARK RK r1 r3 r0 r2 21 in
  let '(r1, r3, r0, r2, r4) := S5 r1 r3 r0 r2 r4 in
  let '(r3, r2, r1, r0) := LT r3 r2 r1 r0 in
  let '(r3, r2, r1, r0) := ARK RK r3 r2 r1 r0 22 in
  let '(r3, r2, r1, r0, r4) := S6 r3 r2 r1 r0 r4 in
  let '(r3, r2, r4, r1) := LT r3 r2 r4 r1 in
  let '(r3, r2, r4, r1) := ARK RK r3 r2 r4 r1 23 in
  let '(r3, r2, r4, r1, r0) := S7 r3 r2 r4 r1 r0 in
  let '(r0, r1, r2, r3) := LT r0 r1 r2 r3 in
  let '(r0, r1, r2, r3) := ARK RK r0 r1 r2 r3 24 in
  (out1 ++ out2 ++ [r0; r1; r2; r3], (r0, r1, r2, r3)).

(** serpent_process_packet, serpent.cpp:100-116.  The block is copied into a
    local array of four words, [rounds] works on it in place and writes 12 words
    to [out] ([out] is not advanced).  [scratch] is the content of the fifth
    register. *)
Definition serpent_process_packet (RK : list N) (scratch : N) (m : mem) (out inp : ptr) (size : N) : res mem :=
  let (m, tmp) := alloc m 16 in
  let* m := memcpy m tmp inp (N.to_nat size) in
  let* m := for_n (N.to_nat ((size + 15) / 16)) 0
    (fun _ m =>
       let* r0 := ld32 m tmp in
       let* r1 := ld32 m (padd tmp 4) in
       let* r2 := ld32 m (padd tmp 8) in
       let* r3 := ld32 m (padd tmp 12) in
       let '(output, (r0, r1, r2, r3)) := rounds RK r0 r1 r2 r3 scratch in
       let* m := for_n 12 0 (fun i m => st32 m (padd out (4 * i)) (nth i output 0%N)) m in
       let* m := st32 m tmp r0 in
       let* m := st32 m (padd tmp 4) r1 in
       let* m := st32 m (padd tmp 8) r2 in
       st32 m (padd tmp 12) r3) m in
  Ret (drop_last m).

(** phi, serpent.cpp:5. *)
Definition phi : N := 0x9e3779b9.
(** N_ROUNDS, serpent.h:11. *)
Definition N_ROUNDS : nat := 25.
(** The words w[0..99] of serpent_key_schedule, serpent.cpp:142-164, from the
    eight words of the padded key. *)
Definition prekeys (key : list N) : list N :=
  let k i := nth i key 0%N in
  let mix a b c d i := ROTL_32 (N.lxor (N.lxor (N.lxor (N.lxor (N.lxor a b) c) d) phi) i) 11 in
  let w0 := mix (k 0) (k 3) (k 5) (k 7) 0%N in
  let w1 := mix (k 1) (k 4) (k 6) w0 1%N in
  let w2 := mix (k 2) (k 5) (k 7) w1 2%N in
  let w3 := mix (k 3) (k 6) w0 w2 3%N in
  let w4 := mix (k 4) (k 7) w1 w3 4%N in
  let w5 := mix (k 5) w0 w2 w4 5%N in
  let w6 := mix (k 6) w1 w3 w5 6%N in
  let w7 := mix (k 7) w2 w4 w6 7%N in
  iter_n (4 * N_ROUNDS - 8) 8
    (fun i w => w ++ [mix (nth (i - 8) w 0%N) (nth (i - 5) w 0%N) (nth (i - 3) w 0%N) (nth (i - 1) w 0%N) (N.of_nat i)])
    [w0; w1; w2; w3; w4; w5; w6; w7].

(** The order in which serpent.cpp:191-340 stores the registers after each
    S-box call (the order is the same in all calls of one S-box), e.g. lines
    192-196, 198-202, 204-208, 210-214, 216-220, 222-226, 228-232, 234-238.
    The last component is the scratch register. *)
Definition K3 '((r0, r1, r2, r3, r4) : regs) : list N * N := ([r1; r2; r3; r4], r4).
(** After S2, serpent.cpp:198-202. *)
Definition K2 '((r0, r1, r2, r3, r4) : regs) : list N * N := ([r2; r3; r1; r4], r4).
(** After S1, serpent.cpp:204-208. *)
Definition K1 '((r0, r1, r2, r3, r4) : regs) : list N * N := ([r2; r0; r3; r1], r4).
(** After S0, serpent.cpp:210-214. *)
Definition K0 '((r0, r1, r2, r3, r4) : regs) : list N * N := ([r1; r4; r2; r0], r4).
(** After S7, serpent.cpp:216-220. *)
Definition K7 '((r0, r1, r2, r3, r4) : regs) : list N * N := ([r4; r3; r1; r0], r4).
(** After S6, serpent.cpp:222-226. *)
Definition K6 '((r0, r1, r2, r3, r4) : regs) : list N * N := ([r0; r1; r4; r2], r4).
(** After S5, serpent.cpp:228-232. *)
Definition K5 '((r0, r1, r2, r3, r4) : regs) : list N * N := ([r1; r3; r0; r2], r4).
(** After S4, serpent.cpp:234-238. *)
Definition K4 '((r0, r1, r2, r3, r4) : regs) : list N * N := ([r1; r4; r0; r3], r4).

(** serpent.cpp:189-340: subkey [i] is made from w[4i..4i+3]. *)
Definition sbox_calls : list ((N -> N -> N -> N -> N -> regs) * (regs -> list N * N)) :=
  [(S3, K3); (S2, K2); (S1, K1); (S0, K0); (S7, K7); (S6, K6); (S5, K5); (S4, K4);
   (S3, K3); (S2, K2); (S1, K1); (S0, K0); (S7, K7); (S6, K6); (S5, K5); (S4, K4);
   (S3, K3); (S2, K2); (S1, K1); (S0, K0); (S7, K7); (S6, K6); (S5, K5); (S4, K4);
   (S3, K3)].
(** The calls one after the other, serpent.cpp:189-340; the scratch register is
    handed on. *)
Fixpoint subkeys (calls : list ((N -> N -> N -> N -> N -> regs) * (regs -> list N * N))) (i : nat) (w : list N) (r4 : N) : list N :=
  match calls with
  | [] => []
  | (s, k) :: calls =>
      let (rk, r4) := k (s (nth (4 * i) w 0%N) (nth (4 * i + 1) w 0%N) (nth (4 * i + 2) w 0%N) (nth (4 * i + 3) w 0%N) r4) in
      rk ++ subkeys calls (S i) w r4
  end.

(** serpent_key_schedule, serpent.cpp:118-401.  [Ret None] is exit(1), line
    122; otherwise the contents of RK. *)
Definition serpent_key_schedule (scratch : N) (m : mem) (input_key : ptr) (size : Z) : res (option (list N)) :=
  if (32 <? size)%Z then Ret None else
  let (m, key) := alloc m 32 in
  let* m := memcpy_int m key input_key size in
  let* m :=
    if (size <? 32)%Z then
      let* m := st8 m (padd key (Z.to_nat size)) 0x80 in
      for_n (32 - Z.to_nat (size + 1)) (Z.to_nat (size + 1)) (fun i m => st8 m (padd key i) 0x00) m
    else Ret m in
  let* k := ld_words m key 8 in
  Ret (Some (subkeys sbox_calls 0 (prekeys k) scratch)).
