(** Model of StreamCiphers/Rabbit/rabbit.cpp and rabbit.h (without DEBUG). *)
From Coq Require Import NArith ZArith Arith List.
From Verif Require Import Res Words Mem.
Import ListNotations.

(** rabbit_state, rabbit.h:32-38. *)
Record rabbit_state := Rabbit {
  MASTER_X : list N; MASTER_C : list N; X : list N; C : list N; carry : N }.

(** A, rabbit.h:27-30. *)
Definition A : list N := [
  0x4d34d34d; 0xd34d34d3; 0x34d34d34; 0x4d34d34d;
  0xd34d34d3; 0x34d34d34; 0x4d34d34d; 0xd34d34d3 ]%N.
(** WORDSIZE, rabbit.h:25. *)
Definition WORDSIZE : N := 0x100000000%N.

(** One word of X, C, MASTER_X, MASTER_C or G, rabbit.h:33-36, 76. *)
Definition el (l : list N) (i : nat) : N := nth i l 0%N.

(** Aligned 16-bit reads (little-endian host) through key_ptr and iv_u16,
    rabbit.cpp:29, 118. *)
Definition ld16 (m : mem) (p : ptr) : res N :=
  let* b0 := ld8 m p in let* b1 := ld8 m (padd p 1) in Ret (b0 + 256 * b1)%N.
(** All the 16-bit halves of the key or the IV, rabbit.cpp:29-67, 118-127. *)
Definition ld_halves (m : mem) (p : ptr) (n : nat) : res (list N) :=
  for_n n 0 (fun i l => let* h := ld16 m (padd p (2 * i)) in Ret (l ++ [h])) [].

(** The square of line 42 of rabbit.h is computed in the signed type long
    (WORDSIZE is a long constant).  [strict_sq] follows the C++ standard:
    overflow is undefined.  [wrap_sq] is the two's complement result a compiler
    gives with -fwrapv, converted to uint64_t. *)
Definition strict_sq (s : N) : res N := if (s * s <? 0x8000000000000000)%N then Ret (s * s)%N else UB.
(** The wrapping variant of rabbit.h:42. *)
Definition wrap_sq (s : N) : res N := Ret (u64 (s * s)).

Section WithSquare.
Variable sq : N -> res N.

(** g, rabbit.h:40-46. *)
Definition g (u v : N) : res N :=
  let* hold := sq (N.modulo (add32 u v) WORDSIZE) in
  let LSW := u32 (N.land hold 0xffffffff) in
  let MSW := u32 (N.land (N.shiftr hold 32) 0xffffffff) in
  Ret (N.lxor LSW MSW).

(** rabbit_counter, rabbit.h:58-72. *)
Definition rabbit_counter (cs : rabbit_state) : rabbit_state :=
  let '(c, b) := iter_n 8 0
    (fun j '(c, b) =>
       let temp := (el c j + el A j + b)%N in
       (upd j (N.modulo temp WORDSIZE) c, if (WORDSIZE <? temp)%N then 1%N else 0%N))
    (C cs, carry cs) in
  Rabbit (MASTER_X cs) (MASTER_C cs) (X cs) c b.

(** ROTL_32, rabbit.h:22-23. *)
Definition ROTL_32 (x n : N) : N := rotr32 x (32 - n).
(** rabbit_next_state, rabbit.h:74-90. *)
Definition rabbit_next_state (cs : rabbit_state) : res rabbit_state :=
  let* G := for_n 8 0 (fun j G => let* r := g (el (X cs) j) (el (C cs) j) in Ret (G ++ [r])) [] in
  let G j := el G j in
  let X' := [
    N.modulo (add32 (add32 (G 0) (ROTL_32 (G 7) 16)) (ROTL_32 (G 6) 16)) WORDSIZE;
    N.modulo (add32 (add32 (G 1) (ROTL_32 (G 0) 8)) (G 7)) WORDSIZE;
    N.modulo (add32 (add32 (G 2) (ROTL_32 (G 1) 16)) (ROTL_32 (G 0) 16)) WORDSIZE;
    N.modulo (add32 (add32 (G 3) (ROTL_32 (G 2) 8)) (G 1)) WORDSIZE;
    N.modulo (add32 (add32 (G 4) (ROTL_32 (G 3) 16)) (ROTL_32 (G 2) 16)) WORDSIZE;
    N.modulo (add32 (add32 (G 5) (ROTL_32 (G 4) 8)) (G 3)) WORDSIZE;
    N.modulo (add32 (add32 (G 6) (ROTL_32 (G 5) 16)) (ROTL_32 (G 4) 16)) WORDSIZE;
    N.modulo (add32 (add32 (G 7) (ROTL_32 (G 6) 8)) (G 5)) WORDSIZE ] in
  Ret (Rabbit (MASTER_X cs) (MASTER_C cs) X' (C cs) (carry cs)).

(** The pair of calls at rabbit.cpp:76-77, 131-132, 139-140. *)
Definition rabbit_step (cs : rabbit_state) : res rabbit_state := rabbit_next_state (rabbit_counter cs).

(** rabbit_load_key, rabbit.cpp:23-99.  Every member of the structure is
    assigned, so its previous contents do not matter. *)
Definition rabbit_load_key (m : mem) (key : ptr) : res rabbit_state :=
  let* k := ld_halves m key 8 in
  let k j := el k (Nat.land j 7) in
  let word hi lo := N.lor (shl32 hi 16) lo in
  let x := map (fun j => if Nat.odd j then word (k (j + 5)) (k (j + 4)) else word (k (j + 1)) (k j)) (seq 0 8) in
  let c := map (fun j => if Nat.odd j then word (k j) (k (j + 1)) else word (k (j + 4)) (k (j + 5))) (seq 0 8) in
  let* cs := for_n 4 0 (fun _ cs => rabbit_step cs) (Rabbit [] [] x c 0) in
  let c := map (fun j => N.lxor (el (C cs) j) (el (X cs) (Nat.land (j + 4) 7))) (seq 0 8) in
  Ret (Rabbit (X cs) c (X cs) c (carry cs)).

(** rabbit_load_iv, rabbit.cpp:105-134.  [carry] keeps its value. *)
Definition rabbit_load_iv (cs : rabbit_state) (m : mem) (iv : ptr) : res rabbit_state :=
  let* h := ld_halves m iv 4 in
  let* w0 := ld32 m iv in
  let* w1 := ld32 m (padd iv 4) in
  let odd1 := N.lor (shl32 (el h 3) 16) (el h 1) in
  let odd3 := N.lor (shl32 (el h 2) 16) (el h 0) in
  let mc j := el (MASTER_C cs) j in
  let c := [ N.lxor (mc 0) w0; N.lxor (mc 1) odd1; N.lxor (mc 2) w1; N.lxor (mc 3) odd3;
             N.lxor (mc 4) w0; N.lxor (mc 5) odd1; N.lxor (mc 6) w1; N.lxor (mc 7) odd3 ] in
  for_n 4 0 (fun _ cs => rabbit_step cs)
    (Rabbit (MASTER_X cs) (MASTER_C cs) (MASTER_X cs) c (carry cs)).

(** rabbit_extract_keystream, rabbit.cpp:136-153: the four words of keystream,
    written as 16-bit halves. *)
Definition rabbit_extract_keystream (cs : rabbit_state) : res (list N * rabbit_state) :=
  let* cs := rabbit_step cs in
  let lo j := N.land (el (X cs) j) 0xffff in
  let hi j := N.land (shr32 (el (X cs) j) 16) 0xffff in
  let word h0 h1 := (h0 + 65536 * h1)%N in
  Ret ([ word (N.lxor (lo 0) (hi 5)) (N.lxor (hi 0) (lo 3));
         word (N.lxor (lo 2) (hi 7)) (N.lxor (hi 2) (lo 5));
         word (N.lxor (lo 4) (hi 1)) (N.lxor (hi 4) (lo 7));
         word (N.lxor (lo 6) (hi 3)) (N.lxor (hi 6) (lo 1)) ], cs).

(** One word of a packet, rabbit.cpp:166, 169, 172, 175. *)
Definition xor_word (m : mem) (out inp : ptr) (w : N) : res mem :=
  let* x := ld32 m inp in st32 m out (N.lxor x w).
(** rabbit_process_packet, rabbit.cpp:155-196.  The first loop gets fuel
    size + 1. *)
Definition rabbit_process_packet (cs : rabbit_state) (m : mem) (output input : ptr) (size : N)
    : res (rabbit_state * mem) :=
  let* (cs, m, output, input, size_left) :=
    while (S (N.to_nat size))
      (fun '(cs, m, output, input, size_left) => (15 <? size_left)%N)
      (fun '(cs, m, output, input, size_left) =>
         let* (ks, cs) := rabbit_extract_keystream cs in
         let* m := xor_word m output input (el ks 0) in
         let* m := xor_word m (padd output 4) (padd input 4) (el ks 1) in
         let* m := xor_word m (padd output 8) (padd input 8) (el ks 2) in
         let* m := xor_word m (padd output 12) (padd input 12) (el ks 3) in
         Ret (cs, m, padd output 16, padd input 16, (size_left - 16)%N))
      (cs, m, output, input, size) in
  if (0 <? size_left)%N then
    let* (ks, cs) := rabbit_extract_keystream cs in
    let* m := for_n (N.to_nat size_left) 0
      (fun i m => let* w := ks_word ks (i / 4) in
                  let* x := ld8 m (padd input i) in
                  st8 m (padd output i) (N.lxor x (byte_of w (N.of_nat (i mod 4))))) m in
    Ret (cs, m)
  else Ret (cs, m).
End WithSquare.
