(** Model of StreamCiphers/HC-128/hc128.cpp and hc128.h. *)
From Coq Require Import NArith ZArith Arith List.
From Verif Require Import Res Words Mem Ints.
Import ListNotations.

(** hc128_state, hc128.h:37-40. *)
Record hc128_state := HcState { P : list N; Q : list N }.

(** A word of one of the 512-word tables (hc128.h:38-39) or of W (hc128.cpp:18).  Every index the code forms
    is masked with 0x1FF, is a byte, or is 256 plus a byte, so reads are inside
    the tables; the model reads 0 outside. *)
Definition tab (t : list N) (i : nat) : N := nth i t 0%N.

(** f1, hc128.h:46-49 (ROTR_32, ROTL_32: lines 31-32). *)
Definition f1 (x : N) : N := N.lxor (N.lxor (rotr32 x 7) (rotr32 x 18)) (shr32 x 3).
(** f2, hc128.h:51-54. *)
Definition f2 (x : N) : N := N.lxor (N.lxor (rotr32 x 17) (rotr32 x 19)) (shr32 x 10).
(** g1, hc128.h:56-59. *)
Definition g1 (x y z : N) : N := add32 (N.lxor (rotr32 x 10) (rotr32 z 23)) (rotr32 y 8).
(** g2, hc128.h:61-64. *)
Definition g2 (x y z : N) : N :=
  add32 (N.lxor (rotr32 x (32 - 10)) (rotr32 z (32 - 23))) (rotr32 y (32 - 8)).
(** h1, hc128.h:66-70. *)
Definition h1 (cs : hc128_state) (x : N) : N :=
  add32 (tab (Q cs) (N.to_nat (u8 x))) (tab (Q cs) (256 + N.to_nat (u8 (shr32 x 16)))).
(** h2, hc128.h:72-76. *)
Definition h2 (cs : hc128_state) (x : N) : N :=
  add32 (tab (P cs) (N.to_nat (u8 x))) (tab (P cs) (256 + N.to_nat (u8 (shr32 x 16)))).

(** (i-k)&0x1FF on a possibly negative [int], hc128.cpp:48-59. *)
Definition masked (i k : Z) : nat := Z.to_nat (Z.land (i - k) 0x1FF).

(** The table expression of hc128.cpp:48-51. *)
Definition warm_P (cs : hc128_state) (i : nat) : N :=
  let z := Z.of_nat i in
  N.lxor (add32 (tab (P cs) i)
            (g1 (tab (P cs) (masked z 3)) (tab (P cs) (masked z 10)) (tab (P cs) (masked z 511))))
         (h1 cs (tab (P cs) (masked z 12))).
(** The table expression of hc128.cpp:56-59. *)
Definition warm_Q (cs : hc128_state) (i : nat) : N :=
  let z := Z.of_nat i in
  N.lxor (add32 (tab (Q cs) i)
            (g2 (tab (Q cs) (masked z 3)) (tab (Q cs) (masked z 10)) (tab (Q cs) (masked z 511))))
         (h2 cs (tab (Q cs) (masked z 12))).

(** hc128_initialize, hc128.cpp:14-62.  The elements of W not yet written are
    0 in the model; they are never read before they are written. *)
Definition hc128_initialize (m : mem) (key iv : ptr) : res hc128_state :=
  let* k := ld_words m key 4 in
  let* v := ld_words m iv 4 in
  let W := k ++ k ++ v ++ v ++ repeat 0%N (1280 - 16) in
  let W := iter_n (1280 - 16) 16
    (fun i W => upd i (add32 (add32 (add32 (add32 (f2 (tab W (i - 2))) (tab W (i - 7)))
                                       (f1 (tab W (i - 15)))) (tab W (i - 16))) (N.of_nat i)) W) W in
  let cs := iter_n 512 0
    (fun i cs => HcState (upd i (tab W (i + 256)) (P cs)) (upd i (tab W (i + 768)) (Q cs)))
    (HcState (repeat 0%N 512) (repeat 0%N 512)) in
  let cs := iter_n 512 0 (fun i cs => HcState (upd i (warm_P cs i) (P cs)) (Q cs)) cs in
  Ret (iter_n 512 0 (fun i cs => HcState (P cs) (upd i (warm_Q cs i) (Q cs))) cs).

(** The body of the loop of hc128_generate_keystream, hc128.cpp:69-85: the word
    produced in iteration [i] and the new state. *)
Definition generate_step (i : nat) (cs : hc128_state) : N * hc128_state :=
  let j := Z.to_nat (Z.land (Z.of_nat i) 0x1FF) in
  let z := Z.of_nat j in
  if (Z.land (Z.of_nat i) 0x3FF <? 512)%Z then
    let cs := HcState (upd j (add32 (tab (P cs) j)
                 (g1 (tab (P cs) (masked z 3)) (tab (P cs) (masked z 10)) (tab (P cs) (masked z 511))))
                 (P cs)) (Q cs) in
    (N.lxor (h1 cs (tab (P cs) (masked z 12))) (tab (P cs) j), cs)
  else
    let cs := HcState (P cs) (upd j (add32 (tab (Q cs) j)
                 (g2 (tab (Q cs) (masked z 3)) (tab (Q cs) (masked z 10)) (tab (Q cs) (masked z 511))))
                 (Q cs)) in
    (N.lxor (h2 cs (tab (Q cs) (masked z 12))) (tab (Q cs) j), cs).

(** hc128_generate_keystream, hc128.cpp:64-87.  The loop runs for i = 0, ...,
    (size-1)/4; the increment of the [int] i may overflow. *)
Definition hc128_generate_keystream (cs : hc128_state) (size : N) : res (list N * hc128_state) :=
  for_n (S (N.to_nat (N.div (sub64 size 1) 4))) 0
    (fun i '(ks, cs) =>
       let (w, cs) := generate_step i cs in
       let* _ := int_ret (Z.of_nat i + 1) in
       Ret (ks ++ [w], cs)) ([], cs).

(** hc128_process_packet, hc128.cpp:89-115.  The while loop gets fuel size + 1;
    [size] decreases.  The int [counter] stays below the int [i] of the
    generation loop, so it cannot overflow separately. *)
Definition hc128_process_packet (cs : hc128_state) (m : mem) (output input : ptr) (size : N)
    : res (hc128_state * mem) :=
  if (size <? 1)%N then Ret (cs, m) else
  let* (ks, cs) := hc128_generate_keystream cs size in
  let* (m, output, input, counter, size) :=
    while (S (N.to_nat size))
      (fun '(m, output, input, counter, size) => (3 <? size)%N)
      (fun '(m, output, input, counter, size) =>
         let* w := ks_word ks counter in
         let* m := (let* x := ld32 m input in st32 m output (N.lxor x w)) in
         Ret (m, padd output 4, padd input 4, S counter, (size - 4)%N))
      (m, output, input, 0, size) in
  let* m :=
    for_n (N.to_nat size) 0
      (fun i m =>
         let* w := ks_word ks (counter + i / 4) in
         let* x := ld8 m (padd input i) in
         st8 m (padd output i) (N.lxor x (byte_of w (N.of_nat (i mod 4)))))
      m in
  Ret (cs, m).
