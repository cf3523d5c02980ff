(** The packet function of HcModel, which also lists the entries of P and Q that
    h1 and h2 read, in the order of the source.  Every other address it reads or
    writes depends on the pointers and the size it is given only.  What
    hc128_initialize reads is not listed. *)
From Coq Require Import NArith ZArith Arith List.
From Verif Require Import Res Words Mem Ints HcModel HcLookupSpec.
Import ListNotations.

(** The two reads of h1 or h2, hc128.h:66-76. *)
Definition h_seen (t : table) (x : N) : list entry := [(t, u8 x); (t, (256 + u8 (shr32 x 16))%N)].

(** The body of the loop of hc128_generate_keystream, hc128.cpp:69-85. *)
Definition generate_step_seen (i : nat) (cs : hc128_state) : N * hc128_state * list entry :=
  let j := Z.to_nat (Z.land (Z.of_nat i) 0x1FF) in
  let z := Z.of_nat j in
  if (Z.land (Z.of_nat i) 0x3FF <? 512)%Z then
    let cs := HcState (upd j (add32 (tab (P cs) j)
                 (g1 (tab (P cs) (masked z 3)) (tab (P cs) (masked z 10)) (tab (P cs) (masked z 511))))
                 (P cs)) (Q cs) in
    (N.lxor (h1 cs (tab (P cs) (masked z 12))) (tab (P cs) j), cs, h_seen TableQ (tab (P cs) (masked z 12)))
  else
    let cs := HcState (P cs) (upd j (add32 (tab (Q cs) j)
                 (g2 (tab (Q cs) (masked z 3)) (tab (Q cs) (masked z 10)) (tab (Q cs) (masked z 511))))
                 (Q cs)) in
    (N.lxor (h2 cs (tab (Q cs) (masked z 12))) (tab (Q cs) j), cs, h_seen TableP (tab (Q cs) (masked z 12))).

(** hc128_generate_keystream, hc128.cpp:64-87. *)
Definition generate_keystream_seen (cs : hc128_state) (size : N) : res (list N * hc128_state * list entry) :=
  for_n (S (N.to_nat (N.div (sub64 size 1) 4))) 0
    (fun i '(ks, cs, tr) =>
       let '(w, cs, seen) := generate_step_seen i cs in
       let* _ := int_ret (Z.of_nat i + 1) in
       Ret (ks ++ [w], cs, tr ++ seen)) ([], cs, []).

(** hc128_process_packet, hc128.cpp:89-115. *)
Definition process_packet_seen (cs : hc128_state) (m : mem) (output input : ptr) (size : N)
    : res (hc128_state * mem * list entry) :=
  if (size <? 1)%N then Ret (cs, m, []) else
  let* (ks, cs, tr) := generate_keystream_seen cs size in
  let* (m, output, input, counter, size) :=
    while (S (N.to_nat size))
      (fun '(m, output, input, counter, size) => (3 <? size)%N)
      (fun '(m, output, input, counter, size) =>
         let* w := ks_word ks counter in
         let* m := (let* x := ld32 m input in st32 m output (N.lxor x w)) in
         Ret (m, padd output 4, padd input 4, S counter, (size - 4)%N))
      (m, output, input, 0, size) in
  let* m :=
    for_n (N.to_nat size) 0
      (fun i m =>
         let* w := ks_word ks (counter + i / 4) in
         let* x := ld8 m (padd input i) in
         st8 m (padd output i) (N.lxor x (byte_of w (N.of_nat (i mod 4)))))
      m in
  Ret (cs, m, tr).
