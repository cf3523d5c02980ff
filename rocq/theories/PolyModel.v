(** Model of the one complete function of Authentication/Poly1305: [clamp],
    poly1305.h:67-76.  le_bytes_to_num (poly1305.h:59-65) and poly1305_mac
    (poly1305.cpp) do not compile and are not modelled. *)
From Coq Require Import NArith List.
From Verif Require Import Res Words Mem.
Import ListNotations.

(** [r[i] &= c;], the statement form of poly1305.h:69-75. *)
Definition and_byte (m : mem) (r : ptr) (i : nat) (c : N) : res mem :=
  let* b := ld8 m (padd r i) in st8 m (padd r i) (N.land b c).

(** clamp, poly1305.h:67-76. *)
Definition clamp (m : mem) (r : ptr) : res mem :=
  let* m := and_byte m r 3 15 in
  let* m := and_byte m r 7 15 in
  let* m := and_byte m r 11 15 in
  let* m := and_byte m r 15 15 in
  let* m := and_byte m r 4 252 in
  let* m := and_byte m r 8 252 in
  and_byte m r 12 252.
