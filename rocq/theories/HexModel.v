(** Model of Encoders/Hex/encoder.cpp. *)
From Coq Require Import NArith ZArith List.
From Verif Require Import Res Words Mem Ints.
Import ListNotations.

(** One digit as printed by the "%02X" conversion used in
    Encoders/Hex/encoder.cpp:25 (upper-case digits). *)
Definition hex_char (d : N) : N :=
  if (d <? 10)%N then (48 + d)%N else (55 + d)%N.

(** sprintf(output+i, "%02X", byte), Encoders/Hex/encoder.cpp:25: two digits
    and a terminating NUL. *)
Definition sprintf_02X (m : mem) (p : ptr) (c : N) : res mem :=
  stn m p [hex_char (N.shiftr c 4); hex_char (N.land c 15); 0%N].

(** hex_encode, Encoders/Hex/encoder.cpp:14-30.  [loop] and [i] are C ints
    (overflow is UB); the while loop runs with [fuel]. *)
Definition hex_encode (fuel : nat) (m : mem) (output input : ptr) (size : Z) : res mem :=
  let* (m, loop, i) :=
    while fuel
      (fun '(m, loop, i) => negb (loop =? size)%Z)
      (fun '(m, loop, i) =>
         let* c := ld8 m (padd input (Z.to_nat loop)) in
         let* m := sprintf_02X m (padd output (Z.to_nat i)) c in
         let* loop := int_ret (loop + 1) in
         let* i := int_ret (i + 2) in
         Ret (m, loop, i))
      (m, 0%Z, 0%Z) in
  let* _ := int_ret (i + 1) in
  st8 m (padd output (Z.to_nat i)) 0.

(** hex_to_int, Encoders/Hex/encoder.cpp:32-39. *)
Definition hex_to_int (c : N) : Z :=
  let first := (Z.of_N (c / 16) - 3)%Z in
  let second := Z.of_N (c mod 16) in
  let result := (first * 10 + second)%Z in
  if (9 <? result)%Z then (result - 1)%Z else result.

(** hex_to_ascii, Encoders/Hex/encoder.cpp:41-46. *)
Definition hex_to_ascii (c d : N) : Z :=
  (hex_to_int c * 16 + hex_to_int d)%Z.

(** hex_decode, Encoders/Hex/encoder.cpp:48-66.  The state is (memory, output
    pointer, buf); [tmp] is the conversion of the int to uint8_t. *)
Definition hex_decode (m : mem) (output input : ptr) (size : Z) : res mem :=
  let* (m, output, buf) :=
    for_n (Z.to_nat size) 0
      (fun i '(m, output, buf) =>
         let* c := ld8 m (padd input i) in
         if negb (Nat.eqb (i mod 2) 0)
         then
           let tmp := Z.to_N (hex_to_ascii buf c mod 256) in
           let* m := st8 m output tmp in
           Ret (m, padd output 1, buf)
         else Ret (m, output, c))
      (m, output, 0%N) in
  Ret m.
