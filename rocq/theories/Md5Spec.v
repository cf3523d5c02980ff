(** MD5 as in RFC 1321. *)
From Coq Require Import NArith ZArith Arith List.
From Verif Require Import SpecWords.
Import ListNotations.
Local Open Scope N_scope.

(** ** The table T: the integer part of 4294967296 times abs(sin(i)), i in
    radians (3.4), computed in fixed point with 192 fractional bits. *)
Definition one : Z := (2 ^ 192)%Z.
(** The terms one/n!, with alternating signs: sin 1 from the odd n, cos 1 from
    the even ones. *)
Fixpoint series (n : nat) (k : Z) (term : Z) : Z * Z :=
  match n with
  | O => (0, 0)%Z
  | S n => let '(a, b) := series n (k + 1) (term / k) in (term - b, a)%Z
  end.
(** [series] returns (x0 - x2 + x4 ..., x1 - x3 + ...). *)
Definition cos1 : Z := fst (series 60 1 one).
Definition sin1 : Z := snd (series 60 1 one).
Fixpoint sines (n : nat) (s c : Z) : list Z :=
  match n with
  | O => []
  | S n => s :: sines n ((s * cos1 + c * sin1) / one)%Z ((c * cos1 - s * sin1) / one)%Z
  end.
Definition T : list N := map (fun s => Z.to_N (Z.abs s / 2 ^ 160)) (sines 64 sin1 cos1).

(** ** The functions (3.4) *)
Definition F (x y z : N) := N.lor (N.land x y) (N.land (compl_w32 x) z).
Definition G (x y z : N) := N.lor (N.land x z) (N.land y (compl_w32 z)).
Definition H (x y z : N) := N.lxor (N.lxor x y) z.
Definition I (x y z : N) := N.lxor y (N.lor x (compl_w32 z)).

(** Operation [i] (from 0) of the 64: its function, message word and rotation. *)
Definition fn (i : nat) : N -> N -> N -> N :=
  if (i <? 16)%nat then F else if (i <? 32)%nat then G else if (i <? 48)%nat then H else I.
Definition word_index (i : nat) : nat :=
  ((if (i <? 16)%nat then i else if (i <? 32)%nat then 5 * i + 1 else if (i <? 48)%nat then 3 * i + 5 else 7 * i) mod 16)%nat.
Definition rotation (i : nat) : N :=
  nth (i mod 4)%nat (if (i <? 16)%nat then [7; 12; 17; 22] else if (i <? 32)%nat then [5; 9; 14; 20]
                 else if (i <? 48)%nat then [4; 11; 16; 23] else [6; 10; 15; 21]) 0.

Definition state4 : Type := N * N * N * N.
(** a = b + ((a + F(b,c,d) + X[k] + T[i]) <<< s); the registers then change roles. *)
Definition step (X : list N) (s : state4) (i : nat) : state4 :=
  let '(a, b, c, d) := s in
  let a' := add_w32 b (rol_w32 (rotation i) ((a + fn i b c d + nth (word_index i) X 0 + nth i T 0) mod 2^32)) in
  (d, a', b, c).
Definition add4 (x y : state4) : state4 :=
  let '(a, b, c, d) := x in let '(a', b', c', d') := y in
  (add_w32 a a', add_w32 b b', add_w32 c c', add_w32 d d').
Definition compress (s : state4) (block : list N) : state4 :=
  add4 s (fold_left (step (map le_num (chunks 4 block))) (seq 0 64) s).

(** 3.3; and 3.1, 3.2: a one bit, zeros up to 56 bytes modulo 64, and the low-order 64
    bits of the length in bits. *)
Definition init : state4 := (0x67452301, 0xefcdab89, 0x98badcfe, 0x10325476).
Definition pad (msg : list N) : list N :=
  msg ++ [128] ++ repeat 0 ((119 - length msg mod 64) mod 64)%nat ++ le_str 8 ((8 * N.of_nat (length msg)) mod 2^64).
Definition output (s : state4) : list N :=
  let '(a, b, c, d) := s in flat_map (le_str 4) [a; b; c; d].
Definition md5 (msg : list N) : list N := output (fold_left compress (chunks 64 (pad msg)) init).

(** From the test suite of RFC 1321, A.5. *)
Definition hex (l : list N) : N := be_num l.
Example md5_empty : hex (md5 []) = 0xd41d8cd98f00b204e9800998ecf8427e.
Proof. vm_compute. reflexivity. Qed.
Example md5_digits : hex (md5 (concat (repeat [0x31; 0x32; 0x33; 0x34; 0x35; 0x36; 0x37; 0x38; 0x39; 0x30] 8)))
  = 0x57edf4a22be3c955ac49da2e2107b67a.
Proof. vm_compute. reflexivity. Qed.
Example md5_alphabet : hex (md5 (map N.of_nat (seq 0x61 26))) = 0xc3fcd3d76192e4007dfb496cca67e13b.
Proof. vm_compute. reflexivity. Qed.
