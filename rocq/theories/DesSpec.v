(** DES, FIPS 46-3.  A block is a list of 64 bits; bit 1 of the standard is the
    first of the list. *)
From Coq Require Import NArith List Bool.
Import ListNotations.

(** [select tbl l]: the bits of [l] with the (1-based) numbers in [tbl]. *)
Definition select (tbl : list nat) (l : list bool) : list bool :=
  map (fun i => nth (i - 1) l false) tbl.

Definition IP : list nat :=
  [58;50;42;34;26;18;10;2; 60;52;44;36;28;20;12;4; 62;54;46;38;30;22;14;6; 64;56;48;40;32;24;16;8;
   57;49;41;33;25;17;9;1; 59;51;43;35;27;19;11;3; 61;53;45;37;29;21;13;5; 63;55;47;39;31;23;15;7].
Definition IP_inverse : list nat :=
  [40;8;48;16;56;24;64;32; 39;7;47;15;55;23;63;31; 38;6;46;14;54;22;62;30; 37;5;45;13;53;21;61;29;
   36;4;44;12;52;20;60;28; 35;3;43;11;51;19;59;27; 34;2;42;10;50;18;58;26; 33;1;41;9;49;17;57;25].
Definition E : list nat :=
  [32;1;2;3;4;5; 4;5;6;7;8;9; 8;9;10;11;12;13; 12;13;14;15;16;17;
   16;17;18;19;20;21; 20;21;22;23;24;25; 24;25;26;27;28;29; 28;29;30;31;32;1].
Definition P : list nat :=
  [16;7;20;21; 29;12;28;17; 1;15;23;26; 5;18;31;10; 2;8;24;14; 32;27;3;9; 19;13;30;6; 22;11;4;25].
Definition PC1 : list nat :=
  [57;49;41;33;25;17;9; 1;58;50;42;34;26;18; 10;2;59;51;43;35;27; 19;11;3;60;52;44;36;
   63;55;47;39;31;23;15; 7;62;54;46;38;30;22; 14;6;61;53;45;37;29; 21;13;5;28;20;12;4].
Definition PC2 : list nat :=
  [14;17;11;24;1;5; 3;28;15;6;21;10; 23;19;12;4;26;8; 16;7;27;20;13;2;
   41;52;31;37;47;55; 30;40;51;45;33;48; 44;49;39;56;34;53; 46;42;50;36;29;32].
Definition shifts : list nat := [1;1;2;2;2;2;2;2;1;2;2;2;2;2;2;1].

Definition S1 : list N :=
  [14;4;13;1;2;15;11;8;3;10;6;12;5;9;0;7; 0;15;7;4;14;2;13;1;10;6;12;11;9;5;3;8;
   4;1;14;8;13;6;2;11;15;12;9;7;3;10;5;0; 15;12;8;2;4;9;1;7;5;11;3;14;10;0;6;13]%N.
Definition S2 : list N :=
  [15;1;8;14;6;11;3;4;9;7;2;13;12;0;5;10; 3;13;4;7;15;2;8;14;12;0;1;10;6;9;11;5;
   0;14;7;11;10;4;13;1;5;8;12;6;9;3;2;15; 13;8;10;1;3;15;4;2;11;6;7;12;0;5;14;9]%N.
Definition S3 : list N :=
  [10;0;9;14;6;3;15;5;1;13;12;7;11;4;2;8; 13;7;0;9;3;4;6;10;2;8;5;14;12;11;15;1;
   13;6;4;9;8;15;3;0;11;1;2;12;5;10;14;7; 1;10;13;0;6;9;8;7;4;15;14;3;11;5;2;12]%N.
Definition S4 : list N :=
  [7;13;14;3;0;6;9;10;1;2;8;5;11;12;4;15; 13;8;11;5;6;15;0;3;4;7;2;12;1;10;14;9;
   10;6;9;0;12;11;7;13;15;1;3;14;5;2;8;4; 3;15;0;6;10;1;13;8;9;4;5;11;12;7;2;14]%N.
Definition S5 : list N :=
  [2;12;4;1;7;10;11;6;8;5;3;15;13;0;14;9; 14;11;2;12;4;7;13;1;5;0;15;10;3;9;8;6;
   4;2;1;11;10;13;7;8;15;9;12;5;6;3;0;14; 11;8;12;7;1;14;2;13;6;15;0;9;10;4;5;3]%N.
Definition S6 : list N :=
  [12;1;10;15;9;2;6;8;0;13;3;4;14;7;5;11; 10;15;4;2;7;12;9;5;6;1;13;14;0;11;3;8;
   9;14;15;5;2;8;12;3;7;0;4;10;1;13;11;6; 4;3;2;12;9;5;15;10;11;14;1;7;6;0;8;13]%N.
Definition S7 : list N :=
  [4;11;2;14;15;0;8;13;3;12;9;7;5;10;6;1; 13;0;11;7;4;9;1;10;14;3;5;12;2;15;8;6;
   1;4;11;13;12;3;7;14;10;15;6;8;0;5;9;2; 6;11;13;8;1;4;10;7;9;5;0;15;14;2;3;12]%N.
Definition S8 : list N :=
  [13;2;8;4;6;15;11;1;10;9;3;14;5;0;12;7; 1;15;13;8;10;3;7;4;12;5;6;11;0;14;9;2;
   7;11;4;1;9;12;14;2;0;6;10;13;15;3;5;8; 2;1;14;7;4;10;8;13;15;12;9;0;3;5;6;11]%N.

Definition bit (b : bool) : N := if b then 1 else 0.
(** One S-box: the first and last of the six bits give the row, the others the
    column; the result is written with its most significant bit first. *)
Definition sbox (S : list N) (l : list bool) : list bool :=
  match l with
  | [b1;b2;b3;b4;b5;b6] =>
      let row := (2 * bit b1 + bit b6)%N in
      let col := (8 * bit b2 + 4 * bit b3 + 2 * bit b4 + bit b5)%N in
      let v := nth (N.to_nat (16 * row + col)) S 0%N in
      [N.testbit v 3; N.testbit v 2; N.testbit v 1; N.testbit v 0]
  | _ => []
  end.

Definition xor (a b : list bool) : list bool := map (fun p => xorb (fst p) (snd p)) (combine a b).

(** The cipher function f(R, K). *)
Definition f (R K : list bool) : list bool :=
  let x := xor (select E R) K in
  let group i := firstn 6 (skipn (6 * i) x) in
  select P (sbox S1 (group 0) ++ sbox S2 (group 1) ++ sbox S3 (group 2) ++ sbox S4 (group 3)
         ++ sbox S5 (group 4) ++ sbox S6 (group 5) ++ sbox S7 (group 6) ++ sbox S8 (group 7)).

(** The rounds: (L, R) becomes (R, L xor f(R, K)). *)
Fixpoint rounds (Ks : list (list bool)) (L R : list bool) : list bool * list bool :=
  match Ks with
  | [] => (L, R)
  | K :: Ks => rounds Ks R (xor L (f R K))
  end.

(** The cipher with the given subkeys; the preoutput block is R16 L16. *)
Definition des_with (Ks : list (list bool)) (block : list bool) : list bool :=
  let x := select IP block in
  let '(L, R) := rounds Ks (firstn 32 x) (skipn 32 x) in
  select IP_inverse (R ++ L).

Definition rotate (n : nat) (l : list bool) : list bool := skipn n l ++ firstn n l.
Fixpoint subkeys_from (s : list nat) (C D : list bool) : list (list bool) :=
  match s with
  | [] => []
  | n :: s => let C := rotate n C in let D := rotate n D in select PC2 (C ++ D) :: subkeys_from s C D
  end.
Definition subkeys (key : list bool) : list (list bool) :=
  let x := select PC1 key in subkeys_from shifts (firstn 28 x) (skipn 28 x).

Definition des_encrypt (key block : list bool) : list bool := des_with (subkeys key) block.
Definition des_decrypt (key block : list bool) : list bool := des_with (rev (subkeys key)) block.

(** The bits of bytes, most significant first. *)
Definition byte_bits (x : N) : list bool := map (fun i => N.testbit x (7 - N.of_nat i)) (seq 0 8).
Definition bytes_bits (l : list N) : list bool := flat_map byte_bits l.
Definition bits_num (l : list bool) : N :=
  fold_left (fun a b => 2 * a + bit b)%N l 0%N.
Fixpoint chunk8 (n : nat) (l : list bool) : list N :=
  match n with O => [] | S n => bits_num (firstn 8 l) :: chunk8 n (skipn 8 l) end.
Definition bits_bytes (l : list bool) : list N := chunk8 8 l.

(** Test vectors: the example of the standard's validation literature, and
    NBS 500-20 entries. *)
Example des1 : bits_bytes (des_encrypt (bytes_bits [0x13;0x34;0x57;0x79;0x9B;0xBC;0xDF;0xF1]%N)
    (bytes_bits [0x01;0x23;0x45;0x67;0x89;0xAB;0xCD;0xEF]%N)) = [0x85;0xE8;0x13;0x54;0x0F;0x0A;0xB4;0x05]%N.
Proof. vm_compute. reflexivity. Qed.
Example des2 : bits_bytes (des_encrypt (bytes_bits [0;0;0;0;0;0;0;0]%N)
    (bytes_bits [0;0;0;0;0;0;0;0]%N)) = [0x8C;0xA6;0x4D;0xE9;0xC1;0xB1;0x23;0xA7]%N.
Proof. vm_compute. reflexivity. Qed.
Example des3 : bits_bytes (des_encrypt (bytes_bits [0x7C;0xA1;0x10;0x45;0x4A;0x1A;0x6E;0x57]%N)
    (bytes_bits [0x01;0xA1;0xD6;0xD0;0x39;0x77;0x67;0x42]%N)) = [0x69;0x0F;0x5B;0x0D;0x9A;0x26;0x93;0x9B]%N.
Proof. vm_compute. reflexivity. Qed.
Example des4 : bits_bytes (des_decrypt (bytes_bits [0x7C;0xA1;0x10;0x45;0x4A;0x1A;0x6E;0x57]%N)
    (bytes_bits [0x69;0x0F;0x5B;0x0D;0x9A;0x26;0x93;0x9B]%N)) = [0x01;0xA1;0xD6;0xD0;0x39;0x77;0x67;0x42]%N.
Proof. vm_compute. reflexivity. Qed.

(** ** What the library computes instead, in the standard's terms
    The bytes of both four-byte halves reversed; and DES with one subkey in all
    sixteen rounds, on such blocks. *)
Definition halves_reversed (l : list N) : list N := rev (firstn 4 l) ++ rev (skipn 4 l).
Definition one_subkey_des (K : list bool) (block : list N) : list N :=
  halves_reversed (bits_bytes (des_with (repeat K 16) (bytes_bits (halves_reversed block)))).
Definition key_subkeys (key : list N) : list (list bool) := subkeys (bytes_bits (halves_reversed key)).
