(** Fixed-width unsigned arithmetic as C++ performs it, on [N].
    These are the operators used by the model files. *)
From Coq Require Import NArith List.
Import ListNotations.
Local Open Scope N_scope.

Definition u8 (x : N) : N := N.land x 0xff.
Definition u32 (x : N) : N := N.land x 0xffffffff.
Definition u64 (x : N) : N := N.land x 0xffffffffffffffff.

(** uint32_t operators *)
Definition add32 (x y : N) : N := u32 (x + y).
Definition sub32 (x y : N) : N := u32 (x + 0x100000000 - y).
Definition mul32 (x y : N) : N := u32 (x * y).
Definition shl32 (x n : N) : N := u32 (N.shiftl x n).
Definition shr32 (x n : N) : N := N.shiftr x n.
Definition not32 (x : N) : N := N.lxor x 0xffffffff.
Definition rotl32 (x n : N) : N := N.lor (shl32 x n) (shr32 x (32 - n)).
Definition rotr32 (x n : N) : N := N.lor (shr32 x n) (shl32 x (32 - n)).

(** uint64_t operators *)
Definition add64 (x y : N) : N := u64 (x + y).
Definition sub64 (x y : N) : N := u64 (x + 0x10000000000000000 - y).

(** Little-endian view of words. *)
Definition le32_of_bytes (b0 b1 b2 b3 : N) : N :=
  b0 + 256 * (b1 + 256 * (b2 + 256 * b3)).
Definition byte_of (w : N) (i : N) : N := u8 (N.shiftr w (8 * i)).
Definition bytes_of_le32 (w : N) : list N :=
  [byte_of w 0; byte_of w 1; byte_of w 2; byte_of w 3].

Definition isbyte (x : N) : Prop := x < 256.
Definition isw32 (x : N) : Prop := x < 0x100000000.
