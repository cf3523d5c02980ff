(** Encrypt-then-MAC as the example's comments describe it: 128-bit HMAC tags
    over everything sent; section 2 sends IV || ciphertext || tag. *)
From Coq Require Import NArith List.
From Verif Require Import ShaSpec HcSpec.
Import ListNotations.

Definition tag128 (k data : list N) : list N := firstn 16 (HMAC k data).
Definition sealed (k c : list N) : list N := c ++ tag128 k c.
Definition hc_body (ke iv p : list N) : list N := iv ++ hc_encrypt ke iv p.
