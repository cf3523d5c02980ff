(** What a CFB register should carry from one packet to the next, and what the
    library carries and produces for packets that end inside a block. *)
From Coq Require Import Arith NArith List.
From Verif Require Import SpecWords AesSpec.
Import ListNotations.
Local Open Scope nat_scope.

(** The feedback register of a CFB-128 stream: the last 16 bytes of the
    initialisation vector followed by the ciphertext so far. *)
Definition last16 (l : list N) : list N := skipn (length l - 16) l.

(** Key stream of the last [n] bytes of a packet, [n] < 16 and [n] = 4q or 4q + 1,
    from the enciphered register [e]: its words from the last to the first, each
    in order; an odd byte takes the last byte of the next word. *)
Definition tail_stream (e : list N) (n : nat) : list N :=
  concat (firstn (n / 4) (rev (chunks 4 e))) ++
  (if n mod 4 =? 1 then [nth 3 (nth (n / 4) (rev (chunks 4 e)) []) 0%N] else []).

(** Ciphertext and plaintext of one packet with the block cipher [E]. *)
Definition whole (data : list N) : nat := 16 * (length data / 16).
Definition packet_ct (E : list N -> list N) (iv data : list N) : list N :=
  let c := cfb128_encrypt E iv (firstn (whole data) data) in
  c ++ xor_bytes (skipn (whole data) data) (tail_stream (E (last16 (iv ++ c))) (length data mod 16)).
Definition packet_pt (E : list N -> list N) (iv data : list N) : list N :=
  let c := firstn (whole data) data in
  cfb128_decrypt E iv c ++
  xor_bytes (skipn (whole data) data) (tail_stream (E (last16 (iv ++ c))) (length data mod 16)).

(** The register after a tail [c] of 4q or 4q + 1 bytes, when it held [r]: whole
    words move up by q and the words read at offsets 0, 1, 2 of [c] follow; with an
    odd byte each word is also shifted by one byte as a little-endian number. *)
Definition word (r : list N) (i : nat) : list N := firstn 4 (skipn (4 * i) r).
Definition carried (r c : list N) : list N :=
  let q := length c / 4 in
  if length c mod 4 =? 0 then skipn (4 * q) r ++ flat_map (fun i => firstn 4 (skipn i c)) (seq 0 q)
  else concat (skipn q
         [nth 3 (word r 1) 0%N :: firstn 3 (word r 0);
          nth 3 (word r 2) 0%N :: firstn 3 (word r 1);
          nth 3 (word r 3) 0%N :: firstn 3 (word r 2);
          nth 0 c 0%N :: firstn 3 (word r 3)]) ++ skipn 1 c.
