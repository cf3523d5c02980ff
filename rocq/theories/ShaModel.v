(** Model of the two copies of sha-256.cpp / sha-256.h / sha-256-tables.h:
    Authentication/HMAC-SHA-256 (written A below) and Hash/SHA/SHA-2/SHA-256
    (written H).  The files differ only in line 51 of sha-256.cpp. *)
From Coq Require Import NArith ZArith Arith List.
From Verif Require Import Res Words Mem Ints.
Import ListNotations.

(** K, sha-256-tables.h:35-52 (A and H). *)
Definition K_tab : list N := [
  0x428a2f98; 0x71374491; 0xb5c0fbcf; 0xe9b5dba5;
  0x3956c25b; 0x59f111f1; 0x923f82a4; 0xab1c5ed5;
  0xd807aa98; 0x12835b01; 0x243185be; 0x550c7dc3;
  0x72be5d74; 0x80deb1fe; 0x9bdc06a7; 0xc19bf174;
  0xe49b69c1; 0xefbe4786; 0x0fc19dc6; 0x240ca1cc;
  0x2de92c6f; 0x4a7484aa; 0x5cb0a9dc; 0x76f988da;
  0x983e5152; 0xa831c66d; 0xb00327c8; 0xbf597fc7;
  0xc6e00bf3; 0xd5a79147; 0x06ca6351; 0x14292967;
  0x27b70a85; 0x2e1b2138; 0x4d2c6dfc; 0x53380d13;
  0x650a7354; 0x766a0abb; 0x81c2c92e; 0x92722c85;
  0xa2bfe8a1; 0xa81a664b; 0xc24b8b70; 0xc76c51a3;
  0xd192e819; 0xd6990624; 0xf40e3585; 0x106aa070;
  0x19a4c116; 0x1e376c08; 0x2748774c; 0x34b0bcb5;
  0x391c0cb3; 0x4ed8aa4a; 0x5b9cca4f; 0x682e6ff3;
  0x748f82ee; 0x78a5636f; 0x84c87814; 0x8cc70208;
  0x90befffa; 0xa4506ceb; 0xbef9a3f7; 0xc67178f2 ]%N.

(** H0, sha-256-tables.h:56-59. *)
Definition H0_tab : list N := [
  0x6a09e667; 0xbb67ae85; 0x3c6ef372; 0xa54ff53a;
  0x510e527f; 0x9b05688c; 0x1f83d9ab; 0x5be0cd19 ]%N.

(** ch, sha-256.h:29-32. *)
Definition ch (x y z : N) : N := N.lxor (N.land x y) (N.land (not32 x) z).
(** maj, sha-256.h:34-37. *)
Definition maj (x y z : N) : N := N.lxor (N.lxor (N.land x y) (N.land x z)) (N.land y z).
(** SIGMA_0, sha-256.h:39-42, with the macros ROTR_32 and SHR of sha-256-tables.h:31-32. *)
Definition SIGMA_0 (x : N) : N := N.lxor (N.lxor (rotr32 x 2) (rotr32 x 13)) (rotr32 x 22).
(** SIGMA_1, sha-256.h:44-47. *)
Definition SIGMA_1 (x : N) : N := N.lxor (N.lxor (rotr32 x 6) (rotr32 x 11)) (rotr32 x 25).
(** sigma_0, sha-256.h:49-52. *)
Definition sigma_0 (x : N) : N := N.lxor (N.lxor (rotr32 x 7) (rotr32 x 18)) (shr32 x 3).
(** sigma_1, sha-256.h:54-57. *)
Definition sigma_1 (x : N) : N := N.lxor (N.lxor (rotr32 x 17) (rotr32 x 19)) (shr32 x 10).

(** pad_message, sha-256.cpp:15-45.  The while loop (lines 29-32) makes at most
    63 iterations; it gets fuel 64. *)
Definition pad_message (m : mem) (message : ptr) (size : N) : res mem :=
  let message := padd message (N.to_nat size) in
  let* m := st8 m message 0x80 in
  let message := padd message 1 in
  let* (m, message, k) :=
    while 64
      (fun '(m, message, k) => negb (N.eqb (N.modulo (add64 (add64 size 1) k) 64) 56))
      (fun '(m, message, k) =>
         let* m := st8 m message 0 in
         Ret (m, padd message 1, (k + 1)%N))
      (m, message, 0%N) in
  let bit_length := u64 (8 * size) in
  let* m := st8 m message (u8 (N.shiftr bit_length 56)) in
  let* m := st8 m (padd message 1) (u8 (N.shiftr bit_length 48)) in
  let* m := st8 m (padd message 2) (u8 (N.shiftr bit_length 40)) in
  let* m := st8 m (padd message 3) (u8 (N.shiftr bit_length 32)) in
  let* m := st8 m (padd message 4) (u8 (N.shiftr bit_length 24)) in
  let* m := st8 m (padd message 5) (u8 (N.shiftr bit_length 16)) in
  let* m := st8 m (padd message 6) (u8 (N.shiftr bit_length 8)) in
  st8 m (padd message 7) (u8 bit_length).

(** One iteration of the schedule loop, sha-256.cpp:85-99. *)
Definition sha_W_step (m : mem) (byte_ptr : ptr) (i t : nat) (W : list N) : res (list N) :=
  if t <? 16 then
    let* b0 := ld8 m (padd byte_ptr (64 * (i - 1) + 4 * t)) in
    let* b1 := ld8 m (padd byte_ptr (64 * (i - 1) + 4 * t + 1)) in
    let* b2 := ld8 m (padd byte_ptr (64 * (i - 1) + 4 * t + 2)) in
    let* b3 := ld8 m (padd byte_ptr (64 * (i - 1) + 4 * t + 3)) in
    Ret (upd t (N.lor (N.lor (N.lor (shl32 b0 24) (shl32 b1 16)) (shl32 b2 8)) b3) W)
  else
    Ret (upd t (add32 (add32 (add32 (sigma_1 (nth (t - 2) W 0%N)) (nth (t - 7) W 0%N))
                             (sigma_0 (nth (t - 15) W 0%N))) (nth (t - 16) W 0%N)) W).

(** One round, sha-256.cpp:104-123; [wv] is ss.working_variables. *)
Definition sha_round (W : list N) (t : nat) (wv : list N) : list N :=
  let v i := nth i wv 0%N in
  let T1 := add32 (add32 (add32 (add32 (v 7) (SIGMA_1 (v 4))) (ch (v 4) (v 5) (v 6)))
                         (nth t K_tab 0%N)) (nth t W 0%N) in
  let T2 := add32 (SIGMA_0 (v 0)) (maj (v 0) (v 1) (v 2)) in
  [add32 T1 T2; v 0; v 1; v 2; add32 (v 3) T1; v 4; v 5; v 6].

(** Body of the block loop, sha-256.cpp:82-134; the state is (ss.W, ss.digest). *)
Definition sha_block (m : mem) (byte_ptr : ptr) (i : nat) (s : list N * list N)
    : res (list N * list N) :=
  let '(W, digest) := s in
  let* W := for_n 64 0 (sha_W_step m byte_ptr i) W in
  let wv := iter_n 64 0 (sha_round W) digest in
  let d i := add32 (nth i wv 0%N) (nth i digest 0%N) in
  Ret (W, [d 0; d 1; d 2; d 3; d 4; d 5; d 6; d 7]).

(** The byte swap of sha-256.cpp:139-142. *)
Definition sha_bswap (x : N) : N :=
  N.lor (N.lor (N.lor (N.land (shl32 x 24) 0xff000000) (N.land (shl32 x 8) 0x00ff0000))
               (N.land (shr32 x 8) 0x0000ff00)) (N.land (shr32 x 24) 0x000000ff).

(** sha256_process_message, sha-256.cpp:47-145, parameterised by the condition
    of line 51.  [n] is an int computed from a uint64_t; the VLA of line 57
    must have positive size.  ss.W is indeterminate before its first write; the
    model starts it with zeros (every element is written before it is read). *)
Definition sha256_with (needs_extra_block : N -> bool)
    (m : mem) (digest message : ptr) (size : N) : res mem :=
  let q := (N.div size 64 * 64)%N in
  let n := to_int (Z.of_N (if needs_extra_block size then add64 q 128 else add64 q 64)) in
  if (n <=? 0)%Z then UB else
  let (m, msg) := alloc m (Z.to_nat n / 4 * 4) in
  let* m := memcpy m msg message (N.to_nat size) in
  let* m := pad_message m msg size in
  let* (W, dig) := for_n (Z.to_nat n / 64) 1 (sha_block m msg) (repeat 0%N 64, H0_tab) in
  let* m := for_n 8 0 (fun i m => st32 m (padd digest (4 * i)) (sha_bswap (nth i dig 0%N))) m in
  Ret (drop_last m).

(** A: Authentication/HMAC-SHA-256/sha-256.cpp:51. *)
Definition sha256_auth : mem -> ptr -> ptr -> N -> res mem :=
  sha256_with (fun size => (56 <=? size mod 64)%N).
(** H: Hash/SHA/SHA-2/SHA-256/sha-256.cpp:51. *)
Definition sha256_hash : mem -> ptr -> ptr -> N -> res mem :=
  sha256_with (fun size => (56 <? (add64 size 1) mod 64)%N).
