(** Model of Legacy/DES: des.h:238-276 and des.cpp.

    des_state holds only u32 rk[32]: a list of 32 words, [cs].  Words read through
    u32 pointers are little-endian. *)
From Coq Require Import Arith NArith List Bool.
From Verif Require Import Res Words Mem DesTables.
Import ListNotations.
Local Open Scope N_scope.

(** One line "T = ((A >> s) ^ B) & mask; B ^= T; A ^= (T << s)" of DES_IP, DES_FP
    (des.h:238-274) and the key schedule (des.cpp:16-17): returns (A, B). *)
Definition exchange (A B s mask : N) : N * N :=
  let T := N.land (N.lxor (shr32 A s) B) mask in
  (N.lxor A (shl32 T s), N.lxor B T).

(** DES_IP, des.h:238-247: (X, Y).  T is scratch. *)
Definition des_ip (X Y : N) : N * N :=
  let '(X, Y) := exchange X Y 4 0x0f0f0f0f in
  let '(X, Y) := exchange X Y 16 0x0000ffff in
  let '(Y, X) := exchange Y X 2 0x33333333 in
  let '(Y, X) := exchange Y X 8 0x00ff00ff in
  let Y := N.land (N.lor (shl32 Y 1) (shr32 Y 31)) 0xffffffff in
  let T := N.land (N.lxor X Y) 0xaaaaaaaa in
  let Y := N.lxor Y T in
  let X := N.lxor X T in
  let X := N.land (N.lor (shl32 X 1) (shr32 X 31)) 0xffffffff in
  (X, Y).

(** *Y ^= SboxA[T & 0x3f] ^ SboxB[(T >> 8) & 0x3f] ^ ..., des.h:253-256, 259-262:
    the right-hand side. *)
Definition sbox_sum (A B C D : list N) (T : N) : N :=
  let at_ (S : list N) (s : N) := nth (N.to_nat (N.land (shr32 T s) 0x3f)) S 0 in
  N.lxor (N.lxor (N.lxor (at_ A 0) (at_ B 8)) (at_ C 16)) (at_ D 24).

(** DES_ROUND, des.h:249-263: the new Y.  rk_ptr starts at cs->rk in every call:
    the words used are always cs->rk[0] and cs->rk[1]. *)
Definition des_round (cs : list N) (X Y : N) : N :=
  let T := N.lxor (nth 0 cs 0) X in
  let Y := N.lxor Y (sbox_sum Sbox8 Sbox6 Sbox4 Sbox2 T) in
  let T := N.lxor (nth 1 cs 0) (N.lor (shl32 X 28) (shr32 X 4)) in
  N.lxor Y (sbox_sum Sbox7 Sbox5 Sbox3 Sbox1 T).

(** DES_FP, des.h:265-274: (X, Y). *)
Definition des_fp (X Y : N) : N * N :=
  let X := N.land (N.lor (shl32 X 31) (shr32 X 1)) 0xffffffff in
  let T := N.land (N.lxor X Y) 0xaaaaaaaa in
  let X := N.lxor X T in
  let Y := N.lxor Y T in
  let Y := N.land (N.lor (shl32 Y 31) (shr32 Y 1)) 0xffffffff in
  let '(Y, X) := exchange Y X 8 0x00ff00ff in
  let '(Y, X) := exchange Y X 2 0x33333333 in
  let '(X, Y) := exchange X Y 16 0x0000ffff in
  let '(X, Y) := exchange X Y 4 0x0f0f0f0f in
  (X, Y).

(** des_ecb_block, des.cpp:87-104, on the two words read; returns the two words
    written, in order. *)
Definition ecb_words (cs : list N) (X Y : N) : N * N :=
  let '(X, Y) := des_ip X Y in
  let '(X, Y) := iter_n 8 0 (fun _ '(X, Y) =>
    let X := des_round cs Y X in
    let Y := des_round cs X Y in
    (X, Y)) (X, Y) in
  let '(Y, X) := des_fp Y X in
  (Y, X).

(** des_ecb_block, des.cpp:87-104. *)
Definition des_ecb_block (cs : list N) (m : mem) (output input : ptr) : res mem :=
  let* X := ld32 m input in
  let* Y := ld32 m (padd input 4) in
  let '(a, b) := ecb_words cs X Y in
  let* m := st32 m output a in
  st32 m (padd output 4) b.

(** LHs[(X >> s) & 0xf], des.cpp:19-22. *)
Definition lhs (X s : N) : N := nth (N.to_nat (N.land (shr32 X s) 0xf)) LHs 0.
(** RHs[(Y >> s) & 0xf], des.cpp:24-27. *)
Definition rhs (Y s : N) : N := nth (N.to_nat (N.land (shr32 Y s) 0xf)) RHs 0.
(** des_key_schedule_encrypt, des.cpp:16-30: the two 28-bit halves. *)
Definition key_halves (X Y : N) : N * N :=
  let '(Y, X) := exchange Y X 4 0x0f0f0f0f in
  let '(Y, X) := exchange Y X 0 0x10101010 in
  let X := N.lor (N.lor (N.lor (N.lor (N.lor (N.lor (N.lor
      (shl32 (lhs X 0) 3) (shl32 (lhs X 8) 2)) (shl32 (lhs X 16) 1)) (lhs X 24))
      (shl32 (lhs X 5) 7)) (shl32 (lhs X 13) 6)) (shl32 (lhs X 21) 5)) (shl32 (lhs X 29) 4) in
  let Y := N.lor (N.lor (N.lor (N.lor (N.lor (N.lor (N.lor
      (shl32 (rhs Y 1) 3) (shl32 (rhs Y 9) 2)) (shl32 (rhs Y 17) 1)) (rhs Y 25))
      (shl32 (rhs Y 4) 7)) (shl32 (rhs Y 12) 6)) (shl32 (rhs Y 20) 5)) (shl32 (rhs Y 28) 4) in
  (N.land X 0x0fffffff, N.land Y 0x0fffffff).

(** The rotations, des.cpp:37-46. *)
Definition rot28 (X s : N) : N := N.land (N.lor (shl32 X s) (shr32 X (28 - s))) 0x0fffffff.

(** (V << s) & mask, des.cpp:48-70. *)
Definition up (V s mask : N) : N := N.land (shl32 V s) mask.
(** (V >> s) & mask, des.cpp:48-70. *)
Definition dn (V s mask : N) : N := N.land (shr32 V s) mask.
(** The first subkey word, des.cpp:48-58. *)
Definition subkey0 (X Y : N) : N :=
  fold_left N.lor
    [up X 28 0x10000000; up X 14 0x08000000; up X 18 0x02080000; up X 6 0x01000000; up X 9 0x00200000;
     dn X 1 0x00100000; up X 10 0x00040000; up X 2 0x00020000; dn X 10 0x00010000;
     dn Y 13 0x00002000; dn Y 4 0x00001000; up Y 6 0x00000800; dn Y 1 0x00000400;
     dn Y 14 0x00000200; dn Y 0 0x00000100; dn Y 5 0x00000020; dn Y 10 0x00000010;
     dn Y 3 0x00000008; dn Y 18 0x00000004; dn Y 26 0x00000002; dn Y 24 0x00000001]
    (up X 4 0x24000000).
(** The second subkey word, des.cpp:60-70. *)
Definition subkey1 (X Y : N) : N :=
  fold_left N.lor
    [up X 17 0x10000000; up X 10 0x08000000; up X 22 0x04000000; dn X 2 0x02000000; up X 1 0x01000000;
     up X 16 0x00200000; up X 11 0x00100000; up X 3 0x00080000; dn X 6 0x00040000; up X 15 0x00020000;
     dn X 4 0x00010000; dn Y 2 0x00002000; up Y 8 0x00001000; dn Y 14 0x00000808; dn Y 9 0x00000400;
     dn Y 0 0x00000200; up Y 7 0x00000100; dn Y 7 0x00000020; dn Y 3 0x00000011; up Y 2 0x00000004;
     dn Y 21 0x00000002]
    (up X 15 0x20000000).

(** The loop, des.cpp:35-71; [ks] are the words written so far. *)
Definition schedule_words (X Y : N) : list N :=
  let '(X, Y, ks) := iter_n 16 0 (fun i '(X, Y, ks) =>
    let s := if ((i <? 2) || (i =? 8) || (i =? 15))%nat then 1 else 2 in
    let X := rot28 X s in
    let Y := rot28 Y s in
    (X, Y, ks ++ [subkey0 X Y; subkey1 X Y])) (X, Y, []) in
  ks.

(** des_key_schedule_encrypt, des.cpp:4-72.  All 32 words are written. *)
Definition des_key_schedule_encrypt (m : mem) (key : ptr) : res (list N) :=
  let* X := ld32 m key in
  let* Y := ld32 m (padd key 4) in
  let '(X, Y) := key_halves X Y in
  Ret (schedule_words X Y).

(** One swap, des.cpp:82 or 83. *)
Definition swap_at (i j : nat) (l : list N) : list N :=
  let tmp := nth i l 0 in
  let l := upd i (nth j l 0) l in
  upd j tmp l.
(** The swaps, des.cpp:79-84; [j] = i / 2. *)
Definition reverse_schedule (cs : list N) : list N :=
  iter_n 8 0 (fun j cs =>
    let i := (2 * j)%nat in
    swap_at (i + 1) (31 - i) (swap_at i (30 - i) cs)) cs.

(** des_key_schedule_decrypt, des.cpp:74-85. *)
Definition des_key_schedule_decrypt (m : mem) (key : ptr) : res (list N) :=
  let* cs := des_key_schedule_encrypt m key in
  Ret (reverse_schedule cs).

(** Enough steps for the packet loops des.cpp:109-113 and 123-135: the loop ends after size/8 steps if 8 divides
    size; otherwise size wraps around for ever, but the accesses leave the
    input's block after at most as many steps as the block has bytes. *)
Definition packet_fuel (m : mem) (input : ptr) (size : N) : nat :=
  S (S (N.to_nat (size / 8) + match nth_error m (pblk input) with Some b => length b | None => 0 end)).

(** des_process_packet_ecb, des.cpp:106-114; [o] is how far the pointers have
    advanced. *)
Definition des_process_packet_ecb (cs : list N) (m : mem) (output input : ptr) (size : N) : res mem :=
  let* (m, size, o) := while (packet_fuel m input size)
    (fun '(m, size, o) => 0 <? size)
    (fun '(m, size, o) =>
       let* m := des_ecb_block cs m (padd output o) (padd input o) in
       Ret (m, sub64 size 8, (o + 8)%nat)) (m, size, O) in
  Ret m.

(** des_process_packet_ctr, des.cpp:116-136.  The local iv is a list of four
    words; keystream is local and written by des_ecb_block. *)
Definition des_process_packet_ctr (cs : list N) (m : mem) (output input nonce : ptr) (size : N) : res mem :=
  let* l := ldn m nonce 12 in
  let w i := le32_of_bytes (nth (4*i) l 0) (nth (4*i+1) l 0) (nth (4*i+2) l 0) (nth (4*i+3) l 0) in
  let iv := [w 0%nat; w 1%nat; w 2%nat; 0] in
  let* (m, iv, size, o) := while (packet_fuel m input size)
    (fun '(m, iv, size, o) => 0 <? size)
    (fun '(m, iv, size, o) =>
       let '(k0, k1) := ecb_words cs (nth 0 iv 0) (nth 1 iv 0) in
       let* x := ld32 m (padd input o) in
       let* m := st32 m (padd output o) (N.lxor x k0) in
       let* x := ld32 m (padd input (o + 4)) in
       let* m := st32 m (padd output (o + 4)) (N.lxor x k1) in
       let iv := upd 3 (add32 (nth 3 iv 0) 1) iv in
       Ret (m, iv, sub64 size 8, (o + 8)%nat)) (m, iv, size, O) in
  Ret m.
