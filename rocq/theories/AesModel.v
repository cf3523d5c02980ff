(** Model of the AES folders: block function, CTR and CFB modes.

    Sources (all paths below BlockCiphers/AES):
      AES/AES_CTR/aes_ctr.{h,cpp}, AES/AES_CFB/aes_cfb.{h,cpp} (table build),
      AES_x86/AES_CTR, AES_x86/AES_CFB_Carry-Over (with -Dx86_INTRINSICS),
      AES_ARM/AES_CTR, AES_ARM/AES_CFB_Carry-Over (with -DARM_INTRINSICS).
    Line numbers refer to AES/AES_CTR for the block function and CTR, and to
    AES/AES_CFB for CFB, unless another folder is named.  The x86 and ARM
    folders differ from them only in aes_encrypt (and includes); without their
    intrinsics macro they compile to the table build.

    Simplifications: the host is little-endian; alignment and strict aliasing
    of the casts between byte and word pointers are not modelled; the DEBUG
    print-outs are left out; the vector instructions are modelled as Intel's
    and Arm's manuals define them, with the FIPS 197 step functions. *)
From Coq Require Import NArith ZArith List Bool.
From Verif Require Import Res Words Mem Ints AesTables AesSpec.
Import ListNotations.
Local Open Scope N_scope.

(** struct aes_state, aes_ctr.h:17-26 and aes_cfb.h:22-31. *)
Record aes_state := Aes { reg1 : N; reg2 : N; reg3 : N; reg4 : N; rk : list N }.

(** Table look-ups, aes_ctr.cpp:28-31, aes_ctr.h:65-164: the index is a uint8_t, so always in bounds. *)
Definition look (t : list N) (i : N) : N := nth (N.to_nat (u8 i)) t 0.

(** RotByte, aes_ctr.cpp:19-23. *)
Definition RotByte (w : N) : N := N.lor (shl32 w 24) (shr32 w 8).

(** SubByte, aes_ctr.cpp:25-33.  [Sbox[..] << 24] is an int shift whose
    result is converted to uint32_t; it keeps the bits (C++14, DR 1457). *)
Definition SubByte (w : N) : N :=
  let ret := look Sbox w in
  let ret := N.lxor ret (shl32 (look Sbox (shr32 w 8)) 8) in
  let ret := N.lxor ret (shl32 (look Sbox (shr32 w 16)) 16) in
  N.lxor ret (shl32 (look Sbox (shr32 w 24)) 24).

(** Body of the second loop of aes_key_expansion, aes_ctr.cpp:50-55; the
    schedule is filled in order, so it is kept as a growing list. *)
Definition expand_step (i : nat) (ks : list N) : list N :=
  let temp := nth (i - 1) ks 0 in
  let temp := if Nat.eqb (Nat.modulo i 4) 0
              then N.lxor (SubByte (RotByte temp)) (nth (Nat.div i 4) Rcon 0) else temp in
  ks ++ [N.lxor (nth (i - 4) ks 0) temp].

(** aes_key_expansion, aes_ctr.cpp:35-58 (aes_cfb.cpp:29-50). *)
Definition aes_key_expansion (m : mem) (key : ptr) : res (list N) :=
  let* ks := for_n 4 0 (fun i ks =>
    let* b0 := ld8 m (padd key (4 * i)) in
    let* b1 := ld8 m (padd key (4 * i + 1)) in
    let* b2 := ld8 m (padd key (4 * i + 2)) in
    let* b3 := ld8 m (padd key (4 * i + 3)) in
    Ret (ks ++ [N.lor (N.lor (N.lor b0 (shl32 b1 8)) (shl32 b2 16)) (shl32 b3 24)])) [] in
  Ret (iter_n 40 4 expand_step ks).

(** aes_load_key, aes_ctr.cpp:72-75. *)
Definition aes_load_key (cs : aes_state) (m : mem) (key : ptr) : res aes_state :=
  let* ks := aes_key_expansion m key in
  Ret (Aes (reg1 cs) (reg2 cs) (reg3 cs) (reg4 cs) ks).

(** ** Block function *)

(** initial_round, aes_ctr.h:44-52. *)
Definition initial_round (s : N * N * N * N) (k : list N) : N * N * N * N :=
  let '(a, b, c, d) := s in
  (N.lxor a (nth 0 k 0), N.lxor b (nth 1 k 0), N.lxor c (nth 2 k 0), N.lxor d (nth 3 k 0)).

(** One output word of round, aes_ctr.h:65-73 (and 76-84, 87-95, 98-106). *)
Definition tcol (x y z w k : N) : N :=
  N.lxor (N.lxor (N.lxor (N.lxor (look T0 x) (look T1 (shr32 y 8)))
    (look T2 (shr32 z 16))) (look T3 (shr32 w 24))) k.
(** round, aes_ctr.h:54-108. *)
Definition round (s : N * N * N * N) (k : list N) : N * N * N * N :=
  let '(a, b, c, d) := s in
  (tcol a b c d (nth 0 k 0), tcol b c d a (nth 1 k 0),
   tcol c d a b (nth 2 k 0), tcol d a b c (nth 3 k 0)).

(** One output word of final_round, aes_ctr.h:123-131 (and 134-142, 145-153, 156-164). *)
Definition scol (x y z w k : N) : N :=
  N.lxor (N.lxor (N.lxor (N.lxor (look Sbox x) (shl32 (look Sbox (shr32 y 8)) 8))
    (shl32 (look Sbox (shr32 z 16)) 16)) (shl32 (look Sbox (shr32 w 24)) 24)) k.
(** final_round, aes_ctr.h:110-166. *)
Definition final_round (s : N * N * N * N) (k : list N) : N * N * N * N :=
  let '(a, b, c, d) := s in
  (scol a b c d (nth 0 k 0), scol b c d a (nth 1 k 0),
   scol c d a b (nth 2 k 0), scol d a b c (nth 3 k 0)).

(** &cs->rk[i], aes_ctr.cpp:90-102. *)
Definition rk_at (i : nat) (rk : list N) : list N := skipn i rk.

(** The rounds of aes_encrypt, aes_ctr.cpp:90-102 (aes_cfb.cpp:68-80);
    [reduced] is the macro ROUND_REDUCED. *)
Definition table_rounds (reduced : bool) (s : N * N * N * N) (rk : list N) : N * N * N * N :=
  let s := initial_round s (rk_at 0 rk) in
  let s := if reduced then s else
    let s := round s (rk_at 4 rk) in
    let s := round s (rk_at 8 rk) in
    let s := round s (rk_at 12 rk) in
    round s (rk_at 16 rk) in
  let s := round s (rk_at 20 rk) in
  let s := round s (rk_at 24 rk) in
  let s := round s (rk_at 28 rk) in
  let s := round s (rk_at 32 rk) in
  let s := round s (rk_at 36 rk) in
  final_round s (rk_at 40 rk).

(** *** Vector instructions.  A 128-bit register is the list of its 16 bytes
    in memory order.  _mm_xor_si128, AES_x86/AES_CTR/aes_ctr.cpp:106; veorq_u8,
    AES_ARM/AES_CTR/aes_ctr.cpp:116. *)
Definition vxor (a b : list N) : list N := map (fun p => N.lxor (fst p) (snd p)) (combine a b).
(** _mm_aesenc_si128, AES_x86/AES_CTR/aes_ctr.cpp:107-115 (Intel SDM, AESENC). *)
Definition mm_aesenc (s k : list N) : list N := vxor (mix_columns (sub_bytes (shift_rows s))) k.
(** _mm_aesenclast_si128, AES_x86/AES_CTR/aes_ctr.cpp:116 (Intel SDM, AESENCLAST). *)
Definition mm_aesenclast (s k : list N) : list N := vxor (sub_bytes (shift_rows s)) k.
(** vaeseq_u8, AES_ARM/AES_CTR/aes_ctr.cpp:106-115 (Arm ARM, AESE). *)
Definition vaese (s k : list N) : list N := sub_bytes (shift_rows (vxor s k)).
(** vaesmcq_u8, AES_ARM/AES_CTR/aes_ctr.cpp:106-114 (Arm ARM, AESMC). *)
Definition vaesmc (s : list N) : list N := mix_columns s.

(** _mm_loadu_si128, AES_x86/AES_CTR/aes_ctr.cpp:93-104, and vld1q_u8,
    AES_ARM/AES_CTR/aes_ctr.cpp:93-104: the 16 bytes at a word array. *)
Definition vload (ws : list N) : list N := flat_map bytes_of_le32 (firstn 4 ws).
(** _mm_storeu_si128, AES_x86/AES_CTR/aes_ctr.cpp:118, and vst1q_u8,
    AES_ARM/AES_CTR/aes_ctr.cpp:118: the words of the array written. *)
Definition vword (v : list N) (i : nat) : N :=
  le32_of_bytes (nth (4 * i) v 0) (nth (4 * i + 1) v 0) (nth (4 * i + 2) v 0) (nth (4 * i + 3) v 0).
(** The four words together, lines 118 of the same files. *)
Definition vstore (v : list N) : N * N * N * N := (vword v 0, vword v 1, vword v 2, vword v 3).

(** The array keystream, aes_ctr.cpp:103-104, and the registers as an array,
    AES_x86/AES_CTR/aes_ctr.cpp:93. *)
Definition quad (s : N * N * N * N) : list N := let '(a, b, c, d) := s in [a; b; c; d].

(** aes_encrypt with x86_INTRINSICS, AES_x86/AES_CTR/aes_ctr.cpp:92-118
    (AES_x86/AES_CFB_Carry-Over/aes_cfb.cpp:73-99). *)
Definition x86_rounds (s : N * N * N * N) (rk : list N) : N * N * N * N :=
  let B_S := vload (quad s) in
  let B_S := vxor B_S (vload (rk_at 0 rk)) in
  let B_S := mm_aesenc B_S (vload (rk_at 4 rk)) in
  let B_S := mm_aesenc B_S (vload (rk_at 8 rk)) in
  let B_S := mm_aesenc B_S (vload (rk_at 12 rk)) in
  let B_S := mm_aesenc B_S (vload (rk_at 16 rk)) in
  let B_S := mm_aesenc B_S (vload (rk_at 20 rk)) in
  let B_S := mm_aesenc B_S (vload (rk_at 24 rk)) in
  let B_S := mm_aesenc B_S (vload (rk_at 28 rk)) in
  let B_S := mm_aesenc B_S (vload (rk_at 32 rk)) in
  let B_S := mm_aesenc B_S (vload (rk_at 36 rk)) in
  vstore (mm_aesenclast B_S (vload (rk_at 40 rk))).

(** aes_encrypt with ARM_INTRINSICS, AES_ARM/AES_CTR/aes_ctr.cpp:92-118
    (AES_ARM/AES_CFB_Carry-Over/aes_cfb.cpp:74-100). *)
Definition arm_rounds (s : N * N * N * N) (rk : list N) : N * N * N * N :=
  let B_S := vload (quad s) in
  let B_S := vaesmc (vaese B_S (vload (rk_at 0 rk))) in
  let B_S := vaesmc (vaese B_S (vload (rk_at 4 rk))) in
  let B_S := vaesmc (vaese B_S (vload (rk_at 8 rk))) in
  let B_S := vaesmc (vaese B_S (vload (rk_at 12 rk))) in
  let B_S := vaesmc (vaese B_S (vload (rk_at 16 rk))) in
  let B_S := vaesmc (vaese B_S (vload (rk_at 20 rk))) in
  let B_S := vaesmc (vaese B_S (vload (rk_at 24 rk))) in
  let B_S := vaesmc (vaese B_S (vload (rk_at 28 rk))) in
  let B_S := vaesmc (vaese B_S (vload (rk_at 32 rk))) in
  let B_S := vaese B_S (vload (rk_at 36 rk)) in
  vstore (vxor B_S (vload (rk_at 40 rk))).

(** The builds: AES/AES_CTR/aes_ctr.cpp:84-108, where [reduced] is ROUND_REDUCED;
    AES_x86/AES_CTR/aes_ctr.cpp:92-118; AES_ARM/AES_CTR/aes_ctr.cpp:92-118. *)
Inductive build := Table (reduced : bool) | X86 | Arm.

(** What stands between reading the registers and writing the key stream in
    aes_encrypt: aes_ctr.cpp:90-102, AES_x86 and AES_ARM 93-116. *)
Definition rounds (b : build) (s : N * N * N * N) (rk : list N) : N * N * N * N :=
  match b with
  | Table reduced => table_rounds reduced s rk
  | X86 => x86_rounds s rk
  | Arm => arm_rounds s rk
  end.

(** cs->reg1 to cs->reg4, aes_ctr.h:19-22, read and written together
    (aes_ctr.cpp:88, 107). *)
Definition regs (cs : aes_state) : N * N * N * N := (reg1 cs, reg2 cs, reg3 cs, reg4 cs).
(** The same, written: aes_ctr.cpp:107. *)
Definition set_regs (cs : aes_state) (s : N * N * N * N) : aes_state :=
  let '(a, b, c, d) := s in Aes a b c d (rk cs).

(** aes_encrypt of the CTR folders: aes_ctr.cpp:84-108, AES_x86 90-144,
    AES_ARM 90-144.  The table code saves the registers and puts them back;
    the intrinsics do not touch them.  The result is the key stream array. *)
Definition ctr_aes_encrypt (b : build) (cs : aes_state) : list N := quad (rounds b (regs cs) (rk cs)).

(** aes_encrypt of the CFB folders: aes_cfb.cpp:66-83, AES_x86 71-118, AES_ARM
    72-119.  The table code works in the registers themselves and the ARM code
    stores its result there (AES_ARM aes_cfb.cpp:101); the x86 code does not. *)
Definition cfb_aes_encrypt (b : build) (cs : aes_state) : aes_state * list N :=
  let r := rounds b (regs cs) (rk cs) in
  match b with
  | X86 => (cs, quad r)
  | _ => (set_regs cs r, quad r)
  end.

(** ** CTR mode *)

(** aes_load_iv, aes_ctr.cpp:60-70. *)
Definition ctr_load_iv (cs : aes_state) (m : mem) (nonce : ptr) : res aes_state :=
  let* r1 := ld32 m nonce in
  let* r2 := ld32 m (padd nonce 4) in
  let* r3 := ld32 m (padd nonce 8) in
  Ret (Aes r1 r2 r3 (le32_of_bytes 0 0 0 1) (rk cs)).

(** The byte swap written out twice in state_update, aes_ctr.cpp:114-117 and 121-124. *)
Definition bswap (x : N) : N :=
  N.lor (N.lor (N.lor (N.land (shr32 x 24) 0x000000ff) (N.land (shr32 x 8) 0x0000ff00))
    (N.land (shl32 x 8) 0x00ff0000)) (N.land (shl32 x 24) 0xff000000).
(** state_update, aes_ctr.cpp:110-125. *)
Definition state_update (cs : aes_state) : aes_state :=
  let tmp := bswap (reg4 cs) in
  let tmp := add32 tmp 1 in
  Aes (reg1 cs) (reg2 cs) (reg3 cs) (bswap tmp) (rk cs).

(** Four words XORed with the key stream, pointers not yet advanced:
    aes_ctr.cpp:154-157, aes_cfb.cpp:277-280. *)
Definition xor_block (m : mem) (out inp : ptr) (keystream : list N) : res mem :=
  for_n 4 0 (fun i m =>
    let* x := ld32 m (padd inp (4 * i)) in
    let* k := ks_word keystream i in
    st32 m (padd out (4 * i)) (N.lxor x k)) m.

Section Mode.
(** What the platform does where C++ leaves it undefined.  [oor w n]: result
    of [w >> n] for n outside 0..31.  [wild]: reading the uninitialised
    pointer w_state_ptr, whose value is never used.  Standard C++ is
    [oor := ub_shift], [wild := UB]. *)
Context (oor : N -> Z -> res N) (wild : res unit).

(** keystream[k] >> n with an [int] n, aes_ctr.cpp:182, aes_cfb.cpp:304. *)
Definition shr_int (w : N) (n : Z) : res N :=
  if (0 <=? n)%Z && (n <? 32)%Z then Ret (shr32 w (Z.to_N n)) else oor w n.

(** The byte loop at the end of both packet functions: aes_ctr.cpp:177-185,
    aes_cfb.cpp:299-307.  [l] starts at 0 and is decremented. *)
Definition tail_bytes (m : mem) (out inp : ptr) (size : Z) (kw : N) : res mem :=
  let* (_, _, _, _, m) :=
    while (S (Z.to_nat size)) (fun '(size, _, _, _, _) => (0 <? size)%Z)
      (fun '(size, l, out, inp, m) =>
         let* x := ld8 m inp in
         let* t := shr_int kw (24 - 8 * l) in
         let* m := st8 m out (N.lxor x (u8 t)) in
         Ret (size - 1, l - 1, padd out 1, padd inp 1, m)%Z)
      (size, 0%Z, out, inp, m) in
  Ret m.

(** The else branch of the CTR loop up to the state update,
    aes_ctr.cpp:165-186. *)
Definition ctr_tail (m : mem) (out inp : ptr) (size : Z) (keystream : list N) : res mem :=
  let* _ := wild in
  let* (size, k, out, inp, m) :=
    while (S (Z.to_nat size)) (fun '(size, _, _, _, _) => (4 <=? size)%Z)
      (fun '(size, k, out, inp, m) =>
         let* x := ld32 m inp in
         let* w := ks_word keystream k in
         let* m := st32 m out (N.lxor x w) in
         Ret ((size - 4)%Z, S k, padd out 4, padd inp 4, m))
      (size, 0%nat, out, inp, m) in
  if (0 <? size)%Z then
    let* kw := ks_word keystream k in
    tail_bytes m out inp size kw
  else Ret m.

(** aes_ctr_process_packet, aes_ctr.cpp:127-192. *)
Definition aes_ctr_process_packet (b : build) (cs : aes_state) (m : mem) (out inp : ptr) (size : Z)
    : res (aes_state * mem) :=
  let* (_, cs, _, _, m) :=
    while (S (Z.to_nat size)) (fun '(size, _, _, _, _) => (0 <? size)%Z)
      (fun '(size, cs, out, inp, m) =>
         let keystream := ctr_aes_encrypt b cs in
         if (16 <=? size)%Z then
           let* m := xor_block m out inp keystream in
           Ret ((size - 16)%Z, state_update cs, padd out 16, padd inp 16, m)
         else
           let* m := ctr_tail m out inp size keystream in
           (* the loops have brought size to 0; the pointers are dead *)
           Ret (0%Z, state_update cs, out, inp, m))
      (size, cs, out, inp, m) in
  Ret (cs, m).

(** ** CFB mode *)

(** aes_load_iv and aes_cfb_initialize, aes_cfb.cpp:52-64. *)
Definition aes_cfb_initialize (m : mem) (key iv : ptr) : res aes_state :=
  let* ks := aes_key_expansion m key in
  let* r1 := ld32 m iv in
  let* r2 := ld32 m (padd iv 4) in
  let* r3 := ld32 m (padd iv 8) in
  let* r4 := ld32 m (padd iv 12) in
  Ret (Aes r1 r2 r3 r4 ks).

(** full_state_update, aes_cfb.cpp:85-91. *)
Definition full_state_update (cs : aes_state) (m : mem) (ctxt : ptr) : res aes_state :=
  let* r1 := ld32 m ctxt in
  let* r2 := ld32 m (padd ctxt 4) in
  let* r3 := ld32 m (padd ctxt 8) in
  let* r4 := ld32 m (padd ctxt 12) in
  Ret (Aes r1 r2 r3 r4 (rk cs)).

(** The expressions (a << n) ^ (b >> (32 - n)) of partial_state_update,
    aes_cfb.cpp:123-125 and so on to 219. *)
Definition shl_in (n a b : N) : N := N.lxor (shl32 a n) (shr32 b (32 - n)).

(** partial_state_update, aes_cfb.cpp:93-240. *)
Definition partial_state_update (cs : aes_state) (m : mem) (ctxt : ptr) (size : Z) : res aes_state :=
  let '(a, b, c, d) := regs cs in
  let upd r := Ret (set_regs cs r) in
  if (size mod 4 =? 0)%Z then
    if (size =? 4)%Z then                                     (* lines 97-103 *)
      let* w := ld32 m ctxt in upd (b, c, d, w)
    else if (size =? 8)%Z then                                (* lines 104-110 *)
      let* w1 := ld32 m ctxt in
      let* w2 := ld32 m (padd ctxt 1) in upd (c, d, w1, w2)
    else                                                      (* lines 111-117 *)
      let* w1 := ld32 m ctxt in
      let* w2 := ld32 m (padd ctxt 1) in
      let* w3 := ld32 m (padd ctxt 2) in upd (d, w1, w2, w3)
  else if (size mod 4 =? 1)%Z then
    if (size =? 1)%Z then                                     (* lines 121-129 *)
      let* x := ld8 m ctxt in
      upd (shl_in 8 a b, shl_in 8 b c, shl_in 8 c d, N.lxor (shl32 d 8) x)
    else if (size =? 5)%Z then                                (* lines 130-137 *)
      let* x := ld8 m ctxt in
      let* w := ld32 m (padd ctxt 1) in
      upd (shl_in 8 b c, shl_in 8 c d, N.lxor (shl32 d 8) x, w)
    else if (size =? 9)%Z then                                (* lines 138-145 *)
      let* x := ld8 m ctxt in
      let* w1 := ld32 m (padd ctxt 1) in
      let* w2 := ld32 m (padd ctxt 5) in
      upd (shl_in 8 c d, N.lxor (shl32 d 8) x, w1, w2)
    else if (size =? 13)%Z then                               (* lines 146-154 *)
      let* x := ld8 m ctxt in
      let* w1 := ld32 m (padd ctxt 1) in
      let* w2 := ld32 m (padd ctxt 5) in
      let* w3 := ld32 m (padd ctxt 9) in
      upd (N.lxor (shl32 d 8) x, w1, w2, w3)
    else Ret cs
  else if (size mod 4 =? 2)%Z then
    if (size =? 2)%Z then                                     (* lines 158-166 *)
      let* x := ld8 m ctxt in
      let* y := ld8 m (padd ctxt 1) in
      upd (shl_in 16 a b, shl_in 16 b c, shl_in 16 c d, N.lxor (N.lxor (shl32 d 16) (shl32 x 8)) y)
    else if (size =? 6)%Z then                                (* lines 167-175 *)
      let* x := ld8 m ctxt in
      let* y := ld8 m (padd ctxt 1) in
      let* w := ld32 m (padd ctxt 2) in
      upd (shl_in 16 b c, shl_in 16 c d, N.lxor (N.lxor (shl32 d 16) (shl32 x 8)) y, w)
    else if (size =? 10)%Z then                               (* lines 176-184 *)
      let* x := ld8 m ctxt in
      let* y := ld8 m (padd ctxt 1) in
      let* w1 := ld32 m (padd ctxt 2) in
      let* w2 := ld32 m (padd ctxt 6) in
      upd (shl_in 16 c d, N.lxor (N.lxor (shl32 d 16) (shl32 x 8)) y, w1, w2)
    else if (size =? 14)%Z then                               (* lines 185-194 *)
      let* x := ld8 m ctxt in
      let* y := ld8 m (padd ctxt 1) in
      let* w1 := ld32 m (padd ctxt 2) in
      let* w2 := ld32 m (padd ctxt 6) in
      let* w3 := ld32 m (padd ctxt 10) in
      upd (N.lxor (N.lxor (shl32 d 16) (shl32 x 8)) y, w1, w2, w3)
    else Ret cs
  else
    if (size =? 3)%Z then                                     (* lines 198-206 *)
      let* x := ld8 m ctxt in
      let* y := ld8 m (padd ctxt 1) in
      let* z := ld8 m (padd ctxt 2) in
      upd (shl_in 24 a b, shl_in 24 b c, shl_in 24 c d,
           N.lxor (N.lxor (N.lxor (shl32 d 24) (shl32 x 16)) (shl32 y 8)) z)
    else if (size =? 7)%Z then                                (* lines 207-216: reg3 << 24 at 211 *)
      let* x := ld8 m ctxt in
      let* y := ld8 m (padd ctxt 1) in
      let* z := ld8 m (padd ctxt 2) in
      let* w := ld32 m (padd ctxt 3) in
      upd (shl_in 24 b c, shl_in 24 c d,
           N.lxor (N.lxor (N.lxor (shl32 c 24) (shl32 x 16)) (shl32 y 8)) z, w)
    else if (size =? 11)%Z then                               (* lines 217-226 *)
      let* x := ld8 m ctxt in
      let* y := ld8 m (padd ctxt 1) in
      let* z := ld8 m (padd ctxt 2) in
      let* w1 := ld32 m (padd ctxt 3) in
      let* w2 := ld32 m (padd ctxt 7) in
      upd (shl_in 24 c d, N.lxor (N.lxor (N.lxor (shl32 d 24) (shl32 x 16)) (shl32 y 8)) z, w1, w2)
    else if (size =? 15)%Z then                               (* lines 227-237 *)
      let* x := ld8 m ctxt in
      let* y := ld8 m (padd ctxt 1) in
      let* z := ld8 m (padd ctxt 2) in
      let* w1 := ld32 m (padd ctxt 3) in
      let* w2 := ld32 m (padd ctxt 7) in
      let* w3 := ld32 m (padd ctxt 11) in
      upd (N.lxor (N.lxor (N.lxor (shl32 d 24) (shl32 x 16)) (shl32 y 8)) z, w1, w2, w3)
    else Ret cs.

(** The else branch of the CFB loop up to the state update,
    aes_cfb.cpp:288-308: as in CTR, but the key stream words are taken from
    the last to the first. *)
Definition cfb_tail (m : mem) (out inp : ptr) (size : Z) (keystream : list N) : res mem :=
  let* (size, k, out, inp, m) :=
    while (S (Z.to_nat size)) (fun '(size, _, _, _, _) => (4 <=? size)%Z)
      (fun '(size, k, out, inp, m) =>
         let* x := ld32 m inp in
         let* w := ks_word keystream k in
         let* m := st32 m out (N.lxor x w) in
         Ret ((size - 4)%Z, Nat.pred k, padd out 4, padd inp 4, m))
      (size, 3%nat, out, inp, m) in
  if (0 <? size)%Z then
    let* kw := ks_word keystream k in
    tail_bytes m out inp size kw
  else Ret m.

(** aes_cfb_process_packet, aes_cfb.cpp:242-314. *)
Definition aes_cfb_process_packet (b : build) (mode : Z) (cs : aes_state) (m : mem) (out inp : ptr)
    (size : Z) : res (aes_state * mem) :=
  let* (_, cs, _, _, m) :=
    while (S (Z.to_nat size)) (fun '(size, _, _, _, _) => (0 <? size)%Z)
      (fun '(size, cs, out, inp, m) =>
         let w_state_ptr := if (mode =? 0)%Z then out else inp in
         let '(cs, keystream) := cfb_aes_encrypt b cs in
         if (16 <=? size)%Z then
           let* m := xor_block m out inp keystream in
           let* cs := full_state_update cs m w_state_ptr in
           Ret ((size - 16)%Z, cs, padd out 16, padd inp 16, m)
         else
           let* m := cfb_tail m out inp size keystream in
           let* cs := partial_state_update cs m w_state_ptr size in
           (* the loops have brought size to 0; the pointers are dead *)
           Ret (0%Z, cs, out, inp, m))
      (size, cs, out, inp, m) in
  Ret (cs, m).
End Mode.

(** Standard C++: the shift of aes_ctr.cpp:182, aes_cfb.cpp:304 by an out-of-range
    amount is undefined. *)
Definition ub_shift : N -> Z -> res N := fun _ _ => UB.
(** #define ENCRYPT 0, aes_cfb.h:15. *)
Definition ENCRYPT : Z := 0.
(** #define DECRYPT 1, aes_cfb.h:16. *)
Definition DECRYPT : Z := 1.
