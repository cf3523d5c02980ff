(** The AES functions of AesModel, which also list the entries of Sbox and T0 to
    T3 they read, in the order of the source.  Every other address they read or
    write depends on the pointers and lengths they are given only: the registers,
    the key schedule and Rcon at fixed places, the buffers in order. *)
From Coq Require Import NArith ZArith List Bool.
From Verif Require Import Res Words Mem Ints AesTables AesModel AesLookupSpec.
Import ListNotations.
Local Open Scope N_scope.

(** The tables, tables.h:26-59 and 61 on. *)
Definition contents (t : table) : list N :=
  match t with InSbox => Sbox | InT0 => T0 | InT1 => T1 | InT2 => T2 | InT3 => T3 end.
(** One access, aes_ctr.cpp:28-31, aes_ctr.h:65-164: the index is a uint8_t.  The
    value read, and the accesses so far with this one. *)
Definition read (t : table) (i : N) (tr : list lookup) : N * list lookup := (look (contents t) i, tr ++ [(t, u8 i)]).

(** SubByte, aes_ctr.cpp:25-33. *)
Definition SubByte_seen (w : N) (tr : list lookup) : N * list lookup :=
  let '(ret, tr) := read InSbox w tr in
  let '(x, tr) := read InSbox (shr32 w 8) tr in
  let ret := N.lxor ret (shl32 x 8) in
  let '(x, tr) := read InSbox (shr32 w 16) tr in
  let ret := N.lxor ret (shl32 x 16) in
  let '(x, tr) := read InSbox (shr32 w 24) tr in
  (N.lxor ret (shl32 x 24), tr).

(** Body of the second loop of aes_key_expansion, aes_ctr.cpp:50-55. *)
Definition expand_step_seen (i : nat) (s : list N * list lookup) : list N * list lookup :=
  let '(ks, tr) := s in
  let temp := nth (i - 1) ks 0 in
  let '(temp, tr) := if Nat.eqb (Nat.modulo i 4) 0
                     then let '(x, tr) := SubByte_seen (RotByte temp) tr in (N.lxor x (nth (Nat.div i 4) Rcon 0), tr)
                     else (temp, tr) in
  (ks ++ [N.lxor (nth (i - 4) ks 0) temp], tr).

(** aes_key_expansion, aes_ctr.cpp:35-58 (aes_cfb.cpp:29-50; the same in AES_x86
    and AES_ARM: AES_x86/AES_CTR/aes_ctr.cpp:40-63, AES_ARM/AES_CTR/aes_ctr.cpp:41-64). *)
Definition aes_key_expansion_seen (m : mem) (key : ptr) : res (list N * list lookup) :=
  let* ks := for_n 4 0 (fun i ks =>
    let* b0 := ld8 m (padd key (4 * i)) in
    let* b1 := ld8 m (padd key (4 * i + 1)) in
    let* b2 := ld8 m (padd key (4 * i + 2)) in
    let* b3 := ld8 m (padd key (4 * i + 3)) in
    Ret (ks ++ [N.lor (N.lor (N.lor b0 (shl32 b1 8)) (shl32 b2 16)) (shl32 b3 24)])) [] in
  Ret (iter_n 40 4 expand_step_seen (ks, [])).

(** aes_load_key, aes_ctr.cpp:72-75. *)
Definition aes_load_key_seen (cs : aes_state) (m : mem) (key : ptr) : res (aes_state * list lookup) :=
  let* (ks, tr) := aes_key_expansion_seen m key in
  Ret (Aes (reg1 cs) (reg2 cs) (reg3 cs) (reg4 cs) ks, tr).

(** aes_cfb_initialize, aes_cfb.cpp:52-64. *)
Definition aes_cfb_initialize_seen (m : mem) (key iv : ptr) : res (aes_state * list lookup) :=
  let* (ks, tr) := aes_key_expansion_seen m key in
  let* r1 := ld32 m iv in
  let* r2 := ld32 m (padd iv 4) in
  let* r3 := ld32 m (padd iv 8) in
  let* r4 := ld32 m (padd iv 12) in
  Ret (Aes r1 r2 r3 r4 ks, tr).

(** One output word of round, aes_ctr.h:65-73 (and 76-84, 87-95, 98-106). *)
Definition tcol_seen (x y z w k : N) (tr : list lookup) : N * list lookup :=
  let '(v0, tr) := read InT0 x tr in
  let '(v1, tr) := read InT1 (shr32 y 8) tr in
  let '(v2, tr) := read InT2 (shr32 z 16) tr in
  let '(v3, tr) := read InT3 (shr32 w 24) tr in
  (N.lxor (N.lxor (N.lxor (N.lxor v0 v1) v2) v3) k, tr).
(** round, aes_ctr.h:54-108. *)
Definition round_seen (s : N * N * N * N * list lookup) (k : list N) : N * N * N * N * list lookup :=
  let '(a, b, c, d, tr) := s in
  let '(a', tr) := tcol_seen a b c d (nth 0 k 0) tr in
  let '(b', tr) := tcol_seen b c d a (nth 1 k 0) tr in
  let '(c', tr) := tcol_seen c d a b (nth 2 k 0) tr in
  let '(d', tr) := tcol_seen d a b c (nth 3 k 0) tr in
  (a', b', c', d', tr).

(** One output word of final_round, aes_ctr.h:123-131 (and 134-142, 145-153, 156-164). *)
Definition scol_seen (x y z w k : N) (tr : list lookup) : N * list lookup :=
  let '(v0, tr) := read InSbox x tr in
  let '(v1, tr) := read InSbox (shr32 y 8) tr in
  let '(v2, tr) := read InSbox (shr32 z 16) tr in
  let '(v3, tr) := read InSbox (shr32 w 24) tr in
  (N.lxor (N.lxor (N.lxor (N.lxor v0 (shl32 v1 8)) (shl32 v2 16)) (shl32 v3 24)) k, tr).
(** final_round, aes_ctr.h:110-166. *)
Definition final_round_seen (s : N * N * N * N * list lookup) (k : list N) : N * N * N * N * list lookup :=
  let '(a, b, c, d, tr) := s in
  let '(a', tr) := scol_seen a b c d (nth 0 k 0) tr in
  let '(b', tr) := scol_seen b c d a (nth 1 k 0) tr in
  let '(c', tr) := scol_seen c d a b (nth 2 k 0) tr in
  let '(d', tr) := scol_seen d a b c (nth 3 k 0) tr in
  (a', b', c', d', tr).

(** The rounds of aes_encrypt, aes_ctr.cpp:90-102 (aes_cfb.cpp:68-80). *)
Definition table_rounds_seen (reduced : bool) (s : N * N * N * N) (rk : list N) : N * N * N * N * list lookup :=
  let s := (initial_round s (rk_at 0 rk), []) in
  let s := if reduced then s else
    let s := round_seen s (rk_at 4 rk) in
    let s := round_seen s (rk_at 8 rk) in
    let s := round_seen s (rk_at 12 rk) in
    round_seen s (rk_at 16 rk) in
  let s := round_seen s (rk_at 20 rk) in
  let s := round_seen s (rk_at 24 rk) in
  let s := round_seen s (rk_at 28 rk) in
  let s := round_seen s (rk_at 32 rk) in
  let s := round_seen s (rk_at 36 rk) in
  final_round_seen s (rk_at 40 rk).

(** What stands between reading the registers and writing the key stream in
    aes_encrypt: aes_ctr.cpp:90-102; AES_x86 and AES_ARM 93-116, where the vector
    instructions use no tables. *)
Definition rounds_seen (b : build) (s : N * N * N * N) (rk : list N) : N * N * N * N * list lookup :=
  match b with
  | Table reduced => table_rounds_seen reduced s rk
  | X86 => (x86_rounds s rk, [])
  | Arm => (arm_rounds s rk, [])
  end.

(** aes_encrypt of the CTR folders: aes_ctr.cpp:84-108, AES_x86 90-144, AES_ARM 90-144. *)
Definition ctr_aes_encrypt_seen (b : build) (cs : aes_state) : list N * list lookup :=
  let '(s, tr) := rounds_seen b (regs cs) (rk cs) in (quad s, tr).

(** aes_encrypt of the CFB folders: aes_cfb.cpp:66-83, AES_x86 71-118, AES_ARM 72-119. *)
Definition cfb_aes_encrypt_seen (b : build) (cs : aes_state) : aes_state * list N * list lookup :=
  let '(r, tr) := rounds_seen b (regs cs) (rk cs) in
  match b with
  | X86 => (cs, quad r, tr)
  | _ => (set_regs cs r, quad r, tr)
  end.

(** aes_ctr_process_packet, aes_ctr.cpp:127-192. *)
Definition aes_ctr_process_packet_seen (oor : N -> Z -> res N) (wild : res unit) (b : build) (cs : aes_state) (m : mem)
    (out inp : ptr) (size : Z) : res (aes_state * mem * list lookup) :=
  let* (_, cs, _, _, m, tr) :=
    while (S (Z.to_nat size)) (fun '(size, _, _, _, _, _) => (0 <? size)%Z)
      (fun '(size, cs, out, inp, m, tr) =>
         let '(keystream, t) := ctr_aes_encrypt_seen b cs in
         if (16 <=? size)%Z then
           let* m := xor_block m out inp keystream in
           Ret ((size - 16)%Z, state_update cs, padd out 16, padd inp 16, m, tr ++ t)
         else
           let* m := ctr_tail oor wild m out inp size keystream in
           Ret (0%Z, state_update cs, out, inp, m, tr ++ t))
      (size, cs, out, inp, m, []) in
  Ret (cs, m, tr).
