(** Model of StreamCiphers/AEGIS: AEGIS-128.

    Sources: AEGIS/aegis_128.{h,cpp} (table build), AEGIS_x86/aegis_128.{h,cpp}
    (with -Dx86_INTRINSICS), AEGIS_ARM/aegis_128.{h,cpp} (with
    -DARM_INTRINSICS).  Line numbers refer to the AEGIS folder unless another is
    named.  The three aegis_128.cpp differ only in a parameter declaration and a
    pair of parentheses; the tables T0-T3 of tables.h are textually those of the
    AES folders ([AesTables]).

    Simplifications: the host is little-endian; alignment and strict aliasing
    of the casts between byte and word pointers are not modelled; operator new
    does not fail; the struct and the local arrays do not overlap the caller's
    buffers, and are values here. *)
From Coq Require Import NArith ZArith List Bool.
From Verif Require Import Res Words Mem Ints AesTables AesModel.
Import ListNotations.
Local Open Scope N_scope.

(** struct aegis_state, aegis_128.h:21-30; [w] is never used.  Each register
    is an array of 4 words. *)
Record aegis_state := Aegis { key : list N; s0 : list N; s1 : list N; s2 : list N; s3 : list N; s4 : list N }.

(** constant, tables.h:26-30. *)
Definition constant : list N :=
  [0x00; 0x01; 0x01; 0x02; 0x03; 0x05; 0x08;
   0x0d; 0x15; 0x22; 0x37; 0x59; 0x90; 0xe9;
   0x79; 0x62; 0xdb; 0x3d; 0x18; 0x55; 0x6d;
   0xc2; 0x2f; 0xf1; 0x20; 0x11; 0x31; 0x42;
   0x73; 0xb5; 0x28; 0xdd].

(** The words of a byte array seen through a word pointer, aegis_128.cpp:36, 40-41,
    95, or copied into words, 139, 211. *)
Definition words_of (l : list N) : list N := quad (vstore l).

(** Four words XORed one by one, aegis_128.cpp:30-33, 43-51, 228-231, 243-246;
    aegis_128.h:105-108. *)
Definition xor4 (a b : list N) : list N :=
  [N.lxor (nth 0 a 0) (nth 0 b 0); N.lxor (nth 1 a 0) (nth 1 b 0);
   N.lxor (nth 2 a 0) (nth 2 b 0); N.lxor (nth 3 a 0) (nth 3 b 0)].

(** The three builds: AEGIS/aegis_128.h:37-151, AEGIS_x86/aegis_128.h:98-226 under
    x86_INTRINSICS, AEGIS_ARM/aegis_128.h:99-252 under ARM_INTRINSICS. *)
Inductive aegis_build := ATable | AX86 | AArm.

(** round, aegis_128.h:37-90, on the register [s] with round key [k]: [ATable];
    _mm_aesenc_si128, AEGIS_x86/aegis_128.h:135, 154, 176, 196, 220: [AX86];
    AEGIS_ARM/aegis_128.h:138-142, 163-167, 190-194, 215-217, 242-246: [AArm].
    The table version has the code of round in aes_ctr.h:54-108. *)
Definition around (b : aegis_build) (s k : list N) : list N :=
  match b with
  | ATable => quad (AesModel.round (nth 0 s 0, nth 1 s 0, nth 2 s 0, nth 3 s 0) k)
  | AX86 => quad (vstore (mm_aesenc (vload s) (vload k)))
  | AArm =>
      let B := vxor (vload s) (vload k) in
      let B := vaesmc (vaese B (vload k)) in
      let B := vxor B (vload k) in
      quad (vstore B)
  end.

(** aegis_state_update, aegis_128.h:93-151, AEGIS_x86/aegis_128.h:99-226,
    AEGIS_ARM/aegis_128.h:100-253; [message] holds the four words at
    message_block, which are all read before the state is written. *)
Definition aegis_state_update (b : aegis_build) (cs : aegis_state) (message : list N) : aegis_state :=
  let tmp_state := s0 cs in
  let tmp_key := xor4 tmp_state message in
  let r0 := around b (s4 cs) tmp_key in
  let tmp_key := s1 cs in
  let r1 := around b tmp_state tmp_key in
  let tmp_state := tmp_key in
  let tmp_key := s2 cs in
  let r2 := around b tmp_state tmp_key in
  let tmp_state := tmp_key in
  let tmp_key := s3 cs in
  let r3 := around b tmp_state tmp_key in
  let tmp_state := tmp_key in
  let tmp_key := s4 cs in
  let r4 := around b tmp_state tmp_key in
  Aegis (key cs) r0 r1 r2 r3 r4.

(** aegis_load_key, aegis_128.cpp:19-22. *)
Definition aegis_load_key (cs : aegis_state) (m : mem) (k : ptr) : res aegis_state :=
  let* w := ld_words m k 4 in
  Ret (Aegis w (s0 cs) (s1 cs) (s2 cs) (s3 cs) (s4 cs)).

(** aegis_initialize, aegis_128.cpp:24-77. *)
Definition aegis_initialize (b : aegis_build) (cs : aegis_state) (m : mem) (iv : ptr) : res aegis_state :=
  let* v := ld_words m iv 4 in
  let tmp := xor4 (key cs) v in
  let lo := words_of (firstn 16 constant) in
  let hi := words_of (skipn 16 constant) in
  let cs := Aegis (key cs) tmp hi lo (xor4 (key cs) lo) (xor4 (key cs) hi) in
  let message := concat (repeat (key cs ++ tmp) 5) in
  Ret (iter_n 10 0 (fun i cs => aegis_state_update b cs (firstn 4 (skipn (4 * i) message))) cs).

(** aegis_process_ad, aegis_128.cpp:79-110.  The bound
    std::ceil(double(adlen)/16) is the rounded-up quotient when adlen <= 2^53;
    above that the conversion to double keeps it above 2^49, and the loop has
    then already overflowed the int 4*i at i = 2^29.  So i++ never overflows
    first. *)
Definition aegis_process_ad (b : aegis_build) (cs : aegis_state) (m : mem) (ad : ptr) (adlen : N)
    : res aegis_state :=
  if adlen =? 0 then Ret cs
  else
    let blocks := N.to_nat ((adlen + 15) / 16) in
    if negb (adlen mod 16 =? 0) then
      let pad_length := 16 - adlen mod 16 in
      let* l := ldn m ad (N.to_nat adlen) in
      let padded_ad := l ++ repeat 0 (N.to_nat pad_length) in
      for_n blocks 0 (fun i cs =>
        let* w := int_ret (4 * Z.of_nat i) in
        Ret (aegis_state_update b cs (words_of (skipn (4 * Z.to_nat w) padded_ad)))) cs
    else
      for_n blocks 0 (fun i cs =>
        let* w := int_ret (4 * Z.of_nat i) in
        let* v := ld_words m (padd ad (4 * Z.to_nat w)) 4 in
        Ret (aegis_state_update b cs v)) cs.

(** x ^ cs->s1[i] ^ cs->s4[i] ^ (cs->s2[i] & cs->s3[i]), aegis_128.cpp:125-128,
    146, 175-178, 196. *)
Definition key_word (cs : aegis_state) (i : nat) (x : N) : res N :=
  let* a := ks_word (s1 cs) i in
  let* d := ks_word (s4 cs) i in
  let* p := ks_word (s2 cs) i in
  let* q := ks_word (s3 cs) i in
  Ret (N.lxor (N.lxor (N.lxor x a) d) (N.land p q)).

(** One word read, combined with the state and written: one of the lines
    aegis_128.cpp:125-128, 146, 175-178, 196. *)
Definition word_step (cs : aegis_state) (out inp : ptr) (o i : nat) (m : mem) : res mem :=
  let* x := ld32 m (padd inp o) in
  let* y := key_word cs i x in
  st32 m (padd out o) y.

(** (uint8_t)((cs->s1[i] ^ ...) >> 8*j++), aegis_128.cpp:158, 207. *)
Definition key_byte (cs : aegis_state) (i j : nat) : res N :=
  let* k := key_word cs i 0 in
  if (8 * j <? 32)%nat then Ret (u8 (shr32 k (8 * N.of_nat j))) else UB.

(** One byte: aegis_128.cpp:158 and 207. *)
Definition byte_step (cs : aegis_state) (out inp : ptr) (o i j : nat) (m : mem) : res mem :=
  let* x := ld8 m (padd inp o) in
  let* k := key_byte cs i j in
  st8 m (padd out o) (N.lxor x k).

(** The loop over full blocks: aegis_128.cpp:122-133 ([out] = ct, [inp] = pt)
    and 172-181 ([out] = pt, [inp] = ct); [o] is how far the word pointers have
    advanced.  Both update the state from memory at [msg] = pt, after the four
    words have been written. *)
Definition full_blocks (b : aegis_build) (out inp msg : ptr) (msglen : N)
    (st : aegis_state * mem * N * nat) : res (aegis_state * mem * N * nat) :=
  let bound := sub64 msglen 15 in
  while (S (S (N.to_nat (bound / 16))))
    (fun '(cs, m, tmp, o) => tmp <? bound)
    (fun '(cs, m, tmp, o) =>
       let* m := word_step cs out inp o 0 m in
       let* m := word_step cs out inp (o + 4) 1 m in
       let* m := word_step cs out inp (o + 8) 2 m in
       let* m := word_step cs out inp (o + 12) 3 m in
       let* v := ld_words m (padd msg o) 4 in
       Ret (aegis_state_update b cs v, m, add64 tmp 16, (o + 16)%nat)) st.

(** The loop over the remaining words: aegis_128.cpp:141-148 and 192-198. *)
Definition tail_words (cs : aegis_state) (out inp : ptr) (msglen : N)
    (st : mem * N * nat * nat) : res (mem * N * nat * nat) :=
  let '(m, tmp, o, i) := st in
  let bound := sub64 msglen 3 in
  while (S (N.to_nat (bound - tmp)))
    (fun '(m, tmp, o, i) => tmp <? bound)
    (fun '(m, tmp, o, i) =>
       let* m := word_step cs out inp o i m in
       Ret (m, add64 tmp 4, (o + 4)%nat, S i)) st.

(** The loop over the remaining bytes: aegis_128.cpp:151-160 and 201-209. *)
Definition tail_bytes (cs : aegis_state) (out inp : ptr) (msglen : N) (i : nat)
    (st : mem * N * nat * nat) : res (mem * N * nat * nat) :=
  let '(m, tmp, o, j) := st in
  while (S (N.to_nat (msglen - tmp)))
    (fun '(m, tmp, o, j) => tmp <? msglen)
    (fun '(m, tmp, o, j) =>
       let* m := byte_step cs out inp o i j m in
       Ret (m, add64 tmp 1, (o + 1)%nat, S j)) st.

(** memcpy of [n] bytes into the zeroed padded_block, aegis_128.cpp:137-139 and
    188, 211: at most 15 bytes, since
    the block loop has ended; 16 or fewer fit. *)
Definition padded_block (m : mem) (p : ptr) (n : N) : res (list N) :=
  if n <=? 16 then
    let* l := ldn m p (N.to_nat n) in
    Ret (words_of (l ++ repeat 0 (16 - N.to_nat n)))
  else UB.

(** aegis_encrypt, aegis_128.cpp:112-163. *)
Definition aegis_encrypt (b : aegis_build) (cs : aegis_state) (m : mem) (ct pt : ptr) (msglen : N)
    : res (aegis_state * mem) :=
  if msglen =? 0 then Ret (cs, m)
  else
    let* (cs, m, tmp, o) := full_blocks b ct pt pt msglen (cs, m, 0, O) in
    if tmp =? msglen then Ret (cs, m)
    else
      let* block := padded_block m (padd pt o) (sub64 msglen tmp) in
      let* (m, tmp, o, i) := tail_words cs ct pt msglen (m, tmp, o, O) in
      let* (m, tmp, o, j) := tail_bytes cs ct pt msglen i (m, tmp, o, O) in
      Ret (aegis_state_update b cs block, m).

(** aegis_decrypt, aegis_128.cpp:165-214.  overshoot is an int converted to
    size_t: it is below 16. *)
Definition aegis_decrypt (b : aegis_build) (cs : aegis_state) (m : mem) (pt ct : ptr) (msglen : N)
    : res (aegis_state * mem) :=
  if msglen =? 0 then Ret (cs, m)
  else
    let* (cs, m, tmp, o) := full_blocks b pt ct pt msglen (cs, m, 0, O) in
    if tmp =? msglen then Ret (cs, m)
    else
      let overshoot := sub64 msglen tmp in
      let tmp_ptr := padd pt o in
      let* (m, tmp, o, i) := tail_words cs pt ct msglen (m, tmp, o, O) in
      let* (m, tmp, o, j) := tail_bytes cs pt ct msglen i (m, tmp, o, O) in
      let* block := padded_block m tmp_ptr overshoot in
      Ret (aegis_state_update b cs block, m).

(** aegis_finalize, aegis_128.cpp:216-247; the tag words are returned. *)
Definition aegis_finalize (b : aegis_build) (cs : aegis_state) (adlen msglen : N)
    : aegis_state * list N :=
  let bit_adlen := u64 (adlen * 8) in
  let bit_msglen := u64 (msglen * 8) in
  let tmp := [u32 bit_adlen; u32 (N.shiftr bit_adlen 32); u32 bit_msglen; u32 (N.shiftr bit_msglen 32)] in
  let tmp := xor4 tmp (s3 cs) in
  let cs := iter_n 7 0 (fun _ cs => aegis_state_update b cs tmp) cs in
  (cs, xor4 (xor4 (xor4 (xor4 (s0 cs) (s1 cs)) (s2 cs)) (s3 cs)) (s4 cs)).

(** tag[0..3] = ..., aegis_128.cpp:243-246, for a tag in the caller's memory. *)
Definition put_tag (m : mem) (tag : ptr) (w : list N) : res mem :=
  let* m := st32 m tag (nth 0 w 0) in
  let* m := st32 m (padd tag 4) (nth 1 w 0) in
  let* m := st32 m (padd tag 8) (nth 2 w 0) in
  st32 m (padd tag 12) (nth 3 w 0).

(** aegis_encrypt_packet, aegis_128.cpp:249-258. *)
Definition aegis_encrypt_packet (b : aegis_build) (cs : aegis_state) (m : mem) (ct tag pt ad iv : ptr)
    (adlen msglen : N) : res (aegis_state * mem) :=
  let* cs := aegis_initialize b cs m iv in
  let* cs := aegis_process_ad b cs m ad adlen in
  let* (cs, m) := aegis_encrypt b cs m ct pt msglen in
  let '(cs, w) := aegis_finalize b cs adlen msglen in
  let* m := put_tag m tag w in
  Ret (cs, m).

(** aegis_decrypt_packet, aegis_128.cpp:260-291; always_memset, 13-17. *)
Definition aegis_decrypt_packet (b : aegis_build) (cs : aegis_state) (m : mem) (pt ct ad iv tag : ptr)
    (adlen msglen : N) : res (N * aegis_state * mem) :=
  let* u32_tag := ld_words m tag 4 in
  let* cs := aegis_initialize b cs m iv in
  let* cs := aegis_process_ad b cs m ad adlen in
  let* (cs, m) := aegis_decrypt b cs m pt ct msglen in
  let '(cs, re_tag) := aegis_finalize b cs adlen msglen in
  let flag := iter_n 4 0 (fun i flag =>
    if negb (nth i re_tag 0 =? nth i u32_tag 0) then true else flag) false in
  if flag then
    let* m := stn m pt (repeat 0 (N.to_nat msglen)) in
    let* m := stn m tag (repeat 0 16) in
    Ret (0, cs, m)
  else Ret (1, cs, m).
