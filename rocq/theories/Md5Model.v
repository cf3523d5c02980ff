(** Model of Legacy/MD5/md5.cpp.

    MD5_CTX (md5.h:89-93) is a record; the bytes of its buffer may be
    indeterminate.  Input arrays are given by a read function: [rd i] is input[i]. *)
From Coq Require Import Arith NArith List Bool.
From Verif Require Import Res Words Mem.
Import ListNotations.
Local Open Scope N_scope.

(** F, md5.cpp:62. *)
Definition fF (x y z : N) : N := N.lor (N.land x y) (N.land (not32 x) z).
(** G, md5.cpp:63. *)
Definition fG (x y z : N) : N := N.lor (N.land x z) (N.land y (not32 z)).
(** H, md5.cpp:64. *)
Definition fH (x y z : N) : N := N.lxor (N.lxor x y) z.
(** I, md5.cpp:65. *)
Definition fI (x y z : N) : N := N.lxor y (N.lor x (not32 z)).

(** One FF, GG, HH or II statement, md5.cpp:74-96: the function, the registers
    (0 to 3 for a to d), the index into x, the shift and the constant. *)
Record op := Op { of : N -> N -> N -> N; oa : nat; ob : nat; oc : nat; od : nat; ox : nat; os : N; oac : N }.
(** FF, md5.cpp:74-78. *)
Definition FF (r : nat * nat * nat * nat) (x : nat) (s ac : N) : op := let '(a, b, c, d) := r in Op fF a b c d x s ac.
(** GG, md5.cpp:80-84. *)
Definition GG (r : nat * nat * nat * nat) (x : nat) (s ac : N) : op := let '(a, b, c, d) := r in Op fG a b c d x s ac.
(** HH, md5.cpp:86-90. *)
Definition HH (r : nat * nat * nat * nat) (x : nat) (s ac : N) : op := let '(a, b, c, d) := r in Op fH a b c d x s ac.
(** II, md5.cpp:91-95. *)
Definition II (r : nat * nat * nat * nat) (x : nat) (s ac : N) : op := let '(a, b, c, d) := r in Op fI a b c d x s ac.

(** The body of those macros, md5.cpp:74-96; ROTATE_LEFT is md5.cpp:69. *)
Definition run_op (x : list N) (r : list N) (o : op) : list N :=
  let g i := nth i r 0 in
  let a := add32 (g (oa o)) (add32 (add32 (of o (g (ob o)) (g (oc o)) (g (od o))) (nth (ox o) x 0)) (oac o)) in
  let a := rotl32 a (os o) in
  let a := add32 a (g (ob o)) in
  upd (oa o) a r.

(** The 64 statements, md5.cpp:188-257; the shifts are S11 to S44, md5.cpp:31-46. *)
Definition ops : list op :=
  [FF (0, 1, 2, 3) 0 7%N 0xd76aa478%N; FF (3, 0, 1, 2) 1 12%N 0xe8c7b756%N; FF (2, 3, 0, 1) 2 17%N 0x242070db%N; FF (1, 2, 3, 0) 3 22%N 0xc1bdceee%N;
   FF (0, 1, 2, 3) 4 7%N 0xf57c0faf%N; FF (3, 0, 1, 2) 5 12%N 0x4787c62a%N; FF (2, 3, 0, 1) 6 17%N 0xa8304613%N; FF (1, 2, 3, 0) 7 22%N 0xfd469501%N;
   FF (0, 1, 2, 3) 8 7%N 0x698098d8%N; FF (3, 0, 1, 2) 9 12%N 0x8b44f7af%N; FF (2, 3, 0, 1) 10 17%N 0xffff5bb1%N; FF (1, 2, 3, 0) 11 22%N 0x895cd7be%N;
   FF (0, 1, 2, 3) 12 7%N 0x6b901122%N; FF (3, 0, 1, 2) 13 12%N 0xfd987193%N; FF (2, 3, 0, 1) 14 17%N 0xa679438e%N; FF (1, 2, 3, 0) 15 22%N 0x49b40821%N;
   GG (0, 1, 2, 3) 1 5%N 0xf61e2562%N; GG (3, 0, 1, 2) 6 9%N 0xc040b340%N; GG (2, 3, 0, 1) 11 14%N 0x265e5a51%N; GG (1, 2, 3, 0) 0 20%N 0xe9b6c7aa%N;
   GG (0, 1, 2, 3) 5 5%N 0xd62f105d%N; GG (3, 0, 1, 2) 10 9%N 0x2441453%N; GG (2, 3, 0, 1) 15 14%N 0xd8a1e681%N; GG (1, 2, 3, 0) 4 20%N 0xe7d3fbc8%N;
   GG (0, 1, 2, 3) 9 5%N 0x21e1cde6%N; GG (3, 0, 1, 2) 14 9%N 0xc33707d6%N; GG (2, 3, 0, 1) 3 14%N 0xf4d50d87%N; GG (1, 2, 3, 0) 8 20%N 0x455a14ed%N;
   GG (0, 1, 2, 3) 13 5%N 0xa9e3e905%N; GG (3, 0, 1, 2) 2 9%N 0xfcefa3f8%N; GG (2, 3, 0, 1) 7 14%N 0x676f02d9%N; GG (1, 2, 3, 0) 12 20%N 0x8d2a4c8a%N;
   HH (0, 1, 2, 3) 5 4%N 0xfffa3942%N; HH (3, 0, 1, 2) 8 11%N 0x8771f681%N; HH (2, 3, 0, 1) 11 16%N 0x6d9d6122%N; HH (1, 2, 3, 0) 14 23%N 0xfde5380c%N;
   HH (0, 1, 2, 3) 1 4%N 0xa4beea44%N; HH (3, 0, 1, 2) 4 11%N 0x4bdecfa9%N; HH (2, 3, 0, 1) 7 16%N 0xf6bb4b60%N; HH (1, 2, 3, 0) 10 23%N 0xbebfbc70%N;
   HH (0, 1, 2, 3) 13 4%N 0x289b7ec6%N; HH (3, 0, 1, 2) 0 11%N 0xeaa127fa%N; HH (2, 3, 0, 1) 3 16%N 0xd4ef3085%N; HH (1, 2, 3, 0) 6 23%N 0x4881d05%N;
   HH (0, 1, 2, 3) 9 4%N 0xd9d4d039%N; HH (3, 0, 1, 2) 12 11%N 0xe6db99e5%N; HH (2, 3, 0, 1) 15 16%N 0x1fa27cf8%N; HH (1, 2, 3, 0) 2 23%N 0xc4ac5665%N;
   II (0, 1, 2, 3) 0 6%N 0xf4292244%N; II (3, 0, 1, 2) 7 10%N 0x432aff97%N; II (2, 3, 0, 1) 14 15%N 0xab9423a7%N; II (1, 2, 3, 0) 5 21%N 0xfc93a039%N;
   II (0, 1, 2, 3) 12 6%N 0x655b59c3%N; II (3, 0, 1, 2) 3 10%N 0x8f0ccc92%N; II (2, 3, 0, 1) 10 15%N 0xffeff47d%N; II (1, 2, 3, 0) 1 21%N 0x85845dd1%N;
   II (0, 1, 2, 3) 8 6%N 0x6fa87e4f%N; II (3, 0, 1, 2) 15 10%N 0xfe2ce6e0%N; II (2, 3, 0, 1) 6 15%N 0xa3014314%N; II (1, 2, 3, 0) 13 21%N 0x4e0811a1%N;
   II (0, 1, 2, 3) 4 6%N 0xf7537e82%N; II (3, 0, 1, 2) 11 10%N 0xbd3af235%N; II (2, 3, 0, 1) 2 15%N 0x2ad7d2bb%N; II (1, 2, 3, 0) 9 21%N 0xeb86d391%N]%nat.

(** Decode(x, &input[i], 64), md5.cpp:288-297. *)
Definition decode (rd : N -> res N) (i : N) : res (list N) :=
  for_n 16 0 (fun k x =>
    let j := i + 4 * N.of_nat k in
    let* b0 := rd j in
    let* b1 := rd (j + 1) in
    let* b2 := rd (j + 2) in
    let* b3 := rd (j + 3) in
    Ret (x ++ [N.lor (N.lor (N.lor b0 (shl32 b1 8)) (shl32 b2 16)) (shl32 b3 24)])) [].

(** MD5Transform, md5.cpp:181-267.  Clearing the local x is not modelled. *)
Definition transform (st : list N) (rd : N -> res N) (i : N) : res (list N) :=
  let* x := decode rd i in
  let r := fold_left (run_op x) ops st in
  Ret [add32 (nth 0 st 0) (nth 0 r 0); add32 (nth 1 st 0) (nth 1 r 0);
       add32 (nth 2 st 0) (nth 2 r 0); add32 (nth 3 st 0) (nth 3 r 0)].

(** MD5_CTX, md5.h:89-93. *)
Record ctx := Ctx { state : list N; count0 : N; count1 : N; buffer : list (option N) }.

(** Reading context->buffer as an array, md5.cpp:133; UB outside and where indeterminate. *)
Definition buf_rd (b : list (option N)) (i : N) : res N :=
  match nth_error b (N.to_nat i) with Some (Some x) => Ret x | _ => UB end.

(** MD5_memcpy(&buffer[index], &input[i], len), md5.cpp:302-308. *)
Definition copy_in (b : list (option N)) (index : N) (rd : N -> res N) (i len : N) : res (list (option N)) :=
  for_n (N.to_nat len) 0 (fun j b =>
    let* x := rd (i + N.of_nat j) in
    let o := (N.to_nat index + j)%nat in
    if (o <? length b)%nat then Ret (upd o (Some x) b) else UB) b.

(** MD5Init, md5.cpp:99-108.  The buffer is left as it is. *)
Definition md5_init (c : ctx) : ctx :=
  Ctx [0x67452301; 0xefcdab89; 0x98badcfe; 0x10325476] 0 0 (buffer c).

(** The for loop of MD5Update, md5.cpp:134-135. *)
Definition update_loop (rd : N -> res N) (len : N) (fuel : nat) (s : list N * N) : res (list N * N) :=
  while fuel (fun '(st, i) => add32 i 63 <? len)
    (fun '(st, i) => let* st := transform st rd i in Ret (st, add32 i 64)) s.

(** MD5Update, md5.cpp:114-143.  A terminating for loop runs at most len/64 + 1 times. *)
Definition md5_update (c : ctx) (rd : N -> res N) (len : N) : res ctx :=
  let index := N.land (shr32 (count0 c) 3) 0x3f in
  let c0 := add32 (count0 c) (shl32 len 3) in
  let c1 := if c0 <? shl32 len 3 then add32 (count1 c) 1 else count1 c in
  let c1 := add32 c1 (shr32 len 29) in
  let partLen := sub32 64 index in
  let* (st, b, i, index) :=
    if partLen <=? len then
      let* b := copy_in (buffer c) index rd 0 partLen in
      let* st := transform (state c) (buf_rd b) 0 in
      let* (st, i) := update_loop rd len (S (S (N.to_nat (len / 64)))) (st, partLen) in
      Ret (st, b, i, 0)
    else Ret (state c, buffer c, 0, index) in
  let* b := copy_in b index rd i (sub32 len i) in
  Ret (Ctx st c0 c1 b).

(** PADDING, md5.cpp:54-58. *)
Definition PADDING : list N := 0x80 :: repeat 0 63.
(** Reading the array PADDING or bits, md5.cpp:160, 163; UB outside. *)
Definition arr_rd (l : list N) (i : N) : res N :=
  match nth_error l (N.to_nat i) with Some x => Ret x | None => UB end.

(** Encode, md5.cpp:272-283: the bytes written. *)
Definition encode (l : list N) : list N :=
  flat_map (fun w => [u8 (N.land w 0xff); u8 (N.land (shr32 w 8) 0xff); u8 (N.land (shr32 w 16) 0xff); u8 (N.land (shr32 w 24) 0xff)]) l.

(** The 88 bytes of an MD5_CTX (md5.h:90-94); state and count must be determinate
    to be read back. *)
Definition ctx_bytes (c : ctx) : list (option N) :=
  map Some (flat_map bytes_of_le32 (state c ++ [count0 c; count1 c])) ++ buffer c.
(** One word of state or count, md5.h:91-92. *)
Definition le32_at (l : list (option N)) (i : nat) : res N :=
  match nth_error l i, nth_error l (i + 1), nth_error l (i + 2), nth_error l (i + 3) with
  | Some (Some a), Some (Some b), Some (Some c), Some (Some d) => Ret (le32_of_bytes a b c d)
  | _, _, _, _ => UB
  end.
(** The record that 88 bytes stand for, md5.h:90-94. *)
Definition ctx_of_bytes (l : list (option N)) : res ctx :=
  let* s0 := le32_at l 0 in let* s1 := le32_at l 4 in let* s2 := le32_at l 8 in let* s3 := le32_at l 12 in
  let* c0 := le32_at l 16 in let* c1 := le32_at l 20 in
  Ret (Ctx [s0; s1; s2; s3] c0 c1 (skipn 24 l)).

(** MD5_memset, md5.cpp:312-318, on an object of the given bytes. *)
Definition md5_memset (l : list (option N)) (value : N) (len : N) : res (list (option N)) :=
  for_n (N.to_nat len) 0 (fun i l => if (i <? length l)%nat then Ret (upd i (Some (u8 value)) l) else UB) l.

(** MD5Final, md5.cpp:148-170.  sizeof(MD5_CTX) is 88. *)
Definition md5_final (m : mem) (digest : ptr) (c : ctx) : res (mem * ctx) :=
  let bits := encode [count0 c; count1 c] in
  let index := N.land (shr32 (count0 c) 3) 0x3f in
  let padLen := if index <? 56 then sub32 56 index else sub32 120 index in
  let* c := md5_update c (arr_rd PADDING) padLen in
  let* c := md5_update c (arr_rd bits) 8 in
  let* m := stn m digest (encode (state c)) in
  let* l := md5_memset (ctx_bytes c) 0 88 in
  let* c := ctx_of_bytes l in
  Ret (m, c).

(** An input array in memory, md5.cpp:132, 135, 142. *)
Definition mem_rd (m : mem) (input : ptr) (i : N) : res N := ld8 m (padd input (N.to_nat i)).

(** MD5_process_packet, md5.cpp:172-177. *)
Definition md5_process_packet (c : ctx) (m : mem) (digest input : ptr) (size : N) : res (mem * ctx) :=
  let c := md5_init c in
  let* c := md5_update c (mem_rd m input) size in
  md5_final m digest c.
