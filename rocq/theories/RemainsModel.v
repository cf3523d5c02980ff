(** What the functions leave behind in memory that they release: the contents
    of the buffers from operator new[] at the time of delete[].  The functions
    themselves are HmacModel.hmac_tag_generation and
    ChachaModel.chacha_process_packet; RemainsProps proves that they are the ones
    below with the released buffers dropped. *)
From Coq Require Import NArith ZArith Arith List.
From Verif Require Import Res Words Mem Ints HmacModel ChachaModel.
Import ListNotations.
Local Open Scope nat_scope.

(** hmac_tag_generation, hmac.cpp:56-85: also returns the blocks that line 84
    releases (none if line 59 returns), with their contents at that time. *)
Definition hmac_tag_generation_released (sha256 : mem -> ptr -> ptr -> N -> res mem) (cs : hmac_state) (m : mem)
    (tag message : ptr) (dataLength : N) (tagLength : Z) : res (mem * list block) :=
  if (dataLength <? 1)%N then Ret (m, []) else
  let (m, inner_computation) := alloc m (N.to_nat (add64 dataLength 64)) in
  let* m := stn m inner_computation (inner_key cs) in
  let* m := memcpy m (padd inner_computation 64) message (N.to_nat dataLength) in
  let (m, inner_hash) := alloc m 32 in
  let* m := sha256 m inner_hash inner_computation (add64 dataLength 64) in
  let (m, outer_computation) := alloc m 96 in
  let* m := stn m outer_computation (repeat 0%N 96) in
  let* m := stn m outer_computation (outer_key cs) in
  let* m := memcpy m (padd outer_computation 64) inner_hash 32 in
  let (m, outer_hash) := alloc m 32 in
  let* m := sha256 m outer_hash outer_computation 96%N in
  let* m := memcpy_int m tag outer_hash tagLength in
  Ret (drop_last (drop_last (drop_last (drop_last m))), [nth (pblk inner_computation) m []]).

(** The buffer of chacha_process_packet, chacha.cpp:84-92, as filled by the loop;
    nothing writes to it after that. *)
Definition chacha_keystream_buffer (nrounds : nat) (cs : chacha_state) (size : N) : res (list N) :=
  let* n_words := double_to_int (ceil_div (Z.of_N size) 4) in
  let* n_iterations := double_to_int (ceil_div n_words 16) in
  let* len := int_ret (n_iterations * 16) in
  let '(_, ks, _) :=
    iter_n (Z.to_nat n_iterations) 0
      (fun _ '(cs, ks, counter) =>
         let '(cs, blk) := chacha_block nrounds cs counter in
         (cs, ks ++ blk, add32 counter 1))
      (cs, [], 1%N) in
  Ret ks.

(** chacha_process_packet, chacha.cpp:77-114: also returns the bytes of the
    buffer that line 113 releases. *)
Definition chacha_process_packet_released (nrounds : nat) (cs : chacha_state) (m : mem)
    (output input : ptr) (size : N) : res (chacha_state * mem * block) :=
  let* ks := chacha_keystream_buffer nrounds cs size in
  let* (cs, m) := chacha_process_packet nrounds cs m output input size in
  Ret (cs, m, map Some (flat_map bytes_of_le32 ks)).
