(** Model of Authentication/HMAC-SHA-256/hmac.cpp and hmac.h.  The hash
    function is a parameter because the demo in the same folder links its own
    sha-256.cpp and Example_AuthenticatedEncryption links the Hash folder's. *)
From Coq Require Import NArith ZArith Arith List.
From Verif Require Import Res Words Mem Ints.
Import ListNotations.

(** hmac_state, hmac.h:32-37 (the member [key] is never used). *)
Record hmac_state := HmacState { inner_key : list N; outer_key : list N }.

(** memcpy of an [int] number of bytes, hmac.cpp:39 and 81: a negative count converts to a huge
    size_t, which no block can satisfy. *)
Definition memcpy_int (m : mem) (dst src : ptr) (n : Z) : res mem :=
  if (n <? 0)%Z then UB else memcpy m dst src (Z.to_nat n).

Section WithHash.
Variable sha256 : mem -> ptr -> ptr -> N -> res mem.

(** hmac_load_key, hmac.cpp:24-54 (ipad, opad: hmac.h:39-40). *)
Definition hmac_load_key (m : mem) (key : ptr) (keysize : Z) : res hmac_state :=
  let (m, localKey) := alloc m 64 in
  let* (m, keysize) :=
    if (64 <? keysize)%Z then
      let (m, hashedKey) := alloc m 32 in
      let* m := sha256 m hashedKey key (Z.to_N keysize) in
      let* m := memcpy m localKey hashedKey 32 in
      Ret (drop_last m, 32%Z)
    else
      let* m := memcpy_int m localKey key keysize in
      Ret (m, keysize) in
  let* m := for_n (64 - Z.to_nat keysize) (Z.to_nat keysize)
              (fun i m => st8 m (padd localKey i) 0) m in
  for_n 64 0
    (fun i cs =>
       let* b := ld8 m (padd localKey i) in
       Ret (HmacState (upd i (N.lxor 0x36 b) (inner_key cs))
                      (upd i (N.lxor 0x5c b) (outer_key cs))))
    (HmacState (repeat 0%N 64) (repeat 0%N 64)).

(** hmac_tag_generation, hmac.cpp:56-85. *)
Definition hmac_tag_generation (cs : hmac_state) (m : mem) (tag message : ptr)
    (dataLength : N) (tagLength : Z) : res mem :=
  if (dataLength <? 1)%N then Ret m else
  let (m, inner_computation) := alloc m (N.to_nat (add64 dataLength 64)) in
  let* m := stn m inner_computation (inner_key cs) in
  let* m := memcpy m (padd inner_computation 64) message (N.to_nat dataLength) in
  let (m, inner_hash) := alloc m 32 in
  let* m := sha256 m inner_hash inner_computation (add64 dataLength 64) in
  let (m, outer_computation) := alloc m 96 in
  let* m := stn m outer_computation (repeat 0%N 96) in
  let* m := stn m outer_computation (outer_key cs) in
  let* m := memcpy m (padd outer_computation 64) inner_hash 32 in
  let (m, outer_hash) := alloc m 32 in
  let* m := sha256 m outer_hash outer_computation 96 in
  let* m := memcpy_int m tag outer_hash tagLength in
  Ret (drop_last (drop_last (drop_last (drop_last m)))).

(** The comparison loop of hmac_tag_validation, hmac.cpp:95-100. *)
Fixpoint compare_tags (m : mem) (tag newTag : ptr) (n : nat) : res N :=
  match n with
  | O => Ret 1%N
  | S n' =>
      let* a := ld8 m tag in
      let* b := ld8 m newTag in
      if negb (N.eqb a b) then Ret 0%N
      else compare_tags m (padd tag 1) (padd newTag 1) n'
  end.

(** hmac_tag_validation, hmac.cpp:87-101.  The VLA newTag has indeterminate
    contents; a negative size is undefined, size 0 is the GNU extension. *)
Definition hmac_tag_validation (cs : hmac_state) (m : mem) (tag message : ptr)
    (dataLength : N) (tagLength : Z) : res N :=
  if (tagLength <? 0)%Z then UB else
  let (m, newTag) := alloc m (Z.to_nat tagLength) in
  let* m := hmac_tag_generation cs m newTag message dataLength tagLength in
  compare_tags m tag newTag (Z.to_nat tagLength).

End WithHash.
