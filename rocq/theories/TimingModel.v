(** The tag comparison of Authentication/HMAC-SHA-256/hmac.cpp with the time it
    takes: the functions of HmacModel, which also count the iterations of the
    comparison loop.  What else the function does takes time that does not depend
    on the tag it is given, and is not counted. *)
From Coq Require Import NArith ZArith List.
From Verif Require Import Res Mem HmacModel.
Import ListNotations.

(** The loop of hmac_tag_validation, hmac.cpp:95-98: the answer and the number of
    comparisons made, [steps] before. *)
Fixpoint compare_tags_timed (m : mem) (tag newTag : ptr) (n : nat) (steps : nat) : res (N * nat) :=
  match n with
  | O => Ret (1%N, steps)
  | S n' =>
      let* a := ld8 m tag in
      let* b := ld8 m newTag in
      if negb (N.eqb a b) then Ret (0%N, S steps)
      else compare_tags_timed m (padd tag 1) (padd newTag 1) n' (S steps)
  end.

(** hmac_tag_validation, hmac.cpp:87-101. *)
Definition hmac_tag_validation_timed (sha256 : mem -> ptr -> ptr -> N -> res mem) (cs : hmac_state) (m : mem)
    (tag message : ptr) (dataLength : N) (tagLength : Z) : res (N * nat) :=
  if (tagLength <? 0)%Z then UB else
  let (m, newTag) := alloc m (Z.to_nat tagLength) in
  let* m := hmac_tag_generation sha256 cs m newTag message dataLength tagLength in
  compare_tags_timed m tag newTag (Z.to_nat tagLength) 0.
