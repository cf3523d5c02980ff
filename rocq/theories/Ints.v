(** Signed 32-bit [int] arithmetic: overflow is undefined behaviour. *)
From Coq Require Import ZArith Bool.
From Verif Require Import Res.
Local Open Scope Z_scope.

Definition int_max : Z := 2147483647.
Definition int_min : Z := -2147483648.

Definition int_ret (z : Z) : res Z :=
  if (int_min <=? z) && (z <=? int_max) then Ret z else UB.

(** Implementation-defined narrowing conversion to [int] (two's complement). *)
Definition to_int (z : Z) : Z :=
  let r := z mod 4294967296 in if r <? 2147483648 then r else r - 4294967296.

Lemma to_int_id z : 0 <= z <= int_max -> to_int z = z.
Proof.
  intros [H1 H2]. unfold to_int, int_max in *. rewrite Z.mod_small.
  - destruct (Z.ltb_spec z 2147483648); [reflexivity|].
    exfalso. apply (Z.lt_irrefl z). eapply Z.le_lt_trans; [exact H2|]. eapply Z.lt_le_trans; [|eassumption]. reflexivity.
  - split; auto. eapply Z.le_lt_trans; [exact H2|]. reflexivity.
Qed.
