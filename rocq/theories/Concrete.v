(** Tactics that check concrete memory hypotheses by computation. *)
From Coq Require Import NArith List Lia.
From Verif Require Import Mem MemSpec.
Import ListNotations.

Ltac conc_has_bytes :=
  split; [repeat (constructor; [reflexivity|]); constructor
         |eexists; split; [reflexivity|split; [cbn; lia|reflexivity]]].
Ltac conc_writable := eexists; split; [reflexivity|cbn; lia].
Ltac conc_disjoint := unfold disjoint; cbn; lia.

(** [n] indeterminate bytes. *)
Definition fresh (n : nat) : list (option N) := repeat None n.
(** A block holding the given bytes. *)
Definition holding (l : list N) : list (option N) := map Some l.
