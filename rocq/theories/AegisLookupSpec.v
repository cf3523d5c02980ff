(** Which entries of the AES tables a table-driven AEGIS-128 reads while it
    takes in key and IV, in terms of the specification of AEGIS-128 only. *)
From Coq Require Import NArith List.
From Verif Require Import SpecWords AesSpec AegisSpec AesLookupSpec.
Import ListNotations.
Local Open Scope N_scope.

(** StateUpdate128 computes the new registers 0 to 4 in this order, register i
    by an AES round on the old register before it. *)
Definition update_lookups (S : state) : list lookup :=
  round_lookups (S4 S) ++ round_lookups (S0 S) ++ round_lookups (S1 S) ++ round_lookups (S2 S) ++ round_lookups (S3 S).
(** A sequence of updates with the blocks [ms]. *)
Fixpoint updates_lookups (ms : list (list N)) (S : state) : list lookup :=
  match ms with
  | [] => []
  | m :: ms => update_lookups S ++ updates_lookups ms (update S m)
  end.
(** Initialization: ten updates, with the key and with key xor IV by turns. *)
Definition initialize_lookups (K IV : list N) : list lookup :=
  updates_lookups (concat (repeat [K; xor_bytes K IV] 5)) (initial K IV).
