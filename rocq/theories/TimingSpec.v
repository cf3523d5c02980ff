(** What an observer can do who sees the answers of a tag check and how long
    each took.  Independent of the model. *)
From Coq Require Import Arith NArith List Bool.
Import ListNotations.

(** The number of leading bytes two tags share. *)
Fixpoint matching (a b : list N) : nat :=
  match a, b with
  | x :: a, y :: b => if N.eqb x y then S (matching a b) else O
  | _, _ => O
  end.

(** A strategy: it names a tag in the end, or asks whether a tag is valid and
    goes on with what it sees, the answer and the time. *)
Inductive strategy :=
| Name (t : list N)
| Ask (t : list N) (next : bool -> nat -> strategy).

(** Playing against a check [o]: the tag named and the number of questions. *)
Fixpoint play (o : list N -> bool * nat) (g : strategy) : list N * nat :=
  match g with
  | Name t => (t, O)
  | Ask t next => let (r, q) := play o (next (fst (o t)) (snd (o t))) in (r, S q)
  end.
