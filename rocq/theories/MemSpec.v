(** Vocabulary for stating what a call does to memory. *)
From Coq Require Import NArith List Arith.
From Verif Require Import Mem.
Import ListNotations.

(** The bytes [l] are stored at [p], all of them initialised and in bounds. *)
Definition has_bytes (m : mem) (p : ptr) (l : list N) : Prop :=
  Forall (fun x => (x < 256)%N) l /\
  exists b, nth_error m (pblk p) = Some b /\
            poff p + length l <= length b /\
            firstn (length l) (skipn (poff p) b) = map Some l.

(** The [n] bytes at [p] lie inside their block (they may be indeterminate). *)
Definition writable (m : mem) (p : ptr) (n : nat) : Prop :=
  exists b, nth_error m (pblk p) = Some b /\ poff p + n <= length b.

(** The memory [m] with the bytes at [p] replaced by [l], nothing else. *)
Definition write_at (m : mem) (p : ptr) (l : list N) : mem :=
  match nth_error m (pblk p) with
  | None => m
  | Some b => upd (pblk p)
                (firstn (poff p) b ++ map Some l ++ skipn (poff p + length l) b) m
  end.

(** The ranges [p, p+np) and [q, q+nq) share no byte. *)
Definition disjoint (p : ptr) (np : nat) (q : ptr) (nq : nat) : Prop :=
  pblk p <> pblk q \/ poff p + np <= poff q \/ poff q + nq <= poff p.

(** Output and input ranges of [n] bytes are identical or disjoint. *)
Definition same_or_disjoint (out inp : ptr) (n : nat) : Prop :=
  out = inp \/ disjoint out n inp n.
