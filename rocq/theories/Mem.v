(** Byte-addressed memory made of bounded blocks.

    A block is a C++ object or array, a list of cells; a cell is [Some b] (a
    byte) or [None] (indeterminate contents).  Pointers are a block number and
    an offset.  All accesses outside a block, and all reads of indeterminate
    cells, are undefined behaviour.  Multi-byte accesses are little-endian. *)
From Coq Require Import NArith List Arith Bool.
From Verif Require Import Res Words.
Import ListNotations.

Notation cell := (option N).
Notation block := (list (option N)).
Notation mem := (list (list (option N))).

Record ptr := Ptr { pblk : nat; poff : nat }.

(** Pointer arithmetic on byte pointers. *)
Definition padd (p : ptr) (n : nat) : ptr := Ptr (pblk p) (poff p + n).

(** Replace the [n]-th element of a list, if there is one. *)
Fixpoint upd {A} (n : nat) (x : A) (l : list A) : list A :=
  match l, n with
  | [], _ => []
  | _ :: t, O => x :: t
  | h :: t, S n' => h :: upd n' x t
  end.

Definition ld8 (m : mem) (p : ptr) : res N :=
  match nth_error m (pblk p) with
  | None => UB
  | Some b =>
      match nth_error b (poff p) with
      | Some (Some x) => Ret x
      | _ => UB
      end
  end.

Definition st8 (m : mem) (p : ptr) (x : N) : res mem :=
  match nth_error m (pblk p) with
  | None => UB
  | Some b =>
      if poff p <? length b
      then Ret (upd (pblk p) (upd (poff p) (Some x) b) m)
      else UB
  end.

Definition ld32 (m : mem) (p : ptr) : res N :=
  let* b0 := ld8 m p in
  let* b1 := ld8 m (padd p 1) in
  let* b2 := ld8 m (padd p 2) in
  let* b3 := ld8 m (padd p 3) in
  Ret (le32_of_bytes b0 b1 b2 b3).

Definition st32 (m : mem) (p : ptr) (w : N) : res mem :=
  let* m := st8 m p (byte_of w 0) in
  let* m := st8 m (padd p 1) (byte_of w 1) in
  let* m := st8 m (padd p 2) (byte_of w 2) in
  st8 m (padd p 3) (byte_of w 3).

(** Read [n] consecutive bytes / write a list of consecutive bytes. *)
Fixpoint ldn (m : mem) (p : ptr) (n : nat) : res (list N) :=
  match n with
  | O => Ret []
  | S n' => let* b := ld8 m p in
            let* t := ldn m (padd p 1) n' in
            Ret (b :: t)
  end.

Fixpoint stn (m : mem) (p : ptr) (l : list N) : res mem :=
  match l with
  | [] => Ret m
  | b :: t => let* m := st8 m p b in stn m (padd p 1) t
  end.

(** Do [n]-byte ranges at [p] and [q] overlap? *)
Definition overlaps (p q : ptr) (n : nat) : bool :=
  (pblk p =? pblk q) && (poff p <? poff q + n) && (poff q <? poff p + n).

(** memcpy: overlapping ranges are undefined behaviour.  Copying cells keeps
    indeterminate bytes indeterminate. *)
Fixpoint ld_cells (m : mem) (p : ptr) (n : nat) : res (list cell) :=
  match n with
  | O => Ret []
  | S n' => match nth_error m (pblk p) with
            | None => UB
            | Some b => match nth_error b (poff p) with
                        | None => UB
                        | Some c => let* t := ld_cells m (padd p 1) n' in
                                    Ret (c :: t)
                        end
            end
  end.

Fixpoint st_cells (m : mem) (p : ptr) (l : list cell) : res mem :=
  match l with
  | [] => Ret m
  | c :: t => match nth_error m (pblk p) with
              | None => UB
              | Some b => if poff p <? length b
                          then st_cells (upd (pblk p) (upd (poff p) c b) m) (padd p 1) t
                          else UB
              end
  end.

Definition memcpy (m : mem) (dst src : ptr) (n : nat) : res mem :=
  if (negb (n =? 0)) && overlaps dst src n then UB
  else let* l := ld_cells m src n in st_cells m dst l.

(** Local (stack or heap) arrays: a fresh block of [n] indeterminate bytes is
    appended to the memory; [drop_last] is its deallocation. *)
Definition alloc (m : mem) (n : nat) : mem * ptr :=
  (m ++ [repeat None n], Ptr (length m) 0).
Definition drop_last (m : mem) : mem := removelast m.

(** The words at [p] as memcpy puts them into a uint32_t
    array (little-endian host). *)
Definition ld_words (m : mem) (p : ptr) (n : nat) : res (list N) :=
  for_n n 0 (fun i l => let* w := ld32 m (padd p (4 * i)) in Ret (l ++ [w])) [].

(** keystream[i] for a local array of words: a read outside the array is
    undefined. *)
Definition ks_word (ks : list N) (i : nat) : res N :=
  match nth_error ks i with Some w => Ret w | None => UB end.
