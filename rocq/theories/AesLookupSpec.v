(** Which entries of its tables a table-driven AES-128 reads, in terms of
    FIPS 197 only.  A round reads one entry for every byte of the state it
    works on, the key expansion one for every byte that goes through SubWord. *)
From Coq Require Import NArith List.
From Verif Require Import SpecWords AesSpec.
Import ListNotations.
Local Open Scope N_scope.

Inductive table := InSbox | InT0 | InT1 | InT2 | InT3.
Definition lookup := (table * N)%type.

(** Somebody who shares the processor's cache with the program sees which group
    of 2^g neighbouring entries is read: 16 words are a line of 64 bytes, g = 4. *)
Definition coarse (g x : N) : N := x / 2^g.
Definition observed (g : N) (tr : list lookup) : list lookup := map (fun '(t, i) => (t, coarse g i)) tr.

(** Key expansion: SubWord of RotWord of the words 3, 7, ... 39. *)
Definition schedule_lookups (key : list N) : list lookup :=
  flat_map (fun i => map (pair InSbox) (rot_word (nth (4 * i - 1) (key_words key) []))) (seq 1 10).

(** The state at the beginning of each of the rounds with keys [ks]. *)
Fixpoint entering (ks : list (list N)) (s : list N) : list (list N) :=
  match ks with
  | [] => []
  | k :: ks => s :: entering ks (aes_round s k)
  end.
(** The bytes are looked up in the order in which ShiftRows arranges them. *)
Definition round_lookups (s : list N) : list lookup :=
  combine (concat (repeat [InT0; InT1; InT2; InT3] 4)) (shift_rows s).
Definition last_lookups (s : list N) : list lookup := map (pair InSbox) (shift_rows s).
Definition cipher_lookups (k0 : list N) (ks : list (list N)) (s : list N) : list lookup :=
  let s := add_round_key s k0 in
  flat_map round_lookups (entering ks s) ++ last_lookups (fold_left aes_round ks s).

Definition aes128_lookups (key block : list N) : list lookup :=
  cipher_lookups (round_key key 0) (map (round_key key) (seq 1 9)) block.
Definition aes128_reduced_lookups (key block : list N) : list lookup :=
  cipher_lookups (round_key key 0) (map (round_key key) (seq 5 5)) block.

(** Counter mode, [n] blocks from counter value [ctr]. *)
Fixpoint ctr_lookups (L : list N -> list lookup) (nonce : list N) (ctr : N) (n : nat) : list lookup :=
  match n with
  | O => []
  | S n' => L (nonce ++ be_str 4 (ctr mod 2^32)) ++ ctr_lookups L nonce (ctr + 1) n'
  end.
