(** HC-128 as in H. Wu, "The Stream Cipher HC-128" (eSTREAM portfolio). *)
From Coq Require Import NArith Arith List.
From Verif Require Import SpecWords.
Import ListNotations.
Local Open Scope N_scope.

(** Section 2.1: "x << n" and ">>> n", "<<< n". *)
Definition f1 (x : N) : N := N.lxor (N.lxor (ror_w32 7 x) (ror_w32 18 x)) (x / 2^3).
Definition f2 (x : N) : N := N.lxor (N.lxor (ror_w32 17 x) (ror_w32 19 x)) (x / 2^10).
Definition g1 (x y z : N) : N := add_w32 (N.lxor (ror_w32 10 x) (ror_w32 23 z)) (ror_w32 8 y).
Definition g2 (x y z : N) : N := add_w32 (N.lxor (rol_w32 10 x) (rol_w32 23 z)) (rol_w32 8 y).

(** Table element [i]. *)
Definition at_ (t : list N) (i : nat) : N := nth i t 0.
(** j (-) k: subtraction modulo 512. *)
Definition minus512 (j k : nat) : nat := ((j + 512 - k) mod 512)%nat.
Definition put (t : list N) (i : nat) (x : N) : list N := firstn i t ++ [x] ++ skipn (S i) t.

(** h1 uses Q, h2 uses P; x0 is the lowest byte of x and x2 the third. *)
Definition h (t : list N) (x : N) : N :=
  let x0 := N.to_nat (x mod 256) in
  let x2 := N.to_nat ((x / 2^16) mod 256) in
  add_w32 (at_ t x0) (at_ t (256 + x2)).

(** Section 2.2, step 1: W from key and IV. *)
Definition w_init (key iv : list N) : list N :=
  let K := map le_num (chunks 4 key) in
  let V := map le_num (chunks 4 iv) in K ++ K ++ V ++ V.
Definition w_next (W : list N) : N :=
  let i := length W in
  let w k := at_ W (i - k) in
  add_w32 (add_w32 (add_w32 (add_w32 (f2 (w 2%nat)) (w 7%nat)) (f1 (w 15%nat))) (w 16%nat)) (N.of_nat i).
Fixpoint w_expand (n : nat) (W : list N) : list N :=
  match n with O => W | S n' => w_expand n' (W ++ [w_next W]) end.

(** One table update: [t] is the table stepped, at position [j]. *)
Definition step_val (g : N -> N -> N -> N) (t : list N) (j : nat) : N :=
  add_w32 (at_ t j) (g (at_ t (minus512 j 3)) (at_ t (minus512 j 10)) (at_ t (minus512 j 511))).

(** Step 3 of the initialisation: 512 steps on one table [t], the other being [o]. *)
Fixpoint warm_up (g : N -> N -> N -> N) (o : list N) (n j : nat) (t : list N) : list N :=
  match n with
  | O => t
  | S n' => warm_up g o n' (S j)
              (put t j (N.lxor (step_val g t j) (h o (at_ t (minus512 j 12)))))
  end.

Definition tables : Type := list N * list N.

Definition hc_init (key iv : list N) : tables :=
  let W := w_expand (1280 - 16) (w_init key iv) in
  let P := firstn 512 (skipn 256 W) in
  let Q := firstn 512 (skipn 768 W) in
  let P := warm_up g1 Q 512 0 P in
  let Q := warm_up g2 P 512 0 Q in
  (P, Q).

(** Section 2.3: step [i] of the key stream generation. *)
Definition hc_step (i : nat) (s : tables) : N * tables :=
  let '(P, Q) := s in
  let j := (i mod 512)%nat in
  if (i mod 1024 <? 512)%nat then
    let P := put P j (step_val g1 P j) in
    (N.lxor (h Q (at_ P (minus512 j 12))) (at_ P j), (P, Q))
  else
    let Q := put Q j (step_val g2 Q j) in
    (N.lxor (h P (at_ Q (minus512 j 12))) (at_ Q j), (P, Q)).

(** [n] key stream words from step [i] on, and the tables afterwards. *)
Fixpoint hc_words (i n : nat) (s : tables) : list N * tables :=
  match n with
  | O => ([], s)
  | S n' => let (w, s) := hc_step i s in
            let (ws, s) := hc_words (S i) n' s in (w :: ws, s)
  end.

(** The first [n] words as bytes. *)
Definition hc_stream (key iv : list N) (n : nat) : list N :=
  flat_map (le_str 4) (fst (hc_words 0 n (hc_init key iv))).

Definition hc_encrypt (key iv data : list N) : list N :=
  xor_bytes data (hc_stream key iv (length data / 4 + 1)).

(** *** Test vectors of the HC-128 paper (appendix): first 16 words for the zero
    key and IV, and the first words for IV[0] = 1 and for key[0] = 0x55. *)
Definition zeros16 : list N := repeat 0 16.
Example hc_vector1 : fst (hc_words 0 16 (hc_init zeros16 zeros16)) =
  [0x73150082; 0x3bfd03a0; 0xfb2fd77f; 0xaa63af0e; 0xde122fc6; 0xa7dc29b6; 0x62a68527; 0x8b75ec68;
   0x9036db1e; 0x81896005; 0x00ade078; 0x491fbf9a; 0x1cdc3013; 0x6c3d6e24; 0x90f664b2; 0x9cd57102].
Proof. vm_compute. reflexivity. Qed.
