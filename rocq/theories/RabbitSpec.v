(** Rabbit as in RFC 4503.  Key, IV and output block are numbers K, IV, S; the
    correspondence with byte strings is little-endian, as in the eSTREAM
    reference implementation (RFC 4503 prints its vectors most significant byte
    first). *)
From Coq Require Import NArith Arith List.
From Verif Require Import SpecWords.
Import ListNotations.
Local Open Scope N_scope.

(** [n] bits of [x] from bit [i] on, and the concatenation of two 16-bit values. *)
Definition bits (x i n : N) : N := (x / 2^i) mod 2^n.
Definition cat16 (hi lo : N) : N := hi * 2^16 + lo.

(** Section 2.2: state variables, counters and the carry bit. *)
Record rstate := RState { sX : list N; sC : list N; sb : N }.
Definition at8 (l : list N) (i : nat) : N := nth (i mod 8) l 0.

(** Section 2.5, counter system. *)
Definition A_const : list N :=
  [0x4D34D34D; 0xD34D34D3; 0x34D34D34; 0x4D34D34D; 0xD34D34D3; 0x34D34D34; 0x4D34D34D; 0xD34D34D3].

(** The sums C_j + A_j + b, each b being the carry of the sum before. *)
Fixpoint sums (C A : list N) (b : N) : list N :=
  match C, A with
  | c :: C, a :: A => let t := c + a + b in t :: sums C A (t / 2^32)
  | _, _ => []
  end.
Definition counter (s : rstate) : rstate :=
  let t := sums (sC s) A_const (sb s) in
  RState (sX s) (map (fun x => x mod 2^32) t) (last t 0 / 2^32).

(** Section 2.6, next-state function. *)
Definition square (u v : N) : N := let x := (u + v) mod 2^32 in x * x.
Definition gfun (u v : N) : N := N.lxor (bits (square u v) 0 32) (bits (square u v) 32 32).
Definition next_state (s : rstate) : rstate :=
  let G j := gfun (at8 (sX s) j) (at8 (sC s) j) in
  let even j := add_w32 (add_w32 (G j) (rol_w32 16 (G (j + 7)%nat))) (rol_w32 16 (G (j + 6)%nat)) in
  let odd j := add_w32 (add_w32 (G j) (rol_w32 8 (G (j + 7)%nat))) (G (j + 6)%nat) in
  RState (map (fun j => if Nat.even j then even j else odd j) (seq 0 8)) (sC s) (sb s).

Definition iterate (s : rstate) : rstate := next_state (counter s).
Fixpoint iterates (n : nat) (s : rstate) : rstate :=
  match n with O => s | S n' => iterates n' (iterate s) end.

(** Section 2.3, key setup. *)
Definition subkey (K : N) (j : nat) : N := bits K (16 * N.of_nat (j mod 8)) 16.
Definition key_words (K : N) : rstate :=
  let k := subkey K in
  RState
    (map (fun j => if Nat.even j then cat16 (k (j + 1)%nat) (k j) else cat16 (k (j + 5)%nat) (k (j + 4)%nat)) (seq 0 8))
    (map (fun j => if Nat.even j then cat16 (k (j + 4)%nat) (k (j + 5)%nat) else cat16 (k j) (k (j + 1)%nat)) (seq 0 8))
    0.
Definition reinit (s : rstate) : rstate :=
  RState (sX s) (map (fun j => N.lxor (at8 (sC s) j) (at8 (sX s) (j + 4))) (seq 0 8)) (sb s).
Definition key_setup (K : N) : rstate := reinit (iterates 4 (key_words K)).

(** Section 2.4, IV setup, applied to the master state. *)
Definition iv_words (IV : N) : list N :=
  let q := [bits IV 0 32; cat16 (bits IV 48 16) (bits IV 16 16);
            bits IV 32 32; cat16 (bits IV 32 16) (bits IV 0 16)] in q ++ q.
Definition iv_mix (IV : N) (s : rstate) : rstate :=
  RState (sX s) (map (fun j => N.lxor (at8 (sC s) j) (at8 (iv_words IV) j)) (seq 0 8)) (sb s).
Definition iv_setup (IV : N) (s : rstate) : rstate := iterates 4 (iv_mix IV s).

(** Section 2.7, extraction of the 128-bit block S. *)
Definition extract (s : rstate) : N :=
  let lo j := bits (at8 (sX s) j) 0 16 in
  let hi j := bits (at8 (sX s) j) 16 16 in
  let half j := if Nat.even j then N.lxor (lo j) (hi (j + 5)%nat)
                else N.lxor (hi (j - 1)%nat) (lo (j + 2)%nat) in
  fold_right (fun j acc => half j + 2^16 * acc) 0 (seq 0 8).

(** Key stream of [n] blocks as bytes. *)
Fixpoint stream (n : nat) (s : rstate) : list N :=
  match n with
  | O => []
  | S n' => let s := iterate s in le_str 16 (extract s) ++ stream n' s
  end.

Definition rabbit_encrypt (key iv data : list N) : list N :=
  xor_bytes data (stream (length data / 16 + 1) (iv_setup (le_num iv) (key_setup (le_num key)))).
Definition rabbit_encrypt_no_iv (key data : list N) : list N :=
  xor_bytes data (stream (length data / 16 + 1) (key_setup (le_num key))).

(** "No counter sum is exactly 2^32" in the next [n] iterations from [s]. *)
Fixpoint clean (n : nat) (s : rstate) : Prop :=
  match n with
  | O => True
  | S n' => ~ In (2^32) (sums (sC s) A_const (sb s)) /\ clean n' (iterate s)
  end.

(** *** Test vectors of RFC 4503, appendix A (bytes reversed in blocks of 16) *)
Example rfc_key0 : map (fun i => rev (firstn 16 (skipn (16 * i) (stream 3 (key_setup 0))))) [0; 1; 2]%nat =
  [[0xB1; 0x57; 0x54; 0xF0; 0x36; 0xA5; 0xD6; 0xEC; 0xF5; 0x6B; 0x45; 0x26; 0x1C; 0x4A; 0xF7; 0x02];
   [0x88; 0xE8; 0xD8; 0x15; 0xC5; 0x9C; 0x0C; 0x39; 0x7B; 0x69; 0x6C; 0x47; 0x89; 0xC6; 0x8A; 0xA7];
   [0xF4; 0x16; 0xA1; 0xC3; 0x70; 0x0C; 0xD4; 0x51; 0xDA; 0x68; 0xD1; 0x88; 0x16; 0x73; 0xD6; 0x96]].
Proof. vm_compute. reflexivity. Qed.
Example rfc_key1 : rev (stream 1 (key_setup 0x912813292E3D36FE3BFC62F1DC51C3AC)) =
  [0x3D; 0x2D; 0xF3; 0xC8; 0x3E; 0xF6; 0x27; 0xA1; 0xE9; 0x7F; 0xC3; 0x84; 0x87; 0xE2; 0x51; 0x9C].
Proof. vm_compute. reflexivity. Qed.
Example rfc_iv0 : rev (stream 1 (iv_setup 0 (key_setup 0))) =
  [0xC6; 0xA7; 0x27; 0x5E; 0xF8; 0x54; 0x95; 0xD8; 0x7C; 0xCD; 0x5D; 0x37; 0x67; 0x05; 0xB7; 0xED].
Proof. vm_compute. reflexivity. Qed.
