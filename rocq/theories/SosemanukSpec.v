(** Sosemanuk as in the eSTREAM specification (Berbain et al., 2005), section 2.
    Nothing here mentions the model. *)
From Coq Require Import NArith ZArith Arith List.
From Verif Require Import SpecWords SerpentSpec.
Import ListNotations.
Local Open Scope N_scope.

(** *** The field GF(2^8) = GF(2)[beta]/(X^8 + X^7 + X^5 + X^3 + 1) *)
Definition times_beta (x : N) : N :=
  let y := 2 * x in if y <? 256 then y else N.lxor y 0x1A9.
Fixpoint gf_mul_aux (n : nat) (x y : N) : N :=
  match n with
  | O => 0
  | S n' => N.lxor (if N.odd y then x else 0) (gf_mul_aux n' (times_beta x) (y / 2))
  end.
Definition gf_mul (x y : N) : N := gf_mul_aux 8 x y.
Definition beta_pow (n : nat) : N := Nat.iter n times_beta 1.

(** *** GF(2^32): words are polynomials in alpha of degree at most 3 over
    GF(2^8), least significant byte first, and
    alpha^4 = beta^23 alpha^3 + beta^245 alpha^2 + beta^48 alpha + beta^239. *)
Definition coeffs (w : N) : list N := le_str 4 w.
Definition alpha_mul (w : N) : N :=
  match coeffs w with
  | [c0; c1; c2; c3] =>
      le_num [gf_mul c3 (beta_pow 239); N.lxor c0 (gf_mul c3 (beta_pow 48));
              N.lxor c1 (gf_mul c3 (beta_pow 245)); N.lxor c2 (gf_mul c3 (beta_pow 23))]
  | _ => 0
  end.
(** Division by alpha:
    alpha^-1 = beta^16 alpha^3 + beta^39 alpha^2 + beta^6 alpha + beta^64. *)
Definition alpha_div (w : N) : N :=
  match coeffs w with
  | [c0; c1; c2; c3] =>
      le_num [N.lxor c1 (gf_mul c0 (beta_pow 64)); N.lxor c2 (gf_mul c0 (beta_pow 6));
              N.lxor c3 (gf_mul c0 (beta_pow 39)); gf_mul c0 (beta_pow 16)]
  | _ => 0
  end.

(** *** State before the step at time t: [lfsr] = s_t, ..., s_(t+9) *)
Record state := St { lfsr : list N; fsm1 : N; fsm2 : N }.

Definition trans (z : N) : N := rol_w32 7 ((0x54655307 * z) mod 2^32).
Definition mux (c x y : N) : N := if N.odd c then y else x.

(** s_(t+10) = s_(t+9) + alpha^-1 s_(t+3) + alpha s_t, for the window that
    starts at s_t. *)
Definition feedback (l : list N) : N :=
  N.lxor (nth 9 l 0) (N.lxor (alpha_div (nth 3 l 0)) (alpha_mul (nth 0 l 0))).
Definition lfsr_next (l : list N) : list N := tl l ++ [feedback l].

(** The step at time t: the FSM is updated from s_(t+1), s_(t+8), s_(t+9); then
    f_t is output, s_t is dropped and the LFSR is clocked.  [which] selects the
    words of the multiplexer and the value [Trans] is applied to, so that the
    code's variation can be expressed. *)
Definition step (which : bool) (q : state) : N * N * state :=
  let l := lfsr q in
  let w i := nth i l 0 in
  let r1 := add_w32 (fsm2 q)
     (mux (fsm1 q) (w 1%nat) (if which then N.lxor (w 1%nat) (w 8%nat) else N.lxor (w 8%nat) (w 9%nat))) in
  let r2 := trans (if which then fsm1 q else r1) in
  (N.lxor (add_w32 (w 9%nat) r1) r2, w 0%nat, St (lfsr_next l) r1 r2).

(** Four steps give four words of key stream: Serpent1 is S-box 2. *)
Definition quad (which : bool) (q : state) : list N * state :=
  let '(f0, s0, q) := step which q in
  let '(f1, s1, q) := step which q in
  let '(f2, s2, q) := step which q in
  let '(f3, s3, q) := step which q in
  (xor_words (S_words 2 [f0; f1; f2; f3]) [s0; s1; s2; s3], q).

Fixpoint quads (which : bool) (n : nat) (q : state) : list N * state :=
  match n with
  | O => ([], q)
  | S n' => let (a, q) := quad which q in let (b, q) := quads which n' q in (a ++ b, q)
  end.

(** IV injection, from the Serpent subkeys. *)
Definition init (ks : list (list N)) (iv : list N) : state :=
  match serpent24 ks (block_words iv) with
  | [[a0; a1; a2; a3]; [b0; b1; b2; b3]; [c0; c1; c2; c3]] =>
      St [c3; c2; c1; c0; b1; b3; a3; a2; a1; a0] b0 b2
  | _ => St [] 0 0
  end.

(** Key stream of n blocks of 16 bytes. *)
Definition keystream (k iv : list N) (n : nat) : list N :=
  flat_map (le_str 4) (fst (quads true n (init (subkey_list k) iv))).

(** Test vectors of the specification (first 32 bytes). *)
Example test_vector_1 :
  be_num (keystream (be_str 5 0xa7c083feb7) (be_str 16 0x00112233445566778899aabbccddeeff) 2) =
  0xfe81d2162c9a100d04895c454a77515bbe6a431a935cb90e2221ebb7ef502328.
Proof. vm_compute. reflexivity. Qed.
Example test_vector_2 :
  be_num (keystream (be_str 16 0x00112233445566778899aabbccddeeff) (be_str 16 0x8899aabbccddeeff0011223344556677) 2) =
  0xfa61dbeb71178131a77c714bd2eabf4e1394207a25698aa1308f2f063a0f7606.
Proof. vm_compute. reflexivity. Qed.
