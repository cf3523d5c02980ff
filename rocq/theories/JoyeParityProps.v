(** Property C118: what can be seen of the parity of a Joye-Libert message. *)
From Coq Require Import ZArith Znumtheory List Bool Lia.
From Verif Require Import Res Mem ListLemmas Gmp JoyeModel NumTheory JoyeSpec JoyeMath JoyeProofs JoyeProps.
Import ListNotations.
Local Open Scope Z_scope.

(** [c] is a square modulo [p]. *)
Definition square (c p : Z) : Prop := exists z, (z * z) mod p = c mod p.

(** The Legendre symbol of [a] modulo an odd prime [p], and the Jacobi symbol
    modulo the product of two. *)
Inductive legendre (a p : Z) : Z -> Prop :=
| Divisible : (p | a) -> legendre a p 0
| Residue : ~ (p | a) -> square a p -> legendre a p 1
| Nonresidue : ~ (p | a) -> ~ square a p -> legendre a p (-1).
Definition jacobi (a p q j : Z) : Prop := exists u v, legendre a p u /\ legendre a q v /\ j = u * v.

(** 1 for even numbers, -1 for odd ones. *)
Definition sign (m : Z) : Z := if Z.even m then 1 else -1.

Lemma unit_inverse p w : prime p -> ~ (p | w) -> exists i, cong p (w * i) 1.
Proof.
  intros Pp U. assert (R : rel_prime w p) by (apply rel_prime_sym, prime_rel_prime; assumption).
  destruct (rel_prime_bezout _ _ R) as [u v E]. exists u. apply cong_divide; [pose proof (prime_ge_2 p Pp); lia|].
  exists (- v). lia.
Qed.

Lemma square_twist p y w : prime p -> nonresidue y p -> ~ (p | w) -> ~ square (y * (w * w)) p.
Proof.
  intros Pp Ny U (z & E). destruct (unit_inverse p w Pp U) as (i & I). apply (Ny (z * i)).
  assert (B : cong p (z * z) (y * (w * w))) by (constructor; exact E). apply cong_eq.
  replace (z * i * (z * i)) with (z * z * (i * i)) by ring. rewrite B.
  replace (y * (w * w) * (i * i)) with (y * (w * i) * (w * i)) by ring. rewrite I. replace (y * 1 * 1) with y by ring. reflexivity.
Qed.

(** With k at least 1: y^m x^(2^k) is a square modulo p exactly if m is even. *)
Lemma encryption_square k p y m x : prime p -> nonresidue y p -> 0 <= m -> ~ (p | x) ->
  square (y ^ m * x ^ 2 ^ Z.of_nat (S k)) p <-> Z.Even m.
Proof.
  intros Pp Ny Hm U. pose proof (pow2_pos k) as K. rewrite pow2_S.
  replace (x ^ (2 * 2 ^ Z.of_nat k)) with (x ^ 2 ^ Z.of_nat k * x ^ 2 ^ Z.of_nat k)
    by (rewrite <- Z.pow_add_r by lia; f_equal; lia).
  set (r := x ^ 2 ^ Z.of_nat k). assert (Ur : ~ (p | r)) by (apply not_divide_pow; [exact Pp|lia|exact U]).
  destruct (Z.Even_or_Odd m) as [(j & ->)|(j & ->)].
  - split; [intros _; exists j; reflexivity|]. intros _. exists (y ^ j * r). f_equal.
    replace (2 * j) with (j + j) by lia. rewrite Z.pow_add_r by lia. ring.
  - split; [|intros (j' & E); lia]. intros S. exfalso. revert S.
    replace (y ^ (2 * j + 1) * (r * r)) with (y * ((y ^ j * r) * (y ^ j * r))).
    + apply square_twist; [exact Pp|exact Ny|]. apply not_divide_mul; [exact Pp| |exact Ur].
      apply not_divide_pow; [exact Pp|lia|]. apply nonresidue_divide. exact Ny.
    + replace (2 * j + 1) with (j + j + 1) by lia. rewrite !Z.pow_add_r by lia. ring.
Qed.

Lemma square_mod c p q : 0 < p -> 0 < q -> square (c mod (p * q)) p <-> square c p.
Proof.
  intros Hp Hq. unfold square. assert (E : (c mod (p * q)) mod p = c mod p) by (apply cong_eq, cong_mod_mult; lia). rewrite E. reflexivity.
Qed.
Lemma square_mod_r c p q : 0 < p -> 0 < q -> square (c mod (p * q)) q <-> square c q.
Proof. intros Hp Hq. rewrite Z.mul_comm. apply square_mod; assumption. Qed.

Lemma encryption_unit k p y m x : prime p -> nonresidue y p -> 0 <= m -> ~ (p | x) -> ~ (p | y ^ m * x ^ 2 ^ Z.of_nat k).
Proof.
  intros Pp Ny Hm U. pose proof (pow2_pos k) as K. apply not_divide_mul; [exact Pp| |].
  - apply not_divide_pow; [exact Pp|exact Hm|]. apply nonresidue_divide. exact Ny.
  - apply not_divide_pow; [exact Pp|lia|exact U].
Qed.

Lemma symbol p c m : ~ (p | c) -> (square c p <-> Z.Even m) -> legendre c p (sign m).
Proof.
  intros U S. unfold sign. destruct (Z.even m) eqn:E.
  - apply Residue; [exact U|]. apply S, Z.even_spec, E.
  - apply Nonresidue; [exact U|]. rewrite S, <- Z.even_spec, E. discriminate.
Qed.
Lemma sign_square m : 1 = sign m * sign m.
Proof. unfold sign. destruct (Z.even m); reflexivity. Qed.

(** A ciphertext is a square modulo p exactly if it is one modulo q, namely if
    the message is even: its Jacobi symbol modulo N, which anyone can compute, is
    the product of the two and always 1.  Who has one of the primes reads the
    lowest bit off. *)
Theorem C118_joye_libert_parity : forall fuel s c g m y N k P Q Y n,
  valid_key (S k) P Q Y -> zget s y = Y -> zget s N = P * Q -> (c < length s)%nat -> c <> N ->
  draw g (P * Q) n -> (n < fuel)%nat -> ~ (P | g n) -> ~ (Q | g n) -> 0 <= zget s m ->
  exists C, joye_libert_encrypt (S fuel) s c g m y N (S k) = Ret (zset s c C, Nat.iter (S n) rng_tail g) /\
    legendre C P (sign (zget s m)) /\ legendre C Q (sign (zget s m)) /\ jacobi C P Q 1.
Proof.
  intros fuel s c g m y N k P Q Y n V Ey EN Lc Nc Dr Ln UP UQ Hm.
  pose proof (key_p2 _ _ _ _ V) as P2. pose proof (key_q2 _ _ _ _ V) as Q2.
  assert (CP : cong P (g n mod (P * Q)) (g n)) by (apply cong_mod_mult; lia).
  assert (CQ : cong Q (g n mod (P * Q)) (g n)) by (rewrite Z.mul_comm; apply cong_mod_mult; lia).
  assert (UP' : ~ (P | g n mod (P * Q))) by (apply (not_divide_cong P (g n)); [lia|symmetry; exact CP|exact UP]).
  assert (UQ' : ~ (Q | g n mod (P * Q))) by (apply (not_divide_cong Q (g n)); [lia|symmetry; exact CQ|exact UQ]).
  destruct (C59_joye_libert_round_trip fuel s c g m y N (S k) P Q Y n V Ey EN Lc Nc Dr Ln UP') as (C & E & _ & EC & _).
  exists C. split; [exact E|]. rewrite (EC Hm). unfold encryption. set (e := Y ^ zget s m * _).
  assert (A : legendre (e mod (P * Q)) P (sign (zget s m))).
  { apply symbol.
    - apply (not_divide_cong P e); [lia|symmetry; apply cong_mod_mult; lia|].
      apply encryption_unit; [exact (key_p _ _ _ _ V)|exact (key_yp _ _ _ _ V)|exact Hm|exact UP'].
    - rewrite square_mod by lia. apply encryption_square; [exact (key_p _ _ _ _ V)|exact (key_yp _ _ _ _ V)|exact Hm|exact UP']. }
  assert (B : legendre (e mod (P * Q)) Q (sign (zget s m))).
  { apply symbol.
    - apply (not_divide_cong Q e); [lia|symmetry; rewrite Z.mul_comm; apply cong_mod_mult; lia|].
      apply encryption_unit; [exact (key_q _ _ _ _ V)|exact (key_yq _ _ _ _ V)|exact Hm|exact UQ'].
    - rewrite square_mod_r by lia. apply encryption_square; [exact (key_q _ _ _ _ V)|exact (key_yq _ _ _ _ V)|exact Hm|exact UQ']. }
  split; [exact A|]. split; [exact B|]. exists (sign (zget s m)), (sign (zget s m)). split; [exact A|]. split; [exact B|apply sign_square].
Qed.
Print Assumptions C118_joye_libert_parity.

(** The same for the keys joye_libert_keygen makes. *)
Theorem C118_joye_libert_generated_key_parity : forall G fuel s N y p k keysize s' fuel' g n m c,
  sound G -> (N < length s)%nat -> (y < length s)%nat -> (p < length s)%nat -> N <> y -> N <> p -> y <> p ->
  joye_libert_keygen G fuel s N y p (S k) keysize = Ret s' ->
  (c < length s)%nat -> c <> N -> draw g (zget s' N) n -> (n < fuel')%nat -> rel_prime (g n) (zget s' N) -> 0 <= zget s' m ->
  exists C Q, zget s' N = zget s' p * Q /\
    joye_libert_encrypt (S fuel') s' c g m y N (S k) = Ret (zset s' c C, Nat.iter (S n) rng_tail g) /\
    legendre C (zget s' p) (sign (zget s' m)) /\ legendre C Q (sign (zget s' m)) /\ jacobi C (zget s' p) Q 1.
Proof.
  intros G fuel s N y p k keysize s' fuel' g n m c S LN Ly Lp Ny Np Yp E Lc cN Dr Ln U Hm.
  destruct (C62_joye_libert_keygen_valid G fuel s N y p (Datatypes.S k) keysize s' S LN Ly Lp Ny Np Yp E) as (P & Q & Y & -> & V & _).
  set (s1 := zset (zset (zset s p P) N (P * Q)) y Y) in *.
  assert (L1 : length s1 = length s) by (unfold s1; rewrite !zset_length; reflexivity).
  assert (Ey : zget s1 y = Y) by (unfold s1; apply zget_same; rewrite !zset_length; exact Ly).
  assert (EN : zget s1 N = P * Q) by (unfold s1; rewrite zget_other by congruence; apply zget_same; rewrite zset_length; exact LN).
  assert (Ep : zget s1 p = P) by (unfold s1; rewrite !zget_other by congruence; apply zget_same; exact Lp).
  rewrite EN in *. rewrite Ep.
  assert (D : forall r, 2 < r -> (r | P * Q) -> ~ (r | g n)).
  { intros r R Dr1 Dr2. destruct U as [_ _ U]. specialize (U r Dr2 Dr1). apply Z.divide_1_r in U. lia. }
  destruct (C118_joye_libert_parity fuel' s1 c g m y N k P Q Y n V Ey EN ltac:(rewrite L1; exact Lc) cN Dr Ln
    (D P (key_p2 _ _ _ _ V) (Z.divide_factor_l P Q)) (D Q (key_q2 _ _ _ _ V) (Z.divide_factor_r Q P)) Hm) as (C & EC & A).
  exists C, Q. split; [reflexivity|]. split; [exact EC|exact A].
Qed.
Print Assumptions C118_joye_libert_generated_key_parity.

(** The key p = 41, q = 7, y = 3 and the number 5: the ciphertext 207 of 6 is 17
    squared modulo 41 and 2 squared modulo 7; that of 5 is a square modulo neither. *)
Example C118_instance : valid_key 3 41 7 3 /\ draw (fun _ => 5) (41 * 7) 0 /\ ~ (41 | 5) /\ ~ (7 | 5) /\
  joye_libert_encrypt 2 [0; 6; 3; 287] 0 (fun _ => 5) 1 2 3 3 = Ret ([207; 6; 3; 287], rng_tail (fun _ => 5)) /\
  square 207 41 /\ square 207 7 /\
  exists C, joye_libert_encrypt 2 [0; 5; 3; 287] 0 (fun _ => 5) 1 2 3 3 = Ret ([C; 5; 3; 287], rng_tail (fun _ => 5)) /\
    nonresidue C 41 /\ nonresidue C 7.
Proof.
  split; [exact small_key|]. split; [split; [intros i Hi; lia|discriminate]|].
  split; [intros D; apply Z.mod_divide in D; [discriminate D|discriminate]|].
  split; [intros D; apply Z.mod_divide in D; [discriminate D|discriminate]|]. split; [vm_compute; reflexivity|].
  split; [exists 17; vm_compute; reflexivity|]. split; [exists 2; vm_compute; reflexivity|].
  eexists. split; [vm_compute; reflexivity|]. split; apply is_nonresidue_sound; vm_compute; reflexivity.
Qed.
