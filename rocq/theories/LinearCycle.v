(** Linear maps on bit vectors (numbers, with exclusive or as addition), their
    powers as polynomials over GF(2) (also numbers), and how long a vector takes
    to come back. *)
From Coq Require Import NArith ZArith Znumtheory List Lia Bool.
From Verif Require Import WordsLemmas NumTheory.
Import ListNotations.
Local Open Scope N_scope.

(** The sum of the entries of [T] that the bits of [a] select. *)
Fixpoint comb (a : N) (T : list N) : N :=
  match T with
  | [] => 0
  | t :: T => if N.odd a then N.lxor t (comb (N.div2 a) T) else comb (N.div2 a) T
  end.

Lemma comb_cons a t T : comb a (t :: T) = N.lxor (if N.odd a then t else 0) (comb (N.div2 a) T).
Proof. cbn [comb]. destruct (N.odd a); [reflexivity|]. rewrite N.lxor_0_l. reflexivity. Qed.
Lemma div2_lxor a b : N.div2 (N.lxor a b) = N.lxor (N.div2 a) (N.div2 b).
Proof. rewrite !N.div2_spec. apply N.shiftr_lxor. Qed.
Lemma odd_lxor a b : N.odd (N.lxor a b) = xorb (N.odd a) (N.odd b).
Proof. rewrite <- !N.bit0_odd. apply N.lxor_spec. Qed.
Lemma swap4 a b c d : N.lxor (N.lxor a b) (N.lxor c d) = N.lxor (N.lxor a c) (N.lxor b d).
Proof. rewrite !N.lxor_assoc. f_equal. rewrite <- !N.lxor_assoc. f_equal. apply N.lxor_comm. Qed.
Lemma comb_0 T : comb 0 T = 0.
Proof. induction T as [|t T IH]; [reflexivity|]. exact IH. Qed.
Lemma pick_lxor b c t : (if xorb b c then t else 0) = N.lxor (if b then t else 0) (if c then t else 0).
Proof. destruct b, c; cbn [xorb]; rewrite ?N.lxor_nilpotent, ?N.lxor_0_r, ?N.lxor_0_l; reflexivity. Qed.
Lemma comb_add T : forall a b, comb (N.lxor a b) T = N.lxor (comb a T) (comb b T).
Proof.
  induction T as [|t T IH]; intros a b; [reflexivity|]. rewrite !comb_cons, odd_lxor, div2_lxor, IH, pick_lxor. apply swap4.
Qed.
Lemma comb_map (f : N -> N) (F : forall a b, f (N.lxor a b) = N.lxor (f a) (f b)) (Z : f 0 = 0) T : forall a, f (comb a T) = comb a (map f T).
Proof.
  induction T as [|t T IH]; intros a; [exact Z|]. cbn [map]. rewrite !comb_cons, F, IH. f_equal. destruct (N.odd a); [reflexivity|exact Z].
Qed.
Lemma additive_0 (f : N -> N) : (forall a b, f (N.lxor a b) = N.lxor (f a) (f b)) -> f 0 = 0.
Proof. intros F. pose proof (F 0 0) as E. rewrite !N.lxor_nilpotent in E. exact E. Qed.
Lemma comb_lt n T : Forall (fun t => t < 2^n) T -> forall a, comb a T < 2^n.
Proof.
  assert (P : 0 < 2^n) by (apply N.neq_0_lt_0, N.pow_nonzero; discriminate).
  induction 1 as [|t T H _ IH]; intros a; cbn [comb]; [exact P|]. destruct (N.odd a); [|apply IH]. apply lxor_lt; [exact H|apply IH].
Qed.
Lemma div2_lt a n : a < 2^N.of_nat (S n) -> N.div2 a < 2^N.of_nat n.
Proof. intros H. rewrite Nat2N.inj_succ, N.pow_succ_r' in H. rewrite N.div2_div. apply N.div_lt_upper_bound; [discriminate|exact H]. Qed.

Section Map.
  Variable L : N -> N.
  Hypothesis L_add : forall a b, L (N.lxor a b) = N.lxor (L a) (L b).

  Fixpoint orbit (d : nat) (v : N) : list N := match d with O => [] | S d => v :: orbit d (L v) end.

  Fixpoint papp_pos (p : positive) (v : N) : N :=
    match p with xH => v | xO p => papp_pos p (L v) | xI p => N.lxor v (papp_pos p (L v)) end.
  (** The polynomial [p] in L, applied to [v]. *)
  Definition papp (p v : N) : N := match p with 0 => 0 | Npos p => papp_pos p v end.

  Lemma papp_step p v : papp p v = N.lxor (if N.odd p then v else 0) (papp (N.div2 p) (L v)).
  Proof. destruct p as [|[p|p|]]; cbn; rewrite ?N.lxor_0_l, ?N.lxor_0_r; reflexivity. Qed.
  Lemma papp_comb d : forall p v, p < 2^N.of_nat d -> papp p v = comb p (orbit d v).
  Proof.
    induction d as [|d IH]; intros p v H.
    - assert (p = 0) as -> by (change (2^N.of_nat 0) with 1 in H; lia). reflexivity.
    - rewrite papp_step. cbn [orbit]. rewrite comb_cons. f_equal. apply IH, div2_lt, H.
  Qed.
  Lemma size_lt p : p < 2^N.of_nat (N.to_nat (N.size p)).
  Proof. rewrite N2Nat.id. apply N.size_gt. Qed.
  Lemma common_size p q : exists d, p < 2^N.of_nat d /\ q < 2^N.of_nat d.
  Proof.
    exists (N.to_nat (N.size p) + N.to_nat (N.size q))%nat. split; (eapply N.lt_le_trans; [apply size_lt|apply N.pow_le_mono_r; lia]).
  Qed.
  Lemma papp_add p q v : papp (N.lxor p q) v = N.lxor (papp p v) (papp q v).
  Proof.
    destruct (common_size p q) as (d & Hp & Hq). rewrite !(papp_comb d); try assumption; [apply comb_add|apply lxor_lt; assumption].
  Qed.
  Lemma orbit_map (f : N -> N) (C : forall v, f (L v) = L (f v)) d : forall v, map f (orbit d v) = orbit d (f v).
  Proof. induction d as [|d IH]; intros v; [reflexivity|]. cbn [orbit map]. rewrite IH, C. reflexivity. Qed.
  Lemma papp_map p (f : N -> N) : (forall a b, f (N.lxor a b) = N.lxor (f a) (f b)) -> (forall v, f (L v) = L (f v)) ->
    forall v, f (papp p v) = papp p (f v).
  Proof.
    intros F C v. rewrite !(papp_comb _ p _ (size_lt p)). rewrite (comb_map f F (additive_0 f F)), (orbit_map f C). reflexivity.
  Qed.
  Lemma papp_L p v : papp p (L v) = L (papp p v).
  Proof. symmetry. apply papp_map; [exact L_add|reflexivity]. Qed.
  Lemma papp_lin p : forall v w, papp p (N.lxor v w) = N.lxor (papp p v) (papp p w).
  Proof.
    assert (G : forall n p, p < 2^N.of_nat n -> forall v w, papp p (N.lxor v w) = N.lxor (papp p v) (papp p w)); [|apply (G _ p (size_lt p))].
    clear p. induction n as [|n IH]; intros p H v w.
    - assert (p = 0) as -> by (change (2^N.of_nat 0) with 1 in H; lia). reflexivity.
    - rewrite (papp_step p (N.lxor v w)), (papp_step p v), (papp_step p w). rewrite L_add, (IH _ (div2_lt p n H)), <- swap4. f_equal.
      destruct (N.odd p); [reflexivity|]. rewrite N.lxor_0_l. reflexivity.
  Qed.
  Lemma papp_0 p : papp p 0 = 0.
  Proof. apply (additive_0 (papp p) (papp_lin p)). Qed.
  Lemma papp_comm p q v : papp p (papp q v) = papp q (papp p v).
  Proof. apply (papp_map q (papp p)); [apply papp_lin|intros; apply papp_L]. Qed.

  Variable D : nat.
  Variable dN : N.
  Hypothesis dN_eq : dN = N.of_nat D.
  Hypothesis L_lt : forall v, v < 2^dN -> L v < 2^dN.
  Variable M : N.
  Hypothesis M_lt : 2^dN <= M < 2 * 2^dN.
  Hypothesis M_zero : forall v, v < 2^dN -> papp M v = 0.

  Lemma orbit_lt d : forall v, v < 2^dN -> Forall (fun t => t < 2^dN) (orbit d v).
  Proof. induction d as [|d IH]; intros v H; constructor; [exact H|]. apply IH, L_lt, H. Qed.
  Lemma papp_lt p v : v < 2^dN -> papp p v < 2^dN.
  Proof. intros H. rewrite (papp_comb _ p _ (size_lt p)). apply comb_lt, orbit_lt, H. Qed.

  (** Multiplication by the variable, modulo M. *)
  Definition mulx (q : N) : N := let y := N.double q in if N.testbit y dN then N.lxor y M else y.
  Lemma papp_double q v : papp (N.double q) v = papp q (L v).
  Proof. rewrite papp_step. replace (N.odd (N.double q)) with false by (destruct q; reflexivity). rewrite N.lxor_0_l. destruct q; reflexivity. Qed.
  Lemma mulx_ok q v : v < 2^dN -> papp (mulx q) v = L (papp q v).
  Proof.
    intros H. rewrite <- papp_L, <- papp_double. unfold mulx. destruct (N.testbit (N.double q) dN); [|reflexivity].
    rewrite papp_add, M_zero, N.lxor_0_r by exact H. reflexivity.
  Qed.
  Lemma high_bit x : 2^dN <= x < 2 * 2^dN -> N.testbit x dN = true.
  Proof.
    intros H. rewrite N.testbit_odd, N.shiftr_div_pow2. assert (P : 2^dN <> 0) by (apply N.pow_nonzero; discriminate).
    assert (x / 2^dN = 1) as ->; [|reflexivity]. symmetry. apply (N.div_unique _ _ _ (x - 2^dN)); lia.
  Qed.
  Lemma mulx_lt q : q < 2^dN -> mulx q < 2^dN.
  Proof.
    intros H. unfold mulx. rewrite N.double_spec. destruct (N.testbit (2 * q) dN) eqn:E.
    - assert (G : N.lxor (2 * q) M < 2 ^ N.succ dN) by (apply lxor_lt; rewrite N.pow_succ_r'; lia).
      rewrite N.pow_succ_r' in G. destruct (N.lt_ge_cases (N.lxor (2 * q) M) (2^dN)) as [K|K]; [exact K|].
      pose proof (high_bit _ (conj K G)) as B. rewrite N.lxor_spec, E, (high_bit M M_lt) in B. discriminate.
    - destruct (N.lt_ge_cases (2 * q) (2^dN)) as [K|K]; [exact K|]. rewrite high_bit in E; [discriminate|lia].
  Qed.

  (** The products of q with the powers of the variable. *)
  Fixpoint shifts (k : nat) (q : N) : list N := match k with O => [] | S k => q :: shifts k (mulx q) end.
  Definition times (p q : N) : N := comb p (shifts D q).
  Lemma shifts_map v k : forall q, v < 2^dN -> map (fun t => papp t v) (shifts k q) = orbit k (papp q v).
  Proof. induction k as [|k IH]; intros q H; [reflexivity|]. cbn [shifts map orbit]. rewrite IH, mulx_ok by exact H. reflexivity. Qed.
  Lemma shifts_lt k : forall q, q < 2^dN -> Forall (fun t => t < 2^dN) (shifts k q).
  Proof. induction k as [|k IH]; intros q H; constructor; [exact H|]. apply IH, mulx_lt, H. Qed.
  Lemma times_ok p q v : p < 2^dN -> v < 2^dN -> papp (times p q) v = papp p (papp q v).
  Proof.
    intros Hp Hv. unfold times. rewrite (comb_map (fun t => papp t v)); [|intros; apply papp_add|reflexivity].
    rewrite shifts_map by exact Hv. symmetry. apply papp_comb. rewrite <- dN_eq. exact Hp.
  Qed.
  Lemma times_lt p q : q < 2^dN -> times p q < 2^dN.
  Proof. intros H. apply comb_lt, shifts_lt, H. Qed.

  (** The even powers of the variable. *)
  Fixpoint evens (k : nat) (q : N) : list N := match k with O => [] | S k => q :: evens k (mulx (mulx q)) end.
  Fixpoint orbit2 (d : nat) (v : N) : list N := match d with O => [] | S d => v :: orbit2 d (L (L v)) end.
  Lemma evens_map v k : forall q, v < 2^dN -> map (fun t => papp t v) (evens k q) = orbit2 k (papp q v).
  Proof. induction k as [|k IH]; intros q H; [reflexivity|]. cbn [evens map orbit2]. rewrite IH, !mulx_ok by exact H. reflexivity. Qed.
  Lemma evens_lt k : forall q, q < 2^dN -> Forall (fun t => t < 2^dN) (evens k q).
  Proof. induction k as [|k IH]; intros q H; constructor; [exact H|]. apply IH, mulx_lt, mulx_lt, H. Qed.
  Lemma frobenius d : forall p v, p < 2^N.of_nat d -> papp p (papp p v) = comb p (orbit2 d v).
  Proof.
    induction d as [|d IH]; intros p v H.
    - assert (p = 0) as -> by (change (2^N.of_nat 0) with 1 in H; lia). reflexivity.
    - cbn [orbit2]. rewrite comb_cons, <- (IH _ _ (div2_lt p d H)).
      rewrite (papp_step p v), papp_lin, (papp_step p (papp (N.div2 p) (L v))).
      set (a := papp (N.div2 p) (L v)). rewrite (papp_L (N.div2 p) (L v)). fold a.
      replace (papp p (if N.odd p then v else 0)) with (if N.odd p then N.lxor v a else 0).
      2: { destruct (N.odd p) eqn:O; [|symmetry; apply papp_0]. rewrite (papp_step p v), O. reflexivity. }
      destruct (N.odd p); [|rewrite !N.lxor_0_l; reflexivity].
      rewrite N.lxor_assoc. f_equal. rewrite <- N.lxor_assoc, N.lxor_nilpotent, N.lxor_0_l. reflexivity.
  Qed.
  Lemma square_ok p v : p < 2^dN -> v < 2^dN -> papp (comb p (evens D 1)) v = papp p (papp p v).
  Proof.
    intros Hp Hv. rewrite (comb_map (fun t => papp t v)); [|intros; apply papp_add|reflexivity].
    rewrite evens_map by exact Hv. symmetry. change (papp 1 v) with v. apply frobenius. rewrite <- dN_eq. exact Hp.
  Qed.

  (** [p] is the k-th power of the variable. *)
  Definition is_power (k p : N) : Prop := p < 2^dN /\ forall v, v < 2^dN -> N.iter k L v = papp p v.

  Lemma power_var : (1 < dN)%N -> is_power 1 2.
  Proof.
    intros H. split; [|reflexivity]. change 2 with (2^1) at 1. apply N.pow_lt_mono_r; [reflexivity|exact H].
  Qed.
  Lemma one_lt : 0 < dN -> 1 < 2^dN.
  Proof. intros H. change 1 with (2^0). apply N.pow_lt_mono_r; [reflexivity|exact H]. Qed.
  Lemma power_times k j p q : is_power k p -> is_power j q -> is_power (k + j) (times p q).
  Proof.
    intros [Hp Ep] [Hq Eq]. split; [apply times_lt, Hq|]. intros v Hv.
    rewrite N.iter_add, Eq, Ep, times_ok by (try assumption; apply papp_lt, Hv). reflexivity.
  Qed.
  Lemma power_square k p : 0 < dN -> is_power k p -> is_power (2 * k) (comb p (evens D 1)).
  Proof.
    intros D0 [Hp Ep]. split; [apply comb_lt, evens_lt, one_lt, D0|]. intros v Hv.
    replace (2 * k) with (k + k) by lia. rewrite N.iter_add, (Ep v), Ep, square_ok by (try assumption; apply papp_lt, Hv). reflexivity.
  Qed.

  (** Raising to a power; [E] and [B] are the tables for squaring and for
      multiplying by the base. *)
  Fixpoint power (E B : list N) (b : N) (e : positive) : N :=
    match e with
    | xH => b
    | xO e => comb (power E B b e) E
    | xI e => comb (comb (power E B b e) E) B
    end.
  Lemma power_ok k b e : 0 < dN -> is_power k b -> is_power (k * Npos e) (power (evens D 1) (shifts D b) b e).
  Proof.
    intros D0 Hb. induction e as [e IH|e IH|]; cbn [power].
    - replace (k * N.pos e~1) with (2 * (k * N.pos e) + k) by lia.
      apply (power_times _ _ (comb (power (evens D 1) (shifts D b) b e) (evens D 1)) b); [apply power_square; assumption|exact Hb].
    - replace (k * N.pos e~0) with (2 * (k * N.pos e)) by lia. apply power_square; assumption.
    - rewrite N.mul_1_r. exact Hb.
  Qed.

  (** If p is the k-th power and p - 1 has an inverse, then no vector but 0
      comes back after k steps. *)
  Lemma no_return k p u v : 0 < dN -> is_power k p -> u < 2^dN -> times (N.lxor p 1) u = 1 ->
    v < 2^dN -> N.iter k L v = v -> v = 0.
  Proof.
    intros D0 [Hp Ep] Hu E Hv R. assert (P1 : N.lxor p 1 < 2^dN) by (apply lxor_lt; [exact Hp|apply one_lt, D0]).
    pose proof (times_ok (N.lxor p 1) u v P1 Hv) as T. rewrite E, papp_comm in T.
    change (papp 1 v) with v in T. rewrite T. rewrite papp_add, <- Ep, R by exact Hv.
    change (papp 1 v) with v. rewrite N.lxor_nilpotent. apply papp_0.
  Qed.
End Map.

(** *** Return times *)
Section Return.
  Variable T : Type.
  Variables (f : T -> T) (v : T).
  Definition returns (k : N) : Prop := N.iter k f v = v.
  Lemma returns_sub a b : returns a -> returns (a + b) -> returns b.
  Proof. unfold returns. intros A B. rewrite N.add_comm, N.iter_add, A in B. exact B. Qed.
  Lemma returns_add a b : returns a -> returns b -> returns (a + b).
  Proof. unfold returns. intros A B. rewrite N.iter_add, B. exact A. Qed.
  Lemma returns_mul a b : returns a -> returns (a * b).
  Proof.
    intros A. induction b using N.peano_ind; [rewrite N.mul_0_r; reflexivity|]. rewrite N.mul_succ_r. apply returns_add; assumption.
  Qed.
  Lemma returns_mod a b : b <> 0 -> returns a -> returns b -> returns (a mod b).
  Proof.
    intros H A B. apply (returns_sub (b * (a / b))); [apply returns_mul, B|]. rewrite <- N.div_mod by exact H. exact A.
  Qed.
  Lemma returns_gcd n : forall a b, (N.to_nat b < n)%nat -> returns a -> returns b -> returns (N.gcd a b).
  Proof.
    induction n as [|n IH]; intros a b H A B; [lia|]. destruct (N.eq_dec b 0) as [->|Hb]; [rewrite N.gcd_0_r; exact A|].
    rewrite N.gcd_comm, <- N.gcd_mod, N.gcd_comm by exact Hb. apply IH; [|exact B|apply returns_mod; assumption].
    pose proof (N.mod_lt a b Hb). lia.
  Qed.

  (** The return times are the multiples of n, if n is one and n/p, for the
      prime divisors p of n, is none. *)
  Lemma return_time n k : n <> 0 -> returns n ->
    (forall p, prime (Z.of_N p) -> N.divide p n -> ~ returns (n / p)) -> returns k -> N.divide n k.
  Proof.
    intros Hn Rn P Rk. pose proof (returns_gcd _ k n (Nat.lt_succ_diag_r _) Rk Rn) as G.
    set (g := N.gcd k n) in *. assert (Dg : N.divide g n) by apply N.gcd_divide_r.
    assert (Dk : N.divide g k) by apply N.gcd_divide_l. destruct Dg as (c & E).
    destruct (N.eq_dec c 1) as [C|C]; [subst c; rewrite N.mul_1_l in E; rewrite E; exact Dk|].
    exfalso. assert (C0 : c <> 0) by (intros ->; lia).
    destruct (prime_divisor (Z.of_N c)) as (r & Pr & Dr); [lia|].
    assert (R0 : (0 < r)%Z) by (destruct Pr; lia).
    destruct Dr as (e & Ee). assert (E0 : (0 < e)%Z) by nia.
    apply (P (Z.to_N r)).
    - rewrite Z2N.id by lia. exact Pr.
    - exists (Z.to_N e * g). assert (c = Z.to_N e * Z.to_N r) by (apply N2Z.inj; rewrite N2Z.inj_mul, !Z2N.id by lia; lia). lia.
    - assert (X : n / Z.to_N r = g * Z.to_N e).
      { symmetry. apply (N.div_unique _ _ _ 0); [lia|].
        assert (c = Z.to_N e * Z.to_N r) by (apply N2Z.inj; rewrite N2Z.inj_mul, !Z2N.id by lia; lia). lia. }
      rewrite X. apply returns_mul, G.
  Qed.
End Return.
