(** Fermat's little theorem and Euler's criterion. *)
From Coq Require Import ZArith Znumtheory Zpow_facts List Permutation Lia.
Import ListNotations.
Local Open Scope Z_scope.

Lemma mod_sub p a b : 0 < p -> a mod p = b mod p -> (p | a - b).
Proof. intros H E. apply Z.mod_divide; [lia|]. rewrite Zminus_mod, E, Z.sub_diag. apply Z.mod_0_l. lia. Qed.
Lemma sub_mod p a b : 0 < p -> (p | a - b) -> a mod p = b mod p.
Proof. intros H [t E]. replace a with (b + t * p) by lia. apply Z_mod_plus_full. Qed.
Lemma small_divide p a : (p | a) -> - p < a < p -> a = 0.
Proof. intros [t E] H. assert (t = 0) by nia. subst t. lia. Qed.

(** The numbers 1, ..., n. *)
Definition upto (n : nat) : list Z := map Z.of_nat (seq 1 n).
Lemma upto_in n x : In x (upto n) <-> 1 <= x <= Z.of_nat n.
Proof.
  unfold upto. rewrite in_map_iff. split.
  - intros (i & <- & Hi). apply in_seq in Hi. lia.
  - intros H. exists (Z.to_nat x). split; [lia|]. apply in_seq. lia.
Qed.
Lemma nodup_map {A B} (f : A -> B) l : (forall x y, In x l -> In y l -> f x = f y -> x = y) -> NoDup l -> NoDup (map f l).
Proof.
  intros I N. induction N as [|a l Na N IH]; [constructor|]. cbn [map]. constructor.
  - intros H. apply in_map_iff in H. destruct H as (b & E & Hb). apply Na.
    rewrite <- (I b a); [exact Hb|right; exact Hb|left; reflexivity|exact E].
  - apply IH. intros x y Hx Hy. apply I; right; assumption.
Qed.
Lemma upto_nodup n : NoDup (upto n).
Proof. apply nodup_map; [intros; lia|apply seq_NoDup]. Qed.
Lemma upto_length n : length (upto n) = n.
Proof. unfold upto. rewrite map_length. apply seq_length. Qed.

(** ** Fermat *)
Definition prod (l : list Z) : Z := fold_right Z.mul 1 l.
Lemma prod_perm l l' : Permutation l l' -> prod l = prod l'.
Proof. induction 1; cbn [prod fold_right] in *; try fold (prod l) in *; try fold (prod l') in *; try congruence. ring. Qed.
Lemma prod_map p a l : 0 < p -> prod (map (fun i => (a * i) mod p) l) mod p = (a ^ Z.of_nat (length l) * prod l) mod p.
Proof.
  intros Hp. induction l as [|x l IH]; [reflexivity|]. cbn [map prod fold_right length]. fold (prod l). fold (prod (map (fun i => (a * i) mod p) l)).
  rewrite Nat2Z.inj_succ, Z.pow_succ_r by lia. rewrite Zmult_mod_idemp_l, Zmult_mod, IH, <- Zmult_mod. f_equal. ring.
Qed.
Lemma prod_unit p l : prime p -> (forall x, In x l -> ~ (p | x)) -> ~ (p | prod l).
Proof.
  intros P. induction l as [|x l IH]; intros H D.
  - apply Z.divide_1_r in D. destruct P. lia.
  - cbn [prod fold_right] in D. fold (prod l) in D. apply prime_mult in D; [|exact P]. destruct D as [D|D].
    + apply (H x); [left; reflexivity|exact D].
    + apply IH; [|exact D]. intros y Hy. apply H. right. exact Hy.
Qed.

Theorem fermat_Z p a : prime p -> ~ (p | a) -> (a ^ (p - 1)) mod p = 1.
Proof.
  intros P Na. assert (p1 : 1 < p) by (destruct P; assumption).
  set (l := upto (Z.to_nat (p - 1))).
  assert (L : forall x, In x l <-> 1 <= x < p) by (intros x; unfold l; rewrite upto_in; lia).
  assert (U : forall x, In x l -> ~ (p | x)).
  { intros x Hx D. apply L in Hx. apply small_divide in D; lia. }
  assert (E : Permutation (map (fun i => (a * i) mod p) l) l).
  { apply NoDup_Permutation_bis.
    - apply nodup_map; [|apply upto_nodup]. intros x y Hx Hy E. apply mod_sub in E; [|lia]. rewrite <- Z.mul_sub_distr_l in E.
      apply prime_mult in E; [|exact P]. destruct E as [E|E]; [contradiction|]. apply L in Hx, Hy. apply small_divide in E; lia.
    - rewrite map_length. reflexivity.
    - intros y Hy. apply in_map_iff in Hy. destruct Hy as (x & <- & Hx). apply L. pose proof (Z.mod_pos_bound (a * x) p ltac:(lia)).
      assert ((a * x) mod p <> 0); [|lia]. intros Z0. apply Z.mod_divide in Z0; [|lia]. apply prime_mult in Z0; [|exact P].
      destruct Z0 as [Z0|Z0]; [contradiction|exact (U x Hx Z0)]. }
  pose proof (prod_map p a l ltac:(lia)) as H. rewrite (prod_perm _ _ E) in H. unfold l in H at 2. rewrite upto_length, Z2Nat.id in H by lia.
  apply mod_sub in H; [|lia]. replace (prod l - a ^ (p - 1) * prod l) with ((1 - a ^ (p - 1)) * prod l) in H by ring.
  apply prime_mult in H; [|exact P]. destruct H as [H|H]; [|exfalso; exact (prod_unit p l P U H)].
  apply sub_mod in H; [|lia]. rewrite <- H. apply Z.mod_1_l. exact p1.
Qed.

(** ** Roots of polynomials *)
(** A polynomial with leading coefficient 1; the other coefficients are listed from the lowest. *)
Definition poly (c : list Z) (x : Z) : Z := fold_right (fun a r => a + x * r) 1 c.
Fixpoint quotient (c : list Z) (r : Z) : list Z :=
  match c with
  | [] => []
  | _ :: c' => match c' with [] => [] | _ => poly c' r :: quotient c' r end
  end.
Lemma quotient_length c r : length (quotient c r) = pred (length c).
Proof.
  induction c as [|a c IH]; [reflexivity|]. destruct c as [|b c]; [reflexivity|].
  change (quotient (a :: b :: c) r) with (poly (b :: c) r :: quotient (b :: c) r). cbn [length] in *. rewrite IH. reflexivity.
Qed.
Lemma quotient_ok c r x : c <> [] -> poly c x - poly c r = (x - r) * poly (quotient c r) x.
Proof.
  induction c as [|a c IH]; [congruence|]. intros _. destruct c as [|b c].
  - cbn. ring.
  - specialize (IH ltac:(discriminate)).
    change (quotient (a :: b :: c) r) with (poly (b :: c) r :: quotient (b :: c) r).
    assert (E : forall a l y, poly (a :: l) y = a + y * poly l y) by reflexivity.
    rewrite (E a), (E a), (E (poly (b :: c) r)).
    replace (a + x * poly (b :: c) x - (a + r * poly (b :: c) r)) with ((x - r) * poly (b :: c) r + x * (poly (b :: c) x - poly (b :: c) r)) by ring.
    rewrite IH. ring.
Qed.
Lemma roots_bound p : prime p -> forall roots c, NoDup roots -> (forall x, In x roots -> 0 <= x < p /\ (p | poly c x)) ->
  (length roots <= length c)%nat.
Proof.
  intros P. assert (p1 : 1 < p) by (destruct P; assumption). induction roots as [|r roots IH]; intros c N H; [cbn; lia|].
  inversion N as [|? ? Nr N']. subst. destruct (H r (or_introl eq_refl)) as [Br Dr].
  destruct c as [|a c]. { cbn in Dr. apply Z.divide_1_r in Dr. lia. }
  assert (X : (length roots <= length (quotient (a :: c) r))%nat).
  { apply IH; [exact N'|]. intros x Hx. destruct (H x (or_intror Hx)) as [Bx Dx]. split; [exact Bx|].
    pose proof (quotient_ok (a :: c) r x ltac:(discriminate)) as E.
    assert (D : (p | poly (a :: c) x - poly (a :: c) r)) by (apply Z.divide_sub_r; assumption).
    rewrite E in D. apply prime_mult in D; [|exact P]. destruct D as [D|D]; [|exact D]. exfalso. apply Nr.
    apply small_divide in D; [|lia]. replace r with x by lia. exact Hx. }
  rewrite quotient_length in X. cbn [length pred] in *. lia.
Qed.
Lemma poly_power n x : poly (-1 :: repeat 0 n) x = x ^ Z.of_nat (S n) - 1.
Proof.
  assert (E : poly (repeat 0 n) x = x ^ Z.of_nat n).
  { induction n as [|n IH]; [reflexivity|]. cbn [repeat poly fold_right]. fold (poly (repeat 0 n) x). rewrite IH, Nat2Z.inj_succ, Z.pow_succ_r by lia. ring. }
  cbn [poly fold_right]. fold (poly (repeat 0 n) x). rewrite E, Nat2Z.inj_succ, Z.pow_succ_r by lia. ring.
Qed.

(** ** Euler *)
Theorem euler_Z p a : prime p -> 2 < p -> ~ (p | a) -> (forall x, (x * x) mod p <> a mod p) ->
  (a ^ ((p - 1) / 2)) mod p = p - 1.
Proof.
  intros P p2 Na NR. set (h := (p - 1) / 2).
  assert (Eh : p - 1 = 2 * h).
  { unfold h. pose proof (Z.div_mod (p - 1) 2 ltac:(lia)) as D. pose proof (Z.mod_pos_bound (p - 1) 2 ltac:(lia)) as B.
    assert ((p - 1) mod 2 <> 1); [|lia]. intros O. assert (X : (2 | p)) by (exists ((p - 1) / 2 + 1); lia).
    apply prime_div_prime in X; [lia|exact prime_2|exact P]. }
  assert (F : (p | a ^ h * a ^ h - 1)).
  { rewrite <- Z.pow_add_r by lia. replace (h + h) with (p - 1) by lia. apply mod_sub; [lia|]. rewrite fermat_Z by assumption. rewrite Z.mod_1_l; lia. }
  replace (a ^ h * a ^ h - 1) with ((a ^ h - 1) * (a ^ h - -1)) in F by ring. apply prime_mult in F; [|exact P]. destruct F as [F|F].
  2:{ apply sub_mod in F; [|lia]. rewrite F. symmetry. apply (Z.mod_unique_pos _ _ (-1)); lia. }
  exfalso. destruct (Z_of_nat_complete h ltac:(lia)) as [n En]. destruct n as [|n]; [lia|].
  set (squares := map (fun i => (i * i) mod p) (upto (S n))).
  assert (B : (length ((a mod p)%Z :: squares) <= length ((-1)%Z :: repeat 0%Z n))%nat).
  { apply (roots_bound p P).
    - constructor.
      + intros H. apply in_map_iff in H. destruct H as (x & E & _). exact (NR x E).
      + apply nodup_map; [|apply upto_nodup]. intros x y Hx Hy E. apply upto_in in Hx, Hy. apply mod_sub in E; [|lia].
        replace (x * x - y * y) with ((x - y) * (x + y)) in E by ring. apply prime_mult in E; [|exact P].
        destruct E as [E|E]; apply small_divide in E; lia.
    - assert (M : forall x, (p | x ^ h - 1) -> 0 <= x mod p < p /\ (p | poly (-1 :: repeat 0 n) (x mod p))).
      { intros x D. split; [apply Z.mod_pos_bound; lia|]. rewrite poly_power, <- En. apply mod_sub; [lia|].
        rewrite <- Zpower_mod by lia. apply sub_mod; [lia|exact D]. }
      intros x [<-|Hx]; [apply M; exact F|]. apply in_map_iff in Hx. destruct Hx as (i & <- & Hi). apply M.
      apply upto_in in Hi. rewrite <- Z.pow_2_r, <- Z.pow_mul_r by lia. rewrite <- Eh. apply mod_sub; [lia|]. rewrite fermat_Z; [rewrite Z.mod_1_l; lia|exact P|].
      intros D. apply small_divide in D; lia. }
  cbn [length] in B. unfold squares in B. rewrite map_length, upto_length, repeat_length in B. lia.
Qed.

(** ** Proth's test *)
Lemma pow_mod_eq p a b n : 0 < p -> a mod p = b mod p -> (a ^ n) mod p = (b ^ n) mod p.
Proof. intros H E. rewrite (Zpower_mod a), (Zpower_mod b), E by exact H. reflexivity. Qed.
Lemma divide_mod p q a b : 0 < p -> (p | q) -> 0 < q -> a mod q = b mod q -> a mod p = b mod p.
Proof. intros Hp D Hq E. apply sub_mod; [exact Hp|]. apply (Z.divide_trans _ q); [exact D|]. apply mod_sub; assumption. Qed.
Lemma prime_divisor n : 1 < n -> exists r, prime r /\ (r | n).
Proof.
  intros H. assert (X : forall m, 0 <= m -> 1 < m -> exists r, prime r /\ (r | m)); [|apply X; lia].
  apply (Zlt_0_ind (fun m => 1 < m -> exists r, prime r /\ (r | m))). intros m IH _ m1. destruct (prime_dec m) as [P|P].
  - exists m. split; [exact P|apply Z.divide_refl].
  - destruct (not_prime_divide m m1 P) as (d & Hd & D). destruct (IH d) as (r & R & E); try lia.
    exists r. split; [exact R|apply (Z.divide_trans _ d); assumption].
Qed.
Lemma odd_part n : 0 < n -> exists s t, 0 <= s /\ n = 2 ^ s * (2 * t + 1).
Proof.
  intros H. assert (X : forall m, 0 <= m -> 0 < m -> exists s t, 0 <= s /\ m = 2 ^ s * (2 * t + 1)); [|apply X; lia].
  apply (Zlt_0_ind (fun m => 0 < m -> exists s t, 0 <= s /\ m = 2 ^ s * (2 * t + 1))). intros m IH _ m0.
  pose proof (Z.div_mod m 2 ltac:(lia)) as D. pose proof (Z.mod_pos_bound m 2 ltac:(lia)) as B.
  destruct (Z.eq_dec (m mod 2) 0) as [E|E].
  - destruct (IH (m / 2)) as (s & t & Hs & Et); try lia. exists (Z.succ s), t. split; [lia|]. rewrite Z.pow_succ_r by lia. rewrite D at 1. lia.
  - exists 0, (m / 2). split; [lia|]. change (2 ^ 0) with 1. lia.
Qed.

Theorem proth h k a p : 0 < k -> 0 < h < 2 ^ k -> p = h * 2 ^ k + 1 -> (a ^ (h * 2 ^ (k - 1))) mod p = p - 1 -> prime p.
Proof.
  intros Hk Hh Ep Ea. assert (K : 2 ^ k = 2 * 2 ^ (k - 1)) by (rewrite <- Z.pow_succ_r by lia; f_equal; lia).
  assert (K0 : 0 < 2 ^ (k - 1)) by (apply Z.pow_pos_nonneg; lia). assert (p1 : 1 < p) by nia.
  assert (M : (a ^ (h * 2 ^ (k - 1))) mod p = (-1) mod p).
  { rewrite Ea. apply (Z.mod_unique_pos _ _ (-1)); lia. }
  assert (R : forall r, prime r -> (r | p) -> 2 ^ k < r).
  { intros r Pr Dr. assert (r1 : 1 < r) by (destruct Pr; assumption). set (b := a ^ h).
    assert (r2 : 2 < r).
    { assert (r <> 2); [|lia]. intros ->. assert (X : (2 | 1)); [|apply Z.divide_1_r in X; lia].
      replace 1 with (p - 2 * (h * 2 ^ (k - 1))) by lia. apply Z.divide_sub_r; [exact Dr|apply Z.divide_factor_l]. }
    assert (Mb : (b ^ 2 ^ (k - 1)) mod r = (-1) mod r).
    { unfold b. rewrite <- Z.pow_mul_r by lia. apply (divide_mod r p); try lia; assumption. }
    assert (Nb : ~ (r | b)).
    { intros D. assert (X : (r | b ^ 2 ^ (k - 1))).
      { replace (2 ^ (k - 1)) with (Z.succ (2 ^ (k - 1) - 1)) by lia. rewrite Z.pow_succ_r by lia. apply Z.divide_mul_l. exact D. }
      apply Z.mod_divide in X; [|lia]. rewrite X in Mb. assert (E : (-1) mod r = r - 1) by (symmetry; apply (Z.mod_unique_pos _ _ (-1)); lia). lia. }
    destruct (odd_part (r - 1) ltac:(lia)) as (s & t & Hs & Et).
    assert (t0 : 0 <= t). { assert (0 < 2 ^ s) by (apply Z.pow_pos_nonneg; lia). nia. }
    destruct (Z.le_gt_cases k s) as [L|L].
    - assert (X : 2 ^ k <= 2 ^ s) by (apply Z.pow_le_mono_r; lia). nia.
    - exfalso. pose proof (fermat_Z r b Pr Nb) as F. rewrite Et in F.
      assert (E1 : (b ^ (2 ^ (k - 1) * (2 * t + 1))) mod r = 1).
      { replace (2 ^ (k - 1)) with (2 ^ s * 2 ^ (k - 1 - s)) by (rewrite <- Z.pow_add_r by lia; f_equal; lia).
        replace (2 ^ s * 2 ^ (k - 1 - s) * (2 * t + 1)) with (2 ^ s * (2 * t + 1) * 2 ^ (k - 1 - s)) by ring.
        assert (0 <= 2 ^ s) by (apply Z.pow_nonneg; lia). assert (0 <= 2 ^ (k - 1 - s)) by (apply Z.pow_nonneg; lia).
        assert (A : 0 <= 2 ^ s * (2 * t + 1)) by (rewrite <- Et; clear - r1; lia).
        rewrite Z.pow_mul_r by assumption. rewrite (pow_mod_eq r _ 1); [|clear - r1; lia|rewrite F; symmetry; apply Z.mod_1_l; exact r1].
        rewrite Z.pow_1_l by assumption. apply Z.mod_1_l. exact r1. }
      assert (E2 : (b ^ (2 ^ (k - 1) * (2 * t + 1))) mod r = (-1) mod r).
      { rewrite Z.pow_mul_r by (clear - K0 t0; lia). rewrite (pow_mod_eq r _ (-1)); [|clear - r1; lia|exact Mb]. f_equal.
        clear - t0. rewrite Z.pow_add_r, Z.pow_mul_r by lia. change ((-1) ^ 2) with 1. rewrite Z.pow_1_l by lia. reflexivity. }
      rewrite E1 in E2. assert (E : (-1) mod r = r - 1) by (symmetry; apply (Z.mod_unique_pos _ _ (-1)); lia). lia. }
  destruct (prime_dec p) as [P|P]; [exact P|]. exfalso.
  destruct (not_prime_divide p p1 P) as (d & Hd & e & Ee). assert (0 < e) by nia. assert (1 < e) by nia.
  destruct (prime_divisor d) as (r & Pr & Dr); [lia|]. destruct (prime_divisor e) as (r' & Pr' & Dr'); [lia|].
  assert (X : 2 ^ k < d). { apply (Z.lt_le_trans _ r); [apply R; [exact Pr|]|apply Z.divide_pos_le; [lia|exact Dr]]. rewrite Ee. apply Z.divide_mul_r. exact Dr. }
  assert (X' : 2 ^ k < e). { apply (Z.lt_le_trans _ r'); [apply R; [exact Pr'|]|apply Z.divide_pos_le; [lia|exact Dr']]. rewrite Ee. apply Z.divide_mul_l. exact Dr'. }
  nia.
Qed.

Example euler_ex : (3 ^ ((41 - 1) / 2)) mod 41 = 41 - 1 /\ (2 ^ ((41 - 1) / 2)) mod 41 = 1 /\ (17 * 17) mod 41 = 2.
Proof. repeat split; reflexivity. Qed.
Arguments fermat_Z {p a}.
Arguments euler_Z {p a}.
