(** Arithmetic behind Joye-Libert decryption. *)
From Coq Require Import ZArith Znumtheory Zpow_facts Lia Morphisms.
From Verif Require Import NumTheory JoyeSpec.
Local Open Scope Z_scope.

(** ** Congruence *)
Inductive cong (p a b : Z) : Prop := Cong : a mod p = b mod p -> cong p a b.
Lemma cong_eq p a b : cong p a b -> a mod p = b mod p.
Proof. intros []. assumption. Qed.
#[export] Instance cong_equiv p : Equivalence (cong p).
Proof. split; repeat intros []; constructor; congruence. Qed.
#[export] Instance cong_mul p : Proper (cong p ==> cong p ==> cong p) Z.mul.
Proof. intros a b [H] c d [H']. constructor. rewrite (Zmult_mod a c), (Zmult_mod b d), H, H'. reflexivity. Qed.
#[export] Instance cong_add p : Proper (cong p ==> cong p ==> cong p) Z.add.
Proof. intros a b [H] c d [H']. constructor. rewrite (Zplus_mod a c), (Zplus_mod b d), H, H'. reflexivity. Qed.
#[export] Instance cong_opp p : Proper (cong p ==> cong p) Z.opp.
Proof. intros a b H. replace (- a) with (-1 * a) by lia. replace (- b) with (-1 * b) by lia. rewrite H. reflexivity. Qed.
Lemma cong_pow p a b n : cong p a b -> cong p (a ^ n) (b ^ n).
Proof.
  intros H. destruct (Z.le_gt_cases 0 n) as [Hn|Hn]; [|rewrite !Z.pow_neg_r by exact Hn; reflexivity].
  revert n Hn. apply natlike_ind; [reflexivity|]. intros n Hn IH. rewrite !Z.pow_succ_r by exact Hn. rewrite IH. apply cong_mul; [exact H|reflexivity].
Qed.
#[export] Instance cong_pow' p : Proper (cong p ==> eq ==> cong p) Z.pow.
Proof. intros a b H n n' <-. apply cong_pow. exact H. Qed.
Lemma cong_mod p a : cong p (a mod p) a.
Proof. constructor. apply Zmod_mod. Qed.
Lemma cong_mod_mult p q a : p <> 0 -> q <> 0 -> cong p (a mod (p * q)) a.
Proof.
  intros Hp Hq. constructor. rewrite (Z.mod_eq a (p * q)) by (apply Z.neq_mul_0; split; assumption).
  replace (a - p * q * (a / (p * q))) with (a + (- (q * (a / (p * q)))) * p) by lia. apply Z_mod_plus_full.
Qed.
Lemma cong_divide p a b : p <> 0 -> cong p a b <-> (p | a - b).
Proof.
  intros Hp. split; [intros [H]|intros H].
  - exists (a / p - b / p). rewrite (Z.div_mod a p Hp) at 1. rewrite (Z.div_mod b p Hp) at 1. rewrite H. lia.
  - destruct H as [z H]. constructor. replace a with (b + z * p) by lia. apply Z_mod_plus_full.
Qed.

Lemma powers n a b : 0 <= a -> 0 <= b -> n ^ (a * b) = (n ^ a) ^ b.
Proof. intros. apply Z.pow_mul_r; assumption. Qed.
Lemma pow2_pos k : 0 < 2 ^ Z.of_nat k.
Proof. apply Z.pow_pos_nonneg; lia. Qed.
Lemma pow2_S k : 2 ^ Z.of_nat (S k) = 2 * 2 ^ Z.of_nat k.
Proof. rewrite Nat2Z.inj_succ, Z.pow_succ_r by lia. reflexivity. Qed.

Lemma cong_1_pow p a n : 0 <= n -> cong p a 1 -> cong p (a ^ n) 1.
Proof. intros Hn H. rewrite H, Z.pow_1_l by exact Hn. reflexivity. Qed.
Lemma neg1_pow r : 0 <= r -> (-1) ^ r = if Z.even r then 1 else -1.
Proof.
  revert r. apply natlike_ind; [reflexivity|]. intros r Hr IH. rewrite Z.pow_succ_r, IH, Z.even_succ, <- Z.negb_even by exact Hr.
  destruct (Z.even r); reflexivity.
Qed.

Lemma nonresidue_divide a p : nonresidue a p -> ~ (p | a).
Proof.
  intros H [z ->]. apply (H 0). rewrite Z.mul_0_l. destruct (Z.eq_dec p 0) as [->|Hp].
  - rewrite Z.mul_0_r. reflexivity.
  - rewrite Z_mod_mult, Z.mod_0_l by exact Hp. reflexivity.
Qed.

(** ** The element g = y^((p-1)/2^k) *)
Lemma g_order k p y : prime p -> 2 < p -> (2 ^ Z.of_nat (S k) | p - 1) -> nonresidue y p ->
  let e := (p - 1) / 2 ^ Z.of_nat (S k) in
  0 <= e /\ cong p ((y ^ e) ^ (2 ^ Z.of_nat k)) (-1).
Proof.
  intros P H2 D R e. pose proof (pow2_pos (S k)) as K1. pose proof (pow2_pos k) as K0.
  assert (E : p - 1 = 2 ^ Z.of_nat (S k) * e) by (apply Z_div_exact_full_2; [lia|apply Z.mod_divide; [lia|exact D]]).
  assert (He : 0 <= e) by (apply Z.div_pos; lia). split; [exact He|].
  rewrite <- powers by lia. replace (e * 2 ^ Z.of_nat k) with ((p - 1) / 2).
  - constructor. rewrite (euler_Z P H2 (nonresidue_divide y p R) R). apply (Z.mod_unique_pos _ _ (-1)); lia.
  - rewrite E, pow2_S. replace (2 * 2 ^ Z.of_nat k * e) with (e * 2 ^ Z.of_nat k * 2) by lia. apply Z.div_mul. discriminate.
Qed.
Lemma neg1_not_1 p : 2 < p -> ~ cong p (-1) 1.
Proof. intros H E. apply (cong_divide p (-1) 1) in E; [|lia]. apply Z.divide_opp_r in E. apply Z.divide_pos_le in E; lia. Qed.

Lemma square_1 p z : prime p -> cong p (z * z) 1 -> cong p z 1 \/ cong p z (-1).
Proof.
  intros P H. assert (p <> 0) by (destruct P; lia).
  apply cong_divide in H; [|assumption]. replace (z * z - 1) with ((z - 1) * (z - -1)) in H by lia.
  destruct (prime_mult p P _ _ H); [left|right]; apply cong_divide; assumption.
Qed.
Lemma not_divide_cong p a b : p <> 0 -> cong p a b -> ~ (p | a) -> ~ (p | b).
Proof.
  intros Hp H Ha [z Hb]. apply Ha. apply Z.mod_divide; [exact Hp|]. rewrite (cong_eq _ _ _ H), Hb. apply Z_mod_mult.
Qed.
Lemma not_divide_pow p a n : prime p -> 0 <= n -> ~ (p | a) -> ~ (p | a ^ n).
Proof.
  intros P Hn Ha. revert n Hn. apply natlike_ind.
  - intros D. apply Z.divide_1_r_nonneg in D; destruct P; lia.
  - intros n Hn IH. rewrite Z.pow_succ_r by exact Hn. intros D. apply prime_mult in D; [|exact P]. tauto.
Qed.
Lemma not_divide_mul p a b : prime p -> ~ (p | a) -> ~ (p | b) -> ~ (p | a * b).
Proof. intros P Ha Hb D. apply prime_mult in D; [|exact P]. tauto. Qed.

Lemma cong_1_dec p a b : p <> 0 -> {cong p a b} + {~ cong p a b}.
Proof.
  intros Hp. destruct (Z.eq_dec (a mod p) (b mod p)) as [E|E]; [left; constructor; exact E|right; intros [H]; exact (E H)].
Qed.

(** ** Logarithms to the base g.  The exponent of two is S k. *)
Definition base (p : Z) (k : nat) (g d : Z) : Prop := cong p (g * d) 1 /\ cong p (g ^ (2 ^ Z.of_nat k)) (-1).

Lemma base_order p k g d : base p k g d -> cong p (g ^ (2 ^ Z.of_nat (S k))) 1.
Proof.
  intros [_ H]. pose proof (pow2_pos k). rewrite pow2_S, Z.mul_comm, powers by lia. rewrite H. reflexivity.
Qed.
Lemma base_mod p k g d m : 0 <= m -> base p k g d -> cong p (g ^ (m mod 2 ^ Z.of_nat (S k))) (g ^ m).
Proof.
  intros Hm B. pose proof (pow2_pos (S k)) as K. pose proof (Z.div_mod m (2 ^ Z.of_nat (S k)) ltac:(lia)) as E.
  pose proof (Z.mod_pos_bound m _ K) as M. set (r := m mod 2 ^ Z.of_nat (S k)) in *. set (q := m / 2 ^ Z.of_nat (S k)) in *.
  assert (0 <= q) by (apply Z.div_pos; lia). rewrite E, Z.pow_add_r, powers by lia. rewrite (base_order p k g d B).
  rewrite Z.pow_1_l by lia. rewrite Z.mul_1_l. reflexivity.
Qed.
Lemma base_pow p k g d r : 0 <= r -> base p k g d -> cong p (g ^ (2 ^ Z.of_nat k * r)) (if Z.even r then 1 else -1).
Proof.
  intros Hr [_ H]. pose proof (pow2_pos k). rewrite powers by lia. rewrite H, neg1_pow by exact Hr. reflexivity.
Qed.
Lemma base_inverse p k g d n : 0 <= n -> base p k g d -> cong p (g ^ n * d ^ n) 1.
Proof. intros Hn [H _]. rewrite <- Z.pow_mul_l. apply cong_1_pow; assumption. Qed.

Lemma base_log p k g d : prime p -> 2 < p -> base p k g d -> forall j h, (j <= S k)%nat -> cong p (h ^ (2 ^ Z.of_nat j)) 1 ->
  exists r, 0 <= r < 2 ^ Z.of_nat j /\ cong p h (g ^ (2 ^ Z.of_nat (S k - j) * r)).
Proof.
  intros P H2 B. induction j as [|j IH]; intros h Hj H.
  - exists 0. split; [cbn; lia|]. rewrite Z.mul_0_r. rewrite Z.pow_1_r in H. exact H.
  - pose proof (pow2_pos j) as Kj. pose proof (pow2_pos (k - j)) as Kd. pose proof (pow2_pos k) as Kk. rewrite pow2_S in H |- *.
    assert (E2 : 2 ^ Z.of_nat (S k - j) = 2 * 2 ^ Z.of_nat (k - j)) by (replace (S k - j)%nat with (S (k - j)) by lia; apply pow2_S).
    assert (En : 2 ^ Z.of_nat (k - j) * 2 ^ Z.of_nat j = 2 ^ Z.of_nat k) by (rewrite <- Z.pow_add_r by lia; f_equal; lia).
    replace (S k - S j)%nat with (k - j)%nat by lia.
    specialize (fun h => IH h ltac:(lia)). rewrite E2 in IH. clear E2 Hj.
    pose proof (base_inverse p k g d (2 ^ Z.of_nat (k - j)) ltac:(clear - Kd; lia) B) as BI. destruct B as [B1 B2].
    generalize dependent (2 ^ Z.of_nat k). generalize dependent (2 ^ Z.of_nat (k - j)). generalize dependent (2 ^ Z.of_nat j).
    clear k j. intros J H Kj n IH Kn BI K B2 Kk En.
    assert (S2 : cong p (h ^ J * h ^ J) 1).
    { rewrite <- Z.pow_add_r by lia. replace (J + J) with (2 * J) by lia. exact H. }
    destruct (square_1 p _ P S2) as [S1|S1].
    + destruct (IH h S1) as (r & Hr & E). exists (2 * r). split; [clear - Hr; lia|]. rewrite E.
      replace (2 * n * r) with (n * (2 * r)) by ring. reflexivity.
    + assert (S1' : cong p ((h * d ^ n) ^ J) 1).
      { rewrite Z.pow_mul_l. rewrite S1. rewrite <- powers by lia. rewrite En.
        rewrite <- B2. rewrite <- Z.pow_mul_l. apply cong_1_pow; [lia|exact B1]. }
      destruct (IH _ S1') as (r & Hr & E). exists (2 * r + 1). split; [clear - Hr; lia|]. assert (Nr : 0 <= 2 * n * r) by (clear - Hr Kn; nia).
      assert (X : cong p (h * (g ^ n * d ^ n)) h) by (rewrite BI, Z.mul_1_r; reflexivity).
      rewrite <- X. replace (h * (g ^ n * d ^ n)) with (h * d ^ n * g ^ n) by ring. rewrite E, <- Z.pow_add_r by (exact Nr || (clear - Kn; lia)).
      replace (2 * n * r + n) with (n * (2 * r + 1)) by ring. reflexivity.
Qed.

(** The logarithm is unique. *)
Lemma base_unique p k g d r s : prime p -> 2 < p -> base p k g d -> 0 <= r < 2 ^ Z.of_nat (S k) -> 0 <= s < 2 ^ Z.of_nat (S k) ->
  cong p (g ^ r) (g ^ s) -> r = s.
Proof.
  intros P H2 B.
  assert (X : forall j, (j <= S k)%nat -> forall t, 0 <= t < 2 ^ Z.of_nat (S k) -> cong p (g ^ t) 1 -> t mod 2 ^ Z.of_nat j = 0).
  { induction j as [|j IH]; intros Hj t Ht E; [apply Z.mod_1_r|].
    specialize (IH ltac:(lia) t Ht E). pose proof (pow2_pos j) as Kj. apply Z.mod_divide in IH; [|lia]. destruct IH as [u ->].
    assert (Hu : 0 <= u) by nia.
    assert (E2 : cong p ((g ^ (u * 2 ^ Z.of_nat j)) ^ (2 ^ Z.of_nat (k - j))) 1) by (apply cong_1_pow; [apply Z.lt_le_incl, pow2_pos|exact E]).
    pose proof (pow2_pos (k - j)). rewrite <- powers in E2 by lia.
    replace (u * 2 ^ Z.of_nat j * 2 ^ Z.of_nat (k - j)) with (2 ^ Z.of_nat k * u) in E2.
    - rewrite (base_pow p k g d u Hu B) in E2. destruct (Z.even u) eqn:Ev; [|destruct (neg1_not_1 p H2 E2)].
      apply Z.even_spec in Ev. destruct Ev as [v ->]. rewrite pow2_S. replace (2 * v * 2 ^ Z.of_nat j) with (v * (2 * 2 ^ Z.of_nat j)) by lia.
      apply Z_mod_mult.
    - rewrite <- Z.mul_assoc, <- Z.pow_add_r by lia. replace (Z.of_nat j + Z.of_nat (k - j)) with (Z.of_nat k) by lia. lia. }
  assert (Y : forall r s, 0 <= r < 2 ^ Z.of_nat (S k) -> 0 <= s < 2 ^ Z.of_nat (S k) -> s <= r -> cong p (g ^ r) (g ^ s) -> r = s).
  { clear r s. intros r s Hr Hs L E. assert (Z0 : cong p (g ^ (r - s)) 1).
    { assert (E1 : cong p (g ^ (r - s) * (g ^ s * d ^ s)) 1).
      { rewrite Z.mul_assoc, <- Z.pow_add_r by lia. replace (r - s + s) with r by lia. rewrite E. apply (base_inverse p k g d s); [lia|exact B]. }
      rewrite (base_inverse p k g d s ltac:(lia) B), Z.mul_1_r in E1. exact E1. }
    specialize (X (S k) (le_n _) (r - s) ltac:(lia) Z0). rewrite Z.mod_small in X by lia. lia. }
  intros Hr Hs E. destruct (Z.le_ge_cases s r); [apply Y; assumption|symmetry; apply Y; try assumption; symmetry; exact E].
Qed.
