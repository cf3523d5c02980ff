(** The Joye-Libert functions compute what the specification says. *)
From Coq Require Import ZArith Znumtheory Zpow_facts List Bool Lia.
From Verif Require Import Res Mem ListLemmas Gmp JoyeModel NumTheory JoyeSpec JoyeMath.
Import ListNotations.
Local Open Scope Z_scope.

(** ** The store *)
Lemma zget_same s v x : (v < length s)%nat -> zget (zset s v x) v = x.
Proof. intros H. unfold zget, zset. rewrite nth_upd, Nat.eqb_refl, (proj2 (Nat.ltb_lt _ _) H). reflexivity. Qed.
Lemma zget_other s v w x : v <> w -> zget (zset s v x) w = zget s w.
Proof. intros H. unfold zget, zset. rewrite nth_upd, (proj2 (Nat.eqb_neq w v)) by congruence. reflexivity. Qed.
Lemma zset_zset s v x y : zset (zset s v x) v y = zset s v y.
Proof. unfold zset. revert v. induction s as [|a s IH]; intros [|v]; cbn [upd]; [reflexivity|reflexivity|reflexivity|]. rewrite IH. reflexivity. Qed.
Lemma zset_length s v x : length (zset s v x) = length s.
Proof. apply upd_length. Qed.

(** ** Inverses and powers *)
Lemma inv_loop_ok m b : 0 < m -> forall fuel r0 r1 t0 t1, 0 <= r1 < r0 -> r0 * r1 < 2 ^ Z.of_nat fuel ->
  cong m (t0 * b) r0 -> cong m (t1 * b) r1 ->
  let '(g, t) := inv_loop fuel r0 r1 t0 t1 in g = Z.gcd r0 r1 /\ cong m (t * b) g.
Proof.
  intros Hm. induction fuel as [|fuel IH]; intros r0 r1 t0 t1 H F C0 C1; cbn [inv_loop].
  { change (2 ^ Z.of_nat 0) with 1 in F. assert (r1 = 0) by nia. subst r1. rewrite Z.gcd_0_r_nonneg by lia. split; [reflexivity|exact C0]. }
  destruct (Z.eqb_spec r1 0) as [->|N0].
  - rewrite Z.gcd_0_r_nonneg by lia. split; [reflexivity|exact C0].
  - pose proof (Z.mod_pos_bound r0 r1 ltac:(lia)) as M. specialize (IH r1 (r0 mod r1) t1 (t0 - r0 / r1 * t1)).
    destruct (inv_loop fuel r1 (r0 mod r1) t1 (t0 - r0 / r1 * t1)) as [g t].
    destruct IH as [E C]; [lia| |exact C1| |].
    + pose proof (Z.div_mod r0 r1 N0) as D. assert (1 <= r0 / r1) by (apply Z.div_le_lower_bound; lia).
      rewrite pow2_S in F. assert (2 * (r0 mod r1) <= r0) by nia. nia.
    + rewrite Z.mul_sub_distr_r, <- Z.mul_assoc. unfold Z.sub. rewrite C1, C0. 
      rewrite (Z.mod_eq r0 r1) by exact N0. rewrite (Z.mul_comm r1). reflexivity.
    + split; [|exact C]. rewrite E, Z.gcd_comm, Z.gcd_mod by exact N0. apply Z.gcd_comm.
Qed.

Lemma inverse_ok b m : 0 < m ->
  match inverse b m with
  | Some i => 0 <= i < m /\ cong m (b * i) 1
  | None => Z.gcd b m <> 1
  end.
Proof.
  intros Hm. unfold inverse. rewrite Z.abs_eq by lia.
  pose proof (Z.mod_pos_bound b m Hm) as B.
  assert (L : let '(g, t) := inv_loop (Z.to_nat (2 * (Z.log2 m + 1))) m (b mod m) 0 1 in g = Z.gcd m (b mod m) /\ cong m (t * b) g).
  { apply inv_loop_ok; try lia.
    - pose proof (Z.log2_nonneg m) as L0. rewrite Z2Nat.id by lia. destruct (Z.log2_spec m Hm) as [_ L].
      replace (2 * (Z.log2 m + 1)) with (Z.succ (Z.log2 m) + Z.succ (Z.log2 m)) by lia. rewrite Z.pow_add_r by lia. nia.
    - constructor. rewrite Z.mul_0_l, Z.mod_0_l, Z_mod_same_full by lia. reflexivity.
    - rewrite Z.mul_1_l. constructor. symmetry. apply Zmod_mod. }
  destruct (inv_loop _ _ _ _ _) as [g t]. destruct L as [E C].
  replace (m =? 0) with false by (symmetry; apply Z.eqb_neq; lia). cbn [orb].
  rewrite Z.gcd_comm, Z.gcd_mod in E by lia. rewrite Z.gcd_comm in E.
  destruct (Z.eqb_spec g 1) as [G|G]; cbn [negb].
  - split; [apply Z.mod_pos_bound; exact Hm|]. rewrite (cong_mod m t), Z.mul_comm. rewrite G in C. exact C.
  - congruence.
Qed.

Lemma powm_pos b e m : 0 < m -> 0 <= e -> mpz_powm b e m = Ret ((b ^ e) mod m).
Proof.
  intros Hm He. unfold mpz_powm. replace (m =? 0) with false by (symmetry; apply Z.eqb_neq; lia).
  replace (0 <=? e) with true by (symmetry; apply Z.leb_le; lia). rewrite Z.abs_eq by lia. rewrite Zpow_mod_correct by lia. reflexivity.
Qed.
Lemma powm_neg b e m : 0 < m -> e < 0 -> Z.gcd b m = 1 ->
  exists i, cong m (b * i) 1 /\ mpz_invert b m = Ret i /\ mpz_powm b e m = Ret ((i ^ (- e)) mod m).
Proof.
  intros Hm He G. unfold mpz_powm. replace (m =? 0) with false by (symmetry; apply Z.eqb_neq; lia).
  replace (0 <=? e) with false by (symmetry; apply Z.leb_gt; lia). unfold mpz_invert.
  pose proof (inverse_ok b m Hm) as I. destruct (inverse b m) as [i|]; [|congruence].
  exists i. split; [apply I|]. split; [reflexivity|]. cbn [bind]. rewrite Z.abs_eq by lia. rewrite Zpow_mod_correct by lia. reflexivity.
Qed.

Lemma prime_gcd p a : prime p -> ~ (p | a) -> Z.gcd a p = 1.
Proof.
  intros P H. apply Zgcd_1_rel_prime. apply rel_prime_sym. apply prime_rel_prime; assumption.
Qed.

(** ** Decryption *)
Definition expo (p : Z) (k : nat) : Z := (p - 1) / 2 ^ Z.of_nat k.

Lemma mod_of_cong p a b : cong p a b -> a mod p = b mod p.
Proof. apply cong_eq. Qed.

Section Decrypt.
  Variables (k : nat) (P Y : Z).
  Hypothesis PP : prime P.
  Hypothesis P2 : 2 < P.
  Hypothesis DK : (2 ^ Z.of_nat (S k) | P - 1).
  Hypothesis NR : nonresidue Y P.

  Let e := expo P (S k).

  (** The base and its inverse, with the value of D at the start. *)
  Lemma decrypt_base : exists d, base P k (Y ^ e) d /\ mpz_powm Y (- e) P = Ret (d mod P) /\ 0 < e.
  Proof.
    destruct (g_order k P Y PP P2 DK NR) as [He G]. fold (expo P (S k)) in He, G. fold e in He, G.
    assert (E0 : 0 < e).
    { unfold e, expo. apply Z.div_str_pos. split; [apply pow2_pos|]. apply Z.divide_pos_le; [lia|exact DK]. }
    destruct (powm_neg Y (- e) P ltac:(lia) ltac:(lia) (prime_gcd P Y PP (nonresidue_divide Y P NR))) as (i & Ci & _ & E).
    rewrite Z.opp_involutive in E. exists (i ^ e). split; [|split; [exact E|exact E0]]. split; [|exact G].
    rewrite <- Z.pow_mul_l. apply cong_1_pow; [exact He|exact Ci].
  Qed.

  Lemma decrypt_loop g d s m p M : base P k g d -> (m < length s)%nat -> m <> p -> zget s p = P -> 0 <= M < 2 ^ Z.of_nat (S k) ->
    for_n (S k - 1) 1 (decrypt_step m p (S k)) (zset s m 0, 1, d mod P, (g ^ M) mod P) =
      Ret (zset s m (M mod 2 ^ Z.of_nat k), 2 ^ Z.of_nat k, (d ^ (2 ^ Z.of_nat k)) mod P,
           (g ^ (2 ^ Z.of_nat k * (M / 2 ^ Z.of_nat k))) mod P).
  Proof.
    intros B Lm Np Ep HM. cbn [Nat.sub]. rewrite Nat.sub_0_r.
    pose (st i := (zset s m (M mod 2 ^ Z.of_nat i), 2 ^ Z.of_nat i, (d ^ (2 ^ Z.of_nat i)) mod P,
                   (g ^ (2 ^ Z.of_nat i * (M / 2 ^ Z.of_nat i))) mod P)).
    assert (E : for_n k 1 (decrypt_step m p (S k)) (st 0%nat) = Ret (st k)).
    { apply for_n_steps. intros i Hi. unfold st, decrypt_step.
      rewrite !(zget_other _ m p), Ep by exact Np. unfold pow2. replace (S k - (1 + i))%nat with (k - i)%nat by lia.
      pose proof (pow2_pos i) as Ki. pose proof (pow2_pos (k - i)) as Kd.
      assert (Kk : 2 ^ Z.of_nat k = 2 ^ Z.of_nat i * 2 ^ Z.of_nat (k - i)) by (rewrite <- Z.pow_add_r by lia; f_equal; lia).
      rewrite powm_pos by lia. cbn [bind].
      pose proof (Z.div_mod M (2 ^ Z.of_nat i) ltac:(lia)) as DM. pose proof (Z.mod_pos_bound M _ Ki) as MB.
      set (r := M / 2 ^ Z.of_nat i) in *. assert (Hr : 0 <= r) by (apply Z.div_pos; lia).
      assert (DS : M / 2 ^ Z.of_nat (S i) = r / 2).
      { unfold r. rewrite Z.div_div by lia. rewrite pow2_S. f_equal. lia. }
      assert (MS : M mod 2 ^ Z.of_nat (S i) = M mod 2 ^ Z.of_nat i + 2 ^ Z.of_nat i * (r mod 2)).
      { unfold r. rewrite pow2_S, (Z.mul_comm 2). apply Z.rem_mul_r; lia. }
      assert (ZV : ((g ^ (2 ^ Z.of_nat i * r) mod P) ^ 2 ^ Z.of_nat (k - i)) mod P = if Z.even r then 1 else P - 1).
      { assert (C : cong P ((g ^ (2 ^ Z.of_nat i * r) mod P) ^ 2 ^ Z.of_nat (k - i)) (if Z.even r then 1 else -1)).
        { rewrite cong_mod, <- powers by nia. replace (2 ^ Z.of_nat i * r * 2 ^ Z.of_nat (k - i)) with (2 ^ Z.of_nat k * r) by (rewrite Kk; ring).
          apply (base_pow P k g d); assumption. }
        rewrite (cong_eq _ _ _ C). destruct (Z.even r); [apply Z.mod_1_l; lia|symmetry; apply (Z.mod_unique_pos _ _ (-1)); lia]. }
      rewrite ZV.
      assert (DD : ((d ^ 2 ^ Z.of_nat i mod P) ^ 2) mod P = d ^ 2 ^ Z.of_nat (S i) mod P).
      { apply cong_eq. rewrite cong_mod, <- powers by lia. rewrite pow2_S, (Z.mul_comm 2). reflexivity. }
      rewrite DS, MS, pow2_S. destruct (Z.even r) eqn:Ev.
      - change (negb (1 =? 1)) with false. cbn [bind].
        rewrite ?(zget_other _ m p), ?Ep by exact Np. rewrite powm_pos by lia. cbn [bind]. rewrite DD.
        apply Z.even_spec in Ev. destruct Ev as [v Ev].
        assert (R2 : r mod 2 = 0) by (rewrite Ev, Z.mul_comm; apply Z_mod_mult).
        assert (V2 : r / 2 = v) by (rewrite Ev, Z.mul_comm; apply Z.div_mul; discriminate).
        rewrite R2, V2, Z.mul_0_r, Z.add_0_r, Ev. rewrite <- pow2_S.
        replace (2 ^ Z.of_nat i * (2 * v)) with (2 ^ Z.of_nat (S i) * v) by (rewrite pow2_S; ring).
        do 4 f_equal. rewrite pow2_S. lia.
      - replace (negb (P - 1 =? 1)) with true by (symmetry; apply negb_true_iff, Z.eqb_neq; lia).
        rewrite zget_same, zset_zset by exact Lm. rewrite ?(zget_other _ m p), ?Ep by exact Np.
        unfold mpz_mod. replace (P =? 0) with false by (symmetry; apply Z.eqb_neq; lia). rewrite Z.abs_eq by lia. cbn [bind].
        rewrite ?(zget_other _ m p), ?Ep by exact Np. rewrite powm_pos by lia. cbn [bind]. rewrite DD.
        assert (O : Z.odd r = true) by (rewrite <- Z.negb_even, Ev; reflexivity). apply Z.odd_spec in O. destruct O as [v O].
        assert (R2 : r mod 2 = 1) by (rewrite O, Z.add_comm, Z.mul_comm, Z_mod_plus_full; reflexivity).
        assert (V2 : r / 2 = v) by (rewrite O, Z.add_comm, Z.mul_comm, Z.div_add by discriminate; reflexivity).
        rewrite R2, V2, Z.mul_1_r, O.
        assert (CC : ((g ^ (2 ^ Z.of_nat i * (2 * v + 1)) mod P) * (d ^ 2 ^ Z.of_nat i mod P)) mod P = (g ^ (2 * 2 ^ Z.of_nat i * v)) mod P).
        { apply cong_eq. rewrite !cong_mod. replace (2 ^ Z.of_nat i * (2 * v + 1)) with (2 * 2 ^ Z.of_nat i * v + 2 ^ Z.of_nat i) by ring.
          assert (Hv : 0 <= 2 * 2 ^ Z.of_nat i * v) by (apply Z.mul_nonneg_nonneg; [clear - Ki; lia|clear - O Hr; lia]).
          rewrite Z.pow_add_r by (exact Hv || (clear - Ki; lia)). rewrite <- Z.mul_assoc. rewrite (base_inverse P k g d _ (Z.lt_le_incl _ _ Ki) B). rewrite Z.mul_1_r. reflexivity. }
        rewrite CC, pow2_S. replace (2 ^ Z.of_nat i + 2 ^ Z.of_nat i) with (2 * 2 ^ Z.of_nat i) by ring. reflexivity. }
    unfold st in E at 1. change (Z.of_nat 0) with 0 in E. rewrite !Z.pow_0_r, Z.pow_1_r, Z.mod_1_r, Z.div_1_r, Z.mul_1_l in E. exact E.
  Qed.

  (** A ciphertext whose power is g^M is decrypted to M. *)
  Lemma decrypt_ok s m c p y M : (m < length s)%nat -> m <> c -> m <> p -> m <> y -> zget s p = P -> zget s y = Y ->
    0 <= M < 2 ^ Z.of_nat (S k) -> cong P (zget s c ^ e) ((Y ^ e) ^ M) ->
    joye_libert_decrypt s m c p y (S k) = Ret (zset s m M).
  Proof.
    intros Lm Nc Np Ny Ep Ey HM HC. destruct decrypt_base as (d & B & ED & He).
    unfold joye_libert_decrypt. rewrite !(zget_other _ m p), !(zget_other _ m y), !(zget_other _ m c), Ep, Ey by assumption.
    pose proof (pow2_pos (S k)) as K. unfold mpz_divexact, pow2.
    replace (2 ^ Z.of_nat (S k) =? 0) with false by (symmetry; apply Z.eqb_neq; lia).
    rewrite (proj2 (Z.mod_divide (P - 1) (2 ^ Z.of_nat (S k)) ltac:(lia)) DK). rewrite Z.eqb_refl. cbn [bind].
    fold (expo P (S k)). fold e. rewrite ED. cbn [bind]. rewrite powm_pos by lia. cbn [bind].
    rewrite (cong_eq _ _ _ HC). set (g := Y ^ e) in *.
    rewrite (decrypt_loop g d s m p M B Lm Np Ep HM). cbn [bind].
    pose proof (pow2_pos k) as Kk. rewrite pow2_S in HM.
    pose proof (Z.div_mod M (2 ^ Z.of_nat k) ltac:(lia)) as DM. pose proof (Z.mod_pos_bound M _ Kk) as MB.
    pose proof (base_pow P k g d (M / 2 ^ Z.of_nat k) (Z.div_pos _ _ (proj1 HM) Kk) B) as C.
    assert (Q : M / 2 ^ Z.of_nat k < 2) by (apply Z.div_lt_upper_bound; lia).
    assert (Q0 : 0 <= M / 2 ^ Z.of_nat k) by (apply Z.div_pos; lia).
    rewrite (cong_eq _ _ _ C). rewrite zget_same, zset_zset by exact Lm.
    assert (Q1 : M / 2 ^ Z.of_nat k = 0 \/ M / 2 ^ Z.of_nat k = 1) by lia. destruct Q1 as [Q1|Q1]; rewrite Q1 in *.
    - change (Z.even 0) with true. cbv iota. rewrite Z.mod_1_l by lia. change (negb (1 =? 1)) with false. cbv iota. f_equal. f_equal. clear - DM; lia.
    - change (Z.even 1) with false. cbv iota. replace ((-1) mod P) with (P - 1) by (apply (Z.mod_unique_pos _ _ (-1)); lia).
      replace (negb (P - 1 =? 1)) with true by (symmetry; apply negb_true_iff, Z.eqb_neq; lia). f_equal. f_equal. clear - DM; lia.
  Qed.

  (** Every ciphertext that p does not divide has such an M. *)
  Lemma decrypt_log c : ~ (P | c) -> exists M, 0 <= M < 2 ^ Z.of_nat (S k) /\ cong P (c ^ e) ((Y ^ e) ^ M).
  Proof.
    intros Hc. destruct decrypt_base as (d & B & _ & He).
    assert (E : e * 2 ^ Z.of_nat (S k) = P - 1).
    { unfold e, expo. rewrite Z.mul_comm. symmetry. apply Z_div_exact_full_2; [pose proof (pow2_pos (S k)); lia|].
      apply Z.mod_divide; [pose proof (pow2_pos (S k)); lia|exact DK]. }
    destruct (base_log P k _ d PP P2 B (S k) (c ^ e) (le_n _)) as (r & Hr & C).
    - pose proof (pow2_pos (S k)). rewrite <- powers by lia. rewrite E. constructor. rewrite Z.mod_1_l by lia. apply fermat_Z; assumption.
    - exists r. split; [exact Hr|]. rewrite Nat.sub_diag in C. change (2 ^ Z.of_nat 0) with 1 in C. rewrite Z.mul_1_l in C. exact C.
  Qed.
  Lemma decrypt_unique c M M' : 0 <= M < 2 ^ Z.of_nat (S k) -> 0 <= M' < 2 ^ Z.of_nat (S k) ->
    cong P (c ^ e) ((Y ^ e) ^ M) -> cong P (c ^ e) ((Y ^ e) ^ M') -> M = M'.
  Proof.
    intros HM HM' C C'. destruct decrypt_base as (d & B & _). apply (base_unique P k _ d _ _ PP P2 B HM HM').
    rewrite <- C. exact C'.
  Qed.

  (** A ciphertext that p divides, and one that is overwritten at the start: the result has all bits set. *)
  Lemma decrypt_zero_loop d s m p : (m < length s)%nat -> m <> p -> zget s p = P ->
    for_n (S k - 1) 1 (decrypt_step m p (S k)) (zset s m 0, 1, d mod P, 0) =
      Ret (zset s m (2 ^ Z.of_nat k - 1), 2 ^ Z.of_nat k, (d ^ (2 ^ Z.of_nat k)) mod P, 0).
  Proof.
    intros Lm Np Ep. cbn [Nat.sub]. rewrite Nat.sub_0_r.
    pose (st i := (zset s m (2 ^ Z.of_nat i - 1), 2 ^ Z.of_nat i, (d ^ (2 ^ Z.of_nat i)) mod P, 0)).
    assert (E : for_n k 1 (decrypt_step m p (S k)) (st 0%nat) = Ret (st k)).
    { apply for_n_steps. intros i Hi. unfold st, decrypt_step.
      rewrite !(zget_other _ m p), Ep by exact Np. unfold pow2.
      pose proof (pow2_pos i) as Ki. pose proof (pow2_pos (S k - (1 + i))) as Kd.
      rewrite powm_pos by lia. cbn [bind]. rewrite Z.pow_0_l, Z.mod_0_l by lia.
      change (negb (0 =? 1)) with true. cbv iota. rewrite zget_same, zset_zset by exact Lm.
      unfold mpz_mod. replace (P =? 0) with false by (symmetry; apply Z.eqb_neq; lia). rewrite Z.abs_eq by lia.
      rewrite Z.mul_0_l, Z.mod_0_l by lia. cbn [bind]. rewrite (zget_other _ m p), Ep by exact Np. rewrite powm_pos by lia. cbn [bind].
      assert (DD : ((d ^ 2 ^ Z.of_nat i mod P) ^ 2) mod P = d ^ 2 ^ Z.of_nat (S i) mod P).
      { apply cong_eq. rewrite cong_mod, <- powers by lia. rewrite pow2_S, (Z.mul_comm 2). reflexivity. }
      rewrite DD, pow2_S. replace (2 ^ Z.of_nat i - 1 + 2 ^ Z.of_nat i) with (2 * 2 ^ Z.of_nat i - 1) by ring.
      replace (2 ^ Z.of_nat i + 2 ^ Z.of_nat i) with (2 * 2 ^ Z.of_nat i) by ring. reflexivity. }
    unfold st in E at 1. change (2 ^ Z.of_nat 0) with 1 in E. rewrite Z.pow_1_r in E. exact E.
  Qed.
  Lemma decrypt_zero s m c p y : (m < length s)%nat -> m <> p -> m <> y -> zget s p = P -> zget s y = Y ->
    m = c \/ (P | zget s c) ->
    joye_libert_decrypt s m c p y (S k) = Ret (zset s m (2 ^ Z.of_nat (S k) - 1)).
  Proof.
    intros Lm Np Ny Ep Ey HC. destruct decrypt_base as (d & B & ED & He).
    assert (C0 : (zget (zset s m 0) c ^ e) mod P = 0).
    { assert (C : cong P (zget (zset s m 0) c) 0).
      { destruct (Nat.eq_dec m c) as [->|N]; [rewrite zget_same by exact Lm; reflexivity|]. rewrite zget_other by exact N.
        destruct HC as [HC|HC]; [contradiction|]. constructor. rewrite Z.mod_0_l by lia. apply Z.mod_divide; [lia|exact HC]. }
      apply (cong_pow P _ _ e) in C. rewrite Z.pow_0_l in C by exact He. rewrite (cong_eq _ _ _ C). apply Z.mod_0_l. lia. }
    unfold joye_libert_decrypt. rewrite !(zget_other _ m p), !(zget_other _ m y), Ep, Ey by assumption.
    pose proof (pow2_pos (S k)) as K. unfold mpz_divexact, pow2.
    replace (2 ^ Z.of_nat (S k) =? 0) with false by (symmetry; apply Z.eqb_neq; lia).
    rewrite (proj2 (Z.mod_divide (P - 1) (2 ^ Z.of_nat (S k)) ltac:(lia)) DK). rewrite Z.eqb_refl. cbn [bind].
    fold (expo P (S k)). fold e. rewrite ED. cbn [bind]. rewrite powm_pos by lia. cbn [bind]. rewrite C0.
    rewrite (decrypt_zero_loop d s m p Lm Np Ep). cbn [bind]. change (negb (0 =? 1)) with true. cbv iota.
    rewrite zget_same, zset_zset by exact Lm. rewrite pow2_S. f_equal. f_equal. ring.
  Qed.
End Decrypt.

(** Message size 0: the result is 0 for a ciphertext that p does not divide. *)
Lemma decrypt_size0 s m c p y : (m < length s)%nat -> m <> c -> m <> p -> m <> y ->
  prime (zget s p) -> 2 < zget s p -> ~ (zget s p | zget s y) -> ~ (zget s p | zget s c) ->
  joye_libert_decrypt s m c p y 0 = Ret (zset s m 0).
Proof.
  intros Lm Nc Np Ny PP P2 Hy Hc. unfold joye_libert_decrypt.
  rewrite !(zget_other _ m p), !(zget_other _ m y), !(zget_other _ m c) by assumption.
  unfold mpz_divexact, pow2. change (2 ^ Z.of_nat 0) with 1. rewrite Z.mod_1_r, Z.div_1_r. cbn [Z.eqb bind].
  destruct (powm_neg (zget s y) (- (zget s p - 1)) (zget s p)) as (i & _ & _ & E); try lia.
  { apply prime_gcd; assumption. }
  rewrite E. cbn [bind]. rewrite powm_pos by lia. cbn [bind Nat.sub for_n]. rewrite fermat_Z by assumption. reflexivity.
Qed.

(** ** Encryption *)
(** The random number used is the first one that is not a multiple of N. *)
Fixpoint first_draw (fuel : nat) (g : rng) (N : Z) : option (Z * rng) :=
  match fuel with
  | O => None
  | S f => let x := g 0%nat mod N in if x =? 0 then first_draw f (rng_tail g) N else Some (x, rng_tail g)
  end.

Lemma draw_ok N : 0 < N -> forall fuel g,
  while (S fuel) (fun '(x, _) => x =? 0) (fun '(_, g) => mpz_urandomm g N) (0, g) =
    match first_draw fuel g N with Some r => Ret r | None => NoFuel end.
Proof.
  intros HN. induction fuel as [|fuel IH]; intros g.
  - cbn [while first_draw]. unfold mpz_urandomm. replace (N =? 0) with false by (symmetry; apply Z.eqb_neq; lia). reflexivity.
  - cbn [first_draw]. cbn [while] in *. change (0 =? 0) with true in *. cbv iota in *.
    unfold mpz_urandomm in *. replace (N =? 0) with false in * by (symmetry; apply Z.eqb_neq; lia). cbn [bind] in *.
    rewrite Z.abs_eq in * by lia. destruct (Z.eqb_spec (g 0%nat mod N) 0) as [E|E]; [|reflexivity].
    exact (IH (rng_tail g)).
Qed.
Lemma first_draw_bounds N : 0 < N -> forall fuel g x g', first_draw fuel g N = Some (x, g') -> 0 < x < N.
Proof.
  intros HN. induction fuel as [|fuel IH]; intros g x g' H; [discriminate|]. cbn [first_draw] in H.
  destruct (Z.eqb_spec (g 0%nat mod N) 0) as [E|E]; [exact (IH _ _ _ H)|]. injection H as <- _.
  pose proof (Z.mod_pos_bound (g 0%nat) N HN). lia.
Qed.
Lemma first_draw_more N fuel fuel' : (fuel <= fuel')%nat -> forall g r, first_draw fuel g N = Some r -> first_draw fuel' g N = Some r.
Proof.
  revert fuel'. induction fuel as [|fuel IH]; intros fuel' L g r H; [discriminate|].
  destruct fuel' as [|fuel']; [lia|]. cbn [first_draw] in *. destruct (_ =? 0); [|exact H]. apply IH; [lia|exact H].
Qed.

Lemma encrypt_ok fuel s c g m y N msgsize : (c < length s)%nat -> 0 < zget s N -> 0 <= zget s m -> c <> N ->
  joye_libert_encrypt (S fuel) s c g m y N msgsize =
    match first_draw fuel g (zget s N) with
    | Some (x, g') => Ret (zset s c (encryption msgsize (zget s y) (zget s N) (zget s m) x), g')
    | None => NoFuel
    end.
Proof.
  intros Lc HN Hm Ncn. unfold joye_libert_encrypt. rewrite draw_ok by exact HN.
  destruct (first_draw fuel g (zget s N)) as [[x g']|]; [|reflexivity]. cbn [bind].
  rewrite powm_pos by assumption. cbn [bind]. rewrite powm_pos; [|assumption|unfold pow2; pose proof (pow2_pos msgsize); lia]. cbn [bind].
  rewrite zget_same by exact Lc. rewrite zget_other by exact Ncn.
  unfold mpz_mod. replace (zget s N =? 0) with false by (symmetry; apply Z.eqb_neq; lia). rewrite Z.abs_eq by lia. cbn [bind].
  rewrite zset_zset. unfold encryption, pow2. rewrite <- Zmult_mod. reflexivity.
Qed.

(** ** Key generation *)
(** An invariant of a loop holds where it stops, together with the negated condition. *)
Lemma while_post {A} (I : A -> Prop) (c : A -> bool) (b : A -> res A) :
  (forall a a', I a -> c a = true -> b a = Ret a' -> I a') ->
  forall fuel a a', I a -> while fuel c b a = Ret a' -> I a' /\ c a' = false.
Proof.
  intros Hb. induction fuel as [|fuel IH]; intros a a' Ia H; cbn [while] in H; [discriminate|].
  destruct (c a) eqn:E; [|apply Ret_inj in H; subst a'; split; assumption].
  destruct (b a) as [a1| |] eqn:B; cbn [bind] in H; try discriminate. exact (IH a1 a' (Hb a a1 Ia E B) H).
Qed.

Lemma find_p_ok G fuel k t P : (2 ^ Z.of_nat k | t - 1) -> find_p G fuel (pow2 k) t = Ret P ->
  probab_prime G P = true /\ probab_prime G ((P - 1) / 2 ^ Z.of_nat k) = true /\ (2 ^ Z.of_nat k | P - 1).
Proof.
  intros D H. unfold find_p in H.
  pose (I := fun a : Z * bool => (2 ^ Z.of_nat k | fst a - 1) /\
    (snd a = true -> probab_prime G (fst a) = true /\ probab_prime G ((fst a - 1) / 2 ^ Z.of_nat k) = true)).
  destruct (while _ _ _ _) as [[t' fnd]| |] eqn:W; cbn [bind] in H; try discriminate. apply Ret_inj in H. subst t'.
  apply (while_post I) in W.
  - destruct W as [[D' W] C]. cbn [fst snd] in *. apply negb_false_iff in C. destruct (W C). tauto.
  - intros [t1 f1] a' [D1 _] _. cbn [fst snd] in *. unfold mpz_divexact, pow2.
    pose proof (pow2_pos k) as K. replace (2 ^ Z.of_nat k =? 0) with false by (symmetry; apply Z.eqb_neq; lia).
    rewrite (proj2 (Z.mod_divide (t1 - 1) _ (not_eq_sym (Z.lt_neq _ _ K))) D1), Z.eqb_refl.
    destruct (probab_prime G t1) eqn:E1; cbn [bind].
    + destruct (probab_prime G ((t1 - 1) / 2 ^ Z.of_nat k)) eqn:E2; intros H; apply Ret_inj in H; subst a'; split; cbn [fst snd]; try tauto; try discriminate.
      replace (t1 + 2 ^ Z.of_nat k - 1) with ((t1 - 1) + 2 ^ Z.of_nat k) by ring. apply Z.divide_add_r; [exact D1|apply Z.divide_refl].
    + intros H; apply Ret_inj in H; subst a'; split; cbn [fst snd]; try discriminate.
      replace (t1 + 2 ^ Z.of_nat k - 1) with ((t1 - 1) + 2 ^ Z.of_nat k) by ring. apply Z.divide_add_r; [exact D1|apply Z.divide_refl].
  - split; cbn [fst snd]; [exact D|discriminate].
Qed.

Lemma find_q_ok G fuel t Q : find_q G fuel t = Ret Q -> probab_prime G Q = true /\ Q mod 4 = 3.
Proof.
  intros H. unfold find_q in H.
  pose (I := fun a : Z * bool => snd a = true -> probab_prime G (fst a) = true /\ fst a mod 4 = 3).
  destruct (while _ _ _ _) as [[t' fnd]| |] eqn:W; cbn [bind] in H; try discriminate. apply Ret_inj in H. subst t'.
  apply (while_post I) in W.
  - destruct W as [W C]. apply negb_false_iff in C. exact (W C).
  - intros [t1 f1] a' _ _. destruct (probab_prime G t1) eqn:E1; cbn [andb].
    + destruct (Z.eqb_spec (t1 mod 4) 3) as [E|E]; intros H; apply Ret_inj in H; subst a'; intros F; cbn [fst snd] in *; [tauto|discriminate].
    + intros H; apply Ret_inj in H; subst a'. intros F. discriminate.
  - intros F. discriminate.
Qed.

Lemma find_y_ok G fuel s N y p q g s' : (y < length s)%nat -> y <> N -> y <> p -> 0 < zget s N ->
  find_y G fuel s N y p q g = Ret s' ->
  exists v, s' = zset s y v /\ 0 <= v < zget s N /\ legendre G v (zget s p) = -1 /\ legendre G v q = -1.
Proof.
  intros Ly Nn Np HN H. unfold find_y in H.
  destruct (while _ _ _ _) as [[t' g']| |] eqn:W; cbn [bind] in H; try discriminate. apply Ret_inj in H. subst t'.
  apply (while_post (fun a : store * rng => exists v, fst a = zset s y v /\ 0 <= v < zget s N)) in W.
  - destruct W as [[v [E B]] C]. cbn [fst] in E. subst s'. exists v.
    apply orb_false_iff in C. rewrite !negb_false_iff, !Z.eqb_eq in C. rewrite zget_same, zget_other in C by assumption. tauto.
  - intros [s1 g1] a' [v [E B]] _. cbn [fst] in E. subst s1. unfold mpz_urandomm. rewrite zget_other by exact Nn.
    replace (zget s N =? 0) with false by (symmetry; apply Z.eqb_neq; lia). cbn [bind]. intros H; apply Ret_inj in H; subst a'. cbn [fst].
    rewrite zset_zset, Z.abs_eq by lia. eexists. split; [reflexivity|]. apply Z.mod_pos_bound. exact HN.
  - exists 0. cbn [fst]. split; [reflexivity|lia].
Qed.

Lemma keygen_start k x : mpz_mod x (pow2 k) = Ret (x mod 2 ^ Z.of_nat k) /\ (2 ^ Z.of_nat k | x - x mod 2 ^ Z.of_nat k + 1 - 1).
Proof.
  pose proof (pow2_pos k) as K. unfold mpz_mod, pow2. replace (2 ^ Z.of_nat k =? 0) with false by (symmetry; apply Z.eqb_neq; lia).
  rewrite Z.abs_eq by lia. split; [reflexivity|]. exists (x / 2 ^ Z.of_nat k). rewrite Z.mod_eq by lia. ring.
Qed.

(** What the tests of keygen guarantee, whatever the random numbers. *)
Lemma keygen_ok G fuel s N y p k keysize s' :
  (forall n, probab_prime G n = true -> 1 < n) ->
  (N < length s)%nat -> (y < length s)%nat -> (p < length s)%nat -> N <> y -> N <> p -> y <> p ->
  joye_libert_keygen G fuel s N y p k keysize = Ret s' ->
  exists P Q Y, s' = zset (zset (zset s p P) N (P * Q)) y Y /\
    probab_prime G P = true /\ probab_prime G ((P - 1) / 2 ^ Z.of_nat k) = true /\ (2 ^ Z.of_nat k | P - 1) /\
    probab_prime G Q = true /\ Q mod 4 = 3 /\ 0 <= Y < P * Q /\ legendre G Y P = -1 /\ legendre G Y Q = -1.
Proof.
  intros PG LN Ly Lp Ny Np Yp H. unfold joye_libert_keygen, mpz_urandomb in H. cbv beta zeta in H. 
  destruct (keygen_start k (mt G 0%nat mod 2 ^ Z.of_nat (keysize / 2))) as [E D]. rewrite E in H. cbn [bind] in H.
  destruct (find_p _ _ _ _) as [P| |] eqn:FP; cbn [bind] in H; try discriminate. apply (find_p_ok _ _ _ _ _ D) in FP.
  destruct (find_q _ _ _) as [Q| |] eqn:FQ; cbn [bind] in H; try discriminate. apply find_q_ok in FQ.
  pose proof (PG P (proj1 FP)). pose proof (PG Q (proj1 FQ)).
  rewrite zget_same in H by exact Lp.
  apply find_y_ok in H; [|rewrite !zset_length; exact Ly|congruence|congruence|rewrite zget_same by (rewrite zset_length; exact LN); nia].
  destruct H as (v & -> & B & L1 & L2). rewrite zget_same in B by (rewrite zset_length; exact LN).
  rewrite (zget_other _ N p), zget_same in L1 by assumption. exists P, Q, v. tauto.
Qed.

Lemma while_more {A} (c : A -> bool) (b : A -> res A) fuel fuel' : (fuel <= fuel')%nat ->
  forall a a', while fuel c b a = Ret a' -> while fuel' c b a = Ret a'.
Proof.
  revert fuel'. induction fuel as [|fuel IH]; intros fuel' L a a' H; cbn [while] in H; [discriminate|].
  destruct fuel' as [|fuel']; [lia|]. cbn [while]. destruct (c a); [|exact H].
  destruct (b a) as [a1| |]; cbn [bind] in *; try discriminate. apply IH; [lia|exact H].
Qed.

(** ** The random number of an encryption *)
Lemma iter_swap {A} n (f : A -> A) a : Nat.iter n f (f a) = f (Nat.iter n f a).
Proof. induction n as [|n IH]; [reflexivity|]. cbn [Nat.iter]. change (Nat.iter (S n) f (f a)) with (f (Nat.iter n f (f a))). rewrite IH. reflexivity. Qed.
Lemma first_draw_at N n : forall fuel g, (n < fuel)%nat -> draw g N n -> first_draw fuel g N = Some (g n mod N, Nat.iter (S n) rng_tail g).
Proof.
  induction n as [|n IH]; intros fuel g L [Z0 NZ]; (destruct fuel as [|fuel]; [lia|]); cbn [first_draw].
  - destruct (Z.eqb_spec (g 0%nat mod N) 0) as [E|E]; [contradiction|reflexivity].
  - rewrite (Z0 0%nat ltac:(lia)). change (0 =? 0) with true. cbv iota. rewrite (IH fuel (rng_tail g)); [|lia|].
    + f_equal. f_equal. apply (iter_swap (S n)).
    + split; [intros i Hi; apply (Z0 (S i)); lia|exact NZ].
Qed.
Lemma first_draw_none N : forall fuel g, (forall i, g i mod N = 0) -> first_draw fuel g N = None.
Proof.
  induction fuel as [|fuel IH]; intros g Z0; [reflexivity|]. cbn [first_draw]. rewrite (Z0 0%nat). apply IH. intros i. apply (Z0 (S i)).
Qed.
Lemma first_draw_inv N : forall fuel g x g', first_draw fuel g N = Some (x, g') ->
  exists n, (n < fuel)%nat /\ draw g N n /\ x = g n mod N /\ g' = Nat.iter (S n) rng_tail g.
Proof.
  induction fuel as [|fuel IH]; intros g x g' H; [discriminate|]. cbn [first_draw] in H.
  destruct (Z.eqb_spec (g 0%nat mod N) 0) as [E|E].
  - destruct (IH _ _ _ H) as (n & L & (Z0 & NZ) & -> & ->). exists (S n). split; [lia|]. split; [split|split].
    + intros [|i] Hi; [exact E|apply (Z0 i); lia].
    + exact NZ.
    + reflexivity.
    + apply (iter_swap (S n)).
  - injection H as <- <-. exists 0%nat. split; [lia|]. split; [split; [lia|exact E]|split; reflexivity].
Qed.

(** Encryption for every integer message: a negative exponent uses the inverse of y. *)
Lemma encrypt_any fuel s c g m y N msgsize Y : (c < length s)%nat -> 0 < zget s N -> c <> N ->
  mpz_powm (zget s y) (zget s m) (zget s N) = Ret Y ->
  joye_libert_encrypt (S fuel) s c g m y N msgsize =
    match first_draw fuel g (zget s N) with
    | Some (x, g') => Ret (zset s c ((Y * x ^ 2 ^ Z.of_nat msgsize) mod zget s N), g')
    | None => NoFuel
    end.
Proof.
  intros Lc HN Ncn EY. unfold joye_libert_encrypt. rewrite draw_ok by exact HN.
  destruct (first_draw fuel g (zget s N)) as [[x g']|]; [|reflexivity]. cbn [bind].
  rewrite EY. cbn [bind]. rewrite powm_pos; [|assumption|unfold pow2; pose proof (pow2_pos msgsize); lia]. cbn [bind].
  rewrite zget_same by exact Lc. rewrite zget_other by exact Ncn.
  unfold mpz_mod. replace (zget s N =? 0) with false by (symmetry; apply Z.eqb_neq; lia). rewrite Z.abs_eq by lia. cbn [bind].
  rewrite zset_zset. unfold pow2. rewrite Zmult_mod_idemp_r. reflexivity.
Qed.

(** ** Logarithms of ciphertexts *)
(** [c] has the logarithm [m]: c^e = (y^e)^m modulo p, e = (p-1)/2^k. *)
Definition dlog (k : nat) (P Y C M : Z) : Prop :=
  0 <= M < 2 ^ Z.of_nat k /\ cong P (C ^ expo P k) ((Y ^ expo P k) ^ M).

Section Logs.
  Variables (k : nat) (P Q Y : Z).
  Hypothesis V : valid_key k P Q Y.
  Let e := expo P k.
  Let K := 2 ^ Z.of_nat k.

  Lemma log_e : 0 < e /\ e * K = P - 1.
  Proof.
    destruct V as [PP _ P2 _ D _ _]. unfold e, expo, K. pose proof (pow2_pos k) as H. split.
    - apply Z.div_str_pos. split; [exact H|]. apply Z.divide_pos_le; [lia|exact D].
    - rewrite Z.mul_comm. symmetry. apply Z_div_exact_full_2; [lia|]. apply Z.mod_divide; [lia|exact D].
  Qed.
  Lemma log_one : cong P ((Y ^ e) ^ K) 1.
  Proof.
    destruct log_e as [He E]. rewrite <- powers, E by (unfold K; pose proof (pow2_pos k); lia). constructor.
    pose proof (key_p2 _ _ _ _ V). rewrite Z.mod_1_l by lia. apply fermat_Z; [apply (key_p _ _ _ _ V)|].
    apply nonresidue_divide, (key_yp _ _ _ _ V).
  Qed.
  Lemma log_reduce n : 0 <= n -> cong P ((Y ^ e) ^ (n mod K)) ((Y ^ e) ^ n).
  Proof.
    intros Hn. assert (HK : 0 < K) by apply pow2_pos. pose proof (Z.mod_pos_bound n K HK). 
    rewrite (Z.div_mod n K) at 2 by lia. assert (0 <= n / K) by (apply Z.div_pos; lia).
    rewrite Z.pow_add_r by nia. rewrite powers by lia. rewrite log_one, Z.pow_1_l, Z.mul_1_l by lia. reflexivity.
  Qed.

  Lemma log_mul C1 C2 M1 M2 : dlog k P Y C1 M1 -> dlog k P Y C2 M2 -> dlog k P Y (C1 * C2) ((M1 + M2) mod K).
  Proof.
    intros [B1 H1] [B2 H2]. assert (HK : 0 < K) by apply pow2_pos. split; [apply Z.mod_pos_bound; exact HK|].
    fold e in H1, H2 |- *. rewrite log_reduce by lia. rewrite Z.pow_mul_l, H1, H2, <- Z.pow_add_r by lia. reflexivity.
  Qed.
  Lemma log_cong C C' M : cong P C C' -> dlog k P Y C M -> dlog k P Y C' M.
  Proof. intros H [B E]. split; [exact B|]. rewrite <- H. exact E. Qed.
  Lemma log_pow C M n : 0 <= n -> dlog k P Y C M -> dlog k P Y (C ^ n) ((n * M) mod K).
  Proof.
    intros Hn [B H]. assert (HK : 0 < K) by apply pow2_pos. split; [apply Z.mod_pos_bound; exact HK|].
    fold e in H |- *. pose proof (proj1 log_e). rewrite log_reduce by nia. rewrite <- powers by lia. rewrite (Z.mul_comm n e), powers by lia.
    rewrite H, <- powers by lia. rewrite (Z.mul_comm M). reflexivity.
  Qed.
  Lemma log_inv C M I : dlog k P Y C M -> cong P (C * I) 1 -> dlog k P Y I ((- M) mod K).
  Proof.
    intros [B H] HI. assert (HK : 0 < K) by apply pow2_pos. split; [apply Z.mod_pos_bound; exact HK|].
    fold e in H |- *. pose proof (proj1 log_e). assert (E : cong P (C ^ e * I ^ e) 1) by (rewrite <- Z.pow_mul_l; apply cong_1_pow; [lia|exact HI]).
    rewrite H in E. pose proof (Z.mod_pos_bound (- M) K HK) as MB.
    rewrite <- (Z.mul_1_r (_ ^ ((- M) mod K))), <- E, Z.mul_assoc, <- Z.pow_add_r by (fold K in B; lia).
    rewrite <- (log_reduce (_ + _)) by (fold K in B; lia). rewrite Zplus_mod_idemp_l, Z.add_opp_diag_l, Z.mod_0_l, Z.pow_0_r, Z.mul_1_l by lia. reflexivity.
  Qed.
  Lemma log_y : dlog k P Y Y (1 mod K).
  Proof.
    assert (HK : 0 < K) by apply pow2_pos. split; [apply Z.mod_pos_bound; exact HK|].
    fold e. rewrite log_reduce by lia. rewrite Z.pow_1_r. reflexivity.
  Qed.
  Lemma log_blind x : ~ (P | x) -> dlog k P Y (x ^ K) 0.
  Proof.
    intros Hx. pose proof (pow2_pos k) as HK. split; [lia|]. fold e. destruct log_e as [He E]. unfold K in *.
    rewrite <- powers by lia. rewrite Z.mul_comm, E, Z.pow_0_r. constructor. pose proof (key_p2 _ _ _ _ V).
    rewrite Z.mod_1_l by lia. apply fermat_Z; [apply (key_p _ _ _ _ V)|exact Hx].
  Qed.
  Lemma log_unit C M : dlog k P Y C M -> ~ (P | C).
  Proof.
    intros [B H] D. destruct log_e as [He _]. pose proof (key_p _ _ _ _ V) as PP. pose proof (key_p2 _ _ _ _ V).
    apply (not_divide_cong P ((Y ^ expo P k) ^ M) (C ^ expo P k)); [lia|symmetry; exact H| |].
    - apply not_divide_pow; [exact PP|lia|]. apply not_divide_pow; [exact PP|fold e; lia|]. apply nonresidue_divide, (key_yp _ _ _ _ V).
    - fold e. replace e with (Z.succ (e - 1)) by lia. rewrite Z.pow_succ_r by lia. apply Z.divide_mul_l. exact D.
  Qed.
  Lemma log_exists C : ~ (P | C) -> exists M, dlog k P Y C M.
  Proof.
    intros H. destruct V as [PP _ P2 _ D Hy _]. clear V. destruct k as [|k']; [|exact (decrypt_log k' P Y PP P2 D Hy C H)].
    exists 0. split; [change (2 ^ Z.of_nat 0) with 1; lia|]. rewrite Z.pow_0_r. unfold expo. change (2 ^ Z.of_nat 0) with 1.
    rewrite Z.div_1_r. constructor. rewrite Z.mod_1_l by lia. apply fermat_Z; assumption.
  Qed.
  Lemma log_decrypt s m c p y M : (m < length s)%nat -> m <> c -> m <> p -> m <> y -> zget s p = P -> zget s y = Y ->
    dlog k P Y (zget s c) M -> joye_libert_decrypt s m c p y k = Ret (zset s m M).
  Proof.
    intros Lm Nc Np Ny Ep Ey D. pose proof (log_unit _ _ D) as U. destruct D as [B H].
    destruct V as [PP _ P2 _ DK Hy _]. clear V. destruct k as [|k'].
    - change (2 ^ Z.of_nat 0) with 1 in B. replace M with 0 by lia.
      apply decrypt_size0; try assumption; rewrite ?Ep, ?Ey; try assumption. apply nonresidue_divide, Hy.
    - exact (decrypt_ok k' P Y PP P2 DK Hy s m c p y M Lm Nc Np Ny Ep Ey B H).
  Qed.
  Lemma log_unique C M M' : dlog k P Y C M -> dlog k P Y C M' -> M = M'.
  Proof.
    intros [B H] [B' H']. destruct V as [PP _ P2 _ DK Hy _]. clear V. destruct k as [|k'].
    - change (2 ^ Z.of_nat 0) with 1 in B, B'. lia.
    - exact (decrypt_unique k' P Y PP P2 DK Hy C M M' B B' H H').
  Qed.

  Lemma key_unit C : ~ (P | C) -> ~ (Q | C) -> Z.gcd C (P * Q) = 1.
  Proof.
    intros H1 H2. apply Zgcd_1_rel_prime. apply rel_prime_mult; apply rel_prime_sym, prime_rel_prime; try assumption;
      [apply (key_p _ _ _ _ V)|apply (key_q _ _ _ _ V)].
  Qed.
  Lemma cong_pq a b : cong (P * Q) a b -> cong P a b.
  Proof.
    intros [H]. pose proof (key_p2 _ _ _ _ V). pose proof (key_q2 _ _ _ _ V).
    rewrite <- (cong_mod_mult P Q a), <- (cong_mod_mult P Q b) by lia. rewrite H. reflexivity.
  Qed.
  Lemma log_powm C M n R : dlog k P Y C M -> mpz_powm C n (P * Q) = Ret R -> dlog k P Y R ((n * M) mod K).
  Proof.
    intros D H. pose proof (key_p2 _ _ _ _ V). pose proof (key_q2 _ _ _ _ V). assert (HN : 0 < P * Q) by nia.
    destruct (Z.le_gt_cases 0 n) as [Hn|Hn].
    - rewrite powm_pos in H by assumption. apply Ret_inj in H. subst R.
      apply (log_cong (C ^ n)); [symmetry; apply cong_mod_mult; lia|]. apply log_pow; assumption.
    - unfold mpz_powm in H. replace (P * Q =? 0) with false in H by (symmetry; apply Z.eqb_neq; lia).
      replace (0 <=? n) with false in H by (symmetry; apply Z.leb_gt; lia). unfold mpz_invert in H.
      pose proof (inverse_ok C (P * Q) HN) as I. destruct (inverse C (P * Q)) as [i|]; cbn [bind] in H; [|discriminate].
      apply Ret_inj in H. rewrite Z.abs_eq, Zpow_mod_correct in H by lia. subst R.
      apply (log_cong (i ^ (- n))); [symmetry; apply cong_mod_mult; lia|].
      replace ((n * M) mod K) with ((- n * ((- M) mod K)) mod K).
      + apply log_pow; [lia|]. apply (log_inv C); [exact D|]. apply cong_pq, I.
      + rewrite Zmult_mod_idemp_r. f_equal. ring.
  Qed.
End Logs.

(** ** Key generation without the store *)
Definition find_y_value (G : gmp) (fuel : nat) (n P q : Z) (g : rng) : res Z :=
  let* (v, _) := while fuel (fun '(v, _) => negb (legendre G v P =? -1) || negb (legendre G v q =? -1))
    (fun '(_, g) => mpz_urandomm g n) (0, g) in
  Ret v.
Lemma find_y_eq G fuel s N y p q g : (y < length s)%nat -> y <> N -> y <> p ->
  find_y G fuel s N y p q g = let* v := find_y_value G fuel (zget s N) (zget s p) q g in Ret (zset s y v).
Proof.
  intros Ly Nn Np. unfold find_y, find_y_value. generalize 0 at 1 2. revert g.
  induction fuel as [|fuel IH]; intros g v; [reflexivity|]. cbn [while].
  rewrite zget_same, zget_other by assumption. destruct (_ || _); [|reflexivity].
  rewrite zget_other by exact Nn. destruct (mpz_urandomm g (zget s N)) as [[v' g']| |]; [|reflexivity|reflexivity].
  cbn [bind]. rewrite zset_zset. apply IH.
Qed.
Definition keygen_values (G : gmp) (fuel : nat) (k keysize : nat) : res (Z * Z * Z) :=
  let x := mt G 0%nat mod 2 ^ Z.of_nat (keysize / 2) in
  let* P := find_p G fuel (pow2 k) (x - x mod 2 ^ Z.of_nat k + 1) in
  let* Q := find_q G fuel (nextprime G (mt G 1%nat mod 2 ^ Z.of_nat (keysize / 2))) in
  let* Y := find_y_value G fuel (P * Q) P Q (rng_tail (rng_tail (mt G))) in
  Ret (P, Q, Y).
Lemma keygen_eq G fuel s N y p k keysize :
  (N < length s)%nat -> (y < length s)%nat -> (p < length s)%nat -> N <> y -> N <> p -> y <> p ->
  joye_libert_keygen G fuel s N y p k keysize =
    let* (P, Q, Y) := keygen_values G fuel k keysize in Ret (zset (zset (zset s p P) N (P * Q)) y Y).
Proof.
  intros LN Ly Lp Ny Np Yp. unfold joye_libert_keygen, keygen_values, mpz_urandomb.
  cbv beta zeta. rewrite (proj1 (keygen_start k _)). cbn [bind].
  destruct (find_p _ _ _ _) as [P| |]; cbn [bind]; try reflexivity. unfold rng_tail at 1.
  destruct (find_q _ _ _) as [Q| |]; cbn [bind]; try reflexivity.
  rewrite find_y_eq; [|rewrite !zset_length; exact Ly|congruence|congruence].
  rewrite zget_same by (rewrite zset_length; exact LN). rewrite (zget_other _ N p), !zget_same by assumption.
  destruct (find_y_value _ _ _ _ _ _) as [Y| |]; reflexivity.
Qed.
Lemma keygen_values_more G fuel fuel' k keysize r : (fuel <= fuel')%nat ->
  keygen_values G fuel k keysize = Ret r -> keygen_values G fuel' k keysize = Ret r.
Proof.
  intros L. unfold keygen_values, find_p, find_q, find_y_value. cbv zeta.
  intros H.
  destruct (while fuel _ _ _) as [[P f1]| |] eqn:W1 in H; cbn [bind] in H; try discriminate.
  apply (while_more _ _ _ _ L) in W1. rewrite W1. cbn [bind].
  destruct (while fuel _ _ _) as [[Q f2]| |] eqn:W2 in H; cbn [bind] in H; try discriminate.
  apply (while_more _ _ _ _ L) in W2. rewrite W2. cbn [bind].
  destruct (while fuel _ _ _) as [[Y f3]| |] eqn:W3 in H; cbn [bind] in H; try discriminate.
  apply (while_more _ _ _ _ L) in W3. rewrite W3. exact H.
Qed.
(** It never does anything undefined. *)
Lemma while_no_ub {A} (I : A -> Prop) (c : A -> bool) (b : A -> res A) :
  (forall a, I a -> c a = true -> exists a', b a = Ret a' /\ I a') -> forall fuel a, I a -> while fuel c b a <> UB.
Proof.
  intros Hb. induction fuel as [|fuel IH]; intros a Ia; cbn [while]; [discriminate|].
  destruct (c a) eqn:E; [|discriminate]. destruct (Hb a Ia E) as (a' & -> & Ia'). cbn [bind]. apply IH. exact Ia'.
Qed.
Lemma keygen_values_no_ub G fuel k keysize : (forall n, probab_prime G n = true -> 1 < n) -> keygen_values G fuel k keysize <> UB.
Proof.
  intros PG. unfold keygen_values. cbv zeta.
  destruct (keygen_start k (mt G 0%nat mod 2 ^ Z.of_nat (keysize / 2))) as [_ D].
  match goal with |- context [find_p G fuel (pow2 k) ?t] => set (t0 := t) in * end.
  destruct (find_p G fuel (pow2 k) t0) as [P| |] eqn:FP; cbn [bind]; [| |discriminate].
  2:{ exfalso. unfold find_p in FP. destruct (while _ _ _ _) as [[t' f]| |] eqn:W in FP; cbn [bind] in FP; try discriminate.
      revert W. apply (while_no_ub (fun a : Z * bool => (2 ^ Z.of_nat k | fst a - 1))); [|exact D].
      intros [t1 f1] D1 _. cbn [fst] in *. unfold mpz_divexact, pow2. pose proof (pow2_pos k) as K.
      replace (2 ^ Z.of_nat k =? 0) with false by (symmetry; apply Z.eqb_neq; lia).
      rewrite (proj2 (Z.mod_divide (t1 - 1) _ (not_eq_sym (Z.lt_neq _ _ K))) D1), Z.eqb_refl.
      assert (D2 : (2 ^ Z.of_nat k | t1 + 2 ^ Z.of_nat k - 1)).
      { replace (t1 + 2 ^ Z.of_nat k - 1) with ((t1 - 1) + 2 ^ Z.of_nat k) by ring. apply Z.divide_add_r; [exact D1|apply Z.divide_refl]. }
      destruct (probab_prime G t1); cbn [bind]; [destruct (probab_prime G _)|]; eexists; (split; [reflexivity|]); assumption. }
  apply (find_p_ok _ _ _ _ _ D) in FP.
  destruct (find_q _ _ _) as [Q| |] eqn:FQ; cbn [bind]; [| |discriminate].
  2:{ exfalso. unfold find_q in FQ. destruct (while _ _ _ _) as [[t' f]| |] eqn:W in FQ; cbn [bind] in FQ; try discriminate.
      revert W. apply (while_no_ub (fun _ => True)); [|exact I].
      intros [t1 f1] _ _. destruct (_ && _); eexists; split; try reflexivity; exact I. }
  apply find_q_ok in FQ. pose proof (PG P (proj1 FP)). pose proof (PG Q (proj1 FQ)).
  unfold find_y_value. destruct (while _ _ _ _) as [[v g]| |] eqn:W; cbn [bind]; [discriminate| |discriminate].
  exfalso. revert W. apply (while_no_ub (fun _ => True)); [|exact I].
  intros [v g] _ _. unfold mpz_urandomm. replace (P * Q =? 0) with false by (symmetry; apply Z.eqb_neq; nia). eexists. split; [reflexivity|exact I].
Qed.

(** The search for p stops at the first candidate that passes. *)
Lemma while_trace {A} (I : A -> Prop) (c : A -> bool) (b : A -> res A) fuel a a' :
  (forall a a', I a -> c a = true -> b a = Ret a' -> I a') -> I a -> while fuel c b a = Ret a' -> I a'.
Proof. intros H Ia W. exact (proj1 (while_post I c b H fuel a a' Ia W)). Qed.
Lemma find_p_first G fuel k t P : (2 ^ Z.of_nat k | t - 1) -> find_p G fuel (pow2 k) t = Ret P ->
  t <= P /\ forall u, t <= u < P -> (2 ^ Z.of_nat k | u - 1) ->
    probab_prime G u && probab_prime G ((u - 1) / 2 ^ Z.of_nat k) = false.
Proof.
  intros D H. unfold find_p in H.
  pose (I := fun a : Z * bool => (2 ^ Z.of_nat k | fst a - 1) /\ t <= fst a /\
    forall u, t <= u < fst a -> (2 ^ Z.of_nat k | u - 1) -> probab_prime G u && probab_prime G ((u - 1) / 2 ^ Z.of_nat k) = false).
  destruct (while _ _ _ _) as [[t' fnd]| |] eqn:W; cbn [bind] in H; try discriminate. apply Ret_inj in H. subst t'.
  apply (while_trace I) in W; [exact (proj2 W)| |].
  - intros [t1 f1] a' (D1 & L1 & F1) _. cbn [fst snd] in *. unfold mpz_divexact, pow2.
    pose proof (pow2_pos k) as K. replace (2 ^ Z.of_nat k =? 0) with false by (symmetry; apply Z.eqb_neq; lia).
    rewrite (proj2 (Z.mod_divide (t1 - 1) _ (not_eq_sym (Z.lt_neq _ _ K))) D1), Z.eqb_refl. cbn [bind].
    assert (ST : probab_prime G t1 && probab_prime G ((t1 - 1) / 2 ^ Z.of_nat k) = false -> I (t1 + 2 ^ Z.of_nat k, false)).
    { intros F. unfold I. cbn [fst]. split; [|split; [lia|]].
      - replace (t1 + 2 ^ Z.of_nat k - 1) with ((t1 - 1) + 2 ^ Z.of_nat k) by ring. apply Z.divide_add_r; [exact D1|apply Z.divide_refl].
      - intros u Hu Du. destruct (Z.lt_ge_cases u t1) as [Lu|Lu]; [apply F1; [lia|exact Du]|].
        assert (u = t1) as ->; [|exact F]. destruct (Z.eq_dec u t1) as [E|E]; [exact E|exfalso].
        assert (X : (2 ^ Z.of_nat k | u - t1)) by (replace (u - t1) with ((u - 1) - (t1 - 1)) by ring; apply Z.divide_sub_r; assumption).
        apply Z.divide_pos_le in X; lia. }
    destruct (probab_prime G t1) eqn:E1; cbn [bind andb] in *.
    + destruct (probab_prime G ((t1 - 1) / 2 ^ Z.of_nat k)) eqn:E2; intros H; apply Ret_inj in H; subst a'; [|apply ST; reflexivity].
      unfold I. cbn [fst]. tauto.
    + intros H; apply Ret_inj in H; subst a'. apply ST. reflexivity.
  - unfold I. cbn [fst]. split; [exact D|]. split; [lia|]. intros u Hu. lia.
Qed.
