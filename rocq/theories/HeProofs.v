(** The homomorphic operations keep ciphertexts good. *)
From Coq Require Import NArith ZArith Znumtheory List Bool Arith Lia.
From Verif Require Import Res Mem ListLemmas Gmp JoyeModel JoyeSpec JoyeMath JoyeProofs HeModel HeSpec HeLabel HeRun.
From Verif Require HcModel HcProofs.
Import ListNotations.
Local Open Scope Z_scope.

(** The call returns something with [Post], or waits for a random number ([w]). *)
Definition good {A} (w : bool) (r : res A) (Post : A -> Prop) : Prop :=
  match r with Ret a => Post a | UB => False | NoFuel => w = true end.
Lemma good_bind {A B} w (r : res A) (f : A -> res B) (P : A -> Prop) (Q : B -> Prop) :
  good w r P -> (forall a, P a -> good w (f a) Q) -> good w (bind r f) Q.
Proof. destruct r as [a| |]; cbn; auto. Qed.
Lemma good_imp {A} w (r : res A) (P Q : A -> Prop) : good w r P -> (forall a, P a -> Q a) -> good w r Q.
Proof. destruct r; cbn; auto. Qed.

(** ** Local variables *)
Lemma zget_app s x r : (r < length s)%nat -> zget (s ++ [x]) r = zget s r.
Proof. intros H. unfold zget. apply app_nth1. exact H. Qed.
Lemma zget_local s x : zget (s ++ [x]) (length s) = x.
Proof. unfold zget. rewrite app_nth2, Nat.sub_diag by lia. reflexivity. Qed.
Lemma zset_app s x r v : (r < length s)%nat -> zset (s ++ [x]) r v = zset s r v ++ [x].
Proof.
  unfold zset. revert r. induction s as [|a s IH]; intros [|r] H; cbn [length] in H; try lia; [reflexivity|].
  cbn [app upd]. f_equal. apply IH. lia.
Qed.
Lemma drop_app s x : drop_local (s ++ [x]) = s.
Proof. apply removelast_last. Qed.
Lemma zset_local s x v : zset (s ++ [x]) (length s) v = s ++ [v].
Proof. unfold zset. induction s as [|a s IH]; [reflexivity|]. cbn [app length upd]. f_equal. exact IH. Qed.

Lemma mod_pos x n : 0 < n -> mpz_mod x n = Ret (x mod n).
Proof. intros H. unfold mpz_mod. replace (n =? 0) with false by (symmetry; apply Z.eqb_neq; lia). rewrite Z.abs_eq by lia. reflexivity. Qed.
Lemma mod_pow2 x k : mpz_mod x (pow2 k) = Ret (x mod 2 ^ Z.of_nat k).
Proof. apply mod_pos. apply pow2_pos. Qed.

(** ** What the operations write *)
Section Ops.
  Variables (s : store) (k : nat) (N : ref).
  Hypothesis HN : 0 < zget s N.

  Lemma add_writes c c1 c2 : (ct_a c < length s)%nat -> (ct_beta c < length s)%nat ->
    ct_a c <> ct_beta c -> ct_a c <> ct_beta c1 -> ct_a c <> ct_beta c2 -> ct_a c <> N -> ct_beta c <> N ->
    he_eval_add s c c1 c2 N k =
      Ret (zset (zset s (ct_a c) ((zget s (ct_a c1) + zget s (ct_a c2)) mod 2 ^ Z.of_nat k))
                (ct_beta c) ((zget s (ct_beta c1) * zget s (ct_beta c2)) mod zget s N)).
  Proof.
    intros La Lb D1 D2 D3 D4 D5. unfold he_eval_add. rewrite mod_pow2. cbn [bind].
    rewrite (zget_same s) by exact La. rewrite zset_zset. rewrite !(zget_other _ (ct_a c)) by assumption.
    rewrite zget_same by (rewrite zset_length; exact Lb). rewrite !(zget_other _ _ N) by assumption.
    rewrite mod_pos by exact HN. cbn [bind]. rewrite zset_zset. reflexivity.
  Qed.
  Lemma add_2_writes c c1 c2 : (c < length s)%nat -> c <> N ->
    he_eval_add_2 s c c1 c2 N = Ret (zset s c ((zget s c1 * zget s c2) mod zget s N)).
  Proof.
    intros L D. unfold he_eval_add_2. rewrite zget_same by exact L. rewrite zget_other by exact D. rewrite mod_pos by exact HN.
    cbn [bind]. rewrite zset_zset. reflexivity.
  Qed.
  Lemma sub_writes c c1 c2 i : (ct_a c < length s)%nat -> (ct_beta c < length s)%nat ->
    ct_a c <> ct_beta c -> ct_a c <> ct_beta c1 -> ct_a c <> N -> ct_beta c <> N ->
    mpz_invert (zget s (ct_beta c2)) (zget s N) = Ret i ->
    he_eval_sub s c c1 c2 N k =
      Ret (zset (zset s (ct_a c) ((zget s (ct_a c1) + (- zget s (ct_a c2)) mod 2 ^ Z.of_nat k) mod 2 ^ Z.of_nat k))
                (ct_beta c) ((zget s (ct_beta c1) * i) mod zget s N)).
  Proof.
    intros La Lb D1 D2 D4 D5 I. unfold he_eval_sub. rewrite mod_pow2. cbn [bind]. rewrite I. cbn [bind].
    rewrite mod_pow2. cbn [bind]. rewrite (zget_same s) by exact La. rewrite zset_zset. rewrite (zget_other _ (ct_a c) (ct_beta c1)) by assumption.
    rewrite zget_same by (rewrite zset_length; exact Lb). rewrite !(zget_other _ _ N) by assumption.
    rewrite mod_pos by exact HN. cbn [bind]. rewrite zset_zset. reflexivity.
  Qed.
  Lemma sub_2_writes c c1 c2 i : (c < length s)%nat -> c <> N -> mpz_invert (zget s c2) (zget s N) = Ret i ->
    he_eval_sub_2 s c c1 c2 N = Ret (zset s c ((zget s c1 * i) mod zget s N)).
  Proof.
    intros L D I. unfold he_eval_sub_2. rewrite I. cbn [bind]. rewrite zget_same by exact L. rewrite zget_other by exact D.
    rewrite mod_pos by exact HN. cbn [bind]. rewrite zset_zset. reflexivity.
  Qed.
  Lemma cmult_writes c c1 a r : (ct_a c < length s)%nat -> (ct_beta c < length s)%nat ->
    ct_a c <> ct_beta c1 -> ct_a c <> N -> ct_a c <> a ->
    mpz_powm (zget s (ct_beta c1)) (zget s a) (zget s N) = Ret r ->
    he_eval_cmult s c c1 a N k =
      Ret (zset (zset s (ct_a c) ((zget s (ct_a c1) * zget s a) mod 2 ^ Z.of_nat k)) (ct_beta c) r).
  Proof.
    intros La Lb D1 D2 D3 I. unfold he_eval_cmult. rewrite mod_pow2. cbn [bind]. rewrite (zget_same s) by exact La. rewrite zset_zset.
    rewrite !(zget_other _ (ct_a c)) by assumption. rewrite I. reflexivity.
  Qed.
  Lemma mul_mod_writes alpha t : (alpha < length s)%nat -> alpha <> N -> mul_mod s alpha t N = Ret (zset s alpha ((zget s alpha * t) mod zget s N)).
  Proof.
    intros L D. unfold mul_mod. rewrite zget_same by exact L. rewrite zget_other by exact D. rewrite mod_pos by exact HN.
    cbn [bind]. rewrite zset_zset. reflexivity.
  Qed.
End Ops.

(** ** Encryptions of values *)
Section Key.
  Variables (k : nat) (P Q Y : Z).
  Hypothesis V : valid_key k P Q Y.
  Let K := 2 ^ Z.of_nat k.
  Let N := P * Q.

  Lemma K_pos : 0 < K.
  Proof. apply pow2_pos. Qed.
  Lemma N_gt1 : 1 < N.
  Proof. pose proof (key_p2 _ _ _ _ V). pose proof (key_q2 _ _ _ _ V). unfold N. nia. Qed.

  (** [C] is coprime to N and decrypts to [v] modulo 2^k. *)
  Definition enc_of (C v : Z) : Prop := dlog k P Y C (v mod K) /\ ~ (Q | C).
  Lemma enc_cong C v v' : v mod K = v' mod K -> enc_of C v -> enc_of C v'.
  Proof. intros E [D U]. split; [rewrite <- E; exact D|exact U]. Qed.
  Lemma cong_q a : cong Q (a mod N) a.
  Proof. unfold N. rewrite (Z.mul_comm P Q). pose proof (key_p2 _ _ _ _ V). pose proof (key_q2 _ _ _ _ V). apply cong_mod_mult; lia. Qed.
  Lemma cong_p a : cong P (a mod N) a.
  Proof. unfold N. pose proof (key_p2 _ _ _ _ V). pose proof (key_q2 _ _ _ _ V). apply cong_mod_mult; lia. Qed.
  Lemma unit_mod a : ~ (Q | a) -> ~ (Q | a mod N).
  Proof. intros H. pose proof (key_q2 _ _ _ _ V). apply (not_divide_cong Q a); [lia|symmetry; apply cong_q|exact H]. Qed.

  Lemma enc_mul C1 C2 v1 v2 : enc_of C1 v1 -> enc_of C2 v2 -> enc_of ((C1 * C2) mod N) (v1 + v2).
  Proof.
    intros [D1 U1] [D2 U2]. split.
    - apply (log_cong k P Y (C1 * C2)); [symmetry; apply cong_p|]. rewrite Zplus_mod. apply (log_mul k P Q Y V); assumption.
    - apply unit_mod. apply not_divide_mul; [apply (key_q _ _ _ _ V)|assumption|assumption].
  Qed.
  Lemma enc_gcd C v : enc_of C v -> Z.gcd C N = 1.
  Proof. intros [D U]. apply (key_unit k P Q Y V); [apply (log_unit k P Q Y V _ _ D)|exact U]. Qed.
  Lemma inverse_unit C i : cong N (C * i) 1 -> ~ (Q | i).
  Proof.
    intros E D. pose proof (key_q2 _ _ _ _ V). assert (cong Q (C * i) 1) as E'.
    { rewrite <- (cong_q (C * i)), <- (cong_q 1). rewrite (cong_eq _ _ _ E). reflexivity. }
    assert (X : (Q | 1)); [|apply Z.divide_1_r in X; lia].
    apply Z.mod_divide; [lia|]. rewrite <- (cong_eq _ _ _ E'). apply Z.mod_divide; [lia|]. apply Z.divide_mul_r. exact D.
  Qed.
  Lemma enc_invert C v : enc_of C v -> exists i, mpz_invert C N = Ret i /\ enc_of i (- v).
  Proof.
    intros E. pose proof (enc_gcd C v E) as G. pose proof N_gt1. pose proof (inverse_ok C N ltac:(lia)) as I. unfold mpz_invert.
    destruct (inverse C N) as [i|]; [|contradiction]. destruct I as [_ I]. exists i. split; [reflexivity|]. split.
    - replace ((- v) mod K) with ((- (v mod K)) mod K).
      + apply (log_inv k P Q Y V C); [apply E|]. apply (cong_pq k P Q Y V). exact I.
      + pose proof K_pos. rewrite <- (Z.sub_0_l (v mod K)), Zminus_mod_idemp_r. rewrite Z.sub_0_l. reflexivity.
    - apply (inverse_unit C). exact I.
  Qed.
  Lemma enc_powm C v n : enc_of C v -> exists r, mpz_powm C n N = Ret r /\ enc_of r (n * v).
  Proof.
    intros E. pose proof N_gt1 as N1.
    assert (X : exists r, mpz_powm C n N = Ret r /\ ~ (Q | r)).
    { destruct (Z.le_gt_cases 0 n) as [Hn|Hn].
      - rewrite powm_pos by lia. eexists. split; [reflexivity|]. apply unit_mod. apply not_divide_pow; [apply (key_q _ _ _ _ V)|exact Hn|apply E].
      - destruct (powm_neg C n N ltac:(lia) Hn (enc_gcd _ _ E)) as (i & Ci & _ & Ei). rewrite Ei. eexists. split; [reflexivity|].
        apply unit_mod. apply not_divide_pow; [apply (key_q _ _ _ _ V)|lia|]. apply (inverse_unit C). exact Ci. }
    destruct X as (r & Er & U). exists r. split; [exact Er|]. split; [|exact U].
    pose proof (log_powm k P Q Y V C (v mod K) n r (proj1 E) Er) as D. fold K in D. rewrite Zmult_mod_idemp_r in D. exact D.
  Qed.

  (** ** Fresh encryptions *)
  (** The numbers drawn: coprime to N, or (if waiting is allowed) zero. *)
  Definition draws (w : bool) (g : rng) : Prop := forall i, rel_prime (g i mod N) N \/ (w = true /\ g i mod N = 0).
  Lemma draws_tail w g n : draws w g -> draws w (Nat.iter n rng_tail g).
  Proof.
    revert g. induction n as [|n IH]; intros g D; [exact D|]. cbn [Nat.iter]. intros i. unfold rng_tail at 1.
    apply (IH g D (S i)).
  Qed.
  Lemma rel_prime_units x : rel_prime x N -> ~ (P | x) /\ ~ (Q | x).
  Proof.
    intros [_ _ R]. pose proof (key_p2 _ _ _ _ V). pose proof (key_q2 _ _ _ _ V). split; intros D.
    - specialize (R P D (Z.divide_factor_l P Q)). apply Z.divide_1_r in R. lia.
    - specialize (R Q D (Z.divide_factor_r Q P)). apply Z.divide_1_r in R. lia.
  Qed.
  Lemma joye_good w f s c g m y n : draws w g -> zget s n = N -> zget s y = Y -> (c < length s)%nat -> c <> n ->
    good w (joye_libert_encrypt (S (S f)) s c g m y n k)
      (fun r => exists C, fst r = zset s c C /\ enc_of C (zget s m) /\ draws w (snd r)).
  Proof.
    intros D EN Ey Lc Nc. pose proof N_gt1 as N1.
    assert (G : enc_of Y 1).
    { split; [apply (log_y k P Q Y V)|]. apply nonresidue_divide, (key_yq _ _ _ _ V). }
    destruct (enc_powm Y 1 (zget s m) G) as (R & ER & EE). rewrite Z.mul_1_r in EE.
    rewrite (encrypt_any (S f) s c g m y n k R); [|exact Lc|rewrite EN; lia|exact Nc|rewrite EN, Ey; exact ER].
    rewrite EN. destruct (first_draw (S f) g N) as [[x g']|] eqn:F.
    - apply first_draw_inv in F. destruct F as (j & _ & [_ NZ] & -> & ->). cbn [good fst snd].
      destruct (D j) as [R1|[_ Z1]]; [|contradiction]. apply rel_prime_units in R1. destruct R1 as [U1 U2].
      eexists. split; [reflexivity|]. split; [|apply draws_tail; exact D].
      assert (B : enc_of ((g j mod N) ^ 2 ^ Z.of_nat k) 0).
      { split; [rewrite Z.mod_0_l by (pose proof K_pos; lia); apply (log_blind k P Q Y V); exact U1|].
        apply not_divide_pow; [apply (key_q _ _ _ _ V)|pose proof (pow2_pos k); lia|exact U2]. }
      pose proof (enc_mul _ _ _ _ EE B) as X. rewrite Z.add_0_r in X. exact X.
    - cbn [good]. cbn [first_draw] in F. destruct (Z.eqb_spec (g 0%nat mod N) 0) as [E|E]; [|discriminate].
      destruct (D 0%nat) as [R1|[W _]]; [|exact W]. exfalso. rewrite E in R1. destruct R1 as [_ _ R1].
      specialize (R1 N (Z.divide_0_r N) (Z.divide_refl N)). apply Z.divide_1_r in R1. lia.
  Qed.

  (** ** Pairs and products *)
  Lemma enc_shift C v v' t : v' = v + t * K -> enc_of C v -> enc_of C v'.
  Proof. intros -> E. apply (enc_cong C v); [|exact E]. symmetry. apply Z_mod_plus_full. Qed.
  Definition good_ct (s : store) (c : he_ct) (m b : Z) : Prop :=
    (zget s (ct_a c) + b) mod K = m mod K /\ enc_of (zget s (ct_beta c)) b.
  Definition good_prod (s : store) (r : ref) (m b : Z) : Prop := enc_of (zget s r) (m - b).
  Lemma good_ct_value s c m b : good_ct s c m b -> exists t, m = zget s (ct_a c) + b + t * K.
  Proof.
    intros [E _]. exists (m / K - (zget s (ct_a c) + b) / K). pose proof K_pos as KP.
    pose proof (Z.div_mod m K ltac:(lia)) as H1. pose proof (Z.div_mod (zget s (ct_a c) + b) K ltac:(lia)) as H2. rewrite E in H2.
    rewrite Z.mul_sub_distr_r. rewrite H1 at 1. rewrite H2 at 1. ring.
  Qed.
  Lemma mod_value x : exists t, x mod K = x + t * K.
  Proof. exists (- (x / K)). pose proof K_pos. pose proof (Z.div_mod x K ltac:(lia)). lia. Qed.
  Lemma value_mod x y t : x = y + t * K -> x mod K = y mod K.
  Proof. intros ->. apply Z_mod_plus_full. Qed.

  Lemma mult_good w f s alpha g c1 c2 y n m1 b1 m2 b2 : draws w g -> zget s n = N -> zget s y = Y ->
    (alpha < length s)%nat -> (n < length s)%nat -> (y < length s)%nat ->
    alpha <> n -> alpha <> ct_a c1 -> alpha <> ct_a c2 -> alpha <> ct_beta c1 -> alpha <> ct_beta c2 ->
    good_ct s c1 m1 b1 -> good_ct s c2 m2 b2 ->
    good w (he_eval_mult (S (S f)) s alpha g c1 c2 y n k)
      (fun r => exists C, fst r = zset s alpha C /\ enc_of C (m1 * m2 - b1 * b2) /\ draws w (snd r)).
  Proof.
    intros D EN Ey La Ln Ly D0 D1 D2 D3 D4 G1 G2. pose proof N_gt1 as N1. unfold he_eval_mult. rewrite mod_pow2. cbn [bind local]. fold K.
    destruct (good_ct_value _ _ _ _ G1) as [t1 V1]. destruct (good_ct_value _ _ _ _ G2) as [t2 V2]. destruct G1 as [_ E1]. destruct G2 as [_ E2].
    remember (zget s (ct_a c1)) as a1 eqn:Ea1. remember (zget s (ct_a c2)) as a2 eqn:Ea2.
    destruct (mod_value (a1 * a2)) as [t V12]. remember ((a1 * a2) mod K) as v eqn:Ev. clear Ev.
    eapply good_bind.
    { apply joye_good; [exact D|rewrite zget_app; assumption|rewrite zget_app; assumption|rewrite app_length; lia|exact D0]. }
    intros [s1 g1] (C & Es & EC & D'). cbn [fst snd] in *. rewrite zset_app in Es by exact La. subst s1. rewrite drop_app. rewrite zget_local in EC.
    rewrite !(zget_other _ alpha) by assumption. rewrite EN. rewrite <- Ea1, <- Ea2.
    destruct (enc_powm _ _ a1 E2) as (r1 & R1 & F1). destruct (enc_powm _ _ a2 E1) as (r2 & R2 & F2).
    rewrite R1. cbn [bind]. rewrite R2. cbn [bind].
    rewrite mul_mod_writes; [|rewrite zget_other by exact D0; lia|rewrite zset_length; exact La|exact D0].
    cbn [bind]. rewrite zset_zset, zget_same by exact La. rewrite zget_other by exact D0.
    rewrite mul_mod_writes; [|rewrite zget_other by exact D0; lia|rewrite zset_length; exact La|exact D0].
    cbn [bind]. rewrite zset_zset, zget_same by exact La. rewrite zget_other by exact D0. rewrite EN.
    cbn [good fst snd]. eexists. split; [reflexivity|]. split; [|exact D'].
    pose proof (enc_mul _ _ _ _ (enc_mul _ _ _ _ EC F2) F1) as X.
    refine (enc_shift _ _ _ _ _ X). rewrite V1, V2, V12.
    instantiate (1 := t1 * (a2 + b2 + t2 * K) + (a1 + b1) * t2 - t). ring.
  Qed.

  Lemma mult_3_good w f s alpha g c1 c2 c3 r12 r13 r23 y n m1 b1 m2 b2 m3 b3 : draws w g -> zget s n = N -> zget s y = Y ->
    (alpha < length s)%nat -> (n < length s)%nat -> (y < length s)%nat ->
    alpha <> n -> alpha <> ct_a c1 -> alpha <> ct_a c2 -> alpha <> ct_a c3 -> alpha <> ct_beta c1 -> alpha <> ct_beta c2 -> alpha <> ct_beta c3 ->
    alpha <> r12 -> alpha <> r13 -> alpha <> r23 ->
    good_ct s c1 m1 b1 -> good_ct s c2 m2 b2 -> good_ct s c3 m3 b3 ->
    enc_of (zget s r12) (b1 * b2) -> enc_of (zget s r13) (b1 * b3) -> enc_of (zget s r23) (b2 * b3) ->
    good w (he_eval_mult_3 (S (S f)) s alpha g c1 c2 c3 r12 r13 r23 y n k)
      (fun r => exists C, fst r = zset s alpha C /\ enc_of C (m1 * m2 * m3 - b1 * b2 * b3) /\ draws w (snd r)).
  Proof.
    intros D EN Ey La Ln Ly D0 D1 D2 D3 D4 D5 D6 D7 D8 D9 G1 G2 G3 H12 H13 H23. pose proof N_gt1 as N1. unfold he_eval_mult_3.
    rewrite mod_pow2. cbn [bind]. rewrite mod_pow2. cbn [bind local]. fold K.
    destruct (good_ct_value _ _ _ _ G1) as [t1 V1]. destruct (good_ct_value _ _ _ _ G2) as [t2 V2]. destruct (good_ct_value _ _ _ _ G3) as [t3 V3].
    destruct G1 as [_ E1]. destruct G2 as [_ E2]. destruct G3 as [_ E3].
    remember (zget s (ct_a c1)) as a1 eqn:Ea1. remember (zget s (ct_a c2)) as a2 eqn:Ea2. remember (zget s (ct_a c3)) as a3 eqn:Ea3.
    rewrite Zmult_mod_idemp_l.
    destruct (mod_value (a1 * a2 * a3)) as [t V12]. remember ((a1 * a2 * a3) mod K) as v eqn:Ev. clear Ev.
    eapply good_bind.
    { apply joye_good; [exact D|rewrite zget_app; assumption|rewrite zget_app; assumption|rewrite app_length; lia|exact D0]. }
    intros [s1 g1] (C & Es & EC & D'). cbn [fst snd] in *. rewrite zset_app in Es by exact La. subst s1. rewrite drop_app. rewrite zget_local in EC.
    rewrite !(zget_other _ alpha) by assumption. rewrite EN. rewrite <- Ea1, <- Ea2, <- Ea3.
    destruct (enc_powm _ _ a1 H23) as (x1 & R1 & F1). destruct (enc_powm _ _ a2 H13) as (x2 & R2 & F2). destruct (enc_powm _ _ a3 H12) as (x3 & R3 & F3).
    destruct (enc_powm _ _ a1 E3) as (y1 & S1 & I1). destruct (enc_powm _ _ a2 I1) as (z1 & T1 & J1).
    destruct (enc_powm _ _ a1 E2) as (y2 & S2 & I2). destruct (enc_powm _ _ a3 I2) as (z2 & T2 & J2).
    destruct (enc_powm _ _ a2 E1) as (y3 & S3 & I3). destruct (enc_powm _ _ a3 I3) as (z3 & T3 & J3).
    rewrite R1. cbn [bind]. rewrite R2. cbn [bind]. rewrite R3. cbn [bind]. rewrite S1. cbn [bind]. rewrite T1. cbn [bind].
    rewrite S2. cbn [bind]. rewrite T2. cbn [bind]. rewrite S3. cbn [bind]. rewrite T3. cbn [bind].
    do 6 (rewrite mul_mod_writes; [|rewrite zget_other by exact D0; lia|rewrite zset_length; exact La|exact D0];
          cbn [bind]; rewrite zset_zset, zget_same by exact La; rewrite zget_other by exact D0; rewrite EN).
    cbn [good fst snd]. eexists. split; [reflexivity|]. split; [|exact D'].
    pose proof (enc_mul _ _ _ _ (enc_mul _ _ _ _ (enc_mul _ _ _ _ (enc_mul _ _ _ _ (enc_mul _ _ _ _ (enc_mul _ _ _ _ EC F1) F2) F3) J1) J2) J3) as X.
    refine (enc_shift _ _ _ _ _ X). rewrite V1, V2, V3, V12.
    instantiate (1 := t1 * (a2 + b2 + t2 * K) * (a3 + b3 + t3 * K) + (a1 + b1) * t2 * (a3 + b3 + t3 * K) + (a1 + b1) * (a2 + b2) * t3 - t). ring.
  Qed.

  Lemma encrypt_good w f stack s c g cs b m y n label : draws w g -> zget s n = N -> zget s y = Y ->
    HcProofs.state_ok cs -> Z.of_nat k < 2 ^ 32 -> fits (zget s label) (k / 8) ->
    (forall i, (size_in_bytes (zget s label) <= i < k / 8)%nat -> exists x, stack i = Some x /\ (x < 256)%N) ->
    (b < length s)%nat -> (ct_a c < length s)%nat -> (ct_beta c < length s)%nat ->
    b <> n -> b <> y -> b <> m -> ct_beta c <> n -> ct_beta c <> b -> ct_beta c <> m ->
    good w (he_encrypt (S (S f)) stack s c g cs b m y n label k)
      (fun r => exists v C, label_value stack cs (zget s label) k = Ret (snd r, v) /\ 0 <= v < 2 ^ (32 * Z.of_nat (k / 32)) /\
         fst (fst r) = zset (zset (zset s b v) (ct_beta c) C) (ct_a c) ((zget s m - v) mod K) /\
         enc_of C v /\ draws w (snd (fst r)) /\ HcProofs.state_ok (snd r)).
  Proof.
    intros D EN Ey S HK F St Lb La Lbt D1 D2 D3 D4 D5 D6. unfold he_encrypt.
    destruct (label_value_ok stack cs (zget s label) k S HK F St) as (E & S' & B).
    remember (blinding k _) as v eqn:Ev. clear Ev.
    remember (HcModel.HcState _ _) as cs' eqn:Ec. clear Ec.
    rewrite E. cbn [bind]. eapply good_bind.
    { apply joye_good; [exact D|rewrite zget_other by assumption; assumption|rewrite zget_other by assumption; assumption|rewrite zset_length; assumption|assumption]. }
    intros [s1 g1] (C & Es & EC & D'). cbn [fst snd] in *. subst s1. rewrite zget_same in EC by exact Lb.
    rewrite mod_pow2. cbn [bind good fst snd]. rewrite zset_zset. rewrite zget_same by (rewrite !zset_length; exact La).
    rewrite !(zget_other _ (ct_beta c)) by assumption. rewrite (zget_other _ b m) by assumption. rewrite (zget_same _ b) by exact Lb.
    exists v, C. split; [reflexivity|]. split; [exact B|]. split; [reflexivity|]. split; [exact EC|]. split; assumption.
  Qed.

  (** ** Decryption *)
  Lemma decrypt_pair s m c p y M b : (m < length s)%nat -> (p < length s)%nat -> (y < length s)%nat -> (ct_a c < length s)%nat -> (ct_beta c < length s)%nat ->
    zget s p = P -> zget s y = Y -> (zget s (ct_a c) + b) mod K = M mod K -> dlog k P Y (zget s (ct_beta c)) (b mod K) ->
    he_decrypt s m c p y k = Ret (zset s m (M mod K)).
  Proof.
    intros Lm Lp Ly La Lb Ep Ey Em E. unfold he_decrypt. cbn [local].
    rewrite (log_decrypt k P Q Y V (s ++ [0]) (length s) (ct_beta c) p y (b mod K)); try lia;
      try (rewrite zget_app; assumption); [|rewrite app_length; cbn [length]; lia].
    cbn [bind]. rewrite zset_local. rewrite zget_local. rewrite (zget_app s _ (ct_a c)) by exact La.
    rewrite (zset_app s) by exact Lm. rewrite zget_app by (rewrite zset_length; exact Lm). rewrite (zget_same s) by exact Lm.
    rewrite mod_pow2. cbn [bind]. rewrite zset_app by (rewrite zset_length; exact Lm). rewrite drop_app, zset_zset.
    fold K. rewrite Zplus_mod_idemp_r, Em. reflexivity.
  Qed.
  Lemma decrypt_prod s m c b p y M B : (m < length s)%nat -> m <> c -> m <> p -> m <> y -> m <> b ->
    zget s p = P -> zget s y = Y -> good_prod s c M B -> zget s b mod K = B mod K ->
    he_decrypt_2 s m c b p y k = Ret (zset s m (M mod K)).
  Proof.
    intros Lm D1 D2 D3 D4 Ep Ey [E _] EB. unfold he_decrypt_2.
    rewrite (log_decrypt k P Q Y V s m c p y ((M - B) mod K)); try assumption. cbn [bind].
    rewrite (zget_same s m) by exact Lm. rewrite zset_zset. rewrite zget_same by exact Lm. rewrite (zget_other _ m b) by exact D4.
    rewrite mod_pow2. cbn [bind]. rewrite zset_zset. fold K. do 2 f_equal. rewrite Zplus_mod, Zmod_mod, EB, <- Zplus_mod. f_equal. ring.
  Qed.
End Key.

(** ** Programs *)
Section Program.
  Variables (loc : var -> ref) (f k n : nat) (P Q Y : Z).
  Hypothesis V : valid_key k P Q Y.
  Hypothesis LI : forall v w, loc v = loc w -> v = w.
  Hypothesis Kmax : Z.of_nat k < 2 ^ 32.
  Let K := 2 ^ Z.of_nat k.

  Definition in_range (v : var) : Prop :=
    match v with Va i | Vbeta i | Valpha i => (i < n)%nat | _ => True end.
  Definition target (x : instr) : nat :=
    match x with Enc d _ _ | Add d _ _ | Sub d _ _ | Cmul d _ _ | Mul d _ _ | Mul3 d _ _ _ | Add2 d _ _ | Sub2 d _ _ | Cmul2 d _ _ => d end.
  Definition label_fits (x : instr) : Prop := match x with Enc _ _ label => fits label (k / 8) | _ => True end.
  Definition bytes (stack : nat -> option N) : Prop := forall i, exists x, stack i = Some x /\ (x < 256)%N.

  Definition match_reg (R : nat -> Z -> Z -> Prop) (m b : nat -> option Z) : Prop :=
    forall i, match m i, b i with Some x, Some y => (i < n)%nat /\ R i x y | None, None => True | _, _ => False end.
  Record inv (s : store) (em eb : env) : Prop := {
    inv_len : forall v, in_range v -> (loc v < length s)%nat;
    inv_N : zget s (loc VN) = P * Q;
    inv_y : zget s (loc Vy) = Y;
    inv_p : zget s (loc Vp) = P;
    inv_pairs : match_reg (fun i m b => good_ct k P Q Y s (ct loc i) m b) (pairs em) (pairs eb);
    inv_prods : match_reg (fun i m b => good_prod k P Q Y s (loc (Valpha i)) m b) (prods em) (prods eb)
  }.
  Definition scratch (v : var) : bool :=
    match v with Vb | Vm | Vlabel | Vconst | Vbeta12 | Vbeta13 | Vbeta23 => true | _ => false end.

  Lemma loc_ne v w : v <> w -> loc v <> loc w.
  Proof. intros H E. apply H, LI, E. Qed.
  Lemma set_eq g d v : set g d v d = Some v.
  Proof. unfold set. rewrite Nat.eqb_refl. reflexivity. Qed.
  Lemma set_ne g d v i : i <> d -> set g d v i = g i.
  Proof. intros H. unfold set. apply Nat.eqb_neq in H. rewrite H. reflexivity. Qed.
  Lemma match_set (R R' : nat -> Z -> Z -> Prop) m b d x y : match_reg R m b -> (d < n)%nat -> R' d x y -> (forall i u v, i <> d -> R i u v -> R' i u v) ->
    match_reg R' (set m d x) (set b d y).
  Proof.
    intros H Hd Hxy HR i. destruct (Nat.eq_dec i d) as [->|D]; [rewrite !set_eq; auto|]. rewrite !set_ne by exact D.
    specialize (H i). destruct (m i), (b i); auto. destruct H; split; auto.
  Qed.
  Lemma match_imp (R R' : nat -> Z -> Z -> Prop) m b : match_reg R m b -> (forall i u v, R i u v -> R' i u v) -> match_reg R' m b.
  Proof. intros H HR i. specialize (H i). destruct (m i), (b i); auto. destruct H; split; auto. Qed.

  (** Writing a pair, a product, or a variable that holds nothing of value. *)
  Lemma inv_pair s s' em eb d m b : inv s em eb -> (d < n)%nat -> length s' = length s ->
    (forall v, v <> Va d -> v <> Vbeta d -> scratch v = false -> zget s' (loc v) = zget s (loc v)) ->
    good_ct k P Q Y s' (ct loc d) m b ->
    inv s' (Env (set (pairs em) d m) (prods em)) (Env (set (pairs eb) d b) (prods eb)).
  Proof.
    intros [I1 I2 I3 I4 I5 I6] Hd L F G. constructor; cbn [pairs prods].
    - intros v Hv. rewrite L. auto.
    - rewrite F; auto; discriminate.
    - rewrite F; auto; discriminate.
    - rewrite F; auto; discriminate.
    - apply (match_set _ _ _ _ d m b I5 Hd G). intros i u v D. unfold good_ct. cbn [ct ct_a ct_beta].
      rewrite !F; auto; congruence.
    - apply (match_imp _ _ _ _ I6). intros i u v. unfold good_prod. rewrite F; auto; discriminate.
  Qed.
  Lemma inv_prod s s' em eb d m b : inv s em eb -> (d < n)%nat -> length s' = length s ->
    (forall v, v <> Valpha d -> scratch v = false -> zget s' (loc v) = zget s (loc v)) ->
    good_prod k P Q Y s' (loc (Valpha d)) m b ->
    inv s' (Env (pairs em) (set (prods em) d m)) (Env (pairs eb) (set (prods eb) d b)).
  Proof.
    intros [I1 I2 I3 I4 I5 I6] Hd L F G. constructor; cbn [pairs prods].
    - intros v Hv. rewrite L. auto.
    - rewrite F; auto; discriminate.
    - rewrite F; auto; discriminate.
    - rewrite F; auto; discriminate.
    - apply (match_imp _ _ _ _ I5). intros i u v. unfold good_ct. cbn [ct ct_a ct_beta]. rewrite !F; auto; discriminate.
    - apply (match_set _ _ _ _ d m b I6 Hd G). intros i u v D. unfold good_prod. rewrite F; auto; congruence.
  Qed.
  Lemma inv_scratch s em eb v x : inv s em eb -> scratch v = true -> inv (zset s (loc v) x) em eb.
  Proof.
    intros [I1 I2 I3 I4 I5 I6] Hv.
    assert (F : forall u, scratch u = false -> zget (zset s (loc v) x) (loc u) = zget s (loc u)).
    { intros u Hu. apply zget_other, loc_ne. congruence. }
    constructor.
    - intros u Hu. rewrite zset_length. auto.
    - rewrite F; auto.
    - rewrite F; auto.
    - rewrite F; auto.
    - apply (match_imp _ _ _ _ I5). intros i a b. unfold good_ct. cbn [ct ct_a ct_beta]. rewrite !F; auto.
    - apply (match_imp _ _ _ _ I6). intros i a b. unfold good_prod. rewrite F; auto.
  Qed.
  Lemma get_pair s em eb i m : inv s em eb -> pairs em i = Some m ->
    exists b, pairs eb i = Some b /\ (i < n)%nat /\ good_ct k P Q Y s (ct loc i) m b.
  Proof. intros I E. pose proof (inv_pairs _ _ _ I i) as H. rewrite E in H. destruct (pairs eb i) as [b|]; [|contradiction]. exists b. split; [reflexivity|exact H]. Qed.
  Lemma get_prod s em eb i m : inv s em eb -> prods em i = Some m ->
    exists b, prods eb i = Some b /\ (i < n)%nat /\ good_prod k P Q Y s (loc (Valpha i)) m b.
  Proof. intros I E. pose proof (inv_prods _ _ _ I i) as H. rewrite E in H. destruct (prods eb i) as [b|]; [|contradiction]. exists b. split; [reflexivity|exact H]. Qed.

  Ltac ne := first [assumption | apply loc_ne; congruence | apply loc_ne; discriminate].
  Ltac len I := repeat rewrite zset_length; apply (inv_len _ _ _ I); first [exact Logic.I | assumption].

  Lemma set_pair_inv e d v e' : set_pair e d v = Some e' -> exists x, v = Some x /\ e' = Env (set (pairs e) d x) (prods e).
  Proof. destruct v as [x|]; [|discriminate]. intros H. injection H as <-. exists x. split; reflexivity. Qed.
  Lemma set_prod_inv e d v e' : set_prod e d v = Some e' -> exists x, v = Some x /\ e' = Env (pairs e) (set (prods e) d x).
  Proof. destruct v as [x|]; [|discriminate]. intros H. injection H as <-. exists x. split; reflexivity. Qed.
  Lemma lift2_inv g x y z : lift2 g x y = Some z -> exists a b, x = Some a /\ y = Some b /\ z = g a b.
  Proof. destruct x as [a|], y as [b|]; try discriminate. intros H. injection H as <-. exists a, b. repeat split. Qed.

  (** The frame conditions of the lemmas above. *)
  Lemma frame_pair s d x y v : v <> Va d -> v <> Vbeta d -> zget (zset (zset s (loc (Va d)) x) (loc (Vbeta d)) y) (loc v) = zget s (loc v).
  Proof. intros H1 H2. rewrite zget_other by (apply loc_ne; congruence). apply zget_other, loc_ne. congruence. Qed.
  Lemma pair_written s em eb d x y : inv s em eb -> (d < n)%nat ->
    zget (zset (zset s (loc (Va d)) x) (loc (Vbeta d)) y) (loc (Va d)) = x /\
    zget (zset (zset s (loc (Va d)) x) (loc (Vbeta d)) y) (loc (Vbeta d)) = y.
  Proof.
    intros I Hd. rewrite zget_other by (apply loc_ne; discriminate). rewrite !zget_same; [split; reflexivity|..]; len I.
  Qed.
  Lemma write_pair s em eb d m b x y : inv s em eb -> (d < n)%nat -> (x + b) mod K = m mod K -> enc_of k P Q Y y b ->
    inv (zset (zset s (loc (Va d)) x) (loc (Vbeta d)) y) (Env (set (pairs em) d m) (prods em)) (Env (set (pairs eb) d b) (prods eb)).
  Proof.
    intros I Hd E1 E2. eapply inv_pair; [exact I|exact Hd|rewrite !zset_length; reflexivity|intros; apply frame_pair; assumption|].
    unfold good_ct. cbn [ct ct_a ct_beta]. destruct (pair_written s em eb d x y I Hd) as [-> ->]. split; assumption.
  Qed.
  Lemma write_prod s em eb d m b y : inv s em eb -> (d < n)%nat -> enc_of k P Q Y y (m - b) ->
    inv (zset s (loc (Valpha d)) y) (Env (pairs em) (set (prods em) d m)) (Env (pairs eb) (set (prods eb) d b)).
  Proof.
    intros I Hd E. eapply inv_prod; [exact I|exact Hd|rewrite !zset_length; reflexivity|intros; apply zget_other; apply loc_ne; congruence|].
    unfold good_prod. rewrite zget_same; [exact E|len I].
  Qed.

  Definition post (w : bool) (x : instr) (em' eb : env) (r : store * rng * HcModel.hc128_state) : Prop :=
    exists eb', eval_instr x (zget (fst (fst r)) (loc Vb)) eb = Some eb' /\ inv (fst (fst r)) em' eb' /\
      draws P Q w (snd (fst r)) /\ HcProofs.state_ok (snd r).

  Lemma pair_good w s g cs em eb v r b1 b2 : inv s em eb -> draws P Q w g -> HcProofs.state_ok cs -> scratch v = true -> r = loc v ->
    good w (encrypt_pair loc (S (S f)) k s g v b1 b2)
      (fun r => exists C, fst r = zset s (loc v) C /\ enc_of k P Q Y C (b1 * b2) /\ draws P Q w (snd r)).
  Proof.
    intros I D S Hv ->. unfold encrypt_pair. assert (R : in_range v) by (destruct v; try discriminate; exact Logic.I).
    assert (Nv : loc v <> loc VN) by (apply loc_ne; intros ->; discriminate).
    assert (Ny : loc v <> loc Vy) by (apply loc_ne; intros ->; discriminate).
    eapply good_imp.
    - apply (joye_good k P Q Y V); [exact D|rewrite zget_other by exact Nv; apply (inv_N _ _ _ I)|rewrite zget_other by exact Ny; apply (inv_y _ _ _ I)| |exact Nv].
      rewrite zset_length. apply (inv_len _ _ _ I). exact R.
    - intros [s' g'] (C & E & EC & D'). cbn [fst snd] in *. exists C. rewrite zset_zset in E. split; [exact E|]. split; [|exact D'].
      rewrite zget_same in EC by (apply (inv_len _ _ _ I); exact R). eapply enc_cong; [|exact EC]. apply Zmod_mod.
  Qed.

  Lemma exec_good w stack x s g cs em eb em' : inv s em eb -> draws P Q w g -> HcProofs.state_ok cs ->
    (target x < n)%nat -> label_fits x -> bytes stack -> eval_instr x (message x) em = Some em' ->
    good w (exec loc (S (S f)) k stack x s g cs eb) (post w x em' eb).
  Proof.
    intros I D S T LF B E. pose proof (N_gt1 k P Q Y V) as N1. pose proof (inv_N _ _ _ I) as EN.
    destruct x as [d m label|d i j|d i j|d c i|d i j|d i j l|d i j|d i j|d c i]; cbn [target label_fits eval_instr message] in T, LF, E.
    - apply set_pair_inv in E. destruct E as (x & X & ->). injection X as <-. cbn [exec].
      pose proof (inv_scratch s em eb Vm m I eq_refl) as I1. pose proof (inv_scratch _ em eb Vlabel label I1 eq_refl) as I2.
      remember (zset (zset s (loc Vm) m) (loc Vlabel) label) as s0 eqn:Es0.
      assert (El : zget s0 (loc Vlabel) = label) by (rewrite Es0; apply zget_same; len I).
      assert (Em : zget s0 (loc Vm) = m).
      { rewrite Es0. rewrite zget_other by ne. apply zget_same. len I. }
      clear Es0. eapply good_imp.
      + apply (encrypt_good k P Q Y V w f stack s0 (ct loc d) g cs (loc Vb) (loc Vm) (loc Vy) (loc VN) (loc Vlabel)); cbn [ct ct_a ct_beta]; try ne; try len I2.
        * apply (inv_N _ _ _ I2).
        * apply (inv_y _ _ _ I2).
        * rewrite El. exact LF.
        * intros a _. apply B.
      + intros [[s' g'] cs'] (v & C & Ev & Bv & Es & EC & D' & S'). cbn [fst snd ct ct_a ct_beta] in *. unfold post. cbn [fst snd eval_instr set_pair].
        assert (Eb : zget s' (loc Vb) = v).
        { rewrite Es. rewrite !zget_other by ne. apply zget_same. len I2. }
        rewrite Eb. eexists. split; [reflexivity|]. split; [|split; assumption]. rewrite Em in Es.
        eapply inv_pair; [exact I2|exact T|rewrite Es, !zset_length; reflexivity| |].
        * intros u U1 U2 U3. rewrite Es. rewrite !zget_other; [reflexivity| | |]; apply loc_ne; try congruence. intros <-. discriminate.
        * unfold good_ct. cbn [ct ct_a ct_beta]. rewrite Es. rewrite zget_same by len I2. rewrite (zget_other _ (loc (Va d))) by ne.
          rewrite zget_same by len I2. split; [|exact EC]. rewrite Zplus_mod_idemp_l. f_equal. ring.
    - apply set_pair_inv in E. destruct E as (x & X & ->). apply lift2_inv in X. destruct X as (m1 & m2 & X1 & X2 & ->).
      destruct (get_pair _ _ _ _ _ I X1) as (b1 & Y1 & L1 & [A1 G1]). destruct (get_pair _ _ _ _ _ I X2) as (b2 & Y2 & L2 & [A2 G2]).
      cbn [ct ct_a ct_beta] in *. cbn [exec]. rewrite add_writes; cbn [ct ct_a ct_beta]; try ne; try len I; [|rewrite EN; lia].
      rewrite EN. cbn [bind good]. unfold post. cbn [fst snd eval_instr]. rewrite Y1, Y2. cbn [lift2 set_pair].
      eexists. split; [reflexivity|]. split; [|split; assumption]. apply write_pair; [exact I|exact T| |apply (enc_mul k P Q Y V); assumption].
      unfold K. rewrite Zplus_mod_idemp_l. rewrite (Zplus_mod m1 m2), <- A1, <- A2, <- Zplus_mod. f_equal. ring.
    - apply set_pair_inv in E. destruct E as (x & X & ->). apply lift2_inv in X. destruct X as (m1 & m2 & X1 & X2 & ->).
      destruct (get_pair _ _ _ _ _ I X1) as (b1 & Y1 & L1 & [A1 G1]). destruct (get_pair _ _ _ _ _ I X2) as (b2 & Y2 & L2 & [A2 G2]).
      cbn [ct ct_a ct_beta] in *. cbn [exec]. destruct (enc_invert k P Q Y V _ _ G2) as (r & R & GR).
      rewrite sub_writes with (i := r); cbn [ct ct_a ct_beta]; try ne; try len I; [|rewrite EN; lia|rewrite EN; exact R].
      rewrite EN. cbn [bind good]. unfold post. cbn [fst snd eval_instr]. rewrite Y1, Y2. cbn [lift2 set_pair].
      eexists. split; [reflexivity|]. split; [|split; assumption].
      apply write_pair; [exact I|exact T| |].
      + unfold K. rewrite Zplus_mod_idemp_r. rewrite Zplus_mod_idemp_l. rewrite (Zminus_mod m1 m2), <- A1, <- A2, <- Zminus_mod. f_equal. ring.
      + replace (b1 - b2) with (b1 + - b2) by ring. apply (enc_mul k P Q Y V); assumption.
    - apply set_pair_inv in E. destruct E as (x & X & ->). apply lift2_inv in X. destruct X as (m1 & m2 & X1 & X2 & ->). injection X1 as <-.
      pose proof (inv_scratch s em eb Vconst c I eq_refl) as I1.
      destruct (get_pair _ _ _ _ _ I1 X2) as (b2 & Y2 & L2 & [A2 G2]). cbn [exec].
      assert (Ec : zget (zset s (loc Vconst) c) (loc Vconst) = c) by (apply zget_same; len I).
      remember (zset s (loc Vconst) c) as s0 eqn:Es0. clear Es0.
      cbn [ct ct_a ct_beta] in *. destruct (enc_powm k P Q Y V _ _ c G2) as (r & R & GR).
      rewrite cmult_writes with (r := r); cbn [ct ct_a ct_beta]; try ne; try len I1; [|rewrite Ec, (inv_N _ _ _ I1); exact R].
      rewrite Ec. cbn [bind good]. unfold post. cbn [fst snd eval_instr]. rewrite Y2. cbn [lift2 set_pair].
      eexists. split; [reflexivity|]. split; [|split; assumption]. apply write_pair; [exact I1|exact T| |exact GR].
      unfold K. rewrite Zplus_mod_idemp_l. rewrite (Zmult_mod c m2), <- A2, <- Zmult_mod. f_equal. ring.
    - apply set_prod_inv in E. destruct E as (x & X & ->). apply lift2_inv in X. destruct X as (m1 & m2 & X1 & X2 & ->).
      destruct (get_pair _ _ _ _ _ I X1) as (b1 & Y1 & L1 & G1). destruct (get_pair _ _ _ _ _ I X2) as (b2 & Y2 & L2 & G2).
      cbn [exec]. eapply good_bind.
      + apply (mult_good k P Q Y V) with (m1 := m1) (b1 := b1) (m2 := m2) (b2 := b2); cbn [ct ct_a ct_beta]; try ne; try len I. apply (inv_y _ _ _ I).
      + intros [s' g'] (C & Es & EC & D'). cbn [fst snd good] in *. unfold post. cbn [fst snd eval_instr]. rewrite Y1, Y2. cbn [lift2 set_prod].
        eexists. split; [reflexivity|]. split; [|split; assumption]. rewrite Es. apply write_prod; assumption.
    - apply set_prod_inv in E. destruct E as (x & X & ->). apply lift2_inv in X. destruct X as (m12 & m3 & X12 & X3 & ->).
      apply lift2_inv in X12. destruct X12 as (m1 & m2 & X1 & X2 & ->).
      destruct (get_pair _ _ _ _ _ I X1) as (b1 & Y1 & L1 & _). destruct (get_pair _ _ _ _ _ I X2) as (b2 & Y2 & L2 & _).
      destruct (get_pair _ _ _ _ _ I X3) as (b3 & Y3 & L3 & _).
      cbn [exec]. unfold value. rewrite Y1, Y2, Y3.
      eapply good_bind; [apply (pair_good w s g cs em eb Vbeta12 _ _ _ I D S eq_refl eq_refl)|].
      intros [s1 g1] (C12 & Es1 & E12 & D1). cbn [fst snd] in *.
      pose proof (inv_scratch s em eb Vbeta12 C12 I eq_refl) as I1. rewrite <- Es1 in I1.
      eapply good_bind; [apply (pair_good w s1 g1 cs em eb Vbeta13 _ _ _ I1 D1 S eq_refl eq_refl)|].
      intros [s2 g2] (C13 & Es2 & E13 & D2). cbn [fst snd] in *.
      pose proof (inv_scratch s1 em eb Vbeta13 C13 I1 eq_refl) as I2. rewrite <- Es2 in I2.
      eapply good_bind; [apply (pair_good w s2 g2 cs em eb Vbeta23 _ _ _ I2 D2 S eq_refl eq_refl)|].
      intros [s3 g3] (C23 & Es3 & E23 & D3). cbn [fst snd] in *.
      pose proof (inv_scratch s2 em eb Vbeta23 C23 I2 eq_refl) as I3. rewrite <- Es3 in I3.
      assert (Z12 : zget s3 (loc Vbeta12) = C12).
      { rewrite Es3, Es2, Es1. rewrite !zget_other by ne. apply zget_same. len I. }
      assert (Z13 : zget s3 (loc Vbeta13) = C13).
      { rewrite Es3, Es2. rewrite !zget_other by ne. apply zget_same. len I1. }
      assert (Z23 : zget s3 (loc Vbeta23) = C23) by (rewrite Es3; apply zget_same; len I2).
      clear Es1 Es2 Es3.
      destruct (get_pair _ _ _ _ _ I3 X1) as (b1' & Y1' & _ & G1). destruct (get_pair _ _ _ _ _ I3 X2) as (b2' & Y2' & _ & G2).
      destruct (get_pair _ _ _ _ _ I3 X3) as (b3' & Y3' & _ & G3).
      replace b1' with b1 in * by congruence. replace b2' with b2 in * by congruence. replace b3' with b3 in * by congruence.
      eapply good_bind.
      + apply (mult_3_good k P Q Y V) with (m1 := m1) (b1 := b1) (m2 := m2) (b2 := b2) (m3 := m3) (b3 := b3); cbn [ct ct_a ct_beta]; try ne; try len I3.
        * apply (inv_N _ _ _ I3).
        * apply (inv_y _ _ _ I3).
        * rewrite Z12. exact E12.
        * rewrite Z13. exact E13.
        * rewrite Z23. exact E23.
      + intros [s' g'] (C & Es & EC & D'). cbn [fst snd good] in *. unfold post. cbn [fst snd eval_instr]. rewrite Y1, Y2, Y3. cbn [lift2 set_prod].
        eexists. split; [reflexivity|]. split; [|split; assumption]. rewrite Es. apply write_prod; assumption.
    - apply set_prod_inv in E. destruct E as (x & X & ->). apply lift2_inv in X. destruct X as (m1 & m2 & X1 & X2 & ->).
      destruct (get_prod _ _ _ _ _ I X1) as (b1 & Y1 & L1 & G1). destruct (get_prod _ _ _ _ _ I X2) as (b2 & Y2 & L2 & G2).
      cbn [exec]. rewrite add_2_writes; try ne; try len I; [|rewrite EN; lia].
      rewrite EN. cbn [bind good]. unfold post. cbn [fst snd eval_instr]. rewrite Y1, Y2. cbn [lift2 set_prod].
      eexists. split; [reflexivity|]. split; [|split; assumption]. apply write_prod; [exact I|exact T|].
      replace (m1 + m2 - (b1 + b2)) with ((m1 - b1) + (m2 - b2)) by ring. apply (enc_mul k P Q Y V); assumption.
    - apply set_prod_inv in E. destruct E as (x & X & ->). apply lift2_inv in X. destruct X as (m1 & m2 & X1 & X2 & ->).
      destruct (get_prod _ _ _ _ _ I X1) as (b1 & Y1 & L1 & G1). destruct (get_prod _ _ _ _ _ I X2) as (b2 & Y2 & L2 & G2).
      cbn [exec]. destruct (enc_invert k P Q Y V _ _ G2) as (r & R & GR).
      rewrite sub_2_writes with (i := r); try ne; try len I; [|rewrite EN; lia|rewrite EN; exact R].
      rewrite EN. cbn [bind good]. unfold post. cbn [fst snd eval_instr]. rewrite Y1, Y2. cbn [lift2 set_prod].
      eexists. split; [reflexivity|]. split; [|split; assumption]. apply write_prod; [exact I|exact T|].
      replace (m1 - m2 - (b1 - b2)) with ((m1 - b1) + - (m2 - b2)) by ring. apply (enc_mul k P Q Y V); assumption.
    - apply set_prod_inv in E. destruct E as (x & X & ->). apply lift2_inv in X. destruct X as (m1 & m2 & X1 & X2 & ->). injection X1 as <-.
      pose proof (inv_scratch s em eb Vconst c I eq_refl) as I1.
      destruct (get_prod _ _ _ _ _ I1 X2) as (b2 & Y2 & L2 & G2). cbn [exec].
      assert (Ec : zget (zset s (loc Vconst) c) (loc Vconst) = c) by (apply zget_same; len I).
      remember (zset s (loc Vconst) c) as s0 eqn:Es0. clear Es0.
      destruct (enc_powm k P Q Y V _ _ c G2) as (r & R & GR).
      unfold he_eval_cmult_2. rewrite Ec, (inv_N _ _ _ I1), R. cbn [bind good]. unfold post. cbn [fst snd eval_instr]. rewrite Y2. cbn [lift2 set_prod].
      eexists. split; [reflexivity|]. split; [|split; assumption]. apply write_prod; [exact I1|exact T|].
      replace (c * m2 - c * b2) with (c * (m2 - b2)) by ring. exact GR.
  Qed.

  Lemma run_good w : forall prog stack s g cs em eb em', inv s em eb -> draws P Q w g -> HcProofs.state_ok cs ->
    Forall (fun x => (target x < n)%nat /\ label_fits x) prog -> (forall j, bytes (stack j)) -> eval prog em = Some em' ->
    good w (run loc (S (S f)) k stack prog s g cs eb)
      (fun r => inv (fst (fst (fst r))) em' (snd r) /\ draws P Q w (snd (fst (fst r))) /\ HcProofs.state_ok (snd (fst r))).
  Proof.
    induction prog as [|x prog IH]; intros stack s g cs em eb em' I D S F B E.
    - cbn [eval] in E. injection E as <-. cbn. auto.
    - cbn [eval] in E. destruct (eval_instr x (message x) em) as [em1|] eqn:E1; [|discriminate]. inversion F as [|? ? [F1 F2] F3]. subst.
      cbn [run]. eapply good_bind; [apply (exec_good w (stack 0%nat) x s g cs em eb em1); auto|].
      intros [[s1 g1] cs1] (eb1 & Eb & I1 & D1 & S1). cbn [fst snd] in *. rewrite Eb. apply (IH _ _ _ _ em1); auto.
  Qed.
End Program.
