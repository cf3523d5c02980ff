(** Property C134: products written over an operand. *)
From Coq Require Import NArith ZArith Znumtheory Zpow_facts List Bool Arith Lia.
From Verif Require Import Res ListLemmas Gmp JoyeModel NumTheory JoyeSpec JoyeMath JoyeProofs JoyeProps HeModel HeSpec HeLabel HeRun HeProofs HeProps.
Import ListNotations.
Local Open Scope Z_scope.

Lemma encryption_enc_of k P Q Y b x : valid_key k P Q Y -> 0 <= b -> rel_prime x (P * Q) -> enc_of k P Q Y (encryption k Y (P * Q) b x) b.
Proof.
  intros V Hb R. unfold encryption. pose proof (N_gt1 k P Q Y V) as N1.
  assert (G : enc_of k P Q Y Y 1) by (split; [apply (log_y k P Q Y V)|apply nonresidue_divide, (key_yq _ _ _ _ V)]).
  destruct (enc_powm k P Q Y V Y 1 b G) as (r & E & F). rewrite Z.mul_1_r in F. rewrite powm_pos in E by lia. apply Ret_inj in E. subst r.
  destruct (rel_prime_units k P Q Y V x R) as [U1 U2].
  assert (B : enc_of k P Q Y (x ^ 2 ^ Z.of_nat k) 0).
  { split; [rewrite Z.mod_0_l by (pose proof (pow2_pos k); lia); apply (log_blind k P Q Y V); exact U1|].
    apply not_divide_pow; [apply (key_q _ _ _ _ V)|pose proof (pow2_pos k); lia|exact U2]. }
  pose proof (enc_mul k P Q Y V _ _ _ _ F B) as X. rewrite Z.add_0_r in X. rewrite Zmult_mod_idemp_l in X. exact X.
Qed.

(** The pairs c1 and c2 hold the messages [m1] and [m2] under the blinding values
    [b1] and [b2]: beta_i is an encryption of b_i, a_i = m_i - b_i modulo 2^k. *)
Definition holds_message (k : nat) (P Q Y : Z) (s : store) (c : he_ct) (m b : Z) : Prop :=
  zget s (ct_a c) = (m - b) mod 2 ^ Z.of_nat k /\ 0 <= b /\
  exists x, rel_prime x (P * Q) /\ zget s (ct_beta c) = encryption k Y (P * Q) b x.

(** The product put into the beta of the first operand decrypts to
    m1 m2 + a2 (a1 a2 - b1), not to m1 m2, modulo 2^k. *)
Theorem C134_product_over_first_operand : forall k P Q Y f s g c1 c2 p y n m1 b1 m2 b2,
  valid_key k P Q Y -> draws P Q false g ->
  zget s n = P * Q -> zget s y = Y -> zget s p = P ->
  (ct_beta c1 < length s)%nat -> (n < length s)%nat -> (y < length s)%nat ->
  ~ In (ct_beta c1) [n; y; p; ct_a c1; ct_a c2; ct_beta c2] ->
  holds_message k P Q Y s c1 m1 b1 -> holds_message k P Q Y s c2 m2 b2 ->
  exists s' g', he_eval_mult (S (S f)) s (ct_beta c1) g c1 c2 y n k = Ret (s', g') /\
    forall out r, (out < length s')%nat -> ~ In out [ct_beta c1; p; y; r] -> zget s' r mod 2 ^ Z.of_nat k = (b1 * b2) mod 2 ^ Z.of_nat k ->
      he_decrypt_2 s' out (ct_beta c1) r p y k =
      Ret (zset s' out ((m1 * m2 + (m2 - b2) * ((m1 - b1) * (m2 - b2) - b1)) mod 2 ^ Z.of_nat k)).
Proof.
  intros k P Q Y f s g c1 c2 p y n m1 b1 m2 b2 V D EN Ey Ep La Ln Ly NI (A1 & P1 & x1 & X1 & B1) (A2 & P2 & x2 & X2 & B2).
  cbn [In] in NI. set (al := ct_beta c1) in *. set (K := 2 ^ Z.of_nat k) in *.
  assert (D0 : al <> n) by (intros H; apply NI; auto). assert (D1 : al <> ct_a c1) by (intros H; apply NI; auto). assert (D2 : al <> ct_a c2) by (intros H; apply NI; auto 10).
  assert (D3 : al <> ct_beta c2) by (intros H; apply NI; auto 10). assert (D4 : al <> y) by (intros H; apply NI; auto). assert (D5 : al <> p) by (intros H; apply NI; auto).
  pose proof (N_gt1 k P Q Y V) as N1. pose proof (encryption_enc_of k P Q Y b2 x2 V P2 X2) as E2. rewrite <- B2 in E2.
  assert (KP : 0 < K) by apply pow2_pos.
  assert (HM : forall z, exists t, z mod K = z + t * K).
  { intros z. exists (- (z / K)). pose proof (Z.div_mod z K ltac:(lia)). lia. }
  destruct (HM (m1 - b1)) as [t1 T1]. destruct (HM (m2 - b2)) as [t2 T2]. rewrite T1 in A1. rewrite T2 in A2. clear T1 T2.
  remember (zget s (ct_a c1)) as a1 eqn:Ea1. remember (zget s (ct_a c2)) as a2 eqn:Ea2.
  unfold he_eval_mult. rewrite mod_pow2. cbn [bind local]. fold K. rewrite <- Ea1, <- Ea2.
  destruct (HM (a1 * a2)) as [t V12]. remember ((a1 * a2) mod K) as v eqn:Ev. clear Ev.
  pose proof (joye_good k P Q Y V false f (s ++ [v]) al g (length s) y n D ltac:(rewrite zget_app; assumption) ltac:(rewrite zget_app; assumption)
    ltac:(rewrite app_length; lia) D0) as J.
  destruct (joye_libert_encrypt (S (S f)) (s ++ [v]) al g (length s) y n k) as [[s1 g1]| |]; cbn [good] in J; [|contradiction|discriminate].
  destruct J as (C & Es & EC & _). cbn [fst snd] in *. rewrite zset_app in Es by exact La. subst s1. cbn [bind]. rewrite drop_app. rewrite zget_local in EC.
  rewrite !(zget_other _ al (ct_a c1)), !(zget_other _ al (ct_a c2)), (zget_other _ al (ct_beta c2)), (zget_other _ al n) by assumption.
  change (ct_beta c1) with al. rewrite (zget_same s al) by exact La. rewrite <- Ea1, <- Ea2, EN.
  destruct (enc_powm k P Q Y V _ _ a1 E2) as (r1 & R1 & F1). destruct (enc_powm k P Q Y V _ _ a2 EC) as (r2 & R2 & F2).
  rewrite R1. cbn [bind]. rewrite R2. cbn [bind].
  rewrite mul_mod_writes; [|rewrite zget_other by exact D0; lia|rewrite zset_length; exact La|exact D0].
  cbn [bind]. rewrite zset_zset, zget_same by exact La. rewrite zget_other by exact D0.
  rewrite mul_mod_writes; [|rewrite zget_other by exact D0; lia|rewrite zset_length; exact La|exact D0].
  cbn [bind]. rewrite zset_zset, zget_same by exact La. rewrite zget_other by exact D0. rewrite EN.
  eexists _, _. split; [reflexivity|]. intros out r Lo NO ER. cbn [In] in NO.
  pose proof (enc_mul k P Q Y V _ _ _ _ (enc_mul k P Q Y V _ _ _ _ EC F2) F1) as X.
  apply (decrypt_prod k P Q Y V) with (B := b1 * b2).
  - exact Lo.
  - intros H; apply NO; auto.
  - intros H; apply NO; auto.
  - intros H; apply NO; auto.
  - intros H; apply NO; auto.
  - rewrite zget_other by exact D5. exact Ep.
  - rewrite zget_other by exact D4. exact Ey.
  - unfold good_prod. rewrite zget_same by exact La.
    apply (enc_cong k P Q Y _ (v + a2 * v + a1 * b2)); [|exact X]. fold K. rewrite V12, A1, A2.
    set (u1 := m1 - b1). set (u2 := m2 - b2).
    replace m1 with (u1 + b1) by (unfold u1; ring). replace m2 with (u2 + b2) by (unfold u2; ring).
    replace ((u1 + t1 * K) * (u2 + t2 * K) + t * K + (u2 + t2 * K) * ((u1 + t1 * K) * (u2 + t2 * K) + t * K) + (u1 + t1 * K) * b2)
      with ((u1 + b1) * (u2 + b2) + u2 * (u1 * u2 - b1) - b1 * b2 +
        (t1 * (u2 + t2 * K) + u1 * t2 + t + t2 * (u1 * u2) + (u2 + t2 * K) * (t1 * (u2 + t2 * K) + u1 * t2 + t) + t1 * b2) * K) by ring.
    apply Z_mod_plus_full.
  - exact ER.
Qed.
Print Assumptions C134_product_over_first_operand.

(** Into the beta of the second operand: m1 m2 + a1 (a1 a2 - b2). *)
Theorem C134_product_over_second_operand : forall k P Q Y f s g c1 c2 p y n m1 b1 m2 b2,
  valid_key k P Q Y -> draws P Q false g ->
  zget s n = P * Q -> zget s y = Y -> zget s p = P ->
  (ct_beta c2 < length s)%nat -> (n < length s)%nat -> (y < length s)%nat ->
  ~ In (ct_beta c2) [n; y; p; ct_a c1; ct_a c2; ct_beta c1] ->
  holds_message k P Q Y s c1 m1 b1 -> holds_message k P Q Y s c2 m2 b2 ->
  exists s' g', he_eval_mult (S (S f)) s (ct_beta c2) g c1 c2 y n k = Ret (s', g') /\
    forall out r, (out < length s')%nat -> ~ In out [ct_beta c2; p; y; r] -> zget s' r mod 2 ^ Z.of_nat k = (b1 * b2) mod 2 ^ Z.of_nat k ->
      he_decrypt_2 s' out (ct_beta c2) r p y k =
      Ret (zset s' out ((m1 * m2 + (m1 - b1) * ((m1 - b1) * (m2 - b2) - b2)) mod 2 ^ Z.of_nat k)).
Proof.
  intros k P Q Y f s g c1 c2 p y n m1 b1 m2 b2 V D EN Ey Ep La Ln Ly NI (A1 & P1 & x1 & X1 & B1) (A2 & P2 & x2 & X2 & B2).
  cbn [In] in NI. set (al := ct_beta c2) in *. set (K := 2 ^ Z.of_nat k) in *.
  assert (D0 : al <> n) by (intros H; apply NI; auto). assert (D1 : al <> ct_a c1) by (intros H; apply NI; auto). assert (D2 : al <> ct_a c2) by (intros H; apply NI; auto 10).
  assert (D3 : al <> ct_beta c1) by (intros H; apply NI; auto 10). assert (D4 : al <> y) by (intros H; apply NI; auto). assert (D5 : al <> p) by (intros H; apply NI; auto).
  pose proof (N_gt1 k P Q Y V) as N1. pose proof (encryption_enc_of k P Q Y b1 x1 V P1 X1) as E2. rewrite <- B1 in E2.
  assert (KP : 0 < K) by apply pow2_pos.
  assert (HM : forall z, exists t, z mod K = z + t * K).
  { intros z. exists (- (z / K)). pose proof (Z.div_mod z K ltac:(lia)). lia. }
  destruct (HM (m1 - b1)) as [t1 T1]. destruct (HM (m2 - b2)) as [t2 T2]. rewrite T1 in A1. rewrite T2 in A2. clear T1 T2.
  remember (zget s (ct_a c1)) as a1 eqn:Ea1. remember (zget s (ct_a c2)) as a2 eqn:Ea2.
  unfold he_eval_mult. rewrite mod_pow2. cbn [bind local]. fold K. rewrite <- Ea1, <- Ea2.
  destruct (HM (a1 * a2)) as [t V12]. remember ((a1 * a2) mod K) as v eqn:Ev. clear Ev.
  pose proof (joye_good k P Q Y V false f (s ++ [v]) al g (length s) y n D ltac:(rewrite zget_app; assumption) ltac:(rewrite zget_app; assumption)
    ltac:(rewrite app_length; lia) D0) as J.
  destruct (joye_libert_encrypt (S (S f)) (s ++ [v]) al g (length s) y n k) as [[s1 g1]| |]; cbn [good] in J; [|contradiction|discriminate].
  destruct J as (C & Es & EC & _). cbn [fst snd] in *. rewrite zset_app in Es by exact La. subst s1. cbn [bind]. rewrite drop_app. rewrite zget_local in EC.
  rewrite !(zget_other _ al (ct_a c1)), !(zget_other _ al (ct_a c2)), (zget_other _ al (ct_beta c1)), (zget_other _ al n) by assumption.
  change (ct_beta c2) with al. rewrite (zget_same s al) by exact La. rewrite <- Ea1, <- Ea2, EN.
  destruct (enc_powm k P Q Y V _ _ a1 EC) as (r1 & R1 & F1). destruct (enc_powm k P Q Y V _ _ a2 E2) as (r2 & R2 & F2).
  rewrite R1. cbn [bind]. rewrite R2. cbn [bind].
  rewrite mul_mod_writes; [|rewrite zget_other by exact D0; lia|rewrite zset_length; exact La|exact D0].
  cbn [bind]. rewrite zset_zset, zget_same by exact La. rewrite zget_other by exact D0.
  rewrite mul_mod_writes; [|rewrite zget_other by exact D0; lia|rewrite zset_length; exact La|exact D0].
  cbn [bind]. rewrite zset_zset, zget_same by exact La. rewrite zget_other by exact D0. rewrite EN.
  eexists _, _. split; [reflexivity|]. intros out r Lo NO ER. cbn [In] in NO.
  pose proof (enc_mul k P Q Y V _ _ _ _ (enc_mul k P Q Y V _ _ _ _ EC F2) F1) as X.
  apply (decrypt_prod k P Q Y V) with (B := b1 * b2).
  - exact Lo.
  - intros H; apply NO; auto.
  - intros H; apply NO; auto.
  - intros H; apply NO; auto.
  - intros H; apply NO; auto.
  - rewrite zget_other by exact D5. exact Ep.
  - rewrite zget_other by exact D4. exact Ey.
  - unfold good_prod. rewrite zget_same by exact La.
    apply (enc_cong k P Q Y _ (v + a2 * b1 + a1 * v)); [|exact X]. fold K. rewrite V12, A1, A2.
    set (u1 := m1 - b1). set (u2 := m2 - b2).
    replace m1 with (u1 + b1) by (unfold u1; ring). replace m2 with (u2 + b2) by (unfold u2; ring).
    replace ((u1 + t1 * K) * (u2 + t2 * K) + t * K + (u2 + t2 * K) * b1 + (u1 + t1 * K) * ((u1 + t1 * K) * (u2 + t2 * K) + t * K))
      with ((u1 + b1) * (u2 + b2) + u1 * (u1 * u2 - b2) - b1 * b2 +
        (t1 * (u2 + t2 * K) + u1 * t2 + t + t1 * (u1 * u2) + (u1 + t1 * K) * (t1 * (u2 + t2 * K) + u1 * t2 + t) + t2 * b1) * K) by ring.
    apply Z_mod_plus_full.
  - exact ER.
Qed.
Print Assumptions C134_product_over_second_operand.

(** Into any other variable of the user: the product. *)
Theorem C134_product_elsewhere : forall k P Q Y f s alpha g c1 c2 p y n m1 b1 m2 b2,
  valid_key k P Q Y -> draws P Q false g ->
  zget s n = P * Q -> zget s y = Y -> zget s p = P ->
  (alpha < length s)%nat -> (n < length s)%nat -> (y < length s)%nat ->
  ~ In alpha [n; y; p; ct_a c1; ct_a c2; ct_beta c1; ct_beta c2] ->
  holds_message k P Q Y s c1 m1 b1 -> holds_message k P Q Y s c2 m2 b2 ->
  exists s' g', he_eval_mult (S (S f)) s alpha g c1 c2 y n k = Ret (s', g') /\
    forall out r, (out < length s')%nat -> ~ In out [alpha; p; y; r] -> zget s' r mod 2 ^ Z.of_nat k = (b1 * b2) mod 2 ^ Z.of_nat k ->
      he_decrypt_2 s' out alpha r p y k = Ret (zset s' out ((m1 * m2) mod 2 ^ Z.of_nat k)).
Proof.
  intros k P Q Y f s alpha g c1 c2 p y n m1 b1 m2 b2 V D EN Ey Ep La Ln Ly NI (A1 & P1 & x1 & X1 & B1) (A2 & P2 & x2 & X2 & B2).
  cbn [In] in NI.
  assert (G1 : good_ct k P Q Y s c1 m1 b1).
  { split; [rewrite A1, Zplus_mod_idemp_l; f_equal; ring|]. rewrite B1. apply encryption_enc_of; assumption. }
  assert (G2 : good_ct k P Q Y s c2 m2 b2).
  { split; [rewrite A2, Zplus_mod_idemp_l; f_equal; ring|]. rewrite B2. apply encryption_enc_of; assumption. }
  pose proof (mult_good k P Q Y V false f s alpha g c1 c2 y n m1 b1 m2 b2 D EN Ey La Ln Ly) as M.
  do 5 (match type of M with ?X -> _ => let H := fresh in assert (H : X) by (intros ?; apply NI; auto 10); specialize (M H); clear H end).
  specialize (M G1 G2). destruct (he_eval_mult (S (S f)) s alpha g c1 c2 y n k) as [[s' g']| |]; cbn [good] in M; [|contradiction|discriminate].
  destruct M as (C & Es & EC & _). cbn [fst snd] in *. exists s', g'. split; [reflexivity|]. intros out r Lo NO ER. cbn [In] in NO. subst s'.
  apply (decrypt_prod k P Q Y V) with (B := b1 * b2); try assumption; try (intros H; apply NO; auto; fail).
  - rewrite zget_other by (intros H; apply NI; auto 10). exact Ep.
  - rewrite zget_other by (intros H; apply NI; auto 10). exact Ey.
  - unfold good_prod. rewrite zget_same by exact La. exact EC.
Qed.
Print Assumptions C134_product_elsewhere.

(** 32-bit messages are not needed: the key p = 41, q = 7, y = 3 has 3 bits.  The
    messages 5 and 6, blinded with 2 and 1; N, y, p, then the two pairs, b1 b2,
    and variables for results. *)
Definition alias_store : store := [287; 3; 41; 3; encryption 3 3 287 2 5; 5; encryption 3 3 287 1 4; 2; 0; 0].
Lemma alias_holds : holds_message 3 41 7 3 alias_store (Ct 3 4) 5 2 /\ holds_message 3 41 7 3 alias_store (Ct 5 6) 6 1.
Proof.
  split; (split; [reflexivity|]; split; [lia|]).
  - exists 5. split; [apply Zgcd_1_rel_prime; reflexivity|reflexivity].
  - exists 4. split; [apply Zgcd_1_rel_prime; reflexivity|reflexivity].
Qed.
Lemma alias_draws : draws 41 7 false (fun _ => 5).
Proof. intros i. left. apply Zgcd_1_rel_prime. reflexivity. Qed.
Example C134_instance : valid_key 3 41 7 3 /\ draws 41 7 false (fun _ => 5) /\
  zget alias_store 0 = 41 * 7 /\ zget alias_store 1 = 3 /\ zget alias_store 2 = 41 /\
  ~ In 4%nat [0; 1; 2; 3; 5; 6]%nat /\ ~ In 6%nat [0; 1; 2; 3; 5; 4]%nat /\ ~ In 8%nat [0; 1; 2; 3; 5; 4; 6]%nat /\
  holds_message 3 41 7 3 alias_store (Ct 3 4) 5 2 /\ holds_message 3 41 7 3 alias_store (Ct 5 6) 6 1 /\
  zget alias_store 7 mod 8 = (2 * 1) mod 8.
Proof.
  split; [exact small_key|]. split; [exact alias_draws|]. do 3 (split; [reflexivity|]).
  do 3 (split; [cbn; lia|]). split; [apply alias_holds|]. split; [apply alias_holds|reflexivity].
Qed.

(** C134, false: 5 times 6 is 6 modulo 8 if the product has a variable of its own,
    and something else if it is written over either operand. *)
Theorem C134_product_over_operand_refuted : exists k P Q Y s g c1 c2 p y n r out m1 b1 m2 b2,
  valid_key k P Q Y /\ draws P Q false g /\ holds_message k P Q Y s c1 m1 b1 /\ holds_message k P Q Y s c2 m2 b2 /\
  zget s r mod 2 ^ Z.of_nat k = (b1 * b2) mod 2 ^ Z.of_nat k /\
  let product alpha := let* (s, _) := he_eval_mult 2 s alpha g c1 c2 y n k in
                       let* s := he_decrypt_2 s out alpha r p y k in Ret (zget s out) in
  (exists alpha, product alpha = Ret ((m1 * m2) mod 2 ^ Z.of_nat k)) /\
  product (ct_beta c1) <> Ret ((m1 * m2) mod 2 ^ Z.of_nat k) /\
  product (ct_beta c2) <> Ret ((m1 * m2) mod 2 ^ Z.of_nat k).
Proof.
  exists 3%nat, 41, 7, 3, alias_store, (fun _ => 5), (Ct 3 4), (Ct 5 6), 2%nat, 1%nat, 0%nat, 7%nat, 9%nat, 5, 2, 6, 1.
  split; [exact small_key|]. split; [exact alias_draws|]. split; [apply alias_holds|]. split; [apply alias_holds|]. split; [reflexivity|].
  cbv zeta. split; [exists 8%nat; vm_compute; reflexivity|]. split; vm_compute; discriminate.
Qed.
Print Assumptions C134_product_over_operand_refuted.
