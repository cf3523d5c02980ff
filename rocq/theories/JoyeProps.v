(** Properties of the Joye-Libert functions (AsymmetricCryptography/Joye_libert). *)
From Coq Require Import ZArith Znumtheory List Bool Lia.
From Verif Require Import Res Mem ListLemmas Gmp JoyeModel NumTheory JoyeSpec JoyeMath JoyeProofs.
Import ListNotations.
Local Open Scope Z_scope.

(** joye_libert_decrypt turns the ciphertext [C] into [M]: for any variables
    holding C, p and y, and any other variable for the result, it returns and
    changes that variable to M and nothing else. *)
Definition decrypts_to (k : nat) (P Y C M : Z) : Prop := forall s m c p y,
  (m < length s)%nat -> m <> c -> m <> p -> m <> y -> zget s c = C -> zget s p = P -> zget s y = Y ->
  joye_libert_decrypt s m c p y k = Ret (zset s m M).

Lemma decrypts_log k P Q Y C M : valid_key k P Q Y -> dlog k P Y C M -> decrypts_to k P Y C M.
Proof.
  intros V D s m c p y Lm Nc Np Ny Ec Ep Ey. apply (log_decrypt k P Q Y V); try assumption. rewrite Ec. exact D.
Qed.
Lemma log_decrypts k P Q Y C M : valid_key k P Q Y -> ~ (P | C) -> decrypts_to k P Y C M -> dlog k P Y C M.
Proof.
  intros V U D. destruct (log_exists k P Q Y V C U) as [M' H]. pose proof (decrypts_log _ _ _ _ _ _ V H) as D'.
  specialize (D [0; C; P; Y] 0%nat 1%nat 2%nat 3%nat). specialize (D' [0; C; P; Y] 0%nat 1%nat 2%nat 3%nat).
  rewrite D' in D; cbn; try lia; try discriminate. specialize (D ltac:(cbn; lia) ltac:(lia) ltac:(lia) ltac:(lia) eq_refl eq_refl eq_refl).
  apply Ret_inj in D. injection D as E. rewrite <- E. exact H.
Qed.

(** Deciding primality and non-residuosity of small numbers. *)
Definition up_to (n : Z) : list Z := map Z.of_nat (seq 0 (Z.to_nat n)).
Lemma in_up_to n x : 0 <= x < n -> In x (up_to n).
Proof. intros H. apply in_map_iff. exists (Z.to_nat x). split; [lia|]. apply in_seq. lia. Qed.
Definition is_prime (n : Z) : bool := (1 <? n) && forallb (fun d => (d <? 2) || negb (n mod d =? 0)) (up_to n).
Lemma is_prime_sound n : is_prime n = true -> prime n.
Proof.
  intros H. apply andb_true_iff in H. destruct H as [H1 H2]. apply Z.ltb_lt in H1. rewrite forallb_forall in H2.
  apply prime_alt. split; [exact H1|]. intros d Hd D. specialize (H2 d (in_up_to n d ltac:(lia))).
  apply orb_true_iff in H2. destruct H2 as [H2|H2]; [apply Z.ltb_lt in H2; lia|].
  apply negb_true_iff, Z.eqb_neq in H2. apply H2. apply Z.mod_divide; [lia|exact D].
Qed.
Definition is_nonresidue (a p : Z) : bool := (0 <? p) && forallb (fun x => negb ((x * x) mod p =? a mod p)) (up_to p).
Lemma is_nonresidue_sound a p : is_nonresidue a p = true -> nonresidue a p.
Proof.
  intros H x E. apply andb_true_iff in H. destruct H as [H1 H2]. apply Z.ltb_lt in H1. rewrite forallb_forall in H2.
  specialize (H2 (x mod p) (in_up_to p _ (Z.mod_pos_bound x p H1))). apply negb_true_iff, Z.eqb_neq in H2.
  apply H2. rewrite <- Zmult_mod. exact E.
Qed.
Definition is_key (k : nat) (p q y : Z) : bool :=
  is_prime p && is_prime q && (2 <? p) && (2 <? q) && ((p - 1) mod 2 ^ Z.of_nat k =? 0) && is_nonresidue y p && is_nonresidue y q.
Lemma is_key_sound k p q y : is_key k p q y = true -> valid_key k p q y.
Proof.
  unfold is_key. rewrite !andb_true_iff. intros ((((((H1 & H2) & H3) & H4) & H5) & H6) & H7).
  constructor; try (apply is_prime_sound; assumption); try (apply is_nonresidue_sound; assumption); try (apply Z.ltb_lt; assumption).
  apply Z.eqb_eq in H5. apply Z.mod_divide; [pose proof (pow2_pos k); lia|exact H5].
Qed.
Lemma small_key : valid_key 3 41 7 3.
Proof. apply is_key_sound. vm_compute. reflexivity. Qed.

(** ** C59 *)
(** For every valid key, integer message and random stream: encryption takes the first number
    that is not zero modulo N, and if p does not divide it, decryption gives the message
    modulo 2^k.  The variables c, m, y may coincide. *)
Theorem C59_joye_libert_round_trip fuel s c g m y N k P Q Y n :
  valid_key k P Q Y -> zget s y = Y -> zget s N = P * Q -> (c < length s)%nat -> c <> N ->
  draw g (P * Q) n -> (n < fuel)%nat -> ~ (P | g n mod (P * Q)) ->
  exists C, joye_libert_encrypt (S fuel) s c g m y N k = Ret (zset s c C, Nat.iter (S n) rng_tail g) /\
    0 <= C < P * Q /\
    (0 <= zget s m -> C = encryption k Y (P * Q) (zget s m) (g n mod (P * Q))) /\
    decrypts_to k P Y C (zget s m mod 2 ^ Z.of_nat k).
Proof.
  intros V Ey EN Lc Nc Dr Ln U. pose proof (key_p2 _ _ _ _ V) as P2. pose proof (key_q2 _ _ _ _ V) as Q2.
  assert (HN : 0 < P * Q) by nia.
  assert (G : Z.gcd Y (P * Q) = 1).
  { apply (key_unit k P Q Y V); apply nonresidue_divide; [apply (key_yp _ _ _ _ V)|apply (key_yq _ _ _ _ V)]. }
  assert (EP : exists R, mpz_powm Y (zget s m) (P * Q) = Ret R /\ (0 <= zget s m -> R = Y ^ zget s m mod (P * Q))).
  { destruct (Z.le_gt_cases 0 (zget s m)) as [Hm|Hm].
    - eexists. split; [apply powm_pos; assumption|reflexivity].
    - destruct (powm_neg Y (zget s m) (P * Q) HN Hm G) as (i & _ & _ & E). eexists. split; [exact E|lia]. }
  destruct EP as (R & ER & Epos). exists ((R * (g n mod (P * Q)) ^ 2 ^ Z.of_nat k) mod (P * Q)).
  split; [|split; [|split]].
  - rewrite (encrypt_any fuel s c g m y N k R); rewrite ?EN, ?Ey; try assumption.
    rewrite (first_draw_at (P * Q) n fuel g Ln Dr). reflexivity.
  - apply Z.mod_pos_bound. exact HN.
  - intros Hm. rewrite (Epos Hm). unfold encryption. apply Zmult_mod_idemp_l.
  - apply (decrypts_log k P Q Y); [exact V|].
    apply (log_cong k P Y (R * (g n mod (P * Q)) ^ 2 ^ Z.of_nat k)); [symmetry; apply cong_mod_mult; lia|].
    pose proof (log_mul k P Q Y V _ _ _ _ (log_powm k P Q Y V _ _ _ _ (log_y k P Q Y V) ER) (log_blind k P Q Y V _ U)) as L.
    rewrite Z.add_0_r, Zmod_mod, Zmult_mod_idemp_r, Z.mul_1_r in L. exact L.
Qed.
Print Assumptions C59_joye_libert_round_trip.

(** The statement for messages in range and numbers coprime to N. *)
Theorem C59_joye_libert_decrypts_message fuel s c g m y N k P Q n :
  valid_key k P Q (zget s y) -> zget s N = P * Q -> (c < length s)%nat -> c <> N ->
  draw g (P * Q) n -> (n < fuel)%nat -> rel_prime (g n mod (P * Q)) (P * Q) -> 0 <= zget s m < 2 ^ Z.of_nat k ->
  exists C, joye_libert_encrypt (S fuel) s c g m y N k = Ret (zset s c C, Nat.iter (S n) rng_tail g) /\
    decrypts_to k P (zget s y) C (zget s m).
Proof.
  intros V EN Lc Nc Dr Ln U Hm.
  destruct (C59_joye_libert_round_trip fuel s c g m y N k P Q (zget s y) n V eq_refl EN Lc Nc Dr Ln) as (C & E & _ & _ & D).
  - intros D. pose proof (key_p2 _ _ _ _ V). destruct U as [_ _ U]. specialize (U P D (Z.divide_factor_l P Q)).
    apply Z.divide_1_r in U. lia.
  - exists C. split; [exact E|]. rewrite Z.mod_small in D by exact Hm. exact D.
Qed.
Print Assumptions C59_joye_libert_decrypts_message.

(** Encryption does not return if every number drawn is zero modulo N, and is never undefined. *)
Theorem C59_joye_libert_encrypt_waits fuel s c g m y N k :
  (c < length s)%nat -> c <> N -> 0 < zget s N -> 0 <= zget s m -> (forall i, g i mod zget s N = 0) ->
  joye_libert_encrypt fuel s c g m y N k = NoFuel.
Proof.
  intros Lc Nc HN Hm Z0. destruct fuel as [|fuel]; [reflexivity|].
  rewrite encrypt_ok by assumption. rewrite first_draw_none by exact Z0. reflexivity.
Qed.
Print Assumptions C59_joye_libert_encrypt_waits.

(** Concrete case: p = 41, q = 7, y = 3, k = 3; the numbers drawn are 0 and then 5; messages 6 and -1. *)
Example C59_instance :
  let s := [0; 6; 3; 287; 41; 0] in let g := fun i : nat => match i with O => 0 | _ => 5 end in
  valid_key 3 41 7 3 /\ draw g 287 1 /\ ~ (41 | 5 mod 287) /\
  joye_libert_encrypt 3 s 0 g 1 2 3 3 = Ret ([207; 6; 3; 287; 41; 0], Nat.iter 2 rng_tail g) /\
  joye_libert_decrypt [207; 6; 3; 287; 41; 0] 5 0 4 2 3 = Ret [207; 6; 3; 287; 41; 6] /\
  (exists s', joye_libert_encrypt 3 [0; -1; 3; 287; 41; 0] 0 g 1 2 3 3 = Ret (s', Nat.iter 2 rng_tail g) /\
    joye_libert_decrypt s' 5 0 4 2 3 = Ret (zset s' 5 7)).
Proof.
  cbv zeta. split; [exact small_key|]. split; [split; [intros i Hi; replace i with 0%nat by lia; reflexivity|discriminate]|].
  split; [intros D; apply Z.mod_divide in D; [discriminate D|discriminate]|].
  split; [reflexivity|]. split; [vm_compute; reflexivity|]. eexists. split; [reflexivity|]. vm_compute. reflexivity.
Qed.

(** ** C60 *)
(** Products, for all ciphertexts that p does not divide. *)
Theorem C60_joye_libert_product_adds k P Q Y C1 C2 M1 M2 :
  valid_key k P Q Y -> ~ (P | C1) -> ~ (P | C2) -> decrypts_to k P Y C1 M1 -> decrypts_to k P Y C2 M2 ->
  decrypts_to k P Y ((C1 * C2) mod (P * Q)) ((M1 + M2) mod 2 ^ Z.of_nat k).
Proof.
  intros V U1 U2 D1 D2. pose proof (key_p2 _ _ _ _ V). pose proof (key_q2 _ _ _ _ V). apply (decrypts_log k P Q Y _ _ V).
  apply (log_cong k P Y (C1 * C2)); [symmetry; apply cong_mod_mult; lia|].
  apply (log_mul k P Q Y V); apply (log_decrypts k P Q Y); assumption.
Qed.
Print Assumptions C60_joye_libert_product_adds.

(** Inverses modulo N: those mpz_invert returns. *)
Theorem C60_joye_libert_inverse_negates k P Q Y C M :
  valid_key k P Q Y -> ~ (P | C) -> ~ (Q | C) -> decrypts_to k P Y C M ->
  exists I, mpz_invert C (P * Q) = Ret I /\ 0 <= I < P * Q /\ (C * I) mod (P * Q) = 1 /\
    decrypts_to k P Y I ((- M) mod 2 ^ Z.of_nat k).
Proof.
  intros V U1 U2 D. pose proof (key_p2 _ _ _ _ V). pose proof (key_q2 _ _ _ _ V). assert (HN : 1 < P * Q) by nia.
  pose proof (inverse_ok C (P * Q) ltac:(lia)) as I. unfold mpz_invert.
  destruct (inverse C (P * Q)) as [i|]; [|exfalso; apply I; apply (key_unit k P Q Y V); assumption].
  destruct I as [B I]. exists i. split; [reflexivity|]. split; [exact B|]. split.
  - rewrite (cong_eq _ _ _ I). apply Z.mod_1_l. exact HN.
  - apply (decrypts_log k P Q Y _ _ V). apply (log_inv k P Q Y V C); [apply (log_decrypts k P Q Y); assumption|].
    apply (cong_pq k P Q Y V). exact I.
Qed.
Print Assumptions C60_joye_libert_inverse_negates.

(** Powers with any integer exponent: those mpz_powm returns. *)
Theorem C60_joye_libert_power_multiplies k P Q Y C M n R :
  valid_key k P Q Y -> ~ (P | C) -> decrypts_to k P Y C M -> mpz_powm C n (P * Q) = Ret R ->
  decrypts_to k P Y R ((n * M) mod 2 ^ Z.of_nat k).
Proof.
  intros V U D E. apply (decrypts_log k P Q Y _ _ V). apply (log_powm k P Q Y V C); [|exact E].
  apply (log_decrypts k P Q Y); assumption.
Qed.
Print Assumptions C60_joye_libert_power_multiplies.

(** Every number that p does not divide decrypts, to exactly one message; two encryptions give such numbers. *)
Theorem C60_joye_libert_decrypts_all k P Q Y C : valid_key k P Q Y -> ~ (P | C) ->
  exists! M, 0 <= M < 2 ^ Z.of_nat k /\ decrypts_to k P Y C M.
Proof.
  intros V U. destruct (log_exists k P Q Y V C U) as [M D]. exists M. split.
  - split; [apply D|apply (decrypts_log k P Q Y); assumption].
  - intros M' [_ D']. apply (log_unique k P Q Y V C); [exact D|]. apply (log_decrypts k P Q Y); assumption.
Qed.
Print Assumptions C60_joye_libert_decrypts_all.
Theorem C60_joye_libert_encryption_not_divided k P Q Y M x : valid_key k P Q Y -> 0 <= M -> ~ (P | x) ->
  ~ (P | encryption k Y (P * Q) M x).
Proof.
  intros V HM U. pose proof (key_p2 _ _ _ _ V). pose proof (key_q2 _ _ _ _ V). pose proof (key_p _ _ _ _ V) as PP.
  unfold encryption. apply (not_divide_cong P (Y ^ M * x ^ 2 ^ Z.of_nat k)); [lia|symmetry; apply cong_mod_mult; lia|].
  apply not_divide_mul; [exact PP| |]; apply not_divide_pow; try assumption; [apply nonresidue_divide, (key_yp _ _ _ _ V)|].
  pose proof (pow2_pos k). lia.
Qed.
Print Assumptions C60_joye_libert_encryption_not_divided.

Example C60_instance :
  let c1 := encryption 3 3 287 6 5 in let c2 := encryption 3 3 287 7 4 in
  joye_libert_decrypt [0; c1; 41; 3] 0 1 2 3 3 = Ret [6; c1; 41; 3] /\
  joye_libert_decrypt [0; c2; 41; 3] 0 1 2 3 3 = Ret [7; c2; 41; 3] /\
  joye_libert_decrypt [0; (c1 * c2) mod 287; 41; 3] 0 1 2 3 3 = Ret [5; (c1 * c2) mod 287; 41; 3] /\
  (exists i, mpz_invert c1 287 = Ret i /\ joye_libert_decrypt [0; i; 41; 3] 0 1 2 3 3 = Ret [2; i; 41; 3]) /\
  (exists i, mpz_powm c2 (-3) 287 = Ret i /\ joye_libert_decrypt [0; i; 41; 3] 0 1 2 3 3 = Ret [3; i; 41; 3]).
Proof.
  cbv zeta. split; [vm_compute; reflexivity|]. split; [vm_compute; reflexivity|]. split; [vm_compute; reflexivity|].
  split; eexists; (split; [vm_compute; reflexivity|vm_compute; reflexivity]).
Qed.

(** ** C61 *)
(** The code accepts every number from 1 to N - 1.  A multiple of p makes the decryption 2^k - 1,
    whatever the message (k > 0). *)
Theorem C61_joye_libert_every_draw fuel s c g m y N k P Q Y n :
  valid_key (S k) P Q Y -> zget s y = Y -> zget s N = P * Q -> (c < length s)%nat -> c <> N ->
  draw g (P * Q) n -> (n < fuel)%nat -> 0 <= zget s m ->
  exists C, joye_libert_encrypt (S fuel) s c g m y N (S k) = Ret (zset s c C, Nat.iter (S n) rng_tail g) /\
    (~ (P | g n) -> decrypts_to (S k) P Y C (zget s m mod 2 ^ Z.of_nat (S k))) /\
    ((P | g n) -> decrypts_to (S k) P Y C (2 ^ Z.of_nat (S k) - 1)).
Proof.
  intros V Ey EN Lc Nc Dr Ln Hm. pose proof (key_p2 _ _ _ _ V) as P2. pose proof (key_q2 _ _ _ _ V) as Q2.
  assert (CM : cong P (g n mod (P * Q)) (g n)) by (apply cong_mod_mult; lia).
  assert (HN : 0 < P * Q) by nia.
  rewrite (encrypt_ok fuel s c g m y N (S k)) by (rewrite ?EN; assumption).
  rewrite EN, (first_draw_at (P * Q) n fuel g Ln Dr), Ey. eexists. split; [reflexivity|]. split; intros U.
  - destruct (C59_joye_libert_round_trip fuel s c g m y N (S k) P Q Y n V Ey EN Lc Nc Dr Ln) as (C & _ & _ & EC & D).
    + apply (not_divide_cong P (g n)); [lia|symmetry; exact CM|exact U].
    + rewrite <- (EC Hm). exact D.
  - intros s1 m1 c1 p1 y1 Lm Nc1 Np1 Ny1 Ec Ep Ey1.
    apply (decrypt_zero k P Y (key_p _ _ _ _ V) P2 (key_k _ _ _ _ V) (key_yp _ _ _ _ V)); try assumption.
    right. rewrite Ec. unfold encryption. apply Z.mod_divide; [lia|].
    rewrite (cong_eq P _ _ (cong_mod_mult P Q (Y ^ zget s m * (g n mod (P * Q)) ^ 2 ^ Z.of_nat (S k)) ltac:(lia) ltac:(lia))).
    apply Z.mod_divide; [lia|]. apply Z.divide_mul_r.
    pose proof (pow2_pos (S k)) as K. replace (2 ^ Z.of_nat (S k)) with (Z.succ (2 ^ Z.of_nat (S k) - 1)) by lia. rewrite Z.pow_succ_r by lia.
    apply Z.divide_mul_l. apply Z.mod_divide; [lia|]. rewrite (cong_eq _ _ _ CM). apply Z.mod_divide; [lia|exact U].
Qed.
Print Assumptions C61_joye_libert_every_draw.

(** The full claim is false: with p = 41, q = 7 and the number 41, the message 6 comes back as 7. *)
Theorem C61_joye_libert_always_decryptable_refuted : exists k P Q Y s c g m y N n C,
  valid_key k P Q Y /\ zget s y = Y /\ zget s N = P * Q /\ draw g (P * Q) n /\ 0 <= zget s m < 2 ^ Z.of_nat k /\
  joye_libert_encrypt 3 s c g m y N k = Ret (zset s c C, Nat.iter (S n) rng_tail g) /\
  ~ decrypts_to k P Y C (zget s m).
Proof.
  exists 3%nat, 41, 7, 3, [0; 6; 3; 287], 0%nat, (fun _ => 41), 1%nat, 2%nat, 3%nat, 0%nat, (encryption 3 3 287 6 41).
  split; [exact small_key|]. split; [reflexivity|]. split; [reflexivity|].
  split; [split; [intros i Hi; lia|discriminate]|]. split; [vm_compute; split; [discriminate|reflexivity]|]. split; [vm_compute; reflexivity|].
  intros D. specialize (D [0; encryption 3 3 287 6 41; 41; 3] 0%nat 1%nat 2%nat 3%nat ltac:(cbn; lia) ltac:(lia) ltac:(lia) ltac:(lia) eq_refl eq_refl eq_refl).
  revert D. vm_compute. discriminate.
Qed.
Print Assumptions C61_joye_libert_always_decryptable_refuted.
(** Both kinds of draw occur with the key of 41 and 7. *)
Example C61_instance : valid_key 3 41 7 3 /\ draw (fun _ => 41) (41 * 7) 0 /\ (41 | 41) /\ draw (fun _ => 5) (41 * 7) 0 /\ ~ (41 | 5).
Proof.
  split; [exact small_key|]. split; [split; [intros i Hi; lia|discriminate]|]. split; [exists 1; reflexivity|].
  split; [split; [intros i Hi; lia|discriminate]|]. intros D. apply Z.mod_divide in D; discriminate.
Qed.

(** ** C62 *)
(** The primality test and the Legendre symbol are taken to be right when they say "prime" and -1
    (for mpz_probab_prime_p this holds up to the error probability of 30 rounds). *)
Record sound (G : gmp) : Prop := {
  sound_prime : forall n, probab_prime G n = true -> prime n;
  sound_legendre : forall a p, prime p -> 2 < p -> legendre G a p = -1 -> nonresidue a p }.

Lemma prime_gt1 n : prime n -> 1 < n.
Proof. intros [H _]. exact H. Qed.

(** For all random numbers: if keygen returns, the key is valid. *)
Theorem C62_joye_libert_keygen_valid G fuel s N y p k keysize s' :
  sound G -> (N < length s)%nat -> (y < length s)%nat -> (p < length s)%nat -> N <> y -> N <> p -> y <> p ->
  joye_libert_keygen G fuel s N y p k keysize = Ret s' ->
  exists P Q Y, s' = zset (zset (zset s p P) N (P * Q)) y Y /\ valid_key k P Q Y /\
    prime ((P - 1) / 2 ^ Z.of_nat k) /\ Q mod 4 = 3 /\ 0 <= Y < P * Q.
Proof.
  intros S LN Ly Lp Ny Np Yp H.
  apply keygen_ok in H; try assumption; [|intros n Hn; destruct (sound_prime G S n Hn); assumption].
  destruct H as (P & Q & Y & -> & H1 & H2 & H3 & H4 & H5 & H6 & H7 & H8). exists P, Q, Y. split; [reflexivity|].
  apply (sound_prime G S) in H1, H2, H4.
  assert (P2 : 2 < P).
  { destruct H2 as [H2 _]. pose proof (pow2_pos k) as K. pose proof (Z.div_mod (P - 1) (2 ^ Z.of_nat k) ltac:(lia)) as E.
    pose proof (Z.mod_pos_bound (P - 1) _ K). nia. }
  assert (Q2 : 2 < Q).
  { destruct H4 as [H4 _]. pose proof (Z.div_mod Q 4 ltac:(lia)). lia. }
  split; [|tauto]. constructor; try assumption; apply (sound_legendre G S); assumption.
Qed.
Print Assumptions C62_joye_libert_keygen_valid.

(** Whatever it is given, keygen does nothing undefined. *)
Theorem C62_joye_libert_keygen_defined G fuel s N y p k keysize :
  sound G -> (N < length s)%nat -> (y < length s)%nat -> (p < length s)%nat -> N <> y -> N <> p -> y <> p ->
  joye_libert_keygen G fuel s N y p k keysize <> UB.
Proof.
  intros S LN Ly Lp Ny Np Yp. rewrite keygen_eq by assumption. 
  pose proof (keygen_values_no_ub G fuel k keysize (fun n Hn => prime_gt1 n (sound_prime G S n Hn))) as H.
  destruct (keygen_values G fuel k keysize) as [[[P Q] Y]| |]; cbn [bind]; congruence.
Qed.
Print Assumptions C62_joye_libert_keygen_defined.

(** A generated key decrypts. *)
Theorem C62_joye_libert_generated_key_works G fuel s N y p k keysize s' fuel' g n m c :
  sound G -> (N < length s)%nat -> (y < length s)%nat -> (p < length s)%nat -> N <> y -> N <> p -> y <> p ->
  joye_libert_keygen G fuel s N y p k keysize = Ret s' ->
  (c < length s)%nat -> c <> N -> c <> p -> c <> y -> (m < length s)%nat -> m <> N -> m <> p -> m <> y -> m <> c ->
  draw g (zget s' N) n -> (n < fuel')%nat -> ~ (zget s' p | g n mod zget s' N) -> 0 <= zget s m < 2 ^ Z.of_nat k ->
  exists s1 g1, joye_libert_encrypt (S fuel') s' c g m y N k = Ret (s1, g1) /\
    joye_libert_decrypt s1 m c p y k = Ret s1.
Proof.
  intros S LN Ly Lp Ny Np Yp E Lc cN cp cy Lm mN mp my mc Dr Ln U Hm.
  destruct (C62_joye_libert_keygen_valid G fuel s N y p k keysize s' S LN Ly Lp Ny Np Yp E) as (P & Q & Y & -> & V & _).
  set (s1 := zset (zset (zset s p P) N (P * Q)) y Y) in *.
  assert (L1 : length s1 = length s) by (unfold s1; rewrite !zset_length; reflexivity).
  assert (Em : zget s1 m = zget s m) by (unfold s1; rewrite !zget_other by congruence; reflexivity).
  assert (Ey : zget s1 y = Y) by (unfold s1; apply zget_same; rewrite !zset_length; exact Ly).
  assert (EN : zget s1 N = P * Q) by (unfold s1; rewrite zget_other by congruence; apply zget_same; rewrite zset_length; exact LN).
  assert (Ep : zget s1 p = P) by (unfold s1; rewrite !zget_other by congruence; apply zget_same; exact Lp).
  rewrite EN in Dr, U. rewrite Ep in U.
  destruct (C59_joye_libert_round_trip fuel' s1 c g m y N k P Q Y n V Ey EN ltac:(rewrite L1; exact Lc) cN Dr Ln U) as (C & EC & _ & _ & D).
  rewrite EC. do 2 eexists. split; [reflexivity|]. rewrite Em, Z.mod_small in D by exact Hm.
  rewrite (D (zset s1 c C) m c p y); try assumption.
  - f_equal. rewrite <- Em. rewrite <- (zget_other s1 c m C) by congruence. unfold zset at 1, zget at 1. apply upd_same.
    apply nth_error_nth'. rewrite zset_length, L1. exact Lm.
  - rewrite zset_length, L1. exact Lm.
  - apply zget_same. rewrite L1. exact Lc.
  - rewrite zget_other by exact cp. exact Ep.
  - rewrite zget_other by exact cy. exact Ey.
Qed.
Print Assumptions C62_joye_libert_generated_key_works.

(** Concrete case: trial division, non-residues by search, the stream 37, 5, 286, 3: k = 3 and 12-bit keys
    give p = 41, q = 7, y = 3, and the message 6 comes back. *)
Definition next_small (n : Z) : Z :=
  match filter (fun i => is_prime (n + 1 + i)) (up_to (n + 3)) with i :: _ => n + 1 + i | [] => n end.
Definition small_gmp (g : rng) : gmp :=
  Gmp is_prime next_small (fun a p => if is_nonresidue a p then -1 else 1) g.
Lemma small_sound g : sound (small_gmp g).
Proof.
  split; cbn.
  - intros n H. apply is_prime_sound. exact H.
  - intros a p _ _ H. destruct (is_nonresidue a p) eqn:E; [|discriminate]. apply is_nonresidue_sound. exact E.
Qed.
Definition small_stream : rng := fun i => nth i [37; 5; 286; 3] 1.
Example C62_instance :
  joye_libert_keygen (small_gmp small_stream) 10 [0; 0; 0; 6; 9] 0 1 2 3 12 = Ret [287; 3; 41; 6; 9] /\
  exists s g, joye_libert_encrypt 2 [287; 3; 41; 6; 9] 4 (fun _ => 5) 3 1 0 3 = Ret (s, g) /\ s = [287; 3; 41; 6; 207] /\
    joye_libert_decrypt s 3 4 2 1 3 = Ret s.
Proof.
  split; [vm_compute; reflexivity|]. do 2 eexists. split; [reflexivity|]. split; vm_compute; reflexivity.
Qed.

(** ** C83 *)
(** A key is a function of the two sizes: all calls that return, in whatever state, give the same key. *)
Theorem C83_joye_libert_keys_repeat G k keysize fuel1 s1 N1 y1 p1 r1 fuel2 s2 N2 y2 p2 r2 :
  (N1 < length s1)%nat -> (y1 < length s1)%nat -> (p1 < length s1)%nat -> N1 <> y1 -> N1 <> p1 -> y1 <> p1 ->
  (N2 < length s2)%nat -> (y2 < length s2)%nat -> (p2 < length s2)%nat -> N2 <> y2 -> N2 <> p2 -> y2 <> p2 ->
  joye_libert_keygen G fuel1 s1 N1 y1 p1 k keysize = Ret r1 ->
  joye_libert_keygen G fuel2 s2 N2 y2 p2 k keysize = Ret r2 ->
  zget r1 N1 = zget r2 N2 /\ zget r1 y1 = zget r2 y2 /\ zget r1 p1 = zget r2 p2.
Proof.
  intros A1 A2 A3 A4 A5 A6 B1 B2 B3 B4 B5 B6 H1 H2. rewrite keygen_eq in H1, H2 by assumption.
  destruct (keygen_values G fuel1 k keysize) as [[[P1 Q1] Y1]| |] eqn:E1; cbn [bind] in H1; try discriminate.
  destruct (keygen_values G fuel2 k keysize) as [[[P2 Q2] Y2]| |] eqn:E2; cbn [bind] in H2; try discriminate.
  apply (keygen_values_more G _ (fuel1 + fuel2)) in E1, E2; try lia. rewrite E1 in E2. apply Ret_inj in E2. injection E2 as -> -> ->.
  apply Ret_inj in H1, H2. subst r1 r2.
  rewrite !(zget_other _ _ N1), !(zget_other _ _ p1), !(zget_other _ _ N2), !(zget_other _ _ p2) by congruence.
  rewrite !zget_same by (rewrite ?zset_length; assumption).
  tauto.
Qed.
Print Assumptions C83_joye_libert_keys_repeat.

(** The full claim (a call may give another key than the one before) is false: here keygen returns, and every
    call gives the same key.  The theorem above shows the same for every GMP and every size. *)
Theorem C83_joye_libert_keys_fresh_refuted : exists G k keysize fuel s r,
  sound G /\ joye_libert_keygen G fuel s 0 1 2 k keysize = Ret r /\
  forall fuel' r', joye_libert_keygen G fuel' s 0 1 2 k keysize = Ret r' -> r' = r.
Proof.
  exists (small_gmp small_stream), 3%nat, 12%nat, 10%nat, [0; 0; 0], [287; 3; 41].
  split; [apply small_sound|]. assert (E : joye_libert_keygen (small_gmp small_stream) 10 [0; 0; 0] 0 1 2 3 12 = Ret [287; 3; 41]) by (vm_compute; reflexivity).
  split; [exact E|]. revert E. generalize (small_gmp small_stream). intros G E fuel' r' H.
  destruct (C83_joye_libert_keys_repeat _ _ _ 10 [0; 0; 0] 0 1 2 _ fuel' [0; 0; 0] 0 1 2 r'
    ltac:(cbn; lia) ltac:(cbn; lia) ltac:(cbn; lia) ltac:(lia) ltac:(lia) ltac:(lia)
    ltac:(cbn; lia) ltac:(cbn; lia) ltac:(cbn; lia) ltac:(lia) ltac:(lia) ltac:(lia) E H) as (A & B & C).
  rewrite keygen_eq in H by (cbn; lia). destruct (keygen_values _ fuel' 3 12) as [[[P1 Q1] Y1]| |]; cbn [bind] in H; try discriminate.
  apply Ret_inj in H. subst r'. cbn in A, B, C |- *. congruence.
Qed.
Print Assumptions C83_joye_libert_keys_fresh_refuted.
Example C83_instance :
  joye_libert_keygen (small_gmp small_stream) 10 [0; 0; 0; 6; 9] 0 1 2 3 12 = Ret [287; 3; 41; 6; 9] /\
  joye_libert_keygen (small_gmp small_stream) 25 [1; 2; 3; 4; 5] 4 3 2 3 12 = Ret [1; 2; 41; 3; 287].
Proof. split; vm_compute; reflexivity. Qed.

(** ** C84 *)
(** p is the first suitable number from the one drawn (rounded down to 1 modulo 2^k); nothing bounds it from below. *)
Theorem C84_joye_libert_p_from_draw G fuel s N y p k keysize s' :
  (N < length s)%nat -> (y < length s)%nat -> (p < length s)%nat -> N <> y -> N <> p -> y <> p ->
  joye_libert_keygen G fuel s N y p k keysize = Ret s' ->
  let x := mt G 0%nat mod 2 ^ Z.of_nat (keysize / 2) in
  let start := x - x mod 2 ^ Z.of_nat k + 1 in
  let suitable u := (u - 1) mod 2 ^ Z.of_nat k = 0 /\ probab_prime G u = true /\ probab_prime G ((u - 1) / 2 ^ Z.of_nat k) = true in
  start <= zget s' p /\ suitable (zget s' p) /\ forall u, start <= u < zget s' p -> ~ suitable u.
Proof.
  intros A1 A2 A3 A4 A5 A6 H x start suitable. rewrite keygen_eq in H by assumption. unfold keygen_values in H. cbv zeta in H.
  fold x in H. fold start in H. destruct (keygen_start k x) as [_ D]. fold start in D. pose proof (pow2_pos k) as K.
  destruct (find_p G fuel (pow2 k) start) as [P| |] eqn:FP; cbn [bind] in H; try discriminate.
  destruct (find_q _ _ _) as [Q| |]; cbn [bind] in H; try discriminate.
  destruct (find_y_value _ _ _ _ _ _) as [Y| |]; cbn [bind] in H; try discriminate. apply Ret_inj in H. subst s'.
  rewrite !(zget_other _ _ p) by congruence. rewrite zget_same by assumption.
  destruct (find_p_first G fuel k start P D FP) as [L F]. destruct (find_p_ok G fuel k start P D FP) as (O1 & O2 & O3).
  split; [exact L|]. split; [split; [apply Z.mod_divide; [lia|exact O3]|tauto]|].
  intros u Hu (U1 & U2 & U3). apply Z.mod_divide in U1; [|lia]. specialize (F u Hu U1). rewrite U2, U3 in F. discriminate.
Qed.
Print Assumptions C84_joye_libert_p_from_draw.

(** The full claim is false: asked for 4096 bits, it can return N = 51. *)
Theorem C84_joye_libert_key_size_refuted : exists G fuel s s' keysize,
  sound G /\ Z.of_nat keysize = 4096 /\ joye_libert_keygen G fuel s 0 1 2 3 keysize = Ret s' /\ zget s' 0 = 51 /\
  valid_key 3 17 3 (zget s' 1) /\ zget s' 2 = 17.
Proof.
  exists (small_gmp (fun i => nth i [0; 0] 5)), 10%nat, [0; 0; 0], [51; 5; 17], (Z.to_nat 4096).
  split; [apply small_sound|]. split; [apply Z2Nat.id; discriminate|]. split; [vm_compute; reflexivity|]. split; [reflexivity|]. split; [|reflexivity].
  apply is_key_sound. vm_compute. reflexivity.
Qed.
Print Assumptions C84_joye_libert_key_size_refuted.
Example C84_instance : let x := small_stream 0%nat mod 2 ^ Z.of_nat (12 / 2) in x - x mod 2 ^ Z.of_nat 3 + 1 = 33 /\ 33 <= 41.
Proof. vm_compute. split; [reflexivity|discriminate]. Qed.

(** ** C85 *)
(** Decryption into the variable of the ciphertext gives 2^k - 1 for every ciphertext. *)
Theorem C85_joye_libert_decrypt_in_place s c p y k Q :
  valid_key (S k) (zget s p) Q (zget s y) -> (c < length s)%nat -> c <> p -> c <> y ->
  joye_libert_decrypt s c c p y (S k) = Ret (zset s c (2 ^ Z.of_nat (S k) - 1)).
Proof.
  intros V Lc Np Ny.
  apply (decrypt_zero k _ _ (key_p _ _ _ _ V) (key_p2 _ _ _ _ V) (key_k _ _ _ _ V) (key_yp _ _ _ _ V)); try assumption; try reflexivity.
  left. reflexivity.
Qed.
Print Assumptions C85_joye_libert_decrypt_in_place.
Theorem C85_joye_libert_decrypt_in_place_refuted : exists k P Q Y C M,
  valid_key k P Q Y /\ decrypts_to k P Y C M /\ joye_libert_decrypt [C; P; Y] 0 0 1 2 k <> Ret [M; P; Y].
Proof.
  exists 3%nat, 41, 7, 3, (encryption 3 3 287 6 5), 6. split; [exact small_key|]. split.
  - destruct (C59_joye_libert_round_trip 1 [0; 6; 3; 287] 0 (fun _ => 5) 1 2 3 3 41 7 3 0 small_key eq_refl eq_refl) as (C & _ & _ & E & D); cbn; try lia.
    + split; [intros i Hi; lia|discriminate].
    + intros D. apply Z.mod_divide in D; [discriminate D|discriminate].
    + rewrite E in D by (cbn; lia). exact D.
  - vm_compute. discriminate.
Qed.
Print Assumptions C85_joye_libert_decrypt_in_place_refuted.
Example C85_instance : joye_libert_decrypt [207; 41; 3] 0 0 1 2 3 = Ret [7; 41; 3].
Proof. vm_compute. reflexivity. Qed.

(** ** C86 *)
(** The two primes differ if messages have at least two bits. *)
Theorem C86_joye_libert_primes_differ G fuel s N y p k keysize s' :
  sound G -> (N < length s)%nat -> (y < length s)%nat -> (p < length s)%nat -> N <> y -> N <> p -> y <> p ->
  joye_libert_keygen G fuel s N y p (S (S k)) keysize = Ret s' ->
  exists Q, zget s' N = zget s' p * Q /\ prime (zget s' p) /\ prime Q /\ zget s' p <> Q.
Proof.
  intros S LN Ly Lp Ny Np Yp H.
  destruct (C62_joye_libert_keygen_valid G fuel s N y p _ keysize s' S LN Ly Lp Ny Np Yp H) as (P & Q & Y & -> & V & _ & Q4 & _).
  exists Q. rewrite (zget_other _ y N), (zget_other _ y p), (zget_other _ N p) by congruence. 
  rewrite !zget_same by (rewrite ?zset_length; assumption).
  split; [reflexivity|]. split; [apply (key_p _ _ _ _ V)|]. split; [apply (key_q _ _ _ _ V)|]. intros ->.
  pose proof (key_k _ _ _ _ V) as D. rewrite !pow2_S in D. destruct D as [z D].
  replace Q with (1 + (z * 2 ^ Z.of_nat k) * 4) in Q4 by lia. rewrite Z_mod_plus_full in Q4. discriminate.
Qed.
Print Assumptions C86_joye_libert_primes_differ.
(** The full claim is false for one-bit messages: p = q = 7. *)
Theorem C86_joye_libert_primes_differ_refuted : exists G fuel s s' P,
  sound G /\ joye_libert_keygen G fuel s 0 1 2 1 8 = Ret s' /\ zget s' 2 = P /\ zget s' 0 = P * P.
Proof.
  exists (small_gmp (fun i => nth i [6; 5] 3)), 10%nat, [0; 0; 0], [49; 3; 7], 7.
  split; [apply small_sound|]. split; [vm_compute; reflexivity|]. split; reflexivity.
Qed.
Print Assumptions C86_joye_libert_primes_differ_refuted.
Example C86_instance : joye_libert_keygen (small_gmp small_stream) 10 [0; 0; 0] 0 1 2 3 12 = Ret [41 * 7; 3; 41].
Proof. vm_compute. reflexivity. Qed.
