(** Properties C109 and C110: the demonstrations of the asymmetric schemes. *)
From Coq Require Import Arith NArith ZArith Znumtheory Zpow_facts List Bool Lia.
From Verif Require Import Res Mem Gmp JoyeModel JoyeSpec JoyeMath JoyeProofs JoyeProps HeModel HeSpec HeLabel HeProofs
  MemSpec SpecWords Concrete DemoHeModel.
From Verif Require HcModel HcProofs HeProps DemoProofs.
Import ListNotations.
Local Open Scope Z_scope.

Lemma iter_tail n : forall g i, Nat.iter n rng_tail g i = g (n + i)%nat.
Proof.
  induction n as [|n IH]; intros g i; [reflexivity|]. change (Nat.iter n rng_tail g (S i) = g (S n + i)%nat). rewrite IH. f_equal. lia.
Qed.
Lemma draw_ext g h N n : (forall i, g i = h i) -> draw g N n -> draw h N n.
Proof. intros E [H1 H2]. split; [intros i Hi; rewrite <- E; auto|rewrite <- E; exact H2]. Qed.

(** ** C109: Joye-Libert *)
Section Joye.
  Variables (k : nat) (P Q Y : Z).
  Hypothesis V : valid_key (S k) P Q Y.
  Lemma n_pos : 0 < P * Q.
  Proof. pose proof (key_p2 _ _ _ _ V). pose proof (key_q2 _ _ _ _ V). nia. Qed.
  Lemma divides_mod x : (P | x mod (P * Q)) <-> (P | x).
  Proof.
    pose proof (key_p2 _ _ _ _ V). pose proof (key_q2 _ _ _ _ V).
    rewrite <- !Z.mod_divide by lia. rewrite (cong_eq P _ _ (cong_mod_mult P Q x ltac:(lia) ltac:(lia))). reflexivity.
  Qed.
  Lemma encryption_divides M x : 0 <= M -> (P | encryption (S k) Y (P * Q) M x) <-> (P | x).
  Proof.
    intros HM. split; intros H.
    - destruct (Zdivide_dec P x) as [D|D]; [exact D|]. exfalso.
      exact (C60_joye_libert_encryption_not_divided _ P Q Y M x V HM D H).
    - unfold encryption. apply divides_mod. apply Z.divide_mul_r.
      pose proof (pow2_pos (S k)) as K. replace (2 ^ Z.of_nat (S k)) with (Z.succ (2 ^ Z.of_nat (S k) - 1)) by lia.
      rewrite Z.pow_succ_r by lia. apply Z.divide_mul_l. exact H.
  Qed.
  Lemma encryption_decrypts M x : 0 <= M -> ~ (P | x) ->
    decrypts_to (S k) P Y (encryption (S k) Y (P * Q) M x) (M mod 2 ^ Z.of_nat (S k)).
  Proof.
    intros HM Hx. pose proof n_pos as HN.
    destruct (C59_joye_libert_round_trip 1 [0; M; Y; P * Q] 0 (fun _ => x) 1 2 3 (S k) P Q Y 0 V eq_refl eq_refl) as (C & _ & _ & E & D);
      try (cbn; lia).
    - split; [lia|]. intros E. apply Hx, divides_mod. rewrite E. apply Z.divide_0_r.
    - intros H. apply Hx, divides_mod, H.
    - rewrite (E HM) in D. cbn [zget nth] in D. unfold encryption in D |- *.
      rewrite <- Z.mul_mod_idemp_r in D |- * by lia. rewrite <- Zpower_mod in D by lia. exact D.
  Qed.

  Definition shown (a b x1 x2 : Z) : Z :=
    if Zdivide_dec P x1 then 2 ^ Z.of_nat (S k) - 1
    else if Zdivide_dec P x2 then 2 ^ Z.of_nat (S k) - 1 else (a + b) mod 2 ^ Z.of_nat (S k).
  Lemma joye_main_eq G f keysize a b : 0 <= a -> 0 <= b ->
    joye_libert_keygen G (S f) [0; 0; 0] 0 1 2 (S k) keysize = Ret [P * Q; Y; P] ->
    joye_main G (S f) keysize (S k) a b =
    match first_draw f (mt G) (P * Q) with
    | None => NoFuel
    | Some (x1, g) => match first_draw f g (P * Q) with None => NoFuel | Some (x2, _) => Ret [a; b; shown a b x1 x2] end
    end.
  Proof.
    intros Ha Hb EK. pose proof n_pos as HN. pose proof (key_p2 _ _ _ _ V) as P2. unfold joye_main. rewrite EK. cbn [bind].
    unfold local. cbn [app length].
    rewrite encrypt_ok by (cbn; (assumption || lia)). cbn [zget zset nth upd].
    destruct (first_draw f (mt G) (P * Q)) as [[x1 g1]|]; [|reflexivity]. cbn [bind].
    rewrite encrypt_ok by (cbn; (assumption || lia)). cbn [zget zset nth upd].
    destruct (first_draw f g1 (P * Q)) as [[x2 g2]|]; [|reflexivity]. cbn [bind zget zset nth upd].
    rewrite (mod_pos _ _ HN). cbn [bind zget zset nth upd app length].
    set (e1 := encryption _ Y (P * Q) a _). set (e2 := encryption _ Y (P * Q) b _).
    set (st := [P * Q; Y; P; a; b; (e1 * e2) mod (P * Q); e2; 0]).
    assert (R : joye_libert_decrypt st 7 5 2 1 (S k) = Ret (zset st 7 (shown a b x1 x2))); [|rewrite R; reflexivity].
    unfold shown. destruct (Zdivide_dec P x1) as [B1|B1]; [|destruct (Zdivide_dec P x2) as [B2|B2]].
    1,2: apply (decrypt_zero k P Y (key_p _ _ _ _ V) P2 (key_k _ _ _ _ V) (key_yp _ _ _ _ V)); try reflexivity; try (cbn; lia);
      right; unfold st; cbn [zget nth]; apply divides_mod.
    - apply Z.divide_mul_l. apply encryption_divides; assumption.
    - apply Z.divide_mul_r. apply encryption_divides; assumption.
    - rewrite Zplus_mod.
      refine (C60_joye_libert_product_adds (S k) P Q Y e1 e2 _ _ V _ _ _ _ st 7%nat 5%nat 2%nat 1%nat _ _ _ _ _ _ _); try reflexivity; try (cbn; lia).
      + unfold e1. rewrite encryption_divides by exact Ha. exact B1.
      + unfold e2. rewrite encryption_divides by exact Hb. exact B2.
      + apply encryption_decrypts; assumption.
      + apply encryption_decrypts; assumption.
  Qed.
End Joye.

Lemma joye_key G fuel k keysize s : sound G -> joye_libert_keygen G fuel [0; 0; 0] 0 1 2 k keysize = Ret s ->
  exists P Q Y, s = [P * Q; Y; P] /\ valid_key k P Q Y.
Proof.
  intros S EK. destruct (C62_joye_libert_keygen_valid G fuel [0; 0; 0] 0 1 2 _ keysize s S
    ltac:(cbn; lia) ltac:(cbn; lia) ltac:(cbn; lia) ltac:(lia) ltac:(lia) ltac:(lia) EK) as (P & Q & Y & -> & V & _).
  exists P, Q, Y. split; [reflexivity|exact V].
Qed.

(** The third number printed is the sum modulo 2^k, unless p divides one of the two random numbers used;
    then it is 2^k - 1, whatever the messages. *)
Theorem C109_joye_demo G fuel keysize k a b : sound G -> 0 <= a -> 0 <= b ->
  match joye_main G fuel keysize (S k) a b with
  | Ret out => exists P Q Y i j,
      joye_libert_keygen G fuel [0; 0; 0] 0 1 2 (S k) keysize = Ret [P * Q; Y; P] /\ valid_key (S k) P Q Y /\
      draw (mt G) (P * Q) i /\ draw (fun n => mt G (S i + n)%nat) (P * Q) j /\
      (~ (P | mt G i) /\ ~ (P | mt G (S i + j)%nat) -> out = [a; b; (a + b) mod 2 ^ Z.of_nat (S k)]) /\
      ((P | mt G i) \/ (P | mt G (S i + j)%nat) -> out = [a; b; 2 ^ Z.of_nat (S k) - 1])
  | UB => False
  | NoFuel => True
  end.
Proof.
  intros S Ha Hb.
  pose proof (C62_joye_libert_keygen_defined G fuel [0; 0; 0] 0 1 2 (Datatypes.S k) keysize S
    ltac:(cbn; lia) ltac:(cbn; lia) ltac:(cbn; lia) ltac:(lia) ltac:(lia) ltac:(lia)) as ND.
  destruct (joye_libert_keygen G fuel [0; 0; 0] 0 1 2 (Datatypes.S k) keysize) as [s0| |] eqn:EK;
    [|contradiction|unfold joye_main; rewrite EK; exact I].
  destruct (joye_key _ _ _ _ _ S EK) as (P & Q & Y & -> & V).
  destruct fuel as [|f]; [unfold joye_main; rewrite EK; exact I|]. rewrite (joye_main_eq k P Q Y V G f keysize a b Ha Hb EK).
  destruct (first_draw f (mt G) (P * Q)) as [[x1 g1]|] eqn:D1; [|exact I].
  destruct (first_draw f g1 (P * Q)) as [[x2 g2]|] eqn:D2; [|exact I].
  apply first_draw_inv in D1, D2. destruct D1 as (i & Li & D1 & -> & ->). destruct D2 as (j & Lj & D2 & -> & ->).
  rewrite iter_tail. exists P, Q, Y, i, j. split; [reflexivity|]. split; [exact V|]. split; [exact D1|].
  split; [apply (draw_ext (Nat.iter (Datatypes.S i) rng_tail (mt G))); [intros n; apply iter_tail|exact D2]|].
  rewrite <- !(divides_mod k P Q Y V (mt G _)). unfold shown.
  split; intros H; repeat (destruct (Zdivide_dec P _); [tauto|] || destruct (Zdivide_dec P _) as [X|X]); try reflexivity; tauto.
Qed.
Print Assumptions C109_joye_demo.

(** It returns if key generation does and each encryption finds its random number in time. *)
Theorem C109_joye_demo_returns G f keysize k a b P Q Y i j : sound G -> 0 <= a -> 0 <= b ->
  joye_libert_keygen G (S f) [0; 0; 0] 0 1 2 (S k) keysize = Ret [P * Q; Y; P] ->
  draw (mt G) (P * Q) i -> draw (fun n => mt G (S i + n)%nat) (P * Q) j -> (i < f)%nat -> (j < f)%nat ->
  exists out, joye_main G (S f) keysize (S k) a b = Ret out.
Proof.
  intros S Ha Hb EK D1 D2 Li Lj. destruct (joye_key _ _ _ _ _ S EK) as (P' & Q' & Y' & E & V). injection E as EN EY EP.
  rewrite EN in D1, D2. subst P' Y'. rewrite EN in EK.
  rewrite (joye_main_eq k P Q' Y V G f keysize a b Ha Hb EK). rewrite (first_draw_at _ i _ _ Li D1).
  assert (D : draw (Nat.iter (Datatypes.S i) rng_tail (mt G)) (P * Q') j).
  { apply (draw_ext (fun n => mt G (Datatypes.S i + n)%nat)); [intros n; symmetry; apply iter_tail|exact D2]. }
  rewrite (first_draw_at _ j _ _ Lj D). eexists. reflexivity.
Qed.
Print Assumptions C109_joye_demo_returns.

(** Concrete cases: keys of 12 bits, messages of 3; the random numbers 37 and 5, and 41 = p. *)
Example C109_instance :
  sound (small_gmp small_stream) /\ joye_main (small_gmp small_stream) 10 12 3 4 3 = Ret [4; 3; 7] /\
  joye_main (small_gmp small_stream) 10 12 3 6 7 = Ret [6; 7; 5] /\
  let unlucky := small_gmp (fun i => nth i [41; 5; 286; 3] 1) in
  sound unlucky /\ joye_main unlucky 10 12 3 1 2 = Ret [1; 2; 7].
Proof.
  split; [apply small_sound|]. split; [vm_compute; reflexivity|]. split; [vm_compute; reflexivity|].
  split; [apply small_sound|vm_compute; reflexivity].
Qed.

(** ** C110: labeled homomorphic encryption *)
(** The bytes of the label buffer that the label does not fill hold something. *)
Definition filled (k : nat) (stack : nat -> option N) (label : Z) : Prop :=
  forall i, (i < k / 8)%nat -> fits label i -> exists x, stack i = Some x /\ (x < 256)%N.

Lemma op_mod_ok op s r x y k : zget s v_ptspace = pow2 k -> r <> v_ptspace -> (r < length s)%nat ->
  op_mod op s r x y = Ret (zset s r (op (zget s x) (zget s y) mod 2 ^ Z.of_nat k)).
Proof.
  intros E D L. unfold op_mod. rewrite zget_same by exact L. rewrite zget_other by exact D. rewrite E, mod_pow2. cbn [bind].
  rewrite zset_zset. reflexivity.
Qed.
Lemma blinded K m v : 0 < K -> ((m - v) mod K + v) mod K = m mod K.
Proof. intros H. rewrite Zplus_mod_idemp_l. f_equal. ring. Qed.

#[local] Ltac side := try assumption; try reflexivity; try discriminate; try (cbn; lia).
#[local] Ltac see := cbn [zget zset nth upd bind fst snd ct_a ct_beta].
#[local] Ltac enc_step st l := eapply good_bind;
  [eapply (encrypt_good _ _ _ _ ltac:(eassumption)); [eassumption| | | | |exact l|intros i Hi; apply st; [exact (proj2 Hi)|apply size_least; exact (proj1 Hi)]| | | | | | | | |]; side|].

Theorem C110_he_demo w G f keysize k stack key iv m1 l1 m2 l2 m3 l3 P Q Y :
  sound G -> joye_libert_keygen G (S (S f)) [0; 0; 0] 0 1 2 k keysize = Ret [P * Q; Y; P] -> draws P Q w (mt G) ->
  Z.of_nat k < 2 ^ 32 -> bytes_ok key -> length key = 16%nat -> bytes_ok iv -> length iv = 16%nat ->
  fits l1 (k / 8) -> fits l2 (k / 8) -> fits l3 (k / 8) ->
  filled k (stack 1%nat) l1 -> filled k (stack 2%nat) l2 -> filled k (stack 3%nat) l3 ->
  let K := 2 ^ Z.of_nat k in
  match he_main G (S (S f)) keysize k stack key iv m1 l1 m2 l2 m3 l3 with
  | Ret out => exists b1 b2 b3 beta1 beta2 beta3,
      out = [m1; m2; m3; (m1 - b1) mod K; beta1; (m2 - b2) mod K; beta2; (m3 - b3) mod K; beta3;
             m1 mod K; m2 mod K; (m1 + m2) mod K; (m2 - m3) mod K; (m1 * m2) mod K; (m1 * m2 * m3) mod K;
             (m1 * m2 + m1 * m2 * m3) mod K; (m1 * m2 * m3 - m1 * m2) mod K] /\
      decrypts_to k P Y beta1 (b1 mod K) /\ decrypts_to k P Y beta2 (b2 mod K) /\ decrypts_to k P Y beta3 (b3 mod K)
  | UB => False
  | NoFuel => w = true
  end.
Proof.
  intros S EK D HK Bk Lk Bv Lv F1 F2 F3 S1 S2 S3 K.
  assert (V : valid_key k P Q Y).
  { destruct (joye_key _ _ _ _ _ S EK) as (P' & Q' & Y' & E & V). injection E as EN EY EP. subst P' Y'.
    pose proof (key_p2 _ _ _ _ V). assert (Q = Q') as -> by nia. exact V. }
  assert (K0 : 0 < K) by apply pow2_pos.
  rewrite keygen_eq in EK by (cbn; lia).
  destruct (keygen_values G (Datatypes.S (Datatypes.S f)) k keysize) as [[[P0 Q0] Y0]| |] eqn:EV; cbn [bind] in EK; try discriminate.
  apply Ret_inj in EK. cbn [zset upd] in EK. injection EK as EN -> ->.
  match goal with |- match ?r with _ => _ end => enough (X : good w r (fun out => exists b1 b2 b3 beta1 beta2 beta3,
      out = [m1; m2; m3; (m1 - b1) mod K; beta1; (m2 - b2) mod K; beta2; (m3 - b3) mod K; beta3;
             m1 mod K; m2 mod K; (m1 + m2) mod K; (m2 - m3) mod K; (m1 * m2) mod K; (m1 * m2 * m3) mod K;
             (m1 * m2 + m1 * m2 * m3) mod K; (m1 * m2 * m3 - m1 * m2) mod K] /\
      decrypts_to k P Y beta1 (b1 mod K) /\ decrypts_to k P Y beta2 (b2 mod K) /\ decrypts_to k P Y beta3 (b3 mod K))) by exact X end.
  unfold he_main, he_keygen. rewrite keygen_eq by (unfold v_N, v_y, v_p; cbn; lia). rewrite EV. cbn [bind].
  destruct (HcProofs.initialize_ok [map Some key; map Some iv] (Ptr 0 0) (Ptr 1 0) key iv) as (cs & Ei & Sc & _);
    [apply (DemoProofs.block_has); [reflexivity|exact Bk]|apply (DemoProofs.block_has); [reflexivity|exact Bv]|exact Lk|exact Lv|].
  rewrite Ei. cbn [bind]. rewrite EN.
  unfold v_N, v_y, v_p, v_m1, v_m2, v_m3, v_label1, v_label2, v_label3, v_b1, v_b2, v_b3.
  cbn [app repeat zset upd]. clear Ei EV EN.
  unfold v_c1, v_c2, v_c3, v_c_add, v_c_sub, v_c_mul, v_b_mul, v_c_triple_mul, v_b_triple_mul, v_beta12, v_beta13, v_beta23,
    v_c_triple_double_add, v_b_triple_double_add, v_c_triple_double_sub, v_b_triple_double_sub, v_recov_m1, v_recov_m2,
    v_recov_add, v_recov_sub, v_recov_mul, v_recov_triple_mul, v_recov_triple_double_add, v_recov_triple_double_sub.
  enc_step S1 F1. intros [[s g1] cs1] (b1 & C1 & _ & _ & Es & E1 & D1 & Sc1). revert Es. see. intros ->. clear D Sc. fold K.
  enc_step S2 F2. intros [[s g2] cs2] (b2 & C2 & _ & _ & Es & E2 & D2 & Sc2). revert Es. see. intros ->. clear D1 Sc1. fold K.
  enc_step S3 F3. intros [[s g3] cs3] (b3 & C3 & _ & _ & Es & E3 & D & Sc3). revert Es D. see. intros Es D. revert Es. intros ->. clear D2 Sc2 Sc3. fold K.
  assert (HN : 0 < P * Q) by (pose proof (key_p2 _ _ _ _ V); pose proof (key_q2 _ _ _ _ V); nia).
  rewrite add_writes by side. see. fold K.
  destruct (enc_invert k P Q Y V C3 b3 E3) as (i3 & I3 & EI3).
  rewrite sub_writes with (i := i3) by side. see. fold K.
  pose proof (blinded K m1 b1 K0) as A1. pose proof (blinded K m2 b2 K0) as A2. pose proof (blinded K m3 b3 K0) as A3.
  eapply good_bind.
  { eapply (mult_good k P Q Y V w f _ _ _ _ _ _ _ m1 b1 m2 b2 D); side; split; side. }
  intros [s g4] (Cm & Es & Em & D1). revert Es. see. intros ->. clear D.
  rewrite (op_mod_ok _ _ _ _ _ k) by side. see. fold K.
  rewrite (op_mod_ok _ _ _ _ _ k) by side. see. fold K.
  rewrite (op_mod_ok _ _ _ _ _ k) by side. see. fold K.
  rewrite (op_mod_ok _ _ _ _ _ k) by side. see. fold K.
  eapply good_bind; [apply (joye_good k P Q Y V w f); side|]. intros [s g5] (B12 & Es & E12 & D2). revert Es E12. see. intros -> E12.
  eapply good_bind; [apply (joye_good k P Q Y V w f); side|]. intros [s g6] (B13 & Es & E13 & D3). revert Es E13. see. intros -> E13.
  eapply good_bind; [apply (joye_good k P Q Y V w f); side|]. intros [s g7] (B23 & Es & E23 & D4). revert Es E23. see. intros -> E23.
  apply (enc_cong _ _ _ _ _ _ (b1 * b2)) in E12; [|apply Zmod_mod].
  apply (enc_cong _ _ _ _ _ _ (b1 * b3)) in E13; [|apply Zmod_mod].
  apply (enc_cong _ _ _ _ _ _ (b2 * b3)) in E23; [|apply Zmod_mod].
  eapply good_bind.
  { eapply (mult_3_good k P Q Y V w f _ _ _ _ _ _ _ _ _ _ _ m1 b1 m2 b2 m3 b3 D4); side; split; side. }
  intros [s g8] (Ct & Es & Et & D5). revert Es. see. intros ->. clear D1 D2 D3 D4 D5.
  rewrite (op_mod_ok _ _ _ _ _ k) by side. see. fold K.
  rewrite (op_mod_ok _ _ _ _ _ k) by side. see. fold K.
  rewrite add_2_writes by side. see.
  rewrite (op_mod_ok _ _ _ _ _ k) by side. see. fold K.
  destruct (enc_invert k P Q Y V Cm _ Em) as (im & Im & EIm).
  rewrite sub_2_writes with (i := im) by side. see.
  rewrite (op_mod_ok _ _ _ _ _ k) by side. see. fold K.
  assert (E12' : enc_of k P Q Y ((C1 * C2) mod (P * Q)) (b1 + b2)) by (apply enc_mul; assumption).
  assert (E23' : enc_of k P Q Y ((C2 * i3) mod (P * Q)) (b2 + - b3)) by (apply enc_mul; assumption).
  assert (Ea : enc_of k P Q Y ((Cm * Ct) mod (P * Q)) (m1 * m2 - b1 * b2 + (m1 * m2 * m3 - b1 * b2 * b3))) by (apply enc_mul; assumption).
  assert (Es : enc_of k P Q Y ((Ct * im) mod (P * Q)) (m1 * m2 * m3 - b1 * b2 * b3 + - (m1 * m2 - b1 * b2))) by (apply enc_mul; assumption).
  rewrite (decrypt_pair k P Q Y V _ _ _ _ _ m1 b1) by (side; exact (proj1 E1)). see. fold K.
  rewrite (decrypt_pair k P Q Y V _ _ _ _ _ m2 b2) by (side; exact (proj1 E2)). see. fold K.
  rewrite (decrypt_pair k P Q Y V _ _ _ _ _ (m1 + m2) (b1 + b2)).
  2-8: side. 3: exact (proj1 E12'). 
  2:{ see. fold K. rewrite <- Zplus_mod, Zplus_mod_idemp_l. f_equal. ring. }
  see. fold K.
  rewrite (decrypt_pair k P Q Y V _ _ _ _ _ (m2 - m3) (b2 + - b3)).
  2-8: side. 3: exact (proj1 E23').
  2:{ see. fold K. rewrite Zplus_mod_idemp_r, Z.add_opp_r, <- Zminus_mod, Zplus_mod_idemp_l. f_equal. ring. }
  see. fold K.
  rewrite (decrypt_prod k P Q Y V _ _ _ _ _ _ (m1 * m2) (b1 * b2)) by (side; apply Zmod_mod). see. fold K.
  rewrite (decrypt_prod k P Q Y V _ _ _ _ _ _ (m1 * m2 * m3) (b1 * b2 * b3)) by (side; see; fold K; rewrite Zmod_mod, Zmult_mod_idemp_l; reflexivity).
  see. fold K.
  rewrite (decrypt_prod k P Q Y V _ _ _ _ _ _ (m1 * m2 + m1 * m2 * m3) (b1 * b2 + b1 * b2 * b3)).
  2-8: side.
  2:{ unfold good_prod. see. replace (m1 * m2 + m1 * m2 * m3 - (b1 * b2 + b1 * b2 * b3)) with (m1 * m2 - b1 * b2 + (m1 * m2 * m3 - b1 * b2 * b3)) by ring. exact Ea. }
  2:{ see. fold K. rewrite Zmod_mod, Zmult_mod_idemp_l, <- Zplus_mod. reflexivity. }
  see. fold K.
  rewrite (decrypt_prod k P Q Y V _ _ _ _ _ _ (m1 * m2 * m3 - m1 * m2) (b1 * b2 * b3 - b1 * b2)).
  2-8: side.
  2:{ unfold good_prod. see. replace (m1 * m2 * m3 - m1 * m2 - (b1 * b2 * b3 - b1 * b2)) with (m1 * m2 * m3 - b1 * b2 * b3 + - (m1 * m2 - b1 * b2)) by ring. exact Es. }
  2:{ see. fold K. rewrite Zmod_mod, Zmult_mod_idemp_l, <- Zminus_mod. reflexivity. }
  see. cbn [good map zget nth].
  exists b1, b2, b3, C1, C2, C3. split; [reflexivity|].
  split; [exact (decrypts_log _ _ _ _ _ _ V (proj1 E1))|]. split; [exact (decrypts_log _ _ _ _ _ _ V (proj1 E2))|exact (decrypts_log _ _ _ _ _ _ V (proj1 E3))].
Qed.
Print Assumptions C110_he_demo.
