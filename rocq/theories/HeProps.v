(** Properties of the labeled homomorphic encryption
    (AsymmetricCryptography/Labeled_homomorphic_encryption, LabeledHE and muLabeledHE). *)
From Coq Require Import NArith ZArith Znumtheory Zpow_facts List Bool Arith Lia.
From Verif Require Import Res Mem MemSpec ListLemmas SpecWords Concrete Gmp JoyeModel NumTheory JoyeSpec JoyeMath JoyeProofs JoyeProps
  HeModel HeSpec HeLabel HeRun HeProofs.
From Verif Require HcModel HcSpec HcProofs.
Import ListNotations.
Local Open Scope Z_scope.

(** ** A key for messages of 32 bits *)
Lemma nonresidue_power a p : prime p -> 2 < p -> (a ^ ((p - 1) / 2)) mod p = p - 1 -> nonresidue a p.
Proof.
  intros P p2 E x Ex.
  assert (Na : ~ (p | a)).
  { intros D. assert (H : (p | a ^ ((p - 1) / 2))).
    { assert (0 < (p - 1) / 2) by (apply Z.div_str_pos; lia). replace ((p - 1) / 2) with (Z.succ ((p - 1) / 2 - 1)) by lia.
      rewrite Z.pow_succ_r by lia. apply Z.divide_mul_l. exact D. }
    apply Z.mod_divide in H; lia. }
  assert (Nx : ~ (p | x)).
  { intros D. apply Na. apply Z.mod_divide; [lia|]. rewrite <- Ex. apply Z.mod_divide; [lia|]. apply Z.divide_mul_l. exact D. }
  assert (Eh : p - 1 = 2 * ((p - 1) / 2)).
  { pose proof (Z.div_mod (p - 1) 2 ltac:(lia)) as D. pose proof (Z.mod_pos_bound (p - 1) 2 ltac:(lia)) as B.
    assert ((p - 1) mod 2 <> 1); [|lia]. intros O. assert (X : (2 | p)) by (exists ((p - 1) / 2 + 1); lia).
    apply prime_div_prime in X; [lia|exact prime_2|exact P]. }
  pose proof (fermat_Z P Nx) as F. assert (H : 0 <= (p - 1) / 2) by (apply Z.div_pos; lia).
  rewrite Eh, Z.pow_mul_r, Z.pow_2_r in F; [|discriminate|exact H].
  rewrite (pow_mod_eq p (x * x) a) in F; [|clear - p2; lia|exact Ex]. clear - E F p2. lia.
Qed.
Lemma proth_test h k a p : 0 < k -> 0 < h < 2 ^ k -> p = h * 2 ^ k + 1 -> Zpow_mod a (h * 2 ^ (k - 1)) p = p - 1 -> prime p.
Proof.
  intros K H E T. apply (proth h k a p K H E). rewrite <- Zpow_mod_correct; [exact T|].
  assert (0 < 2 ^ k) by (apply Z.pow_pos_nonneg; lia). nia.
Qed.
Lemma nonresidue_test a p : prime p -> 2 < p -> Zpow_mod a ((p - 1) / 2) p = p - 1 -> nonresidue a p.
Proof. intros P p2 T. apply nonresidue_power; [exact P|exact p2|]. rewrite <- Zpow_mod_correct; [exact T|lia]. Qed.
Lemma large_key : valid_key 32 77309411329 11 7.
Proof.
  assert (P : prime 77309411329).
  { apply (proth_test 9 33 7); [reflexivity|split; reflexivity|reflexivity|vm_compute; reflexivity]. }
  constructor; [exact P|apply is_prime_sound; vm_compute; reflexivity|reflexivity|reflexivity|exists 18; reflexivity| |apply is_nonresidue_sound; vm_compute; reflexivity].
  apply nonresidue_test; [exact P|reflexivity|vm_compute; reflexivity].
Qed.
Lemma five_draws w : draws 77309411329 11 w (fun _ => 5).
Proof. intros i. left. apply Zgcd_1_rel_prime. vm_compute. reflexivity. Qed.

(** ** C63 *)
(** For all keys, messages (any integer), labels of at most k/8 bytes, key stream states and bytes
    on the stack after the label: he_encrypt returns; a + b is the message modulo 2^k, and
    he_decrypt gives the message modulo 2^k.  p must not divide the number drawn (C61). *)
Theorem C63_labeled_he_round_trip f n stack s c g cs b m y N label p k P Q :
  valid_key k P Q (zget s y) -> zget s N = P * Q -> zget s p = P -> Z.of_nat k < 2 ^ 32 -> HcProofs.state_ok cs ->
  fits (zget s label) (k / 8) ->
  (forall i, (i < k / 8)%nat -> fits (zget s label) i -> exists x, stack i = Some x /\ (x < 256)%N) ->
  (b < length s)%nat -> (y < length s)%nat -> (p < length s)%nat -> (ct_a c < length s)%nat -> (ct_beta c < length s)%nat ->
  b <> N -> b <> y -> b <> m -> b <> p -> ct_beta c <> N -> ct_beta c <> b -> ct_beta c <> m -> ct_beta c <> y -> ct_beta c <> p ->
  ct_a c <> y -> ct_a c <> p -> ct_a c <> b -> ct_a c <> ct_beta c ->
  draw g (P * Q) n -> (n < f)%nat -> ~ (P | g n mod (P * Q)) ->
  exists s' cs', he_encrypt (S f) stack s c g cs b m y N label k = Ret (s', Nat.iter (S n) rng_tail g, cs') /\
    HcProofs.state_ok cs' /\ length s' = length s /\ 0 <= zget s' (ct_a c) < 2 ^ Z.of_nat k /\
    (zget s' (ct_a c) + zget s' b) mod 2 ^ Z.of_nat k = zget s m mod 2 ^ Z.of_nat k /\
    forall out, (out < length s)%nat -> he_decrypt s' out c p y k = Ret (zset s' out (zget s m mod 2 ^ Z.of_nat k)).
Proof.
  intros V EN Ep HK S F St Lb Ly Lp La Lbt D1 D2 D3 D4 D5 D6 D7 D8 D9 D10 D11 D12 D13 Dr Ln U. unfold he_encrypt.
  destruct (label_value_ok stack cs (zget s label) k S HK F) as (E & S' & B).
  { intros i Hi. apply St; [lia|]. apply size_least. lia. }
  remember (blinding k _) as v eqn:Ev. clear Ev. remember (HcModel.HcState _ _) as cs' eqn:Ec. clear Ec. rewrite E. cbn [bind].
  destruct (C59_joye_libert_round_trip f (zset s b v) (ct_beta c) g b y N k P Q (zget s y) n V) as (C & EC & _ & _ & D);
    try assumption; try (rewrite zget_other by congruence; assumption || reflexivity); try (rewrite zset_length; assumption).
  rewrite EC. cbn [bind]. rewrite mod_pow2. cbn [bind]. rewrite zset_zset.
  rewrite (zget_same s b) in D by exact Lb.
  rewrite (zget_same _ (ct_a c)) by (rewrite !zset_length; exact La).
  rewrite !(zget_other _ (ct_beta c)) by assumption. rewrite (zget_other s b m), (zget_same s b) by assumption.
  eexists _, cs'. split; [reflexivity|]. split; [exact S'|]. split; [rewrite !zset_length; reflexivity|].
  rewrite (zget_same _ (ct_a c)) by (rewrite !zset_length; exact La).
  rewrite (zget_other _ (ct_a c) b), (zget_other _ (ct_beta c) b), (zget_same s b) by congruence.
  split; [apply Z.mod_pos_bound, pow2_pos|].
  assert (X : ((zget s m - v) mod 2 ^ Z.of_nat k + v) mod 2 ^ Z.of_nat k = zget s m mod 2 ^ Z.of_nat k).
  { rewrite Zplus_mod_idemp_l. f_equal. ring. }
  split; [exact X|]. intros out Lo. apply (decrypt_pair k P Q (zget s y) V) with (b := v); rewrite ?zset_length; try assumption.
  - rewrite !zget_other by congruence. exact Ep.
  - rewrite !zget_other by congruence. reflexivity.
  - rewrite (zget_same _ (ct_a c)) by (rewrite !zset_length; exact La). exact X.
  - rewrite (zget_other _ (ct_a c)) by assumption. rewrite zget_same by (rewrite zset_length; assumption).
    apply (log_decrypts k P Q); [exact V| |exact D]. intros DC.
    pose proof (key_p2 _ _ _ _ V) as P2. pose proof (key_q2 _ _ _ _ V) as Q2. assert (HN : 0 < P * Q) by (clear - P2 Q2; nia).
    pose proof (encrypt_ok f (zset s b v) (ct_beta c) g b y N k) as EO. rewrite EC in EO.
    rewrite (zget_other s b N), (zget_other s b y), (zget_same s b), EN in EO by (try assumption; congruence).
    specialize (EO ltac:(rewrite zset_length; exact Lbt) HN (proj1 B) D5). rewrite (first_draw_at (P * Q) n f g Ln Dr) in EO.
    apply Ret_inj in EO. apply (f_equal fst) in EO. cbn [fst] in EO. apply (f_equal (fun t => zget t (ct_beta c))) in EO.
    rewrite !zget_same in EO by (rewrite zset_length; assumption). revert DC.
    apply (log_unit k P Q (zget s y) V C (v mod 2 ^ Z.of_nat k)). rewrite EO.
    apply (log_cong k P (zget s y) (zget s y ^ v * (g n mod (P * Q)) ^ 2 ^ Z.of_nat k)); [symmetry; apply cong_mod_mult; clear - P2 Q2; lia|].
    pose proof (log_mul k P Q _ V _ _ _ _ (log_pow k P Q _ V _ _ v (proj1 B) (log_y k P Q _ V)) (log_blind k P Q _ V _ U)) as L.
    rewrite Z.add_0_r, Zmod_mod, Zmult_mod_idemp_r, Z.mul_1_r in L. exact L.
Qed.
Print Assumptions C63_labeled_he_round_trip.

(** If a cell of the array after the label's bytes is indeterminate, he_encrypt never returns a
    result: the array is encrypted with it.  A label that does not fit is written out of bounds. *)
Theorem C63_labeled_he_short_label_undefined fuel stack s c g cs b m y N label k i :
  fits (zget s label) i -> (i < k / 8)%nat -> stack i = None ->
  forall r, he_encrypt fuel stack s c g cs b m y N label k <> Ret r.
Proof.
  intros F Hi E r H. unfold he_encrypt in H. apply bind_ret in H. destruct H as ([cs' v] & H & _). revert H.
  apply (label_value_hole _ _ _ _ i); [|exact E]. split; [apply size_least; exact F|exact Hi].
Qed.
Print Assumptions C63_labeled_he_short_label_undefined.
Theorem C63_labeled_he_long_label_undefined fuel stack s c g cs b m y N label k :
  ~ fits (zget s label) (k / 8) -> he_encrypt fuel stack s c g cs b m y N label k = UB.
Proof. intros F. unfold he_encrypt. rewrite label_value_oob by exact F. reflexivity. Qed.
Print Assumptions C63_labeled_he_long_label_undefined.

(** The key stream state of main.cpp. *)
Definition main_mem : mem := [holding [0; 1; 2; 3; 4; 5; 6; 7; 8; 9; 16; 17; 18; 19; 20; 21]%N; holding (repeat 0%N 16)].
Lemma main_initialized : exists cs, HcModel.hc128_initialize main_mem (Ptr 0 0) (Ptr 1 0) = Ret cs /\ HcProofs.state_ok cs.
Proof.
  destruct (HcProofs.initialize_ok main_mem (Ptr 0 0) (Ptr 1 0) [0; 1; 2; 3; 4; 5; 6; 7; 8; 9; 16; 17; 18; 19; 20; 21]%N (repeat 0%N 16)) as (cs & E & S & _);
    [conc_has_bytes|conc_has_bytes|reflexivity|reflexivity|]. exists cs. split; assumption.
Qed.
(** That state, computed. *)
Definition main_cs : HcModel.hc128_state :=
  Eval vm_compute in match HcModel.hc128_initialize main_mem (Ptr 0 0) (Ptr 1 0) with Ret cs => cs | _ => HcModel.HcState [] [] end.
Lemma main_cs_ok : HcModel.hc128_initialize main_mem (Ptr 0 0) (Ptr 1 0) = Ret main_cs.
Proof. vm_compute. reflexivity. Qed.

(** The full claim is false: the first call of main.cpp (message 10, label 1, 32 bits) does not return
    a result on a fresh stack, whatever the key and the random numbers. *)
Theorem C63_labeled_he_round_trip_refuted : exists stack s c b m y N label P Q cs,
  valid_key 32 P Q (zget s y) /\ zget s N = P * Q /\ zget s m = 10 /\ zget s label = 1 /\ fits (zget s label) (32 / 8) /\
  HcModel.hc128_initialize main_mem (Ptr 0 0) (Ptr 1 0) = Ret cs /\ HcProofs.state_ok cs /\
  forall fuel g r, he_encrypt fuel stack s c g cs b m y N label 32 <> Ret r.
Proof.
  destruct main_initialized as (cs & E & S).
  exists (fun _ => None), [77309411329 * 11; 7; 77309411329; 0; 10; 1; 0; 0], (Ct 6 7), 3%nat, 4%nat, 1%nat, 0%nat, 5%nat, 77309411329, 11, cs.
  split; [exact large_key|]. split; [reflexivity|]. split; [reflexivity|]. split; [reflexivity|]. split; [reflexivity|].
  split; [exact E|]. split; [exact S|]. intros fuel g. apply (C63_labeled_he_short_label_undefined _ _ _ _ _ _ _ _ _ _ _ _ 1); [reflexivity|cbn; lia|reflexivity].
Qed.
Print Assumptions C63_labeled_he_round_trip_refuted.

(** Concrete case of the round trip: main.cpp's first call with zeros on the stack, and decryption. *)
Example C63_instance :
  let s := [77309411329 * 11; 7; 77309411329; 0; 10; 1; 0; 0; 0] in
  valid_key 32 77309411329 11 7 /\ fits 1 (32 / 8) /\ draw (fun _ => 5) (77309411329 * 11) 0 /\ ~ (77309411329 | 5 mod (77309411329 * 11)) /\
  (let* cs := HcModel.hc128_initialize main_mem (Ptr 0 0) (Ptr 1 0) in
   let* (s', g', cs') := he_encrypt 2 (fun _ => Some 0%N) s (Ct 6 7) (fun _ => 5) cs 3 4 1 0 5 32 in
   let* s := he_decrypt s' 8 (Ct 6 7) 2 1 32 in Ret (zget s' 6, zget s' 3, zget s 8)) = Ret (2 ^ 32 + 10 - 2244865836, 2244865836, 10).
Proof.
  cbv zeta. split; [exact large_key|]. split; [reflexivity|]. split; [split; [lia|discriminate]|].
  split; [intros D; apply Z.mod_divide in D; discriminate|]. rewrite main_cs_ok. vm_compute. reflexivity.
Qed.

(** ** C64 *)
(** Programs with the user's variables anywhere in the store, without overlap.  The program, of any
    length, may use every register any number of times, also as operand and result at once; its
    labels have at most k/8 bytes, and there are bytes, not indeterminate values, on the stack.  If no number
    drawn has a factor in common with N, then every pair decrypts to its value modulo 2^k, with p or
    with the user's b; and every product decrypts to its value modulo 2^k with any variable that
    holds the program's value on the blinding values modulo 2^k.
    With [w] the random numbers may also be 0 modulo N, in which case the program may wait for another. *)
Theorem C64_labeled_he_evaluates w loc n f k P Q Y stack prog s g cs em :
  valid_key k P Q Y -> (forall v w, loc v = loc w -> v = w) -> (forall v, in_range n v -> (loc v < length s)%nat) ->
  zget s (loc VN) = P * Q -> zget s (loc Vy) = Y -> zget s (loc Vp) = P ->
  Z.of_nat k < 2 ^ 32 -> HcProofs.state_ok cs -> draws P Q w g ->
  Forall (fun x => (target x < n)%nat /\ label_fits k x) prog -> (forall j, bytes (stack j)) ->
  eval prog empty = Some em ->
  match run loc (S (S f)) k stack prog s g cs empty with
  | Ret (s', _, _, eb) =>
      (forall i m, pairs em i = Some m ->
         (forall out, (out < length s')%nat -> he_decrypt s' out (ct loc i) (loc Vp) (loc Vy) k = Ret (zset s' out (m mod 2 ^ Z.of_nat k))) /\
         exists b, pairs eb i = Some b /\ (zget s' (loc (Va i)) + b) mod 2 ^ Z.of_nat k = m mod 2 ^ Z.of_nat k) /\
      (forall i m, prods em i = Some m -> exists b, prods eb i = Some b /\
         forall out r, (out < length s')%nat -> ~ In out [loc (Valpha i); r; loc Vp; loc Vy] -> zget s' r mod 2 ^ Z.of_nat k = b mod 2 ^ Z.of_nat k ->
           he_decrypt_2 s' out (loc (Valpha i)) r (loc Vp) (loc Vy) k = Ret (zset s' out (m mod 2 ^ Z.of_nat k)))
  | NoFuel => w = true
  | UB => False
  end.
Proof.
  intros V LI LB EN Ey Ep HK St D F B E.
  assert (I0 : inv loc k n P Q Y s empty empty).
  { constructor; try assumption; intros i; exact I. }
  pose proof (run_good loc f k n P Q Y V LI HK w prog stack s g cs empty empty em I0 D St F B E) as G.
  destruct (run loc (S (S f)) k stack prog s g cs empty) as [[[[s' g'] cs'] eb]| |]; cbn [good fst snd] in G; [|exact G|exact G].
  destruct G as (I' & _ & _). split.
  - intros i m Em. destruct (get_pair _ _ _ _ _ _ _ _ _ _ _ I' Em) as (b & Eb & Hi & [A [G _]]). split; [|exists b; split; assumption].
    intros out Lo. apply (decrypt_pair k P Q Y V) with (b := b); try assumption; try apply (inv_len _ _ _ _ _ _ _ _ _ I'); try exact Logic.I; try exact Hi.
    + apply (inv_p _ _ _ _ _ _ _ _ _ I').
    + apply (inv_y _ _ _ _ _ _ _ _ _ I').
  - intros i m Em. destruct (get_prod _ _ _ _ _ _ _ _ _ _ _ I' Em) as (b & Eb & Hi & G). exists b. split; [exact Eb|].
    intros out r Lo No Er. cbn [In] in No.
    apply (decrypt_prod k P Q Y V) with (B := b); try assumption; try (intros X; apply No; rewrite X; auto; fail).
    + apply (inv_p _ _ _ _ _ _ _ _ _ I').
    + apply (inv_y _ _ _ _ _ _ _ _ _ I').
Qed.
Print Assumptions C64_labeled_he_evaluates.

(** Concrete case: main.cpp's program at 32 bits (and a constant multiple), with its key stream and zeros on the stack. *)
Definition main_loc (v : var) : ref :=
  match v with
  | VN => 0 | Vy => 1 | Vp => 2 | Vb => 3 | Vm => 4 | Vlabel => 5 | Vconst => 6 | Vbeta12 => 7 | Vbeta13 => 8 | Vbeta23 => 9
  | Va i => 10 + 3 * i | Vbeta i => 11 + 3 * i | Valpha i => 12 + 3 * i
  end%nat.
Definition main_store : store := [77309411329 * 11; 7; 77309411329] ++ repeat 0 30.
Definition main_prog : list instr :=
  [Enc 0 10 1; Enc 1 15 2; Enc 2 5 3; Add 3 0 1; Sub 4 1 2; Mul 0 0 1; Mul3 1 0 1 2; Add2 2 0 1; Sub2 3 1 0; Cmul 2 (-3) 2; Cmul2 0 7 0].
Lemma main_loc_inj v w : main_loc v = main_loc w -> v = w.
Proof. destruct v, w; cbn [main_loc]; intros H; try reflexivity; try lia; f_equal; lia. Qed.
Example C64_instance :
  (forall v w, main_loc v = main_loc w -> v = w) /\ (forall v, in_range 6 v -> (main_loc v < length main_store)%nat) /\
  draws 77309411329 11 false (fun _ => 5) /\ Forall (fun x => (target x < 6)%nat /\ label_fits 32 x) main_prog /\
  (exists em, eval main_prog empty = Some em /\ map (pairs em) [0; 1; 2; 3; 4]%nat = map Some [10; 15; -15; 25; 10] /\
     map (prods em) [0; 1; 2; 3]%nat = map Some [1050; 750; 900; 600]) /\
  (let* cs := HcModel.hc128_initialize main_mem (Ptr 0 0) (Ptr 1 0) in
   let* (s, g, cs, eb) := run main_loc 2 32 (fun _ _ => Some 0%N) main_prog main_store (fun _ => 5) cs empty in
   let* s2 := he_decrypt s 3 (ct main_loc 2) 2 1 32 in
   let* s3 := he_decrypt s 3 (ct main_loc 3) 2 1 32 in
   let s := zset s 4 (value (prods eb) 3 mod 2 ^ 32) in
   let* s4 := he_decrypt_2 s 3 (main_loc (Valpha 3)) 4 2 1 32 in
   Ret (zget s2 3, zget s3 3, zget s4 3)) = Ret (2 ^ 32 - 15, 25, 600).
Proof.
  split; [exact main_loc_inj|]. split; [intros [| | | | | | | | | |i|i|i] H; cbn in *; lia|]. split; [apply five_draws|].
  split; [repeat (constructor; [split; [cbn; lia|first [reflexivity|exact I]]|]); constructor|].
  split; [eexists; split; [reflexivity|split; reflexivity]|]. rewrite main_cs_ok. vm_compute. reflexivity.
Qed.

(** ** C65 *)
Lemma joye_frame fuel s c g m y N k r : joye_libert_encrypt fuel s c g m y N k = Ret r -> exists C, fst r = zset s c C.
Proof.
  unfold joye_libert_encrypt. intros H. apply bind_ret in H. destruct H as ([x g'] & _ & H). apply bind_ret in H. destruct H as (t1 & _ & H).
  apply bind_ret in H. destruct H as (t2 & _ & H). apply bind_ret in H. destruct H as (t3 & _ & H). apply Ret_inj in H. subst r.
  exists t3. cbn [fst]. apply zset_zset.
Qed.
Lemma encrypt_values fuel stack s c g cs b m y N label k s' g' cs' :
  (b < length s)%nat -> (ct_a c < length s)%nat -> b <> m -> ct_beta c <> b -> ct_beta c <> m -> ct_a c <> b -> ct_a c <> ct_beta c ->
  he_encrypt fuel stack s c g cs b m y N label k = Ret (s', g', cs') ->
  label_value stack cs (zget s label) k = Ret (cs', zget s' b) /\ zget s' (ct_a c) = (zget s m - zget s' b) mod 2 ^ Z.of_nat k.
Proof.
  intros Lb La D1 D2 D3 D4 D5 H. unfold he_encrypt in H. apply bind_ret in H. destruct H as ([cs1 v] & E & H).
  apply bind_ret in H. destruct H as ([s1 g1] & H1 & H). destruct (joye_frame _ _ _ _ _ _ _ _ _ H1) as [C EC]. cbn [fst] in EC. subst s1.
  rewrite mod_pow2 in H. cbn [bind] in H. apply Ret_inj in H.
  assert (E1 : cs1 = cs') by exact (f_equal snd H). apply (f_equal (fun t => fst (fst t))) in H. cbn [fst] in H. rewrite zset_zset in H.
  rewrite (zget_same _ (ct_a c)) in H by (rewrite !zset_length; exact La). rewrite !(zget_other _ (ct_beta c)) in H by assumption.
  rewrite (zget_other s b m), (zget_same s b) in H by assumption.
  subst s' cs1. rewrite (zget_other _ (ct_a c) b), (zget_other _ (ct_beta c) b), (zget_same s b) by assumption.
  split; [exact E|]. rewrite zget_same by (rewrite !zset_length; exact La). reflexivity.
Qed.

(** The exact value of b for a fresh key stream: the HC-128 encryption of the label's own bytes
    followed by the bytes [rest] that were on the stack. *)
Theorem C65_labeled_he_blinding mem kp vp key iv fuel stack s c g cs b m y N label k n rest s' g' cs' :
  has_bytes mem kp key -> has_bytes mem vp iv -> length key = 16%nat -> length iv = 16%nat -> HcModel.hc128_initialize mem kp vp = Ret cs ->
  Z.of_nat k < 2 ^ 32 -> (n <= k / 8)%nat -> fits (zget s label) n -> (forall i, (i < n)%nat -> ~ fits (zget s label) i) ->
  Forall (fun x => (x < 256)%N) rest -> map stack (seq n (k / 8 - n)) = map Some rest ->
  (b < length s)%nat -> (ct_a c < length s)%nat -> b <> m -> ct_beta c <> b -> ct_beta c <> m -> ct_a c <> b -> ct_a c <> ct_beta c ->
  he_encrypt fuel stack s c g cs b m y N label k = Ret (s', g', cs') ->
  zget s' b = blinding k (HcSpec.hc_encrypt key iv (label_bytes (zget s label) n ++ rest)).
Proof.
  intros Hk Hv Lk Lv Ei HK Hn F M R ER Lb La D1 D2 D3 D4 D5 H.
  destruct (encrypt_values _ _ _ _ _ _ _ _ _ _ _ _ _ _ _ Lb La D1 D2 D3 D4 D5 H) as [E _].
  destruct (HcProofs.initialize_ok mem kp vp key iv Hk Hv Lk Lv) as (cs0 & E0 & S0 & V0). rewrite Ei in E0. apply Ret_inj in E0. subst cs0.
  assert (Sz : size_in_bytes (zget s label) = n).
  { apply size_least in F. destruct (Nat.eq_dec (size_in_bytes (zget s label)) n) as [X|X]; [exact X|].
    exfalso. apply (M (size_in_bytes (zget s label))); [lia|]. apply size_least. lia. }
  assert (Lr : length rest = (k / 8 - n)%nat).
  { rewrite <- (map_length Some), <- ER, map_length. apply seq_length. }
  assert (Fk : fits (zget s label) (k / 8)) by (apply size_least; lia).
  assert (Cell : forall i, (n <= i < k / 8)%nat -> stack i = Some (nth (i - n) rest 0%N)).
  { intros i Hi. assert (X : nth_error (map stack (seq n (k / 8 - n))) (i - n) = nth_error (map Some rest) (i - n)) by (rewrite ER; reflexivity).
    rewrite (map_nth_error stack (i - n) (seq n (k / 8 - n)) (d := i)) in X.
    - rewrite (map_nth_error Some (i - n) rest (d := nth (i - n) rest 0%N)) in X by (apply nth_error_nth'; lia). congruence.
    - rewrite (nth_error_nth' _ 0%nat) by (rewrite seq_length; lia). rewrite seq_nth by lia. f_equal. lia. }
  destruct (label_value_ok stack cs (zget s label) k S0 HK Fk) as (E1 & _).
  { rewrite Sz. intros i Hi. exists (nth (i - n) rest 0%N). split; [apply Cell; exact Hi|]. rewrite Forall_forall in R. apply R, nth_In. lia. }
  rewrite E1 in E. apply Ret_inj in E. apply (f_equal snd) in E. cbn [snd] in E. rewrite <- E. f_equal.
  assert (EA : array stack (zget s label) (k / 8) = label_bytes (zget s label) n ++ rest).
  { unfold array. rewrite Sz. f_equal. apply nth_ext with (d := 0%N) (d' := 0%N); rewrite map_length, seq_length; [lia|].
    intros i Hi. rewrite (nth_indep _ 0%N (byte_at stack 0%nat)) by (rewrite map_length, seq_length; exact Hi).
    rewrite map_nth, seq_nth by exact Hi. unfold byte_at. rewrite Cell by lia. f_equal. lia. }
  rewrite EA, V0, <- HcProofs.encrypt_words.
  assert (LA : length (label_bytes (zget s label) n ++ rest) = (k / 8)%nat).
  { rewrite app_length, Lr, label_bytes_length. lia. }
  rewrite LA. reflexivity.
Qed.
Print Assumptions C65_labeled_he_blinding.
(** So for labels that fill the array and a fresh key stream, b depends on the key, IV and label only. *)
Theorem C65_labeled_he_full_label mem kp vp key iv fuel stack s c g cs b m y N label k s' g' cs' :
  has_bytes mem kp key -> has_bytes mem vp iv -> length key = 16%nat -> length iv = 16%nat -> HcModel.hc128_initialize mem kp vp = Ret cs ->
  Z.of_nat k < 2 ^ 32 -> 256 ^ (Z.of_nat (k / 8) - 1) <= Z.abs (zget s label) < 256 ^ Z.of_nat (k / 8) -> zget s label <> 0 ->
  (b < length s)%nat -> (ct_a c < length s)%nat -> b <> m -> ct_beta c <> b -> ct_beta c <> m -> ct_a c <> b -> ct_a c <> ct_beta c ->
  he_encrypt fuel stack s c g cs b m y N label k = Ret (s', g', cs') ->
  zget s' b = blinding k (HcSpec.hc_encrypt key iv (label_bytes (zget s label) (k / 8))).
Proof.
  intros Hk Hv Lk Lv Ei HK [L1 L2] L0 Lb La D1 D2 D3 D4 D5 H.
  rewrite <- (app_nil_r (label_bytes _ _)).
  apply (C65_labeled_he_blinding mem kp vp key iv fuel stack s c g cs b m y N label k (k / 8) [] s' g' cs'); try assumption; try lia.
  - intros i Hi F. unfold fits in F. assert (256 ^ Z.of_nat i <= 256 ^ (Z.of_nat (k / 8) - 1)) by (apply Z.pow_le_mono_r; lia). lia.
  - constructor.
  - rewrite Nat.sub_diag. reflexivity.
Qed.
Print Assumptions C65_labeled_he_full_label.

(** The full claim is false: with the same key, IV, label and random numbers, another b comes out if other
    bytes were on the stack, and if the label is not the first one encrypted. *)
Definition b_of (stack : nat -> option N) (labels : list Z) : res Z :=
  let* cs := HcModel.hc128_initialize main_mem (Ptr 0 0) (Ptr 1 0) in
  let* (s, _, _) := fold_left (fun r label => let* (s, g, cs) := r in
      he_encrypt 2 stack (zset s 5 label) (Ct 6 7) g cs 3 4 1 0 5 32) labels
    (Ret ([77309411329 * 11; 7; 77309411329; 0; 10; 0; 0; 0], fun _ => 5, cs)) in
  Ret (zget s 3).
Theorem C65_labeled_he_label_determines_b_refuted :
  (exists stack stack' b b', bytes stack /\ bytes stack' /\ b_of stack [1] = Ret b /\ b_of stack' [1] = Ret b' /\ b <> b') /\
  (exists stack b b', bytes stack /\ b_of stack [0x01020304] = Ret b /\ b_of stack [0x01020305; 0x01020304] = Ret b' /\ b <> b').
Proof.
  split.
  - exists (fun _ => Some 0%N), (fun _ => Some 1%N), 2244865836, 2228022828. split; [intros i; exists 0%N; split; reflexivity|].
    split; [intros i; exists 1%N; split; reflexivity|]. split; [unfold b_of; rewrite main_cs_ok; vm_compute; reflexivity|]. split; [unfold b_of; rewrite main_cs_ok; vm_compute; reflexivity|discriminate].
  - exists (fun _ => Some 0%N), 2177821996, 1703506005. split; [intros i; exists 0%N; split; reflexivity|]. 
    split; [unfold b_of; rewrite main_cs_ok; vm_compute; reflexivity|]. split; [unfold b_of; rewrite main_cs_ok; vm_compute; reflexivity|discriminate].
Qed.
Print Assumptions C65_labeled_he_label_determines_b_refuted.
Example C65_instance : fits 1 1 /\ ~ fits 1 0 /\
  b_of (fun _ => Some 0%N) [1] = Ret (blinding 32 (HcSpec.hc_encrypt [0; 1; 2; 3; 4; 5; 6; 7; 8; 9; 16; 17; 18; 19; 20; 21]%N (repeat 0%N 16) (label_bytes 1 1 ++ [0; 0; 0]%N))) /\
  b_of (fun _ => None) [0x01020304] = b_of (fun _ => Some 0%N) [0x01020304].
Proof. split; [reflexivity|]. split; [intros H; discriminate H|]. unfold b_of. rewrite main_cs_ok. split; vm_compute; reflexivity. Qed.

(** ** C66 *)
(** Decryption of upk gives the user's key modulo 2^k, which is the key if k is at least 128. *)
Theorem C66_mu_he_user_key f n s g upk usk y N k P Q :
  valid_key k P Q (zget s y) -> zget s N = P * Q -> (upk < length s)%nat -> (usk < length s)%nat ->
  usk <> N -> usk <> y -> upk <> N -> upk <> usk ->
  draw (rng_tail g) (P * Q) n -> (n < f)%nat -> ~ (P | rng_tail g n mod (P * Q)) ->
  exists s' g', mu_he_keygen (S f) s upk usk g N y k = Ret (s', g') /\ zget s' usk = g 0%nat mod 2 ^ 128 /\
    decrypts_to k P (zget s y) (zget s' upk) (zget s' usk mod 2 ^ Z.of_nat k) /\
    ((128 <= k)%nat -> decrypts_to k P (zget s y) (zget s' upk) (zget s' usk)).
Proof.
  intros V EN L1 L2 D1 D2 D3 D4 Dr Ln U. unfold mu_he_keygen, mpz_urandomb. change (Z.of_nat 128) with 128.
  remember (g 0%nat mod 2 ^ 128) as v eqn:Ev. assert (B : 0 <= v < 2 ^ 128) by (rewrite Ev; apply Z.mod_pos_bound; reflexivity). clear Ev.
  destruct (C59_joye_libert_round_trip f (zset s usk v) upk (rng_tail g) usk y N k P Q (zget s y) n V) as (C & EC & _ & _ & D);
    try assumption; try (rewrite zget_other by congruence; assumption || reflexivity); try (rewrite zset_length; assumption).
  rewrite (zget_same s usk) in D by exact L2.
  eexists _, _. split; [exact EC|]. rewrite (zget_other _ upk usk) by exact D4. rewrite (zget_same s usk) by exact L2.
  rewrite (zget_same _ upk) by (rewrite zset_length; exact L1). split; [reflexivity|]. split; [exact D|].
  intros K. rewrite Z.mod_small in D; [exact D|]. split; [apply B|]. eapply Z.lt_le_trans; [apply B|]. apply Z.pow_le_mono_r; lia.
Qed.
Print Assumptions C66_mu_he_user_key.
(** The full claim is false: with messages of 32 bits, the size in main.cpp, the key 2^32 + 5 comes back as 5. *)
Theorem C66_mu_he_user_key_refuted : exists P Q s g s' g', valid_key 32 P Q (zget s 1) /\ zget s 0 = P * Q /\
  mu_he_keygen 2 s 2 3 g 0 1 32 = Ret (s', g') /\ zget s' 3 = 2 ^ 32 + 5 /\ decrypts_to 32 P (zget s 1) (zget s' 2) 5.
Proof.
  destruct (C66_mu_he_user_key 1 0 [77309411329 * 11; 7; 0; 0] (fun _ => 2 ^ 32 + 5) 2 3 1 0 32 77309411329 11) as (s' & g' & E & Eu & D & _);
    try exact large_key; try reflexivity; try discriminate; try (cbn; lia).
  - split; [lia|discriminate].
  - intros D. apply Z.mod_divide in D; discriminate.
  - exists 77309411329, 11, [77309411329 * 11; 7; 0; 0], (fun _ => 2 ^ 32 + 5), s', g'. split; [exact large_key|]. split; [reflexivity|]. split; [exact E|].
    rewrite Eu in *. split; [reflexivity|exact D].
Qed.
Print Assumptions C66_mu_he_user_key_refuted.
Example C66_instance : let s := [77309411329 * 11; 7; 0; 0; 77309411329; 0] in
  draw (rng_tail (fun _ => 2 ^ 32 + 5)) (77309411329 * 11) 0 /\
  (let* (s, _) := mu_he_keygen 2 s 2 3 (fun _ => 2 ^ 32 + 5) 0 1 32 in let* s := joye_libert_decrypt s 5 2 4 1 32 in Ret (zget s 3, zget s 5)) = Ret (2 ^ 32 + 5, 5).
Proof. split; [split; [lia|discriminate]|vm_compute; reflexivity]. Qed.

(** ** C87 *)
(** Only the 32 * (k/32) low bits of the message are blinded. *)
Theorem C87_labeled_he_blinding_size fuel stack s c g cs b m y N label k s' g' cs' :
  HcProofs.state_ok cs -> Z.of_nat k < 2 ^ 32 ->
  (b < length s)%nat -> (ct_a c < length s)%nat -> b <> m -> ct_beta c <> b -> ct_beta c <> m -> ct_a c <> b -> ct_a c <> ct_beta c ->
  (forall i x, stack i = Some x -> (x < 256)%N) ->
  he_encrypt fuel stack s c g cs b m y N label k = Ret (s', g', cs') ->
  0 <= zget s' b < 2 ^ (32 * Z.of_nat (k / 32)) /\ zget s' (ct_a c) = (zget s m - zget s' b) mod 2 ^ Z.of_nat k.
Proof.
  intros St HK Lb La D1 D2 D3 D4 D5 SB H.
  assert (F : fits (zget s label) (k / 8)).
  { destruct (Z_lt_le_dec (Z.abs (zget s label)) (256 ^ Z.of_nat (k / 8))) as [F|F]; [exact F|].
    exfalso. rewrite C63_labeled_he_long_label_undefined in H; [discriminate H|]. unfold fits. lia. }
  destruct (label_value_ok stack cs (zget s label) k St HK F) as (E & _ & B).
  { intros i Hi. destruct (stack i) as [x|] eqn:Ex; [exists x; split; [reflexivity|apply (SB i); exact Ex]|].
    exfalso. revert H. apply (C63_labeled_he_short_label_undefined _ _ _ _ _ _ _ _ _ _ _ _ i); [apply size_least; lia|lia|exact Ex]. }
  destruct (encrypt_values _ _ _ _ _ _ _ _ _ _ _ _ _ _ _ Lb La D1 D2 D3 D4 D5 H) as [E1 E2].
  rewrite E in E1. apply Ret_inj in E1. apply (f_equal snd) in E1. cbn [snd] in E1. rewrite <- E1 at 1 2. split; [exact B|exact E2].
Qed.
Print Assumptions C87_labeled_he_blinding_size.
(** With fewer than 32 bits the published a is the message. *)
Theorem C87_labeled_he_small_messages_bare fuel stack s c g cs b m y N label k s' g' cs' :
  HcProofs.state_ok cs -> (k < 32)%nat ->
  (b < length s)%nat -> (ct_a c < length s)%nat -> b <> m -> ct_beta c <> b -> ct_beta c <> m -> ct_a c <> b -> ct_a c <> ct_beta c ->
  (forall i x, stack i = Some x -> (x < 256)%N) ->
  he_encrypt fuel stack s c g cs b m y N label k = Ret (s', g', cs') ->
  zget s' b = 0 /\ zget s' (ct_a c) = zget s m mod 2 ^ Z.of_nat k.
Proof.
  intros St HK Lb La D1 D2 D3 D4 D5 SB H.
  destruct (C87_labeled_he_blinding_size fuel stack s c g cs b m y N label k s' g' cs' St ltac:(change (2 ^ 32) with 4294967296; lia) Lb La D1 D2 D3 D4 D5 SB H) as [B E].
  rewrite Nat.div_small in B by exact HK. change (2 ^ (32 * Z.of_nat 0)) with 1 in B. replace (zget s' b) with 0 in * by lia.
  split; [reflexivity|]. rewrite E. f_equal. lia.
Qed.
Print Assumptions C87_labeled_he_small_messages_bare.
(** The claim that the message is blinded is false for messages of 16 bits. *)
Theorem C87_labeled_he_message_blinded_refuted : exists P Q s g stack cs,
  valid_key 16 P Q (zget s 1) /\ zget s 0 = P * Q /\ HcModel.hc128_initialize main_mem (Ptr 0 0) (Ptr 1 0) = Ret cs /\ bytes stack /\
  exists s' g' cs', he_encrypt 2 stack s (Ct 6 7) g cs 3 4 1 0 5 16 = Ret (s', g', cs') /\ zget s' 6 = 10 /\ zget s 4 = 10.
Proof.
  destruct main_initialized as (cs & E & St).
  assert (V : valid_key 16 65537 11 7).
  { constructor; [|apply is_prime_sound; vm_compute; reflexivity|reflexivity|reflexivity|exists 1; reflexivity| |apply is_nonresidue_sound; vm_compute; reflexivity];
      [|apply nonresidue_test; [|reflexivity|vm_compute; reflexivity]];
      (apply (proth_test 128 9 3); [reflexivity|split; reflexivity|reflexivity|vm_compute; reflexivity]). }
  exists 65537, 11, [65537 * 11; 7; 65537; 0; 10; 1; 0; 0], (fun _ => 5), (fun _ => Some 0%N), cs.
  split; [exact V|]. split; [reflexivity|]. split; [exact E|]. split; [intros i; exists 0%N; split; reflexivity|].
  assert (By : forall (i : nat) (x : N), Some 0%N = Some x -> (x < 256)%N) by (intros i x Hx; injection Hx as <-; reflexivity).
  set (s := [65537 * 11; 7; 65537; 0; 10; 1; 0; 0] : store) in *.
  assert (L : forall r, (r < 8)%nat -> (r < length s)%nat) by (intros r Hr; exact Hr).
  assert (Dr : draw (fun _ => 5) (65537 * 11) 0) by (split; [lia|discriminate]).
  assert (U : ~ (65537 | 5 mod (65537 * 11))) by (intros D; apply Z.mod_divide in D; discriminate).
  assert (F : fits (zget s 5) (16 / 8)) by reflexivity.
  assert (By' : forall i, (i < 16 / 8)%nat -> fits (zget s 5) i -> exists x : N, Some 0%N = Some x /\ (x < 256)%N) by (intros; exists 0%N; split; reflexivity).
  destruct (C63_labeled_he_round_trip 1 0 (fun _ => Some 0%N) s (Ct 6 7) (fun _ => 5) cs 3 4 1 0 5 2 16 65537 11 V eq_refl eq_refl eq_refl St F By')
    as (s' & cs' & H & _); try (apply L; cbn [ct_a ct_beta]; lia); try (cbn [ct_a ct_beta]; lia); [exact Dr|exact U|].
  eexists s', _, cs'. split; [exact H|]. split; [|reflexivity].
    eapply C87_labeled_he_small_messages_bare in H; [|exact St|lia|apply L; lia|apply L; cbn [ct_a]; lia|discriminate|discriminate|discriminate|discriminate|discriminate|exact By].
    destruct H as [_ H]. cbn [ct_a] in H. rewrite H. reflexivity.
Qed.
Print Assumptions C87_labeled_he_message_blinded_refuted.
(** A modulus of 2^40 leaves a blinding of 32 bits, one of 2^16 none; a loaded
    cipher state exists. *)
Example C87_instance : (exists cs, HcModel.hc128_initialize main_mem (Ptr 0 0) (Ptr 1 0) = Ret cs /\ HcProofs.state_ok cs) /\
  32 * Z.of_nat (40 / 32) = 32 /\ 32 * Z.of_nat (16 / 32) = 0.
Proof. split; [exact main_initialized|]. split; reflexivity. Qed.

(** ** C88 *)
(** he_decrypt of a product into the variable that holds b: b is lost, and twice the decryption of
    the ciphertext comes out.  Into the variable of the ciphertext: b - 1. *)
Theorem C88_labeled_he_decrypt_over_b s c b p y k P Q M :
  valid_key k P Q (zget s y) -> zget s p = P -> (b < length s)%nat -> b <> c -> b <> p -> b <> y ->
  decrypts_to k P (zget s y) (zget s c) M ->
  he_decrypt_2 s b c b p y k = Ret (zset s b ((2 * M) mod 2 ^ Z.of_nat k)).
Proof.
  intros V Ep Lb D1 D2 D3 D. unfold he_decrypt_2. rewrite (D s b c p y) by (try assumption; reflexivity). cbn [bind].
  rewrite (zget_same s b) by exact Lb. rewrite zset_zset. rewrite zget_same by exact Lb. rewrite mod_pow2. cbn [bind]. rewrite zset_zset.
  do 2 f_equal. f_equal. ring.
Qed.
Print Assumptions C88_labeled_he_decrypt_over_b.
Theorem C88_labeled_he_decrypt_over_ciphertext s c b p y k Q :
  valid_key (S k) (zget s p) Q (zget s y) -> (c < length s)%nat -> c <> b -> c <> p -> c <> y ->
  he_decrypt_2 s c c b p y (S k) = Ret (zset s c ((zget s b - 1) mod 2 ^ Z.of_nat (S k))).
Proof.
  intros V Lc D1 D2 D3. unfold he_decrypt_2. rewrite (C85_joye_libert_decrypt_in_place s c p y k Q V Lc D2 D3). cbn [bind].
  rewrite (zget_same s c), (zget_other s c b) by assumption. rewrite zset_zset, zget_same by exact Lc. rewrite mod_pow2. cbn [bind].
  rewrite zset_zset. do 2 f_equal. replace (2 ^ Z.of_nat (S k) - 1 + zget s b) with (zget s b - 1 + 1 * 2 ^ Z.of_nat (S k)) by ring.
  apply Z_mod_plus_full.
Qed.
Print Assumptions C88_labeled_he_decrypt_over_ciphertext.
(** Decryption of a pair may write over the pair (C63: [out] is arbitrary); for products that is false. *)
Theorem C88_labeled_he_decrypt_in_place_refuted : exists k P Q Y C b M, valid_key k P Q Y /\
  he_decrypt_2 [0; C; P; Y; b] 0 1 4 2 3 k = Ret [M; C; P; Y; b] /\
  he_decrypt_2 [0; C; P; Y; b] 4 1 4 2 3 k <> Ret [0; C; P; Y; M] /\ he_decrypt_2 [0; C; P; Y; b] 1 1 4 2 3 k <> Ret [0; M; P; Y; b].
Proof.
  exists 3%nat, 41, 7, 3, 207, 1, 7. split; [exact small_key|]. split; [vm_compute; reflexivity|]. split; vm_compute; discriminate.
Qed.
Print Assumptions C88_labeled_he_decrypt_in_place_refuted.
Example C88_instance : he_decrypt_2 [0; 207; 41; 3; 1] 4 1 4 2 3 3 = Ret [0; 207; 41; 3; (2 * 6) mod 8] /\
  he_decrypt_2 [0; 207; 41; 3; 1] 1 1 4 2 3 3 = Ret [0; 0; 41; 3; 1].
Proof. split; vm_compute; reflexivity. Qed.
