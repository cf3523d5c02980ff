(** Property C110, continued: when the labeled homomorphic encryption demonstration prints at all. *)
From Coq Require Import Arith NArith ZArith Znumtheory List Bool Lia.
From Verif Require Import Res Mem Gmp JoyeModel JoyeSpec JoyeMath JoyeProofs JoyeProps HeModel HeSpec HeLabel HeProofs
  MemSpec SpecWords Concrete DemoHeModel DemoHeProps.
From Verif Require HeProps.
Import ListNotations.
Local Open Scope Z_scope.

(** It returns only if every label fits and no byte read after it is indeterminate. *)
Definition determinate (k : nat) (stack : nat -> option N) (label : Z) : Prop :=
  fits label (k / 8) /\ forall i, (i < k / 8)%nat -> fits label i -> stack i <> None.
Lemma encrypt_only fuel stack s c g cs b m y N label k s' g' cs' :
  he_encrypt fuel stack s c g cs b m y N label k = Ret (s', g', cs') ->
  determinate k stack (zget s label) /\ exists u v w, s' = zset (zset (zset s b u) (ct_beta c) v) (ct_a c) w.
Proof.
  intros H. split.
  - split.
    + destruct (Nat.le_gt_cases (size_in_bytes (zget s label)) (k / 8)) as [L|L]; [apply size_least; exact L|].
      exfalso. rewrite HeProps.C63_labeled_he_long_label_undefined in H; [discriminate H|]. intros X. apply size_least in X. lia.
    + intros i Hi F E. revert H. apply (HeProps.C63_labeled_he_short_label_undefined _ _ _ _ _ _ _ _ _ _ _ _ i); assumption.
  - unfold he_encrypt in H. apply bind_ret in H. destruct H as ([cs1 v] & _ & H).
    apply bind_ret in H. destruct H as ([s1 g1] & H1 & H). destruct (HeProps.joye_frame _ _ _ _ _ _ _ _ _ H1) as [C EC]. cbn [fst] in EC. subst s1.
    apply bind_ret in H. destruct H as (r & _ & H). apply Ret_inj in H. apply (f_equal (fun t => fst (fst t))) in H. cbn [fst] in H.
    rewrite zset_zset in H. do 3 eexists. symmetry. exact H.
Qed.
Theorem C110_he_demo_returns_only G fuel keysize k stack key iv m1 l1 m2 l2 m3 l3 out :
  he_main G fuel keysize k stack key iv m1 l1 m2 l2 m3 l3 = Ret out ->
  determinate k (stack 1%nat) l1 /\ determinate k (stack 2%nat) l2 /\ determinate k (stack 3%nat) l3.
Proof.
  intros H. unfold he_main, he_keygen in H. rewrite keygen_eq in H by (unfold v_N, v_y, v_p; cbn; lia).
  apply bind_ret in H. destruct H as (s0 & E0 & H). apply bind_ret in E0. destruct E0 as ([[P Q] Y] & _ & E0). apply Ret_inj in E0. subst s0.
  apply bind_ret in H. destruct H as (cs & _ & H). unfold v_N, v_y, v_p in H. cbn [app repeat zset upd] in H.
  unfold v_c1, v_c2, v_c3, v_b1, v_b2, v_b3, v_m1, v_m2, v_m3, v_label1, v_label2, v_label3 in H.
  apply bind_ret in H. destruct H as ([[s1 g1] cs1] & E & H). apply encrypt_only in E. destruct E as (D1 & ? & ? & ? & ->).
  apply bind_ret in H. destruct H as ([[s2 g2] cs2] & E & H). apply encrypt_only in E. destruct E as (D2 & ? & ? & ? & ->).
  apply bind_ret in H. destruct H as ([[s3 g3] cs3] & E & _). apply encrypt_only in E. destruct E as (D3 & _).
  split; [exact D1|]. split; [exact D2|exact D3].
Qed.
Print Assumptions C110_he_demo_returns_only.

(** The full claim is false of the program as shipped: with nothing on the stack it never prints,
    whatever the key sizes, random numbers and HC-128 key. *)
Definition shipped_key : list N := [0; 1; 2; 3; 4; 5; 6; 7; 8; 9; 16; 17; 18; 19; 20; 21]%N.
Theorem C110_he_demo_refuted : exists stack m1 l1 m2 l2 m3 l3,
  [m1; l1; m2; l2; m3; l3] = [10; 1; 15; 2; 5; 3] /\ fits l1 (32 / 8) /\ fits l2 (32 / 8) /\ fits l3 (32 / 8) /\
  forall G fuel keysize key iv out, he_main G fuel keysize 32 stack key iv m1 l1 m2 l2 m3 l3 <> Ret out.
Proof.
  exists (fun _ _ => None), 10, 1, 15, 2, 5, 3. split; [reflexivity|]. do 3 (split; [reflexivity|]).
  intros G fuel keysize key iv out H. apply C110_he_demo_returns_only in H. destruct H as [[_ H] _].
  apply (H 1%nat); [cbn; lia|reflexivity|reflexivity].
Qed.
Print Assumptions C110_he_demo_refuted.

(** Concrete case: main.cpp's messages, labels, HC-128 key and message size, a key that its key generation
    finds with the random numbers below, and zeros on the stack. *)
Definition table_gmp : gmp :=
  Gmp (fun n => (n =? 43) || (n =? 11) || (n =? 184683593729)) (fun _ => 11)
    (fun a p => if (a =? 7) && ((p =? 11) || (p =? 184683593729)) then -1 else 1)
    (fun i => nth i [184683593731; 5; 7] 5).
Lemma table_prime : prime 184683593729.
Proof. apply (HeProps.proth_test 43 32 7); [reflexivity|split; reflexivity|reflexivity|vm_compute; reflexivity]. Qed.
Lemma table_sound : sound table_gmp.
Proof.
  split; cbn [probab_prime legendre table_gmp].
  - intros n H. rewrite !orb_true_iff, !Z.eqb_eq in H. destruct H as [[H|H]|H]; subst n;
      [apply is_prime_sound; reflexivity|apply is_prime_sound; reflexivity|exact table_prime].
  - intros a p _ _. destruct ((a =? 7) && ((p =? 11) || (p =? 184683593729))) eqn:E; [|discriminate]. intros _.
    rewrite andb_true_iff, orb_true_iff, !Z.eqb_eq in E. destruct E as [-> [-> | ->]]; [apply is_nonresidue_sound; reflexivity|].
    apply HeProps.nonresidue_test; [exact table_prime|reflexivity|vm_compute; reflexivity].
Qed.
Example C110_instance :
  sound table_gmp /\ joye_libert_keygen table_gmp 9 [0; 0; 0] 0 1 2 32 80 = Ret [184683593729 * 11; 7; 184683593729] /\
  draws 184683593729 11 false (mt table_gmp) /\ fits 1 (32 / 8) /\ fits 2 (32 / 8) /\ fits 3 (32 / 8) /\
  filled 32 (fun _ => Some 0%N) 1 /\ bytes_ok shipped_key /\
  exists b1 b2 b3 beta1 beta2 beta3,
    he_main table_gmp 9 80 32 (fun _ _ => Some 0%N) shipped_key (repeat 0%N 16) 10 1 15 2 5 3 =
      Ret [10; 15; 5; (10 - b1) mod 2 ^ 32; beta1; (15 - b2) mod 2 ^ 32; beta2; (5 - b3) mod 2 ^ 32; beta3; 10; 15; 25; 10; 150; 750; 900; 600].
Proof.
  split; [exact table_sound|]. assert (EK : joye_libert_keygen table_gmp 9 [0; 0; 0] 0 1 2 32 80 = Ret [184683593729 * 11; 7; 184683593729]) by (vm_compute; reflexivity).
  split; [exact EK|].
  assert (D : draws 184683593729 11 false (mt table_gmp)).
  { intros i. left. apply Zgcd_1_rel_prime. do 3 (destruct i as [|i]; [vm_compute; reflexivity|]). cbn [mt table_gmp nth]. destruct i; vm_compute; reflexivity. }
  split; [exact D|]. do 3 (split; [reflexivity|]).
  assert (F : forall l, filled 32 (fun _ => Some 0%N) l) by (intros l i _ _; exists 0%N; split; reflexivity).
  split; [apply F|]. assert (B : bytes_ok shipped_key) by (repeat constructor). split; [exact B|].
  pose proof (C110_he_demo false table_gmp 7 80 32 (fun _ _ => Some 0%N) shipped_key (repeat 0%N 16) 10 1 15 2 5 3 _ _ _
    table_sound EK D eq_refl B eq_refl ltac:(repeat constructor) eq_refl eq_refl eq_refl eq_refl (F _) (F _) (F _)) as H.
  cbv zeta in H. revert H. change (Z.of_nat 32) with 32. change (2 ^ 32) with 4294967296.
  destruct (he_main _ _ _ _ _ _ _ _ _ _ _ _ _) as [out| |]; [|contradiction|discriminate].
  intros (b1 & b2 & b3 & beta1 & beta2 & beta3 & -> & _). exists b1, b2, b3, beta1, beta2, beta3. reflexivity.
Qed.
