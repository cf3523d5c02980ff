(** The AES block function is injective. *)
From Coq Require Import Arith NArith List Bool Lia.
From Verif Require Import Words MemLemmas SpecWords WordsLemmas XorProofs Finite AesSpec AesModel AesProofs.
Import ListNotations.
Local Open Scope N_scope.

(** ** Bytes *)
Definition sbox_tab : list N := Eval vm_compute in map sbox (nrange 256).
Definition sbox_inv_tab : list N :=
  Eval vm_compute in map (fun y => hd 0 (filter (fun z => nth (N.to_nat z) sbox_tab 0 =? y) (nrange 256))) (nrange 256).

Lemma sbox_inverted x : x < 256 -> nth (N.to_nat (sbox x)) sbox_inv_tab 0 = x.
Proof.
  intros H. apply N.eqb_eq.
  refine (forall_byte (fun x => nth (N.to_nat (sbox x)) sbox_inv_tab 0 =? x) _ x H). vm_compute. reflexivity.
Qed.

Lemma sbox_inj a b : a < 256 -> b < 256 -> sbox a = sbox b -> a = b.
Proof.
  intros Ha Hb E. rewrite <- (sbox_inverted a Ha), <- (sbox_inverted b Hb), E. reflexivity.
Qed.

Lemma gf_mul2_lxor a b : a < 256 -> b < 256 -> gf_mul 2 (N.lxor a b) = N.lxor (gf_mul 2 a) (gf_mul 2 b).
Proof.
  intros Ha Hb. apply N.eqb_eq.
  refine (forall_byte2 (fun a b => gf_mul 2 (N.lxor a b) =? N.lxor (gf_mul 2 a) (gf_mul 2 b)) _ a b Ha Hb).
  vm_compute. reflexivity.
Qed.

Lemma gf_mul3 a : a < 256 -> gf_mul 3 a = N.lxor (gf_mul 2 a) a.
Proof.
  intros Ha. apply N.eqb_eq.
  refine (forall_byte (fun a => gf_mul 3 a =? N.lxor (gf_mul 2 a) a) _ a Ha). vm_compute. reflexivity.
Qed.

(** ** A column.  Any map additive on bytes with image in the bytes may stand
    for the doubling. *)
Ltac xor_bits :=
  apply N.bits_inj; let i := fresh "i" in intros i;
  repeat match goal with H : @eq N _ _ |- _ =>
    apply (f_equal (fun z => N.testbit z i)) in H; rewrite ?N.lxor_spec, ?N.bits_0 in H end;
  rewrite ?N.lxor_spec, ?N.bits_0;
  repeat match goal with |- context [N.testbit ?x i] => destruct (N.testbit x i) end;
  repeat match goal with H : context [N.testbit ?x i] |- _ => destruct (N.testbit x i) end;
  cbn [xorb negb] in *; congruence.

Lemma column_kernel (T : N -> N) a b c d :
  (forall x y, x < 256 -> y < 256 -> T (N.lxor x y) = N.lxor (T x) (T y)) -> T 0 = 0 ->
  a < 256 -> b < 256 -> c < 256 -> d < 256 ->
  N.lxor (T a) (N.lxor (N.lxor (T b) b) (N.lxor c d)) = 0 ->
  N.lxor (T b) (N.lxor (N.lxor (T c) c) (N.lxor d a)) = 0 ->
  N.lxor (T c) (N.lxor (N.lxor (T d) d) (N.lxor a b)) = 0 ->
  N.lxor (T d) (N.lxor (N.lxor (T a) a) (N.lxor b c)) = 0 ->
  a = 0 /\ b = 0 /\ c = 0 /\ d = 0.
Proof.
  intros L T0 Ha Hb Hc Hd E1 E2 E3 E4.
  assert (A1 : a = T (N.lxor a b)) by (rewrite L by assumption; clear - E1 E2 E3 E4; xor_bits).
  assert (A2 : b = T (N.lxor b c)) by (rewrite L by assumption; clear - E1 E2 E3 E4; xor_bits).
  assert (A3 : c = T (N.lxor c d)) by (rewrite L by assumption; clear - E1 E2 E3 E4; xor_bits).
  assert (A4 : d = T (N.lxor d a)) by (rewrite L by assumption; clear - E1 E2 E3 E4; xor_bits).
  assert (S0 : N.lxor (N.lxor a b) (N.lxor c d) = 0) by (clear - E1 E2 E3 E4; xor_bits).
  clear E1 E2 E3 E4.
  assert (B : forall x y, x < 256 -> y < 256 -> N.lxor x y < 256) by (intros; apply byte_lxor; assumption).
  (* first differences *)
  assert (P1 : N.lxor a b = T (N.lxor a c)).
  { transitivity (N.lxor (T (N.lxor a b)) (T (N.lxor b c))); [f_equal; assumption|]. rewrite <- L by auto. f_equal. clear. xor_bits. }
  assert (P2 : N.lxor b c = T (N.lxor b d)).
  { transitivity (N.lxor (T (N.lxor b c)) (T (N.lxor c d))); [f_equal; assumption|]. rewrite <- L by auto. f_equal. clear. xor_bits. }
  (* second differences *)
  assert (Q : N.lxor a c = 0).
  { transitivity (T (N.lxor (N.lxor a b) (N.lxor c d))); [|rewrite S0; exact T0].
    rewrite (L (N.lxor a b) (N.lxor c d)) by auto. f_equal; assumption. }
  assert (P1' : N.lxor a b = 0) by (rewrite P1, Q; exact T0).
  assert (R : a = 0) by (rewrite A1, P1'; exact T0).
  apply N.lxor_eq in Q, P1'. subst b c. subst a.
  rewrite !N.lxor_0_l in S0. auto.
Qed.

Lemma column_inj a b c d a' b' c' d' :
  a < 256 -> b < 256 -> c < 256 -> d < 256 -> a' < 256 -> b' < 256 -> c' < 256 -> d' < 256 ->
  N.lxor (gf_mul 2 a) (N.lxor (gf_mul 3 b) (N.lxor c d)) = N.lxor (gf_mul 2 a') (N.lxor (gf_mul 3 b') (N.lxor c' d')) ->
  N.lxor (gf_mul 2 b) (N.lxor (gf_mul 3 c) (N.lxor d a)) = N.lxor (gf_mul 2 b') (N.lxor (gf_mul 3 c') (N.lxor d' a')) ->
  N.lxor (gf_mul 2 c) (N.lxor (gf_mul 3 d) (N.lxor a b)) = N.lxor (gf_mul 2 c') (N.lxor (gf_mul 3 d') (N.lxor a' b')) ->
  N.lxor (gf_mul 2 d) (N.lxor (gf_mul 3 a) (N.lxor b c)) = N.lxor (gf_mul 2 d') (N.lxor (gf_mul 3 a') (N.lxor b' c')) ->
  a = a' /\ b = b' /\ c = c' /\ d = d'.
Proof.
  intros Ha Hb Hc Hd Ha' Hb' Hc' Hd' E1 E2 E3 E4. rewrite !gf_mul3 in * by assumption.
  pose proof (gf_mul2_lxor a a' Ha Ha') as La. pose proof (gf_mul2_lxor b b' Hb Hb') as Lb.
  pose proof (gf_mul2_lxor c c' Hc Hc') as Lc. pose proof (gf_mul2_lxor d d' Hd Hd') as Ld.
  destruct (column_kernel (gf_mul 2) (N.lxor a a') (N.lxor b b') (N.lxor c c') (N.lxor d d'))
    as (X1 & X2 & X3 & X4).
  - apply gf_mul2_lxor.
  - reflexivity.
  - apply byte_lxor; assumption.
  - apply byte_lxor; assumption.
  - apply byte_lxor; assumption.
  - apply byte_lxor; assumption.
  - rewrite La, Lb. clear - E1. generalize dependent (gf_mul 2). intros; xor_bits.
  - rewrite Lb, Lc. clear - E2. generalize dependent (gf_mul 2). intros; xor_bits.
  - rewrite Lc, Ld. clear - E3. generalize dependent (gf_mul 2). intros; xor_bits.
  - rewrite Ld, La. clear - E4. generalize dependent (gf_mul 2). intros; xor_bits.
  - apply N.lxor_eq in X1, X2, X3, X4. auto.
Qed.

(** ** The steps of a round *)
Lemma add_round_key_inj k s t : length s = length k -> length t = length k ->
  add_round_key s k = add_round_key t k -> s = t.
Proof.
  unfold add_round_key. revert s t. induction k as [|x k IH]; intros [|a s] [|b t] Ls Lt E; try discriminate; [reflexivity|].
  unfold xor_bytes in *. cbn [combine map fst snd] in E. injection E as E1 E2.
  cbn [length] in Ls, Lt. f_equal; [|apply IH; [lia|lia|exact E2]].
  rewrite <- (N.lxor_0_r a), <- (N.lxor_nilpotent x), <- N.lxor_assoc, E1, N.lxor_assoc, N.lxor_nilpotent.
  apply N.lxor_0_r.
Qed.

Lemma sub_bytes_inj s t : bytes_ok s -> bytes_ok t -> sub_bytes s = sub_bytes t -> s = t.
Proof.
  unfold sub_bytes. intros H. revert t. induction H as [|a s Ha H IH]; intros [|b t] B E; try discriminate; [reflexivity|].
  inversion_clear B. injection E as E1 E2. f_equal; [apply sbox_inj; assumption|apply IH; assumption].
Qed.

Lemma shift_rows_inj s t : length s = 16%nat -> length t = 16%nat -> shift_rows s = shift_rows t -> s = t.
Proof.
  intros Ls Lt. destruct (list16 s Ls) as (a0&a1&a2&a3&a4&a5&a6&a7&a8&a9&a10&a11&a12&a13&a14&a15&->).
  destruct (list16 t Lt) as (b0&b1&b2&b3&b4&b5&b6&b7&b8&b9&b10&b11&b12&b13&b14&b15&->).
  unfold shift_rows, positions, byte.
  cbn [map flat_map seq app fst snd Nat.add Nat.mul Nat.modulo Nat.divmod Nat.sub nth].
  intros E. inversion E. reflexivity.
Qed.

Lemma shift_rows_st16 s : st16 s -> st16 (shift_rows s).
Proof.
  intros [B L]. destruct (list16 s L) as (a0&a1&a2&a3&a4&a5&a6&a7&a8&a9&a10&a11&a12&a13&a14&a15&->).
  unfold bytes_ok in B. repeat rewrite Forall_cons_iff in B.
  destruct B as (?&?&?&?&?&?&?&?&?&?&?&?&?&?&?&?&_).
  split; [|reflexivity]. unfold shift_rows, positions, byte, bytes_ok.
  cbn [map flat_map seq app fst snd Nat.add Nat.mul Nat.modulo Nat.divmod Nat.sub nth].
  repeat (apply Forall_cons; [assumption|]). apply Forall_nil.
Qed.

Lemma sub_bytes_st16 s : st16 s -> st16 (sub_bytes s).
Proof.
  intros [B L]. split; [|unfold sub_bytes; rewrite map_length; exact L].
  unfold sub_bytes, bytes_ok. apply Forall_map. eapply Forall_impl; [|exact B]. intros a. apply sbox_lt.
Qed.

Lemma mix_columns_inj s t : st16 s -> st16 t -> mix_columns s = mix_columns t -> s = t.
Proof.
  intros [Bs Ls] [Bt Lt]. destruct (list16 s Ls) as (a0&a1&a2&a3&a4&a5&a6&a7&a8&a9&a10&a11&a12&a13&a14&a15&->).
  destruct (list16 t Lt) as (b0&b1&b2&b3&b4&b5&b6&b7&b8&b9&b10&b11&b12&b13&b14&b15&->).
  unfold bytes_ok in Bs, Bt. repeat rewrite Forall_cons_iff in Bs. repeat rewrite Forall_cons_iff in Bt.
  destruct Bs as (?&?&?&?&?&?&?&?&?&?&?&?&?&?&?&?&_). destruct Bt as (?&?&?&?&?&?&?&?&?&?&?&?&?&?&?&?&_).
  unfold mix_columns, positions, byte.
  cbn [map flat_map seq app fst snd Nat.add Nat.mul Nat.modulo Nat.divmod Nat.sub nth].
  intros E. injection E as E0 E1 E2 E3 E4 E5 E6 E7 E8 E9 E10 E11 E12 E13 E14 E15.
  edestruct (column_inj a0 a1 a2 a3 b0 b1 b2 b3) as (->&->&->&->); try assumption.
  edestruct (column_inj a4 a5 a6 a7 b4 b5 b6 b7) as (->&->&->&->); try assumption.
  edestruct (column_inj a8 a9 a10 a11 b8 b9 b10 b11) as (->&->&->&->); try assumption.
  edestruct (column_inj a12 a13 a14 a15 b12 b13 b14 b15) as (->&->&->&->); try assumption.
  reflexivity.
Qed.

(** ** The cipher *)
Lemma sub_shift_inj s t : st16 s -> st16 t -> shift_rows (sub_bytes s) = shift_rows (sub_bytes t) -> s = t.
Proof.
  intros Hs Ht E. apply shift_rows_inj in E; [|apply sub_bytes_st16; assumption|apply sub_bytes_st16; assumption].
  apply sub_bytes_inj in E; [exact E|apply Hs|apply Ht].
Qed.

Lemma aes_round_inj k s t : st16 k -> st16 s -> st16 t -> aes_round s k = aes_round t k -> s = t.
Proof.
  intros [_ Lk] Hs Ht E. unfold aes_round in E.
  apply add_round_key_inj in E;
    [|rewrite Lk; apply (mix_sub_shift_st16 s Hs)|rewrite Lk; apply (mix_sub_shift_st16 t Ht)].
  apply mix_columns_inj in E; [|apply sub_shift_st16; exact Hs|apply sub_shift_st16; exact Ht].
  apply sub_shift_inj; assumption.
Qed.

Lemma rounds_inj ks : Forall st16 ks -> forall s t, st16 s -> st16 t ->
  fold_left aes_round ks s = fold_left aes_round ks t -> s = t.
Proof.
  intros H. induction H as [|k ks Hk H IH]; intros s t Hs Ht E; [exact E|].
  cbn [fold_left] in E. apply IH in E; [|apply aes_round_st16; assumption|apply aes_round_st16; assumption].
  apply (aes_round_inj k); assumption.
Qed.

Lemma cipher_inj k0 ks kl s t : st16 k0 -> Forall st16 ks -> st16 kl -> st16 s -> st16 t ->
  cipher k0 ks kl s = cipher k0 ks kl t -> s = t.
Proof.
  intros H0 Hk Hl Hs Ht E. unfold cipher, aes_final_round in E.
  assert (As : st16 (fold_left aes_round ks (add_round_key s k0)))
    by (apply fold_round_st16; [assumption|apply add_st16; assumption]).
  assert (At : st16 (fold_left aes_round ks (add_round_key t k0)))
    by (apply fold_round_st16; [assumption|apply add_st16; assumption]).
  apply add_round_key_inj in E; [|rewrite (proj2 Hl); apply (sub_shift_st16 _ As)|rewrite (proj2 Hl); apply (sub_shift_st16 _ At)].
  apply sub_shift_inj in E; [|assumption|assumption].
  apply rounds_inj in E; [|assumption|apply add_st16; assumption|apply add_st16; assumption].
  apply add_round_key_inj in E; [exact E| |].
  - rewrite (proj2 H0). apply Hs.
  - rewrite (proj2 H0). apply Ht.
Qed.

Lemma cipher_of_inj b rk s t : rk_ok rk -> st16 s -> st16 t ->
  cipher_of b rk s = cipher_of b rk t -> s = t.
Proof.
  intros H Hs Ht. apply cipher_inj; try assumption; [apply rkey_st16; [exact H|lia]| |apply rkey_st16; [exact H|lia]].
  apply Forall_map. apply Forall_forall. intros i Hi. apply rkey_st16; [exact H|].
  destruct b as [[]| |]; simpl in Hi; lia.
Qed.
