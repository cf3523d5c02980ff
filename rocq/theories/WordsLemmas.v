(** Facts connecting the C operators of [Words] with the arithmetic of
    [SpecWords]. *)
From Coq Require Import NArith List Lia Arith Bool.
From Verif Require Import Words SpecWords ListLemmas.
Import ListNotations.
Local Open Scope N_scope.
Local Arguments N.add : simpl never.
Local Arguments N.sub : simpl never.
Local Arguments N.mul : simpl never.
Local Arguments N.pow : simpl never.

(** ** Reductions *)

Lemma u8_mod x : u8 x = x mod 2^8.
Proof. unfold u8. change 0xff with (N.ones 8). apply N.land_ones. Qed.
Lemma u32_mod x : u32 x = x mod 2^32.
Proof. unfold u32. change 0xffffffff with (N.ones 32). apply N.land_ones. Qed.
Lemma u64_mod x : u64 x = x mod 2^64.
Proof. unfold u64. change 0xffffffffffffffff with (N.ones 64). apply N.land_ones. Qed.

Lemma u8_lt x : u8 x < 256.
Proof. rewrite u8_mod. apply N.mod_lt. discriminate. Qed.
Lemma u32_lt x : u32 x < 2^32.
Proof. rewrite u32_mod. apply N.mod_lt. discriminate. Qed.
Lemma u64_lt x : u64 x < 2^64.
Proof. rewrite u64_mod. apply N.mod_lt. discriminate. Qed.

Lemma u8_id x : x < 256 -> u8 x = x.
Proof. intros H. rewrite u8_mod. apply N.mod_small. exact H. Qed.
Lemma u32_id x : x < 2^32 -> u32 x = x.
Proof. intros H. rewrite u32_mod. apply N.mod_small. exact H. Qed.
Lemma u64_id x : x < 2^64 -> u64 x = x.
Proof. intros H. rewrite u64_mod. apply N.mod_small. exact H. Qed.

Lemma add32_spec x y : add32 x y = add_w32 x y.
Proof. apply u32_mod. Qed.

Lemma add_w32_lt x y : add_w32 x y < 2^32.
Proof. apply N.mod_lt. discriminate. Qed.

Lemma add_w32_assoc x y z : add_w32 (add_w32 x y) z = add_w32 x (add_w32 y z).
Proof.
  unfold add_w32. rewrite N.add_mod_idemp_l, N.add_mod_idemp_r by discriminate.
  f_equal. lia.
Qed.

Lemma add_w32_comm x y : add_w32 x y = add_w32 y x.
Proof. unfold add_w32. f_equal. lia. Qed.

(** ** Bounds from bits *)

Lemma lt_pow2_testbit x n : x < 2^n <-> (forall i, n <= i -> N.testbit x i = false).
Proof.
  split.
  - intros H i Hi. destruct (N.eq_dec x 0) as [->|Hx]; [apply N.bits_0|].
    apply N.bits_above_log2. apply N.log2_lt_pow2; [lia|].
    eapply N.lt_le_trans; [exact H|]. apply N.pow_le_mono_r; lia.
  - intros H. destruct (N.eq_dec x 0) as [->|Hx].
    + apply N.neq_0_lt_0. apply N.pow_nonzero. discriminate.
    + apply N.log2_lt_pow2; [lia|]. destruct (N.lt_ge_cases (N.log2 x) n) as [|G]; auto.
      exfalso. specialize (H _ G). rewrite N.bit_log2 in H by auto. discriminate.
Qed.

Lemma lxor_lt x y n : x < 2^n -> y < 2^n -> N.lxor x y < 2^n.
Proof.
  rewrite !lt_pow2_testbit. intros H1 H2 i Hi. rewrite N.lxor_spec, H1, H2 by auto. reflexivity.
Qed.
Lemma lor_lt x y n : x < 2^n -> y < 2^n -> N.lor x y < 2^n.
Proof.
  rewrite !lt_pow2_testbit. intros H1 H2 i Hi. rewrite N.lor_spec, H1, H2 by auto. reflexivity.
Qed.
Lemma land_lt_l x y n : x < 2^n -> N.land x y < 2^n.
Proof.
  rewrite !lt_pow2_testbit. intros H1 i Hi. rewrite N.land_spec, H1 by auto. reflexivity.
Qed.
Lemma land_lt_r x y n : y < 2^n -> N.land x y < 2^n.
Proof.
  rewrite !lt_pow2_testbit. intros H1 i Hi. rewrite N.land_spec, (H1 i), andb_false_r by auto. reflexivity.
Qed.
Lemma shiftr_lt x k n : x < 2^n -> N.shiftr x k < 2^n.
Proof.
  rewrite !lt_pow2_testbit. intros H1 i Hi. rewrite N.shiftr_spec'. apply H1. lia.
Qed.
Lemma shiftr_lt' x k n : x < 2^(n + k) -> N.shiftr x k < 2^n.
Proof.
  rewrite !lt_pow2_testbit. intros H1 i Hi. rewrite N.shiftr_spec'. apply H1. lia.
Qed.

Lemma shl32_lt x n : shl32 x n < 2^32.
Proof. apply u32_lt. Qed.
Lemma add32_lt x y : add32 x y < 2^32.
Proof. apply u32_lt. Qed.
Lemma mul32_lt x y : mul32 x y < 2^32.
Proof. apply u32_lt. Qed.
Lemma sub32_lt x y : sub32 x y < 2^32.
Proof. apply u32_lt. Qed.
Lemma shr32_lt x n : x < 2^32 -> shr32 x n < 2^32.
Proof. apply shiftr_lt. Qed.
Lemma not32_lt x : x < 2^32 -> not32 x < 2^32.
Proof. intros H. apply lxor_lt; [exact H|reflexivity]. Qed.
Lemma rotl32_lt x n : x < 2^32 -> rotl32 x n < 2^32.
Proof. intros H. apply lor_lt; [apply u32_lt|apply shiftr_lt; exact H]. Qed.
Lemma rotr32_lt x n : x < 2^32 -> rotr32 x n < 2^32.
Proof. intros H. apply lor_lt; [apply shiftr_lt; exact H|apply u32_lt]. Qed.

(** ** Bits of words *)

Lemma u32_testbit x i : N.testbit (u32 x) i = N.testbit x i && (i <? 32).
Proof.
  unfold u32. change 0xffffffff with (N.ones 32). rewrite N.land_spec.
  destruct (N.ltb_spec i 32).
  - rewrite N.ones_spec_low by auto. reflexivity.
  - rewrite N.ones_spec_high by auto. reflexivity.
Qed.
Lemma u8_testbit x i : N.testbit (u8 x) i = N.testbit x i && (i <? 8).
Proof.
  unfold u8. change 0xff with (N.ones 8). rewrite N.land_spec.
  destruct (N.ltb_spec i 8).
  - rewrite N.ones_spec_low by auto. reflexivity.
  - rewrite N.ones_spec_high by auto. reflexivity.
Qed.
Lemma u64_testbit x i : N.testbit (u64 x) i = N.testbit x i && (i <? 64).
Proof.
  unfold u64. change 0xffffffffffffffff with (N.ones 64). rewrite N.land_spec.
  destruct (N.ltb_spec i 64).
  - rewrite N.ones_spec_low by auto. reflexivity.
  - rewrite N.ones_spec_high by auto. reflexivity.
Qed.

Lemma shiftl_testbit x n i :
  N.testbit (N.shiftl x n) i = (n <=? i) && N.testbit x (i - n).
Proof.
  destruct (N.leb_spec n i).
  - rewrite N.shiftl_spec_high' by auto. reflexivity.
  - rewrite N.shiftl_spec_low by auto. reflexivity.
Qed.

Lemma shl32_testbit x n i :
  N.testbit (shl32 x n) i = (n <=? i) && N.testbit x (i - n) && (i <? 32).
Proof. unfold shl32. rewrite u32_testbit, shiftl_testbit. reflexivity. Qed.

Lemma shr32_testbit x n i : N.testbit (shr32 x n) i = N.testbit x (i + n).
Proof. apply N.shiftr_spec'. Qed.

Lemma not32_testbit x i : N.testbit (not32 x) i = xorb (N.testbit x i) (i <? 32).
Proof.
  unfold not32. change 0xffffffff with (N.ones 32). rewrite N.lxor_spec.
  destruct (N.ltb_spec i 32).
  - rewrite N.ones_spec_low by auto. reflexivity.
  - rewrite N.ones_spec_high by auto. reflexivity.
Qed.

Lemma rotl32_testbit x n i :
  x < 2^32 -> n < 32 ->
  N.testbit (rotl32 x n) i = (i <? 32) && N.testbit x ((i + (32 - n)) mod 32).
Proof.
  intros Hx Hn. unfold rotl32. rewrite N.lor_spec, shl32_testbit, shr32_testbit.
  pose proof (proj1 (lt_pow2_testbit x 32) Hx) as Hb.
  destruct (N.ltb_spec i 32); rewrite ?andb_false_r, ?andb_true_r; cbn [andb orb].
  - destruct (N.leb_spec n i); cbn [andb orb].
    + rewrite (Hb (i + (32 - n))) by lia. rewrite orb_false_r. f_equal.
      replace (i + (32 - n)) with ((i - n) + 1 * 32) by lia.
      rewrite N.mod_add by discriminate. symmetry. apply N.mod_small. lia.
    + f_equal. symmetry. apply N.mod_small. lia.
  - rewrite (Hb (i + (32 - n))) by lia. reflexivity.
Qed.

Lemma rotr_rotl x n : n <= 32 -> rotr32 x n = rotl32 x (32 - n).
Proof.
  intros H. unfold rotr32, rotl32. rewrite N.lor_comm. f_equal. f_equal. lia.
Qed.

(** A disjunction of disjoint bit sets is a sum. *)
Lemma lor_add x y : N.land x y = 0 -> N.lor x y = x + y.
Proof.
  intros H. rewrite N.add_nocarry_lxor by auto. apply N.bits_inj. intros i.
  assert (E : N.testbit (N.land x y) i = false) by (rewrite H; apply N.bits_0).
  rewrite N.land_spec in E. rewrite N.lor_spec, N.lxor_spec.
  destruct (N.testbit x i), (N.testbit y i); simpl in *; congruence.
Qed.

Lemma rotl32_spec x n : x < 2^32 -> n < 32 -> rotl32 x n = rol_w32 n x.
Proof.
  intros Hx Hn. unfold rotl32, rol_w32.
  assert (E : N.land (shl32 x n) (shr32 x (32 - n)) = 0).
  { apply N.bits_inj. intros i. rewrite N.bits_0, N.land_spec, shl32_testbit, shr32_testbit.
    pose proof (proj1 (lt_pow2_testbit x 32) Hx) as Hb.
    destruct (N.leb_spec n i); auto. rewrite (Hb (i + (32 - n))) by lia.
    apply andb_false_r. }
  rewrite lor_add by auto. unfold shl32, shr32.
  rewrite u32_mod, N.shiftl_mul_pow2, N.shiftr_div_pow2. reflexivity.
Qed.

Lemma rotr32_spec x n : x < 2^32 -> 0 < n <= 32 -> rotr32 x n = ror_w32 n x.
Proof.
  intros Hx Hn. rewrite rotr_rotl by lia. unfold ror_w32. apply rotl32_spec; auto. lia.
Qed.

Lemma rol_w32_lt x n : x < 2^32 -> n < 32 -> rol_w32 n x < 2^32.
Proof. intros Hx Hn. rewrite <- rotl32_spec by auto. apply rotl32_lt; auto. Qed.

Lemma ror_w32_lt x n : x < 2^32 -> 0 < n <= 32 -> ror_w32 n x < 2^32.
Proof. intros Hx Hn. rewrite <- rotr32_spec by auto. apply rotr32_lt; auto. Qed.

Lemma not32_spec x : x < 2^32 -> not32 x = compl_w32 x.
Proof.
  intros H. unfold compl_w32. change (2^32 - 1) with (N.ones 32).
  destruct (N.eq_dec x 0) as [->|Hx]; [reflexivity|].
  unfold not32. change 0xffffffff with (N.ones 32).
  fold (N.lnot x 32). apply N.lnot_sub_low. apply N.log2_lt_pow2; [lia|exact H].
Qed.

Lemma shr32_spec x n : shr32 x n = x / 2^n.
Proof. apply N.shiftr_div_pow2. Qed.

(** ** Bytes and little-endian words *)

Lemma byte_of_lt w i : byte_of w i < 256.
Proof. apply u8_lt. Qed.

Lemma byte_of_spec w i : byte_of w i = (w / 2^(8 * i)) mod 256.
Proof. unfold byte_of. rewrite u8_mod, N.shiftr_div_pow2. reflexivity. Qed.

Lemma bytes_of_le32_length w : length (bytes_of_le32 w) = 4%nat.
Proof. reflexivity. Qed.

Lemma bytes_of_le32_ok w : bytes_ok (bytes_of_le32 w).
Proof. repeat constructor; apply byte_of_lt. Qed.

Lemma le32_of_bytes_lt b0 b1 b2 b3 :
  b0 < 256 -> b1 < 256 -> b2 < 256 -> b3 < 256 -> le32_of_bytes b0 b1 b2 b3 < 2^32.
Proof. intros. unfold le32_of_bytes. change (2^32) with 4294967296. lia. Qed.

Lemma le32_of_bytes_num b0 b1 b2 b3 : le32_of_bytes b0 b1 b2 b3 = le_num [b0; b1; b2; b3].
Proof. unfold le32_of_bytes. simpl. lia. Qed.

Lemma bytes_of_le32_str w : bytes_of_le32 w = le_str 4 w.
Proof.
  unfold bytes_of_le32. rewrite !byte_of_spec. cbn [le_str].
  change (2^(8*0)) with 1. rewrite N.div_1_r.
  rewrite !N.div_div by discriminate. reflexivity.
Qed.

Lemma le_num_app a b : le_num (a ++ b) = le_num a + 256 ^ (N.of_nat (length a)) * le_num b.
Proof.
  induction a as [|x a IH].
  - simpl length. cbn [app le_num]. rewrite N.pow_0_r. lia.
  - cbn [app le_num length]. rewrite IH, Nat2N.inj_succ, N.pow_succ_r'. lia.
Qed.

Lemma le_num_lt l : bytes_ok l -> le_num l < 256 ^ N.of_nat (length l).
Proof.
  induction 1 as [|x l Hx H IH].
  - reflexivity.
  - cbn [le_num length]. rewrite Nat2N.inj_succ, N.pow_succ_r'.
    set (P := 256 ^ N.of_nat (length l)) in *. clearbody P. lia.
Qed.

Lemma le_str_num l : bytes_ok l -> le_str (length l) (le_num l) = l.
Proof.
  induction 1 as [|x l Hx H IH]; auto.
  cbn [le_str le_num length].
  replace (x + 256 * le_num l) with (x + le_num l * 256) by lia.
  rewrite N.mod_add, N.div_add, N.mod_small, N.div_small by (auto; discriminate).
  rewrite N.add_0_l, IH. reflexivity.
Qed.

Lemma le_num_str n w : le_num (le_str n w) = w mod 256 ^ N.of_nat n.
Proof.
  revert w. induction n as [|n IH]; intros w.
  - simpl. rewrite N.mod_1_r. reflexivity.
  - cbn [le_str le_num]. rewrite IH, Nat2N.inj_succ, N.pow_succ_r'.
    rewrite N.mod_mul_r; [reflexivity|discriminate|].
    apply N.pow_nonzero. discriminate.
Qed.

Lemma le_str_length n w : length (le_str n w) = n.
Proof. revert w; induction n; intros; simpl; auto. Qed.

Lemma le_str_ok n w : bytes_ok (le_str n w).
Proof.
  revert w; induction n; intros; constructor.
  - apply N.mod_lt. discriminate.
  - apply IHn.
Qed.

Lemma be_str_length n w : length (be_str n w) = n.
Proof. unfold be_str. rewrite rev_length. apply le_str_length. Qed.

Lemma be_str_ok n w : bytes_ok (be_str n w).
Proof. unfold be_str. apply Forall_rev. apply le_str_ok. Qed.

Lemma le32_bytes_of w : w < 2^32 ->
  le32_of_bytes (byte_of w 0) (byte_of w 1) (byte_of w 2) (byte_of w 3) = w.
Proof.
  intros H. rewrite le32_of_bytes_num.
  change [byte_of w 0; byte_of w 1; byte_of w 2; byte_of w 3] with (bytes_of_le32 w).
  rewrite bytes_of_le32_str, le_num_str. apply N.mod_small. exact H.
Qed.

Lemma bytes_of_le32_of b0 b1 b2 b3 :
  b0 < 256 -> b1 < 256 -> b2 < 256 -> b3 < 256 ->
  bytes_of_le32 (le32_of_bytes b0 b1 b2 b3) = [b0; b1; b2; b3].
Proof.
  intros. rewrite bytes_of_le32_str, le32_of_bytes_num.
  apply (le_str_num [b0; b1; b2; b3]). repeat constructor; auto.
Qed.

Lemma byte_of_lxor a b i : byte_of (N.lxor a b) i = N.lxor (byte_of a i) (byte_of b i).
Proof.
  unfold byte_of. apply N.bits_inj. intros k.
  rewrite N.lxor_spec, !u8_testbit, !N.shiftr_spec', N.lxor_spec.
  destruct (k <? 8); rewrite ?andb_true_r, ?andb_false_r; reflexivity.
Qed.

Lemma byte_of_u32 w i : i < 4 -> byte_of (u32 w) i = byte_of w i.
Proof.
  intros Hi. unfold byte_of. apply N.bits_inj. intros k.
  rewrite !u8_testbit, !N.shiftr_spec', u32_testbit.
  destruct (N.ltb_spec k 8); rewrite ?andb_true_r, ?andb_false_r; auto.
  replace (k + 8 * i <? 32) with true by (symmetry; apply N.ltb_lt; lia).
  apply andb_true_r.
Qed.

Lemma bytes_of_le32_lxor a b :
  bytes_of_le32 (N.lxor a b) = xor_bytes (bytes_of_le32 a) (bytes_of_le32 b).
Proof.
  unfold bytes_of_le32, xor_bytes. cbn [map combine fst snd]. rewrite !byte_of_lxor. reflexivity.
Qed.

Lemma le32_lxor_bytes b0 b1 b2 b3 k :
  b0 < 256 -> b1 < 256 -> b2 < 256 -> b3 < 256 ->
  bytes_of_le32 (N.lxor (le32_of_bytes b0 b1 b2 b3) k) =
  xor_bytes [b0; b1; b2; b3] (bytes_of_le32 k).
Proof. intros. rewrite bytes_of_le32_lxor, bytes_of_le32_of; auto. Qed.

(** ** xor_bytes *)

Lemma xor_bytes_length a b : length a = length b -> length (xor_bytes a b) = length a.
Proof. intros H. unfold xor_bytes. rewrite map_length, combine_length. lia. Qed.

Lemma xor_bytes_length_min a b : length (xor_bytes a b) = Nat.min (length a) (length b).
Proof. unfold xor_bytes. rewrite map_length, combine_length. reflexivity. Qed.

Lemma xor_bytes_app a1 a2 b1 b2 :
  length a1 = length b1 -> xor_bytes (a1 ++ a2) (b1 ++ b2) = xor_bytes a1 b1 ++ xor_bytes a2 b2.
Proof.
  revert b1. induction a1 as [|x a1 IH]; intros [|y b1] H; simpl in H; try discriminate; auto.
  unfold xor_bytes in *. simpl. f_equal. apply IH. congruence.
Qed.

Lemma xor_bytes_ok a b : bytes_ok a -> bytes_ok b -> bytes_ok (xor_bytes a b).
Proof.
  intros Ha. revert b. induction Ha as [|x a Hx Ha IH]; intros b Hb; [constructor|].
  destruct Hb as [|y b Hy Hb]; [constructor|].
  unfold xor_bytes in *. simpl. constructor; [|apply IH; auto].
  apply (lxor_lt x y 8); auto.
Qed.

Lemma xor_bytes_invol a k : (length a <= length k)%nat -> xor_bytes (xor_bytes a k) k = a.
Proof.
  revert k. induction a as [|x a IH]; intros [|y k] H; simpl in H; try lia; auto.
  unfold xor_bytes in *. simpl. f_equal.
  - rewrite N.lxor_assoc, N.lxor_nilpotent, N.lxor_0_r. reflexivity.
  - apply IH. lia.
Qed.

Lemma xor_bytes_firstn n a b : firstn n (xor_bytes a b) = xor_bytes (firstn n a) (firstn n b).
Proof.
  revert a b. induction n as [|n IH]; intros [|x a] [|y b]; auto.
  unfold xor_bytes in *. simpl. f_equal. apply IH.
Qed.

Lemma xor_bytes_skipn n a b : skipn n (xor_bytes a b) = xor_bytes (skipn n a) (skipn n b).
Proof.
  revert a b. induction n as [|n IH]; intros [|x a] [|y b]; auto.
  - simpl. unfold xor_bytes. destruct (skipn n a); reflexivity.
  - unfold xor_bytes in *. simpl. apply IH.
Qed.

Lemma nth_xor_bytes a b i :
  (i < length a)%nat -> (i < length b)%nat ->
  nth i (xor_bytes a b) 0 = N.lxor (nth i a 0) (nth i b 0).
Proof.
  revert b i. induction a as [|x a IH]; intros [|y b] [|i] H1 H2; simpl in *; try lia.
  change (nth i (xor_bytes a b) 0 = N.lxor (nth i a 0) (nth i b 0)). apply IH; lia.
Qed.

Lemma xor_bytes_trunc a k : xor_bytes a (firstn (length a) k) = xor_bytes a k.
Proof.
  revert k. induction a as [|x a IH]; intros [|y k]; auto.
  unfold xor_bytes in *. simpl. f_equal. apply IH.
Qed.

(** ** chunks *)

Lemma chunks_fuel_enough {A} n (l : list A) f :
  (0 < n)%nat -> (length l <= f)%nat -> chunks_fuel f n l = chunks n l.
Proof.
  intros Hn. unfold chunks.
  assert (H : forall k f1 f2 (l : list A), (length l <= k)%nat -> (length l <= f1)%nat -> (length l <= f2)%nat ->
            chunks_fuel f1 n l = chunks_fuel f2 n l).
  { clear l f. induction k as [|k IH]; intros f1 f2 l H0 H1 H2.
    - destruct l; simpl in *; [|lia]. destruct f1, f2; reflexivity.
    - destruct l as [|a l]; [destruct f1, f2; reflexivity|].
      destruct f1 as [|f1]; [simpl in *; lia|]. destruct f2 as [|f2]; [simpl in *; lia|].
      cbn [chunks_fuel]. f_equal. apply IH; rewrite skipn_length; cbn [length] in *; lia. }
  intros Hf. eapply H; eauto.
Qed.

Lemma chunks_nil {A} n : chunks n (@nil A) = [].
Proof. reflexivity. Qed.

Lemma chunks_cons {A} n (l : list A) :
  (0 < n)%nat -> l <> [] -> chunks n l = firstn n l :: chunks n (skipn n l).
Proof.
  intros Hn Hl. destruct l as [|a l]; [congruence|].
  unfold chunks at 1. cbn [length chunks_fuel]. f_equal.
  apply chunks_fuel_enough; auto. rewrite skipn_length. cbn [length]. lia.
Qed.

Lemma chunks_app {A} n (a l : list A) :
  (0 < n)%nat -> length a = n -> chunks n (a ++ l) = a :: chunks n l.
Proof.
  intros Hn Ha. rewrite chunks_cons; auto.
  - subst n. rewrite firstn_app, Nat.sub_diag, firstn_all, app_nil_r.
    rewrite skipn_app, Nat.sub_diag, skipn_all. reflexivity.
  - destruct a; simpl in *; [lia|discriminate].
Qed.

(** ** Inverses *)

Lemma rol_w32_inv n x : 0 < n < 32 -> x < 2^32 -> rol_w32 (32 - n) (rol_w32 n x) = x.
Proof.
  intros Hn Hx. unfold rol_w32. replace (32 - (32 - n)) with n by lia.
  assert (P : 2^32 = 2^n * 2^(32 - n)) by (rewrite <- N.pow_add_r; f_equal; lia).
  assert (Pn : 2^n <> 0) by (apply N.pow_nonzero; discriminate).
  assert (Pm : 2^(32 - n) <> 0) by (apply N.pow_nonzero; discriminate).
  set (A := 2^n) in *. set (B := 2^(32 - n)) in *.
  pose proof (N.div_mod x B Pm) as Dx. pose proof (N.mod_lt x B Pm) as Lx.
  set (h := x / B) in *. set (l := x mod B) in *.
  assert (Hh : h < A). { unfold h. apply N.div_lt_upper_bound; auto. rewrite N.mul_comm, <- P. auto. }
  assert (E1 : (A * x) mod 2^32 = A * l).
  { rewrite P, N.mul_mod_distr_l by auto. reflexivity. }
  assert (E1' : (x * A) mod 2^32 = A * l) by (rewrite N.mul_comm; auto).
  rewrite ?E1, ?E1'.
  assert (E2 : (A * l + h) / A = l).
  { rewrite N.mul_comm, N.div_add_l, N.div_small by auto. lia. }
  rewrite ?E2.
  assert (E3 : ((A * l + h) * B) mod 2^32 = B * h).
  { replace ((A * l + h) * B) with (B * h + l * (2^32)) by (rewrite P; ring).
    rewrite N.mod_add by (rewrite P; apply N.neq_mul_0; auto).
    apply N.mod_small. rewrite P, (N.mul_comm A). apply N.mul_lt_mono_pos_l; lia. }
  assert (E3' : (B * (A * l + h)) mod 2^32 = B * h) by (rewrite N.mul_comm; auto).
  rewrite ?E3, ?E3'. lia.
Qed.

Lemma add_w32_sub x y : x < 2^32 -> y < 2^32 -> add_w32 (add_w32 x y) (2^32 - y) = x.
Proof.
  intros Hx Hy. unfold add_w32. rewrite N.add_mod_idemp_l by discriminate.
  replace (x + y + (2^32 - y)) with (x + 1 * 2^32) by lia.
  rewrite N.mod_add by discriminate. apply N.mod_small. auto.
Qed.

Lemma add_w32_sub' x y : x < 2^32 -> y < 2^32 -> add_w32 (add_w32 x (2^32 - y)) y = x.
Proof.
  intros Hx Hy. unfold add_w32. rewrite N.add_mod_idemp_l by discriminate.
  replace (x + (2^32 - y) + y) with (x + 1 * 2^32) by lia.
  rewrite N.mod_add by discriminate. apply N.mod_small. auto.
Qed.
