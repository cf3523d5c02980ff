(** Lemmas for loops that XOR a key stream into a buffer, a word or a byte at a
    time, with output and input identical or disjoint. *)
From Coq Require Import NArith ZArith List Lia Arith Bool ZifyN ZifyNat.
From Verif Require Import Res Words Mem MemSpec ListLemmas MemLemmas SpecWords WordsLemmas.
Import ListNotations.
Local Open Scope nat_scope.

(** The memory after the first [k] bytes have been processed. *)
Definition xst (m : mem) (out : ptr) (data ks : list N) (k : nat) : mem :=
  write_at m out (xor_bytes (firstn k data) ks).

Lemma xst_0 m out data ks : xst m out data ks 0 = m.
Proof. unfold xst. cbn [firstn xor_bytes]. apply write_at_nil. Qed.

Lemma xst_all m out data ks k : length data <= k -> xst m out data ks k = write_at m out (xor_bytes data ks).
Proof. intros H. unfold xst. rewrite firstn_all2; auto. Qed.

Section Step.
Context (m : mem) (out inp : ptr) (data ks : list N).
Hypothesis Hin : has_bytes m inp data.
Hypothesis Hout : writable m out (length data).
Hypothesis Hov : same_or_disjoint out inp (length data).
Hypothesis Hks : length data <= length ks.

Lemma xst_read k : k <= length data ->
  has_bytes (xst m out data ks k) (padd inp k) (skipn k data).
Proof.
  intros Hk. unfold xst.
  assert (L : length (xor_bytes (firstn k data) ks) = k).
  { rewrite xor_bytes_length_min, firstn_length. lia. }
  apply has_bytes_write_other.
  - rewrite L. apply (writable_le _ _ _ _ Hout). lia.
  - rewrite L, skipn_length. destruct Hov as [->|D].
    + unfold disjoint. rewrite poff_padd. lia.
    + unfold disjoint in *. rewrite pblk_padd, poff_padd. lia.
  - apply has_bytes_skipn; auto.
Qed.

Lemma xst_writable k n : k + n <= length data -> writable (xst m out data ks k) (padd out k) n.
Proof.
  intros Hk. unfold xst. apply writable_write_at.
  - apply (writable_le _ _ _ _ Hout). rewrite xor_bytes_length_min, firstn_length. lia.
  - apply writable_padd. apply (writable_le _ _ _ _ Hout). lia.
Qed.

Lemma xst_write k n x :
  k + n <= length data -> length x = n ->
  x = xor_bytes (firstn n (skipn k data)) (firstn n (skipn k ks)) ->
  write_at (xst m out data ks k) (padd out k) x = xst m out data ks (k + n).
Proof.
  intros Hk Hx ->. unfold xst.
  assert (L : length (xor_bytes (firstn k data) ks) = k).
  { rewrite xor_bytes_length_min, firstn_length. lia. }
  rewrite write_at_app_n; [|lia|].
  2:{ rewrite Hx. apply (writable_le _ _ _ _ Hout). lia. }
  f_equal.
  assert (E : xor_bytes (firstn (k + n) data) ks = xor_bytes (firstn (k + n) data) (firstn (k + n) ks)).
  { rewrite <- (xor_bytes_trunc (firstn (k + n) data) ks). do 2 f_equal. rewrite firstn_length. lia. }
  rewrite E. rewrite <- (firstn_skipn k (firstn (k + n) data)), <- (firstn_skipn k (firstn (k + n) ks)).
  rewrite !firstn_firstn_le by lia.
  rewrite xor_bytes_app by (rewrite !firstn_length; lia).
  f_equal.
  - rewrite <- (xor_bytes_trunc (firstn k data) ks). do 2 f_equal. rewrite firstn_length. lia.
  - rewrite !firstn_skipn_swap. do 2 f_equal; lia.
Qed.

Lemma xor32_step k w : k + 4 <= length data ->
  firstn 4 (skipn k ks) = bytes_of_le32 w ->
  (let* x := ld32 (xst m out data ks k) (padd inp k) in
   st32 (xst m out data ks k) (padd out k) (N.lxor x w)) = Ret (xst m out data ks (k + 4)).
Proof.
  intros Hk Hw. pose proof (xst_read k ltac:(lia)) as R.
  assert (L4 : length (firstn 4 (skipn k data)) = 4) by (rewrite firstn_length, skipn_length; lia).
  destruct (skipn k data) as [|b0 [|b1 [|b2 [|b3 rest]]]] eqn:E; simpl in L4; try lia.
  rewrite (has_bytes_ld32 _ _ _ _ _ _ _ R). cbn [bind].
  pose proof (has_bytes_bytes _ _ _ R) as F.
  inversion F as [|? ? F0 F']; subst. inversion F' as [|? ? F1 F'']; subst.
  inversion F'' as [|? ? F2 F''']; subst. inversion F''' as [|? ? F3 _]; subst.
  rewrite st32_write by (apply xst_writable; lia).
  f_equal. apply xst_write; auto.
  rewrite E, Hw. cbn [firstn]. rewrite bytes_of_le32_lxor, bytes_of_le32_of by auto. reflexivity.
Qed.

Lemma xor8_step k b : k + 1 <= length data -> nth k ks 0%N = b ->
  (let* x := ld8 (xst m out data ks k) (padd inp k) in
   st8 (xst m out data ks k) (padd out k) (N.lxor x b)) = Ret (xst m out data ks (k + 1)).
Proof.
  intros Hk <-. pose proof (xst_read k ltac:(lia)) as R.
  rewrite (skipn_cons_nth data k 0%N) in R by lia.
  rewrite (has_bytes_ld8 _ _ _ _ R). cbn [bind].
  rewrite st8_write by (apply xst_writable; lia).
  f_equal. apply xst_write; auto.
  rewrite (skipn_cons_nth data k 0%N), (skipn_cons_nth ks k 0%N) by lia. reflexivity.
Qed.
End Step.

(** Little-endian bytes of a list of words. *)
Definition le_bytes (ws : list N) : list N := flat_map bytes_of_le32 ws.

Lemma le_bytes_length ws : length (le_bytes ws) = 4 * length ws.
Proof. unfold le_bytes. induction ws as [|w ws IH]; auto. cbn [flat_map]. rewrite app_length, IH, bytes_of_le32_length. simpl. lia. Qed.

Lemma le_bytes_app a b : le_bytes (a ++ b) = le_bytes a ++ le_bytes b.
Proof. apply flat_map_app. Qed.

Lemma le_bytes_spec ws : le_bytes ws = flat_map (le_str 4) ws.
Proof. unfold le_bytes. induction ws as [|w ws IH]; auto. cbn [flat_map]. rewrite IH, bytes_of_le32_str. reflexivity. Qed.

Lemma le_bytes_word ws i w : nth_error ws i = Some w ->
  firstn 4 (skipn (4 * i) (le_bytes ws)) = bytes_of_le32 w.
Proof.
  revert i. induction ws as [|x ws IH]; intros [|i] H; simpl in H; try discriminate.
  - injection H as ->. reflexivity.
  - replace (4 * S i) with (4 + 4 * i) by lia. rewrite <- (IH i H). reflexivity.
Qed.

Lemma le_bytes_nth ws i j : i < length ws -> j < 4 ->
  nth (4 * i + j) (le_bytes ws) 0%N = byte_of (nth i ws 0%N) (N.of_nat j).
Proof.
  intros Hi Hj.
  destruct (nth_error ws i) as [w|] eqn:E; [|apply nth_error_None in E; lia].
  pose proof (le_bytes_word ws i w E) as W.
  rewrite (nth_error_nth _ _ _ E).
  assert (X : nth (4 * i + j) (le_bytes ws) 0%N = nth j (firstn 4 (skipn (4 * i) (le_bytes ws))) 0%N).
  { rewrite <- (firstn_skipn (4 * i) (le_bytes ws)) at 1.
    assert (L : length (firstn (4 * i) (le_bytes ws)) = 4 * i) by (rewrite firstn_length, le_bytes_length; lia).
    rewrite app_nth2 by lia. rewrite L. replace (4 * i + j - 4 * i) with j by lia.
    rewrite <- (firstn_skipn 4 (skipn (4 * i) (le_bytes ws))) at 1.
    rewrite app_nth1; auto. rewrite W. exact Hj. }
  rewrite X, W. destruct j as [|[|[|[|j]]]]; try lia; reflexivity.
Qed.

(** *** Words read from memory *)

Lemma has_bytes_words m p l n : has_bytes m p l -> length l = 4 * n ->
  ld_words m p n = Ret (map le_num (chunks 4 l)).
Proof.
  intros H L. unfold ld_words.
  assert (X : forall n i l acc, has_bytes m (padd p (4 * i)) l -> length l = 4 * n ->
     for_n n i (fun i l => let* w := ld32 m (padd p (4 * i)) in Ret (l ++ [w])) acc =
     Ret (acc ++ map le_num (chunks 4 l))).
  { clear. induction n as [|n IH]; intros i l acc H L.
    - destruct l; [|simpl in L; lia]. cbn [for_n]. rewrite chunks_nil. cbn [map]. rewrite app_nil_r. reflexivity.
    - destruct l as [|b0 [|b1 [|b2 [|b3 l]]]]; simpl in L; try lia.
      cbn [for_n]. rewrite (has_bytes_ld32 _ _ _ _ _ _ _ H). cbn [bind].
      rewrite (IH (S i) l).
      + change (b0 :: b1 :: b2 :: b3 :: l) with ([b0; b1; b2; b3] ++ l).
        rewrite chunks_app by (simpl; lia). cbn [map]. rewrite <- app_assoc, le32_of_bytes_num. reflexivity.
      + change (b0 :: b1 :: b2 :: b3 :: l) with ([b0; b1; b2; b3] ++ l) in H.
        apply has_bytes_app in H. destruct H as [_ H]. rewrite padd_padd in H.
        replace (4 * S i) with (4 * i + length [b0; b1; b2; b3]) by (simpl; lia). auto.
      + lia. }
  rewrite (X n 0 l []); auto. rewrite Nat.mul_0_r, padd_0. auto.
Qed.

Lemma words_le_ok l n : bytes_ok l -> length l = 4 * n ->
  words_ok (map le_num (chunks 4 l)) /\ length (map le_num (chunks 4 l)) = n.
Proof.
  revert l. induction n as [|n IH]; intros l H L.
  - destruct l; [|simpl in L; lia]. split; [constructor|reflexivity].
  - destruct l as [|b0 [|b1 [|b2 [|b3 l]]]]; simpl in L; try lia.
    change (b0 :: b1 :: b2 :: b3 :: l) with ([b0; b1; b2; b3] ++ l) in *.
    apply Forall_app in H. destruct H as [H1 H2].
    rewrite chunks_app by (simpl; lia). destruct (IH l H2 ltac:(lia)) as [A B]. cbn [map length]. split.
    + constructor; auto. exact (le_num_lt _ H1).
    + rewrite B. reflexivity.
Qed.

(** *** Digits of little-endian numbers *)

Lemma le_num_digits l k n : bytes_ok l -> 
  ((le_num l / 256 ^ N.of_nat k) mod 256 ^ N.of_nat n)%N = le_num (firstn n (skipn k l)).
Proof.
  intros H.
  assert (P : forall a, (256 ^ a <> 0)%N) by (intros a; apply N.pow_nonzero; discriminate).
  assert (D : (le_num l / 256 ^ N.of_nat k)%N = le_num (skipn k l)).
  { destruct (Nat.le_gt_cases (length l) k) as [Hk|Hk].
    - rewrite (skipn_all2 l Hk). apply N.div_small. eapply N.lt_le_trans; [apply le_num_lt; exact H|].
      apply N.pow_le_mono_r; [discriminate|lia].
    - rewrite <- (firstn_skipn k l) at 1. rewrite le_num_app.
      rewrite firstn_length_le by lia.
      rewrite N.mul_comm, N.div_add by apply P. rewrite N.div_small; [apply N.add_0_l|].
      rewrite <- (firstn_length_le l (n := k)) at 2 by lia. apply le_num_lt.
      rewrite <- (firstn_skipn k l) in H. apply Forall_app in H. apply H. }
  rewrite D. set (r := skipn k l).
  assert (Hr : bytes_ok r).
  { rewrite <- (firstn_skipn k l) in H. apply Forall_app in H. apply H. }
  clearbody r. clear D H.
  destruct (Nat.le_gt_cases (length r) n) as [Hn|Hn].
  - rewrite firstn_all2 by auto. apply N.mod_small. eapply N.lt_le_trans; [apply le_num_lt; exact Hr|].
    apply N.pow_le_mono_r; [discriminate|lia].
  - rewrite <- (firstn_skipn n r) at 1. rewrite le_num_app, firstn_length_le by lia.
    rewrite N.mul_comm, N.mod_add by apply P. apply N.mod_small.
    rewrite <- (firstn_length_le r (n := n)) at 2 by lia. apply le_num_lt.
    rewrite <- (firstn_skipn n r) in Hr. apply Forall_app in Hr. apply Hr.
Qed.

Lemma le_str_app a b x y : (x < 256 ^ N.of_nat a)%N ->
  le_str (a + b) (x + 256 ^ N.of_nat a * y) = le_str a x ++ le_str b y.
Proof.
  revert x. induction a as [|a IH]; intros x Hx.
  - change (256 ^ N.of_nat 0)%N with 1%N in *. replace x with 0%N by lia.
    rewrite N.add_0_l, N.mul_1_l. reflexivity.
  - replace (256 ^ N.of_nat (S a))%N with (256 * 256 ^ N.of_nat a)%N in *.
    2:{ rewrite Nat2N.inj_succ, N.pow_succ_r'. reflexivity. }
    cbn [Nat.add le_str app]. f_equal.
    + rewrite <- N.mul_assoc, (N.mul_comm 256), N.mod_add by discriminate. reflexivity.
    + rewrite <- N.mul_assoc, (N.mul_comm 256), N.div_add by discriminate.
      apply IH. apply N.div_lt_upper_bound; [discriminate|exact Hx].
Qed.
