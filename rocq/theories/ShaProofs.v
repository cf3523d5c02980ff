From Coq Require Import NArith ZArith List Lia Arith Bool ZifyN ZifyNat.
From Verif Require Import Res Words Mem Ints MemSpec ListLemmas MemLemmas SpecWords WordsLemmas Finite
  ShaSpec ShaModel.
Import ListNotations.
Local Arguments N.add : simpl never.
Local Arguments N.mul : simpl never.
Local Arguments N.sub : simpl never.
Local Arguments N.pow : simpl never.
Local Arguments N.modulo : simpl never.
Local Arguments N.div : simpl never.
Local Open Scope nat_scope.

Lemma K_tab_spec : K_tab = sha_K.
Proof. vm_compute. reflexivity. Qed.
Lemma H0_tab_spec : H0_tab = sha_H0.
Proof. vm_compute. reflexivity. Qed.

(** *** Word functions *)

Lemma ch_spec x y z : (x < 2^32)%N -> ch x y z = Ch x y z.
Proof. intros H. unfold ch, Ch. rewrite not32_spec; auto. Qed.
Lemma maj_spec x y z : maj x y z = Maj x y z.
Proof. reflexivity. Qed.

Ltac rot_spec := rewrite ?rotr32_spec, ?shr32_spec by (auto; lia).
Lemma SIGMA_0_spec x : (x < 2^32)%N -> SIGMA_0 x = bigS0 x.
Proof. intros H. unfold SIGMA_0, bigS0. rot_spec. reflexivity. Qed.
Lemma SIGMA_1_spec x : (x < 2^32)%N -> SIGMA_1 x = bigS1 x.
Proof. intros H. unfold SIGMA_1, bigS1. rot_spec. reflexivity. Qed.
Lemma sigma_0_spec x : (x < 2^32)%N -> sigma_0 x = smallS0 x.
Proof. intros H. unfold sigma_0, smallS0. rot_spec. reflexivity. Qed.
Lemma sigma_1_spec x : (x < 2^32)%N -> sigma_1 x = smallS1 x.
Proof. intros H. unfold sigma_1, smallS1. rot_spec. reflexivity. Qed.

Lemma add32_chain4 a b c d : add32 (add32 (add32 a b) c) d = ((a + b + c + d) mod 2^32)%N.
Proof.
  rewrite !add32_spec. unfold add_w32.
  repeat (rewrite N.add_mod_idemp_l by discriminate; rewrite <- ?N.add_assoc).
  reflexivity.
Qed.
Lemma add32_chain5 a b c d e :
  add32 (add32 (add32 (add32 a b) c) d) e = ((a + b + c + d + e) mod 2^32)%N.
Proof.
  rewrite !add32_spec. unfold add_w32.
  repeat (rewrite N.add_mod_idemp_l by discriminate; rewrite <- ?N.add_assoc).
  reflexivity.
Qed.

Lemma lor_mul_add a b k : (b < 2^k)%N -> N.lor (a * 2^k) b = (a * 2^k + b)%N.
Proof.
  intros H. apply lor_add. apply N.bits_inj. intros i. rewrite N.bits_0, N.land_spec.
  destruct (N.lt_ge_cases i k).
  - rewrite N.mul_pow2_bits_low by auto. reflexivity.
  - rewrite (proj1 (lt_pow2_testbit b k) H i) by auto. apply andb_false_r.
Qed.

Lemma be_word b0 b1 b2 b3 : (b0 < 256)%N -> (b1 < 256)%N -> (b2 < 256)%N -> (b3 < 256)%N ->
  N.lor (N.lor (N.lor (shl32 b0 24) (shl32 b1 16)) (shl32 b2 8)) b3 = be_num [b0; b1; b2; b3].
Proof.
  intros. unfold shl32. rewrite !N.shiftl_mul_pow2.
  rewrite !u32_id by (change (2^32)%N with 4294967296%N; change (2^24)%N with 16777216%N;
    change (2^16)%N with 65536%N; change (2^8)%N with 256%N; lia).
  rewrite lor_mul_add by (change (2^24)%N with 16777216%N; change (2^16)%N with 65536%N; lia).
  replace (b0 * 2^24 + b1 * 2^16)%N with ((b0 * 256 + b1) * 2^16)%N
    by (change (2^24)%N with 16777216%N; change (2^16)%N with 65536%N; lia).
  rewrite lor_mul_add by (change (2^8)%N with 256%N; change (2^16)%N with 65536%N; lia).
  replace ((b0 * 256 + b1) * 2^16 + b2 * 2^8)%N with (((b0 * 256 + b1) * 256 + b2) * 2^8)%N
    by (change (2^8)%N with 256%N; change (2^16)%N with 65536%N; lia).
  rewrite lor_mul_add by auto.
  unfold be_num. simpl rev. cbn [le_num]. change (2^8)%N with 256%N. lia.
Qed.

(** *** Schedule *)

Lemma extend_length n w : length (extend n w) = n + length w.
Proof.
  revert w. induction n as [|n IH]; intros w; simpl; auto.
  rewrite IH, app_length. simpl. lia.
Qed.

Lemma extend_prefix n w i : i < length w -> nth i (extend n w) 0%N = nth i w 0%N.
Proof.
  revert w. induction n as [|n IH]; intros w H; simpl; auto.
  rewrite IH by (rewrite app_length; simpl; lia). apply app_nth1. auto.
Qed.

Lemma extend_nth n w t : 16 <= length w -> length w <= t < n + length w ->
  let W (i : nat) := nth i (extend n w) 0%N in
  W t = ((smallS1 (W (t - 2)%nat) + W (t - 7)%nat + smallS0 (W (t - 15)%nat) + W (t - 16)%nat) mod 2^32)%N.
Proof.
  revert w. induction n as [|n IH]; intros w H16 Ht; [lia|].
  cbn [extend]. cbv zeta.
  destruct (Nat.eq_dec t (length w)) as [->|Hne].
  - rewrite !extend_prefix by (rewrite app_length; simpl; lia).
    rewrite app_nth2, Nat.sub_diag by lia. cbn [nth].
    rewrite !app_nth1 by lia. reflexivity.
  - apply (IH (w ++ [_])); rewrite app_length; simpl; lia.
Qed.

Lemma extend_ok n w : words_ok w -> words_ok (extend n w).
Proof.
  revert w. induction n as [|n IH]; intros w H; cbn [extend]; auto.
  apply IH. apply Forall_app. split; auto. constructor; [|constructor].
  apply N.mod_lt. discriminate.
Qed.

Lemma be_num_lt l : bytes_ok l -> (be_num l < 256 ^ N.of_nat (length l))%N.
Proof.
  intros H. unfold be_num. rewrite <- rev_length. apply le_num_lt. apply Forall_rev. auto.
Qed.

Fixpoint words4 (l : list N) : list N :=
  match l with
  | a :: b :: c :: d :: t => be_num [a; b; c; d] :: words4 t
  | _ => []
  end.

Lemma words4_chunks k l : length l = 4 * k -> map be_num (chunks 4 l) = words4 l.
Proof.
  revert l. induction k as [|k IH]; intros l H.
  - destruct l; [reflexivity|simpl in H; lia].
  - destruct l as [|a [|b [|c [|d t]]]]; simpl in H; try lia.
    change (a :: b :: c :: d :: t) with ([a; b; c; d] ++ t).
    rewrite chunks_app by (simpl; lia). cbn [map app words4]. f_equal. apply IH. lia.
Qed.

Lemma words4_length k l : length l = 4 * k -> length (words4 l) = k.
Proof.
  revert l. induction k as [|k IH]; intros l H.
  - destruct l; [reflexivity|simpl in H; lia].
  - destruct l as [|a [|b [|c [|d t]]]]; simpl in H; try lia.
    cbn [words4 length]. f_equal. apply IH. lia.
Qed.

Lemma words4_ok l : bytes_ok l -> words_ok (words4 l).
Proof.
  assert (H : forall k l, length l <= k -> bytes_ok l -> words_ok (words4 l)).
  { clear l. induction k as [|k IH]; intros l Hk Hl.
    - destruct l; [constructor|simpl in Hk; lia].
    - destruct l as [|a [|b [|c [|d t]]]]; try constructor.
      + apply (be_num_lt [a; b; c; d]). change [a; b; c; d] with (firstn 4 (a :: b :: c :: d :: t)).
        apply Forall_firstn. auto.
      + apply IH; [simpl in Hk; lia|]. change t with (skipn 4 (a :: b :: c :: d :: t)).
        apply Forall_skipn. auto. }
  eapply H; eauto.
Qed.

Lemma words4_nth k l t : length l = 4 * k -> t < k ->
  nth t (words4 l) 0%N =
  be_num [nth (4 * t) l 0%N; nth (4 * t + 1) l 0%N; nth (4 * t + 2) l 0%N; nth (4 * t + 3) l 0%N].
Proof.
  revert l t. induction k as [|k IH]; intros l t H Ht; [lia|].
  destruct l as [|a [|b [|c [|d r]]]]; simpl in H; try lia.
  destruct t as [|t]; [reflexivity|].
  cbn [words4 nth]. rewrite IH by lia.
  replace (4 * S t) with (4 + 4 * t) by lia. reflexivity.
Qed.

Lemma upd_firstn_skipn {A} (L W : list A) t x d :
  t < length L -> length W = length L -> x = nth t L d ->
  upd t x (firstn t L ++ skipn t W) = firstn (S t) L ++ skipn (S t) W.
Proof.
  intros Ht HW ->.
  rewrite (skipn_cons_nth W t d) by lia. rewrite (firstn_S_nth L t d) by lia.
  rewrite <- app_assoc. cbn [app].
  apply nth_error_ext. intros i. rewrite nth_error_upd.
  rewrite app_length, firstn_length. cbn [length]. rewrite skipn_length.
  rewrite !nth_error_app_if, !firstn_length, Nat.min_l by lia.
  destruct (Nat.eqb_spec i t) as [->|Hi]; cbn [andb].
  - replace (t <? t + S (length W - S t)) with true by (symmetry; apply Nat.ltb_lt; lia).
    replace (t <? t) with false by (symmetry; apply Nat.ltb_ge; lia).
    rewrite Nat.sub_diag. reflexivity.
  - destruct (Nat.ltb_spec i t); auto. destruct (i - t) eqn:E; [lia|]. reflexivity.
Qed.

Lemma nth_firstn_app {A} (S W : list A) t i d :
  i < t -> t <= length S -> nth i (firstn t S ++ W) d = nth i S d.
Proof.
  intros Hi Ht. rewrite app_nth1 by (rewrite firstn_length; lia).
  rewrite <- (firstn_skipn t S) at 2. rewrite app_nth1 by (rewrite firstn_length; lia). reflexivity.
Qed.

Lemma schedule_length blk : length blk = 64 -> length (schedule blk) = 64.
Proof.
  intros H. unfold schedule. rewrite extend_length, (words4_chunks 16), (words4_length 16) by auto.
  reflexivity.
Qed.

Lemma schedule_ok blk : length blk = 64 -> bytes_ok blk -> words_ok (schedule blk).
Proof.
  intros H Hb. unfold schedule. rewrite (words4_chunks 16) by auto.
  apply extend_ok. apply words4_ok. auto.
Qed.

Lemma words_ok_nth l i : words_ok l -> (nth i l 0 < 2^32)%N.
Proof.
  intros H. destruct (Nat.lt_ge_cases i (length l)) as [Hi|Hi].
  - exact (proj1 (Forall_forall _ _) H _ (nth_In _ _ Hi)).
  - rewrite nth_overflow by auto. reflexivity.
Qed.

Lemma bytes_ok_nth l i : bytes_ok l -> (nth i l 0 < 256)%N.
Proof.
  intros H. destruct (Nat.lt_ge_cases i (length l)) as [Hi|Hi].
  - exact (proj1 (Forall_forall _ _) H _ (nth_In _ _ Hi)).
  - rewrite nth_overflow by auto. reflexivity.
Qed.

Lemma sha_schedule m bp i blk W0 :
  length blk = 64 -> length W0 = 64 ->
  has_bytes m (padd bp (64 * (i - 1))) blk ->
  for_n 64 0 (sha_W_step m bp i) W0 = Ret (schedule blk).
Proof.
  intros Hb HW Hm.
  assert (Bok := has_bytes_bytes _ _ _ Hm).
  assert (SL := schedule_length blk Hb). assert (Sok := schedule_ok blk Hb Bok).
  set (S := schedule blk) in *.
  pose (st := fun t => firstn t S ++ skipn t W0).
  transitivity (for_n 64 0 (sha_W_step m bp i) (st 0)); [reflexivity|].
  rewrite (for_n_steps _ st 64 0).
  - unfold st. rewrite firstn_all2, skipn_all2, app_nil_r by lia. reflexivity.
  - intros t Ht. rewrite Nat.add_0_l. unfold sha_W_step.
    destruct (Nat.ltb_spec t 16) as [Hlt|Hge].
    + assert (Hl : forall j, j < 4 -> ld8 m (padd bp (64 * (i - 1) + 4 * t + j)) = Ret (nth (4 * t + j) blk 0%N)).
      { intros j Hj. replace (64 * (i - 1) + 4 * t + j) with (64 * (i - 1) + (4 * t + j)) by lia.
        rewrite <- padd_padd. apply has_bytes_nth; auto. lia. }
      rewrite <- (Nat.add_0_r (64 * (i - 1) + 4 * t)) at 1.
      rewrite (Hl 0), (Hl 1), (Hl 2), (Hl 3) by lia. cbn [bind].
      rewrite be_word by (apply bytes_ok_nth; auto).
      f_equal. unfold st. apply (upd_firstn_skipn S W0 t _ 0%N); try lia.
      unfold S, schedule. rewrite extend_prefix.
      * rewrite (words4_chunks 16), (words4_nth 16) by auto. rewrite Nat.add_0_r. reflexivity.
      * rewrite (words4_chunks 16), (words4_length 16); auto.
    + f_equal. unfold st. rewrite !nth_firstn_app by lia.
      apply (upd_firstn_skipn S W0 t _ 0%N); try lia.
      rewrite sigma_1_spec, sigma_0_spec by (apply words_ok_nth; auto).
      rewrite add32_chain4. unfold S, schedule.
      rewrite (extend_nth 48 _ t); auto; rewrite (words4_chunks 16), (words4_length 16); auto; lia.
Qed.

(** *** Rounds *)

Lemma fold_left_iter {A B} (f : A -> B -> A) (l : list B) (d : B) (s : A) :
  fold_left f l s = iter_n (length l) 0 (fun t s => f s (nth t l d)) s.
Proof.
  assert (H : forall l k s, fold_left f l s = iter_n (length l) k (fun t s => f s (nth (t - k) l d)) s).
  { clear. induction l as [|b l IH]; intros k s; [reflexivity|].
    cbn [fold_left length iter_n]. rewrite Nat.sub_diag. cbn [nth].
    rewrite (IH (S k)). apply iter_n_ext. intros i x Hi.
    replace (i - k) with (S (i - S k)) by lia. reflexivity. }
  rewrite (H l 0). apply iter_n_ext. intros i x _. rewrite Nat.sub_0_r. reflexivity.
Qed.

Definition ok8 (s : state8) : Prop := words_ok (list8 s).

Lemma list8_inj_nth s : list8 s = [nth 0 (list8 s) 0%N; nth 1 (list8 s) 0%N; nth 2 (list8 s) 0%N;
   nth 3 (list8 s) 0%N; nth 4 (list8 s) 0%N; nth 5 (list8 s) 0%N; nth 6 (list8 s) 0%N; nth 7 (list8 s) 0%N].
Proof. destruct s as [[[[[[[? ?] ?] ?] ?] ?] ?] ?]. reflexivity. Qed.

Lemma ok8_inv a b c d e f g h : ok8 (a, b, c, d, e, f, g, h) ->
  (a < 2^32 /\ b < 2^32 /\ c < 2^32 /\ d < 2^32 /\ e < 2^32 /\ f < 2^32 /\ g < 2^32 /\ h < 2^32)%N.
Proof.
  unfold ok8, words_ok. cbn [list8]. intros H.
  repeat match goal with H : Forall _ (_ :: _) |- _ => inversion H; clear H; subst end.
  repeat split; assumption.
Qed.

Lemma mod32_lt x : (x mod 2^32 < 2^32)%N.
Proof. apply N.mod_lt. discriminate. Qed.

Lemma sha_step_ok s kw : ok8 s -> ok8 (sha_step s kw).
Proof.
  destruct s as [[[[[[[a b] c] d] e] f] g] h]. intros H. apply ok8_inv in H.
  unfold ok8, words_ok, sha_step. cbn [list8]. repeat constructor; try apply mod32_lt; apply H.
Qed.

Lemma sha_round_spec W t s :
  ok8 s -> sha_round W t (list8 s) = list8 (sha_step s (nth t K_tab 0%N, nth t W 0%N)).
Proof.
  destruct s as [[[[[[[a b] c] d] e] f] g] h]. intros H. apply ok8_inv in H.
  destruct H as (Ha & Hb & Hc & Hd & He & Hf & Hg & Hh).
  unfold sha_round, sha_step. cbn [list8 nth fst snd].
  rewrite (add32_chain5 h), SIGMA_1_spec, SIGMA_0_spec, ch_spec, maj_spec by auto.
  rewrite !add32_spec. reflexivity.
Qed.

Lemma sha_rounds W s n i :
  ok8 s ->
  iter_n n i (sha_round W) (list8 s) =
  list8 (iter_n n i (fun t s => sha_step s (nth t K_tab 0%N, nth t W 0%N)) s)
  /\ ok8 (iter_n n i (fun t s => sha_step s (nth t K_tab 0%N, nth t W 0%N)) s).
Proof.
  revert i s. induction n as [|n IH]; intros i s H; cbn [iter_n]; auto.
  rewrite sha_round_spec by auto. apply IH. apply sha_step_ok. auto.
Qed.

Lemma nth_combine_lt {A B} (l : list A) (l' : list B) i a b :
  i < length l -> length l = length l' -> nth i (combine l l') (a, b) = (nth i l a, nth i l' b).
Proof. intros _ H. apply combine_nth. auto. Qed.

Lemma add8_ok x y : ok8 (add8 x y).
Proof.
  destruct x as [[[[[[[a b] c] d] e] f] g] h]. destruct y as [[[[[[[a' b'] c'] d'] e'] f'] g'] h'].
  unfold ok8, words_ok, add8. cbn [list8]. repeat constructor; apply mod32_lt.
Qed.

Lemma sha_block_spec m bp i blk W0 s :
  length blk = 64 -> length W0 = 64 -> ok8 s ->
  has_bytes m (padd bp (64 * (i - 1))) blk ->
  sha_block m bp i (W0, list8 s) = Ret (schedule blk, list8 (compress s blk)).
Proof.
  intros Hb HW Hs Hm. unfold sha_block.
  rewrite (sha_schedule m bp i blk W0) by auto. cbn [bind].
  destruct (sha_rounds (schedule blk) s 64 0 Hs) as [-> _].
  unfold compress. rewrite (fold_left_iter _ _ (0%N, 0%N)).
  rewrite combine_length, schedule_length, <- K_tab_spec by auto.
  change (Nat.min (length K_tab) 64) with 64.
  rewrite (iter_n_ext 64 0 (fun t s => sha_step s (nth t (combine K_tab (schedule blk)) (0%N, 0%N)))
             (fun t s => sha_step s (nth t K_tab 0%N, nth t (schedule blk) 0%N))).
  2:{ intros t x Ht. rewrite nth_combine_lt; auto.
      - change (length K_tab) with 64. lia.
      - rewrite schedule_length by auto. reflexivity. }
  set (r := iter_n _ _ _ _). clearbody r.
  destruct r as [[[[[[[a b] c] d] e] f] g] h]. destruct s as [[[[[[[a' b'] c'] d'] e'] f'] g'] h'].
  cbn [list8 nth add8]. rewrite !add32_spec. reflexivity.
Qed.

Lemma fold_left_cons {A B} (f : A -> B -> A) x l s : fold_left f (x :: l) s = fold_left f l (f s x).
Proof. reflexivity. Qed.

Lemma compress_ok s b : ok8 (compress s b).
Proof. unfold compress. apply add8_ok. Qed.

Lemma sha_blocks m bp bs : forall i W0 s,
  Forall (fun b => length b = 64) bs -> length W0 = 64 -> ok8 s -> 1 <= i ->
  has_bytes m (padd bp (64 * (i - 1))) (concat bs) ->
  exists W1, for_n (length bs) i (sha_block m bp) (W0, list8 s) =
    Ret (W1, list8 (fold_left compress bs s)) /\ ok8 (fold_left compress bs s).
Proof.
  induction bs as [|b bs IH]; intros i W0 s F HW Hs Hi Hm.
  - exists W0. auto.
  - inversion F as [|? ? Fb Fbs]; subst. rewrite fold_left_cons. cbn [length for_n concat] in *.
    apply has_bytes_app in Hm. destruct Hm as [Hm1 Hm2].
    rewrite (sha_block_spec m bp i b W0 s) by auto. cbn [bind].
    apply (IH (S i)); auto.
    + apply schedule_length. auto.
    + apply compress_ok.
    + rewrite padd_padd, Fb in Hm2. replace (64 * (S i - 1)) with (64 * (i - 1) + 64) by lia. auto.
Qed.

(** *** Padding *)

Lemma k_spec n : let k := (119 - n mod 64) mod 64 in
  (n mod 64 < 56 /\ k = 55 - n mod 64) \/ (56 <= n mod 64 < 64 /\ k = 119 - n mod 64).
Proof.
  cbv zeta. pose proof (Nat.mod_upper_bound n 64 ltac:(lia)). set (r := n mod 64) in *. clearbody r.
  destruct (Nat.lt_ge_cases r 56).
  - left. split; auto. replace (119 - r) with (55 - r + 1 * 64) by lia.
    rewrite Nat.mod_add by lia. apply Nat.mod_small. lia.
  - right. split; auto. apply Nat.mod_small. lia.
Qed.

Lemma k_first n i : (n + 1 + i) mod 64 = 56 <-> i mod 64 = (119 - n mod 64) mod 64.
Proof.
  pose proof (Nat.div_mod n 64 ltac:(lia)) as E. pose proof (Nat.mod_upper_bound n 64 ltac:(lia)).
  pose proof (Nat.div_mod i 64 ltac:(lia)) as E'. pose proof (Nat.mod_upper_bound i 64 ltac:(lia)).
  destruct (k_spec n) as [[? ->]|[? ->]];
  set (r := n mod 64) in *; set (q := n / 64) in *; set (r' := i mod 64) in *; set (q' := i / 64) in *;
  replace (n + 1 + i) with (r + 1 + r' + (q + q') * 64) by lia; rewrite Nat.mod_add by lia.
  - destruct (Nat.lt_ge_cases (r + 1 + r') 64).
    + rewrite Nat.mod_small by lia. lia.
    + replace (r + 1 + r') with (r + 1 + r' - 64 + 1 * 64) by lia.
      rewrite Nat.mod_add, Nat.mod_small by lia. lia.
  - destruct (Nat.lt_ge_cases (r + 1 + r') 64).
    + rewrite Nat.mod_small by lia. lia.
    + replace (r + 1 + r') with (r + 1 + r' - 64 + 1 * 64) by lia.
      destruct (Nat.lt_ge_cases (r + 1 + r' - 64) 64).
      * rewrite Nat.mod_add, Nat.mod_small by lia. lia.
      * replace (r + 1 + r' - 64 + 1 * 64) with (r + 1 + r' - 128 + 2 * 64) by lia.
        rewrite Nat.mod_add, Nat.mod_small by lia. lia.
Qed.

Lemma pad_length d : length (pad d) mod 64 = 0 /\
  length (pad d) = (if 56 <=? length d mod 64 then length d / 64 * 64 + 128 else length d / 64 * 64 + 64).
Proof.
  unfold pad. rewrite !app_length, repeat_length, be_str_length. cbn [length].
  set (n := length d). pose proof (Nat.div_mod n 64 ltac:(lia)) as E.
  pose proof (k_spec n) as K. cbv zeta in K. set (k := (119 - n mod 64) mod 64) in *. clearbody k.
  set (r := n mod 64) in *; set (q := n / 64) in *. clearbody r q.
  destruct K as [[? ->]|[? ->]]; destruct (Nat.leb_spec 56 r); try lia.
Qed.

Lemma repeat_snoc {A} (x : A) n : repeat x (S n) = repeat x n ++ [x].
Proof. induction n; simpl; auto. f_equal. auto. Qed.

Lemma bitlen_bytes w : 
  [u8 (N.shiftr w 56); u8 (N.shiftr w 48); u8 (N.shiftr w 40); u8 (N.shiftr w 32);
   u8 (N.shiftr w 24); u8 (N.shiftr w 16); u8 (N.shiftr w 8); u8 w] = be_str 8 w.
Proof.
  unfold be_str. cbn [le_str rev app]. rewrite !N.div_div by discriminate.
  rewrite !u8_mod, !N.shiftr_div_pow2. reflexivity.
Qed.

Lemma pad_message_writes M msg data :
  writable M msg (length (pad data)) ->
  (N.of_nat (length data) < 2^32)%N ->
  pad_message (write_at M msg data) msg (N.of_nat (length data)) = Ret (write_at M msg (pad data)).
Proof.
  intros W Hs. unfold pad_message. rewrite Nat2N.id.
  set (n := length data). set (k := (119 - n mod 64) mod 64).
  assert (Hk : k < 64) by (apply Nat.mod_upper_bound; lia).
  assert (Lp : length (pad data) = n + 1 + k + 8).
  { unfold pad. rewrite !app_length, repeat_length, be_str_length. cbn [length]. fold n. fold k. lia. }
  rewrite Lp in W.
  assert (Wx : forall l : list N, length l <= n + 1 + k + 8 -> writable M msg (length l)).
  { intros l Hl. apply (writable_le _ _ _ _ W Hl). }
  assert (St : forall (l : list N) x, length l < n + 1 + k + 8 ->
     st8 (write_at M msg l) (padd msg (length l)) x = Ret (write_at M msg (l ++ [x]))).
  { intros l x Hl. rewrite st8_write.
    - rewrite (write_at_app M msg l); auto. apply Wx. rewrite app_length. simpl. lia.
    - apply writable_write_at; [apply Wx; lia|]. apply writable_padd.
      apply (writable_le _ _ _ _ W). lia. }
  fold n in St. unfold n at 1. rewrite St by (fold n; lia). cbn [bind].
  rewrite padd_padd.
  set (st := fun i => (write_at M msg (data ++ [128%N] ++ repeat 0%N i), padd msg (n + 1 + i), N.of_nat i)).
  assert (E0 : (write_at M msg (data ++ [128%N]), padd msg (n + 1), 0%N) = st 0).
  { unfold st. simpl repeat. rewrite app_nil_r, Nat.add_0_r. reflexivity. }
  change 0x80%N with 128%N. rewrite E0.
  assert (A64 : forall i, i <= k -> add64 (add64 (N.of_nat n) 1) (N.of_nat i) = N.of_nat (n + 1 + i)).
  { intros i Hi. assert (B : (N.of_nat n < 4294967296)%N) by exact Hs.
    clearbody k n. unfold add64.
    assert (P : (2^64)%N = 18446744073709551616%N) by reflexivity.
    rewrite (u64_id (N.of_nat n + 1)) by (rewrite P; lia). rewrite u64_id by (rewrite P; lia). lia. }
  rewrite (while_steps _ _ st k).
  - cbn [bind]. unfold st.
    assert (Lk : length (data ++ [128%N] ++ repeat 0%N k) = n + 1 + k).
    { rewrite !app_length, repeat_length. cbn [length]. fold n. lia. }
    set (w := u64 (8 * N.of_nat n)).
    set (D := data ++ [128%N] ++ repeat 0%N k) in *.
    assert (St' : forall (l : list N) j x, length l = j -> j < 8 ->
      st8 (write_at M msg (D ++ l)) (padd (padd msg (n + 1 + k)) j) x = Ret (write_at M msg ((D ++ l) ++ [x]))).
    { intros l j x Hl Hj. rewrite <- St by (rewrite app_length; lia).
      rewrite padd_padd, app_length. rewrite Lk, Hl. reflexivity. }
    rewrite <- (app_nil_r D) at 1. rewrite <- (padd_0 (padd msg (n + 1 + k))) at 1.
    rewrite (St' [] 0) by (auto; lia). cbn [bind]. rewrite app_nil_r.
    rewrite (St' [_] 1) by (auto; lia). cbn [bind]. rewrite <- !app_assoc. cbn [app].
    rewrite (St' [_; _] 2) by (auto; lia). cbn [bind]. rewrite <- !app_assoc. cbn [app].
    rewrite (St' [_; _; _] 3) by (auto; lia). cbn [bind]. rewrite <- !app_assoc. cbn [app].
    rewrite (St' [_; _; _; _] 4) by (auto; lia). cbn [bind]. rewrite <- !app_assoc. cbn [app].
    rewrite (St' [_; _; _; _; _] 5) by (auto; lia). cbn [bind]. rewrite <- !app_assoc. cbn [app].
    rewrite (St' [_; _; _; _; _; _] 6) by (auto; lia). cbn [bind]. rewrite <- !app_assoc. cbn [app].
    rewrite (St' [_; _; _; _; _; _; _] 7) by (auto; lia). rewrite <- !app_assoc. cbn [app].
    rewrite bitlen_bytes. unfold w. rewrite u64_mod. unfold pad. fold n. fold k.
    f_equal. f_equal. unfold D. rewrite <- !app_assoc. reflexivity.
  - intros i Hi. unfold st at 1 2. rewrite A64 by lia. split.
    + apply negb_true_iff. apply N.eqb_neq. intros E.
      assert (E' : (n + 1 + i) mod 64 = 56) by lia. apply k_first in E'. fold k in E'.
      rewrite Nat.mod_small in E' by lia. lia.
    + assert (Li : length (data ++ [128%N] ++ repeat 0%N i) = n + 1 + i).
      { rewrite !app_length, repeat_length. cbn [length]. fold n. lia. }
      rewrite <- Li. rewrite St by lia. cbn [bind]. unfold st. rewrite repeat_snoc, padd_padd, Li.
      rewrite <- !app_assoc. f_equal. f_equal; [f_equal|]; [|lia].
      f_equal. lia.
  - unfold st. rewrite A64 by lia. apply negb_false_iff. apply N.eqb_eq.
    assert (E' : (n + 1 + k) mod 64 = 56) by (apply k_first; apply Nat.mod_small; auto). lia.
  - lia.
Qed.

(** *** Output *)

Lemma sha_bswap_bytes x : (x < 2^32)%N -> bytes_of_le32 (sha_bswap x) = be_str 4 x.
Proof.
  intros H.
  assert (E : sha_bswap x = le32_of_bytes (byte_of x 3) (byte_of x 2) (byte_of x 1) (byte_of x 0)).
  { assert (F0 : N.land (shl32 x 24) 0xff000000 = (byte_of x 0 * 2^24)%N).
    { apply N.bits_inj. intros i. rewrite N.land_spec, shl32_testbit.
      change 0xff000000%N with (N.shiftl (N.ones 8) 24). rewrite shiftl_testbit.
      rewrite <- N.shiftl_mul_pow2, shiftl_testbit. unfold byte_of. rewrite u8_testbit, N.shiftr_spec'.
      rewrite N.add_0_r. destruct (N.leb_spec 24 i); cbn [andb]; auto.
      destruct (N.ltb_spec i 32), (N.ltb_spec (i - 24) 8); try (exfalso; lia).
      - rewrite N.ones_spec_low by auto. rewrite !andb_true_r. reflexivity.
      - rewrite !andb_false_r. reflexivity. }
    assert (F1 : N.land (shl32 x 8) 0x00ff0000 = (byte_of x 1 * 2^16)%N).
    { apply N.bits_inj. intros i. rewrite N.land_spec, shl32_testbit.
      change 0x00ff0000%N with (N.shiftl (N.ones 8) 16). rewrite shiftl_testbit.
      rewrite <- N.shiftl_mul_pow2, shiftl_testbit. unfold byte_of. rewrite u8_testbit, N.shiftr_spec'.
      destruct (N.leb_spec 16 i); cbn [andb]; [|apply andb_false_r].
      replace (i - 16 + 8 * 1)%N with (i - 8)%N by lia.
      destruct (N.leb_spec 8 i); [|lia]. cbn [andb].
      destruct (N.ltb_spec (i - 16) 8).
      - rewrite N.ones_spec_low by auto. destruct (N.ltb_spec i 32); [|lia]. rewrite !andb_true_r. reflexivity.
      - rewrite N.ones_spec_high by auto. rewrite !andb_false_r. reflexivity. }
    assert (F2 : N.land (shr32 x 8) 0x0000ff00 = (byte_of x 2 * 2^8)%N).
    { apply N.bits_inj. intros i. rewrite N.land_spec, shr32_testbit.
      change 0x0000ff00%N with (N.shiftl (N.ones 8) 8). rewrite shiftl_testbit.
      rewrite <- N.shiftl_mul_pow2, shiftl_testbit. unfold byte_of. rewrite u8_testbit, N.shiftr_spec'.
      destruct (N.leb_spec 8 i); cbn [andb]; [|apply andb_false_r].
      replace (i - 8 + 8 * 2)%N with (i + 8)%N by lia.
      destruct (N.ltb_spec (i - 8) 8).
      - rewrite N.ones_spec_low by auto. reflexivity.
      - rewrite N.ones_spec_high by auto. rewrite !andb_false_r. reflexivity. }
    assert (F3 : N.land (shr32 x 24) 0x000000ff = byte_of x 3) by reflexivity.
    unfold sha_bswap. rewrite F0, F1, F2, F3. unfold le32_of_bytes.
    pose proof (byte_of_lt x 0). pose proof (byte_of_lt x 1).
    pose proof (byte_of_lt x 2). pose proof (byte_of_lt x 3).
    set (a := byte_of x 0) in *. set (b := byte_of x 1) in *.
    set (c := byte_of x 2) in *. set (d := byte_of x 3) in *. clearbody a b c d. clear F0 F1 F2 F3 H x.
    rewrite lor_mul_add by (change (2^24)%N with 16777216%N; change (2^16)%N with 65536%N; lia).
    replace (a * 2^24 + b * 2^16)%N with ((a * 256 + b) * 2^16)%N
      by (change (2^24)%N with 16777216%N; change (2^16)%N with 65536%N; lia).
    rewrite lor_mul_add by (change (2^8)%N with 256%N; change (2^16)%N with 65536%N; lia).
    replace ((a * 256 + b) * 2^16 + c * 2^8)%N with (((a * 256 + b) * 256 + c) * 2^8)%N
      by (change (2^8)%N with 256%N; change (2^16)%N with 65536%N; lia).
    rewrite lor_mul_add by auto. change (2^8)%N with 256%N. lia. }
  rewrite E, bytes_of_le32_of by apply byte_of_lt.
  unfold be_str. rewrite <- bytes_of_le32_str. reflexivity.
Qed.

(** *** The whole function *)

Lemma chunks_lengths {A} k q (l : list A) : 0 < k -> length l = q * k ->
  Forall (fun b => length b = k) (chunks k l) /\ concat (chunks k l) = l /\ length (chunks k l) = q.
Proof.
  intros Hk. revert l. induction q as [|q IH]; intros l H.
  - destruct l; [|simpl in H; lia]. rewrite chunks_nil. repeat split; constructor.
  - rewrite Nat.mul_succ_l in H. pose proof (Nat.le_0_l (q * k)) as Hq. rewrite <- (firstn_skipn k l).
    assert (L1 : length (firstn k l) = k) by (apply firstn_length_le; lia).
    assert (L2 : length (skipn k l) = q * k) by (rewrite skipn_length; lia).
    rewrite chunks_app by lia.
    destruct (IH _ L2) as (F & C & L).
    repeat split; simpl; auto. now rewrite C.
Qed.

Lemma store_words m p ws :
  Forall (fun w => (w < 2^32)%N) ws -> writable m p (4 * length ws) ->
  for_n (length ws) 0 (fun i m => st32 m (padd p (4 * i)) (sha_bswap (nth i ws 0%N))) m =
  Ret (write_at m p (flat_map (be_str 4) ws)).
Proof.
  intros F W.
  pose (st := fun i => write_at m p (flat_map (be_str 4) (firstn i ws))).
  assert (L : forall l, length (flat_map (be_str 4) l) = 4 * length l).
  { induction l as [|x l IH]; cbn [flat_map length]; auto. rewrite app_length, be_str_length, IH. lia. }
  transitivity (for_n (length ws) 0 (fun i m => st32 m (padd p (4 * i)) (sha_bswap (nth i ws 0%N))) (st 0)).
  { unfold st. cbn [firstn flat_map]. rewrite write_at_nil. reflexivity. }
  rewrite (for_n_steps _ st).
  - unfold st. rewrite firstn_all. reflexivity.
  - intros i Hi. rewrite Nat.add_0_l. unfold st.
    assert (Li : length (flat_map (be_str 4) (firstn i ws)) = 4 * i).
    { rewrite L, firstn_length. lia. }
    assert (Wi : writable m p (length (flat_map (be_str 4) (firstn i ws)))).
    { apply (writable_le _ _ _ _ W). lia. }
    rewrite st32_write.
    + rewrite sha_bswap_bytes by (apply (words_ok_nth ws); auto).
      rewrite (firstn_S_nth ws i 0%N), flat_map_app by lia. cbn [flat_map]. rewrite app_nil_r.
      rewrite write_at_app, Li; auto. rewrite app_length, Li, be_str_length. apply (writable_le _ _ _ _ W). lia.
    + apply writable_write_at; auto. apply writable_padd. apply (writable_le _ _ _ _ W). lia.
Qed.

Lemma words_ok_forallb l : forallb (fun x => N.ltb x (2^32)) l = true -> words_ok l.
Proof.
  intros H. apply Forall_forall. intros x Hx. apply N.ltb_lt. exact (proj1 (forallb_forall _ _) H x Hx).
Qed.

Lemma H0_ok : ok8 (state_of sha_H0).
Proof. apply words_ok_forallb. vm_compute. reflexivity. Qed.

Lemma H0_list8 : H0_tab = list8 (state_of sha_H0).
Proof. vm_compute. reflexivity. Qed.

Lemma sha256_with_ok cond m digest message data :
  has_bytes m message data -> writable m digest 32 ->
  (Z.of_nat (length data) + 73 <= 2^31)%Z ->
  cond (N.of_nat (length data)) = (56 <=? length data mod 64) ->
  sha256_with cond m digest message (N.of_nat (length data)) =
  Ret (write_at m digest (SHA256 data)).
Proof.
  intros Hm Hd Hs Hc. unfold sha256_with. rewrite Hc.
  destruct (pad_length data) as [P1 P2].
  set (n := length data) in *.
  assert (En : to_int (Z.of_N (if 56 <=? n mod 64 then add64 (N.of_nat n / 64 * 64) 128
                       else add64 (N.of_nat n / 64 * 64) 64)) = Z.of_nat (length (pad data))).
  { rewrite P2. assert (B : (Z.of_nat n <= 2147483575)%Z) by lia.
    assert (P : (2^64)%N = 18446744073709551616%N) by reflexivity.
    destruct (Nat.leb_spec 56 (n mod 64)); unfold add64; rewrite u64_id by (rewrite P; lia).
    all: rewrite to_int_id by (unfold int_max; lia); lia. }
  rewrite En.
  destruct (Z.leb_spec (Z.of_nat (length (pad data))) 0) as [Hneg|_].
  { exfalso. destruct (56 <=? n mod 64); lia. }
  rewrite Nat2Z.id.
  set (q := length (pad data) / 64).
  assert (Lq : length (pad data) = q * 64).
  { unfold q. pose proof (Nat.div_mod (length (pad data)) 64 ltac:(lia)). lia. }
  replace (length (pad data) / 4 * 4) with (length (pad data)).
  2:{ rewrite Lq. replace (q * 64) with (q * 16 * 4) by lia. rewrite Nat.div_mul by lia. reflexivity. }
  unfold alloc. cbv beta iota zeta.
  set (M := m ++ [repeat None (length (pad data))]).
  set (msg := {| pblk := length m; poff := 0 |}).
  assert (Wm : writable M msg (length (pad data))).
  { apply writable_last. rewrite repeat_length. lia. }
  assert (Lnp : n <= length (pad data)).
  { unfold pad. rewrite app_length. fold n. lia. }
  rewrite Nat2N.id.
  assert (Hlt : pblk message < length m).
  { destruct Hm as (_ & b & Hb & _). eapply nth_error_lt_some; eauto. }
  unfold n at 1. rewrite (memcpy_write _ _ _ data).
  2: apply has_bytes_alloc; auto.
  2: apply (writable_le _ _ _ _ Wm); auto.
  2:{ left. simpl. lia. }
  cbn [bind]. unfold n. rewrite pad_message_writes; auto.
  2:{ fold n. change (2^32)%N with 4294967296%N. lia. }
  cbn [bind].
  assert (EM : write_at M msg (pad data) = m ++ [map Some (pad data)]).
  { unfold M, msg. rewrite write_at_last. 
    rewrite splice_full by (rewrite repeat_length; auto). reflexivity. }
  rewrite EM.
  assert (Pok : bytes_ok (pad data)).
  { unfold pad. apply Forall_app. split; [apply (has_bytes_bytes _ _ _ Hm)|].
    apply Forall_app. split; [constructor; [reflexivity|constructor]|].
    apply Forall_app. split; [|apply be_str_ok].
    apply Forall_forall. intros x Hx. apply repeat_spec in Hx. subst. reflexivity. }
  destruct (chunks_lengths 64 q (pad data) ltac:(lia) Lq) as (F & C & L).
  fold q. rewrite <- L.
  change (length (pad data) / 64) with q.
  assert (H0ok : ok8 (state_of sha_H0)).
  { exact H0_ok. }
  assert (HL : H0_tab = list8 (state_of sha_H0)) by exact H0_list8.
  rewrite HL.
  destruct (sha_blocks (m ++ [map Some (pad data)]) msg (chunks 64 (pad data)) 1 (repeat 0%N 64) (state_of sha_H0))
    as (W1 & E & Ok); auto.
  { rewrite C. rewrite Nat.sub_diag, Nat.mul_0_r, padd_0. apply has_bytes_last. auto. }
  rewrite E. cbn [bind].
  set (fin := fold_left compress (chunks 64 (pad data)) (state_of sha_H0)) in *.
  assert (L8 : length (list8 fin) = 8).
  { clearbody fin. destruct fin as [[[[[[[? ?] ?] ?] ?] ?] ?] ?]. reflexivity. }
  rewrite <- L8. rewrite store_words; auto.
  2:{ rewrite L8. apply writable_alloc. auto. }
  cbn [bind]. rewrite (write_at_alloc _ _ _ 32) by auto. rewrite drop_last_app. reflexivity.
Qed.

Lemma leb_mod_N n : (56 <=? N.of_nat n mod 64)%N = (56 <=? n mod 64).
Proof.
  apply Bool.eq_iff_eq_true. rewrite N.leb_le, Nat.leb_le. lia.
Qed.

Theorem sha256_auth_ok m digest message data :
  has_bytes m message data -> writable m digest 32 ->
  (Z.of_nat (length data) + 73 <= 2^31)%Z ->
  sha256_auth m digest message (N.of_nat (length data)) =
  Ret (write_at m digest (SHA256 data)).
Proof. intros. apply sha256_with_ok; auto. apply leb_mod_N. Qed.

Lemma cond_hash n : (Z.of_nat n + 73 <= 2^31)%Z -> n mod 64 <> 63 ->
  (56 <? (add64 (N.of_nat n) 1) mod 64)%N = (56 <=? n mod 64).
Proof.
  intros B H. unfold add64.
  assert (P : (2^64)%N = 18446744073709551616%N) by reflexivity.
  rewrite u64_id by (rewrite P; lia).
  apply Bool.eq_iff_eq_true. rewrite N.ltb_lt, Nat.leb_le. lia.
Qed.

Theorem sha256_hash_ok m digest message data :
  has_bytes m message data -> writable m digest 32 ->
  (Z.of_nat (length data) + 73 <= 2^31)%Z -> length data mod 64 <> 63 ->
  sha256_hash m digest message (N.of_nat (length data)) =
  Ret (write_at m digest (SHA256 data)).
Proof. intros. apply sha256_with_ok; auto. apply cond_hash; auto. Qed.

Theorem sha256_hash_ub m digest message data :
  has_bytes m message data ->
  (Z.of_nat (length data) + 73 <= 2^31)%Z -> length data mod 64 = 63 ->
  sha256_hash m digest message (N.of_nat (length data)) = UB.
Proof.
  intros Hm Hs H63. unfold sha256_hash, sha256_with.
  set (n := length data) in *.
  assert (B : (Z.of_nat n <= 2147483575)%Z) by lia.
  assert (P : (2^64)%N = 18446744073709551616%N) by reflexivity.
  replace (56 <? add64 (N.of_nat n) 1 mod 64)%N with false.
  2:{ symmetry. unfold add64. rewrite u64_id by (rewrite P; lia). apply N.ltb_ge. lia. }
  assert (E : to_int (Z.of_N (add64 (N.of_nat n / 64 * 64) 64)) = Z.of_nat (n + 1)).
  { unfold add64. rewrite u64_id by (rewrite P; lia). rewrite to_int_id by (unfold int_max; lia); lia. }
  rewrite E. destruct (Z.leb_spec (Z.of_nat (n + 1)) 0); [lia|].
  rewrite Nat2Z.id. replace ((n + 1) / 4 * 4) with (n + 1) by lia.
  unfold alloc. cbv beta iota zeta. rewrite Nat2N.id.
  set (M := m ++ [repeat None (n + 1)]).
  set (msg := {| pblk := length m; poff := 0 |}).
  assert (Wm : writable M msg (n + 1)).
  { apply writable_last. rewrite repeat_length. lia. }
  assert (Hlt : pblk message < length m).
  { destruct Hm as (_ & b & Hb & _). eapply nth_error_lt_some; eauto. }
  unfold n at 1. rewrite (memcpy_write _ _ _ data).
  2: apply has_bytes_alloc; auto.
  2: apply (writable_le _ _ _ _ Wm); fold n; lia.
  2:{ left. simpl. lia. }
  cbn [bind]. unfold pad_message. rewrite Nat2N.id.
  rewrite st8_write.
  2:{ apply writable_write_at; [apply (writable_le _ _ _ _ Wm); fold n; lia|]. apply writable_padd. auto. }
  cbn [bind]. cbn [while].
  replace (add64 (add64 (N.of_nat n) 1) 0 mod 64 =? 56)%N with false.
  2:{ symmetry. unfold add64. rewrite (u64_id (N.of_nat n + 1)) by (rewrite P; lia).
      rewrite u64_id by (rewrite P; lia). apply N.eqb_neq. lia. }
  cbn [negb].
  assert (Wx : writable M msg (length (data ++ [128%N]))).
  { rewrite app_length. exact Wm. }
  change 0x80%N with 128%N. unfold n. rewrite <- write_at_app by auto.
  unfold M, msg. rewrite write_at_last. rewrite splice_full.
  2:{ rewrite app_length, repeat_length. reflexivity. }
  rewrite (st8_oob _ _ (map Some (data ++ [128%N]))); [reflexivity| |].
  - simpl. apply nth_error_last.
  - rewrite map_length, app_length. simpl. fold n. lia.
Qed.

(** *** Messages too long for the [int] buffer size *)

Lemma st_cells_oob m p l b : nth_error m (pblk p) = Some b ->
  l <> [] -> length b < poff p + length l -> st_cells m p l = UB.
Proof.
  revert m p b. induction l as [|c l IH]; intros m p b Hb Hl H; [congruence|].
  cbn [st_cells]. rewrite Hb. destruct (Nat.ltb_spec (poff p) (length b)); auto.
  simpl in H. destruct l as [|c' l]; [simpl in *; lia|].
  apply (IH _ _ (upd (poff p) c b)).
  - rewrite pblk_padd. apply nth_error_upd_eq. eapply nth_error_lt_some; eauto.
  - discriminate.
  - rewrite upd_length, poff_padd. simpl in *. lia.
Qed.

Lemma memcpy_oob m dst src l b : has_bytes m src l -> nth_error m (pblk dst) = Some b ->
  l <> [] -> length b < poff dst + length l -> memcpy m dst src (length l) = UB.
Proof.
  intros H Hb Hl Hlen. unfold memcpy. destruct (_ && _); auto.
  rewrite (ld_cells_has _ _ _ H). cbn [bind]. apply (st_cells_oob _ _ _ b); auto.
  - destruct l; [congruence|discriminate].
  - rewrite map_length. auto.
Qed.

Lemma to_int_le z : (to_int z < 2^31)%Z.
Proof.
  unfold to_int. destruct (Z.ltb_spec (z mod 4294967296) 2147483648); [auto|].
  pose proof (Z.mod_pos_bound z 4294967296 ltac:(lia)). lia.
Qed.

Theorem sha256_with_too_long cond m digest message data :
  has_bytes m message data ->
  (2^31 < Z.of_nat (length data) + 73)%Z -> (Z.of_nat (length data) + 128 < 2^64)%Z ->
  cond (N.of_nat (length data)) = (56 <=? length data mod 64) ->
  sha256_with cond m digest message (N.of_nat (length data)) = UB.
Proof.
  intros Hm Hs Hs2 Hc. unfold sha256_with. rewrite Hc.
  set (n := length data) in *.
  set (v := to_int _).
  destruct (Z.leb_spec v 0) as [|Hv]; auto.
  assert (Lv : (v < Z.of_nat n)%Z).
  { assert (B : (Z.of_nat n > 2147483575)%Z) by lia.
    assert (B2 : (Z.of_nat n < 18446744073709551488)%Z) by lia.
    assert (P : (2^64)%N = 18446744073709551616%N) by reflexivity.
    pose proof (to_int_le (Z.of_N (if 56 <=? n mod 64 then add64 (N.of_nat n / 64 * 64) 128
                       else add64 (N.of_nat n / 64 * 64) 64))) as U. fold v in U.
    destruct (Z.lt_ge_cases 2147483648 (Z.of_nat n)) as [|Hsm]; [lia|].
    exfalso. revert Hv. unfold v.
    destruct (Nat.leb_spec 56 (n mod 64)); unfold add64; rewrite u64_id by (rewrite P; lia).
    all: unfold to_int; rewrite Z.mod_small by lia.
    all: match goal with |- context [(?x <? 2147483648)%Z] => destruct (Z.ltb_spec x 2147483648) end; lia. }
  unfold alloc. cbv beta iota zeta. rewrite Nat2N.id. unfold n.
  rewrite (memcpy_oob _ _ _ data (repeat None (Z.to_nat v / 4 * 4))); auto.
  - apply has_bytes_alloc. auto.
  - simpl. apply nth_error_last.
  - intros ->. unfold n in *. simpl in *. lia.
  - rewrite repeat_length. cbn [poff]. rewrite Nat.add_0_l. fold n.
    pose proof (Nat.mul_div_le (Z.to_nat v) 4 ltac:(lia)). clearbody v n. lia.
Qed.

Theorem sha256_auth_too_long m digest message data :
  has_bytes m message data ->
  (2^31 < Z.of_nat (length data) + 73)%Z -> (Z.of_nat (length data) + 128 < 2^64)%Z ->
  sha256_auth m digest message (N.of_nat (length data)) = UB.
Proof. intros. apply sha256_with_too_long; auto. apply leb_mod_N. Qed.
