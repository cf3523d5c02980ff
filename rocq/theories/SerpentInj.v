(** Serpent: the rounds and the key schedule lose no information. *)
From Coq Require Import NArith ZArith Arith List Lia Bool ZifyN ZifyNat.
From Verif Require Import Res Words Mem MemSpec ListLemmas MemLemmas SpecWords WordsLemmas
  XorProofs ShaProofs Finite SerpentModel SerpentProofs.
From Verif Require SerpentSpec.
Import ListNotations.
Local Open Scope nat_scope.

Lemma b2n_add b c : (b < 2)%N -> N.testbit (b + 2 * c) 0 = N.eqb b 1 /\ forall j, N.testbit (b + 2 * c) (N.succ j) = N.testbit c j.
Proof.
  intros H. assert (b = N.b2n (N.eqb b 1)) as E by (destruct (N.eqb_spec b 1); cbn [N.b2n]; lia).
  rewrite E at 1. rewrite N.add_comm, N.testbit_0_r. split.
  - reflexivity.
  - intros j. rewrite E, N.add_comm, N.testbit_succ_r. reflexivity.
Qed.

Lemma column_bits a b c d i :
  N.testbit (SerpentSpec.column [a; b; c; d] i) 0 = N.testbit a i /\
  N.testbit (SerpentSpec.column [a; b; c; d] i) 1 = N.testbit b i /\
  N.testbit (SerpentSpec.column [a; b; c; d] i) 2 = N.testbit c i /\
  N.testbit (SerpentSpec.column [a; b; c; d] i) 3 = N.testbit d i /\
  (SerpentSpec.column [a; b; c; d] i < 16)%N.
Proof.
  unfold SerpentSpec.column. cbn [fold_right].
  destruct (N.testbit a i), (N.testbit b i), (N.testbit c i), (N.testbit d i); vm_compute; auto.
Qed.

Lemma S_apply_lt k x : k < 8 -> (SerpentSpec.S_apply k x < 16)%N.
Proof.
  intros H. unfold SerpentSpec.S_apply.
  destruct (Nat.lt_ge_cases (N.to_nat x) 16).
  - assert (B : forallb (fun k => forallb (fun x => (nth x (nth k SerpentSpec.S_tables []) 0 <? 16)%N) (seq 0 16)) (seq 0 8) = true)
      by (vm_compute; reflexivity).
    rewrite forallb_forall in B. specialize (B k ltac:(apply in_seq; lia)). cbn beta in B.
    rewrite forallb_forall in B. apply N.ltb_lt. apply B. apply in_seq. lia.
  - rewrite nth_overflow; [lia|].
    do 8 (destruct k as [|k]; [exact H0|]). lia.
Qed.

(** S_words acts column by column. *)
Lemma S_words_column k x i : k < 8 -> (i < 32)%N ->
  SerpentSpec.column (SerpentSpec.S_words k x) i = SerpentSpec.S_apply k (SerpentSpec.column x i).
Proof.
  intros Hk Hi. unfold SerpentSpec.S_words at 1, SerpentSpec.column at 1. cbn [map fold_right].
  rewrite !word_of_testbit, (proj2 (N.ltb_lt i 32) Hi). cbn [andb].
  pose proof (S_apply_lt k (SerpentSpec.column x i) Hk) as L.
  set (v := SerpentSpec.S_apply k (SerpentSpec.column x i)) in *. clearbody v.
  assert (B : forallb (fun v => N.eqb (N.b2n (N.testbit v 0) + 2 * (N.b2n (N.testbit v 1) + 2 * (N.b2n (N.testbit v 2) + 2 * (N.b2n (N.testbit v 3) + 2 * 0)))) v) (map N.of_nat (seq 0 16)) = true)
    by (vm_compute; reflexivity).
  rewrite forallb_forall in B. apply N.eqb_eq. apply B.
  rewrite <- (N2Nat.id v). apply in_map. apply in_seq. lia.
Qed.

Lemma S_apply_inj k x y : k < 8 -> (x < 16)%N -> (y < 16)%N -> SerpentSpec.S_apply k x = SerpentSpec.S_apply k y -> x = y.
Proof.
  intros Hk Hx Hy E.
  assert (B : forallb (fun k => forallb (fun x => forallb (fun y =>
      implb (N.eqb (nth x (nth k SerpentSpec.S_tables []) 0%N) (nth y (nth k SerpentSpec.S_tables []) 0%N)) (Nat.eqb x y)) (seq 0 16)) (seq 0 16)) (seq 0 8) = true)
    by (vm_compute; reflexivity).
  rewrite forallb_forall in B. specialize (B k ltac:(apply in_seq; lia)). cbn beta in B.
  rewrite forallb_forall in B. specialize (B (N.to_nat x) ltac:(apply in_seq; lia)). cbn beta in B.
  rewrite forallb_forall in B. specialize (B (N.to_nat y) ltac:(apply in_seq; lia)). cbn beta in B.
  unfold SerpentSpec.S_apply in E. rewrite E, N.eqb_refl in B. cbn [implb] in B. apply Nat.eqb_eq in B. lia.
Qed.

Definition is4 (x : list N) : Prop := length x = 4 /\ words_ok x.

Lemma is4_inv x : is4 x -> exists a b c d, x = [a; b; c; d] /\ w4 a b c d.
Proof.
  intros [L W]. destruct x as [|a [|b [|c [|d [|? ?]]]]]; try discriminate L.
  inversion W as [|? ? W0 X']; subst. inversion X' as [|? ? W1 X'']; subst.
  inversion X'' as [|? ? W2 X3]; subst. inversion X3 as [|? ? W3 _]; subst.
  exists a, b, c, d. split; [reflexivity|]. unfold w4. auto.
Qed.

Lemma is4_S k x : is4 (SerpentSpec.S_words k x).
Proof.
  destruct (S_words_4 k x) as (a & b & c & d & -> & Ha & Hb & Hc & Hd). split; [reflexivity|].
  constructor; [exact Ha|constructor; [exact Hb|constructor; [exact Hc|constructor; [exact Hd|constructor]]]].
Qed.

Lemma bits_eq x y : (x < 2^32)%N -> (y < 2^32)%N -> (forall i, (i < 32)%N -> N.testbit x i = N.testbit y i) -> x = y.
Proof.
  intros Hx Hy H. apply N.bits_inj. intros i. destruct (N.lt_ge_cases i 32); [apply H; assumption|].
  rewrite (proj1 (lt_pow2_testbit x 32) Hx i), (proj1 (lt_pow2_testbit y 32) Hy i) by assumption. reflexivity.
Qed.

Lemma S_words_inj k x y : k < 8 -> is4 x -> is4 y -> SerpentSpec.S_words k x = SerpentSpec.S_words k y -> x = y.
Proof.
  intros Hk Hx Hy E.
  destruct (is4_inv x Hx) as (a & b & c & d & -> & Ha & Hb & Hc & Hd).
  destruct (is4_inv y Hy) as (a' & b' & c' & d' & -> & Ha' & Hb' & Hc' & Hd').
  assert (C : forall i, (i < 32)%N -> SerpentSpec.column [a; b; c; d] i = SerpentSpec.column [a'; b'; c'; d'] i).
  { intros i Hi. apply (S_apply_inj k); [exact Hk|apply column_bits|apply column_bits|].
    rewrite <- !S_words_column by assumption. rewrite E. reflexivity. }
  assert (Q : forall i, (i < 32)%N -> N.testbit a i = N.testbit a' i /\ N.testbit b i = N.testbit b' i /\
      N.testbit c i = N.testbit c' i /\ N.testbit d i = N.testbit d' i).
  { intros i Hi. destruct (column_bits a b c d i) as (<- & <- & <- & <- & _).
    destruct (column_bits a' b' c' d' i) as (<- & <- & <- & <- & _). rewrite C by exact Hi. auto. }
  f_equal; [|f_equal; [|f_equal; [|f_equal]]]; apply bits_eq; auto; intros i Hi; apply (Q i Hi).
Qed.

Lemma rol_inj n x y : (0 < n < 32)%N -> (x < 2^32)%N -> (y < 2^32)%N -> rol_w32 n x = rol_w32 n y -> x = y.
Proof.
  intros Hn Hx Hy E. rewrite <- (rol_w32_inv n x), <- (rol_w32_inv n y) by assumption. rewrite E. reflexivity.
Qed.

Lemma lxor_inj_r a b c : N.lxor a c = N.lxor b c -> a = b.
Proof.
  intros E. rewrite <- (N.lxor_0_r a), <- (N.lxor_0_r b), <- (N.lxor_nilpotent c), <- !N.lxor_assoc, E. reflexivity.
Qed.

Lemma lxor_inj_l a b c : N.lxor c a = N.lxor c b -> a = b.
Proof. rewrite !(N.lxor_comm c). apply lxor_inj_r. Qed.

Lemma LT_is4 x : is4 x -> is4 (SerpentSpec.LT x).
Proof.
  intros Hx. destruct (is4_inv x Hx) as (a & b & c & d & -> & W).
  pose proof (LT_ok a b c d W) as H. destruct (LT a b c d) as [[[a' b'] c'] d'].
  destruct H as [-> (Ha & Hb & Hc & Hd)]. split; [reflexivity|].
  constructor; [exact Ha|constructor; [exact Hb|constructor; [exact Hc|constructor; [exact Hd|constructor]]]].
Qed.

Lemma LT_inj x y : is4 x -> is4 y -> SerpentSpec.LT x = SerpentSpec.LT y -> x = y.
Proof.
  intros Hx Hy E.
  destruct (is4_inv x Hx) as (a & b & c & d & -> & Ha & Hb & Hc & Hd).
  destruct (is4_inv y Hy) as (a' & b' & c' & d' & -> & Ha' & Hb' & Hc' & Hd').
  unfold SerpentSpec.LT in E. cbv zeta in E.
  assert (M : forall x n, ((x * 2^n) mod 2^32 < 2^32)%N) by (intros; apply N.mod_lt; discriminate).
  pose proof (fun x n Hx Hn => rol_w32_lt x n Hx Hn) as RL.
  assert (A0 := RL a 13%N Ha ltac:(reflexivity)). assert (A0' := RL a' 13%N Ha' ltac:(reflexivity)).
  assert (C0 := RL c 3%N Hc ltac:(reflexivity)). assert (C0' := RL c' 3%N Hc' ltac:(reflexivity)).
  assert (Ia : rol_w32 13 a = rol_w32 13 a' -> a = a') by (apply rol_inj; auto; lia).
  assert (Ic : rol_w32 3 c = rol_w32 3 c' -> c = c') by (apply rol_inj; auto; lia).
  revert E. set (x0 := rol_w32 13 a) in *. set (x0' := rol_w32 13 a') in *.
  set (x2 := rol_w32 3 c) in *. set (x2' := rol_w32 3 c') in *. clearbody x0 x0' x2 x2'.
  set (p1 := N.lxor b (N.lxor x0 x2)). set (p1' := N.lxor b' (N.lxor x0' x2')).
  set (p3 := N.lxor d (N.lxor x2 ((x0 * 2^3) mod 2^32))). set (p3' := N.lxor d' (N.lxor x2' ((x0' * 2^3) mod 2^32))).
  assert (P1 : (p1 < 2^32)%N) by (unfold p1; auto using lxor_lt).
  assert (P1' : (p1' < 2^32)%N) by (unfold p1'; auto using lxor_lt).
  assert (P3 : (p3 < 2^32)%N) by (unfold p3; auto using lxor_lt).
  assert (P3' : (p3' < 2^32)%N) by (unfold p3'; auto using lxor_lt).
  assert (I1 : rol_w32 1 p1 = rol_w32 1 p1' -> p1 = p1') by (apply rol_inj; auto; lia).
  assert (I3 : rol_w32 7 p3 = rol_w32 7 p3' -> p3 = p3') by (apply rol_inj; auto; lia).
  assert (Q1 := RL p1 1%N P1 ltac:(reflexivity)). assert (Q1' := RL p1' 1%N P1' ltac:(reflexivity)).
  assert (Q3 := RL p3 7%N P3 ltac:(reflexivity)). assert (Q3' := RL p3' 7%N P3' ltac:(reflexivity)).
  set (x1 := rol_w32 1 p1) in *. set (x1' := rol_w32 1 p1') in *.
  set (x3 := rol_w32 7 p3) in *. set (x3' := rol_w32 7 p3') in *.
  intros E. injection E as E0 E1 E2 E3.
  apply rol_inj in E0; auto using lxor_lt; [|lia]. 
  apply rol_inj in E2; [|lia|repeat apply lxor_lt; first [assumption|apply N.mod_lt; discriminate]..].
  rewrite E1, E3 in E0. apply lxor_inj_r in E0.
  rewrite E1, E3 in E2. apply lxor_inj_r in E2.
  apply I1 in E1. apply I3 in E3. unfold p1, p1' in E1. unfold p3, p3' in E3.
  rewrite E0, E2 in E1. apply lxor_inj_r in E1. rewrite E0, E2 in E3. apply lxor_inj_r in E3.
  rewrite (Ia E0), (Ic E2), E1, E3. reflexivity.
Qed.

Lemma xor_words_is4 x k : is4 x -> is4 k -> is4 (SerpentSpec.xor_words x k).
Proof.
  intros Hx Hk. destruct (is4_inv x Hx) as (a & b & c & d & -> & Ha & Hb & Hc & Hd).
  destruct (is4_inv k Hk) as (a' & b' & c' & d' & -> & Ha' & Hb' & Hc' & Hd').
  split; [reflexivity|].
  repeat (constructor; [apply lxor_lt; assumption|]). constructor.
Qed.

Lemma xor_words_inj x y k : is4 x -> is4 y -> is4 k ->
  SerpentSpec.xor_words x k = SerpentSpec.xor_words y k -> x = y.
Proof.
  intros Hx Hy Hk. destruct (is4_inv x Hx) as (a & b & c & d & -> & _).
  destruct (is4_inv y Hy) as (a' & b' & c' & d' & -> & _).
  destruct (is4_inv k Hk) as (ka & kb & kc & kd & -> & _).
  unfold SerpentSpec.xor_words. cbn [combine map fst snd]. intros E. injection E as E0 E1 E2 E3.
  rewrite (lxor_inj_r _ _ _ E0), (lxor_inj_r _ _ _ E1), (lxor_inj_r _ _ _ E2), (lxor_inj_r _ _ _ E3). reflexivity.
Qed.

Lemma key_is4 ks i : keys_ok ks -> i < length ks -> is4 (nth i ks []).
Proof. intros H Hi. unfold keys_ok in H. rewrite Forall_forall in H. apply H. apply nth_In. exact Hi. Qed.

Lemma after_is4 ks n x : keys_ok ks -> n <= length ks -> is4 x -> is4 (SerpentSpec.after ks n x).
Proof.
  intros Hk. induction n as [|n IH]; intros Hn Hx; [exact Hx|].
  rewrite after_S. apply LT_is4. apply is4_S.
Qed.

Lemma after_inj ks n x y : keys_ok ks -> n <= length ks -> is4 x -> is4 y ->
  SerpentSpec.after ks n x = SerpentSpec.after ks n y -> x = y.
Proof.
  intros Hk. induction n as [|n IH]; intros Hn Hx Hy E; [exact E|].
  rewrite !after_S in E. unfold SerpentSpec.round in E.
  apply LT_inj in E; try apply is4_S.
  assert (K : is4 (nth n ks [])) by (apply key_is4; [exact Hk|lia]).
  assert (Ax := after_is4 ks n x Hk ltac:(lia) Hx). assert (Ay := after_is4 ks n y Hk ltac:(lia) Hy).
  apply S_words_inj in E; [|apply Nat.mod_upper_bound; lia|apply xor_words_is4; assumption|apply xor_words_is4; assumption].
  apply xor_words_inj in E; try assumption. apply IH; [lia|assumption..].
Qed.

(** *** Key schedule *)

Lemma nth_map_seq {A} (f : nat -> A) n i d : i < n -> nth i (map f (seq 0 n)) d = f i.
Proof.
  intros H. rewrite (nth_indep _ d (f 0)) by (rewrite map_length, seq_length; exact H).
  rewrite map_nth, seq_nth by exact H. reflexivity.
Qed.

Lemma le_words_inj n : forall a b, bytes_ok a -> bytes_ok b -> length a = 4 * n -> length b = 4 * n ->
  map le_num (chunks 4 a) = map le_num (chunks 4 b) -> a = b.
Proof.
  induction n as [|n IH]; intros a b Ha Hb La Lb E.
  - destruct a; [|simpl in La; lia]. destruct b; [|simpl in Lb; lia]. reflexivity.
  - rewrite <- (firstn_skipn 4 a), <- (firstn_skipn 4 b) in E |- *.
    assert (F1 : length (firstn 4 a) = 4) by (apply firstn_length_le; lia).
    assert (F2 : length (firstn 4 b) = 4) by (apply firstn_length_le; lia).
    rewrite !chunks_app in E by lia. cbn [map] in E.
    assert (E1 := f_equal (hd 0%N) E). assert (E2 := f_equal (@tl N) E). cbn [hd tl] in E1, E2. f_equal.
    + pose proof (le_str_num _ (Forall_firstn _ 4 _ Ha)) as Q1. pose proof (le_str_num _ (Forall_firstn _ 4 _ Hb)) as Q2.
      rewrite F1 in Q1. rewrite F2 in Q2. rewrite <- Q1, <- Q2, E1. reflexivity.
    + apply IH; [apply Forall_skipn; exact Ha|apply Forall_skipn; exact Hb|rewrite skipn_length; lia|rewrite skipn_length; lia|exact E2].
Qed.

Lemma key_words_inj k k' : bytes_ok k -> bytes_ok k' -> length k = 32 -> length k' = 32 ->
  SerpentSpec.key_words k = SerpentSpec.key_words k' -> k = k'.
Proof. intros Hk Hk' L LL E. apply (le_words_inj 8); auto. Qed.

Lemma pad_with_inj f k k' : length k <= 32 -> length k = length k' ->
  SerpentSpec.pad_with f k = SerpentSpec.pad_with f k' -> k = k'.
Proof.
  intros L LL E.
  unfold SerpentSpec.pad_with in E. apply (f_equal (firstn (length k))) in E.
  rewrite !firstn_firstn, !Nat.min_l in E by lia.
  rewrite firstn_app, firstn_all, Nat.sub_diag in E. cbn [firstn] in E. rewrite app_nil_r in E.
  rewrite LL, firstn_app, firstn_all, Nat.sub_diag in E. cbn [firstn] in E. rewrite app_nil_r in E. exact E.
Qed.

Lemma pad_with_first f f' k : length k < 32 -> SerpentSpec.pad_with f k = SerpentSpec.pad_with f' k -> f = f'.
Proof.
  intros L E. rewrite !pad_with_short in E by exact L. apply app_inv_tail in E. apply app_inv_head in E. congruence.
Qed.

Lemma subkeys_same P P' : length P = 100 -> length P' = 100 -> words_ok P -> words_ok P' ->
  map (fun i => SerpentSpec.S_words (SerpentSpec.key_sbox i) (firstn 4 (skipn (4 * i) P))) (seq 0 25) =
  map (fun i => SerpentSpec.S_words (SerpentSpec.key_sbox i) (firstn 4 (skipn (4 * i) P'))) (seq 0 25) ->
  forall j, j < 16 -> nth j P 0%N = nth j P' 0%N.
Proof.
  intros LP LP' WP WP' E.
  assert (Q : forall i, i < 25 -> firstn 4 (skipn (4 * i) P) = firstn 4 (skipn (4 * i) P')).
  { intros i Hi.
    assert (X : nth i (map (fun i => SerpentSpec.S_words (SerpentSpec.key_sbox i) (firstn 4 (skipn (4 * i) P))) (seq 0 25)) [] =
      nth i (map (fun i => SerpentSpec.S_words (SerpentSpec.key_sbox i) (firstn 4 (skipn (4 * i) P'))) (seq 0 25)) []) by (rewrite E; reflexivity).
    rewrite !nth_map_seq in X by exact Hi.
    apply S_words_inj in X; [exact X|apply Nat.mod_upper_bound; lia| |].
    - split; [rewrite firstn_length, skipn_length; lia|apply Forall_firstn, Forall_skipn; exact WP].
    - split; [rewrite firstn_length, skipn_length; lia|apply Forall_firstn, Forall_skipn; exact WP']. }
  intros j Hj. pose proof (Q (j / 4) ltac:(lia)) as X.
  rewrite !four in X by lia.
  assert (Y : forall k, nth k [nth (4 * (j / 4)) P 0%N; nth (4 * (j / 4) + 1) P 0%N; nth (4 * (j / 4) + 2) P 0%N; nth (4 * (j / 4) + 3) P 0%N] 0%N =
     nth k [nth (4 * (j / 4)) P' 0%N; nth (4 * (j / 4) + 1) P' 0%N; nth (4 * (j / 4) + 2) P' 0%N; nth (4 * (j / 4) + 3) P' 0%N] 0%N) by (rewrite X; reflexivity).
  assert (j = 4 * (j / 4) + j mod 4) as -> by lia.
  set (q := j / 4) in *. assert (Hr : j mod 4 < 4) by lia. generalize dependent (j mod 4). intros r Hr.
  replace ((4 * q + r) / 4) with q in * by lia.
  destruct r as [|[|[|[|?]]]]; try lia; rewrite ?Nat.add_0_r.
  - exact (Y 0).
  - exact (Y 1).
  - exact (Y 2).
  - exact (Y 3).
Qed.

Definition recur (full : list N) : Prop := forall j, j < 100 ->
  nth (j + 8) full 0%N = rol_w32 11 (N.lxor (nth j full 0%N) (N.lxor (nth (j + 3) full 0%N) (N.lxor (nth (j + 5) full 0%N)
    (N.lxor (nth (j + 7) full 0%N) (N.lxor SerpentSpec.golden (0 + N.of_nat j)))))).

Lemma recur_back l l' P P' : length l = 8 -> length l' = 8 -> words_ok l -> words_ok l' -> words_ok P -> words_ok P' ->
  recur (l ++ P) -> recur (l' ++ P') -> (forall j, j < 16 -> nth j P 0%N = nth j P' 0%N) -> l = l'.
Proof.
  intros Lw Lw' W W' WP WP' R0 R0' NP.
  set (full := l ++ P) in *. set (full' := l' ++ P') in *.
  assert (NF : forall j, 8 <= j < 24 -> nth j full 0%N = nth j full' 0%N).
  { intros j Hj. unfold full, full'. rewrite !app_nth2 by lia. rewrite Lw, Lw'. apply NP. lia. }
  assert (Wf : forall j, (nth j full 0 < 2^32)%N) by (intros; apply words_ok_nth; apply Forall_app; auto).
  assert (Wf' : forall j, (nth j full' 0 < 2^32)%N) by (intros; apply words_ok_nth; apply Forall_app; auto).
  assert (B : forall n, n <= 8 -> forall j, 8 - n <= j < 24 -> nth j full 0%N = nth j full' 0%N).
  { induction n as [|n IH]; intros Hn j Hj; [apply NF; lia|].
    destruct (Nat.eq_dec j (8 - S n)) as [Ej|]; [|apply IH; lia].
    pose proof (R0 j ltac:(lia)) as R. pose proof (R0' j ltac:(lia)) as R'.
    rewrite (IH ltac:(lia) (j + 8)) in R by lia. rewrite R' in R.
    assert (N.of_nat j < 2^32)%N by lia.
    assert (G : (SerpentSpec.golden < 2^32)%N) by reflexivity.
    apply rol_inj in R; [| lia | repeat apply lxor_lt; auto| repeat apply lxor_lt; auto].
    rewrite (IH ltac:(lia) (j + 3)), (IH ltac:(lia) (j + 5)), (IH ltac:(lia) (j + 7)) in R by lia.
    apply lxor_inj_r in R. symmetry. exact R. }
  apply (nth_ext _ _ 0%N 0%N); [lia|]. intros j Hj. specialize (B 8 ltac:(lia) j ltac:(lia)).
  unfold full, full' in B. rewrite !app_nth1 in B by lia. exact B.
Qed.

Lemma prekey_recur l : length l = 8 -> recur (l ++ SerpentSpec.prekey_list 100 0 l).
Proof. intros L j Hj. exact (prekey_rec 100 0 l j L Hj). Qed.

Lemma subkeys_of_inj k k' : bytes_ok k -> bytes_ok k' -> length k = 32 -> length k' = 32 ->
  SerpentSpec.subkeys_of k = SerpentSpec.subkeys_of k' -> k = k'.
Proof.
  intros Hk Hk' L LL E. apply key_words_inj; auto.
  destruct (key_words_ok k Hk L) as [W Lw]. destruct (key_words_ok k' Hk' LL) as [W' Lw'].
  unfold SerpentSpec.subkeys_of in E. revert E W Lw W' Lw'.
  generalize (SerpentSpec.key_words k) (SerpentSpec.key_words k'). intros l l' E W Lw W' Lw'.
  pose proof (prekey_recur l Lw) as R. pose proof (prekey_recur l' Lw') as R'.
  pose proof (prekey_list_length 100 0 l Lw) as LP. pose proof (prekey_list_length 100 0 l' Lw') as LP'.
  assert (WP : words_ok (SerpentSpec.prekey_list 100 0 l)) by (apply prekey_words; [exact Lw|exact W|lia]).
  assert (WP' : words_ok (SerpentSpec.prekey_list 100 0 l')) by (apply prekey_words; [exact Lw'|exact W'|lia]).
  revert E R R' LP LP' WP WP'. generalize (SerpentSpec.prekey_list 100 0 l) (SerpentSpec.prekey_list 100 0 l').
  intros P P' E R R' LP LP' WP WP'.
  apply (recur_back l l' P P'); auto. apply subkeys_same; auto.
Qed.
