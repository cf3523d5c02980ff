(** The AEGIS-128 state functions compute those of the specification. *)
From Coq Require Import Arith NArith ZArith List Bool Lia.
From Verif Require Import Res Words Mem MemSpec ListLemmas MemLemmas SpecWords WordsLemmas Ints XorProofs IoProofs
  AesTables AesSpec AesModel AesProofs AesCtrLink AegisSpec AegisModel.
Import ListNotations.
Local Open Scope N_scope.

(** ** Registers *)
Lemma words_of_ok s : st16 s -> words_ok (words_of s) /\ length (words_of s) = 4%nat /\ vload (words_of s) = s.
Proof.
  intros H. pose proof (vload_vstore s H) as V. unfold words_of. split; [|split; [|exact V]].
  - destruct H as [B L]. destruct (list16 s L) as (a0&a1&a2&a3&a4&a5&a6&a7&a8&a9&a10&a11&a12&a13&a14&a15&->).
    unfold bytes_ok in B. repeat rewrite Forall_cons_iff in B.
    destruct B as (?&?&?&?&?&?&?&?&?&?&?&?&?&?&?&?&_).
    unfold vstore, vword, quad. cbn [Nat.mul Nat.add nth].
    repeat constructor; apply W_lt; assumption.
  - destruct (vstore s) as [[[a b] c] d]. reflexivity.
Qed.

Lemma words_of_le s : st16 s -> le_bytes (words_of s) = s.
Proof. apply le_bytes_vstore. Qed.

Lemma xor_st16 a b : st16 a -> st16 b -> st16 (xor_bytes a b).
Proof. apply add_st16. Qed.

Lemma xor4_ok a b : st16 a -> st16 b -> xor4 (words_of a) (words_of b) = words_of (xor_bytes a b).
Proof.
  intros Ha Hb. destruct (words_of_ok b Hb) as (Wb & Lb & Vb).
  pose proof (initial_round_ok a (words_of b) Ha Wb ltac:(lia)) as E. rewrite Vb in E.
  unfold words_of at 3. change (xor_bytes a b) with (add_round_key a b). rewrite <- E.
  unfold xor4, words_of, initial_round. destruct (vstore a) as [[[a0 a1] a2] a3]. reflexivity.
Qed.

Lemma around_ok b s k : st16 s -> st16 k -> around b (words_of s) (words_of k) = words_of (aes_round s k).
Proof.
  intros Hs Hk. destruct (words_of_ok k Hk) as (Wk & Lk & Vk). destruct (words_of_ok s Hs) as (_ & _ & Vs).
  destruct b; cbn [around].
  - pose proof (round_ok s (words_of k) Hs Wk ltac:(lia)) as E. rewrite Vk in E.
    transitivity (quad (AesModel.round (vstore s) (words_of k))).
    + unfold words_of. destruct (vstore s) as [[[a0 a1] a2] a3]. reflexivity.
    + rewrite E. reflexivity.
  - rewrite Vs, Vk, aesenc_ok by exact Hs. reflexivity.
  - rewrite Vs, Vk. rewrite aese_ok by (first [exact Hk|apply add_st16; assumption]).
    change (vxor s k) with (xor_bytes s k). unfold add_round_key. rewrite xor_bytes_invol.
    + reflexivity.
    + destruct Hs as [_ ->]. destruct Hk as [_ ->]. lia.
Qed.

(** ** The state *)
Definition st_ok (S : state) : Prop := st16 (S0 S) /\ st16 (S1 S) /\ st16 (S2 S) /\ st16 (S3 S) /\ st16 (S4 S).
Definition enc (K : list N) (S : state) : aegis_state :=
  Aegis (words_of K) (words_of (S0 S)) (words_of (S1 S)) (words_of (S2 S)) (words_of (S3 S)) (words_of (S4 S)).

Lemma update_st_ok S m : st_ok S -> st16 m -> st_ok (update S m).
Proof.
  intros (H0 & H1 & H2 & H3 & H4) Hm. unfold update, st_ok. cbn [S0 S1 S2 S3 S4].
  repeat split; try (apply aes_round_st16; [assumption|]; first [apply xor_st16; assumption|assumption]).
Qed.

Lemma update_ok b K S m : st_ok S -> st16 m ->
  aegis_state_update b (enc K S) (words_of m) = enc K (update S m).
Proof.
  intros (H0 & H1 & H2 & H3 & H4) Hm. unfold aegis_state_update, enc, update.
  cbn [AegisModel.key s0 s1 s2 s3 s4 S0 S1 S2 S3 S4].
  rewrite xor4_ok by assumption. rewrite !around_ok by (first [assumption|apply xor_st16; assumption]). reflexivity.
Qed.

Lemma enc_St K a b c d e :
  Aegis (words_of K) (words_of a) (words_of b) (words_of c) (words_of d) (words_of e) = enc K (St a b c d e).
Proof. reflexivity. Qed.

(** ** Initialisation *)
Lemma const_words : words_of (firstn 16 constant) = words_of const0 /\ words_of (skipn 16 constant) = words_of const1.
Proof. vm_compute. split; reflexivity. Qed.
Lemma const_st16 : st16 const0 /\ st16 const1.
Proof.
  assert (E : forallb byteb const0 = true /\ forallb byteb const1 = true /\ length const0 = 16%nat /\ length const1 = 16%nat)
    by (vm_compute; repeat split; reflexivity).
  destruct E as (B0 & B1 & L0 & L1). unfold st16, bytes_ok. rewrite !Forall_forall.
  rewrite forallb_forall in B0, B1. repeat split; try assumption; intros x Hx.
  - apply N.ltb_lt, B0. exact Hx.
  - apply N.ltb_lt, B1. exact Hx.
Qed.

Lemma initial_ok K IV : st16 K -> st16 IV -> st_ok (initial K IV).
Proof.
  intros HK HI. destruct const_st16 as [C0 C1]. unfold initial, st_ok. cbn [S0 S1 S2 S3 S4].
  repeat split; try apply xor_st16; try assumption; try apply C0; try apply C1; apply xor_st16; assumption.
Qed.
Lemma initialize_st_ok K IV : st16 K -> st16 IV -> st_ok (initialize K IV).
Proof.
  intros HK HI. pose proof (initial_ok K IV HK HI) as H. pose proof (xor_st16 K IV HK HI) as HX.
  unfold initialize, rounds2. repeat (apply update_st_ok; [|assumption]). exact H.
Qed.

Lemma ld_words4 m p l : has_bytes m p l -> length l = 16%nat -> ld_words m p 4 = Ret (words_of l).
Proof.
  intros H L.
  pose proof (has_bytes_skipn m p l 4 ltac:(lia) H) as H4.
  pose proof (has_bytes_skipn m p l 8 ltac:(lia) H) as H8.
  pose proof (has_bytes_skipn m p l 12 ltac:(lia) H) as H12.
  destruct (list16 l L) as (a0&a1&a2&a3&a4&a5&a6&a7&a8&a9&a10&a11&a12&a13&a14&a15&->).
  cbn [skipn] in H4, H8, H12. rewrite <- (padd_0 p) in H.
  unfold ld_words. cbn [for_n].
  change (4 * 0)%nat with 0%nat. change (4 * 1)%nat with 4%nat. change (4 * 2)%nat with 8%nat. change (4 * 3)%nat with 12%nat.
  rewrite (has_bytes_ld32 _ _ _ _ _ _ _ H). cbn [bind app].
  rewrite (has_bytes_ld32 _ _ _ _ _ _ _ H4). cbn [bind app].
  rewrite (has_bytes_ld32 _ _ _ _ _ _ _ H8). cbn [bind app].
  rewrite (has_bytes_ld32 _ _ _ _ _ _ _ H12). cbn [bind app]. reflexivity.
Qed.

Lemma message_block (k x : list N) i : length k = 4%nat -> length x = 4%nat -> (i < 10)%nat ->
  firstn 4 (skipn (4 * i) (concat (repeat (k ++ x) 5))) = if Nat.even i then k else x.
Proof.
  intros Lk Lx Hi.
  destruct k as [|k0 [|k1 [|k2 [|k3 [|]]]]]; try discriminate.
  destruct x as [|x0 [|x1 [|x2 [|x3 [|]]]]]; try discriminate.
  do 10 (destruct i as [|i]; [reflexivity|]). lia.
Qed.

Lemma initialize_ok b K cs m iv IV : st16 K -> st16 IV -> AegisModel.key cs = words_of K -> has_bytes m iv IV ->
  aegis_initialize b cs m iv = Ret (enc K (initialize K IV)).
Proof.
  intros HK HI Hk Hiv. unfold aegis_initialize. rewrite (ld_words4 _ _ _ Hiv (proj2 HI)). cbn [bind].
  rewrite Hk. destruct const_words as [-> ->]. destruct const_st16 as [C0 C1].
  rewrite !xor4_ok by assumption. cbn [AegisModel.key].
  pose proof (initial_ok K IV HK HI) as H. pose proof (xor_st16 K IV HK HI) as HX.
  rewrite enc_St. unfold initialize. fold (initial K IV).
  destruct (words_of_ok K HK) as (_ & LK & _). destruct (words_of_ok _ HX) as (_ & LX & _).
  revert HX LX. generalize (xor_bytes K IV) as X. revert H. generalize (initial K IV) as S.
  intros S H X HX LX. f_equal. cbn [iter_n].
  rewrite !message_block by (first [assumption|lia]). cbn [Nat.even].
  unfold rounds2. rewrite !update_ok by (repeat (first [assumption|apply update_st_ok])). reflexivity.
Qed.

(** ** Associated data *)
Lemma pad16_st16 l : bytes_ok l -> (length l <= 16)%nat -> st16 (pad16 l).
Proof.
  intros B L. unfold pad16. split.
  - apply Forall_app. split; [exact B|]. apply Forall_forall. intros x Hx. apply repeat_spec in Hx. lia.
  - rewrite app_length, repeat_length. lia.
Qed.
Lemma pad16_full l : length l = 16%nat -> pad16 l = l.
Proof. intros L. unfold pad16. rewrite L. apply app_nil_r. Qed.

Lemma absorb_cons S d1 d2 : length d1 = 16%nat -> absorb S (d1 ++ d2) = absorb (update S d1) d2.
Proof.
  intros L. unfold absorb. rewrite chunks_app by lia. cbn [map fold_left]. rewrite pad16_full by exact L. reflexivity.
Qed.
Lemma absorb_last S d : (0 < length d <= 16)%nat -> absorb S d = update S (pad16 d).
Proof.
  intros L. unfold absorb. destruct d as [|x d]; [cbn [length] in L; lia|].
  rewrite chunks_cons by (first [lia|discriminate]).
  rewrite firstn_all2, skipn_all2 by lia. rewrite chunks_nil. reflexivity.
Qed.
Lemma absorb_nil S : absorb S [] = S.
Proof. reflexivity. Qed.

Lemma absorb_st_ok S d : bytes_ok d -> st_ok S -> st_ok (absorb S d).
Proof.
  intros B H. unfold absorb. revert S H.
  assert (F : Forall st16 (map pad16 (chunks 16 d))).
  { remember (length d) as n eqn:En. revert d B En. induction n as [n IH] using lt_wf_ind. intros d B En.
    destruct d as [|x d]; [constructor|]. rewrite chunks_cons by (first [lia|discriminate]). cbn [map]. constructor.
    - apply pad16_st16; [apply Forall_firstn; exact B|]. rewrite firstn_length. lia.
    - apply (IH (length (skipn 16 (x :: d)))); [|apply Forall_skipn; exact B|reflexivity].
      rewrite skipn_length, En. cbn [length]. lia. }
  induction F as [|m ms Hm F IH]; intros S H; [exact H|]. cbn [fold_left]. apply IH. apply update_st_ok; assumption.
Qed.

Lemma words_of_app a l : length a = 16%nat -> words_of (a ++ l) = words_of a.
Proof.
  intros L. destruct (list16 a L) as (a0&a1&a2&a3&a4&a5&a6&a7&a8&a9&a10&a11&a12&a13&a14&a15&->). reflexivity.
Qed.

Lemma split16 {A} (d : list A) : (16 <= length d)%nat ->
  exists d1 d2, d = d1 ++ d2 /\ length d1 = 16%nat.
Proof.
  intros H. exists (firstn 16 d), (skipn 16 d). split; [symmetry; apply firstn_skipn|].
  rewrite firstn_length. lia.
Qed.

Lemma absorb_pad n : forall d z S, (length d + length z = 16 * n)%nat -> (length z < 16)%nat ->
  Forall (fun x => x = 0) z -> absorb S (d ++ z) = absorb S d.
Proof.
  induction n as [|n IH]; intros d z S L Lz Z.
  - destruct d; [|cbn [length] in L; lia]. destruct z; [reflexivity|cbn [length] in L; lia].
  - destruct (Nat.lt_ge_cases (length d) 16) as [Hd|Hd].
    + assert (n = 0%nat) by lia. subst n. rewrite !absorb_last by (rewrite ?app_length; lia).
      f_equal. unfold pad16. rewrite <- app_assoc. f_equal. rewrite app_length.
      replace (16 - (length d + length z))%nat with 0%nat by lia. replace (16 - length d)%nat with (length z) by lia.
      cbn [repeat]. rewrite app_nil_r. clear -Z. induction Z as [|x z Hx Z IH]; [reflexivity|].
      cbn [length repeat]. rewrite <- IH, Hx. reflexivity.
    + destruct (split16 d Hd) as (d1 & d2 & -> & L1). rewrite <- app_assoc. rewrite (absorb_cons S d1 (d2 ++ z)), (absorb_cons S d1 d2) by exact L1.
      apply IH; [|exact Lz|exact Z]. rewrite app_length in L. lia.
Qed.

Lemma int_ret_ok z : (int_min <= z <= int_max)%Z -> int_ret z = Ret z.
Proof.
  intros [H1 H2]. unfold int_ret. rewrite (proj2 (Z.leb_le _ _) H1), (proj2 (Z.leb_le _ _) H2). reflexivity.
Qed.

Lemma ad_loop_pad b K P n : forall i S, bytes_ok P -> st_ok S -> (length P = 16 * (i + n))%nat ->
  (4 * Z.of_nat (i + n) <= int_max + 4)%Z ->
  for_n n i (fun i cs =>
    let* w := int_ret (4 * Z.of_nat i) in
    Ret (aegis_state_update b cs (words_of (skipn (4 * Z.to_nat w) P)))) (enc K S) =
  Ret (enc K (absorb S (skipn (16 * i) P))).
Proof.
  induction n as [|n IH]; intros i S B H L Hi.
  - cbn [for_n]. rewrite skipn_all2 by lia. rewrite absorb_nil. reflexivity.
  - cbn [for_n]. rewrite int_ret_ok by (unfold int_min; lia). cbn [bind].
    replace (4 * Z.to_nat (4 * Z.of_nat i))%nat with (16 * i)%nat by lia.
    assert (E : skipn (16 * i) P = firstn 16 (skipn (16 * i) P) ++ skipn (16 * Datatypes.S i) P).
    { replace (16 * Datatypes.S i)%nat with (16 * i + 16)%nat by lia. rewrite <- skipn_skipn, firstn_skipn. reflexivity. }
    assert (L1 : length (firstn 16 (skipn (16 * i) P)) = 16%nat) by (rewrite firstn_length, skipn_length; lia).
    assert (M : st16 (firstn 16 (skipn (16 * i) P))) by (split; [apply Forall_firstn, Forall_skipn, B|exact L1]).
    rewrite E. rewrite words_of_app, absorb_cons by exact L1. rewrite update_ok by assumption.
    apply IH; [exact B|apply update_st_ok; assumption|lia|lia].
Qed.

Lemma ad_loop_mem b K m p n : forall i S d, has_bytes m (padd p (16 * i)) d -> st_ok S -> (length d = 16 * n)%nat ->
  (4 * Z.of_nat (i + n) <= int_max + 4)%Z ->
  for_n n i (fun i cs =>
    let* w := int_ret (4 * Z.of_nat i) in
    let* v := ld_words m (padd p (4 * Z.to_nat w)) 4 in
    Ret (aegis_state_update b cs v)) (enc K S) =
  Ret (enc K (absorb S d)).
Proof.
  induction n as [|n IH]; intros i S d Hd H L Hi.
  - destruct d; [|cbn [length] in L; lia]. reflexivity.
  - destruct (split16 d ltac:(lia)) as (d1 & d2 & -> & L1). rewrite app_length in L.
    apply has_bytes_app in Hd. destruct Hd as [Hd1 Hd2]. rewrite padd_padd, L1 in Hd2.
    pose proof (has_bytes_bytes _ _ _ Hd1) as B1.
    cbn [for_n]. rewrite int_ret_ok by (unfold int_min; lia). cbn [bind].
    replace (4 * Z.to_nat (4 * Z.of_nat i))%nat with (16 * i)%nat by lia.
    rewrite (ld_words4 _ _ _ Hd1 L1). cbn [bind]. rewrite update_ok by (first [exact H|split; assumption]).
    rewrite absorb_cons by exact L1.
    apply IH; [|apply update_st_ok; [exact H|split; assumption]|lia|lia].
    replace (16 * Datatypes.S i)%nat with (16 * i + 16)%nat by lia. exact Hd2.
Qed.

Lemma process_ad_ok b K S m p d : has_bytes m p d -> st_ok S -> N.of_nat (length d) <= 2^33 ->
  aegis_process_ad b (enc K S) m p (N.of_nat (length d)) = Ret (enc K (absorb S d)).
Proof.
  intros Hd H Hl. unfold aegis_process_ad. change (2^33) with 8589934592 in Hl.
  destruct (N.eqb_spec (N.of_nat (length d)) 0) as [E|E].
  { destruct d; [reflexivity|cbn [length] in E; lia]. }
  pose proof (N.div_mod (N.of_nat (length d)) 16 ltac:(lia)) as D.
  pose proof (N.mod_lt (N.of_nat (length d)) 16 ltac:(lia)) as R.
  set (q := N.of_nat (length d) / 16) in *. set (r := N.of_nat (length d) mod 16) in *.
  destruct (N.eqb_spec r 0) as [Er|Er]; cbn [negb].
  - assert (Q : N.to_nat ((N.of_nat (length d) + 15) / 16) = N.to_nat q).
    { f_equal. symmetry. apply (N.div_unique _ 16 q 15); lia. }
    rewrite Q. apply ad_loop_mem; [rewrite Nat.mul_0_r, padd_0; exact Hd|exact H|lia|unfold int_max; lia].
  - assert (Q : N.to_nat ((N.of_nat (length d) + 15) / 16) = N.to_nat (q + 1)).
    { f_equal. symmetry. apply (N.div_unique _ 16 (q + 1) (r - 1)); lia. }
    rewrite Q, Nat2N.id, (has_bytes_ldn _ _ _ Hd). cbn [bind].
    assert (Z : Forall (fun x => x = 0) (repeat 0 (N.to_nat (16 - r))))
      by (apply Forall_forall; intros x Hx; apply repeat_spec in Hx; exact Hx).
    rewrite ad_loop_pad.
    + change (16 * 0)%nat with 0%nat. rewrite skipn_O. rewrite (absorb_pad (N.to_nat (q + 1))); [reflexivity| | |exact Z]; rewrite repeat_length; lia.
    + apply Forall_app. split; [exact (has_bytes_bytes _ _ _ Hd)|].
      apply Forall_forall. intros x Hx. apply repeat_spec in Hx. lia.
    + exact H.
    + rewrite app_length, repeat_length. lia.
    + unfold int_max. lia.
Qed.

(** Longer associated data overflow the int index. *)
Lemma for_n_ub {A} (body : nat -> A -> res A) k n : forall i s, (i <= k < i + n)%nat ->
  (forall j s, (i <= j < k)%nat -> exists s', body j s = Ret s') -> (forall s, body k s = UB) ->
  for_n n i body s = UB.
Proof.
  induction n as [|n IH]; intros i s Hk HR HU; [lia|]. cbn [for_n].
  destruct (Nat.eq_dec i k) as [->|Hne].
  - rewrite HU. reflexivity.
  - destruct (HR i s ltac:(lia)) as [s' ->]. cbn [bind]. apply IH; [lia| |exact HU].
    intros j x Hj. apply HR. lia.
Qed.

Lemma nat_of z : (0 <= z)%Z -> exists k, Z.of_nat k = z.
Proof. intros H. exists (Z.to_nat z). apply Z2Nat.id. exact H. Qed.

Lemma process_ad_long b cs m p d : has_bytes m p d -> 2^33 < N.of_nat (length d) ->
  aegis_process_ad b cs m p (N.of_nat (length d)) = UB.
Proof.
  intros Hd Hl. unfold aegis_process_ad. change (2^33) with 8589934592 in Hl.
  destruct (N.eqb_spec (N.of_nat (length d)) 0) as [E|E]; [lia|].
  assert (Q : 536870912 < (N.of_nat (length d) + 15) / 16).
  { apply N.lt_le_trans with (8589934608 / 16); [reflexivity|]. apply N.div_le_mono; lia. }
  destruct (nat_of 536870912 ltac:(lia)) as [k Hk].
  destruct (N.eqb_spec (N.of_nat (length d) mod 16) 0) as [Er|Er]; cbn [negb].
  - apply for_n_ub with (k := k).
    + lia.
    + intros j s Hj. rewrite int_ret_ok by (unfold int_min, int_max; lia). cbn [bind].
      replace (4 * Z.to_nat (4 * Z.of_nat j))%nat with (16 * j)%nat by lia.
      rewrite (ld_words4 m (padd p (16 * j)) (firstn 16 (skipn (16 * j) d))).
      * cbn [bind]. eexists. reflexivity.
      * apply has_bytes_firstn, has_bytes_skipn; [lia|exact Hd].
      * rewrite firstn_length, skipn_length. lia.
    + intros s. unfold int_ret, int_max.
      replace (4 * Z.of_nat k <=? 2147483647)%Z with false by (symmetry; apply Z.leb_gt; lia).
      rewrite andb_false_r. reflexivity.
  - rewrite Nat2N.id, (has_bytes_ldn _ _ _ Hd). cbn [bind]. apply for_n_ub with (k := k).
    + lia.
    + intros j s Hj. rewrite int_ret_ok by (unfold int_min, int_max; lia). cbn [bind]. eexists. reflexivity.
    + intros s. unfold int_ret, int_max.
      replace (4 * Z.of_nat k <=? 2147483647)%Z with false by (symmetry; apply Z.leb_gt; lia).
      rewrite andb_false_r. reflexivity.
Qed.
