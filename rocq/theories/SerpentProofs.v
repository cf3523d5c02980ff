(** Serpent: proofs. *)
From Coq Require Import NArith ZArith Arith List Lia Bool ZifyN ZifyNat.
From Verif Require Import Res Words Mem MemSpec ListLemmas MemLemmas SpecWords WordsLemmas
  XorProofs ShaProofs HmacModel HmacProofs SerpentModel.
From Verif Require SerpentSpec.
Import ListNotations.
Local Open Scope nat_scope.

(** *** Words from bits *)

Lemma word_sum_testbit (f : N -> bool) n i :
  N.testbit (fold_right N.add 0%N (map (fun i => if f (N.of_nat i) then (2 ^ N.of_nat i)%N else 0%N) (seq 0 n))) i =
  (i <? N.of_nat n)%N && f i /\
  (fold_right N.add 0%N (map (fun i => if f (N.of_nat i) then (2 ^ N.of_nat i)%N else 0%N) (seq 0 n)) < 2 ^ N.of_nat n)%N.
Proof.
  revert i. induction n as [|n IH]; intros i.
  - cbn [seq map fold_right]. rewrite N.bits_0. split; [|reflexivity].
    destruct (N.ltb_spec i (N.of_nat 0)); [lia|reflexivity].
  - rewrite seq_S, map_app, fold_right_app. cbn [Nat.add map fold_right].
    set (F := fun i0 : nat => if f (N.of_nat i0) then (2 ^ N.of_nat i0)%N else 0%N) in *.
    assert (E : forall l a, fold_right N.add a (map F l) = (fold_right N.add 0 (map F l) + a)%N).
    { induction l as [|x l IHl]; intros a; cbn [map fold_right]; [lia|]. rewrite (IHl a). lia. }
    rewrite E, N.add_0_r. set (s := fold_right N.add 0%N (map F (seq 0 n))) in *.
    destruct (IH 0%N) as [_ Hlt]. change (F n) with (if f (N.of_nat n) then (2 ^ N.of_nat n)%N else 0%N).
    assert (P : (2 ^ N.of_nat (S n) = 2 * 2 ^ N.of_nat n)%N) by (rewrite Nat2N.inj_succ, N.pow_succ_r'; reflexivity).
    destruct (f (N.of_nat n)) eqn:Ef.
    + split; [|lia]. rewrite <- lor_add.
      * rewrite N.lor_spec. destruct (IH i) as [-> _]. rewrite N.pow2_bits_eqb.
        destruct (N.eqb_spec (N.of_nat n) i) as [<-|Hne].
        -- rewrite Ef. destruct (N.ltb_spec (N.of_nat n) (N.of_nat (S n))); [|lia].
           apply orb_true_r.
        -- rewrite orb_false_r. f_equal.
           destruct (N.ltb_spec i (N.of_nat n)), (N.ltb_spec i (N.of_nat (S n))); auto; lia.
      * apply N.bits_inj. intros j. rewrite N.land_spec, N.bits_0, N.pow2_bits_eqb.
        destruct (N.eqb_spec (N.of_nat n) j) as [<-|]; [|apply andb_false_r].
        destruct (IH (N.of_nat n)) as [-> _]. rewrite N.ltb_irrefl. reflexivity.
    + rewrite N.add_0_r. split; [|lia]. destruct (IH i) as [-> _].
      destruct (N.eq_dec i (N.of_nat n)) as [->|Hne].
      * rewrite Ef, !andb_false_r. reflexivity.
      * f_equal. destruct (N.ltb_spec i (N.of_nat n)), (N.ltb_spec i (N.of_nat (S n))); auto; lia.
Qed.

Lemma word_of_testbit f i : N.testbit (SerpentSpec.word_of f) i = (i <? 32)%N && f i.
Proof. apply (word_sum_testbit f 32 i). Qed.

Lemma word_of_lt f : (SerpentSpec.word_of f < 2^32)%N.
Proof. apply (word_sum_testbit f 32 0%N). Qed.

Lemma word_of_eq f x : (x < 2^32)%N -> (forall i, (i < 32)%N -> N.testbit x i = f i) ->
  x = SerpentSpec.word_of f.
Proof.
  intros L H. apply N.bits_inj. intros i. rewrite word_of_testbit.
  destruct (N.ltb_spec i 32); cbn [andb]; [apply H; exact H0|].
  apply (proj1 (lt_pow2_testbit x 32)); assumption.
Qed.

(** *** S-boxes *)

Definition w4 (a b c d : N) : Prop := (a < 2^32 /\ b < 2^32 /\ c < 2^32 /\ d < 2^32)%N.

Lemma S_words_4 k x : exists a b c d, SerpentSpec.S_words k x = [a; b; c; d] /\ w4 a b c d.
Proof.
  unfold SerpentSpec.S_words. cbn [map]. do 4 eexists. split; [reflexivity|].
  unfold w4. auto using word_of_lt.
Qed.

Local Hint Resolve lxor_lt lor_lt land_lt_l not32_lt : words.

Ltac sbox_tac :=
  cbv zeta; intros (Ha & Hb & Hc & Hd); unfold SerpentSpec.S_words; cbn [map];
  repeat (match goal with |- ?x :: _ = ?y :: _ => f_equal end);
  (apply word_of_eq; [eauto 60 with words|
    intros i Hi; unfold SerpentSpec.column; cbn [fold_right];
    repeat first [rewrite N.lxor_spec | rewrite N.land_spec | rewrite N.lor_spec | rewrite not32_testbit];
    rewrite ?(proj2 (N.ltb_lt i 32) Hi);
    match goal with |- context [SerpentSpec.S_apply _ (N.b2n (N.testbit ?a _) + 2 * (N.b2n (N.testbit ?b _) + 2 * (N.b2n (N.testbit ?c _) + 2 * (N.b2n (N.testbit ?d _) + 2 * 0))))] =>
      destruct (N.testbit a i), (N.testbit b i), (N.testbit c i), (N.testbit d i); reflexivity end]).

Lemma S0_ok a b c d e : w4 a b c d ->
  let '(r0, r1, r2, r3, r4) := S0 a b c d e in [r1; r4; r2; r0] = SerpentSpec.S_words 0 [a; b; c; d].
Proof. unfold S0. sbox_tac. Qed.
Lemma S1_ok a b c d e : w4 a b c d ->
  let '(r0, r1, r2, r3, r4) := S1 a b c d e in [r2; r0; r3; r1] = SerpentSpec.S_words 1 [a; b; c; d].
Proof. unfold S1. sbox_tac. Qed.
Lemma S2_ok a b c d e : w4 a b c d ->
  let '(r0, r1, r2, r3, r4) := S2 a b c d e in [r2; r3; r1; r4] = SerpentSpec.S_words 2 [a; b; c; d].
Proof. unfold S2. sbox_tac. Qed.
Lemma S3_ok a b c d e : w4 a b c d ->
  let '(r0, r1, r2, r3, r4) := S3 a b c d e in [r1; r2; r3; r4] = SerpentSpec.S_words 3 [a; b; c; d].
Proof. unfold S3. sbox_tac. Qed.
Lemma S4_ok a b c d e : w4 a b c d ->
  let '(r0, r1, r2, r3, r4) := S4 a b c d e in [r1; r4; r0; r3] = SerpentSpec.S_words 4 [a; b; c; d].
Proof. unfold S4. sbox_tac. Qed.
Lemma S5_ok a b c d e : w4 a b c d ->
  let '(r0, r1, r2, r3, r4) := S5 a b c d e in [r1; r3; r0; r2] = SerpentSpec.S_words 5 [a; b; c; d].
Proof. unfold S5. sbox_tac. Qed.
Lemma S6_ok a b c d e : w4 a b c d ->
  let '(r0, r1, r2, r3, r4) := S6 a b c d e in [r0; r1; r4; r2] = SerpentSpec.S_words 6 [a; b; c; d].
Proof. unfold S6. sbox_tac. Qed.
Lemma S7_ok a b c d e : w4 a b c d ->
  let '(r0, r1, r2, r3, r4) := S7 a b c d e in [r4; r3; r1; r0] = SerpentSpec.S_words 7 [a; b; c; d].
Proof. unfold S7. sbox_tac. Qed.

(** *** Rounds *)

Lemma LT_ok a b c d : w4 a b c d ->
  let '(a', b', c', d') := LT a b c d in
  SerpentSpec.LT [a; b; c; d] = [a'; b'; c'; d'] /\ w4 a' b' c' d'.
Proof.
  intros (Ha & Hb & Hc & Hd). unfold LT, SerpentSpec.LT, ROTL_32. cbv zeta.
  assert (Sh : forall x n, shl32 x n = ((x * 2^n) mod 2^32)%N).
  { intros x n. unfold shl32. rewrite u32_mod, N.shiftl_mul_pow2. reflexivity. }
  rewrite <- !Sh.
  assert (R : forall x n, (x < 2^32)%N -> (n < 32)%N -> rol_w32 n x = rotl32 x n)
    by (intros; symmetry; apply rotl32_spec; assumption).
  rewrite (R a 13%N) by (auto; reflexivity). rewrite (R c 3%N) by (auto; reflexivity).
  pose proof (rotl32_lt a 13 Ha) as La. pose proof (rotl32_lt c 3 Hc) as Lc.
  set (x0 := rotl32 a 13) in *. set (x2 := rotl32 c 3) in *.
  rewrite <- !N.lxor_assoc.
  assert (L1 : (N.lxor (N.lxor b x0) x2 < 2^32)%N) by auto with words.
  assert (L3 : (N.lxor (N.lxor d x2) (shl32 x0 3) < 2^32)%N) by auto using shl32_lt with words.
  rewrite (R _ 1%N L1) by reflexivity. rewrite (R _ 7%N L3) by reflexivity.
  pose proof (rotl32_lt _ 1 L1) as L1'. pose proof (rotl32_lt _ 7 L3) as L3'.
  set (x1 := rotl32 _ 1) in *. set (x3 := rotl32 _ 7) in *.
  assert (L0 : (N.lxor (N.lxor x0 x1) x3 < 2^32)%N) by auto with words.
  assert (L2 : (N.lxor (N.lxor x2 x3) (shl32 x1 7) < 2^32)%N) by auto using shl32_lt with words.
  rewrite (R _ 5%N L0) by reflexivity. rewrite (R _ 22%N L2) by reflexivity.
  split; [reflexivity|]. unfold w4. auto using rotl32_lt.
Qed.

Definition keys_ok (ks : list (list N)) : Prop :=
  Forall (fun k => length k = 4 /\ words_ok k) ks.

Lemma nth_concat4 (ks : list (list N)) : Forall (fun k => length k = 4) ks -> forall n j, j < 4 ->
  nth (4 * n + j) (concat ks) 0%N = nth j (nth n ks []) 0%N.
Proof.
  induction 1 as [|k ks Hk H IH]; intros n j Hj.
  - destruct n; cbn [concat nth]; destruct (4 * _ + j); destruct j; reflexivity.
  - cbn [concat]. destruct n as [|n].
    + cbn [nth]. rewrite app_nth1 by lia. reflexivity.
    + rewrite app_nth2 by lia. cbn [nth]. rewrite <- IH by exact Hj. f_equal. lia.
Qed.

Lemma ARK_ok ks n a b c d : keys_ok ks -> n < length ks -> w4 a b c d ->
  let '(a', b', c', d') := ARK (concat ks) a b c d n in
  SerpentSpec.xor_words [a; b; c; d] (nth n ks []) = [a'; b'; c'; d'] /\ w4 a' b' c' d'.
Proof.
  intros Hk Hn (Ha & Hb & Hc & Hd). unfold ARK.
  assert (F : Forall (fun k => length k = 4) ks).
  { eapply Forall_impl; [|exact Hk]. intros x [Hx _]. exact Hx. }
  pose proof (nth_concat4 ks F n 0 ltac:(lia)) as N0. rewrite Nat.add_0_r in N0.
  rewrite N0, !nth_concat4 by (auto; lia). clear N0.
  assert (Hin : length (nth n ks []) = 4 /\ words_ok (nth n ks [])).
  { unfold keys_ok in Hk. rewrite Forall_forall in Hk. apply Hk. apply nth_In. exact Hn. }
  destruct Hin as [L W]. destruct (nth n ks []) as [|k0 [|k1 [|k2 [|k3 [|? ?]]]]]; try discriminate L.
  inversion W as [|? ? W0 W']; subst. inversion W' as [|? ? W1 W'']; subst.
  inversion W'' as [|? ? W2 W3']; subst. inversion W3' as [|? ? W3 _]; subst.
  cbn [nth]. split; [reflexivity|]. unfold w4. repeat split; apply lxor_lt; assumption.
Qed.

Lemma after_S ks n x : SerpentSpec.after ks (S n) x = SerpentSpec.round ks n (SerpentSpec.after ks n x).
Proof. unfold SerpentSpec.after. rewrite seq_S, fold_left_app. reflexivity. Qed.

Section Rounds.
Variable ks : list (list N).
Hypothesis Hks : keys_ok ks.
Hypothesis Lks : length ks = 25.
Variable x : list N.

Definition at_round (n : nat) (a b c d : N) : Prop :=
  SerpentSpec.after ks n x = [a; b; c; d] /\ w4 a b c d.

Lemma S_words_w4 k l a b c d : [a; b; c; d] = SerpentSpec.S_words k l -> w4 a b c d.
Proof.
  destruct (S_words_4 k l) as (a' & b' & c' & d' & -> & H). intros E. injection E as -> -> -> ->. exact H.
Qed.

(** One round, given what the S-box call does. *)
Lemma round_ok n a b c d a1 b1 c1 d1 y0 y1 y2 y3 a2 b2 c2 d2 :
  n < 25 -> at_round n a b c d ->
  ARK (concat ks) a b c d n = (a1, b1, c1, d1) ->
  (w4 a1 b1 c1 d1 -> [y0; y1; y2; y3] = SerpentSpec.S_words (n mod 8) [a1; b1; c1; d1]) ->
  LT y0 y1 y2 y3 = (a2, b2, c2, d2) ->
  at_round (S n) a2 b2 c2 d2.
Proof.
  intros Hn [E W] EA HS EL. pose proof (ARK_ok ks n a b c d Hks ltac:(lia) W) as A. rewrite EA in A.
  destruct A as [A W1]. specialize (HS W1). pose proof (S_words_w4 _ _ _ _ _ _ HS) as W2.
  pose proof (LT_ok y0 y1 y2 y3 W2) as B. rewrite EL in B. destruct B as [B W3].
  split; [|exact W3]. rewrite after_S, E. unfold SerpentSpec.round. rewrite A, <- HS. exact B.
Qed.

Ltac one_round n ok H :=
  match goal with |- context [ARK (concat ks) ?a ?b ?c ?d n] =>
    destruct (ARK (concat ks) a b c d n) as [[[? ?] ?] ?] eqn:?EA end;
  match type of ok with forall a b c d e, _ -> match ?f a b c d e with _ => _ end =>
    match goal with |- context [f ?a ?b ?c ?d ?e] =>
      let X := fresh "X" in
      pose proof (ok a b c d e) as X;
      destruct (f a b c d e) as [[[[? ?] ?] ?] ?] eqn:?ES
    end
  end;
  match goal with |- context [LT ?a ?b ?c ?d] =>
    destruct (LT a b c d) as [[[? ?] ?] ?] eqn:?EL end;
  match goal with EA : ARK _ _ _ _ _ n = _, X : _ -> _ = SerpentSpec.S_words _ _, EL : LT _ _ _ _ = _ |- _ =>
    let H' := fresh "H" in
    pose proof (round_ok n _ _ _ _ _ _ _ _ _ _ _ _ _ _ _ _ ltac:(lia) H EA X EL) as H';
    clear H EA X EL; rename H' into H
  end.

Lemma rounds_ok a b c d e : at_round 0 a b c d ->
  fst (rounds (concat ks) a b c d e) = concat (SerpentSpec.serpent24 ks x) /\
  length (fst (rounds (concat ks) a b c d e)) = 12.
Proof.
  intros H. unfold rounds.
  one_round 0 S0_ok H.
  one_round 1 S1_ok H.
  one_round 2 S2_ok H.
  one_round 3 S3_ok H.
  one_round 4 S4_ok H.
  one_round 5 S5_ok H.
  one_round 6 S6_ok H.
  one_round 7 S7_ok H.
  one_round 8 S0_ok H.
  one_round 9 S1_ok H.
  one_round 10 S2_ok H.
  one_round 11 S3_ok H.
  pose proof H as [E12 _].
  one_round 12 S4_ok H.
  one_round 13 S5_ok H.
  one_round 14 S6_ok H.
  one_round 15 S7_ok H.
  one_round 16 S0_ok H.
  one_round 17 S1_ok H.
  pose proof H as [E18 _].
  one_round 18 S2_ok H.
  one_round 19 S3_ok H.
  one_round 20 S4_ok H.
  one_round 21 S5_ok H.
  one_round 22 S6_ok H.
  one_round 23 S7_ok H.
  destruct H as [E24 W]. pose proof (ARK_ok ks 24 _ _ _ _ Hks ltac:(lia) W) as A.
  destruct (ARK _ _ _ _ _ 24) as [[[? ?] ?] ?]. destruct A as [A _].
  unfold SerpentSpec.serpent24. rewrite E12, E18, E24, A. split; reflexivity.
Qed.
End Rounds.

(** *** Key schedule *)

Lemma prekey_list_length n : forall i l, length l = 8 -> length (SerpentSpec.prekey_list n i l) = n.
Proof.
  induction n as [|n IH]; intros i l L; [reflexivity|].
  destruct l as [|a [|b [|c [|d [|e [|f [|g [|h [|? ?]]]]]]]]]; try discriminate L.
  cbn [SerpentSpec.prekey_list length]. f_equal. apply IH. reflexivity.
Qed.

Lemma prekey_rec n : forall i l j, length l = 8 -> j < n ->
  let full := l ++ SerpentSpec.prekey_list n i l in
  let g k := nth k full 0%N in
  g (j + 8) = rol_w32 11 (N.lxor (g j) (N.lxor (g (j + 3)) (N.lxor (g (j + 5)) (N.lxor (g (j + 7))
    (N.lxor SerpentSpec.golden (i + N.of_nat j)))))).
Proof.
  induction n as [|n IH]; intros i l j L Hj full g; [lia|].
  destruct l as [|a [|b [|c [|d [|e [|f [|h [|k [|? ?]]]]]]]]]; try discriminate L.
  cbn [SerpentSpec.prekey_list] in full. destruct j as [|j].
  - unfold g, full. cbn [Nat.add nth app]. rewrite N.add_0_r. reflexivity.
  - match type of full with _ => set (w := rol_w32 11 _) in full end.
    specialize (IH (i + 1)%N [b; c; d; e; f; h; k; w] j eq_refl ltac:(lia)). cbv zeta in IH.
    replace (i + N.of_nat (S j))%N with (i + 1 + N.of_nat j)%N by lia. exact IH.
Qed.

Lemma prekey_words n : forall i l, length l = 8 -> words_ok l -> (i + N.of_nat n <= 2^32)%N ->
  words_ok (SerpentSpec.prekey_list n i l).
Proof.
  induction n as [|n IH]; intros i l L W Hi; [constructor|].
  destruct l as [|a [|b [|c [|d [|e [|f [|h [|k [|? ?]]]]]]]]]; try discriminate L.
  cbn [SerpentSpec.prekey_list]. match goal with |- words_ok (?x :: _) => set (w := x) end.
  assert (Hw : (w < 2^32)%N).
  { unfold words_ok in W. rewrite Forall_forall in W. apply rol_w32_lt; [|reflexivity].
    repeat apply lxor_lt; try (apply W; cbn [In]; tauto); [reflexivity|lia]. }
  constructor; [exact Hw|]. apply IH; [reflexivity| |lia].
  inversion W; subst.
  match goal with H : Forall _ [b; c; d; e; f; h; k] |- _ =>
    change [b; c; d; e; f; h; k; w] with ([b; c; d; e; f; h; k] ++ [w]); apply Forall_app; split; [exact H|] end.
  constructor; [exact Hw|constructor].
Qed.

Lemma prekeys_ok l : length l = 8 -> words_ok l -> prekeys l = SerpentSpec.prekey_list 100 0 l.
Proof.
  intros L W. set (P := SerpentSpec.prekey_list 100 0 l).
  assert (LP : length P = 100) by (apply prekey_list_length; exact L).
  assert (WP : words_ok P) by (apply prekey_words; [exact L|exact W|lia]).
  set (full := l ++ P).
  assert (Wf : forall k, (nth k full 0 < 2^32)%N).
  { intros k. apply words_ok_nth. apply Forall_app. auto. }
  assert (R : forall j, j < 100 -> nth (j + 8) full 0%N =
     ROTL_32 (N.lxor (N.lxor (N.lxor (N.lxor (N.lxor (nth j full 0) (nth (j + 3) full 0)) (nth (j + 5) full 0)) (nth (j + 7) full 0)) phi) (N.of_nat j))%N 11).
  { intros j Hj. pose proof (prekey_rec 100 0 l j L Hj) as R. cbv zeta in R. fold P in R. fold full in R.
    rewrite R. unfold ROTL_32. rewrite rotl32_spec; [|repeat apply lxor_lt; auto; [reflexivity|lia]|reflexivity].
    rewrite !N.lxor_assoc, N.add_0_l. reflexivity. }
  assert (FP : forall j, nth (j + 8) full 0%N = nth j P 0%N).
  { intros j. unfold full. rewrite app_nth2 by lia. f_equal. lia. }
  unfold prekeys. cbv zeta.
  assert (Fl : forall j, j < 8 -> nth j l 0%N = nth j full 0%N) by (intros; unfold full; rewrite app_nth1 by lia; reflexivity).
  rewrite !Fl by lia.
  pose proof (R 0 ltac:(lia)) as R0. cbn [Nat.add N.of_nat Pos.of_succ_nat Pos.succ] in R0. rewrite <- R0.
  pose proof (R 1 ltac:(lia)) as R1. cbn [Nat.add N.of_nat Pos.of_succ_nat Pos.succ] in R1. rewrite <- R1.
  pose proof (R 2 ltac:(lia)) as R2. cbn [Nat.add N.of_nat Pos.of_succ_nat Pos.succ] in R2. rewrite <- R2.
  pose proof (R 3 ltac:(lia)) as R3. cbn [Nat.add N.of_nat Pos.of_succ_nat Pos.succ] in R3. rewrite <- R3.
  pose proof (R 4 ltac:(lia)) as R4. cbn [Nat.add N.of_nat Pos.of_succ_nat Pos.succ] in R4. rewrite <- R4.
  pose proof (R 5 ltac:(lia)) as R5. cbn [Nat.add N.of_nat Pos.of_succ_nat Pos.succ] in R5. rewrite <- R5.
  pose proof (R 6 ltac:(lia)) as R6. cbn [Nat.add N.of_nat Pos.of_succ_nat Pos.succ] in R6. rewrite <- R6.
  pose proof (R 7 ltac:(lia)) as R7. cbn [Nat.add N.of_nat Pos.of_succ_nat Pos.succ] in R7. rewrite <- R7.
  clear R0 R1 R2 R3 R4 R5 R6 R7.
  assert (I8 : [nth 8 full 0%N; nth 9 full 0%N; nth 10 full 0%N; nth 11 full 0%N; nth 12 full 0%N; nth 13 full 0%N; nth 14 full 0%N; nth 15 full 0%N] = firstn 8 P).
  { pose proof (FP 0) as F0. pose proof (FP 1) as F1. pose proof (FP 2) as F2. pose proof (FP 3) as F3.
    pose proof (FP 4) as F4. pose proof (FP 5) as F5. pose proof (FP 6) as F6. pose proof (FP 7) as F7.
    cbn [Nat.add] in *. rewrite F0, F1, F2, F3, F4, F5, F6, F7. clearbody P. clear - LP.
    do 8 (destruct P as [|? P]; [discriminate LP|]). reflexivity. }
  rewrite I8.
  assert (It : forall k, 8 + k <= 100 ->
    iter_n k 8 (fun i w => w ++ [ROTL_32 (N.lxor (N.lxor (N.lxor (N.lxor (N.lxor (nth (i - 8) w 0) (nth (i - 5) w 0)) (nth (i - 3) w 0)) (nth (i - 1) w 0)) phi) (N.of_nat i))%N 11])
      (firstn 8 P) = firstn (8 + k) P).
  { induction k as [|k IH]; intros Hk; [reflexivity|].
    rewrite iter_n_S_end, IH by lia.
    assert (Nf : forall q, q < 8 + k -> nth q (firstn (8 + k) P) 0%N = nth q P 0%N).
    { intros q Hq. rewrite <- (firstn_skipn (8 + k) P) at 2. rewrite app_nth1 by (rewrite firstn_length; lia). reflexivity. }
    rewrite !Nf by lia. rewrite <- !FP.
    pose proof (R (8 + k) ltac:(lia)) as Rk.
    replace (8 + k - 8 + 8) with (8 + k) by lia. replace (8 + k - 5 + 8) with (8 + k + 3) by lia.
    replace (8 + k - 3 + 8) with (8 + k + 5) by lia. replace (8 + k - 1 + 8) with (8 + k + 7) by lia.
    rewrite <- Rk, FP. replace (8 + S k) with (S (8 + k)) by lia.
    rewrite (firstn_S_nth P (8 + k) 0%N) by lia. reflexivity. }
  change (4 * N_ROUNDS - 8) with 92. rewrite It by lia. change (8 + 92) with 100.
  apply firstn_all2. lia.
Qed.

Lemma K_ok a b c d e : w4 a b c d ->
  fst (K0 (S0 a b c d e)) = SerpentSpec.S_words 0 [a; b; c; d] /\
  fst (K1 (S1 a b c d e)) = SerpentSpec.S_words 1 [a; b; c; d] /\
  fst (K2 (S2 a b c d e)) = SerpentSpec.S_words 2 [a; b; c; d] /\
  fst (K3 (S3 a b c d e)) = SerpentSpec.S_words 3 [a; b; c; d] /\
  fst (K4 (S4 a b c d e)) = SerpentSpec.S_words 4 [a; b; c; d] /\
  fst (K5 (S5 a b c d e)) = SerpentSpec.S_words 5 [a; b; c; d] /\
  fst (K6 (S6 a b c d e)) = SerpentSpec.S_words 6 [a; b; c; d] /\
  fst (K7 (S7 a b c d e)) = SerpentSpec.S_words 7 [a; b; c; d].
Proof.
  intros H. pose proof (S0_ok a b c d e H) as H0. pose proof (S1_ok a b c d e H) as H1.
  pose proof (S2_ok a b c d e H) as H2. pose proof (S3_ok a b c d e H) as H3.
  pose proof (S4_ok a b c d e H) as H4. pose proof (S5_ok a b c d e H) as H5.
  pose proof (S6_ok a b c d e H) as H6. pose proof (S7_ok a b c d e H) as H7.
  destruct (S0 a b c d e) as [[[[? ?] ?] ?] ?]. destruct (S1 a b c d e) as [[[[? ?] ?] ?] ?].
  destruct (S2 a b c d e) as [[[[? ?] ?] ?] ?]. destruct (S3 a b c d e) as [[[[? ?] ?] ?] ?].
  destruct (S4 a b c d e) as [[[[? ?] ?] ?] ?]. destruct (S5 a b c d e) as [[[[? ?] ?] ?] ?].
  destruct (S6 a b c d e) as [[[[? ?] ?] ?] ?]. destruct (S7 a b c d e) as [[[[? ?] ?] ?] ?].
  repeat split; assumption.
Qed.

Definition call_ok (k : nat) (call : (N -> N -> N -> N -> N -> regs) * (regs -> list N * N)) : Prop :=
  forall a b c d e, w4 a b c d -> fst (snd call (fst call a b c d e)) = SerpentSpec.S_words k [a; b; c; d].

Lemma calls_ok : Forall2 call_ok (map SerpentSpec.key_sbox (seq 0 25)) sbox_calls.
Proof.
  unfold sbox_calls.
  change (map SerpentSpec.key_sbox (seq 0 25)) with
    [3; 2; 1; 0; 7; 6; 5; 4; 3; 2; 1; 0; 7; 6; 5; 4; 3; 2; 1; 0; 7; 6; 5; 4; 3].
  repeat (constructor; [intros a b c d e H; apply (K_ok a b c d e H)|]). constructor.
Qed.

Lemma four (w : list N) i : 4 * i + 4 <= length w ->
  firstn 4 (skipn (4 * i) w) = [nth (4 * i) w 0%N; nth (4 * i + 1) w 0%N; nth (4 * i + 2) w 0%N; nth (4 * i + 3) w 0%N].
Proof.
  intros H. rewrite (skipn_cons_nth w (4 * i) 0%N) by lia. rewrite (skipn_cons_nth w (S (4 * i)) 0%N) by lia.
  rewrite (skipn_cons_nth w (S (S (4 * i))) 0%N) by lia. rewrite (skipn_cons_nth w (S (S (S (4 * i)))) 0%N) by lia.
  cbn [firstn]. rewrite (Nat.add_comm (4 * i) 1), (Nat.add_comm (4 * i) 2), (Nat.add_comm (4 * i) 3). reflexivity.
Qed.

Lemma subkeys_ok idx calls : Forall2 call_ok idx calls -> forall i w r4,
  4 * i + 4 * length calls <= length w -> words_ok w ->
  subkeys calls i w r4 =
  concat (map (fun p => SerpentSpec.S_words (snd p) (firstn 4 (skipn (4 * fst p) w))) (combine (seq i (length calls)) idx)).
Proof.
  induction 1 as [|k [s f] idx calls Hc H IH]; intros i w r4 L W; [reflexivity|].
  cbn [subkeys length seq combine map concat fst snd]. cbn [length] in L.
  assert (Wn : forall q, (nth q w 0 < 2^32)%N) by (intros; apply words_ok_nth; exact W).
  assert (E := Hc (nth (4 * i) w 0%N) (nth (4 * i + 1) w 0%N) (nth (4 * i + 2) w 0%N) (nth (4 * i + 3) w 0%N) r4
     ltac:(unfold w4; auto)). cbn [fst snd] in E.
  rewrite four by lia. rewrite <- E.
  destruct (f (s _ _ _ _ r4)) as [rk r4']. cbn [fst]. f_equal. apply IH; [lia|exact W].
Qed.

Lemma subkey_concat k : length (SerpentSpec.key_words k) = 8 -> words_ok (SerpentSpec.key_words k) -> forall r4,
  subkeys sbox_calls 0 (prekeys (SerpentSpec.key_words k)) r4 = concat (SerpentSpec.subkeys_of k).
Proof.
  intros L W r4. rewrite prekeys_ok by assumption.
  rewrite (subkeys_ok _ _ calls_ok).
  - reflexivity.
  - rewrite prekey_list_length by exact L. vm_compute. lia.
  - apply prekey_words; [exact L|exact W|lia].
Qed.

Lemma subkey_list_ok k : keys_ok (SerpentSpec.subkeys_of k).
Proof.
  unfold keys_ok, SerpentSpec.subkeys_of. apply Forall_forall. intros x Hx.
  apply in_map_iff in Hx. destruct Hx as (i & <- & _).
  match goal with |- length (SerpentSpec.S_words ?k ?l) = 4 /\ _ =>
    destruct (S_words_4 k l) as (a & b & c & d & -> & Ha & Hb & Hc & Hd) end.
  split; [reflexivity|]. repeat constructor; assumption.
Qed.

Lemma subkey_list_length k : length (SerpentSpec.subkeys_of k) = 25.
Proof. reflexivity. Qed.

Lemma pad_with_length f k : length k <= 32 -> length (SerpentSpec.pad_with f k) = 32.
Proof.
  intros H. unfold SerpentSpec.pad_with. rewrite firstn_length, !app_length, repeat_length. cbn [length]. lia.
Qed.

Lemma pad_with_bytes f k : (f < 256)%N -> bytes_ok k -> bytes_ok (SerpentSpec.pad_with f k).
Proof.
  intros Hf H. apply Forall_firstn. apply Forall_app. split; [exact H|].
  constructor; [exact Hf|apply bytes_ok_repeat0].
Qed.

Lemma key_words_ok p : bytes_ok p -> length p = 32 ->
  words_ok (SerpentSpec.key_words p) /\ length (SerpentSpec.key_words p) = 8.
Proof. intros H L. apply words_le_ok; [exact H|]. rewrite L. reflexivity. Qed.

Lemma pad_with_full f k : length k = 32 -> SerpentSpec.pad_with f k = k.
Proof.
  intros H. unfold SerpentSpec.pad_with. rewrite firstn_app, firstn_all2 by lia.
  rewrite H. cbn [Nat.sub firstn]. apply app_nil_r.
Qed.

Lemma pad_with_short f k : length k < 32 -> SerpentSpec.pad_with f k = (k ++ [f]) ++ repeat 0%N (32 - S (length k)).
Proof.
  intros H. unfold SerpentSpec.pad_with. rewrite app_assoc, firstn_app.
  rewrite firstn_all2 by (rewrite app_length; simpl; lia). f_equal.
  rewrite app_length. cbn [length]. replace (length k + 1) with (S (length k)) by lia.
  replace 32 with ((32 - S (length k)) + S (length k)) at 2 by lia.
  rewrite repeat_app, firstn_app, repeat_length, firstn_all2 by (rewrite repeat_length; lia).
  rewrite Nat.sub_diag. cbn [firstn]. apply app_nil_r.
Qed.

Lemma key_schedule_ok scratch m key k : has_bytes m key k -> length k <= 32 ->
  serpent_key_schedule scratch m key (Z.of_nat (length k)) = Ret (Some (concat (SerpentSpec.subkeys_of (SerpentSpec.pad_with 0x80 k)))).
Proof.
  intros Hk L. unfold serpent_key_schedule.
  destruct (Z.ltb_spec 32 (Z.of_nat (length k))); [lia|]. unfold alloc.
  set (M := m ++ [repeat None 32]). set (p := {| pblk := length m; poff := 0 |}).
  assert (Wp : writable M p 32) by (apply writable_last; rewrite repeat_length; lia).
  assert (Bk : bytes_ok k) by apply (has_bytes_bytes _ _ _ Hk).
  unfold memcpy_int. destruct (Z.ltb_spec (Z.of_nat (length k)) 0); [lia|]. rewrite Nat2Z.id.
  rewrite (memcpy_write M p key k).
  2: apply has_bytes_alloc; exact Hk.
  2: apply (writable_le _ _ _ _ Wp); exact L.
  2:{ left. unfold p. cbn [pblk]. destruct Hk as (_ & b & Hb & _). apply nth_error_lt_some in Hb. lia. }
  cbn [bind].
  assert (E : (if (Z.of_nat (length k) <? 32)%Z then
      let* m0 := st8 (write_at M p k) (padd p (length k)) 0x80 in
      for_n (32 - Z.to_nat (Z.of_nat (length k) + 1)) (Z.to_nat (Z.of_nat (length k) + 1))
        (fun i m1 => st8 m1 (padd p i) 0) m0
    else Ret (write_at M p k)) = Ret (write_at M p (SerpentSpec.pad_with 0x80 k))).
  { destruct (Z.ltb_spec (Z.of_nat (length k)) 32).
    - rewrite st8_write.
      2:{ apply writable_write_at; [apply (writable_le _ _ _ _ Wp); lia|]. apply writable_padd. apply (writable_le _ _ _ _ Wp). lia. }
      cbn [bind]. rewrite <- write_at_app by (apply (writable_le _ _ _ _ Wp); rewrite app_length; cbn [length]; lia).
      replace (Z.to_nat (Z.of_nat (length k) + 1)) with (length (k ++ [0x80%N])) by (rewrite app_length; cbn [length]; lia).
      rewrite store_zeros by (apply (writable_le _ _ _ _ Wp); rewrite app_length; cbn [length]; lia).
      rewrite pad_with_short by lia. do 4 f_equal. rewrite app_length. cbn [length]. lia.
    - rewrite pad_with_full by lia. reflexivity. }
  rewrite E. cbn [bind].
  rewrite (has_bytes_words _ _ (SerpentSpec.pad_with 0x80 k) 8).
  - cbn [bind]. do 2 f_equal. change (map le_num (chunks 4 (SerpentSpec.pad_with 0x80 k))) with (SerpentSpec.key_words (SerpentSpec.pad_with 0x80 k)).
    destruct (key_words_ok (SerpentSpec.pad_with 0x80 k)); [apply pad_with_bytes; [reflexivity|exact Bk]|apply pad_with_length; exact L|]. apply subkey_concat; assumption.
  - apply has_bytes_write_same; [rewrite pad_with_length by exact L; exact Wp|apply pad_with_bytes; [reflexivity|exact Bk]].
  - rewrite pad_with_length by exact L. reflexivity.
Qed.

(** *** Blocks *)

Lemma for_n_1 {T} i (f : nat -> T -> res T) x : for_n 1 i f x = f i x.
Proof. cbn [for_n]. destruct (f i x); reflexivity. Qed.

Lemma ld8_cases m p : ld8 m p = UB \/ exists x, ld8 m p = Ret x.
Proof.
  unfold ld8. destruct (nth_error m (pblk p)) as [b|]; [|left; reflexivity].
  destruct (nth_error b (poff p)) as [[x|]|]; [right; exists x| |]; auto.
Qed.

Lemma ld32_cases m p : ld32 m p = UB \/ exists x, ld32 m p = Ret x.
Proof.
  unfold ld32.
  destruct (ld8_cases m p) as [->|[a ->]]; cbn [bind]; [auto|].
  destruct (ld8_cases m (padd p 1)) as [->|[b ->]]; cbn [bind]; [auto|].
  destruct (ld8_cases m (padd p 2)) as [->|[c ->]]; cbn [bind]; [auto|].
  destruct (ld8_cases m (padd p 3)) as [->|[d ->]]; cbn [bind]; [auto|]. eauto.
Qed.

Lemma ld32_ub m p : ld8 m (padd p 3) = UB -> ld32 m p = UB.
Proof.
  intros H. unfold ld32. rewrite H.
  destruct (ld8_cases m p) as [->|[a ->]]; cbn [bind]; [auto|].
  destruct (ld8_cases m (padd p 1)) as [->|[b ->]]; cbn [bind]; [auto|].
  destruct (ld8_cases m (padd p 2)) as [->|[c ->]]; cbn [bind]; auto.
Qed.

Lemma store_words m p ws : writable m p (4 * length ws) ->
  for_n (length ws) 0 (fun i m => st32 m (padd p (4 * i)) (nth i ws 0%N)) m = Ret (write_at m p (le_bytes ws)).
Proof.
  intros W. pose (st := fun i => write_at m p (le_bytes (firstn i ws))).
  assert (E : m = st 0) by (unfold st; cbn [firstn le_bytes flat_map]; rewrite write_at_nil; reflexivity).
  transitivity (for_n (length ws) 0 (fun i m => st32 m (padd p (4 * i)) (nth i ws 0%N)) (st 0)).
  { f_equal. exact E. }
  rewrite (for_n_steps _ st).
  - unfold st. rewrite firstn_all. reflexivity.
  - intros i Hi. cbn [Nat.add]. unfold st. rewrite (firstn_S_nth ws i 0%N) by exact Hi.
    rewrite le_bytes_app.
    assert (L : length (le_bytes (firstn i ws)) = 4 * i) by (rewrite le_bytes_length, firstn_length; lia).
    change (le_bytes [nth i ws 0%N]) with (bytes_of_le32 (nth i ws 0%N) ++ []). rewrite app_nil_r.
    rewrite st32_write.
    + rewrite <- L, <- write_at_app; [reflexivity|]. apply (writable_le _ _ _ _ W).
      rewrite app_length, L, bytes_of_le32_length. lia.
    + apply writable_write_at; [apply (writable_le _ _ _ _ W); lia|].
      apply writable_padd. apply (writable_le _ _ _ _ W). lia.
Qed.

Lemma st32_last (m : mem) b o w : o + 4 <= length b ->
  exists b', st32 (m ++ [b]) (Ptr (length m) o) w = Ret (m ++ [b']) /\ length b' = length b.
Proof.
  intros H. exists (splice b o (bytes_of_le32 w)). rewrite st32_write by (apply writable_last; exact H).
  rewrite write_at_last. split; [reflexivity|]. apply splice_length. rewrite bytes_of_le32_length. exact H.
Qed.

Lemma serpent_block_ok ks scratch m out inp b : keys_ok ks -> length ks = 25 ->
  has_bytes m inp b -> length b = 16 -> writable m out 48 ->
  serpent_process_packet (concat ks) scratch m out inp 16 =
  Ret (write_at m out (le_bytes (concat (SerpentSpec.serpent24 ks (SerpentSpec.block_words b))))).
Proof.
  intros Hk Lk Hb L Wo. unfold serpent_process_packet, alloc.
  set (tmp := {| pblk := length m; poff := 0 |}).
  change (N.to_nat 16) with 16. change (N.to_nat ((16 + 15) / 16)) with 1.
  rewrite (memcpy_write_n _ _ _ b).
  2: apply has_bytes_alloc; exact Hb.
  2: symmetry; exact L.
  2: apply writable_last; reflexivity.
  2:{ left. unfold tmp. cbn [pblk]. destruct Hb as (_ & x & Hx & _). apply nth_error_lt_some in Hx. lia. }
  cbn [bind]. rewrite for_n_1.
  assert (Et : write_at (m ++ [repeat None 16]) tmp b = m ++ [map Some b])
    by (unfold tmp; rewrite write_at_last, splice_full by (rewrite repeat_length; exact L); reflexivity).
  rewrite !Et.
  assert (Bb : bytes_ok b) by apply (has_bytes_bytes _ _ _ Hb).
  pose proof (has_bytes_last m b Bb) as Ht. fold tmp in Ht.
  assert (X : words_ok (SerpentSpec.block_words b) /\ length (SerpentSpec.block_words b) = 4)
    by (apply words_le_ok; [exact Bb|exact L]).
  assert (Hw : ld_words (m ++ [map Some b]) tmp 4 = Ret (SerpentSpec.block_words b))
    by (apply has_bytes_words; [exact Ht|exact L]).
  destruct (SerpentSpec.block_words b) as [|x0 [|x1 [|x2 [|x3 [|? ?]]]]]; try (destruct X; discriminate).
  unfold ld_words in Hw. cbn [for_n Nat.mul Nat.add] in Hw. rewrite padd_0 in Hw.
  destruct (ld32 _ tmp) as [y0| |]; try discriminate Hw; cbn [bind] in *.
  destruct (ld32 _ (padd tmp 4)) as [y1| |]; try discriminate Hw; cbn [bind] in *.
  destruct (ld32 _ (padd tmp 8)) as [y2| |]; try discriminate Hw; cbn [bind] in *.
  destruct (ld32 _ (padd tmp 12)) as [y3| |]; try discriminate Hw; cbn [bind] in *.
  injection Hw as -> -> -> ->. destruct X as [X _].
  inversion X as [|? ? W0 X']; subst. inversion X' as [|? ? W1 X'']; subst.
  inversion X'' as [|? ? W2 X3]; subst. inversion X3 as [|? ? W3 _]; subst.
  assert (A0 : at_round ks [x0; x1; x2; x3] 0 x0 x1 x2 x3) by (split; [reflexivity|unfold w4; auto]).
  pose proof (rounds_ok ks Hk Lk _ x0 x1 x2 x3 scratch A0) as R.
  destruct (rounds (concat ks) x0 x1 x2 x3 scratch) as [o [[[z0 z1] z2] z3]] eqn:ER. cbn [fst] in R.
  destruct R as [R Lo].
  rewrite <- Lo at 1. rewrite store_words.
  2:{ rewrite Lo. apply writable_alloc. exact Wo. }
  cbn [bind]. rewrite (write_at_alloc _ _ _ 48) by exact Wo.
  set (m1 := write_at m out (le_bytes o)).
  assert (L1 : length m1 = length m) by apply length_write_at.
  unfold tmp. rewrite <- L1. unfold padd. cbn [pblk poff Nat.add].
  destruct (st32_last m1 (map Some b) 0 z0) as (b0 & -> & B0); [rewrite map_length; lia|]. cbn [bind].
  rewrite map_length in B0.
  destruct (st32_last m1 b0 4 z1) as (b1 & -> & B1); [lia|]. cbn [bind].
  destruct (st32_last m1 b1 8 z2) as (b2 & -> & B2); [lia|]. cbn [bind].
  destruct (st32_last m1 b2 12 z3) as (b3 & -> & B3); [lia|]. cbn [bind].
  rewrite drop_last_app. unfold m1. rewrite R. reflexivity.
Qed.

(** Other sizes. *)
Lemma serpent_block_empty RK scratch m out inp : 
  serpent_process_packet RK scratch m out inp 0 = Ret m.
Proof.
  unfold serpent_process_packet, alloc. change (N.to_nat 0) with 0.
  change (N.to_nat ((0 + 15) / 16)) with 0. unfold memcpy. cbn [Nat.eqb negb andb ld_cells st_cells bind for_n].
  rewrite drop_last_app. reflexivity.
Qed.

Lemma serpent_block_short RK scratch m out inp b : has_bytes m inp b -> 0 < length b < 16 ->
  serpent_process_packet RK scratch m out inp (N.of_nat (length b)) = UB.
Proof.
  intros Hb L. unfold serpent_process_packet, alloc. rewrite Nat2N.id.
  replace (N.to_nat ((N.of_nat (length b) + 15) / 16)) with 1 by lia.
  set (tmp := {| pblk := length m; poff := 0 |}).
  rewrite (memcpy_write _ _ _ b).
  2: apply has_bytes_alloc; exact Hb.
  2: apply writable_last; rewrite repeat_length; lia.
  2:{ left. unfold tmp. cbn [pblk]. destruct Hb as (_ & x & Hx & _). apply nth_error_lt_some in Hx. lia. }
  cbn [bind]. rewrite for_n_1.
  assert (Et : write_at (m ++ [repeat None 16]) tmp b = m ++ [splice (repeat None 16) 0 b]) by apply write_at_last.
  rewrite !Et. set (M := m ++ [splice (repeat None 16) 0 b]).
  assert (Bad : ld32 M (padd tmp 12) = UB).
  { apply ld32_ub. rewrite padd_padd. unfold ld8, M. rewrite pblk_padd, poff_padd. cbn [pblk poff tmp]. rewrite nth_error_last.
    cbn [Nat.add]. rewrite nth_error_splice by (rewrite repeat_length; lia). 
    destruct (Nat.leb_spec 0 15); [|lia]. destruct (Nat.ltb_spec 15 (0 + length b)); [lia|]. cbn [andb].
    reflexivity. }
  rewrite Bad.
  destruct (ld32_cases M tmp) as [->|[a ->]]; cbn [bind]; [auto|].
  destruct (ld32_cases M (padd tmp 4)) as [->|[c ->]]; cbn [bind]; [auto|].
  destruct (ld32_cases M (padd tmp 8)) as [->|[d ->]]; cbn [bind]; auto.
Qed.

Lemma serpent_block_long RK scratch m out inp b : has_bytes m inp b -> 16 < length b ->
  serpent_process_packet RK scratch m out inp (N.of_nat (length b)) = UB.
Proof.
  intros Hb L. unfold serpent_process_packet, alloc. rewrite Nat2N.id.
  rewrite (memcpy_oob _ _ _ b (repeat None 16)); auto.
  - apply has_bytes_alloc. exact Hb.
  - cbn [pblk]. apply nth_error_last.
  - intros ->. cbn [length] in L. lia.
Qed.
