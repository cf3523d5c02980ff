From Coq Require Import NArith ZArith List Lia Arith Bool ZifyN ZifyNat.
From Verif Require Import Res Words Mem Ints MemSpec ListLemmas MemLemmas SpecWords WordsLemmas
  XorProofs ChachaSpec ChachaModel.
Import ListNotations.
Local Arguments N.add : simpl never.
Local Arguments N.mul : simpl never.
Local Arguments N.modulo : simpl never.
Local Open Scope nat_scope.

(** *** Quarter round and double round *)

Definition mq (a b c d : N) : row :=
  let a := add32 a b in let d := rotr32 (N.lxor d a) 16 in
  let c := add32 c d in let b := rotr32 (N.lxor b c) 20 in
  let a := add32 a b in let d := rotr32 (N.lxor d a) 24 in
  let c := add32 c d in let b := rotr32 (N.lxor b c) 25 in
  (a, b, c, d).

Lemma rotr_rol x n : (x < 2^32)%N -> (0 < n < 32)%N -> rotr32 x (32 - n) = rol_w32 n x.
Proof.
  intros Hx Hn. rewrite rotr_rotl by lia. replace (32 - (32 - n))%N with n by lia.
  apply rotl32_spec; auto. lia.
Qed.

Lemma mq_spec a b c d : (a < 2^32)%N -> (b < 2^32)%N -> (c < 2^32)%N -> (d < 2^32)%N ->
  mq a b c d = quarter a b c d.
Proof.
  intros. unfold mq, quarter. cbv zeta.
  assert (R16 : forall x, (x < 2^32)%N -> rotr32 x 16 = rol_w32 16 x) by (intros; apply (rotr_rol x 16); auto; lia).
  assert (R12 : forall x, (x < 2^32)%N -> rotr32 x 20 = rol_w32 12 x) by (intros; apply (rotr_rol x 12); auto; lia).
  assert (R8 : forall x, (x < 2^32)%N -> rotr32 x 24 = rol_w32 8 x) by (intros; apply (rotr_rol x 8); auto; lia).
  assert (R7 : forall x, (x < 2^32)%N -> rotr32 x 25 = rol_w32 7 x) by (intros; apply (rotr_rol x 7); auto; lia).
  assert (B : forall n x y, (n < 32)%N -> (x < 2^32)%N -> (y < 2^32)%N -> (rol_w32 n (N.lxor x y) < 2^32)%N).
  { intros n x y Hn Hx Hy. apply rol_w32_lt; auto. apply lxor_lt; auto. }
  rewrite R16, R12, R8, R7, !add32_spec; auto.
  all: repeat first [apply lxor_lt | apply add_w32_lt | apply add32_lt | rewrite R16 | rewrite R12 | rewrite R8 | apply B; [lia| |]]; auto.
Qed.

Definition row_ok (r : row) : Prop :=
  let '(a, b, c, d) := r in (a < 2^32 /\ b < 2^32 /\ c < 2^32 /\ d < 2^32)%N.

Lemma quarter_ok a b c d : (a < 2^32)%N -> (b < 2^32)%N -> (c < 2^32)%N -> (d < 2^32)%N ->
  row_ok (quarter a b c d).
Proof.
  intros. unfold quarter, row_ok. cbv zeta. pose proof add_w32_lt as A.
  assert (R : forall n x y, (n < 32)%N -> (x < 2^32)%N -> (y < 2^32)%N -> (rol_w32 n (N.lxor x y) < 2^32)%N).
  { intros n x y Hn Hx Hy. apply rol_w32_lt; auto. apply lxor_lt; auto. }
  repeat split; repeat first [apply A | apply R; [lia| |]]; auto.
Qed.

Definition grid_ok (g : grid) : Prop := words_ok (grid_words g).

Lemma grid_ok_rows a b c d : grid_ok (a, b, c, d) <-> row_ok a /\ row_ok b /\ row_ok c /\ row_ok d.
Proof.
  destruct a as [[[a0 a1] a2] a3], b as [[[b0 b1] b2] b3], c as [[[c0 c1] c2] c3], d as [[[d0 d1] d2] d3].
  unfold grid_ok, words_ok, row_ok. cbn [grid_words]. split.
  - intros H. repeat match goal with H : Forall _ (_ :: _) |- _ => inversion H; clear H; subst end. tauto.
  - intros H. repeat (constructor; [tauto|]). constructor.
Qed.

Ltac qstep :=
  match goal with
  | |- context [quarter ?a ?b ?c ?d] =>
      let H := fresh "Q" in
      pose proof (quarter_ok a b c d ltac:(assumption) ltac:(assumption) ltac:(assumption) ltac:(assumption)) as H;
      destruct (quarter a b c d) as [[[? ?] ?] ?]; cbn [row_ok] in H; destruct H as (? & ? & ? & ?)
  end.

Lemma q_round_mq s a b c d r : q_round s a b c d = r -> q_round s a b c d = r.
Proof. auto. Qed.

Ltac mqstep :=
  match goal with
  | |- context [q_round [?x0; ?x1; ?x2; ?x3; ?x4; ?x5; ?x6; ?x7; ?x8; ?x9; ?x10; ?x11; ?x12; ?x13; ?x14; ?x15] ?a ?b ?c ?d] =>
      let L := constr:([x0; x1; x2; x3; x4; x5; x6; x7; x8; x9; x10; x11; x12; x13; x14; x15]) in
      let va := eval cbn [nth] in (nth a L 0%N) in
      let vb := eval cbn [nth] in (nth b L 0%N) in
      let vc := eval cbn [nth] in (nth c L 0%N) in
      let vd := eval cbn [nth] in (nth d L 0%N) in
      replace (q_round L a b c d) with
        (let '(a', b', c', d') := mq va vb vc vd in upd a a' (upd b b' (upd c c' (upd d d' L)))) by reflexivity;
      rewrite (mq_spec va vb vc vd) by assumption;
      qstep; cbn [upd]
  end.

Lemma inner_block_spec g : grid_ok g ->
  inner_block (grid_words g) = grid_words (double_round g) /\ grid_ok (double_round g).
Proof.
  destruct g as [[[a b] c] d]. intros H. apply grid_ok_rows in H.
  destruct a as [[[a0 a1] a2] a3], b as [[[b0 b1] b2] b3], c as [[[c0 c1] c2] c3], d as [[[d0 d1] d2] d3].
  cbn [row_ok] in H. destruct H as ((? & ? & ? & ?) & (? & ? & ? & ?) & (? & ? & ? & ?) & (? & ? & ? & ?)).
  unfold inner_block, double_round, columns. cbn [grid_words].
  mqstep. mqstep. mqstep. mqstep. cbn [shift_rows left1].
  mqstep. mqstep. mqstep. mqstep. cbn [unshift_rows left1 grid_words].
  split; [reflexivity|]. apply grid_ok_rows. cbn [row_ok]. tauto.
Qed.

Lemma iter_S_r {A} n (f : A -> A) x : Nat.iter (S n) f x = Nat.iter n f (f x).
Proof. induction n as [|n IH]; [reflexivity|]. exact (f_equal f IH). Qed.

Lemma inner_iter n i g : grid_ok g ->
  iter_n n i (fun _ w => inner_block w) (grid_words g) = grid_words (iter n double_round g)
  /\ grid_ok (iter n double_round g).
Proof.
  unfold iter. revert i g. induction n as [|n IH]; intros i g H; [auto|].
  destruct (inner_block_spec g H) as [E H2].
  rewrite iter_n_S, E, (iter_S_r n). apply IH. auto.
Qed.

Lemma grid_words_of l : length l = 16 -> grid_words (grid_of l) = l.
Proof.
  intros H. do 16 (destruct l as [|? l]; [simpl in H; lia|]). destruct l; [reflexivity|simpl in H; lia].
Qed.
Lemma grid_of_words g : grid_of (grid_words g) = g.
Proof. destruct g as [[[[[[? ?] ?] ?] [[[? ?] ?] ?]] [[[? ?] ?] ?]] [[[? ?] ?] ?]]. reflexivity. Qed.
Lemma grid_words_length g : length (grid_words g) = 16.
Proof. destruct g as [[[[[[? ?] ?] ?] [[[? ?] ?] ?]] [[[? ?] ?] ?]] [[[? ?] ?] ?]]. reflexivity. Qed.

(** *** Invertibility of the rounds *)

Definition sub_w (x y : N) : N := add_w32 x (2^32 - y).
Definition quarter_inv (a b c d : N) : row :=
  let b := N.lxor (rol_w32 (32 - 7) b) c in let c := sub_w c d in
  let d := N.lxor (rol_w32 (32 - 8) d) a in let a := sub_w a b in
  let b := N.lxor (rol_w32 (32 - 12) b) c in let c := sub_w c d in
  let d := N.lxor (rol_w32 (32 - 16) d) a in let a := sub_w a b in
  (a, b, c, d).

Lemma lxor_cancel x y : N.lxor (N.lxor x y) y = x.
Proof. rewrite N.lxor_assoc, N.lxor_nilpotent. apply N.lxor_0_r. Qed.

Lemma rol_w32_inv' n x : (0 < n < 32)%N -> (x < 2^32)%N -> rol_w32 n (rol_w32 (32 - n) x) = x.
Proof.
  intros Hn Hx. replace n with (32 - (32 - n))%N at 1 by lia. apply rol_w32_inv; auto. lia.
Qed.

Ltac w32 :=
  repeat first [assumption | apply add_w32_lt | apply lxor_lt | apply rol_w32_lt; [|lia]].

Lemma quarter_inv_l a b c d : (a < 2^32)%N -> (b < 2^32)%N -> (c < 2^32)%N -> (d < 2^32)%N ->
  (let '(a, b, c, d) := quarter a b c d in quarter_inv a b c d) = (a, b, c, d).
Proof.
  intros. unfold quarter. cbv zeta.
  set (a1 := add_w32 a b). set (d1 := rol_w32 16 (N.lxor d a1)).
  set (c1 := add_w32 c d1). set (b1 := rol_w32 12 (N.lxor b c1)).
  set (a2 := add_w32 a1 b1). set (d2 := rol_w32 8 (N.lxor d1 a2)).
  set (c2 := add_w32 c1 d2). set (b2 := rol_w32 7 (N.lxor b1 c2)).
  assert (a1 < 2^32)%N by (unfold a1; w32). assert (d1 < 2^32)%N by (unfold d1; w32).
  assert (c1 < 2^32)%N by (unfold c1; w32). assert (b1 < 2^32)%N by (unfold b1; w32).
  assert (a2 < 2^32)%N by (unfold a2; w32). assert (d2 < 2^32)%N by (unfold d2; w32).
  assert (c2 < 2^32)%N by (unfold c2; w32).
  assert (Eb2 : N.lxor (rol_w32 (32 - 7) b2) c2 = b1).
  { unfold b2. rewrite rol_w32_inv by (try lia; w32). apply lxor_cancel. }
  assert (Ec2 : sub_w c2 d2 = c1) by (apply add_w32_sub; auto).
  assert (Ed2 : N.lxor (rol_w32 (32 - 8) d2) a2 = d1).
  { unfold d2. rewrite rol_w32_inv by (try lia; w32). apply lxor_cancel. }
  assert (Ea2 : sub_w a2 b1 = a1) by (apply add_w32_sub; auto).
  assert (Eb1 : N.lxor (rol_w32 (32 - 12) b1) c1 = b).
  { unfold b1. rewrite rol_w32_inv by (try lia; w32). apply lxor_cancel. }
  assert (Ec1 : sub_w c1 d1 = c) by (apply add_w32_sub; auto).
  assert (Ed1 : N.lxor (rol_w32 (32 - 16) d1) a1 = d).
  { unfold d1. rewrite rol_w32_inv by (try lia; w32). apply lxor_cancel. }
  assert (Ea1 : sub_w a1 b = a) by (apply add_w32_sub; auto).
  unfold quarter_inv. cbv zeta. rewrite Eb2, Ec2, Ed2, Ea2, Eb1, Ec1, Ed1, Ea1. reflexivity.
Qed.

Lemma quarter_inv_r a b c d : (a < 2^32)%N -> (b < 2^32)%N -> (c < 2^32)%N -> (d < 2^32)%N ->
  row_ok (quarter_inv a b c d) /\
  (let '(a, b, c, d) := quarter_inv a b c d in quarter a b c d) = (a, b, c, d).
Proof.
  intros. unfold quarter_inv. cbv zeta.
  set (b1 := N.lxor (rol_w32 (32 - 7) b) c). set (c1 := sub_w c d).
  set (d1 := N.lxor (rol_w32 (32 - 8) d) a). set (a1 := sub_w a b1).
  set (b2 := N.lxor (rol_w32 (32 - 12) b1) c1). set (c2 := sub_w c1 d1).
  set (d2 := N.lxor (rol_w32 (32 - 16) d1) a1). set (a2 := sub_w a1 b2).
  assert (b1 < 2^32)%N by (unfold b1; w32). assert (c1 < 2^32)%N by (unfold c1, sub_w; w32).
  assert (d1 < 2^32)%N by (unfold d1; w32). assert (a1 < 2^32)%N by (unfold a1, sub_w; w32).
  assert (b2 < 2^32)%N by (unfold b2; w32). assert (c2 < 2^32)%N by (unfold c2, sub_w; w32).
  assert (d2 < 2^32)%N by (unfold d2; w32). assert (a2 < 2^32)%N by (unfold a2, sub_w; w32).
  split; [cbn [row_ok]; auto|].
  assert (Ea2 : add_w32 a2 b2 = a1) by (apply add_w32_sub'; auto).
  assert (Ed2 : rol_w32 16 (N.lxor d2 a1) = d1).
  { unfold d2. rewrite lxor_cancel. apply rol_w32_inv'; auto. lia. }
  assert (Ec2 : add_w32 c2 d1 = c1) by (apply add_w32_sub'; auto).
  assert (Eb2 : rol_w32 12 (N.lxor b2 c1) = b1).
  { unfold b2. rewrite lxor_cancel. apply rol_w32_inv'; auto. lia. }
  assert (Ea1 : add_w32 a1 b1 = a) by (apply add_w32_sub'; auto).
  assert (Ed1 : rol_w32 8 (N.lxor d1 a) = d).
  { unfold d1. rewrite lxor_cancel. apply rol_w32_inv'; auto. lia. }
  assert (Ec1 : add_w32 c1 d = c) by (apply add_w32_sub'; auto).
  assert (Eb1 : rol_w32 7 (N.lxor b1 c) = b).
  { unfold b1. rewrite lxor_cancel. apply rol_w32_inv'; auto. lia. }
  unfold quarter. cbv zeta. rewrite Ea2, Ed2, Ec2, Eb2, Ea1, Ed1, Ec1, Eb1. reflexivity.
Qed.

Lemma quarter_inj a b c d a' b' c' d' :
  row_ok (a, b, c, d) -> row_ok (a', b', c', d') -> quarter a b c d = quarter a' b' c' d' ->
  (a, b, c, d) = (a', b', c', d').
Proof.
  intros (? & ? & ? & ?) (? & ? & ? & ?) E.
  rewrite <- (quarter_inv_l a b c d), <- (quarter_inv_l a' b' c' d') by auto. rewrite E. reflexivity.
Qed.

Lemma quarter_surj a b c d : row_ok (a, b, c, d) ->
  exists a' b' c' d', row_ok (a', b', c', d') /\ quarter a' b' c' d' = (a, b, c, d).
Proof.
  intros (? & ? & ? & ?). destruct (quarter_inv_r a b c d) as [H' E]; auto.
  destruct (quarter_inv a b c d) as [[[a' b'] c'] d']. exists a', b', c', d'. auto.
Qed.

Lemma columns_ok g : grid_ok g -> grid_ok (columns g).
Proof.
  destruct g as [[[[[[a0 a1] a2] a3] [[[b0 b1] b2] b3]] [[[c0 c1] c2] c3]] [[[d0 d1] d2] d3]].
  intros H. apply grid_ok_rows in H. cbn [row_ok] in H.
  destruct H as ((? & ? & ? & ?) & (? & ? & ? & ?) & (? & ? & ? & ?) & (? & ? & ? & ?)).
  unfold columns. repeat qstep. apply grid_ok_rows. cbn [row_ok]. tauto.
Qed.

Lemma columns_inj g g' : grid_ok g -> grid_ok g' -> columns g = columns g' -> g = g'.
Proof.
  destruct g as [[[[[[a0 a1] a2] a3] [[[b0 b1] b2] b3]] [[[c0 c1] c2] c3]] [[[d0 d1] d2] d3]].
  destruct g' as [[[[[[a0' a1'] a2'] a3'] [[[b0' b1'] b2'] b3']] [[[c0' c1'] c2'] c3']] [[[d0' d1'] d2'] d3']].
  intros H H'. apply grid_ok_rows in H. apply grid_ok_rows in H'. cbn [row_ok] in H, H'.
  pose proof (quarter_inj a0 b0 c0 d0 a0' b0' c0' d0') as I0.
  pose proof (quarter_inj a1 b1 c1 d1 a1' b1' c1' d1') as I1.
  pose proof (quarter_inj a2 b2 c2 d2 a2' b2' c2' d2') as I2.
  pose proof (quarter_inj a3 b3 c3 d3 a3' b3' c3' d3') as I3.
  unfold columns. intros E.
  destruct (quarter a0 b0 c0 d0) as [[[? ?] ?] ?], (quarter a1 b1 c1 d1) as [[[? ?] ?] ?],
    (quarter a2 b2 c2 d2) as [[[? ?] ?] ?], (quarter a3 b3 c3 d3) as [[[? ?] ?] ?],
    (quarter a0' b0' c0' d0') as [[[? ?] ?] ?], (quarter a1' b1' c1' d1') as [[[? ?] ?] ?],
    (quarter a2' b2' c2' d2') as [[[? ?] ?] ?], (quarter a3' b3' c3' d3') as [[[? ?] ?] ?].
  injection E as ? ? ? ? ? ? ? ? ? ? ? ? ? ? ? ?.
  cbn [row_ok] in *.
  assert (J0 : (a0, b0, c0, d0) = (a0', b0', c0', d0')) by (apply I0; [tauto|tauto|congruence]).
  assert (J1 : (a1, b1, c1, d1) = (a1', b1', c1', d1')) by (apply I1; [tauto|tauto|congruence]).
  assert (J2 : (a2, b2, c2, d2) = (a2', b2', c2', d2')) by (apply I2; [tauto|tauto|congruence]).
  assert (J3 : (a3, b3, c3, d3) = (a3', b3', c3', d3')) by (apply I3; [tauto|tauto|congruence]).
  injection J0; injection J1; injection J2; injection J3. intros. subst. reflexivity.
Qed.

Lemma columns_surj g : grid_ok g -> exists g', grid_ok g' /\ columns g' = g.
Proof.
  destruct g as [[[[[[a0 a1] a2] a3] [[[b0 b1] b2] b3]] [[[c0 c1] c2] c3]] [[[d0 d1] d2] d3]].
  intros H. apply grid_ok_rows in H. cbn [row_ok] in H.
  destruct (quarter_surj a0 b0 c0 d0) as (p0 & q0 & r0 & s0 & O0 & E0); [cbn [row_ok]; tauto|].
  destruct (quarter_surj a1 b1 c1 d1) as (p1 & q1 & r1 & s1 & O1 & E1); [cbn [row_ok]; tauto|].
  destruct (quarter_surj a2 b2 c2 d2) as (p2 & q2 & r2 & s2 & O2 & E2); [cbn [row_ok]; tauto|].
  destruct (quarter_surj a3 b3 c3 d3) as (p3 & q3 & r3 & s3 & O3 & E3); [cbn [row_ok]; tauto|].
  exists ((p0, p1, p2, p3), (q0, q1, q2, q3), (r0, r1, r2, r3), (s0, s1, s2, s3)). split.
  - apply grid_ok_rows. cbn [row_ok] in *. tauto.
  - unfold columns. rewrite E0, E1, E2, E3. reflexivity.
Qed.

Lemma shift_unshift g : shift_rows (unshift_rows g) = g.
Proof. destruct g as [[[[[[a0 a1] a2] a3] [[[b0 b1] b2] b3]] [[[c0 c1] c2] c3]] [[[d0 d1] d2] d3]]. reflexivity. Qed.
Lemma unshift_shift g : unshift_rows (shift_rows g) = g.
Proof. destruct g as [[[[[[a0 a1] a2] a3] [[[b0 b1] b2] b3]] [[[c0 c1] c2] c3]] [[[d0 d1] d2] d3]]. reflexivity. Qed.
Lemma shift_ok g : grid_ok g -> grid_ok (shift_rows g).
Proof.
  destruct g as [[[[[[a0 a1] a2] a3] [[[b0 b1] b2] b3]] [[[c0 c1] c2] c3]] [[[d0 d1] d2] d3]].
  intros H. apply grid_ok_rows in H. apply grid_ok_rows. cbn [row_ok left1] in *. tauto.
Qed.
Lemma unshift_ok g : grid_ok g -> grid_ok (unshift_rows g).
Proof.
  destruct g as [[[[[[a0 a1] a2] a3] [[[b0 b1] b2] b3]] [[[c0 c1] c2] c3]] [[[d0 d1] d2] d3]].
  intros H. apply grid_ok_rows in H. apply grid_ok_rows. cbn [row_ok left1] in *. tauto.
Qed.

Lemma double_inj g g' : grid_ok g -> grid_ok g' -> double_round g = double_round g' -> g = g'.
Proof.
  intros H H' E. unfold double_round in E. apply (f_equal shift_rows) in E. rewrite !shift_unshift in E.
  apply columns_inj in E; try (apply shift_ok, columns_ok; auto).
  apply (f_equal unshift_rows) in E. rewrite !unshift_shift in E. apply columns_inj in E; auto.
Qed.

Lemma double_surj g : grid_ok g -> exists g', grid_ok g' /\ double_round g' = g.
Proof.
  intros H. destruct (columns_surj (shift_rows g)) as (g1 & H1 & E1); [apply shift_ok; auto|].
  destruct (columns_surj (unshift_rows g1)) as (g2 & H2 & E2); [apply unshift_ok; auto|].
  exists g2. split; auto. unfold double_round. rewrite E2, shift_unshift, E1. apply unshift_shift.
Qed.

Lemma iter_double_inj n g g' : grid_ok g -> grid_ok g' ->
  iter n double_round g = iter n double_round g' -> g = g'.
Proof.
  revert g g'. unfold iter. induction n as [|n IH]; intros g g' H H' E; auto.
  rewrite !iter_S_r in E. apply IH in E.
  - apply double_inj; auto.
  - apply inner_block_spec; auto.
  - apply inner_block_spec; auto.
Qed.

Lemma iter_double_surj n g : grid_ok g -> exists g', grid_ok g' /\ iter n double_round g' = g.
Proof.
  revert g. unfold iter. induction n as [|n IH]; intros g H; [exists g; auto|].
  destruct (IH g H) as (g1 & H1 & E1). destruct (double_surj g1 H1) as (g2 & H2 & E2).
  exists g2. split; auto. rewrite iter_S_r, E2. auto.
Qed.

(** *** Block function *)

Lemma add_loop w cs : length w = 16 -> length cs = 16 ->
  iter_n 16 0 (fun i w => upd i (add32 (get w i) (get cs i)) w) w =
  map (fun p => add_w32 (fst p) (snd p)) (combine w cs).
Proof.
  intros Hw Hc.
  do 16 (destruct w as [|? w]; [simpl in Hw; lia|]). destruct w; [|simpl in Hw; lia].
  do 16 (destruct cs as [|? cs]; [simpl in Hc; lia|]). destruct cs; [|simpl in Hc; lia].
  cbn [iter_n upd get nth combine map fst snd]. rewrite !add32_spec. reflexivity.
Qed.

Lemma chacha_block_spec nr cs ctr : length cs = 16 -> words_ok (upd 12 ctr cs) ->
  chacha_block nr cs ctr = (upd 12 ctr cs, chacha_block_words nr (upd 12 ctr cs)).
Proof.
  intros L H. unfold chacha_block, chacha_block_words. f_equal.
  set (w := upd 12 ctr cs) in *.
  assert (Lw : length w = 16) by (unfold w; rewrite upd_length; auto).
  assert (G : grid_ok (grid_of w)) by (unfold grid_ok; rewrite grid_words_of; auto).
  rewrite <- (grid_words_of w Lw) at 1.
  destruct (inner_iter (nr / 2) 0 (grid_of w) G) as [-> _].
  apply add_loop; auto. apply grid_words_length.
Qed.

(** *** Initial state *)

Section Stream.
Context (key nonce : list N).
Hypothesis Hkey : bytes_ok key.
Hypothesis Hnonce : bytes_ok nonce.
Hypothesis Lkey : length key = 32.
Hypothesis Lnonce : length nonce = 12.

Lemma init_words_eq c : init_words key nonce c =
  [0x61707865; 0x3320646e; 0x79622d32; 0x6b206574]%N ++ map le_num (chunks 4 key) ++
  [(c mod 2^32)%N] ++ map le_num (chunks 4 nonce).
Proof. reflexivity. Qed.

Lemma init_words_length c : length (init_words key nonce c) = 16.
Proof.
  destruct (words_le_ok key 8 Hkey ltac:(lia)) as [_ A].
  destruct (words_le_ok nonce 3 Hnonce ltac:(lia)) as [_ B].
  rewrite init_words_eq, !app_length, A, B. reflexivity.
Qed.

Lemma init_words_ok c : words_ok (init_words key nonce c).
Proof.
  destruct (words_le_ok key 8 Hkey ltac:(lia)) as [A _].
  destruct (words_le_ok nonce 3 Hnonce ltac:(lia)) as [B _].
  rewrite init_words_eq. apply Forall_app. split.
  - repeat (constructor; [reflexivity|]). constructor.
  - apply Forall_app. split; auto. apply Forall_app. split; auto.
    constructor; [|constructor]. apply N.mod_lt. discriminate.
Qed.

Lemma init_words_upd c c' : (c' < 2^32)%N -> upd 12 c' (init_words key nonce c) = init_words key nonce c'.
Proof.
  intros H. destruct (words_le_ok key 8 Hkey ltac:(lia)) as [_ A].
  rewrite !init_words_eq.
  destruct (map le_num (chunks 4 key)) as [|k0 [|k1 [|k2 [|k3 [|k4 [|k5 [|k6 [|k7 [|? ?]]]]]]]]]; simpl in A; try lia.
  cbn [app upd]. rewrite (N.mod_small c') by auto. reflexivity.
Qed.

Lemma initialize_spec m kp np : has_bytes m kp key -> has_bytes m np nonce ->
  chacha_initialize m kp np = Ret (init_words key nonce 1).
Proof.
  intros Hk Hn. unfold chacha_initialize.
  rewrite (has_bytes_words _ _ _ 8 Hk), (has_bytes_words _ _ _ 3 Hn) by lia. reflexivity.
Qed.

Definition ks_words (nr n : nat) : list N :=
  flat_map (fun i => chacha_block_words nr (init_words key nonce (N.of_nat i))) (seq 1 n).

Lemma ks_words_bytes nr n : le_bytes (ks_words nr n) = chacha_stream nr key nonce n.
Proof.
  unfold ks_words, chacha_stream. generalize (seq 1 n). induction l as [|i l IH]; auto.
  cbn [flat_map]. rewrite le_bytes_app, IH, le_bytes_spec. reflexivity.
Qed.

Lemma init_words_mod c : init_words key nonce (c mod 2^32) = init_words key nonce c.
Proof. rewrite !init_words_eq. rewrite N.mod_mod by discriminate. reflexivity. Qed.

(** The state's counter word is always overwritten before it is used. *)
Lemma gen_loop nr n : forall c i acc j,
  iter_n n j
    (fun _ '(cs, ks, counter) =>
       let '(cs, blk) := chacha_block nr cs counter in (cs, ks ++ blk, add32 counter 1))
    (init_words key nonce c, acc, (N.of_nat i mod 2^32)%N) =
  (init_words key nonce (match n with O => c | S k => N.of_nat (i + k) end),
   acc ++ flat_map (fun i => chacha_block_words nr (init_words key nonce (N.of_nat i))) (seq i n),
   (N.of_nat (i + n) mod 2^32)%N).
Proof.
  induction n as [|n IH]; intros c i acc j.
  - cbn [iter_n seq flat_map]. rewrite app_nil_r, Nat.add_0_r. reflexivity.
  - cbn [iter_n]. rewrite chacha_block_spec.
    2: apply init_words_length.
    2: rewrite init_words_upd by (apply N.mod_lt; discriminate); apply init_words_ok.
    rewrite init_words_upd by (apply N.mod_lt; discriminate).
    rewrite init_words_mod.
    replace (add32 (N.of_nat i mod 2^32) 1) with (N.of_nat (S i) mod 2^32)%N.
    2:{ rewrite add32_spec. unfold add_w32. rewrite N.add_mod_idemp_l by discriminate. f_equal. lia. }
    rewrite IH. cbn [seq flat_map]. rewrite <- app_assoc.
    replace (i + S n) with (S i + n) by lia. f_equal. f_equal.
    destruct n; [rewrite Nat.add_0_r|replace (S i + n) with (i + S n) by lia]; reflexivity.
Qed.

Lemma block_words_length nr c : length (chacha_block_words nr (init_words key nonce c)) = 16.
Proof.
  unfold chacha_block_words. rewrite map_length, combine_length, grid_words_length, init_words_length.
  reflexivity.
Qed.

Lemma ks_words_length nr n : length (ks_words nr n) = 16 * n.
Proof.
  unfold ks_words.
  assert (X : forall k, length (flat_map (fun i => chacha_block_words nr (init_words key nonce (N.of_nat i))) (seq k n)) = 16 * n).
  { induction n as [|n IH]; intros k; [reflexivity|].
    cbn [seq flat_map]. rewrite app_length, IH, block_words_length. lia. }
  apply X.
Qed.

Lemma stream_length nr n : length (chacha_stream nr key nonce n) = 64 * n.
Proof. rewrite <- ks_words_bytes, le_bytes_length, ks_words_length. lia. Qed.

Lemma stream_prefix nr n k : chacha_stream nr key nonce (n + k) =
  chacha_stream nr key nonce n ++
  flat_map (fun i => chacha_block_bytes nr key nonce (N.of_nat i)) (seq (1 + n) k).
Proof. unfold chacha_stream. rewrite seq_app, flat_map_app. reflexivity. Qed.

Lemma xor_prefix a s t : length a <= length s -> xor_bytes a (s ++ t) = xor_bytes a s.
Proof.
  intros H. rewrite <- (xor_bytes_trunc a (s ++ t)), <- (xor_bytes_trunc a s).
  rewrite firstn_app. replace (length a - length s) with 0 by lia. cbn [firstn]. rewrite app_nil_r. reflexivity.
Qed.

Lemma xor_stream_any nr n data : length data <= 64 * n ->
  xor_bytes data (chacha_stream nr key nonce n) = chacha_encrypt nr key nonce data.
Proof.
  intros H. unfold chacha_encrypt. set (k := length data / 64 + 1).
  assert (Hk : length data <= 64 * k).
  { unfold k. pose proof (Nat.div_mod (length data) 64 ltac:(lia)).
    pose proof (Nat.mod_upper_bound (length data) 64 ltac:(lia)). lia. }
  destruct (Nat.le_ge_cases n k).
  - replace k with (n + (k - n)) by lia. rewrite stream_prefix, xor_prefix; auto.
    rewrite stream_length. auto.
  - replace n with (k + (n - k)) by lia. rewrite stream_prefix, xor_prefix; auto.
    rewrite stream_length. auto.
Qed.

Lemma process_ok nr c m out inp data :
  has_bytes m inp data -> writable m out (length data) -> same_or_disjoint out inp (length data) ->
  (Z.of_nat (length data) < 2^31)%Z ->
  exists c',
  chacha_process_packet nr (init_words key nonce c) m out inp (N.of_nat (length data)) =
  Ret (init_words key nonce c', write_at m out (chacha_encrypt nr key nonce data)).
Proof.
  intros Hin Hout Hov Hlen.
  assert (B : (Z.of_nat (length data) < 2147483648)%Z) by exact Hlen.
  unfold chacha_process_packet, double_to_int, ceil_div.
  rewrite nat_N_Z. set (n := length data) in *.
  assert (IR : forall z, (-2147483648 <= z <= 2147483647)%Z -> int_ret z = Ret z).
  { intros z Hz. unfold int_ret, int_min, int_max.
    destruct (Z.leb_spec (-2147483648) z), (Z.leb_spec z 2147483647); try lia. reflexivity. }
  set (nw := ((Z.of_nat n + (4 - 1)) / 4)%Z).
  set (ni := ((nw + (16 - 1)) / 16)%Z).
  assert (Hnw : (Z.of_nat n <= 4 * nw < Z.of_nat n + 4)%Z) by (unfold nw; lia).
  assert (Hni : (nw <= 16 * ni < nw + 16)%Z) by (unfold ni; lia).
  rewrite IR by lia. cbn [bind]. fold ni. rewrite IR by lia. cbn [bind]. rewrite IR by lia. cbn [bind].
  pose proof (gen_loop nr (Z.to_nat ni) c 1 [] 0) as G.
  change (N.of_nat 1 mod 2^32)%N with 1%N in G. rewrite G. clear G. cbn [app]. fold (ks_words nr (Z.to_nat ni)).
  set (c' := match Z.to_nat ni with O => c | S k => N.of_nat (1 + k) end).
  exists c'. cbv iota beta.
  set (ksw := ks_words nr (Z.to_nat ni)).
  set (ks := chacha_stream nr key nonce (Z.to_nat ni)).
  assert (Eks : le_bytes ksw = ks) by apply ks_words_bytes.
  assert (Lkw : length ksw = 16 * Z.to_nat ni) by apply ks_words_length.
  assert (Lks : length ks = 64 * Z.to_nat ni) by apply stream_length.
  assert (Hks : n <= length ks) by lia.
  rewrite to_int_id by (unfold int_max; lia).
  pose (st := fun i => (xst m out data ks (4 * i), padd inp (4 * i), padd out (4 * i), i, (Z.of_nat n - 4 * Z.of_nat i)%Z)).
  assert (E0 : (m, inp, out, 0, Z.of_nat n) = st 0).
  { unfold st. rewrite Nat.mul_0_r, xst_0, !padd_0. do 2 f_equal. lia. }
  rewrite E0. rewrite (while_steps _ _ st (n / 4)).
  - cbn [bind]. unfold st at 1.
    set (q := n / 4). set (r := Z.to_nat (Z.of_nat n - 4 * Z.of_nat q)).
    assert (Hr : n = 4 * q + r /\ r < 4) by (unfold r, q; lia).
    pose (st2 := fun i => xst m out data ks (4 * q + i)).
    replace (xst m out data ks (4 * q)) with (st2 0) by (unfold st2; rewrite Nat.add_0_r; reflexivity).
    rewrite (for_n_steps _ st2).
    + cbn [bind]. unfold st2. rewrite xst_all by (fold n; lia).
      rewrite <- (xor_stream_any nr (Z.to_nat ni) data) by (fold n; lia). reflexivity.
    + intros i Hi. rewrite Nat.add_0_l.
      rewrite Nat.div_small, Nat.mod_small, Nat.add_0_r by lia.
      unfold ks_word. destruct (nth_error ksw q) as [w|] eqn:Ew.
      2:{ apply nth_error_None in Ew. lia. }
      cbn [bind]. rewrite !padd_padd. unfold st2.
      rewrite (xor8_step m out inp data ks Hin Hout Hov Hks (4 * q + i)).
      * f_equal. f_equal. lia.
      * fold n. lia.
      * rewrite <- Eks, le_bytes_nth by lia. rewrite (nth_error_nth _ _ _ Ew). reflexivity.
  - intros i Hi. unfold st at 1 2. split; [apply Z.ltb_lt; lia|].
    unfold ks_word. destruct (nth_error ksw i) as [w|] eqn:Ew.
    2:{ apply nth_error_None in Ew. lia. }
    cbn [bind]. rewrite (xor32_step m out inp data ks Hin Hout Hov Hks (4 * i) w).
    + cbn [bind]. unfold st. rewrite !padd_padd. replace (4 * S i) with (4 * i + 4) by lia.
      f_equal. f_equal. lia.
    + fold n. lia.
    + rewrite <- Eks. apply le_bytes_word. auto.
  - unfold st. apply Z.ltb_ge. lia.
  - rewrite Nat2Z.id. lia.
Qed.

(** Sizes from 2^31 to 2^32-1: n_bytes is negative and nothing is processed. *)
Lemma process_too_long nr c m out inp size :
  (2^31 <= Z.of_N size < 2^32)%Z ->
  exists cs, chacha_process_packet nr (init_words key nonce c) m out inp size = Ret (cs, m).
Proof.
  intros [H1 H2]. change (2^31)%Z with 2147483648%Z in H1. change (2^32)%Z with 4294967296%Z in H2.
  unfold chacha_process_packet, double_to_int, ceil_div.
  assert (IR : forall z, (-2147483648 <= z <= 2147483647)%Z -> int_ret z = Ret z).
  { intros z Hz. unfold int_ret, int_min, int_max.
    destruct (Z.leb_spec (-2147483648) z), (Z.leb_spec z 2147483647); try lia. reflexivity. }
  rewrite IR by lia. cbn [bind]. rewrite IR by lia. cbn [bind]. rewrite IR by lia. cbn [bind].
  destruct (iter_n _ _ _ _) as [[cs ks] counter]. exists cs.
  set (nb := to_int (Z.of_N size)).
  assert (Hnb : (nb < 0)%Z).
  { unfold nb, to_int. rewrite Z.mod_small by lia.
    destruct (Z.ltb_spec (Z.of_N size) 2147483648); lia. }
  cbn [while]. destruct (Z.ltb_spec 3 nb); [lia|]. cbn [bind].
  replace (Z.to_nat nb) with 0 by lia. reflexivity.
Qed.

End Stream.

(** *** Consequences *)

Lemma chacha_encrypt_length nr key nonce data :
  bytes_ok key -> bytes_ok nonce -> length key = 32 -> length nonce = 12 ->
  length (chacha_encrypt nr key nonce data) = length data.
Proof.
  intros. unfold chacha_encrypt. rewrite xor_bytes_length_min, stream_length by auto.
  pose proof (Nat.div_mod (length data) 64 ltac:(lia)).
  pose proof (Nat.mod_upper_bound (length data) 64 ltac:(lia)). lia.
Qed.

Lemma chacha_stream_ok nr key nonce n : bytes_ok (chacha_stream nr key nonce n).
Proof.
  unfold chacha_stream. generalize (seq 1 n). induction l as [|i l IH]; [constructor|].
  cbn [flat_map]. apply Forall_app. split; auto. unfold chacha_block_bytes.
  generalize (chacha_block_words nr (init_words key nonce (N.of_nat i))).
  induction l0 as [|w ws IHw]; [constructor|]. cbn [flat_map]. apply Forall_app. split; auto. apply le_str_ok.
Qed.

Lemma chacha_encrypt_invol nr key nonce data :
  bytes_ok key -> bytes_ok nonce -> length key = 32 -> length nonce = 12 ->
  chacha_encrypt nr key nonce (chacha_encrypt nr key nonce data) = data.
Proof.
  intros. unfold chacha_encrypt at 1. rewrite chacha_encrypt_length by auto. unfold chacha_encrypt.
  apply xor_bytes_invol. rewrite stream_length by auto.
  pose proof (Nat.div_mod (length data) 64 ltac:(lia)).
  pose proof (Nat.mod_upper_bound (length data) 64 ltac:(lia)). lia.
Qed.

Lemma chacha_encrypt_ok nr key nonce data : bytes_ok data -> bytes_ok (chacha_encrypt nr key nonce data).
Proof. intros. unfold chacha_encrypt. apply xor_bytes_ok; auto. apply chacha_stream_ok. Qed.

(** Encryption, then decryption by a second state. *)
Lemma chacha_round_trip nr m key k nonce n out inp back data :
  has_bytes m key k -> length k = 32 -> has_bytes m nonce n -> length n = 12 ->
  has_bytes m inp data -> writable m out (length data) -> same_or_disjoint out inp (length data) ->
  writable m back (length data) -> same_or_disjoint back out (length data) ->
  (Z.of_nat (length data) < 2^31)%Z ->
  exists cs cs1 m1 cs2,
    chacha_initialize m key nonce = Ret cs /\
    chacha_process_packet nr cs m out inp (N.of_nat (length data)) = Ret (cs1, m1) /\
    chacha_process_packet nr cs m1 back out (N.of_nat (length data)) = Ret (cs2, write_at m1 back data).
Proof.
  intros Hk Lk Hn Ln Hin Hout Hov Wb Hb Hlen.
  pose proof (has_bytes_bytes _ _ _ Hk) as Ok. pose proof (has_bytes_bytes _ _ _ Hn) as On.
  pose proof (has_bytes_bytes _ _ _ Hin) as Od.
  exists (init_words k n 1).
  destruct (process_ok k n Ok On Lk Ln nr 1 m out inp data) as [c1 E1]; auto.
  set (e := chacha_encrypt nr k n data) in *.
  assert (Le : length e = length data) by (apply chacha_encrypt_length; auto).
  destruct (process_ok k n Ok On Lk Ln nr 1 (write_at m out e) back out e) as [c2 E2].
  - apply has_bytes_write_same; [rewrite Le; auto|]. apply chacha_encrypt_ok; auto.
  - rewrite Le. apply writable_write_at; auto. rewrite Le; auto.
  - rewrite Le. auto.
  - rewrite Le. auto.
  - exists (init_words k n c1), (write_at m out e), (init_words k n c2).
    split; [apply initialize_spec; auto|]. split; [exact E1|].
    rewrite Le in E2. rewrite E2. unfold e at 2. rewrite chacha_encrypt_invol by auto. reflexivity.
Qed.

(** The state returned by any successful call has the initial words except for
    the counter word. *)
Lemma process_state nr k n c m out inp size cs' m' :
  bytes_ok k -> bytes_ok n -> length k = 32 -> length n = 12 ->
  chacha_process_packet nr (init_words k n c) m out inp size = Ret (cs', m') ->
  exists c', cs' = init_words k n c'.
Proof.
  intros Ok On Lk Ln H. unfold chacha_process_packet in H.
  destruct (double_to_int _) as [nw| |] in H; cbn [bind] in H; try discriminate.
  destruct (double_to_int _) as [ni| |] in H; cbn [bind] in H; try discriminate.
  destruct (int_ret _) as [len| |] in H; cbn [bind] in H; try discriminate.
  pose proof (gen_loop k n Ok On Lk Ln nr (Z.to_nat ni) c 1 [] 0) as G.
  change (N.of_nat 1 mod 2^32)%N with 1%N in G. rewrite G in H. clear G. cbv beta iota in H.
  destruct (while _ _ _ _) as [[[[[m1 i1] o1] k1] n1]| |] in H; cbn [bind] in H; try discriminate.
  destruct (for_n _ _ _ _) as [m2| |] in H; cbn [bind] in H; try discriminate.
  injection H as <- _. eexists. reflexivity.
Qed.

(** *** byte_swap *)

Lemma byte_swap_writes_input m output input ws :
  has_bytes m input (le_bytes ws) -> words_ok ws ->
  byte_swap m output input (Z.of_nat (4 * length ws)) =
  Ret (write_at m input (le_bytes (map swap32 ws))).
Proof.
  intros H W. unfold byte_swap.
  replace (Z.to_nat (Z.of_nat (4 * length ws) ÷ 4)) with (length ws).
  2:{ replace (Z.of_nat (4 * length ws)) with (Z.of_nat (length ws) * 4)%Z by lia.
      rewrite Z.quot_mul by lia. lia. }
  pose proof (has_bytes_writable _ _ _ H) as Wr. rewrite le_bytes_length in Wr.
  pose (st := fun i => write_at m input (le_bytes (map swap32 (firstn i ws)))).
  assert (E0 : m = st 0) by (unfold st; cbn [firstn map le_bytes flat_map]; rewrite write_at_nil; auto).
  transitivity (for_n (length ws) 0
    (fun i m => let* num := ld32 m (padd input (4 * i)) in st32 m (padd input (4 * i)) (swap32 num)) (st 0)).
  { rewrite <- E0. reflexivity. }
  rewrite (for_n_steps _ st).
  - unfold st. rewrite firstn_all. reflexivity.
  - intros i Hi. rewrite Nat.add_0_l.
    destruct (nth_error ws i) as [w|] eqn:Ew; [|apply nth_error_None in Ew; lia].
    pose proof (nth_error_In _ _ Ew) as Iw. pose proof (proj1 (Forall_forall _ _) W _ Iw) as Lw.
    assert (Li : length (le_bytes (map swap32 (firstn i ws))) = 4 * i).
    { rewrite le_bytes_length, map_length, firstn_length. lia. }
    assert (R : has_bytes (st i) (padd input (4 * i)) (skipn (4 * i) (le_bytes ws))).
    { unfold st. apply has_bytes_write_other.
      - rewrite Li. apply (writable_le _ _ _ _ Wr). lia.
      - rewrite Li. right. left. rewrite poff_padd. lia.
      - apply has_bytes_skipn; auto. rewrite le_bytes_length. lia. }
    apply (has_bytes_firstn _ _ _ 4) in R. rewrite (le_bytes_word _ _ _ Ew) in R.
    unfold bytes_of_le32 in R.
    rewrite (has_bytes_ld32 _ _ _ _ _ _ _ R). cbn [bind].
    rewrite le32_bytes_of by auto.
    rewrite st32_write.
    2:{ unfold st. apply writable_write_at.
        - rewrite Li. apply (writable_le _ _ _ _ Wr). lia.
        - apply writable_padd. apply (writable_le _ _ _ _ Wr). lia. }
    f_equal. unfold st.
    rewrite (firstn_S_nth ws i 0%N) by lia. rewrite map_app, le_bytes_app.
    rewrite write_at_app_n; [|lia|].
    + do 2 f_equal. cbn [map le_bytes flat_map]. rewrite (nth_error_nth _ _ _ Ew), app_nil_r. reflexivity.
    + apply (writable_le _ _ _ _ Wr). rewrite bytes_of_le32_length. lia.
Qed.

Lemma byte_of_testbit w j t : N.testbit (byte_of w j) t = N.testbit w (t + 8 * j) && (t <? 8)%N.
Proof. unfold byte_of. rewrite u8_testbit, N.shiftr_spec' . reflexivity. Qed.

Lemma swap32_byte w j : (j < 4)%N -> byte_of (swap32 w) j = byte_of w (3 - j).
Proof.
  intros Hj. apply N.bits_inj. intros t. rewrite !byte_of_testbit.
  destruct (N.ltb_spec t 8); [|rewrite !Bool.andb_false_r; reflexivity]. rewrite !Bool.andb_true_r.
  unfold swap32. rewrite !N.lor_spec, !N.land_spec, !shr32_testbit, !shl32_testbit.
  assert (Ht : (t = 0 \/ t = 1 \/ t = 2 \/ t = 3 \/ t = 4 \/ t = 5 \/ t = 6 \/ t = 7)%N) by lia.
  assert (J : (j = 0 \/ j = 1 \/ j = 2 \/ j = 3)%N) by lia.
  destruct J as [->|[->|[->| ->]]]; destruct Ht as [->|[->|[->|[->|[->|[->|[->| ->]]]]]]];
    cbn -[N.testbit]; cbn [N.testbit Pos.testbit N.pred Pos.pred_N Pos.pred_double];
    rewrite ?Bool.andb_false_r, ?Bool.andb_true_r, ?Bool.orb_false_r, ?Bool.orb_false_l; reflexivity.
Qed.

Lemma swap32_rev w : (w < 2^32)%N -> bytes_of_le32 (swap32 w) = rev (le_str 4 w).
Proof.
  intros H. rewrite <- bytes_of_le32_str. unfold bytes_of_le32.
  rewrite !swap32_byte by reflexivity. reflexivity.
Qed.
