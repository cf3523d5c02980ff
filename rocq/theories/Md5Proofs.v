(** Legacy/MD5 computes the RFC 1321 compression function. *)
From Coq Require Import Arith NArith List Bool Lia.
From Verif Require Import Res Words Mem ListLemmas SpecWords WordsLemmas ShaProofs Md5Model.
From Verif Require Md5Spec.
Import ListNotations.
Local Open Scope N_scope.

(** ** The operations *)
Definition mfn (i : nat) : N -> N -> N -> N :=
  if (i <? 16)%nat then fF else if (i <? 32)%nat then fG else if (i <? 48)%nat then fH else fI.
Definition role (i k : nat) : nat := ((64 - i + k) mod 4)%nat.
Definition op_at (i : nat) : op :=
  Op (mfn i) (role i 0) (role i 1) (role i 2) (role i 3) (Md5Spec.word_index i) (Md5Spec.rotation i) (nth i Md5Spec.T 0).
Lemma ops_table : ops = map op_at (seq 0 64).
Proof. vm_compute. reflexivity. Qed.


Definition w4 (s : Md5Spec.state4) : Prop :=
  let '(a, b, c, d) := s in a < 2^32 /\ b < 2^32 /\ c < 2^32 /\ d < 2^32.
Definition place (i : nat) (s : Md5Spec.state4) : list N :=
  let '(a, b, c, d) := s in
  match (i mod 4)%nat with O => [a; b; c; d] | 1%nat => [b; c; d; a] | 2%nat => [c; d; a; b] | _ => [d; a; b; c] end.

Lemma mfn_ok i b c d : b < 2^32 -> c < 2^32 -> d < 2^32 -> mfn i b c d = Md5Spec.fn i b c d.
Proof.
  intros Hb Hc Hd. unfold mfn, Md5Spec.fn. destruct (i <? 16)%nat; [|destruct (i <? 32)%nat; [|destruct (i <? 48)%nat]].
  - unfold fF, Md5Spec.F. rewrite not32_spec by exact Hb. reflexivity.
  - unfold fG, Md5Spec.G. rewrite not32_spec by exact Hd. reflexivity.
  - reflexivity.
  - unfold fI, Md5Spec.I. rewrite not32_spec by exact Hd. reflexivity.
Qed.
Lemma rotation_lt i : Md5Spec.rotation i < 32.
Proof.
  unfold Md5Spec.rotation. pose proof (Nat.mod_upper_bound i 4 ltac:(discriminate)) as H.
  destruct (i mod 4)%nat as [|[|[|[|]]]]; try lia;
    (destruct (i <? 16)%nat; [|destruct (i <? 32)%nat; [|destruct (i <? 48)%nat]]); reflexivity.
Qed.

Definition new_a (X : list N) (i : nat) (a b c d : N) : N :=
  add_w32 b (rol_w32 (Md5Spec.rotation i) ((a + Md5Spec.fn i b c d + nth (Md5Spec.word_index i) X 0 + nth i Md5Spec.T 0) mod 2^32)).
Lemma new_a_ok X i a b c d : b < 2^32 -> c < 2^32 -> d < 2^32 ->
  add32 (rotl32 (add32 a (add32 (add32 (mfn i b c d) (nth (Md5Spec.word_index i) X 0)) (nth i Md5Spec.T 0))) (Md5Spec.rotation i)) b = new_a X i a b c d.
Proof.
  intros Hb Hc Hd. rewrite mfn_ok by assumption. unfold new_a. rewrite !add32_spec.
  rewrite rotl32_spec; [|apply add_w32_lt|apply rotation_lt].
  unfold add_w32. rewrite N.add_comm. do 3 f_equal.
  rewrite N.add_mod_idemp_r by discriminate. rewrite !N.add_assoc.
  rewrite (N.add_comm a). rewrite <- !N.add_assoc. rewrite N.add_mod_idemp_l by discriminate. f_equal. lia.
Qed.

Lemma role_mod i : (i < 64)%nat -> forall t, (i mod 4 = t)%nat ->
  role i 0 = ((4 - t) mod 4)%nat /\ role i 1 = ((5 - t) mod 4)%nat /\ role i 2 = ((6 - t) mod 4)%nat /\ role i 3 = ((7 - t) mod 4)%nat.
Proof.
  intros H t <-. pose proof (Nat.div_mod i 4 ltac:(discriminate)) as D. pose proof (Nat.mod_upper_bound i 4 ltac:(discriminate)) as B.
  set (q := (i / 4)%nat) in *. set (t := (i mod 4)%nat) in *. unfold role.
  assert (X : forall k, ((64 - i + k) mod 4 = (4 + k - t) mod 4)%nat).
  { intros k. replace (64 - i + k)%nat with (4 + k - t + (15 - q) * 4)%nat by lia. apply Nat.mod_add. discriminate. }
  rewrite !X. repeat split; f_equal; lia.
Qed.

Lemma op_ok X s i : (i < 64)%nat -> w4 s ->
  run_op X (place i s) (op_at i) = place (S i) (Md5Spec.step X s i) /\ w4 (Md5Spec.step X s i).
Proof.
  intros Hi W. destruct s as [[[a b] c] d]. destruct W as (Wa & Wb & Wc & Wd).
  unfold Md5Spec.step. cbv zeta. fold (new_a X i a b c d). split; [|repeat split; try assumption; apply add_w32_lt].
  assert (S4 : (S i mod 4 = S (i mod 4) mod 4)%nat) by (rewrite <- (Nat.add_1_l i), <- (Nat.add_1_l (i mod 4)), Nat.add_mod_idemp_r by discriminate; reflexivity).
  pose proof (Nat.mod_upper_bound i 4 ltac:(discriminate)) as B. unfold place. rewrite S4.
  destruct (i mod 4)%nat as [|[|[|[|]]]] eqn:E; try lia;
  destruct (role_mod i Hi _ E) as (R0 & R1 & R2 & R3); unfold run_op, op_at; cbn [oa ob oc od ox os oac of];
  rewrite R0, R1, R2, R3;
  match goal with |- context [(4 - ?t) mod 4] => idtac | _ => idtac end;
  cbn [Nat.sub Nat.modulo Nat.divmod fst snd nth upd]; rewrite new_a_ok by assumption; reflexivity.
Qed.

Lemma ops_ok X n : forall i s, (i + n <= 64)%nat -> w4 s ->
  fold_left (run_op X) (map op_at (seq i n)) (place i s) = place (i + n) (fold_left (Md5Spec.step X) (seq i n) s) /\
  w4 (fold_left (Md5Spec.step X) (seq i n) s).
Proof.
  induction n as [|n IH]; intros i s H W; cbn [seq map fold_left].
  - rewrite Nat.add_0_r. split; [reflexivity|exact W].
  - destruct (op_ok X s i ltac:(lia) W) as [E W2]. rewrite E. destruct (IH (S i) _ ltac:(lia) W2) as [E2 W3].
    split; [|exact W3]. rewrite E2. f_equal. lia.
Qed.

Definition list4 (s : Md5Spec.state4) : list N := let '(a, b, c, d) := s in [a; b; c; d].

(** ** The block *)
Lemma le_or a b c d : a < 256 -> b < 256 -> c < 256 -> d < 256 ->
  N.lor (N.lor (N.lor a (shl32 b 8)) (shl32 c 16)) (shl32 d 24) = le_num [a; b; c; d].
Proof.
  intros Ha Hb Hc Hd. unfold shl32. rewrite !u32_id, !N.shiftl_mul_pow2
    by (rewrite N.shiftl_mul_pow2; change (2^24) with 16777216; change (2^16) with 65536; change (2^8) with 256; change (2^32) with 4294967296; lia).
  rewrite (N.lor_comm a), lor_mul_add by (change (2^8) with 256; lia).
  rewrite (N.lor_comm _ (c * 2^16)), lor_mul_add by (change (2^8) with 256; change (2^16) with 65536; lia).
  rewrite (N.lor_comm _ (d * 2^24)), lor_mul_add by (change (2^8) with 256; change (2^16) with 65536; change (2^24) with 16777216; lia).
  cbn [le_num]. change (2^8) with 256. change (2^16) with 65536. change (2^24) with 16777216. lia.
Qed.

Definition reads (rd : N -> res N) (i : N) (l : list N) : Prop :=
  forall j, (j < length l)%nat -> rd (i + N.of_nat j) = Ret (nth j l 0).

Lemma decode_ok rd i block : reads rd i block -> length block = 64%nat -> bytes_ok block ->
  decode rd i = Ret (map le_num (chunks 4 block)).
Proof.
  intros R L B. unfold decode.
  assert (X : forall n k l acc, reads rd (i + 4 * N.of_nat k) l -> bytes_ok l -> length l = (4 * n)%nat ->
    for_n n k (fun k x =>
      let j := i + 4 * N.of_nat k in
      let* b0 := rd j in let* b1 := rd (j + 1) in let* b2 := rd (j + 2) in let* b3 := rd (j + 3) in
      Ret (x ++ [N.lor (N.lor (N.lor b0 (shl32 b1 8)) (shl32 b2 16)) (shl32 b3 24)])) acc
    = Ret (acc ++ map le_num (chunks 4 l))).
  { clear. induction n as [|n IH]; intros k l acc R B L.
    - destruct l; [|discriminate]. rewrite app_nil_r. reflexivity.
    - cbn [for_n]. cbv zeta.
      assert (X : exists a b c d r, l = [a; b; c; d] ++ r /\ length r = (4 * n)%nat).
      { do 4 (destruct l as [|? l]; [cbn in L; lia|]). do 5 eexists. split; [reflexivity|]. cbn in L. lia. }
      destruct X as (a & b & c & d & r & -> & Lr).
      pose proof (R 0%nat ltac:(cbn; lia)) as R0. pose proof (R 1%nat ltac:(cbn; lia)) as R1.
      pose proof (R 2%nat ltac:(cbn; lia)) as R2. pose proof (R 3%nat ltac:(cbn; lia)) as R3.
      rewrite N.add_0_r in R0. cbn [nth app] in R0, R1, R2, R3.
      change (N.of_nat 1) with 1 in R1. change (N.of_nat 2) with 2 in R2. change (N.of_nat 3) with 3 in R3.
      rewrite R0, R1, R2, R3. cbn [bind].
      apply Forall_app in B. destruct B as [B1 B2]. repeat rewrite Forall_cons_iff in B1. destruct B1 as (?&?&?&?&_).
      rewrite le_or by assumption. rewrite IH with (l := r); [|clear - R|exact B2|exact Lr].
      + rewrite chunks_app by (auto with arith; lia). cbn [map]. rewrite <- app_assoc. reflexivity.
      + intros j Hj. specialize (R (4 + j)%nat ltac:(rewrite app_length; cbn; lia)). rewrite app_nth2 in R by (cbn; lia).
        cbn [length] in R. replace (4 + j - 4)%nat with j in R by lia. rewrite <- R. f_equal. lia. }
  specialize (X 16%nat 0%nat block []). cbn [app] in X. apply X; [|exact B|exact L].
  rewrite N.mul_0_r, N.add_0_r. exact R.
Qed.

Theorem transform_ok rd i block s : reads rd i block -> length block = 64%nat -> bytes_ok block -> w4 s ->
  transform (list4 s) rd i = Ret (list4 (Md5Spec.compress s block)) /\ w4 (Md5Spec.compress s block).
Proof.
  intros R L B W. unfold transform. rewrite (decode_ok rd i block R L B). cbn [bind]. rewrite ops_table.
  unfold Md5Spec.compress. set (X := map le_num (chunks 4 block)).
  destruct (ops_ok X 64 0 s ltac:(lia) W) as [E _].
  assert (P0 : place 0 s = list4 s) by (destruct s as [[[? ?] ?] ?]; reflexivity). rewrite P0 in E. rewrite E.
  destruct (fold_left (Md5Spec.step X) (seq 0 64) s) as [[[a' b'] c'] d'] eqn:Ef. clear Ef.
  change (place (0 + 64) (a', b', c', d')) with [a'; b'; c'; d'].
  destruct s as [[[a b] c] d]. cbn [list4 nth Md5Spec.add4]. rewrite !add32_spec. split; [reflexivity|].
  repeat split; apply add_w32_lt.
Qed.
