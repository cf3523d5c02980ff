(** How the Rabbit counters move: never back to where they were within 2^32
    iterations, and, as long as no carry is lost, like addition modulo
    2^256 - 1. *)
From Coq Require Import NArith ZArith Arith List Lia.
From Verif Require Import Res Words Mem MemSpec ListLemmas MemLemmas SpecWords WordsLemmas XorProofs RabbitModel RabbitProofs.
From Verif Require RabbitSpec.
Import ListNotations.
Local Open Scope nat_scope.

Lemma psteps_S n : forall cs, psteps (S n) cs = pstep (psteps n cs).
Proof. induction n as [|n IH]; intros cs; [reflexivity|]. exact (IH (pstep cs)). Qed.
Lemma psteps_add a b : forall cs, psteps (a + b) cs = psteps b (psteps a cs).
Proof. induction a as [|a IH]; intros cs; [reflexivity|]. exact (IH (pstep cs)). Qed.

Local Open Scope Z_scope.
Definition W : Z := 4294967296.

(** One addition of the counter system, in integers: [q] is the true carry,
    [b] the carry the code passes on. *)
Lemma one_sum (c a b : N) : (c < 2^32)%N -> (a < 2^32)%N -> (b <= 1)%N ->
  exists q d, Z.of_N ((c + a + b) mod 2^32)%N = Z.of_N c + Z.of_N a + Z.of_N b - W * q /\
    Z.of_N (if (WORDSIZE <? c + a + b)%N then 1%N else 0%N) = d /\ 0 <= d <= 1 /\
    (d = q \/ (d = 0 /\ q = 1 /\ ((c + a + b) mod 2^32 = 0)%N /\ Z.of_N c + Z.of_N a + Z.of_N b = W)).
Proof.
  intros Hc Ha Hb. change WORDSIZE with 4294967296%N. change (2^32)%N with 4294967296%N in *. unfold W.
  assert (E : ((c + a + b) mod 4294967296 = if 4294967296 <=? c + a + b then c + a + b - 4294967296 else c + a + b)%N).
  { destruct (N.leb_spec 4294967296 (c + a + b)).
    - symmetry. apply (N.mod_unique _ _ 1); lia.
    - apply N.mod_small. assumption. }
  rewrite E.
  destruct (N.leb_spec 4294967296 (c + a + b)) as [H|H]; destruct (N.ltb_spec 4294967296 (c + a + b)) as [K|K]; try lia.
  - exists 1, 1. repeat split; lia.
  - exists 1, 0. repeat split; try lia.
  - exists 0, 0. repeat split; lia.
Qed.

Definition cw (cs : rabbit_state) (j : nat) : Z := Z.of_N (el (C cs) j).
Definition cb (cs : rabbit_state) : Z := Z.of_N (carry cs).

Lemma carry_le t : ((if (WORDSIZE <? t)%N then 1%N else 0%N) <= 1)%N.
Proof. destruct (WORDSIZE <? t)%N; lia. Qed.

(** One iteration: words 0, 2, 3 and 7 with the carries between them. *)
Lemma pstep_words cs : cs_ok cs ->
  exists q0 q2 q3 q7 b2 b3 b7 d7,
    0 <= cb cs <= 1 /\ 0 <= b2 <= 1 /\ 0 <= b3 <= 1 /\ 0 <= b7 <= 1 /\ b3 <= q2 /\
    cw (pstep cs) 0 = cw cs 0 + 1295307597 + cb cs - W * q0 /\
    cw (pstep cs) 2 = cw cs 2 + 886263092 + b2 - W * q2 /\
    cw (pstep cs) 3 = cw cs 3 + 1295307597 + b3 - W * q3 /\
    cw (pstep cs) 7 = cw cs 7 + 3545052371 + b7 - W * q7 /\
    cb (pstep cs) = d7 /\ 0 <= d7 <= 1 /\
    (d7 = q7 \/ (d7 = 0 /\ q7 = 1 /\ cw (pstep cs) 7 = 0 /\ cw cs 7 <> 0)).
Proof.
  intros (L & Wk & B).
  pose proof (counter_msums cs L) as E.
  pose proof (f_equal RabbitSpec.sC E) as E1. pose proof (f_equal RabbitSpec.sb E) as E2.
  cbn [view RabbitSpec.sC RabbitSpec.sb] in E1, E2.
  unfold cw, cb, pstep, pnext. cbn [C carry]. rewrite E1, E2. clear E E1 E2.
  set (b0 := carry cs) in *.
  destruct (C cs) as [|c0 [|c1 [|c2 [|c3 [|c4 [|c5 [|c6 [|c7 [|]]]]]]]]]; try discriminate. clear L.
  inversion_clear Wk as [|? ? H0 Wk1]. inversion_clear Wk1 as [|? ? H1 Wk2]. inversion_clear Wk2 as [|? ? H2 Wk3].
  inversion_clear Wk3 as [|? ? H3 Wk4]. inversion_clear Wk4 as [|? ? H4 Wk5]. inversion_clear Wk5 as [|? ? H5 Wk6].
  inversion_clear Wk6 as [|? ? H6 Wk7]. inversion_clear Wk7 as [|? ? H7 _].
  unfold A. cbn [msums mfin map el nth].
  set (b1 := if (WORDSIZE <? c0 + 0x4d34d34d + b0)%N then 1%N else 0%N).
  assert (B1 : (b1 <= 1)%N) by apply carry_le.
  set (b2 := if (WORDSIZE <? c1 + _ + b1)%N then 1%N else 0%N).
  assert (B2 : (b2 <= 1)%N) by apply carry_le.
  destruct (one_sum c0 0x4d34d34d b0 H0 ltac:(reflexivity) B) as (q0 & d0 & S0 & _ & _).
  destruct (one_sum c2 0x34d34d34 b2 H2 ltac:(reflexivity) B2) as (q2 & d2 & S2 & D2 & R2 & O2).
  set (b3 := if (WORDSIZE <? c2 + _ + b2)%N then 1%N else 0%N) in *.
  assert (B3 : (b3 <= 1)%N) by apply carry_le.
  destruct (one_sum c3 0x4d34d34d b3 H3 ltac:(reflexivity) B3) as (q3 & d3 & S3 & _ & _).
  set (b4 := if (WORDSIZE <? c3 + _ + b3)%N then 1%N else 0%N) in *.
  set (b5 := if (WORDSIZE <? c4 + _ + b4)%N then 1%N else 0%N) in *.
  set (b6 := if (WORDSIZE <? c5 + _ + b5)%N then 1%N else 0%N) in *.
  set (b7 := if (WORDSIZE <? c6 + _ + b6)%N then 1%N else 0%N) in *.
  assert (B7 : (b7 <= 1)%N) by apply carry_le.
  destruct (one_sum c7 0xd34d34d3 b7 H7 ltac:(reflexivity) B7) as (q7 & d7 & S7 & D7 & R7 & O7).
  exists q0, q2, q3, q7, (Z.of_N b2), (Z.of_N b3), (Z.of_N b7), d7.
  rewrite S0, S2, S3, D7.
  change (Z.of_N 0x4d34d34d) with 1295307597. change (Z.of_N 0x34d34d34) with 886263092.
  change (Z.of_N 0xd34d34d3) with 3545052371 in *.
  assert (Q3 : Z.of_N b3 <= q2) by (clear - D2 R2 O2; lia).
  clearbody b0 b1 b2 b3 b4 b5 b6 b7.
  split; [clear - B; lia|]. split; [clear - B2; lia|]. split; [clear - B3; lia|]. split; [clear - B7; lia|].
  split; [exact Q3|]. split; [reflexivity|]. split; [reflexivity|]. split; [reflexivity|]. split; [exact S7|].
  split; [reflexivity|]. split; [exact R7|].
  destruct O7 as [O7|(O7 & O8 & O9 & O10)]; [left; exact O7|right].
  split; [exact O7|]. split; [exact O8|]. split.
  - rewrite O9. reflexivity.
  - intros Z0. rewrite Z0 in O10. unfold W in O10. clear - O10 B7. lia.
Qed.

(** [n] iterations, summed up. *)
Lemma psteps_words cs : cs_ok cs -> forall n,
  exists T0 T2 T3 T7 K0 K2 K3 K7 L7,
    cw (psteps n cs) 0 = cw cs 0 + Z.of_nat n * 1295307597 + K0 - W * T0 /\
    cw (psteps n cs) 2 = cw cs 2 + Z.of_nat n * 886263092 + K2 - W * T2 /\
    cw (psteps n cs) 3 = cw cs 3 + Z.of_nat n * 1295307597 + K3 - W * T3 /\
    cw (psteps n cs) 7 = cw cs 7 + Z.of_nat n * 3545052371 + K7 - W * T7 /\
    0 <= K0 <= Z.of_nat n /\ 0 <= K2 <= Z.of_nat n /\ 0 <= K3 <= Z.of_nat n /\ 0 <= K7 <= Z.of_nat n /\
    K3 <= T2 /\ K0 + cb (psteps n cs) = cb cs + T7 - L7 /\ 0 <= cb (psteps n cs) <= 1 /\
    (2 * L7 <= Z.of_nat n \/ (2 * L7 <= Z.of_nat n + 1 /\ cw (psteps n cs) 7 = 0)).
Proof.
  intros H. induction n as [|n IH].
  - exists 0, 0, 0, 0, 0, 0, 0, 0, 0. cbn [psteps]. destruct H as (_ & _ & B). unfold cb. lia.
  - destruct IH as (T0 & T2 & T3 & T7 & K0 & K2 & K3 & K7 & L7 & E0 & E2 & E3 & E7 & R0 & R2 & R3 & R7 & I3 & I0 & Ib & IL).
    destruct (pstep_words (psteps n cs) (psteps_ok n cs H))
      as (q0 & q2 & q3 & q7 & b2 & b3 & b7 & d7 & B0 & B2 & B3 & B7 & J3 & F0 & F2 & F3 & F7 & D & Rd & O).
    rewrite psteps_S. set (p := psteps n cs) in *. set (p' := pstep p) in *.
    assert (EL : (d7 = q7 /\ (2 * L7 <= Z.of_nat (S n))) \/ (d7 = q7 - 1 /\ cw p' 7 = 0 /\ 2 * L7 <= Z.of_nat n)).
    { destruct O as [O|(O1 & O2 & O3 & O4)].
      - left. split; [exact O|]. lia.
      - right. split; [lia|]. split; [exact O3|]. destruct IL as [IL|[_ IL]]; [exact IL|contradiction]. }
    exists (T0 + q0), (T2 + q2), (T3 + q3), (T7 + q7), (K0 + cb p), (K2 + b2), (K3 + b3), (K7 + b7), (L7 + q7 - d7).
    destruct EL as [[G1 G2]|(G1 & G2 & G3)].
    + repeat match goal with |- _ /\ _ => split end; try lia.
    + repeat match goal with |- _ /\ _ => split end; try lia.
Qed.

(** The counters are never again what they were, for 2^32 - 1 iterations. *)
Lemma counters_move cs n : cs_ok cs -> 0 < Z.of_nat n < 2^32 -> C (psteps n cs) <> C cs.
Proof.
  intros H R E. change (2^32) with 4294967296 in R.
  destruct (psteps_words cs H n)
    as (T0 & T2 & T3 & T7 & K0 & K2 & K3 & K7 & L7 & E0 & E2 & E3 & E7 & R0 & R2 & R3 & R7 & I3 & I0 & Ib & IL).
  assert (Ew : forall j, cw (psteps n cs) j = cw cs j) by (intros j; unfold cw; rewrite E; reflexivity).
  rewrite (Ew 0%nat) in E0. rewrite (Ew 2%nat) in E2. rewrite (Ew 3%nat) in E3. rewrite (Ew 7%nat) in E7.
  destruct H as (_ & _ & B). assert (B' : 0 <= cb cs <= 1) by (unfold cb; lia).
  unfold W in *. set (N := Z.of_nat n) in *.
  destruct (Z_lt_le_dec N 13) as [Hn|Hn].
  - assert (D : N = 1 \/ N = 2 \/ N = 3 \/ N = 4 \/ N = 5 \/ N = 6 \/ N = 7 \/ N = 8 \/ N = 9 \/ N = 10 \/ N = 11 \/ N = 12) by lia.
    destruct D as [D|[D|[D|[D|[D|[D|[D|[D|[D|[D|[D|D]]]]]]]]]]]; rewrite D in *; lia.
  - assert (K0 = K3) by lia.
    assert (L : 2 * L7 <= N + 1) by lia. lia.
Qed.

(** *** Without lost carries: addition modulo 2^256 - 1 *)

(** The counters read as one number, least significant word first. *)
Fixpoint cval (l : list N) : Z :=
  match l with [] => 0 | c :: l => Z.of_N c + W * cval l end.
Definition cmod : Z := W ^ 8 - 1.

Lemma sums_val C : forall A b, length A = length C ->
  cval (map (fun x => x mod 2^32)%N (RabbitSpec.sums C A b)) + W ^ Z.of_nat (length C) * Z.of_N (sfin C A b) =
  cval C + cval A + Z.of_N b.
Proof.
  induction C as [|c C IH]; intros [|a A] b L; try discriminate.
  - cbn [RabbitSpec.sums sfin map cval length]. change (Z.of_nat 0) with 0. rewrite Z.pow_0_r. lia.
  - cbn [RabbitSpec.sums sfin map cval]. cbn [length].
    rewrite Nat2Z.inj_succ, Z.pow_succ_r by lia.
    pose proof (IH A ((c + a + b) / 2^32)%N ltac:(simpl in L; lia)) as I.
    pose proof (N.div_mod (c + a + b) (2^32) ltac:(discriminate)) as D.
    set (q := ((c + a + b) / 2^32)%N) in *. set (r := ((c + a + b) mod 2^32)%N) in *.
    assert (D' : Z.of_N c + Z.of_N a + Z.of_N b = W * Z.of_N q + Z.of_N r).
    { unfold W. apply (f_equal Z.of_N) in D. rewrite !N2Z.inj_add, N2Z.inj_mul in D.
      change (Z.of_N (2^32)) with 4294967296 in D. exact D. }
    set (v := cval (map _ _)) in *. set (w := W ^ Z.of_nat (length C)) in *. set (s := Z.of_N (sfin C A q)) in *.
    replace (Z.of_N r + W * v + W * w * s) with (Z.of_N r + W * (v + w * s)) by ring.
    rewrite I. replace (Z.of_N r) with (Z.of_N c + Z.of_N a + Z.of_N b - W * Z.of_N q) by (rewrite D'; ring). ring.
Qed.

Definition total (s : RabbitSpec.rstate) : Z := cval (RabbitSpec.sC s) + Z.of_N (RabbitSpec.sb s).
Definition step_size : Z := cval RabbitSpec.A_const.

Lemma iterate_total s : length (RabbitSpec.sC s) = 8%nat ->
  total (RabbitSpec.iterate s) = total s + step_size - cmod * Z.of_N (RabbitSpec.sb (RabbitSpec.iterate s)) /\
  length (RabbitSpec.sC (RabbitSpec.iterate s)) = 8%nat.
Proof.
  intros L. destruct s as [x c b]. cbn [RabbitSpec.sC] in L.
  pose proof (sums_val c RabbitSpec.A_const b ltac:(rewrite L; reflexivity)) as E. rewrite L in E.
  change (Z.of_nat 8) with 8 in E.
  unfold total, RabbitSpec.iterate, RabbitSpec.next_state, RabbitSpec.counter.
  cbn [RabbitSpec.sX RabbitSpec.sC RabbitSpec.sb]. rewrite last_sfin; [|intros ->; discriminate|rewrite L; reflexivity].
  split; [unfold cmod, step_size; lia|].
  rewrite map_length. destruct c as [|c0 [|c1 [|c2 [|c3 [|c4 [|c5 [|c6 [|c7 [|]]]]]]]]]; try discriminate. reflexivity.
Qed.

Lemma iterates_total n : forall s, length (RabbitSpec.sC s) = 8%nat ->
  exists k, total (RabbitSpec.iterates n s) = total s + Z.of_nat n * step_size + cmod * k.
Proof.
  induction n as [|n IH]; intros s L.
  - exists 0. cbn [RabbitSpec.iterates]. lia.
  - cbn [RabbitSpec.iterates]. destruct (iterate_total s L) as [E L'].
    destruct (IH _ L') as (k & ->). exists (k - Z.of_N (RabbitSpec.sb (RabbitSpec.iterate s))). rewrite E. lia.
Qed.

(** The step is invertible modulo 2^256 - 1, so it takes 2^256 - 1 steps to come
    back. *)
Definition step_inv : Z := 0x5be5be5be5be5be5be5be5be5be5be5be5be5be5be5be5be5be5be5be5be5be7.
Definition step_quot : Z := 34308767181427020866243254817389009734302217678708315270950395261603890263686.
Lemma step_invertible : step_size * step_inv = 1 + cmod * step_quot.
Proof. vm_compute. reflexivity. Qed.

Lemma step_period n k : n * step_size = cmod * k -> (cmod | n).
Proof.
  intros E. exists (k * step_inv - n * step_quot).
  replace n with (n * (step_size * step_inv) - cmod * (n * step_quot)) at 1 by (rewrite step_invertible; ring).
  replace (n * (step_size * step_inv)) with (n * step_size * step_inv) by ring. rewrite E. ring.
Qed.

Lemma cmod_val : cmod = 2^256 - 1.
Proof. reflexivity. Qed.
#[global] Opaque cmod step_size step_inv step_quot.

Lemma iterates_return n s : length (RabbitSpec.sC s) = 8%nat -> 0 < Z.of_nat n < 2^256 - 1 ->
  total (RabbitSpec.iterates n s) <> total s.
Proof.
  intros L R E. destruct (iterates_total n s L) as (k & K). rewrite E in K.
  assert (D : (cmod | Z.of_nat n)) by (apply (step_period _ (- k)); lia).
  apply Z.divide_pos_le in D; [|lia]. rewrite cmod_val in D. lia.
Qed.

(** Two runs of the same length that meet started from counters that are equal
    or all zeros and all ones. *)
Lemma cval_bound l : words_ok l -> 0 <= cval l < W ^ Z.of_nat (length l).
Proof.
  induction 1 as [|c l H _ IH]; [cbn; lia|].
  cbn [cval length]. rewrite Nat2Z.inj_succ, Z.pow_succ_r by lia.
  change (2^32)%N with 4294967296%N in H.
  set (w := W ^ Z.of_nat (length l)) in *. clearbody w. unfold W. lia.
Qed.
Lemma cval_inj l : forall l', words_ok l -> words_ok l' -> length l = length l' -> cval l = cval l' -> l = l'.
Proof.
  induction l as [|c l IH]; intros [|c' l'] H H' L E; try discriminate; [reflexivity|].
  inversion_clear H as [|? ? H1 H2]. inversion_clear H' as [|? ? H1' H2'].
  change (2^32)%N with 4294967296%N in *. cbn [cval] in E. unfold W in E.
  assert (c = c' /\ cval l = cval l') as [-> E'] by lia.
  f_equal. apply IH; auto. 
Qed.

Lemma ones_or_zeros l l' : words_ok l -> words_ok l' -> length l = 8%nat -> length l' = 8%nat ->
  cval l = cval l' + cmod -> l = repeat 4294967295%N 8 /\ l' = repeat 0%N 8.
Proof.
  intros H H' L L' E. pose proof (cval_bound l H) as B. pose proof (cval_bound l' H') as B'. rewrite L in B. rewrite L' in B'.
  change (W ^ Z.of_nat 8) with (2^256) in *. rewrite cmod_val in E.
  assert (Ez : cval l' = 0) by lia. assert (Eo : cval l = 2^256 - 1) by lia.
  split; apply cval_inj; auto.
  - repeat constructor.
  - repeat constructor.
Qed.

Lemma runs_meet n s1 s2 : length (RabbitSpec.sC s1) = 8%nat -> length (RabbitSpec.sC s2) = 8%nat ->
  words_ok (RabbitSpec.sC s1) -> words_ok (RabbitSpec.sC s2) -> RabbitSpec.sb s1 = RabbitSpec.sb s2 ->
  total (RabbitSpec.iterates n s1) = total (RabbitSpec.iterates n s2) ->
  RabbitSpec.sC s1 = RabbitSpec.sC s2 \/
  (RabbitSpec.sC s1 = repeat 4294967295%N 8 /\ RabbitSpec.sC s2 = repeat 0%N 8) \/
  (RabbitSpec.sC s2 = repeat 4294967295%N 8 /\ RabbitSpec.sC s1 = repeat 0%N 8).
Proof.
  intros L1 L2 W1 W2 Eb E.
  destruct (iterates_total n s1 L1) as (k1 & K1). destruct (iterates_total n s2 L2) as (k2 & K2).
  unfold total at 2 in K1. unfold total at 2 in K2. rewrite Eb in K1.
  pose proof (cval_bound _ W1) as B1. pose proof (cval_bound _ W2) as B2. rewrite L1 in B1. rewrite L2 in B2.
  change (W ^ Z.of_nat 8) with (2^256) in *.
  assert (D : cval (RabbitSpec.sC s1) - cval (RabbitSpec.sC s2) = cmod * (k2 - k1)) by lia.
  set (v1 := cval (RabbitSpec.sC s1)) in *. set (v2 := cval (RabbitSpec.sC s2)) in *.
  assert (K : k2 - k1 = 0 \/ k2 - k1 = 1 \/ k2 - k1 = -1).
  { rewrite cmod_val in D. set (k := k2 - k1) in *. clearbody k v1 v2. clear - D B1 B2.
    change (2^256) with 115792089237316195423570985008687907853269984665640564039457584007913129639936 in *. lia. }
  destruct K as [K|[K|K]]; rewrite K in D.
  - left. apply cval_inj; auto; [congruence|]. fold v1 v2. lia.
  - right. left. apply ones_or_zeros; auto. fold v1 v2. lia.
  - right. right. apply ones_or_zeros; auto. fold v1 v2. lia.
Qed.
