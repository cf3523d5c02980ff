(** Symbolic evaluation of word expressions whose bits are exclusive ors of input
    bits: a decision procedure for bit permutations.  A symbolic word is a list
    of 32 masks; bit [i] is the parity of the input bits selected by mask [i]. *)
From Coq Require Import Arith NArith List Bool Lia.
From Verif Require Import Words WordsLemmas.
Import ListNotations.
Local Open Scope N_scope.

Definition positions : list N := map N.of_nat (seq 0 64).
Definition par_over (l : list N) (f : N -> bool) (m : N) : bool :=
  fold_right (fun i a => xorb (N.testbit m i && f i) a) false l.
Definition par (f : N -> bool) (m : N) : bool := par_over positions f m.

Lemma par_0 f : par f 0 = false.
Proof.
  unfold par. generalize positions. intros l. induction l as [|i l IH]; [reflexivity|].
  cbn [par_over fold_right]. unfold par_over in IH. rewrite IH, N.bits_0. reflexivity.
Qed.
Lemma par_xor f a b : par f (N.lxor a b) = xorb (par f a) (par f b).
Proof.
  unfold par. generalize positions. intros l. induction l as [|i l IH]; [reflexivity|].
  unfold par_over in *. cbn [fold_right]. rewrite IH, N.lxor_spec.
  generalize (fold_right (fun j c => xorb (N.testbit a j && f j) c) false l),
    (fold_right (fun j c => xorb (N.testbit b j && f j) c) false l).
  intros u v. destruct (N.testbit a i), (N.testbit b i), (f i), u, v; reflexivity.
Qed.
Lemma par_pow f i : i < 64 -> par f (2 ^ i) = f i.
Proof.
  intros H. assert (E : forall j, N.testbit (2 ^ i) j = (i =? j)).
  { intros j. destruct (N.eqb_spec i j) as [->|N0]; [apply N.pow2_bits_true|apply N.pow2_bits_false; exact N0]. }
  unfold par, positions.
  assert (G : forall n s, (s <= N.to_nat i)%nat -> par_over (map N.of_nat (seq s n)) f (2 ^ i) =
     if (N.to_nat i <? s + n)%nat then f i else false).
  { induction n as [|n IH]; intros s Hs.
    - cbn [seq map par_over fold_right]. destruct (Nat.ltb_spec (N.to_nat i) (s + 0)); [lia|reflexivity].
    - cbn [seq map par_over fold_right]. change (fold_right _ false ?l) with (par_over l f (2 ^ i)). rewrite E.
      destruct (N.eqb_spec i (N.of_nat s)) as [Q|Q].
      + rewrite <- Q.
        assert (Z : forall n t, (N.to_nat i < t)%nat -> par_over (map N.of_nat (seq t n)) f (2 ^ i) = false).
        { clear IH. induction n0 as [|n0 IH]; intros t Ht; [reflexivity|].
          cbn [seq map par_over fold_right]. change (fold_right _ false ?l) with (par_over l f (2 ^ i)).
          rewrite E, IH by lia. replace (i =? N.of_nat t) with false by (symmetry; apply N.eqb_neq; lia). reflexivity. }
        rewrite Z by lia. destruct (Nat.ltb_spec (N.to_nat i) (s + S n)); [|lia]. cbn [andb]. apply xorb_false_r.
      + rewrite IH by lia. cbn [andb]. rewrite xorb_false_l.
        replace (s + S n)%nat with (S s + n)%nat by lia. reflexivity. }
  rewrite G by lia. destruct (Nat.ltb_spec (N.to_nat i) (0 + 64)); [reflexivity|lia].
Qed.

Inductive bexp :=
| BIn (v : nat)
| BXor (a b : bexp)
| BOr (a b : bexp)
| BAnd (a : bexp) (c : N)
| BShl (a : bexp) (k : N)
| BShr (a : bexp) (k : N)
| BTab (t : list N) (a : bexp).

Fixpoint deval (env : list N) (e : bexp) : N :=
  match e with
  | BIn v => nth v env 0
  | BXor a b => N.lxor (deval env a) (deval env b)
  | BOr a b => N.lor (deval env a) (deval env b)
  | BAnd a c => N.land (deval env a) c
  | BShl a k => shl32 (deval env a) k
  | BShr a k => shr32 (deval env a) k
  | BTab t a => nth (N.to_nat (deval env a)) t 0
  end.

Definition word (g : nat -> N) : list N := map g (seq 0 32).
Definition at_ (l : list N) (i : nat) : N := nth i l 0.
Definition below (k : N) (i : nat) (x : N) : N := if N.of_nat i <? k then 0 else x.

(** A table of 16 words that is additive for exclusive or. *)
Definition tab_linear (t : list N) : bool :=
  forallb (fun i => forallb (fun j =>
    N.lxor (nth i t 0) (nth j t 0) =? nth (N.to_nat (N.lxor (N.of_nat i) (N.of_nat j))) t 0) (seq 0 16)) (seq 0 16)
  && forallb (fun x => x <? 2^32) t.

Fixpoint seval (e : bexp) : option (list N) :=
  match e with
  | BIn v => if (v <? 2)%nat then Some (word (fun i => 2 ^ N.of_nat (32 * v + i))) else None
  | BXor a b =>
      match seval a, seval b with
      | Some a, Some b => Some (word (fun i => N.lxor (at_ a i) (at_ b i)))
      | _, _ => None
      end
  | BOr a b =>
      match seval a, seval b with
      | Some a, Some b =>
          if forallb (fun i => (at_ a i =? 0) || (at_ b i =? 0)) (seq 0 32)
          then Some (word (fun i => N.lxor (at_ a i) (at_ b i))) else None
      | _, _ => None
      end
  | BAnd a c =>
      match seval a with
      | Some a => Some (word (fun i => if N.testbit c (N.of_nat i) then at_ a i else 0))
      | None => None
      end
  | BShl a k =>
      match seval a with
      | Some a => Some (word (fun i => if N.of_nat i <? k then 0 else at_ a (i - N.to_nat k)))
      | None => None
      end
  | BShr a k =>
      match seval a with
      | Some a => Some (word (fun i => at_ a (i + N.to_nat k)))
      | None => None
      end
  | BTab t a =>
      match seval a with
      | Some a =>
          if forallb (fun i => at_ a i =? 0) (seq 4 28) && tab_linear t then
            let pick j i := if N.testbit (nth (2 ^ i) t 0) (N.of_nat j) then at_ a i else 0 in
            Some (word (fun j => N.lxor (N.lxor (pick j 0%nat) (pick j 1%nat)) (N.lxor (pick j 2%nat) (pick j 3%nat))))
          else None
      | None => None
      end
  end.

Definition input (env : list N) (i : N) : bool := N.testbit (nth (N.to_nat (i / 32)) env 0) (i mod 32).
Definition sym (env : list N) (w : N) (ms : list N) : Prop :=
  length ms = 32%nat /\ forall i, N.testbit w (N.of_nat i) = par (input env) (at_ ms i).

Lemma word_length g : length (word g) = 32%nat.
Proof. unfold word. rewrite map_length, seq_length. reflexivity. Qed.
Lemma at_word g i : at_ (word g) i = if (i <? 32)%nat then g i else 0.
Proof.
  unfold at_, word. destruct (Nat.ltb_spec i 32) as [H|H].
  - rewrite (nth_indep _ 0 (g 0%nat)) by (rewrite map_length, seq_length; lia).
    rewrite map_nth, seq_nth by lia. reflexivity.
  - apply nth_overflow. rewrite map_length, seq_length. lia.
Qed.
Lemma at_big l i : length l = 32%nat -> (32 <= i)%nat -> at_ l i = 0.
Proof. intros L H. apply nth_overflow. lia. Qed.

Lemma sym_lt env w ms : sym env w ms -> w < 2^32.
Proof.
  intros [L H]. apply lt_pow2_testbit. intros i Hi. rewrite <- (N2Nat.id i), H, at_big by (first [exact L|lia]). apply par_0.
Qed.
Lemma sym_high env w ms i : sym env w ms -> 32 <= i -> N.testbit w i = false.
Proof. intros [L H] Hi. rewrite <- (N2Nat.id i), H, at_big by (first [exact L|lia]). apply par_0. Qed.

(** A table lookup, bit by bit. *)
Lemma tab_ok t x : tab_linear t = true -> x < 16 ->
  nth (N.to_nat x) t 0 < 2^32 /\
  forall j, N.testbit (nth (N.to_nat x) t 0) j =
  xorb (xorb (N.testbit x 0 && N.testbit (nth 1 t 0) j) (N.testbit x 1 && N.testbit (nth 2 t 0) j))
       (xorb (N.testbit x 2 && N.testbit (nth 4 t 0) j) (N.testbit x 3 && N.testbit (nth 8 t 0) j)).
Proof.
  intros T Hx. unfold tab_linear in T. apply andb_true_iff in T. destruct T as [T B].
  assert (A : forall a b, (a < 16)%nat -> (b < 16)%nat ->
     N.lxor (nth a t 0) (nth b t 0) = nth (N.to_nat (N.lxor (N.of_nat a) (N.of_nat b))) t 0).
  { intros a b Ha Hb. rewrite forallb_forall in T. specialize (T a ltac:(apply in_seq; lia)).
    rewrite forallb_forall in T. specialize (T b ltac:(apply in_seq; lia)). apply N.eqb_eq in T. exact T. }
  split.
  { rewrite forallb_forall in B. destruct (nth_in_or_default (N.to_nat x) t 0) as [I|E0].
    - apply N.ltb_lt, B, I.
    - rewrite E0. reflexivity. }
  assert (G : nth (N.to_nat x) t 0 = N.lxor (N.lxor (if N.testbit x 0 then nth 1 t 0 else 0) (if N.testbit x 1 then nth 2 t 0 else 0))
     (N.lxor (if N.testbit x 2 then nth 4 t 0 else 0) (if N.testbit x 3 then nth 8 t 0 else 0))).
  { pose proof (A 0%nat 0%nat ltac:(lia) ltac:(lia)) as Z. rewrite N.lxor_nilpotent in Z. cbn in Z.
    pose proof (A 1%nat 2%nat ltac:(lia) ltac:(lia)) as A3. pose proof (A 1%nat 4%nat ltac:(lia) ltac:(lia)) as A5.
    pose proof (A 2%nat 4%nat ltac:(lia) ltac:(lia)) as A6. pose proof (A 3%nat 4%nat ltac:(lia) ltac:(lia)) as A7.
    pose proof (fun a Ha => A a 8%nat Ha ltac:(lia)) as A8.
    cbn in A3, A5, A6, A7.
    pose proof (A8 1%nat ltac:(lia)) as B1. pose proof (A8 2%nat ltac:(lia)) as B2. pose proof (A8 3%nat ltac:(lia)) as B3.
    pose proof (A8 4%nat ltac:(lia)) as B4. pose proof (A8 5%nat ltac:(lia)) as B5. pose proof (A8 6%nat ltac:(lia)) as B6.
    pose proof (A8 7%nat ltac:(lia)) as B7. cbn in B1, B2, B3, B4, B5, B6, B7. clear A A8.
    change (Pos.to_nat 3) with 3%nat in A3. change (Pos.to_nat 5) with 5%nat in A5.
    change (Pos.to_nat 6) with 6%nat in A6. change (Pos.to_nat 7) with 7%nat in A7.
    destruct x as [|x]; [cbn; congruence|].
    assert (C : In (Npos x) (map N.of_nat (seq 1 15))).
    { apply in_map_iff. exists (N.to_nat (Npos x)). split; [apply N2Nat.id|]. apply in_seq. lia. }
    cbn in C.
    destruct C as [C|[C|[C|[C|[C|[C|[C|[C|[C|[C|[C|[C|[C|[C|[C|[]]]]]]]]]]]]]]]]; rewrite <- C; clear C Hx T B;
      cbn [N.testbit Pos.testbit Pos.pred_double Pos.pred_N N.to_nat Pos.to_nat Pos.iter_op Nat.add];
      rewrite ?N.lxor_0_l, ?N.lxor_0_r, <- ?N.lxor_assoc, ?A3, ?A5, ?A6, ?A7, ?B1, ?B2, ?B3, ?B4, ?B5, ?B6, ?B7; reflexivity. }
  intros j. rewrite G, !N.lxor_spec.
  destruct (N.testbit x 0), (N.testbit x 1), (N.testbit x 2), (N.testbit x 3); cbn [andb]; rewrite ?N.bits_0; reflexivity.
Qed.

Lemma shl32_bit x k i : N.testbit (shl32 x k) i = (i <? 32) && negb (i <? k) && N.testbit x (i - k).
Proof.
  unfold shl32. rewrite u32_testbit. destruct (N.ltb_spec i 32) as [H|H]; cbn [andb]; [|apply andb_false_r].
  destruct (N.ltb_spec i k) as [H2|H2]; cbn [negb andb].
  - rewrite N.shiftl_spec_low by exact H2. reflexivity.
  - rewrite N.shiftl_spec_high' by exact H2. rewrite andb_true_r. reflexivity.
Qed.

Lemma Some_inj {A} (a b : A) : Some a = Some b -> b = a.
Proof. congruence. Qed.

Theorem seval_ok env e ms : (forall v, (v < 2)%nat -> nth v env 0 < 2^32) -> seval e = Some ms -> sym env (deval env e) ms.
Proof.
  intros HE. revert ms. induction e as [v|a IHa b IHb|a IHa b IHb|a IHa c|a IHa k|a IHa k|t a IHa]; intros ms H; cbn [seval] in H; cbn [deval].
  - destruct (Nat.ltb_spec v 2) as [Hv|]; [|discriminate]. apply Some_inj in H; subst ms. split; [apply word_length|]. intros i. rewrite at_word.
    destruct (Nat.ltb_spec i 32) as [Hi|Hi].
    + rewrite par_pow by lia. unfold input.
      replace (N.of_nat (32 * v + i) / 32) with (N.of_nat v) by (apply N.div_unique with (N.of_nat i); lia).
      replace (N.of_nat (32 * v + i) mod 32) with (N.of_nat i) by (apply N.mod_unique with (N.of_nat v); lia).
      rewrite Nat2N.id. reflexivity.
    + rewrite par_0. apply N.bits_above_log2. specialize (HE v Hv).
      destruct (N.eq_dec (nth v env 0) 0) as [->|N0]; [cbn; lia|]. apply N.log2_lt_pow2 in HE; lia.
  - destruct (seval a) as [ma|]; [|discriminate]. destruct (seval b) as [mb|]; [|discriminate]. apply Some_inj in H; subst ms.
    destruct (IHa ma eq_refl) as [La Ha]. destruct (IHb mb eq_refl) as [Lb Hb].
    split; [apply word_length|]. intros i. rewrite N.lxor_spec, Ha, Hb, at_word.
    destruct (Nat.ltb_spec i 32) as [Hi|Hi]; [rewrite par_xor; reflexivity|].
    rewrite !at_big by assumption. rewrite !par_0. reflexivity.
  - destruct (seval a) as [ma|]; [|discriminate]. destruct (seval b) as [mb|]; [|discriminate].
    destruct (forallb _ _) eqn:D; [|discriminate]. apply Some_inj in H; subst ms.
    destruct (IHa ma eq_refl) as [La Ha]. destruct (IHb mb eq_refl) as [Lb Hb].
    split; [apply word_length|]. intros i. rewrite N.lor_spec, Ha, Hb, at_word.
    destruct (Nat.ltb_spec i 32) as [Hi|Hi].
    + rewrite forallb_forall in D. specialize (D i ltac:(apply in_seq; lia)). rewrite par_xor.
      apply orb_true_iff in D. destruct D as [D|D]; apply N.eqb_eq in D; rewrite D, par_0.
      * rewrite orb_false_l, xorb_false_l. reflexivity.
      * rewrite orb_false_r, xorb_false_r. reflexivity.
    + rewrite !at_big by assumption. rewrite !par_0. reflexivity.
  - destruct (seval a) as [ma|]; [|discriminate]. apply Some_inj in H; subst ms. destruct (IHa ma eq_refl) as [La Ha].
    split; [apply word_length|]. intros i. rewrite N.land_spec, Ha, at_word.
    destruct (Nat.ltb_spec i 32) as [Hi|Hi].
    + destruct (N.testbit c (N.of_nat i)); [apply andb_true_r|rewrite par_0; apply andb_false_r].
    + rewrite at_big by assumption. rewrite par_0. reflexivity.
  - destruct (seval a) as [ma|]; [|discriminate]. apply Some_inj in H; subst ms. destruct (IHa ma eq_refl) as [La Ha].
    split; [apply word_length|]. intros i. rewrite shl32_bit, at_word.
    destruct (Nat.ltb_spec i 32) as [Hi|Hi].
    + replace (N.of_nat i <? 32) with true by (symmetry; apply N.ltb_lt; lia).
      destruct (N.ltb_spec (N.of_nat i) k) as [H|H]; cbn [negb andb]; [rewrite par_0; reflexivity|].
      rewrite <- Ha. f_equal. lia.
    + replace (N.of_nat i <? 32) with false by (symmetry; apply N.ltb_ge; lia). rewrite par_0. reflexivity.
  - destruct (seval a) as [ma|]; [|discriminate]. apply Some_inj in H; subst ms. destruct (IHa ma eq_refl) as [La Ha].
    split; [apply word_length|]. intros i. unfold shr32. rewrite N.shiftr_spec', at_word.
    replace (N.of_nat i + k) with (N.of_nat (i + N.to_nat k)) by lia. rewrite Ha.
    destruct (Nat.ltb_spec i 32) as [Hi|Hi]; [reflexivity|].
    rewrite at_big by (first [assumption|lia]). reflexivity.
  - destruct (seval a) as [ma|]; [|discriminate]. destruct (forallb _ _) eqn:D; [|discriminate].
    destruct (tab_linear t) eqn:T; [|discriminate]. cbn [andb] in H. apply Some_inj in H; subst ms.
    destruct (IHa ma eq_refl) as [La Ha].
    assert (HX : deval env a < 16).
    { change 16 with (2^4). apply lt_pow2_testbit. intros i Hi. rewrite <- (N2Nat.id i), Ha.
      destruct (Nat.lt_ge_cases (N.to_nat i) 32) as [Q|Q].
      - rewrite forallb_forall in D. specialize (D (N.to_nat i) ltac:(apply in_seq; lia)). apply N.eqb_eq in D.
        rewrite D. apply par_0.
      - rewrite at_big by (first [exact La|lia]). apply par_0. }
    destruct (tab_ok t (deval env a) T HX) as [TL TB]. split; [apply word_length|]. intros j. rewrite at_word.
    destruct (Nat.ltb_spec j 32) as [Hj|Hj].
    + rewrite TB, !par_xor.
      pose proof (Ha 0%nat) as H0. pose proof (Ha 1%nat) as H1. pose proof (Ha 2%nat) as H2. pose proof (Ha 3%nat) as H3.
      change (N.of_nat 0) with 0 in H0. change (N.of_nat 1) with 1 in H1. change (N.of_nat 2) with 2 in H2.
      change (N.of_nat 3) with 3 in H3. rewrite H0, H1, H2, H3.
      change (2^0)%nat with 1%nat. change (2^1)%nat with 2%nat. change (2^2)%nat with 4%nat. change (2^3)%nat with 8%nat.
      assert (Q : forall (b : bool) m, par (input env) m && b = par (input env) (if b then m else 0)).
      { intros [|] m; [apply andb_true_r|rewrite par_0; apply andb_false_r]. }
      rewrite !Q. reflexivity.
    + rewrite par_0. destruct (N.eq_dec (nth (N.to_nat (deval env a)) t 0) 0) as [->|N0]; [apply N.bits_0|].
      apply N.bits_above_log2. apply N.log2_lt_pow2 in TL; lia.
Qed.

(** Reading a result whose masks are single input bits or empty. *)
Definition single (m : N) : bool := (m =? 0) || ((m =? 2 ^ N.log2 m) && (N.log2 m <? 64)).
Definition bit_of (env : list N) (m : N) : bool := if m =? 0 then false else input env (N.log2 m).
Lemma par_single env m : single m = true -> par (input env) m = bit_of env m.
Proof.
  unfold single, bit_of. destruct (N.eqb_spec m 0) as [->|H0]; [intros _; apply par_0|]. cbn [orb].
  rewrite andb_true_iff, N.eqb_eq, N.ltb_lt. intros [E L]. rewrite E at 1. apply par_pow. exact L.
Qed.
