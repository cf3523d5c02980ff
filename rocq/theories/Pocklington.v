(** Primality of large numbers (Pocklington), with certificates. *)
From Coq Require Import NArith ZArith Znumtheory List Lia Bool.
From Verif Require Import NumTheory LinearCycle.
Import ListNotations.
Local Open Scope Z_scope.

(** *** Trial division *)
Fixpoint no_divisor (k : nat) (d n : Z) : bool :=
  match k with O => true | S k => if n mod d =? 0 then false else no_divisor k (d + 1) n end.
Lemma no_divisor_ok k : forall d n x, 0 < d -> no_divisor k d n = true -> d <= x < d + Z.of_nat k -> ~ (x | n).
Proof.
  induction k as [|k IH]; intros d n x Hd H Hx; [lia|]. cbn [no_divisor] in H.
  destruct (Z.eqb_spec (n mod d) 0) as [E|E]; [discriminate|]. destruct (Z.eq_dec x d) as [->|N].
  - intros D. apply E. apply Z.mod_divide in D; lia.
  - apply (IH (d + 1) n); [lia|exact H|lia].
Qed.
Lemma no_small_prime n b : 1 < n -> n < b * b -> 0 < b -> (forall r, prime r -> (r | n) -> b <= r) -> prime n.
Proof.
  intros H1 Hb B0 H. destruct (prime_dec n) as [P|P]; [exact P|]. exfalso.
  destruct (not_prime_divide n H1 P) as (d & Hd & e & Ee). assert (1 < e) by nia.
  destruct (prime_divisor d) as (r & Pr & Dr); [lia|]. destruct (prime_divisor e) as (r' & Pr' & Dr'); [lia|].
  assert (b <= d). { apply (Z.le_trans _ r); [apply H; [exact Pr|rewrite Ee; apply Z.divide_mul_r, Dr]|apply Z.divide_pos_le; [lia|exact Dr]]. }
  assert (b <= e). { apply (Z.le_trans _ r'); [apply H; [exact Pr'|rewrite Ee; apply Z.divide_mul_l, Dr']|apply Z.divide_pos_le; [lia|exact Dr']]. }
  nia.
Qed.
Definition trial (n k : Z) : bool := (1 <? n) && (n <? (k + 2) * (k + 2)) && (0 <=? k) && no_divisor (Z.to_nat k) 2 n.
Lemma trial_ok n k : trial n k = true -> prime n.
Proof.
  unfold trial. rewrite !andb_true_iff, !Z.ltb_lt, Z.leb_le. intros [[[H1 Hb] K] T].
  apply (no_small_prime n (k + 2)); try lia. intros r Pr Dr. destruct (Z.lt_ge_cases r (k + 2)) as [X|X]; [|exact X].
  exfalso. apply (no_divisor_ok (Z.to_nat k) 2 n r); [lia|exact T|destruct Pr; lia|exact Dr].
Qed.

(** *** Powers modulo n *)
Fixpoint powmod_pos (n a : Z) (e : positive) : Z :=
  match e with
  | xH => a mod n
  | xO e => let x := powmod_pos n a e in (x * x) mod n
  | xI e => let x := powmod_pos n a e in (x * x mod n * a) mod n
  end.
Definition powmod (n a e : Z) : Z := match e with Zpos e => powmod_pos n a e | _ => 1 mod n end.
Lemma powmod_ok n a e : 0 < n -> 0 <= e -> powmod n a e = a ^ e mod n.
Proof.
  intros Hn He. destruct e as [|e|e]; [reflexivity| |lia]. cbn [powmod].
  induction e as [e IH|e IH|]; cbn [powmod_pos].
  - rewrite IH by lia. replace (Zpos e~1) with (Zpos e + Zpos e + 1) by lia. rewrite !Z.pow_add_r, Z.pow_1_r by lia.
    rewrite <- Z.mul_mod by lia. rewrite Z.mul_mod_idemp_l by lia. reflexivity.
  - rewrite IH by lia. replace (Zpos e~0) with (Zpos e + Zpos e) by lia. rewrite Z.pow_add_r by lia. rewrite <- Z.mul_mod by lia. reflexivity.
  - rewrite Z.pow_1_r. reflexivity.
Qed.

Lemma iter_pow r a k : 1 < r -> N.iter k (fun x => (a * x) mod r) 1 = a ^ Z.of_N k mod r.
Proof.
  intros Hr. induction k as [|k IH] using N.peano_ind; [symmetry; apply Z.mod_1_l; exact Hr|].
  rewrite N.iter_succ, IH, N2Z.inj_succ, Z.pow_succ_r, Z.mul_mod_idemp_r by lia. reflexivity.
Qed.

Theorem pocklington n f a u : 1 < n -> Z.odd n = true -> prime f -> 2 < f -> (f | n - 1) -> n < (2 * f + 1) * (2 * f + 1) ->
  a ^ (n - 1) mod n = 1 -> (u * (a ^ ((n - 1) / f) - 1)) mod n = 1 -> prime n.
Proof.
  intros H1 On Pf F2 (R & ER) Hb EF EU. assert (ER' : (n - 1) / f = R) by (rewrite ER; apply Z.div_mul; lia). rewrite ER' in EU.
  apply (no_small_prime n (2 * f + 1)); try lia. intros r Pr Dr.
  assert (r1 : 1 < r) by (destruct Pr; assumption). assert (R0 : 0 < R) by nia.
  assert (Or : Z.odd r = true).
  { destruct Dr as (c & Ec). rewrite Ec, Z.odd_mul in On. apply andb_prop in On. apply On. }
  assert (Na : ~ (r | a)).
  { intros D. assert (X : (r | a ^ (n - 1))).
    { replace (n - 1) with (Z.succ (n - 2)) by lia. rewrite Z.pow_succ_r by lia. apply Z.divide_mul_l, D. }
    assert (Y : (a ^ (n - 1)) mod r = 1 mod r) by (apply (divide_mod r n); [lia|exact Dr|lia|rewrite EF; symmetry; apply Z.mod_1_l; exact H1]).
    rewrite Z.mod_1_l in Y by exact r1. apply Z.mod_divide in X; lia. }
  set (g := fun x => (a * x) mod r).
  assert (A : returns Z g 1 (Z.to_N (n - 1))).
  { unfold returns, g. rewrite iter_pow, Z2N.id by lia. transitivity (1 mod r); [|apply Z.mod_1_l; exact r1].
    apply (divide_mod r n); [lia|exact Dr|lia|rewrite EF; symmetry; apply Z.mod_1_l; exact H1]. }
  assert (B : returns Z g 1 (Z.to_N (r - 1))).
  { unfold returns, g. rewrite iter_pow, Z2N.id by lia. apply fermat_Z; assumption. }
  pose proof (returns_gcd Z g 1 _ _ _ (Nat.lt_succ_diag_r _) B A) as G.
  assert (FD : (f | r - 1)).
  { destruct (Zdivide_dec f (r - 1)) as [D|D]; [exact D|exfalso].
    assert (C : returns Z g 1 (Z.to_N R)).
    { set (d := N.gcd (Z.to_N (r - 1)) (Z.to_N (n - 1))) in *.
      assert (D1 : N.divide d (Z.to_N (r - 1))) by apply N.gcd_divide_l.
      assert (D2 : N.divide d (Z.to_N (n - 1))) by apply N.gcd_divide_r.
      assert (Z1 : (Z.of_N d | r - 1)). { destruct D1 as (c & Ec). exists (Z.of_N c). rewrite <- N2Z.inj_mul, <- Ec, Z2N.id; lia. }
      assert (Z2 : (Z.of_N d | n - 1)). { destruct D2 as (c & Ec). exists (Z.of_N c). rewrite <- N2Z.inj_mul, <- Ec, Z2N.id; lia. }
      assert (Z3 : (Z.of_N d | R)).
      { apply (Gauss _ f); [rewrite Z.mul_comm, <- ER; exact Z2|]. apply rel_prime_sym, prime_rel_prime; [exact Pf|].
        intros X. apply D. apply (Z.divide_trans _ (Z.of_N d)); assumption. }
      destruct Z3 as (c & Ec). assert (0 <= c) by nia.
      replace (Z.to_N R) with (d * Z.to_N c)%N; [apply returns_mul, G|].
      apply N2Z.inj. rewrite N2Z.inj_mul, !Z2N.id by lia. lia. }
    unfold returns, g in C. rewrite iter_pow, Z2N.id in C by lia.
    assert (X : (r | a ^ R - 1)) by (apply mod_sub; [lia|rewrite C; symmetry; apply Z.mod_1_l; exact r1]).
    assert (Y : (u * (a ^ R - 1)) mod r = 1 mod r) by (apply (divide_mod r n); [lia|exact Dr|lia|rewrite EU; symmetry; apply Z.mod_1_l; exact H1]).
    rewrite Z.mod_1_l in Y by exact r1. assert (Q : (r | u * (a ^ R - 1))) by (apply Z.divide_mul_r, X).
    apply Z.mod_divide in Q; lia. }
  assert (D2 : (2 | r - 1)). { exists (r / 2). pose proof (Zodd_div2 r). rewrite Zodd_bool_iff in Or. rewrite Z.div2_div in *. specialize (H Or). lia. }
  destruct FD as (c & Ec). assert (C0 : 0 < c) by nia.
  destruct (prime_mult 2 prime_2 c f) as [X|X]; [rewrite <- Ec; exact D2| |].
  - destruct X as (e & Ee). clear - Ec C0 Ee F2. assert (1 <= e) by lia. subst c. nia.
  - exfalso. assert (f = 2 \/ f = 1); [|lia]. destruct (prime_divisors f Pf 2 X) as [?|[?|[?|?]]]; lia.
Qed.

Definition certified (n f a u : Z) : bool :=
  (1 <? n) && Z.odd n && (2 <? f) && ((n - 1) mod f =? 0) && (n <? (2 * f + 1) * (2 * f + 1))
  && (powmod n a (n - 1) =? 1) && ((u * (powmod n a ((n - 1) / f) - 1)) mod n =? 1).
Lemma certified_ok n f a u : prime f -> certified n f a u = true -> prime n.
Proof.
  intros Pf. unfold certified. rewrite !andb_true_iff, !Z.ltb_lt, !Z.eqb_eq. intros [[[[[[H1 O] F] D] B] E] U].
  rewrite powmod_ok in E, U by (try apply Z.div_pos; lia).
  apply (pocklington n f a u); try assumption; [apply Z.mod_divide; [lia|exact D]|].
  etransitivity; [|exact U]. rewrite <- (Z.mul_mod_idemp_r u (_ - 1)), <- (Z.mul_mod_idemp_r u (_ mod n - 1)), Zminus_mod_idemp_l by lia. reflexivity.
Qed.

Lemma prime_P61 : prime 2415507092167373383.
Proof.
  apply (certified_ok _ 1358382719 2 259334965460000082); [|vm_compute; reflexivity].
  apply (certified_ok _ 78059 2 219255721); [|vm_compute; reflexivity].
  apply (trial_ok _ 300). vm_compute. reflexivity.
Qed.
(** The prime divisors of 2^320 - 1. *)
Definition divisors : list Z :=
  [3; 5; 11; 17; 31; 41; 257; 641; 61681; 65537; 414721; 3602561; 6700417; 4278255361; 44479210368001; 94455684953484563055991838558081].
Lemma prime_3 : prime 3. Proof. apply (trial_ok _ 0). vm_compute. reflexivity. Qed.
Lemma prime_5 : prime 5. Proof. apply (trial_ok _ 1). vm_compute. reflexivity. Qed.
Lemma prime_11 : prime 11. Proof. apply (trial_ok _ 2). vm_compute. reflexivity. Qed.
Lemma prime_17 : prime 17. Proof. apply (trial_ok _ 3). vm_compute. reflexivity. Qed.
Lemma prime_31 : prime 31. Proof. apply (trial_ok _ 4). vm_compute. reflexivity. Qed.
Lemma prime_41 : prime 41. Proof. apply (trial_ok _ 5). vm_compute. reflexivity. Qed.
Lemma prime_257 : prime 257. Proof. apply (trial_ok _ 15). vm_compute. reflexivity. Qed.
Lemma prime_641 : prime 641. Proof. apply (trial_ok _ 24). vm_compute. reflexivity. Qed.
Lemma prime_61681 : prime 61681. Proof. apply (trial_ok _ 247). vm_compute. reflexivity. Qed.
Lemma prime_65537 : prime 65537. Proof. apply (trial_ok _ 255). vm_compute. reflexivity. Qed.
Lemma prime_414721 : prime 414721. Proof. apply (trial_ok _ 642). vm_compute. reflexivity. Qed.
Lemma prime_3602561 : prime 3602561. Proof. apply (trial_ok _ 1897). vm_compute. reflexivity. Qed.
Lemma prime_17449 : prime 17449. Proof. apply (trial_ok _ 131). vm_compute. reflexivity. Qed.
Lemma prime_6096383 : prime 6096383. Proof. apply (trial_ok _ 2468). vm_compute. reflexivity. Qed.
Lemma prime_78059 : prime 78059. Proof. apply (trial_ok _ 278). vm_compute. reflexivity. Qed.
Lemma prime_6700417 : prime 6700417. Proof. apply (certified_ok _ 17449 3 4499094); [exact prime_17449|vm_compute; reflexivity]. Qed.
Lemma prime_4278255361 : prime 4278255361. Proof. apply (certified_ok _ 65537 3 4169353188); [exact prime_65537|vm_compute; reflexivity]. Qed.
Lemma prime_44479210368001 : prime 44479210368001. Proof. apply (certified_ok _ 6096383 3 36275926394014); [exact prime_6096383|vm_compute; reflexivity]. Qed.
Lemma prime_P107 : prime 94455684953484563055991838558081.
Proof. apply (certified_ok _ 2415507092167373383 3 25896365963548849385409587829881); [exact prime_P61|vm_compute; reflexivity]. Qed.
Lemma divisors_prime : Forall prime divisors.
Proof.
  apply Forall_cons; [exact prime_3|].
  apply Forall_cons; [exact prime_5|].
  apply Forall_cons; [exact prime_11|].
  apply Forall_cons; [exact prime_17|].
  apply Forall_cons; [exact prime_31|].
  apply Forall_cons; [exact prime_41|].
  apply Forall_cons; [exact prime_257|].
  apply Forall_cons; [exact prime_641|].
  apply Forall_cons; [exact prime_61681|].
  apply Forall_cons; [exact prime_65537|].
  apply Forall_cons; [exact prime_414721|].
  apply Forall_cons; [exact prime_3602561|].
  apply Forall_cons; [exact prime_6700417|].
  apply Forall_cons; [exact prime_4278255361|].
  apply Forall_cons; [exact prime_44479210368001|].
  apply Forall_cons; [exact prime_P107|]. apply Forall_nil.
Qed.
Lemma prime_of_product r l : prime r -> (r | fold_right Z.mul 1 l) -> exists x, In x l /\ (r | x).
Proof.
  intros P. induction l as [|x l IH]; cbn [fold_right]; intros D.
  - exfalso. apply Z.divide_1_r in D. destruct P. lia.
  - destruct (prime_mult r P _ _ D) as [H|H]; [exists x; split; [left; reflexivity|exact H]|].
    destruct (IH H) as (y & I & Y). exists y. split; [right; exact I|exact Y].
Qed.
(** 2^320 - 1 has no other prime divisors (5 divides it twice). *)
Definition full : Z := 2135987035920910082395021706169552114602704522356652769947041607822219725780640550022962086936575.
Lemma full_product : full = fold_right Z.mul 1 (5 :: divisors).
Proof. vm_compute. reflexivity. Qed.
Lemma full_eq : full = 2 ^ 320 - 1.
Proof. vm_compute. reflexivity. Qed.
Theorem divisors_all r : prime r -> (r | full) -> In r divisors.
Proof.
  intros P D. rewrite full_product in D. destruct (prime_of_product r _ P D) as (x & I & X).
  assert (J : In x divisors) by (destruct I as [<-|I]; [right; left; reflexivity|exact I]).
  assert (Px : prime x) by (pose proof divisors_prime as F; rewrite Forall_forall in F; apply F, J).
  rewrite (prime_div_prime r x P Px X). exact J.
Qed.
