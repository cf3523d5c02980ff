(** Small list facts used throughout. *)
From Coq Require Import List Arith Lia Bool.
From Verif Require Import Mem.
Import ListNotations.

Lemma nth_error_ext {A} (l1 l2 : list A) :
  (forall i, nth_error l1 i = nth_error l2 i) -> l1 = l2.
Proof.
  revert l2. induction l1 as [|a l1 IH]; intros [|b l2] H; auto.
  - specialize (H 0); discriminate.
  - specialize (H 0); discriminate.
  - f_equal.
    + specialize (H 0); simpl in H; congruence.
    + apply IH. intros i. exact (H (S i)).
Qed.

Lemma upd_length {A} n (x : A) l : length (upd n x l) = length l.
Proof. revert n; induction l as [|a l IH]; intros [|n]; simpl; auto. Qed.

Lemma nth_error_upd {A} n (x : A) l i :
  nth_error (upd n x l) i =
  if (i =? n) && (n <? length l) then Some x else nth_error l i.
Proof.
  revert n i. induction l as [|a l IH]; intros n i.
  - simpl. destruct n; rewrite Bool.andb_false_r; reflexivity.
  - destruct n as [|n], i as [|i]; simpl; auto.
    rewrite IH. change (S n <? S (length l)) with (n <? length l). reflexivity.
Qed.

Lemma nth_error_upd_eq {A} n (x : A) l :
  n < length l -> nth_error (upd n x l) n = Some x.
Proof.
  intros H. rewrite nth_error_upd, Nat.eqb_refl.
  apply Nat.ltb_lt in H. rewrite H. reflexivity.
Qed.

Lemma nth_error_upd_ne {A} n (x : A) l i :
  i <> n -> nth_error (upd n x l) i = nth_error l i.
Proof.
  intros H. rewrite nth_error_upd. apply Nat.eqb_neq in H. rewrite H. reflexivity.
Qed.

Lemma nth_error_lt_some {A} (l : list A) n a : nth_error l n = Some a -> n < length l.
Proof. intros H. apply nth_error_Some. congruence. Qed.

Lemma nth_error_firstn {A} (l : list A) n i :
  nth_error (firstn n l) i = if i <? n then nth_error l i else None.
Proof.
  revert n i. induction l as [|a l IH]; intros n i.
  - rewrite firstn_nil. destruct i; simpl; destruct (_ <? _); reflexivity.
  - destruct n as [|n]; [destruct i; reflexivity|].
    destruct i as [|i]; simpl; auto.
    rewrite IH. reflexivity.
Qed.

Lemma nth_error_skipn {A} (l : list A) n i :
  nth_error (skipn n l) i = nth_error l (n + i).
Proof.
  revert l i. induction n as [|n IH]; intros l i; simpl; auto.
  destruct l as [|a l]; auto. destruct i; auto.
Qed.

Lemma nth_error_app_if {A} (l1 l2 : list A) i :
  nth_error (l1 ++ l2) i =
  if i <? length l1 then nth_error l1 i else nth_error l2 (i - length l1).
Proof.
  destruct (Nat.ltb_spec i (length l1)).
  - apply nth_error_app1; auto.
  - apply nth_error_app2; auto.
Qed.

Lemma nth_error_nth_default {A} (l : list A) i d :
  i < length l -> nth_error l i = Some (nth i l d).
Proof. intros H. apply nth_error_nth'. exact H. Qed.

Lemma upd_upd {A} n (x y : A) l : upd n x (upd n y l) = upd n x l.
Proof. revert n; induction l as [|a l IH]; intros [|n]; simpl; auto. f_equal; auto. Qed.

Lemma upd_comm {A} n k (x y : A) l :
  n <> k -> upd n x (upd k y l) = upd k y (upd n x l).
Proof.
  revert n k; induction l as [|a l IH]; intros [|n] [|k] H; simpl; auto; try congruence.
  f_equal; auto.
Qed.

Lemma upd_same {A} n (x : A) l : nth_error l n = Some x -> upd n x l = l.
Proof.
  revert n; induction l as [|a l IH]; intros [|n] H; simpl in *; auto.
  - congruence.
  - f_equal; auto.
Qed.

Lemma nth_upd {A} n (x : A) l i d :
  nth i (upd n x l) d = if (i =? n) && (n <? length l) then x else nth i l d.
Proof.
  revert n i. induction l as [|a l IH]; intros n i.
  - simpl. destruct n; rewrite Bool.andb_false_r; reflexivity.
  - destruct n as [|n], i as [|i]; simpl; auto.
    rewrite IH. change (S n <? S (length l)) with (n <? length l). reflexivity.
Qed.

Lemma map_upd {A B} (f : A -> B) n x l : map f (upd n x l) = upd n (f x) (map f l).
Proof. revert n; induction l as [|a l IH]; intros [|n]; simpl; auto. f_equal; auto. Qed.

Lemma Forall_upd {A} (P : A -> Prop) n x l : P x -> Forall P l -> Forall P (upd n x l).
Proof.
  intros Hx H. revert n. induction H; intros [|n]; simpl; constructor; auto.
Qed.

Lemma skipn_skipn {A} n k (l : list A) : skipn n (skipn k l) = skipn (k + n) l.
Proof.
  revert l. induction k as [|k IH]; intros l; simpl; auto.
  destruct l; auto. rewrite skipn_nil. reflexivity.
Qed.

Lemma firstn_skipn_swap {A} n k (l : list A) :
  firstn n (skipn k l) = skipn k (firstn (k + n) l).
Proof.
  revert l. induction k as [|k IH]; intros l; simpl; auto.
  destruct l; auto. rewrite firstn_nil. reflexivity.
Qed.

Lemma firstn_firstn_le {A} n k (l : list A) : n <= k -> firstn n (firstn k l) = firstn n l.
Proof. intros H. rewrite firstn_firstn. f_equal. lia. Qed.

Lemma Forall_firstn {A} (P : A -> Prop) n l : Forall P l -> Forall P (firstn n l).
Proof.
  intros H. revert n. induction H; intros [|n]; simpl; constructor; auto.
Qed.

Lemma Forall_skipn {A} (P : A -> Prop) n l : Forall P l -> Forall P (skipn n l).
Proof.
  revert l. induction n as [|n IH]; intros l H; simpl; auto.
  destruct H; auto.
Qed.

Lemma skipn_cons_nth {A} (l : list A) n d :
  n < length l -> skipn n l = nth n l d :: skipn (S n) l.
Proof.
  revert n. induction l as [|a l IH]; intros n H; simpl in *; [lia|].
  destruct n as [|n]; auto. apply IH. lia.
Qed.

Lemma firstn_S_nth {A} (l : list A) n d :
  n < length l -> firstn (S n) l = firstn n l ++ [nth n l d].
Proof.
  revert n. induction l as [|a l IH]; intros n H; simpl in *; [lia|].
  destruct n as [|n]; auto. simpl. f_equal. apply IH. lia.
Qed.

Lemma map2_length_combine {A B} (a : list A) (b : list B) :
  length a = length b -> length (combine a b) = length a.
Proof. intros H. rewrite combine_length. lia. Qed.

Lemma app_inv_length {A} (a b c d : list A) : length a = length c -> a ++ b = c ++ d -> a = c /\ b = d.
Proof.
  revert c. induction a as [|x a IH]; intros [|y c] L E; try discriminate; auto.
  cbn in E. injection E as -> E. destruct (IH c ltac:(simpl in L; lia) E) as [-> ->]. auto.
Qed.
