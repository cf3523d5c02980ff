(** Lifting exhaustive checks over bytes. *)
From Coq Require Import NArith List Lia Arith Bool.
Import ListNotations.

Definition nrange (n : nat) : list N := map N.of_nat (seq 0 n).

Lemma in_nrange n x : (x < N.of_nat n)%N -> In x (nrange n).
Proof.
  intros H. unfold nrange. apply in_map_iff. exists (N.to_nat x). split.
  - apply N2Nat.id.
  - apply in_seq. lia.
Qed.

Lemma forall_range (n : nat) (f : N -> bool) :
  forallb f (nrange n) = true -> forall x, (x < N.of_nat n)%N -> f x = true.
Proof. intros H x Hx. rewrite forallb_forall in H. apply H. apply in_nrange; auto. Qed.

Lemma forall_byte (f : N -> bool) :
  forallb f (nrange 256) = true -> forall x, (x < 256)%N -> f x = true.
Proof. intros H x Hx. apply (forall_range 256); auto. Qed.

Lemma forall_byte2 (f : N -> N -> bool) :
  forallb (fun x => forallb (f x) (nrange 256)) (nrange 256) = true ->
  forall x y, (x < 256)%N -> (y < 256)%N -> f x y = true.
Proof.
  intros H x y Hx Hy. apply (forall_byte (f x)); auto.
  apply (forall_byte (fun x => forallb (f x) (nrange 256))); auto.
Qed.

Definition list_N_eqb (a b : list N) : bool :=
  (length a =? length b)%nat && forallb (fun p => N.eqb (fst p) (snd p)) (combine a b).

Lemma list_N_eqb_eq a b : list_N_eqb a b = true -> a = b.
Proof.
  revert b. induction a as [|x a IH]; intros [|y b]; unfold list_N_eqb; simpl; try discriminate; auto.
  intros H. apply andb_true_iff in H. destruct H as [H1 H2]. apply andb_true_iff in H2.
  destruct H2 as [H2 H3]. apply N.eqb_eq in H2. subst. f_equal. apply IH.
  unfold list_N_eqb. rewrite H1, H3. reflexivity.
Qed.

Lemma list_N_eqb_refl a : list_N_eqb a a = true.
Proof.
  induction a as [|x a IH]; auto. unfold list_N_eqb in *. simpl.
  rewrite N.eqb_refl. simpl. exact IH.
Qed.

Lemma list_N_eqb_cons x y a b : list_N_eqb (x :: a) (y :: b) = N.eqb x y && list_N_eqb a b.
Proof.
  unfold list_N_eqb. simpl. destruct (length a =? length b)%nat, (N.eqb x y); reflexivity.
Qed.

Lemma list_N_eqb_iff a b : list_N_eqb a b = true <-> a = b.
Proof. split; [apply list_N_eqb_eq|intros ->; apply list_N_eqb_refl]. Qed.
