(** Outcomes of modelled C++ code, and loop combinators.

    [UB] is undefined behaviour (out-of-bounds access, read of an
    indeterminate byte, out-of-range shift, signed overflow, ...).
    [NoFuel] is returned by a loop that did not finish within its fuel. *)
From Coq Require Import List Arith.
Import ListNotations.

Inductive res (A : Type) : Type :=
| Ret (a : A)
| UB
| NoFuel.
Arguments Ret {A} a.
Arguments UB {A}.
Arguments NoFuel {A}.

Definition bind {A B} (r : res A) (k : A -> res B) : res B :=
  match r with
  | Ret a => k a
  | UB => UB
  | NoFuel => NoFuel
  end.

Notation "'let*' x ':=' e 'in' k" :=
  (bind e (fun x => k)) (at level 200, x pattern, e at level 100, k at level 200,
   format "'[v' 'let*'  x  ':='  e  'in' '/' k ']'").

(** [while (cond) { body }] with fuel. *)
Fixpoint while {S : Type} (fuel : nat) (cond : S -> bool) (body : S -> res S)
    (s : S) : res S :=
  match fuel with
  | O => NoFuel
  | S f => if cond s then let* s' := body s in while f cond body s' else Ret s
  end.

(** [for (i = i0; i < i0 + n; i++) { body }] *)
Fixpoint for_n {S : Type} (n : nat) (i : nat) (body : nat -> S -> res S) (s : S)
    : res S :=
  match n with
  | O => Ret s
  | Datatypes.S n' => let* s' := body i s in for_n n' (Datatypes.S i) body s'
  end.

(** The same for a body that cannot go wrong. *)
Fixpoint iter_n {S : Type} (n : nat) (i : nat) (body : nat -> S -> S) (s : S) : S :=
  match n with
  | O => s
  | Datatypes.S n' => iter_n n' (Datatypes.S i) body (body i s)
  end.

Definition is_ret {A} (r : res A) : bool :=
  match r with Ret _ => true | _ => false end.

Lemma while_steps {S : Type} (cond : S -> bool) (body : S -> res S)
    (st : nat -> S) (n : nat) :
  (forall i, i < n -> cond (st i) = true /\ body (st i) = Ret (st (Datatypes.S i))) ->
  cond (st n) = false ->
  forall fuel, n < fuel -> while fuel cond body (st 0) = Ret (st n).
Proof.
  intros Hstep Hend.
  assert (H : forall k i, i + k = n -> forall fuel, k < fuel ->
             while fuel cond body (st i) = Ret (st n)).
  { induction k as [|k IH]; intros i Hi fuel Hf.
    - destruct fuel as [|fuel]; [inversion Hf|].
      rewrite Nat.add_0_r in Hi; subst i. simpl. rewrite Hend. reflexivity.
    - destruct fuel as [|fuel]; [inversion Hf|].
      simpl. destruct (Hstep i) as [Hc Hb].
      { rewrite <- Hi. rewrite <- (Nat.add_0_r i) at 1.
        apply Nat.add_lt_mono_l. apply Nat.lt_0_succ. }
      rewrite Hc, Hb. simpl. apply IH.
      + rewrite <- Hi. simpl. rewrite Nat.add_succ_r. reflexivity.
      + apply Nat.succ_lt_mono. exact Hf. }
  intros fuel Hf. apply (H n 0); [reflexivity|exact Hf].
Qed.

Lemma for_n_steps {S : Type} (body : nat -> S -> res S) (st : nat -> S) (n i0 : nat) :
  (forall i, i < n -> body (i0 + i) (st i) = Ret (st (Datatypes.S i))) ->
  for_n n i0 body (st 0) = Ret (st n).
Proof.
  revert i0 st. induction n as [|n IH]; intros i0 st H; simpl.
  - reflexivity.
  - rewrite <- (Nat.add_0_r i0) at 1. rewrite H by apply Nat.lt_0_succ. simpl.
    apply (IH (Datatypes.S i0) (fun i => st (Datatypes.S i))).
    intros i Hi. rewrite <- (H (Datatypes.S i)).
    + rewrite Nat.add_succ_r. reflexivity.
    + apply -> Nat.succ_lt_mono. exact Hi.
Qed.

Lemma for_n_ret {S : Type} (n i : nat) (body : nat -> S -> S) (s : S) :
  for_n n i (fun j x => Ret (body j x)) s = Ret (iter_n n i body s).
Proof.
  revert i s. induction n as [|n IH]; intros i s; simpl; auto.
Qed.

Lemma for_n_ext {S : Type} (n i0 : nat) (f g : nat -> S -> res S) (s : S) :
  (forall i x, i0 <= i < i0 + n -> f i x = g i x) ->
  for_n n i0 f s = for_n n i0 g s.
Proof.
  revert i0 s. induction n as [|n IH]; intros i0 s H; simpl; [reflexivity|].
  rewrite H.
  - destruct (g i0 s); simpl; auto. apply IH. intros i x Hi. apply H.
    rewrite Nat.add_succ_r. destruct Hi as [Hi1 Hi2]. split.
    + apply Nat.lt_le_incl. exact Hi1.
    + exact Hi2.
  - split; [apply le_n|]. rewrite <- (Nat.add_0_r i0) at 1.
    apply Nat.add_lt_mono_l. apply Nat.lt_0_succ.
Qed.

Lemma iter_n_ext {S : Type} (n i0 : nat) (f g : nat -> S -> S) (s : S) :
  (forall i x, i0 <= i < i0 + n -> f i x = g i x) ->
  iter_n n i0 f s = iter_n n i0 g s.
Proof.
  revert i0 s. induction n as [|n IH]; intros i0 s H; simpl; [reflexivity|].
  rewrite H.
  - apply IH. intros i x Hi. apply H.
    rewrite Nat.add_succ_r. destruct Hi as [Hi1 Hi2]. split.
    + apply Nat.lt_le_incl. exact Hi1.
    + exact Hi2.
  - split; [apply le_n|]. rewrite <- (Nat.add_0_r i0) at 1.
    apply Nat.add_lt_mono_l. apply Nat.lt_0_succ.
Qed.

Lemma iter_n_S_end {S : Type} (n i0 : nat) (f : nat -> S -> S) (s : S) :
  iter_n (Datatypes.S n) i0 f s = f (i0 + n) (iter_n n i0 f s).
Proof.
  revert i0 s. induction n as [|n IH]; intros i0 s.
  - simpl. rewrite Nat.add_0_r. reflexivity.
  - change (iter_n (Datatypes.S n) (Datatypes.S i0) f (f i0 s) =
            f (i0 + Datatypes.S n) (iter_n n (Datatypes.S i0) f (f i0 s))).
    rewrite IH. rewrite Nat.add_succ_r. reflexivity.
Qed.

(** Unfolding equations, for rewriting without conversion on the arguments. *)
Lemma for_n_S {S : Type} n i (f : nat -> S -> res S) s :
  for_n (Datatypes.S n) i f s = let* s' := f i s in for_n n (Datatypes.S i) f s'.
Proof. reflexivity. Qed.
Lemma iter_n_S {S : Type} n i (f : nat -> S -> S) s :
  iter_n (Datatypes.S n) i f s = iter_n n (Datatypes.S i) f (f i s).
Proof. reflexivity. Qed.
Lemma bind_Ret {A B} (a : A) (k : A -> res B) : bind (Ret a) k = k a.
Proof. reflexivity. Qed.
Lemma Ret_inj {A} (a b : A) : Ret a = Ret b -> a = b.
Proof. intros H. injection H as ->. reflexivity. Qed.
Lemma Ret_pair {A B} (a c : A) (b d : B) : Ret (a, b) = Ret (c, d) -> a = c /\ b = d.
Proof. intros H. injection H as -> ->. auto. Qed.
Lemma bind_assoc {A B D} (r : res A) (f : A -> res B) (h : B -> res D) :
  (let* y := (let* x := r in f x) in h y) = let* x := r in let* y := f x in h y.
Proof. destruct r; reflexivity. Qed.
