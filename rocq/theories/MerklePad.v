(** The padding shared by SHA-256 and MD5: a one bit, zeros, and 8 bytes that
    tell the length.  [L] gives those 8 bytes. *)
From Coq Require Import Arith NArith List Lia.
From Verif Require Import ListLemmas MemLemmas SpecWords WordsLemmas ShaProofs Merkle.
Import ListNotations.
Local Open Scope nat_scope.

Definition pad_by (L : nat -> list N) (msg : list N) : list N :=
  msg ++ [128%N] ++ repeat 0%N ((119 - length msg mod 64) mod 64) ++ L (length msg).

Section Pad.
Context (L : nat -> list N) (L8 : forall n, length (L n) = 8).

Lemma pad_by_length msg : exists q, length (pad_by L msg) = S q * 64.
Proof.
  unfold pad_by. rewrite !app_length, repeat_length, L8. cbn [length].
  set (n := length msg). pose proof (Nat.div_mod n 64 ltac:(lia)) as E.
  destruct (k_spec n) as [[? K]|[? K]]; rewrite K.
  - exists (n / 64). lia.
  - exists (S (n / 64)). lia.
Qed.

Lemma pad_by_end msg : skipn (length (pad_by L msg) - 8) (pad_by L msg) = L (length msg).
Proof.
  unfold pad_by. rewrite !app_assoc. rewrite app_length, L8, Nat.add_sub.
  rewrite skipn_app, skipn_all, Nat.sub_diag. reflexivity.
Qed.

Lemma last_block (bs : list (list N)) : bs <> [] -> Forall (fun b => length b = 64) bs ->
  skipn 56 (last bs []) = skipn (length (concat bs) - 8) (concat bs).
Proof.
  intros N F. destruct bs as [|b bs _] using rev_ind; [contradiction|].
  rewrite last_last, concat_app. cbn [concat]. rewrite app_nil_r, app_length.
  apply Forall_app in F. destruct F as [_ F]. inversion F as [|? ? Lb _]; subst. rewrite Lb.
  rewrite skipn_app, (skipn_all2 (concat bs)) by lia. cbn [app]. f_equal. lia.
Qed.

Lemma pad_by_blocks msg : chunks 64 (pad_by L msg) <> [] /\ Forall (fun b => length b = 64) (chunks 64 (pad_by L msg)) /\
  concat (chunks 64 (pad_by L msg)) = pad_by L msg.
Proof.
  destruct (pad_by_length msg) as [q Q].
  destruct (chunks_lengths 64 (S q) (pad_by L msg) ltac:(lia) Q) as (F & C & Ln).
  split; [|split; assumption]. intros E. rewrite E in Ln. discriminate.
Qed.

(** Two messages whose lengths the last 8 bytes tell apart. *)
Lemma pad_collision {A} (f : A -> list N -> A) (dA : forall x y : A, {x = y} + {x <> y}) h m1 m2 :
  (L (length m1) = L (length m2) -> length m1 = length m2) ->
  fold_left f (chunks 64 (pad_by L m1)) h = fold_left f (chunks 64 (pad_by L m2)) h -> m1 <> m2 ->
  collision f (calls f h (chunks 64 (pad_by L m1))) (calls f h (chunks 64 (pad_by L m2))).
Proof.
  intros I E N. destruct (pad_by_blocks m1) as (N1 & F1 & C1). destruct (pad_by_blocks m2) as (N2 & F2 & C2).
  assert (X : last (chunks 64 (pad_by L m1)) [] = last (chunks 64 (pad_by L m2)) [] -> length m1 = length m2).
  { intros Y. apply (f_equal (skipn 56)) in Y. rewrite !last_block, C1, C2, !pad_by_end in Y by assumption. auto. }
  apply (md_collision f dA (list_eq_dec N.eq_dec) h _ _ []); try assumption.
  - intros Y. specialize (X Y).
    assert (Z : length (pad_by L m1) = length (pad_by L m2))
      by (unfold pad_by; rewrite !app_length, !repeat_length, !L8, X; reflexivity).
    destruct (pad_by_length m1) as [q1 Q1]. destruct (pad_by_length m2) as [q2 Q2].
    rewrite (proj2 (proj2 (chunks_lengths 64 (S q1) _ ltac:(lia) Q1))).
    rewrite (proj2 (proj2 (chunks_lengths 64 (S q2) _ ltac:(lia) Q2))). lia.
  - intros Y. assert (Z : pad_by L m1 = pad_by L m2) by (rewrite <- C1, <- C2, Y; reflexivity).
    rewrite Y in X. specialize (X eq_refl). unfold pad_by in Z.
    apply app_inv_length in Z; [|exact X]. apply N, Z.
Qed.
End Pad.
