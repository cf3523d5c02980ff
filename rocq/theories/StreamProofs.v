(** Damage stays where it is when a packet function XORs a key stream that
    depends on the state and the length only. *)
From Coq Require Import NArith List Lia.
From Verif Require Import Res Mem MemSpec MemLemmas SpecWords WordsLemmas SyncSpec StreamSpec.
Import ListNotations.

Lemma xor_swap a b k : xor_bytes (xor_bytes a b) k = xor_bytes (xor_bytes a k) b.
Proof.
  unfold xor_bytes. revert b k. induction a as [|x a IH]; intros [|y b] [|z k]; cbn [combine map fst snd]; try reflexivity.
  f_equal; [|apply IH]. rewrite !N.lxor_assoc. f_equal. apply N.lxor_comm.
Qed.

Lemma altered_cons e es d ds : altered (e :: es) (d :: ds) = xor_bytes e d :: altered es ds.
Proof. reflexivity. Qed.

Section Damage.
Context {S : Type} (ps pr : S -> mem -> ptr -> ptr -> N -> res (S * mem)).
Context (inv : S -> Prop) (len_ok : nat -> Prop) (ks : S -> nat -> list N) (next : S -> nat -> S).
Hypothesis Hps : forall s m out inp data,
  inv s -> len_ok (length data) -> has_bytes m inp data -> writable m out (length data) ->
  same_or_disjoint out inp (length data) ->
  ps s m out inp (N.of_nat (length data)) =
    Ret (next s (length data), write_at m out (xor_bytes data (ks s (length data)))).
Hypothesis Hpr : forall s m out inp data,
  inv s -> len_ok (length data) -> has_bytes m inp data -> writable m out (length data) ->
  same_or_disjoint out inp (length data) ->
  pr s m out inp (N.of_nat (length data)) =
    Ret (next s (length data), write_at m out (xor_bytes data (ks s (length data)))).
Hypothesis Hnext : forall s n, inv s -> len_ok n -> inv (next s n).
Hypothesis Hlen : forall s n, inv s -> len_ok n -> n <= length (ks s n).

Lemma step_encrypts s d : inv s -> len_ok (length d) ->
  encrypts ps s d (next s (length d)) (xor_bytes d (ks s (length d))).
Proof.
  intros Hs Ld. split; [|intros m out inp H1 H2 H3; apply Hps; assumption].
  rewrite xor_bytes_length_min. pose proof (Hlen s (length d) Hs Ld). lia.
Qed.

Lemma step_decrypts s d : inv s -> len_ok (length d) ->
  encrypts pr s d (next s (length d)) (xor_bytes d (ks s (length d))).
Proof.
  intros Hs Ld. split; [|intros m out inp H1 H2 H3; apply Hpr; assumption].
  rewrite xor_bytes_length_min. pose proof (Hlen s (length d) Hs Ld). lia.
Qed.

Lemma sync_damage ds : Forall (fun d => len_ok (length d)) ds -> forall s, inv s -> damage_stays ps pr s s ds.
Proof.
  induction 1 as [|d ds Ld F IH]; intros s Hs.
  - exists s, []. split; [reflexivity|]. split; [reflexivity|]. intros [|]; [reflexivity|discriminate].
  - destruct (IH (next s (length d)) (Hnext _ _ Hs Ld)) as (t & es & S1 & S2 & S3).
    pose proof (Hlen s (length d) Hs Ld) as Lk.
    set (e := xor_bytes d (ks s (length d))).
    assert (Le : length e = length d) by (unfold e; rewrite xor_bytes_length_min; lia).
    assert (Back : forall x, length x = length d -> encrypts pr s (xor_bytes x (ks s (length d))) (next s (length d)) x).
    { intros x Lx. assert (L2 : length (xor_bytes x (ks s (length d))) = length d) by (rewrite xor_bytes_length_min; lia).
      pose proof (step_decrypts s (xor_bytes x (ks s (length d))) Hs ltac:(rewrite L2; exact Ld)) as X.
      rewrite L2, xor_bytes_invol in X by lia. exact X. }
    exists t, (e :: es). split; [|split].
    + cbn [sends]. exists (next s (length d)). split; [apply step_encrypts; assumption|exact S1].
    + cbn [sends]. exists (next s (length d)). split; [apply Back; reflexivity|exact S2].
    + intros [|x deltas] L; [discriminate|]. cbn [map] in L. injection L as Lx L.
      rewrite !altered_cons. cbn [sends]. exists (next s (length d)). split; [|apply S3; exact L].
      unfold e. rewrite xor_swap. apply Back. rewrite xor_bytes_length_min. lia.
Qed.
End Damage.
