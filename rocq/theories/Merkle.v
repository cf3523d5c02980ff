(** Iterated compression functions: equal results of different block sequences
    give a collision of the compression function among the inputs it was
    actually called on. *)
From Coq Require Import Arith List Lia.
Import ListNotations.

Section Chain.
Context {A B : Type} (f : A -> B -> A).

(** The arguments of the successive calls. *)
Fixpoint calls (h : A) (bs : list B) : list (A * B) :=
  match bs with [] => [] | b :: bs => (h, b) :: calls (f h b) bs end.

Definition collision (l1 l2 : list (A * B)) : Prop :=
  exists h1 b1 h2 b2, In (h1, b1) l1 /\ In (h2, b2) l2 /\ (h1, b1) <> (h2, b2) /\ f h1 b1 = f h2 b2.

Lemma calls_app h bs b : calls h (bs ++ [b]) = calls h bs ++ [(fold_left f bs h, b)].
Proof.
  revert h. induction bs as [|a bs IH]; intros h; [reflexivity|].
  cbn [calls app fold_left]. rewrite IH. reflexivity.
Qed.

Lemma collision_app l1 l2 x y : collision l1 l2 -> collision (l1 ++ [x]) (l2 ++ [y]).
Proof.
  intros (h1 & b1 & h2 & b2 & I1 & I2 & N & E). exists h1, b1, h2, b2.
  split; [apply in_or_app; left; exact I1|]. split; [apply in_or_app; left; exact I2|]. auto.
Qed.

(** Walking back from equal results, either some pair of calls collides or the
    two sequences end in the same blocks until one of them is used up. *)
Lemma chain_collision (dA : forall x y : A, {x = y} + {x <> y}) (dB : forall x y : B, {x = y} + {x <> y}) h g :
  forall bs cs, fold_left f bs h = fold_left f cs g ->
  collision (calls h bs) (calls g cs) \/
  exists p q s, bs = p ++ s /\ cs = q ++ s /\ fold_left f p h = fold_left f q g /\ (p = [] \/ q = []).
Proof.
  intros bs. induction bs as [|b bs IH] using rev_ind; intros cs E.
  - right. exists [], cs, []. rewrite (app_nil_r cs). auto.
  - destruct cs as [|c cs _] using rev_ind.
    + right. exists (bs ++ [b]), [], []. rewrite (app_nil_r (bs ++ [b])). auto.
    + rewrite !fold_left_app in E. cbn [fold_left] in E. rewrite !calls_app.
      destruct (dA (fold_left f bs h) (fold_left f cs g)) as [Eh|Nh], (dB b c) as [Eb|Nb].
      * subst c. destruct (IH cs Eh) as [C|(p & q & s & -> & -> & Ep & D)].
        -- left. apply collision_app. exact C.
        -- right. exists p, q, (s ++ [b]). rewrite !app_assoc. auto.
      * left. exists (fold_left f bs h), b, (fold_left f cs g), c.
        split; [apply in_or_app; right; left; reflexivity|]. split; [apply in_or_app; right; left; reflexivity|].
        split; [congruence|exact E].
      * left. exists (fold_left f bs h), b, (fold_left f cs g), c.
        split; [apply in_or_app; right; left; reflexivity|]. split; [apply in_or_app; right; left; reflexivity|].
        split; [congruence|exact E].
      * left. exists (fold_left f bs h), b, (fold_left f cs g), c.
        split; [apply in_or_app; right; left; reflexivity|]. split; [apply in_or_app; right; left; reflexivity|].
        split; [congruence|exact E].
Qed.

(** With as many blocks on both sides, or a last block that tells how many. *)
Lemma md_collision (dA : forall x y : A, {x = y} + {x <> y}) (dB : forall x y : B, {x = y} + {x <> y}) h bs cs d :
  bs <> [] -> cs <> [] -> (last bs d = last cs d -> length bs = length cs) ->
  fold_left f bs h = fold_left f cs h -> bs <> cs -> collision (calls h bs) (calls h cs).
Proof.
  intros Nb Nc L E N. destruct (chain_collision dA dB h h bs cs E) as [C|(p & q & s & -> & -> & Ep & D)]; [exact C|].
  exfalso. destruct s as [|x s _] using rev_ind.
  - destruct D as [-> | ->]; [apply Nb|apply Nc]; reflexivity.
  - rewrite !app_assoc, !last_last in L. specialize (L eq_refl). rewrite !app_length in L.
    destruct D as [-> | ->]; cbn [length] in L.
    + destruct q as [|]; [apply N; reflexivity|cbn [length] in L; lia].
    + destruct p as [|]; [apply N; reflexivity|cbn [length] in L; lia].
Qed.
End Chain.
