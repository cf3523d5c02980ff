(** Facts about the memory model: loads and stores against
    [has_bytes], [writable], [write_at]. *)
From Coq Require Import NArith List Arith Lia Bool.
From Verif Require Import Res Words Mem MemSpec ListLemmas.
Import ListNotations.

(** ** Splicing a list into a block *)

Definition splice (b : block) (o : nat) (l : list N) : block :=
  firstn o b ++ map Some l ++ skipn (o + length l) b.

Lemma splice_length b o l : o + length l <= length b -> length (splice b o l) = length b.
Proof.
  intros H. unfold splice. rewrite !app_length, firstn_length, map_length, skipn_length. lia.
Qed.

Lemma nth_error_splice b o l i :
  o + length l <= length b ->
  nth_error (splice b o l) i =
  if (o <=? i) && (i <? o + length l) then nth_error (map Some l) (i - o) else nth_error b i.
Proof.
  intros H. unfold splice.
  rewrite nth_error_app_if, nth_error_firstn, firstn_length, Nat.min_l by lia.
  destruct (Nat.ltb_spec i o).
  - replace (o <=? i) with false by (symmetry; apply Nat.leb_gt; lia). reflexivity.
  - replace (o <=? i) with true by (symmetry; apply Nat.leb_le; lia).
    rewrite nth_error_app_if, map_length, nth_error_skipn. simpl andb.
    destruct (Nat.ltb_spec (i - o) (length l)), (Nat.ltb_spec i (o + length l)); try lia; auto.
    f_equal. lia.
Qed.

Ltac nth_cases :=
  repeat match goal with
  | |- context [?a <=? ?b] => destruct (Nat.leb_spec a b)
  | |- context [?a <? ?b] => destruct (Nat.ltb_spec a b)
  | |- context [?a =? ?b] => destruct (Nat.eqb_spec a b)
  end; cbn [andb orb negb]; try lia; auto.

Lemma splice_app b o l1 l2 :
  o + length (l1 ++ l2) <= length b ->
  splice b o (l1 ++ l2) = splice (splice b o l1) (o + length l1) l2.
Proof.
  intros H. rewrite app_length in H. apply nth_error_ext. intros i.
  rewrite nth_error_splice by (rewrite app_length; lia).
  rewrite nth_error_splice by (rewrite splice_length; lia).
  rewrite nth_error_splice by lia.
  rewrite app_length, map_app, nth_error_app_if, map_length.
  nth_cases.
  f_equal. lia.
Qed.

Lemma splice_same b o l1 l2 :
  o + length l1 <= length b -> length l1 = length l2 ->
  splice (splice b o l1) o l2 = splice b o l2.
Proof.
  intros H E. apply nth_error_ext. intros i.
  rewrite nth_error_splice by (rewrite splice_length; lia).
  rewrite !nth_error_splice by lia. rewrite E. nth_cases.
Qed.

Lemma splice_comm b o1 l1 o2 l2 :
  o1 + length l1 <= length b -> o2 + length l2 <= length b ->
  o1 + length l1 <= o2 \/ o2 + length l2 <= o1 ->
  splice (splice b o1 l1) o2 l2 = splice (splice b o2 l2) o1 l1.
Proof.
  intros H1 H2 D. apply nth_error_ext. intros i.
  rewrite !nth_error_splice by (rewrite ?splice_length; lia). nth_cases.
Qed.

Lemma splice_nil b o : splice b o [] = b.
Proof. unfold splice. simpl. rewrite Nat.add_0_r. apply firstn_skipn. Qed.

Lemma splice_upd b o x : o < length b -> upd o (Some x) b = splice b o [x].
Proof.
  intros H. apply nth_error_ext. intros i.
  rewrite nth_error_splice by (cbn [length]; lia). rewrite nth_error_upd. cbn [length].
  nth_cases; subst; rewrite ?Nat.sub_diag; auto.
Qed.

Lemma slice_splice b o l :
  o + length l <= length b -> firstn (length l) (skipn o (splice b o l)) = map Some l.
Proof.
  intros H. apply nth_error_ext. intros i.
  rewrite nth_error_firstn, nth_error_skipn, nth_error_splice by lia.
  nth_cases.
  - f_equal. lia.
  - symmetry. apply nth_error_None. rewrite map_length. lia.
Qed.

Lemma slice_splice_other b o l o' n :
  o + length l <= length b -> o + length l <= o' \/ o' + n <= o ->
  firstn n (skipn o' (splice b o l)) = firstn n (skipn o' b).
Proof.
  intros H D. apply nth_error_ext. intros i.
  rewrite !nth_error_firstn, !nth_error_skipn, nth_error_splice by lia.
  nth_cases.
Qed.

Lemma splice_id b o l :
  o + length l <= length b -> firstn (length l) (skipn o b) = map Some l -> splice b o l = b.
Proof.
  intros H E. apply nth_error_ext. intros i. rewrite nth_error_splice by lia.
  rewrite <- E, nth_error_firstn, nth_error_skipn. nth_cases. f_equal. lia.
Qed.

(** ** [write_at], [writable] *)

Lemma write_at_splice m p l b :
  nth_error m (pblk p) = Some b -> write_at m p l = upd (pblk p) (splice b (poff p) l) m.
Proof. intros H. unfold write_at. rewrite H. reflexivity. Qed.

Lemma padd_0 p : padd p 0 = p.
Proof. destruct p; unfold padd; simpl. f_equal. lia. Qed.

Lemma padd_padd p a b : padd (padd p a) b = padd p (a + b).
Proof. unfold padd; simpl. f_equal. lia. Qed.

Lemma pblk_padd p n : pblk (padd p n) = pblk p.
Proof. reflexivity. Qed.

Lemma poff_padd p n : poff (padd p n) = poff p + n.
Proof. reflexivity. Qed.

Lemma writable_le m p n k : writable m p n -> k <= n -> writable m p k.
Proof. intros [b [H1 H2]] H. exists b. split; auto. lia. Qed.

Lemma writable_padd m p n k : writable m p (k + n) -> writable m (padd p k) n.
Proof. intros [b [H1 H2]]. exists b. rewrite pblk_padd, poff_padd. split; auto. lia. Qed.

Lemma writable_app m p n k : writable m p (n + k) <-> writable m p n /\ writable m (padd p n) k.
Proof.
  split.
  - intros H. split; [eapply writable_le; eauto; lia|]. apply writable_padd; auto.
  - intros [[b [H1 H2]] [b' [H3 H4]]]. rewrite pblk_padd, poff_padd in *.
    exists b'. split; auto. lia.
Qed.

Lemma nth_error_write_at_block m p l b k :
  nth_error m (pblk p) = Some b ->
  nth_error (write_at m p l) k =
  if k =? pblk p then Some (splice b (poff p) l) else nth_error m k.
Proof.
  intros H. rewrite (write_at_splice _ _ _ _ H), nth_error_upd.
  apply nth_error_lt_some in H. apply Nat.ltb_lt in H. rewrite H.
  destruct (k =? pblk p); reflexivity.
Qed.

Lemma writable_write_at m p l q n :
  writable m p (length l) -> writable m q n -> writable (write_at m p l) q n.
Proof.
  intros [b [H1 H2]] [b' [H3 H4]].
  unfold writable. rewrite (nth_error_write_at_block _ _ _ _ _ H1).
  destruct (Nat.eqb_spec (pblk q) (pblk p)) as [E|E].
  - rewrite E in H3. assert (b = b') by congruence; subst b'.
    exists (splice b (poff p) l). split; auto. rewrite splice_length; auto.
  - exists b'. auto.
Qed.

Lemma write_at_nil m p : write_at m p [] = m.
Proof.
  unfold write_at. destruct (nth_error m (pblk p)) as [b|] eqn:E; auto.
  fold (splice b (poff p) []). rewrite splice_nil. apply upd_same; auto.
Qed.

Lemma write_at_app m p l1 l2 :
  writable m p (length (l1 ++ l2)) ->
  write_at m p (l1 ++ l2) = write_at (write_at m p l1) (padd p (length l1)) l2.
Proof.
  intros [b [H1 H2]].
  assert (H3 : nth_error (write_at m p l1) (pblk (padd p (length l1))) = Some (splice b (poff p) l1)).
  { rewrite (nth_error_write_at_block _ _ _ _ _ H1). rewrite pblk_padd, Nat.eqb_refl. reflexivity. }
  rewrite (write_at_splice _ _ _ _ H3), (write_at_splice _ _ _ _ H1), (write_at_splice _ _ _ _ H1).
  rewrite pblk_padd, poff_padd, upd_upd. f_equal. apply splice_app; auto.
Qed.

Lemma write_at_same m p l1 l2 :
  writable m p (length l1) -> length l1 = length l2 ->
  write_at (write_at m p l1) p l2 = write_at m p l2.
Proof.
  intros [b [H1 H2]] E.
  assert (H3 : nth_error (write_at m p l1) (pblk p) = Some (splice b (poff p) l1)).
  { rewrite (nth_error_write_at_block _ _ _ _ _ H1). rewrite Nat.eqb_refl. reflexivity. }
  rewrite (write_at_splice _ _ _ _ H3), (write_at_splice _ _ _ _ H1), (write_at_splice _ _ _ _ H1).
  rewrite upd_upd. f_equal. apply splice_same; auto.
Qed.

Lemma write_at_comm m p l1 q l2 :
  writable m p (length l1) -> writable m q (length l2) ->
  disjoint p (length l1) q (length l2) ->
  write_at (write_at m p l1) q l2 = write_at (write_at m q l2) p l1.
Proof.
  intros [b [H1 H2]] [b' [H3 H4]] D.
  destruct (Nat.eq_dec (pblk p) (pblk q)) as [E|E].
  - rewrite E in H1. assert (b = b') by congruence; subst b'. rewrite <- E in H1.
    destruct D as [D|D]; [congruence|].
    assert (H5 : nth_error (write_at m p l1) (pblk q) = Some (splice b (poff p) l1)).
    { rewrite (nth_error_write_at_block _ _ _ _ _ H1). rewrite E, Nat.eqb_refl. reflexivity. }
    assert (H6 : nth_error (write_at m q l2) (pblk p) = Some (splice b (poff q) l2)).
    { rewrite (nth_error_write_at_block _ _ _ _ _ H3). rewrite E, Nat.eqb_refl. reflexivity. }
    rewrite (write_at_splice _ _ _ _ H5), (write_at_splice _ _ _ _ H6).
    rewrite (write_at_splice _ _ _ _ H1), (write_at_splice _ _ _ _ H3).
    rewrite E, !upd_upd. f_equal. apply splice_comm; auto.
  - assert (H5 : nth_error (write_at m p l1) (pblk q) = Some b').
    { rewrite (nth_error_write_at_block _ _ _ _ _ H1).
      apply Nat.neq_sym, Nat.eqb_neq in E. rewrite E. auto. }
    assert (H6 : nth_error (write_at m q l2) (pblk p) = Some b).
    { rewrite (nth_error_write_at_block _ _ _ _ _ H3). apply Nat.eqb_neq in E. rewrite E. auto. }
    rewrite (write_at_splice _ _ _ _ H5), (write_at_splice _ _ _ _ H6).
    rewrite (write_at_splice _ _ _ _ H1), (write_at_splice _ _ _ _ H3).
    apply upd_comm. auto.
Qed.

(** ** [has_bytes] *)

Lemma has_bytes_writable m p l : has_bytes m p l -> writable m p (length l).
Proof. intros [_ [b [H1 [H2 _]]]]. exists b. auto. Qed.

Lemma has_bytes_app m p l1 l2 :
  has_bytes m p (l1 ++ l2) <-> has_bytes m p l1 /\ has_bytes m (padd p (length l1)) l2.
Proof.
  unfold has_bytes. rewrite pblk_padd, poff_padd. split.
  - intros [F [b [H1 [H2 H3]]]]. apply Forall_app in F. destruct F as [F1 F2].
    rewrite app_length in H2, H3. rewrite map_app in H3.
    assert (E : forall i, nth_error (firstn (length l1 + length l2) (skipn (poff p) b)) i =
                          nth_error (map Some l1 ++ map Some l2) i) by (intros; rewrite H3; auto).
    split; split; auto; exists b; split; auto; split; try lia; apply nth_error_ext; intros i.
    + specialize (E i). rewrite nth_error_firstn in *.
      rewrite nth_error_app_if, map_length in E.
      revert E. nth_cases; intros _; symmetry; apply nth_error_None; rewrite map_length; lia.
    + specialize (E (length l1 + i)). rewrite nth_error_firstn, nth_error_skipn in *.
      rewrite nth_error_app_if, map_length in E.
      replace (poff p + length l1 + i) with (poff p + (length l1 + i)) by lia.
      revert E. nth_cases.
      * replace (length l1 + i - length l1) with i by lia. auto.
      * intros _. symmetry. apply nth_error_None. rewrite map_length. lia.
  - intros [[F1 [b [H1 [H2 H3]]]] [F2 [b' [H4 [H5 H6]]]]].
    assert (b = b') by congruence; subst b'.
    split; [apply Forall_app; auto|]. exists b. split; auto.
    rewrite app_length, map_app. split; [lia|].
    rewrite <- H3, <- H6. apply nth_error_ext. intros i.
    rewrite nth_error_app_if, !nth_error_firstn, !nth_error_skipn, firstn_length, skipn_length.
    nth_cases. all: f_equal; lia.
Qed.

Lemma has_bytes_nil m p n : writable m p n -> has_bytes m p [].
Proof.
  intros [b [H1 H2]]. split; [constructor|]. exists b. simpl. split; auto. split; auto. lia.
Qed.

Lemma has_bytes_bytes m p l : has_bytes m p l -> Forall (fun x => (x < 256)%N) l.
Proof. intros [H _]. auto. Qed.

Lemma has_bytes_ld8 m p x l : has_bytes m p (x :: l) -> ld8 m p = Ret x.
Proof.
  intros [_ [b [H1 [H2 H3]]]]. unfold ld8. rewrite H1.
  cbn [length map] in H2, H3.
  assert (E : nth_error (firstn (S (length l)) (skipn (poff p) b)) 0 = Some (Some x)).
  { rewrite H3. reflexivity. }
  rewrite nth_error_firstn, nth_error_skipn, Nat.add_0_r in E. simpl in E.
  rewrite E. reflexivity.
Qed.

Lemma has_bytes_cons m p x l :
  has_bytes m p (x :: l) -> ld8 m p = Ret x /\ has_bytes m (padd p 1) l.
Proof.
  intros H. split; [eapply has_bytes_ld8; eauto|].
  change (x :: l) with ([x] ++ l) in H. apply has_bytes_app in H. apply H.
Qed.

Lemma has_bytes_firstn m p l n : has_bytes m p l -> has_bytes m p (firstn n l).
Proof.
  intros H. rewrite <- (firstn_skipn n l) in H. apply has_bytes_app in H. apply H.
Qed.

Lemma has_bytes_skipn m p l n : n <= length l -> has_bytes m p l -> has_bytes m (padd p n) (skipn n l).
Proof.
  intros Hn H. rewrite <- (firstn_skipn n l) in H. apply has_bytes_app in H.
  rewrite firstn_length, Nat.min_l in H by lia. apply H.
Qed.

Lemma has_bytes_nth m p l i :
  i < length l -> has_bytes m p l -> ld8 m (padd p i) = Ret (nth i l 0%N).
Proof.
  intros Hi H. apply (has_bytes_skipn m p l i) in H; [|lia].
  rewrite (skipn_cons_nth l i 0%N Hi) in H. eapply has_bytes_ld8; eauto.
Qed.

Lemma has_bytes_ldn m p l : has_bytes m p l -> ldn m p (length l) = Ret l.
Proof.
  revert p. induction l as [|x l IH]; intros p H; auto.
  apply has_bytes_cons in H. destruct H as [H1 H2]. simpl.
  rewrite H1. simpl. rewrite (IH _ H2). reflexivity.
Qed.

Lemma has_bytes_ld32 m p b0 b1 b2 b3 l :
  has_bytes m p (b0 :: b1 :: b2 :: b3 :: l) -> ld32 m p = Ret (le32_of_bytes b0 b1 b2 b3).
Proof.
  intros H. unfold ld32.
  apply has_bytes_cons in H. destruct H as [-> H]. cbn [bind].
  apply has_bytes_cons in H. destruct H as [-> H]. cbn [bind].
  rewrite padd_padd in H.
  apply has_bytes_cons in H. destruct H as [H1 H]. change (1 + 1) with 2 in H1. rewrite H1. cbn [bind].
  rewrite padd_padd in H.
  apply has_bytes_cons in H. destruct H as [H2 H]. change (1 + 1 + 1) with 3 in H2. rewrite H2. reflexivity.
Qed.

Lemma has_bytes_write_same m p l :
  writable m p (length l) -> Forall (fun x => (x < 256)%N) l -> has_bytes (write_at m p l) p l.
Proof.
  intros [b [H1 H2]] F. split; auto. exists (splice b (poff p) l).
  rewrite (nth_error_write_at_block _ _ _ _ _ H1), Nat.eqb_refl. split; auto.
  rewrite splice_length by lia. split; auto. apply slice_splice; auto.
Qed.

Lemma has_bytes_write_other m p l q l' :
  writable m p (length l) -> disjoint p (length l) q (length l') ->
  has_bytes m q l' -> has_bytes (write_at m p l) q l'.
Proof.
  intros [b [H1 H2]] D [F [b' [H3 [H4 H5]]]]. split; auto.
  rewrite (nth_error_write_at_block _ _ _ _ _ H1).
  destruct (Nat.eqb_spec (pblk q) (pblk p)) as [E|E].
  - rewrite E in H3. assert (b = b') by congruence; subst b'.
    exists (splice b (poff p) l). split; auto. rewrite splice_length by lia. split; auto.
    rewrite <- H5. apply slice_splice_other; auto.
    destruct D as [D|[D|D]]; [congruence|left; lia|right; lia].
  - exists b'. auto.
Qed.

Lemma write_at_id m p l : has_bytes m p l -> write_at m p l = m.
Proof.
  intros [_ [b [H1 [H2 H3]]]]. rewrite (write_at_splice _ _ _ _ H1).
  rewrite splice_id by auto. apply upd_same; auto.
Qed.

(** ** Stores *)

Lemma st8_write m p x : writable m p 1 -> st8 m p x = Ret (write_at m p [x]).
Proof.
  intros [b [H1 H2]]. unfold st8. rewrite H1.
  replace (poff p <? length b) with true by (symmetry; apply Nat.ltb_lt; lia).
  rewrite (write_at_splice _ _ _ _ H1), splice_upd by lia. reflexivity.
Qed.

Lemma stn_write m p l : writable m p (length l) -> stn m p l = Ret (write_at m p l).
Proof.
  revert m p. induction l as [|x l IH]; intros m p H.
  - rewrite write_at_nil. reflexivity.
  - cbn [stn]. change (length (x :: l)) with (1 + length l) in H.
    rewrite st8_write by (eapply writable_le; eauto; lia). cbn [bind].
    rewrite IH.
    + change (x :: l) with ([x] ++ l). rewrite write_at_app; auto.
    + apply writable_write_at; [eapply writable_le; eauto; simpl; lia|].
      apply writable_padd. exact H.
Qed.

Lemma st32_stn m p w : st32 m p w = stn m p (bytes_of_le32 w).
Proof.
  unfold st32, bytes_of_le32, stn. rewrite !padd_padd.
  destruct (st8 m p _); cbn [bind]; auto.
  destruct (st8 _ (padd p 1) _); cbn [bind]; auto.
  change (1 + 1) with 2.
  destruct (st8 _ (padd p 2) _); cbn [bind]; auto.
  change (2 + 1) with 3.
  destruct (st8 _ (padd p 3) _); cbn [bind]; auto.
Qed.

Lemma st32_write m p w : writable m p 4 -> st32 m p w = Ret (write_at m p (bytes_of_le32 w)).
Proof. intros H. rewrite st32_stn. apply stn_write. exact H. Qed.

(** Cells outside every block and uninitialised cells give [UB]. *)
Lemma ld8_oob m p b : nth_error m (pblk p) = Some b -> length b <= poff p -> ld8 m p = UB.
Proof.
  intros H1 H2. unfold ld8. rewrite H1.
  destruct (nth_error b (poff p)) eqn:E; auto.
  apply nth_error_lt_some in E. lia.
Qed.

Lemma st8_oob m p b x : nth_error m (pblk p) = Some b -> length b <= poff p -> st8 m p x = UB.
Proof.
  intros H1 H2. unfold st8. rewrite H1. apply Nat.ltb_ge in H2. rewrite H2. reflexivity.
Qed.

(** ** memcpy *)

Lemma ld_cells_has m p l : has_bytes m p l -> ld_cells m p (length l) = Ret (map Some l).
Proof.
  revert p. induction l as [|x l IH]; intros p H; auto.
  assert (Hx := has_bytes_ld8 _ _ _ _ H). apply has_bytes_cons in H. destruct H as [_ H].
  simpl. unfold ld8 in Hx.
  destruct (nth_error m (pblk p)) as [b|]; [|discriminate].
  destruct (nth_error b (poff p)) as [[y|]|]; try discriminate.
  injection Hx as ->. rewrite (IH _ H). reflexivity.
Qed.

Lemma st_cells_stn m p l : st_cells m p (map Some l) = stn m p l.
Proof.
  revert m p. induction l as [|x l IH]; intros m p; auto.
  simpl. unfold st8.
  destruct (nth_error m (pblk p)) as [b|]; auto.
  destruct (poff p <? length b); auto. simpl. apply IH.
Qed.

Lemma memcpy_write m dst src l :
  has_bytes m src l -> writable m dst (length l) -> disjoint dst (length l) src (length l) ->
  memcpy m dst src (length l) = Ret (write_at m dst l).
Proof.
  intros H W D. unfold memcpy.
  replace (negb (length l =? 0) && overlaps dst src (length l)) with false.
  - rewrite (ld_cells_has _ _ _ H). cbn [bind]. rewrite st_cells_stn. apply stn_write; auto.
  - symmetry. unfold overlaps, disjoint in *. destruct (Nat.eqb_spec (length l) 0); auto.
    simpl. destruct (Nat.eqb_spec (pblk dst) (pblk src)); auto.
    destruct (Nat.ltb_spec (poff dst) (poff src + length l)); auto.
    destruct (Nat.ltb_spec (poff src) (poff dst + length l)); auto. lia.
Qed.

(** Overwriting the end of a written range. *)
Lemma write_at_overwrite m p a b c :
  length b <= length c -> writable m p (length a + length c) ->
  write_at (write_at m p (a ++ b)) (padd p (length a)) c = write_at m p (a ++ c).
Proof.
  intros Hl W.
  rewrite <- (firstn_skipn (length b) c) at 1.
  assert (L1 : length (firstn (length b) c) = length b) by (rewrite firstn_length; lia).
  assert (W1 : writable m p (length a + length b)) by (eapply writable_le; eauto; lia).
  rewrite (write_at_app (write_at m p (a ++ b))).
  2:{ rewrite firstn_skipn. apply writable_write_at; [rewrite app_length; auto|].
      apply writable_padd. auto. }
  rewrite (write_at_app m p a b) by (rewrite app_length; auto).
  rewrite write_at_same; auto.
  2:{ apply writable_write_at; [eapply writable_le; eauto; lia|].
      apply writable_padd. auto. }
  rewrite L1, padd_padd.
  rewrite <- (write_at_app m p a (firstn (length b) c)) by (rewrite app_length, L1; auto).
  replace (length a + length b) with (length (a ++ firstn (length b) c))
    by (rewrite app_length, L1; auto).
  rewrite <- write_at_app.
  - rewrite <- app_assoc, firstn_skipn. reflexivity.
  - rewrite <- app_assoc, firstn_skipn, app_length. auto.
Qed.

(** ** Local blocks *)

Lemma drop_last_app (m : mem) b : drop_last (m ++ [b]) = m.
Proof. apply removelast_last. Qed.

Lemma nth_error_last (m : mem) b : nth_error (m ++ [b]) (length m) = Some b.
Proof. rewrite nth_error_app2, Nat.sub_diag by lia. reflexivity. Qed.

Lemma upd_app_l {A} n (x : A) l1 l2 : n < length l1 -> upd n x (l1 ++ l2) = upd n x l1 ++ l2.
Proof.
  revert n. induction l1 as [|a l1 IH]; intros [|n] H; simpl in *; try lia; auto.
  f_equal. apply IH. lia.
Qed.

Lemma upd_app_last {A} (x y : A) l : upd (length l) x (l ++ [y]) = l ++ [x].
Proof. induction l; simpl; auto. f_equal. auto. Qed.

Lemma has_bytes_alloc m p l bs : has_bytes m p l -> has_bytes (m ++ bs) p l.
Proof.
  intros [F [b [H1 H2]]]. split; auto. exists b. split; auto.
  rewrite nth_error_app1; auto. eapply nth_error_lt_some; eauto.
Qed.

Lemma writable_alloc m p n bs : writable m p n -> writable (m ++ bs) p n.
Proof.
  intros [b [H1 H2]]. exists b. split; auto.
  rewrite nth_error_app1; auto. eapply nth_error_lt_some; eauto.
Qed.

Lemma write_at_alloc m p l n bs : writable m p n -> write_at (m ++ bs) p l = write_at m p l ++ bs.
Proof.
  intros [b [H1 H2]]. pose proof (nth_error_lt_some _ _ _ H1) as H3.
  rewrite (write_at_splice _ _ _ _ H1).
  rewrite (write_at_splice (m ++ bs) p l b) by (rewrite nth_error_app1; auto).
  apply upd_app_l. auto.
Qed.

Lemma writable_last (m : mem) b o n : o + n <= length b -> writable (m ++ [b]) (Ptr (length m) o) n.
Proof. intros H. exists b. simpl. rewrite nth_error_last. auto. Qed.

Lemma write_at_last (m : mem) b o l :
  write_at (m ++ [b]) (Ptr (length m) o) l = m ++ [splice b o l].
Proof.
  rewrite (write_at_splice _ _ _ b) by (simpl; apply nth_error_last). simpl.
  apply upd_app_last.
Qed.

Lemma length_write_at m p l : length (write_at m p l) = length m.
Proof. unfold write_at. destruct (nth_error m (pblk p)); auto. apply upd_length. Qed.

Lemma splice_full (b : block) l : length l = length b -> splice b 0 l = map Some l.
Proof.
  intros H. unfold splice. simpl. rewrite H, skipn_all, app_nil_r. reflexivity.
Qed.

Lemma has_bytes_last (m : mem) l : Forall (fun x => (x < 256)%N) l -> has_bytes (m ++ [map Some l]) (Ptr (length m) 0) l.
Proof.
  intros F. split; auto. exists (map Some l). simpl. rewrite nth_error_last, map_length.
  split; auto. split; auto. rewrite <- (map_length Some l). apply firstn_all.
Qed.

(** Variants with the length as a separate equation. *)
Lemma memcpy_write_n m dst src l n :
  has_bytes m src l -> n = length l -> writable m dst n -> disjoint dst n src n ->
  memcpy m dst src n = Ret (write_at m dst l).
Proof. intros H -> W D. apply memcpy_write; auto. Qed.

Lemma write_at_app_n m p n l1 l2 :
  n = length l1 -> writable m p (n + length l2) ->
  write_at (write_at m p l1) (padd p n) l2 = write_at m p (l1 ++ l2).
Proof. intros -> W. symmetry. apply write_at_app. rewrite app_length. auto. Qed.
