(** The Sosemanuk shift register as a linear map on 320-bit numbers. *)
From Coq Require Import NArith ZArith Znumtheory Arith List Lia Bool.
From Verif Require Import Res Words Mem MemSpec ListLemmas MemLemmas SpecWords WordsLemmas XorProofs Finite BitSel
  SosemanukModel SosemanukTables SosemanukProofs NumTheory LinearCycle SerpentInj.
From Verif Require SosemanukSpec SerpentSpec.
Import ListNotations.
Local Open Scope N_scope.

Lemma comb_ext T : forall a b, (forall i, i < N.of_nat (length T) -> N.testbit a i = N.testbit b i) -> comb a T = comb b T.
Proof.
  induction T as [|t T IH]; intros a b H; [reflexivity|]. rewrite !comb_cons.
  rewrite <- !N.bit0_odd, (H 0) by (cbn [length]; lia). f_equal. apply IH.
  intros i Hi. rewrite !N.div2_spec, !N.shiftr_spec', !N.add_1_r. apply H. cbn [length]. lia.
Qed.
Lemma comb_app T U : forall a, comb a (T ++ U) = N.lxor (comb a T) (comb (N.shiftr a (N.of_nat (length T))) U).
Proof.
  induction T as [|t T IH]; intros a.
  - cbn [app comb length]. rewrite N.lxor_0_l. change (N.of_nat 0) with 0. rewrite N.shiftr_0_r. reflexivity.
  - cbn [app]. rewrite !comb_cons, IH, N.lxor_assoc. do 2 f_equal. f_equal. rewrite N.div2_spec, N.shiftr_shiftr. f_equal. cbn [length]. lia.
Qed.
(** Powers of two, beginning with 2^s. *)
Fixpoint ones (k : nat) (s : N) : list N := match k with O => [] | S k => 2^s :: ones k (N.succ s) end.
Lemma ones_length k : forall s, length (ones k s) = k.
Proof. induction k as [|k IH]; intros s; [reflexivity|]. cbn [ones length]. rewrite IH. reflexivity. Qed.
Lemma ones_bit k : forall s a i, N.testbit (comb a (ones k s)) i = (s <=? i) && (i <? s + N.of_nat k) && N.testbit a (i - s).
Proof.
  induction k as [|k IH]; intros s a i.
  - cbn [ones comb]. rewrite N.bits_0. destruct (N.leb_spec s i), (N.ltb_spec i (s + N.of_nat 0)); cbn [andb]; try reflexivity. lia.
  - cbn [ones]. rewrite comb_cons, N.lxor_spec, IH. destruct (N.eq_dec i s) as [->|Ns].
    + rewrite N.sub_diag, N.bit0_odd. destruct (N.leb_spec (N.succ s) s); [lia|]. cbn [andb]. rewrite xorb_false_r.
      destruct (N.leb_spec s s); [|lia]. destruct (N.ltb_spec s (s + N.of_nat (S k))); [|lia].
      destruct (N.odd a); cbn [andb]; [apply N.pow2_bits_true|apply N.bits_0].
    + replace (N.testbit (if N.odd a then 2^s else 0) i) with false.
      2: { destruct (N.odd a); [rewrite N.pow2_bits_false by congruence; reflexivity|rewrite N.bits_0; reflexivity]. }
      rewrite xorb_false_l. destruct (N.leb_spec (N.succ s) i) as [H|H], (N.leb_spec s i) as [H'|H']; try lia; cbn [andb]; try reflexivity.
      rewrite N.div2_spec, N.shiftr_spec'. replace (i - N.succ s + 1) with (i - s) by lia.
      destruct (N.ltb_spec i (N.succ s + N.of_nat k)), (N.ltb_spec i (s + N.of_nat (S k))); try lia; reflexivity.
Qed.
Lemma ones_all k w : w < 2^N.of_nat k -> comb w (ones k 0) = w.
Proof.
  intros H. apply N.bits_inj. intros i. rewrite ones_bit, N.sub_0_r, N.add_0_l. destruct (N.leb_spec 0 i); [|lia]. cbn [andb].
  destruct (N.ltb_spec i (N.of_nat k)) as [L|L]; [reflexivity|]. symmetry. apply (proj1 (lt_pow2_testbit w (N.of_nat k)) H). exact L.
Qed.

(** *** Multiplication and division by alpha *)
Definition mul_cols : list N := ones 24 8 ++ map (fun k => el alpha (N.to_nat (2^k))) [0; 1; 2; 3; 4; 5; 6; 7].
Definition div_cols : list N := map (fun k => el inv_alpha (N.to_nat (2^k))) [0; 1; 2; 3; 4; 5; 6; 7] ++ ones 24 0.
Lemma tables_linear : forallb (fun c =>
  (comb c (skipn 24 mul_cols) =? el alpha (N.to_nat c)) && (comb c (firstn 8 div_cols) =? el inv_alpha (N.to_nat c))) (nrange 256) = true.
Proof. vm_compute. reflexivity. Qed.
Lemma mul_ok w : w < 2^32 -> comb w mul_cols = SosemanukSpec.alpha_mul w.
Proof.
  intros H. rewrite <- alpha_ok by exact H. unfold mul_cols. rewrite comb_app. f_equal.
  - apply N.bits_inj. intros i. rewrite ones_bit, shl32_bit. change (8 + N.of_nat 24) with 32.
    rewrite (N.ltb_antisym 8 i), negb_involutive, (andb_comm (8 <=? i)). reflexivity.
  - rewrite ones_length. change (N.of_nat 24) with 24. change (u8 (shr32 w 24)) with (byte_of w 3).
    assert (B : byte_of w 3 < 256) by apply byte_of_lt.
    pose proof (forall_byte _ tables_linear _ B) as T. cbv beta in T. apply andb_prop in T. destruct T as [T _].
    apply N.eqb_eq in T. rewrite <- T. unfold byte_of. rewrite u8_mod. change (8 * 3) with 24.
    symmetry. change (skipn 24 mul_cols) with (map (fun k => el alpha (N.to_nat (2^k))) [0; 1; 2; 3; 4; 5; 6; 7]).
    apply comb_ext. intros i Hi. cbn [map length] in Hi. change (N.of_nat 8) with 8 in Hi. apply N.mod_pow2_bits_low. exact Hi.
Qed.
Lemma div_ok w : w < 2^32 -> comb w div_cols = SosemanukSpec.alpha_div w.
Proof.
  intros H. rewrite <- inv_alpha_ok by exact H. unfold div_cols. rewrite comb_app, N.lxor_comm. f_equal.
  - rewrite map_length. change (N.of_nat (length [0; 1; 2; 3; 4; 5; 6; 7])) with 8. unfold shr32. apply ones_all.
    change (N.of_nat 24) with 24. rewrite N.shiftr_div_pow2. apply N.div_lt_upper_bound; [discriminate|]. exact H.
  - change (u8 w) with (byte_of w 0). assert (B : byte_of w 0 < 256) by apply byte_of_lt.
    pose proof (forall_byte _ tables_linear _ B) as T. cbv beta in T. apply andb_prop in T. destruct T as [_ T].
    apply N.eqb_eq in T. rewrite <- T. unfold byte_of. rewrite u8_mod. change (8 * 0) with 0. rewrite N.shiftr_0_r.
    symmetry. change (firstn 8 div_cols) with (map (fun k => el inv_alpha (N.to_nat (2^k))) [0; 1; 2; 3; 4; 5; 6; 7]).
    apply comb_ext. intros i Hi. cbn [map length] in Hi. change (N.of_nat 8) with 8 in Hi. apply N.mod_pow2_bits_low. exact Hi.
Qed.

(** *** The register *)
(** s_t is the low word. *)
Definition Lstep (mc dc : list N) (v : N) : N :=
  N.lxor (N.shiftr v 32) (N.shiftl (N.lxor (N.shiftr v 288) (N.lxor (comb (N.shiftr v 96) dc) (comb v mc))) 288).
Definition mulc : list N := Eval vm_compute in mul_cols.
Definition divc : list N := Eval vm_compute in div_cols.
Definition L (v : N) : N := Lstep mulc divc v.
Lemma L_add a b : L (N.lxor a b) = N.lxor (L a) (L b).
Proof.
  unfold L, Lstep. rewrite !N.shiftr_lxor, !comb_add.
  rewrite (swap4 (comb (N.shiftr a 96) divc)), (swap4 (N.shiftr a 288)), N.shiftl_lxor, swap4. reflexivity.
Qed.
Lemma cols_lt : Forall (fun t => t < 2^32) mulc /\ Forall (fun t => t < 2^32) divc.
Proof. split; repeat (apply Forall_cons; [reflexivity|]); apply Forall_nil. Qed.
Lemma L_lt v : v < 2^320 -> L v < 2^320.
Proof.
  intros H. assert (G : forall k, N.shiftr v k < 2^(320 - k)).
  { intros k. apply lt_pow2_testbit. intros i Hi. rewrite N.shiftr_spec'. apply (proj1 (lt_pow2_testbit v 320) H). lia. }
  unfold L, Lstep. apply lxor_lt.
  - eapply N.lt_trans; [apply G|reflexivity].
  - rewrite N.shiftl_mul_pow2. change (2^320) with (2^32 * 2^288). apply N.mul_lt_mono_pos_r; [reflexivity|].
    apply lxor_lt; [apply G|]. apply lxor_lt; apply comb_lt; apply cols_lt.
Qed.

Fixpoint pack (l : list N) : N := match l with [] => 0 | w :: l => N.lxor w (N.shiftl (pack l) 32) end.
Lemma pack_bit w l i : w < 2^32 -> N.testbit (pack (w :: l)) i = if i <? 32 then N.testbit w i else N.testbit (pack l) (i - 32).
Proof.
  intros H. cbn [pack]. rewrite N.lxor_spec. destruct (N.ltb_spec i 32) as [K|K].
  - rewrite N.shiftl_spec_low by exact K. apply xorb_false_r.
  - rewrite (proj1 (lt_pow2_testbit w 32) H i K), N.shiftl_spec_high' by exact K. apply xorb_false_l.
Qed.
Lemma pack_tail w l : w < 2^32 -> N.shiftr (pack (w :: l)) 32 = pack l.
Proof.
  intros H. apply N.bits_inj. intros i. rewrite N.shiftr_spec', pack_bit by exact H.
  destruct (N.ltb_spec (i + 32) 32); [lia|]. f_equal. lia.
Qed.
Lemma pack_skip n : forall l, words_ok l -> N.shiftr (pack l) (32 * N.of_nat n) = pack (skipn n l).
Proof.
  induction n as [|n IH]; intros l W.
  - change (32 * N.of_nat 0) with 0. apply N.shiftr_0_r.
  - destruct l as [|w l]; [cbn [pack skipn]; apply N.shiftr_0_l|]. inversion W as [|? ? Hw W']; subst. cbn [skipn].
    rewrite <- (IH l W'), <- (pack_tail w l Hw), N.shiftr_shiftr. f_equal. lia.
Qed.
Lemma pack_low w l T : w < 2^32 -> length T = 32%nat -> comb (pack (w :: l)) T = comb w T.
Proof.
  intros H LT. apply comb_ext. rewrite LT. change (N.of_nat 32) with 32. intros i Hi. rewrite pack_bit by exact H.
  destruct (N.ltb_spec i 32); [reflexivity|lia].
Qed.
Lemma pack_app l x : words_ok l -> pack (l ++ [x]) = N.lxor (pack l) (N.shiftl x (32 * N.of_nat (length l))).
Proof.
  induction 1 as [|w l Hw _ IH].
  - cbn [pack app length]. change (32 * N.of_nat 0) with 0. rewrite N.shiftl_0_l, N.lxor_0_r, N.lxor_0_l, N.shiftl_0_r. reflexivity.
  - cbn [pack app]. rewrite IH, N.shiftl_lxor, N.lxor_assoc, N.shiftl_shiftl. do 3 f_equal. cbn [length]. lia.
Qed.
Lemma pack_lt l : words_ok l -> pack l < 2^(32 * N.of_nat (length l)).
Proof.
  induction 1 as [|w l Hw _ IH]; [reflexivity|]. cbn [pack length]. apply lxor_lt.
  - eapply N.lt_le_trans; [exact Hw|]. apply N.pow_le_mono_r; [discriminate|lia].
  - rewrite N.shiftl_mul_pow2. replace (32 * N.of_nat (S (length l))) with (32 * N.of_nat (length l) + 32) by lia.
    rewrite N.pow_add_r. apply N.mul_lt_mono_pos_r; [reflexivity|exact IH].
Qed.
Lemma pack_lt10 l : words_ok l -> length l = 10%nat -> pack l < 2^320.
Proof. intros W E. pose proof (pack_lt l W) as H. rewrite E in H. exact H. Qed.
Lemma pack_inj l : forall l', words_ok l -> words_ok l' -> length l = length l' -> pack l = pack l' -> l = l'.
Proof.
  induction l as [|w l IH]; intros [|w' l'] W W' E P; try discriminate; [reflexivity|].
  inversion W as [|? ? Hw Wl]; subst. inversion W' as [|? ? Hw' Wl']; subst.
  assert (pack l = pack l') by (rewrite <- (pack_tail w l Hw), <- (pack_tail w' l' Hw'), P; reflexivity).
  f_equal; [|apply IH; try assumption; injection E; auto]. cbn [pack] in P. rewrite H, (N.lxor_comm w), (N.lxor_comm w') in P. apply lxor_inj_l in P. exact P.
Qed.

Lemma lfsr_packed l : length l = 10%nat -> words_ok l -> pack (SosemanukSpec.lfsr_next l) = L (pack l).
Proof.
  intros E W. unfold L, Lstep. change 288 with (32 * N.of_nat 9). change 96 with (32 * N.of_nat 3). change 32 with (32 * N.of_nat 1).
  change mulc with mul_cols. change divc with div_cols.
  rewrite !pack_skip by exact W. unfold SosemanukSpec.lfsr_next.
  destruct l as [|a0 [|a1 [|a2 [|a3 [|a4 [|a5 [|a6 [|a7 [|a8 [|a9 [|]]]]]]]]]]]; try discriminate E.
  cbn [tl skipn]. rewrite pack_app by (inversion W; assumption). cbn [length].
  unfold words_ok in W. repeat match goal with H : Forall _ (_ :: _) |- _ => inversion H; clear H; subst end. f_equal. f_equal. unfold SosemanukSpec.feedback. cbn [nth].
  rewrite !pack_low by (try reflexivity; assumption). rewrite mul_ok, div_ok by assumption. cbn [pack]. rewrite N.shiftl_0_l, N.lxor_0_r. reflexivity.
Qed.

(** *** The polynomial of the register *)
Definition M : N := 0x10380ab10283293f3d9dd301fd3c7ecd9265d5a54777a4cf81f27b2bffb8e0600c846d588ca609609.
Lemma M_first : forallb (fun w => papp L M (N.shiftl w 288) =? 0) (ones 32 0) = true.
Proof. vm_cast_no_check (eq_refl true). Qed.
Lemma M_word w : w < 2^32 -> papp L M (N.shiftl w 288) = 0.
Proof.
  intros H. set (g := fun w => papp L M (N.shiftl w 288)). change (g w = 0).
  assert (G : forall a b, g (N.lxor a b) = N.lxor (g a) (g b)).
  { intros a b. unfold g. rewrite N.shiftl_lxor. apply papp_lin, L_add. }
  rewrite <- (ones_all 32 w H), (comb_map g G (additive_0 g G)).
  pose proof M_first as F. rewrite forallb_forall in F.
  assert (Z : forall T, (forall t, In t T -> g t = 0) -> forall a, comb a (map g T) = 0).
  { induction T as [|t T IH]; intros K a; [reflexivity|]. cbn [map]. rewrite comb_cons, (K t) by (left; reflexivity).
    rewrite IH by (intros; apply K; right; assumption). destruct (N.odd a); reflexivity. }
  apply Z. intros t I. apply N.eqb_eq. exact (F t I).
Qed.

Definition xw (a b : list N) : list N := map (fun p => N.lxor (fst p) (snd p)) (combine a b).
Lemma pack_xw a : forall b, length a = length b -> pack (xw a b) = N.lxor (pack a) (pack b).
Proof.
  induction a as [|x a IH]; intros [|y b] E; try discriminate; [reflexivity|]. cbn [xw combine map fst snd pack].
  fold (xw a b). rewrite IH by (injection E; auto). rewrite N.shiftl_lxor. apply swap4.
Qed.
Lemma xw_ok a : forall b, words_ok a -> words_ok b -> words_ok (xw a b).
Proof.
  induction a as [|x a IH]; intros [|y b] A B; try apply Forall_nil. inversion A; subst. inversion B; subst.
  constructor; [apply lxor_lt; assumption|apply IH; assumption].
Qed.
Lemma next_ok l : length l = 10%nat -> words_ok l -> length (SosemanukSpec.lfsr_next l) = 10%nat /\ words_ok (SosemanukSpec.lfsr_next l).
Proof.
  intros E W. unfold SosemanukSpec.lfsr_next. destruct l as [|x l]; [discriminate|]. cbn [tl]. split.
  - rewrite app_length. cbn [length] in *. lia.
  - apply Forall_app. split; [inversion W; assumption|]. constructor; [apply feedback_lt; assumption|apply Forall_nil].
Qed.
(** What a word that enters the register does in the next steps. *)
Lemma entering w : w < 2^32 -> forall j, (j <= 9)%nat -> exists t, length t = j /\ words_ok t /\
  papp L M (pack (repeat 0 (9 - j) ++ w :: t)) = 0.
Proof.
  intros Hw. induction j as [|j IH]; intros Hj.
  - exists []. split; [reflexivity|]. split; [apply Forall_nil|]. cbn [Nat.sub repeat app].
    replace (pack [0; 0; 0; 0; 0; 0; 0; 0; 0; w]) with (N.shiftl w 288); [apply M_word, Hw|].
    cbn [pack]. rewrite !N.lxor_0_l, N.shiftl_0_l, N.lxor_0_r, !N.shiftl_shiftl. reflexivity.
  - destruct (IH ltac:(lia)) as (t & Lt & Wt & P). set (l := repeat 0 (9 - j) ++ w :: t) in *.
    assert (Ll : length l = 10%nat) by (unfold l; rewrite app_length, repeat_length; cbn [length]; lia).
    assert (Wl : words_ok l).
    { unfold l. apply Forall_app. split; [|constructor; assumption]. apply Forall_forall. intros x I. apply repeat_spec in I. subst. reflexivity. }
    exists (t ++ [SosemanukSpec.feedback l]). split; [rewrite app_length; cbn [length]; lia|]. split.
    + apply Forall_app. split; [exact Wt|]. constructor; [apply feedback_lt; assumption|apply Forall_nil].
    + replace (repeat 0 (9 - S j) ++ w :: t ++ [SosemanukSpec.feedback l]) with (SosemanukSpec.lfsr_next l).
      * rewrite lfsr_packed, papp_L, P by (try assumption; exact L_add). reflexivity.
      * unfold SosemanukSpec.lfsr_next. replace (tl l) with (repeat 0 (9 - S j) ++ w :: t); [rewrite <- app_assoc; reflexivity|].
        unfold l. replace (9 - j)%nat with (S (9 - S j)) by lia. reflexivity.
Qed.
Lemma M_list j : (j <= 10)%nat -> forall r, length r = j -> words_ok r -> papp L M (pack (repeat 0 (10 - j) ++ r)) = 0.
Proof.
  induction j as [|j IH]; intros Hj r Lr Wr.
  - destruct r; [|discriminate]. reflexivity.
  - destruct r as [|w r]; [discriminate|]. inversion Wr as [|? ? Hw Wr']; subst.
    destruct (entering w Hw j ltac:(lia)) as (t & Lt & Wt & P). injection Lr as Lr.
    replace (repeat 0 (10 - S j) ++ w :: r) with (xw (repeat 0 (9 - j) ++ w :: t) (repeat 0 (10 - j) ++ xw t r)).
    + rewrite pack_xw, papp_lin, P, IH; try exact L_add; try reflexivity; try lia.
      * unfold xw. rewrite map_length, combine_length. lia.
      * apply xw_ok; assumption.
      * unfold xw. rewrite !app_length, !repeat_length. cbn [length]. rewrite map_length, combine_length. lia.
    + replace (10 - S j)%nat with (9 - j)%nat by lia. replace (10 - j)%nat with ((9 - j) + 1)%nat by lia. rewrite repeat_app, <- app_assoc.
      cbn [repeat app]. generalize (9 - j)%nat. intros k. induction k as [|k IHk].
      * cbn [repeat app]. unfold xw. cbn [combine map fst snd]. rewrite N.lxor_0_r. f_equal.
        clear - Lt Lr. revert r Lr. revert t Lt. generalize j. clear j. induction j as [|j IH]; intros [|x t] Lt [|y r] Lr; try discriminate; [reflexivity|].
        cbn [combine map fst snd]. rewrite IH by (try (injection Lt; auto); injection Lr; auto). f_equal.
        rewrite <- N.lxor_assoc, N.lxor_nilpotent, N.lxor_0_l. reflexivity.
      * cbn [repeat app]. unfold xw in *. cbn [combine map fst snd]. rewrite IHk. reflexivity.
Qed.
(** Every 320-bit number is the contents of a register. *)
Lemma unpack k : forall v, v < 2^(32 * N.of_nat k) -> exists l, length l = k /\ words_ok l /\ pack l = v.
Proof.
  induction k as [|k IH]; intros v H.
  - exists []. split; [reflexivity|]. split; [apply Forall_nil|]. change (2^(32 * N.of_nat 0)) with 1 in H. cbn [pack]. lia.
  - destruct (IH (N.shiftr v 32)) as (l & E & W & P).
    { rewrite N.shiftr_div_pow2. apply N.div_lt_upper_bound; [discriminate|]. rewrite <- N.pow_add_r. replace (32 + 32 * N.of_nat k) with (32 * N.of_nat (S k)) by lia. exact H. }
    exists (v mod 2^32 :: l). split; [cbn [length]; congruence|]. split; [constructor; [apply N.mod_lt; discriminate|exact W]|].
    cbn [pack]. rewrite P. apply N.bits_inj. intros i. rewrite N.lxor_spec. destruct (N.lt_ge_cases i 32) as [K|K].
    + rewrite N.mod_pow2_bits_low, N.shiftl_spec_low by exact K. apply xorb_false_r.
    + rewrite N.mod_pow2_bits_high, N.shiftl_spec_high', N.shiftr_spec' by exact K. rewrite xorb_false_l. f_equal. lia.
Qed.
Theorem M_zero v : v < 2^320 -> papp L M v = 0.
Proof.
  intros H. destruct (unpack 10 v H) as (l & E & W & <-). apply (M_list 10 (le_n 10) l E W).
Qed.
