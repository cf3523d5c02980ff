(** The blinding value: export, encryption and import of the label. *)
From Coq Require Import NArith ZArith List Bool Arith Lia.
From Verif Require Import Res Words Mem MemSpec ListLemmas MemLemmas SpecWords WordsLemmas XorProofs Gmp HeModel HeSpec.
From Verif Require HcModel HcSpec HcProofs AesCfbProofs.
Import ListNotations.
Local Open Scope Z_scope.

Lemma low_bytes_str n z : 0 <= z -> low_bytes n z = le_str n (Z.to_N z).
Proof.
  revert z. induction n as [|n IH]; intros z Hz; [reflexivity|]. cbn [low_bytes le_str].
  rewrite Z2N.inj_mod, IH, Z2N.inj_div by (lia || apply Z.div_pos; lia). reflexivity.
Qed.
Lemma export_bytes z : rev (low_bytes (size_in_bytes z) (Z.abs z)) = label_bytes z (size_in_bytes z).
Proof. unfold label_bytes, be_str. rewrite low_bytes_str by apply Z.abs_nonneg. reflexivity. Qed.
Lemma label_bytes_length z n : length (label_bytes z n) = n.
Proof. unfold label_bytes, be_str. rewrite rev_length. apply le_str_length. Qed.
Lemma label_bytes_ok z n : bytes_ok (label_bytes z n).
Proof. unfold label_bytes, be_str. apply Forall_rev. apply le_str_ok. Qed.

(** The least number of bytes. *)
Lemma pow256 n : 256 ^ Z.of_nat n = 2 ^ (8 * Z.of_nat n).
Proof. rewrite Z.pow_mul_r by lia. reflexivity. Qed.
Lemma size_least z n : fits z n <-> (size_in_bytes z <= n)%nat.
Proof.
  unfold fits, size_in_bytes. rewrite pow256. destruct (Z.eqb_spec z 0) as [->|Hz].
  - split; [lia|]. intros _. change (Z.abs 0) with 0. apply Z.pow_pos_nonneg; lia.
  - assert (0 < Z.abs z) by lia. pose proof (Z.log2_nonneg (Z.abs z)) as L0.
    rewrite Z.log2_lt_pow2 by lia. pose proof (Z.div_mod (Z.log2 (Z.abs z)) 8 ltac:(lia)). pose proof (Z.mod_pos_bound (Z.log2 (Z.abs z)) 8 ltac:(lia)).
    set (l := Z.log2 (Z.abs z)) in *. set (q := l / 8) in *. lia.
Qed.

(** The array after the export, when the cells after the label are bytes. *)
Definition buffer (stack : nat -> option N) (n : nat) : mem := [map stack (seq 0 n)].
Definition byte_at (stack : nat -> option N) (i : nat) : N := match stack i with Some x => x | None => 0%N end.
Definition array (stack : nat -> option N) (label : Z) (n : nat) : list N :=
  let z := size_in_bytes label in label_bytes label z ++ map (byte_at stack) (seq z (n - z)).

Lemma skipn_seq a n k : skipn k (seq a n) = seq (a + k) (n - k).
Proof.
  revert a n. induction k as [|k IH]; intros a n; [rewrite Nat.add_0_r, Nat.sub_0_r; reflexivity|].
  destruct n as [|n]; [reflexivity|]. cbn [seq skipn Nat.sub]. rewrite IH. f_equal. lia.
Qed.

Lemma export_ok stack label n : fits label n ->
  (forall i, (size_in_bytes label <= i < n)%nat -> exists x, stack i = Some x /\ (x < 256)%N) ->
  mpz_export (buffer stack n) (Ptr 0 0) label = Ret [map Some (array stack label n)] /\
  has_bytes [map Some (array stack label n)] (Ptr 0 0) (array stack label n) /\ length (array stack label n) = n.
Proof.
  intros F H. apply size_least in F. unfold mpz_export. rewrite export_bytes. set (z := size_in_bytes label) in *.
  assert (L : length (array stack label n) = n).
  { unfold array. fold z. rewrite app_length, label_bytes_length, map_length, seq_length. lia. }
  split; [|split; [|exact L]].
  - rewrite stn_write.
    + unfold write_at, buffer. cbn [nth_error pblk poff Nat.add upd firstn app]. rewrite label_bytes_length.
      unfold array. fold z. rewrite map_app. do 3 f_equal. rewrite skipn_map, skipn_seq, map_map. cbn [Nat.add].
      apply map_ext_in. intros i Hi. apply in_seq in Hi. destruct (H i ltac:(lia)) as (x & E & _). unfold byte_at. rewrite E. reflexivity.
    + exists (map stack (seq 0 n)). split; [reflexivity|]. cbn [poff]. rewrite map_length, seq_length, label_bytes_length. lia.
  - split.
    + unfold array. fold z. apply Forall_app. split; [apply label_bytes_ok|]. apply Forall_map. apply Forall_forall. intros i Hi.
      apply in_seq in Hi. destruct (H i ltac:(lia)) as (x & E & B). unfold byte_at. rewrite E. exact B.
    + eexists. split; [reflexivity|]. cbn [poff skipn]. rewrite map_length. split; [lia|]. 
      rewrite <- (map_length (@Some N)) at 1. apply firstn_all.
Qed.

(** Longer labels overflow the array. *)
Lemma stn_oob m p l b : nth_error m (pblk p) = Some b -> (length b < poff p + length l)%nat -> (poff p <= length b)%nat -> stn m p l = UB.
Proof.
  revert m p b. induction l as [|x l IH]; intros m p b Hb L Lp; [cbn [length] in L; lia|]. cbn [stn length] in *.
  destruct (Nat.eq_dec (poff p) (length b)) as [E|E]; [rewrite (st8_oob m p b) by (assumption || lia); reflexivity|].
  unfold st8. rewrite Hb. replace (poff p <? length b)%nat with true by (symmetry; apply Nat.ltb_lt; lia). cbn [bind].
  apply (IH _ _ (upd (poff p) (Some x) b)).
  - rewrite pblk_padd. rewrite nth_error_upd_eq; [reflexivity|]. apply nth_error_lt_some in Hb. exact Hb.
  - rewrite poff_padd, upd_length. lia.
  - rewrite poff_padd, upd_length. lia.
Qed.
Lemma export_oob stack label n : ~ fits label n -> mpz_export (buffer stack n) (Ptr 0 0) label = UB.
Proof.
  intros F. rewrite size_least in F. unfold mpz_export. apply (stn_oob _ _ _ (map stack (seq 0 n))); [reflexivity| |cbn [poff]; lia].
  rewrite export_bytes, label_bytes_length, map_length, seq_length. cbn [poff]. lia.
Qed.

(** Import. *)
Lemma le32_word l : length l = 4%nat -> le32_of_bytes (nth 0 l 0%N) (nth 1 l 0%N) (nth 2 l 0%N) (nth 3 l 0%N) = le_num l.
Proof.
  intros L. do 4 (destruct l as [|? l]; [discriminate|]). destruct l; [|discriminate]. cbn [nth]. apply le32_of_bytes_num.
Qed.
Lemma word_number_snoc a w : (length a mod 4 = 0)%nat -> length w = 4%nat ->
  word_number (a ++ w) = word_number a * 2 ^ 32 + Z.of_N (le_num w).
Proof.
  intros La Lw. unfold word_number. generalize 0. revert La.
  remember (length a / 4)%nat as q eqn:Eq. revert a Eq. induction q as [|q IH]; intros a Eq La acc.
  - assert (length a = 0%nat) by (rewrite (Nat.div_mod (length a) 4), <- Eq, La by lia; reflexivity).
    destruct a; [|discriminate]. cbn [app]. rewrite <- (app_nil_r w) at 1. rewrite chunks_app by (lia || exact Lw). reflexivity.
  - assert (LA : length a = (4 * S q)%nat) by (rewrite (Nat.div_mod (length a) 4), <- Eq, La by lia; lia).
    rewrite <- (firstn_skipn 4 a), <- app_assoc.
    assert (L4 : length (firstn 4 a) = 4%nat) by (rewrite firstn_length; lia).
    assert (LS : length (skipn 4 a) = (4 * q)%nat) by (rewrite skipn_length; lia).
    rewrite (chunks_app 4 (firstn 4 a) (skipn 4 a ++ w)), (chunks_app 4 (firstn 4 a) (skipn 4 a)) by (lia || exact L4).
    cbn [fold_left]. apply IH.
    + rewrite LS, Nat.mul_comm, Nat.div_mul by lia. reflexivity.
    + rewrite LS, Nat.mul_comm. apply Nat.mod_mul. lia.
Qed.
Lemma import_ok m p l n : has_bytes m p l -> (4 * n <= length l)%nat -> mpz_import m p n = Ret (word_number (firstn (4 * n) l)).
Proof.
  intros H L. unfold mpz_import.
  apply (for_n_steps _ (fun i => word_number (firstn (4 * i) l))).
  intros i Hi. cbn [Nat.add]. 
  assert (E : ld32 m (padd p (4 * i)) = Ret (le_num (firstn 4 (skipn (4 * i) l)))).
  { pose proof (has_bytes_skipn m p l (4 * i) ltac:(lia) H) as S.
    rewrite <- (firstn_skipn 4 (skipn (4 * i) l)) in S.
    assert (LS : length (firstn 4 (skipn (4 * i) l)) = 4%nat) by (rewrite firstn_length, skipn_length; lia).
    rewrite <- (le32_word _ LS).
    destruct (firstn 4 (skipn (4 * i) l)) as [|b0 [|b1 [|b2 [|b3 [|]]]]]; try discriminate.
    cbn [nth]. exact (has_bytes_ld32 _ _ _ _ _ _ _ S). }
  rewrite E. cbn [bind]. f_equal. replace (4 * S i)%nat with (4 * i + 4)%nat by lia.
  replace (firstn (4 * i + 4) l) with (firstn (4 * i) l ++ firstn 4 (skipn (4 * i) l)).
  - symmetry. apply word_number_snoc; [rewrite firstn_length, Nat.min_l by lia; rewrite Nat.mul_comm; apply Nat.mod_mul; lia|].
    rewrite firstn_length, skipn_length. lia.
  - rewrite <- (firstn_skipn (4 * i) l) at 3. rewrite firstn_app, firstn_length, Nat.min_l by lia.
    rewrite firstn_firstn, Nat.min_r by lia. f_equal. f_equal. lia.
Qed.
Lemma word_number_bounds l : bytes_ok l -> forall n, length l = (4 * n)%nat -> 0 <= word_number l < 2 ^ (32 * Z.of_nat n).
Proof.
  intros B n. revert l B. induction n as [|n IH]; intros l B L.
  - destruct l; [|discriminate]. cbn. lia.
  - rewrite <- (firstn_skipn (4 * n) l). rewrite word_number_snoc.
    + pose proof (IH (firstn (4 * n) l) (Forall_firstn _ _ _ B) ltac:(rewrite firstn_length; lia)) as I.
      pose proof (le_num_lt (skipn (4 * n) l) (Forall_skipn _ _ _ B)) as W. rewrite skipn_length in W.
      replace (length l - 4 * n)%nat with 4%nat in W by lia. change (256 ^ N.of_nat 4)%N with 4294967296%N in W.
      change (2 ^ 32) with 4294967296. 
      replace (2 ^ (32 * Z.of_nat (S n))) with (2 ^ (32 * Z.of_nat n) * 4294967296).
      * set (x := 2 ^ (32 * Z.of_nat n)) in *. nia.
      * change 4294967296 with (2 ^ 32). rewrite <- Z.pow_add_r by lia. f_equal. lia.
    + rewrite firstn_length, Nat.min_l by lia. rewrite Nat.mul_comm. apply Nat.mod_mul. lia.
    + rewrite skipn_length. lia.
Qed.

(** The whole computation. *)
Lemma label_value_ok stack cs label k : HcProofs.state_ok cs -> Z.of_nat k < 2 ^ 32 -> fits label (k / 8) ->
  (forall i, (size_in_bytes label <= i < k / 8)%nat -> exists x, stack i = Some x /\ (x < 256)%N) ->
  let r := HcSpec.hc_words 0 (HcProofs.n_words (k / 8)) (HcProofs.view cs) in
  let cs' := HcModel.HcState (fst (snd r)) (snd (snd r)) in
  let b := blinding k (xor_bytes (array stack label (k / 8)) (le_bytes (fst r))) in
  label_value stack cs label k = Ret (cs', b) /\ HcProofs.state_ok cs' /\ 0 <= b < 2 ^ (32 * Z.of_nat (k / 32)).
Proof.
  intros S K F H r cs' b. unfold label_value. fold (buffer stack (k / 8)).
  destruct (export_ok stack label (k / 8) F H) as (E1 & HB & L). rewrite E1. cbn [bind].
  set (l := array stack label (k / 8)) in *. set (m := [map Some l]) in *.
  assert (W : writable m (Ptr 0 0) (length l)) by (exists (map Some l); split; [reflexivity|cbn [poff]; rewrite map_length; lia]).
  assert (K8 : Z.of_nat (k / 8) <= 536870912).
  { pose proof (Nat.div_mod k 8 ltac:(lia)). change (2 ^ 32) with 4294967296 in K. lia. }
  destruct (HcProofs.process_next cs m (Ptr 0 0) (Ptr 0 0) l S ltac:(rewrite L; change (4 * (2 ^ 31 - 1)) with 8589934588; lia) HB W (or_introl eq_refl)) as [E2 S'].
  rewrite L in E2, S'. fold r in E2, S'. rewrite E2. cbn [bind].
  assert (LK : (length l <= length (le_bytes (fst r)))%nat).
  { rewrite L, le_bytes_length. unfold r. rewrite HcProofs.hc_words_length. unfold HcProofs.n_words.
    destruct (k / 8)%nat as [|x]; [lia|]. pose proof (Nat.div_mod x 4 ltac:(lia)). pose proof (Nat.mod_upper_bound x 4). lia. }
  set (o := xor_bytes l (le_bytes (fst r))) in *.
  assert (LO : length o = (k / 8)%nat) by (unfold o; rewrite xor_bytes_length_min; lia).
  assert (HO : has_bytes (write_at m (Ptr 0 0) o) (Ptr 0 0) o).
  { apply has_bytes_write_same; [rewrite LO, <- L; exact W|]. unfold o. apply xor_bytes_ok; [exact (has_bytes_bytes _ _ _ HB)|].
    apply AesCfbProofs.le_bytes_ok. }
  assert (K32 : (4 * (k / 32) <= k / 8)%nat).
  { pose proof (Nat.div_mod k 32 ltac:(lia)). pose proof (Nat.div_mod k 8 ltac:(lia)). pose proof (Nat.mod_upper_bound k 8 ltac:(lia)). lia. }
  rewrite (import_ok _ _ o (k / 32) HO) by (rewrite LO; exact K32). cbn [bind]. split; [reflexivity|]. split; [exact S'|].
  unfold b, blinding. pose proof (word_number_bounds (firstn (4 * (k / 32)) o) (Forall_firstn _ _ _ (has_bytes_bytes _ _ _ HO)) (k / 32) ltac:(rewrite firstn_length, LO; lia)) as B.
  exact B.
Qed.
Lemma blinding_max k : 2 ^ (32 * Z.of_nat (k / 32)) <= 2 ^ Z.of_nat k.
Proof. apply Z.pow_le_mono_r; [lia|]. pose proof (Nat.div_mod k 32 ltac:(lia)). lia. Qed.

(** An indeterminate cell after the label: the encryption of the array does not return. *)
Definition hole (m : mem) (j : nat) : Prop := exists b, m = [b] /\ nth_error b j = Some None.
Lemma hole_ld8 m j o : hole m j -> o = j -> forall x, ld8 m (Ptr 0 o) <> Ret x.
Proof. intros (b & -> & E) -> x. unfold ld8. cbn [nth_error pblk poff]. rewrite E. discriminate. Qed.
Lemma hole_st8 m j o x m' : hole m j -> o <> j -> st8 m (Ptr 0 o) x = Ret m' -> hole m' j.
Proof.
  intros (b & -> & E) N0. unfold st8. cbn [nth_error pblk poff upd]. destruct (_ <? _)%nat; [|discriminate]. intros H. apply Ret_inj in H. subst m'.
  exists (upd o (Some x) b). split; [reflexivity|]. rewrite nth_error_upd_ne by congruence. exact E.
Qed.
Lemma bind_ret {A B} (r : res A) (f : A -> res B) y : bind r f = Ret y -> exists a, r = Ret a /\ f a = Ret y.
Proof. destruct r as [a| |]; try discriminate. intros H. exists a. auto. Qed.
Lemma hole_ld32 m j o x : hole m j -> ld32 m (Ptr 0 o) = Ret x -> (j < o \/ o + 4 <= j)%nat.
Proof.
  intros Hh H. unfold ld32, padd in H. cbn [pblk poff] in H.
  apply bind_ret in H. destruct H as (x0 & H0 & H). apply bind_ret in H. destruct H as (x1 & H1 & H).
  apply bind_ret in H. destruct H as (x2 & H2 & H). apply bind_ret in H. destruct H as (x3 & H3 & _).
  destruct (Nat.eq_dec o j) as [E|E0]; [destruct (hole_ld8 m j o Hh E x0 H0)|].
  destruct (Nat.eq_dec (o + 1) j) as [E|E1]; [destruct (hole_ld8 m j _ Hh E x1 H1)|].
  destruct (Nat.eq_dec (o + 2) j) as [E|E2]; [destruct (hole_ld8 m j _ Hh E x2 H2)|].
  destruct (Nat.eq_dec (o + 3) j) as [E|E3]; [destruct (hole_ld8 m j _ Hh E x3 H3)|]. lia.
Qed.
Lemma hole_st32 m j o x m' : hole m j -> (o + 4 <= j)%nat -> st32 m (Ptr 0 o) x = Ret m' -> hole m' j.
Proof.
  intros Hh L H. unfold st32, padd in H. cbn [pblk poff] in H.
  apply bind_ret in H. destruct H as (m0 & H0 & H). apply hole_st8 with (j := j) in H0; [|exact Hh|lia].
  apply bind_ret in H. destruct H as (m1 & H1 & H). apply hole_st8 with (j := j) in H1; [|exact H0|lia].
  apply bind_ret in H. destruct H as (m2 & H2 & H). apply hole_st8 with (j := j) in H2; [|exact H1|lia].
  apply hole_st8 with (j := j) in H; [exact H|exact H2|lia].
Qed.
Lemma while_inv' {A} (I : A -> Prop) (c : A -> bool) (b : A -> res A) :
  (forall a a', I a -> c a = true -> b a = Ret a' -> I a') -> forall fuel a a', I a -> while fuel c b a = Ret a' -> I a'.
Proof.
  intros Hb. induction fuel as [|fuel IH]; intros a a' Ia H; cbn [while] in H; [discriminate|].
  destruct (c a) eqn:E; [|apply Ret_inj in H; subst a'; assumption].
  apply bind_ret in H. destruct H as (a1 & B & H). eauto.
Qed.
Lemma process_hole cs m j n r : hole m j -> (j < n)%nat ->
  HcModel.hc128_process_packet cs m (Ptr 0 0) (Ptr 0 0) (N.of_nat n) <> Ret r.
Proof.
  intros Hh L H. unfold HcModel.hc128_process_packet in H.
  replace (N.of_nat n <? 1)%N with false in H by (symmetry; apply N.ltb_ge; lia).
  apply bind_ret in H. destruct H as ([ks cs1] & _ & H). apply bind_ret in H. destruct H as ([[[[m1 o1] i1] c1] s1] & W & H).
  pose (I := fun a : mem * ptr * ptr * nat * N => let '(m, o, i, _, s) := a in
    exists off, o = Ptr 0 off /\ i = Ptr 0 off /\ (off + N.to_nat s = n)%nat /\ (off <= j)%nat /\ hole m j).
  apply (while_inv' I) in W.
  - destruct W as (off & -> & -> & E & Lj & Hh1). apply bind_ret in H. destruct H as (m2 & F & _).
    assert (X : forall c i m0 m', hole m0 j -> (off + i <= j < off + i + c)%nat ->
       for_n c i (fun (i : nat) (m : mem) => let* w := ks_word ks (c1 + i / 4) in
           let* x := ld8 m (padd (Ptr 0 off) i) in
           st8 m (padd (Ptr 0 off) i) (N.lxor x (byte_of w (N.of_nat (i mod 4))))) m0 <> Ret m').
    { clear. intros c. induction c as [|c IH]; intros i m0 m' Hh B H; [lia|]. cbn [for_n] in H.
      apply bind_ret in H. destruct H as (m1 & Hb & H). apply bind_ret in Hb. destruct Hb as (w & _ & Hb).
      apply bind_ret in Hb. destruct Hb as (x & Hl & Hb). unfold padd in Hl, Hb. cbn [pblk poff] in Hl, Hb.
      destruct (Nat.eq_dec (off + i) j) as [E|E]; [exact (hole_ld8 _ _ _ Hh E _ Hl)|].
      apply (IH (S i) m1 m'); [|lia|exact H]. exact (hole_st8 _ _ _ _ _ Hh E Hb). }
    apply (X (N.to_nat s1) 0%nat m1 m2 Hh1); [lia|exact F].
  - intros [[[[m0 o] i] c] s] a' (off & -> & -> & E & Lj & Hh0) C Hb. apply N.ltb_lt in C.
    apply bind_ret in Hb. destruct Hb as (w & _ & Hb). apply bind_ret in Hb. destruct Hb as (m' & Hm & Hb).
    apply bind_ret in Hm. destruct Hm as (x & Hl & Hs). apply Ret_inj in Hb. subst a'. unfold I.
    pose proof (hole_ld32 _ _ _ _ Hh0 Hl) as J. exists (off + 4)%nat. unfold padd. cbn [pblk poff].
    split; [reflexivity|]. split; [reflexivity|]. split; [lia|]. split; [lia|]. assert (J4 : (off + 4 <= j)%nat) by lia. exact (hole_st32 _ _ _ _ _ Hh0 J4 Hs).
  - exists 0%nat. split; [reflexivity|]. split; [reflexivity|]. split; [lia|]. split; [lia|exact Hh].
Qed.
Lemma label_value_hole stack cs label k i : (size_in_bytes label <= i < k / 8)%nat -> stack i = None ->
  forall r, label_value stack cs label k <> Ret r.
Proof.
  intros Hi E r H. unfold label_value in H. fold (buffer stack (k / 8)) in H.
  apply bind_ret in H. destruct H as (m & Hm & H). apply bind_ret in H. destruct H as ([cs' m'] & Hp & _).
  revert Hp. apply (process_hole cs m i); [|lia]. unfold mpz_export in Hm. rewrite export_bytes in Hm.
  rewrite stn_write in Hm.
  - apply Ret_inj in Hm. subst m. unfold write_at, buffer. cbn [nth_error pblk poff Nat.add upd firstn app].
    eexists. split; [reflexivity|]. rewrite nth_error_app2 by (rewrite map_length, label_bytes_length; lia).
    rewrite map_length, label_bytes_length, skipn_map, skipn_seq. rewrite nth_error_map.
    rewrite (nth_error_nth' _ 0%nat) by (rewrite seq_length; lia). rewrite seq_nth by lia. cbn [option_map].
    replace (0 + size_in_bytes label + (i - size_in_bytes label))%nat with i by lia. rewrite E. reflexivity.
  - exists (map stack (seq 0 (k / 8))). split; [reflexivity|]. cbn [poff]. rewrite map_length, seq_length, label_bytes_length. lia.
Qed.
Lemma label_value_oob stack cs label k : ~ fits label (k / 8) -> label_value stack cs label k = UB.
Proof. intros F. unfold label_value. fold (buffer stack (k / 8)). rewrite export_oob by exact F. reflexivity. Qed.
