(** Encryption, decryption and tag computation over memory. *)
From Coq Require Import Arith NArith ZArith List Bool Lia.
From Verif Require Import Res Words Mem MemSpec ListLemmas MemLemmas SpecWords WordsLemmas Ints XorProofs IoProofs
  AesTables AesSpec AesModel AesProofs AesCtrLink AegisSpec AegisModel AegisProofs.
Import ListNotations.
Local Open Scope N_scope.

(** ** Key stream words *)
Lemma byte_of_land a b i : byte_of (N.land a b) i = N.land (byte_of a i) (byte_of b i).
Proof.
  unfold byte_of. apply N.bits_inj. intros j. rewrite N.land_spec, !u8_testbit, !N.shiftr_spec', N.land_spec.
  destruct (N.testbit a _), (N.testbit b _), (j <? 8); reflexivity.
Qed.

Lemma W_land a b c d a' b' c' d' :
  a < 256 -> b < 256 -> c < 256 -> d < 256 -> a' < 256 -> b' < 256 -> c' < 256 -> d' < 256 ->
  N.land (W a b c d) (W a' b' c' d') = W (N.land a a') (N.land b b') (N.land c c') (N.land d d').
Proof.
  intros. rewrite <- (W_bytes (N.land (W a b c d) (W a' b' c' d'))) by (apply land_lt_l; apply W_lt; auto).
  destruct (W_byte a b c d) as (E0 & E1 & E2 & E3); auto.
  destruct (W_byte a' b' c' d') as (F0 & F1 & F2 & F3); auto.
  rewrite !byte_of_land, E0, E1, E2, E3, F0, F1, F2, F3. reflexivity.
Qed.

Lemma and_st16 a b : st16 a -> st16 b -> st16 (and_bytes a b).
Proof.
  intros [Ba La] [Bb Lb]. split.
  - unfold and_bytes, bytes_ok. rewrite Forall_map. apply Forall_forall. intros [x y] Hx. cbn [fst snd].
    apply in_combine_l in Hx. unfold bytes_ok in Ba. rewrite Forall_forall in Ba. apply (land_lt_l x y 8). apply Ba. exact Hx.
  - unfold and_bytes. rewrite map_length, combine_length, La, Lb. reflexivity.
Qed.

Lemma key_block_st16 S : st_ok S -> st16 (key_block S).
Proof.
  intros (H0 & H1 & H2 & H3 & H4). unfold key_block. apply xor_st16; [apply xor_st16|apply and_st16]; assumption.
Qed.

Lemma nth_land a b i : st16 a -> st16 b ->
  N.land (nth i (words_of a) 0) (nth i (words_of b) 0) = nth i (words_of (and_bytes a b)) 0.
Proof.
  intros [Ba La] [Bb Lb].
  destruct (list16 a La) as (a0&a1&a2&a3&a4&a5&a6&a7&a8&a9&a10&a11&a12&a13&a14&a15&->).
  destruct (list16 b Lb) as (b0&b1&b2&b3&b4&b5&b6&b7&b8&b9&b10&b11&b12&b13&b14&b15&->).
  unfold bytes_ok in Ba, Bb. repeat rewrite Forall_cons_iff in Ba. repeat rewrite Forall_cons_iff in Bb.
  destruct Ba as (?&?&?&?&?&?&?&?&?&?&?&?&?&?&?&?&_). destruct Bb as (?&?&?&?&?&?&?&?&?&?&?&?&?&?&?&?&_).
  unfold words_of, and_bytes, vstore, vword, quad. cbn [combine map fst snd Nat.mul Nat.add].
  destruct i as [|[|[|[|i]]]]; cbn [nth]; try (apply W_land; assumption). destruct i; reflexivity.
Qed.

Lemma nth_lxor a b i : st16 a -> st16 b ->
  N.lxor (nth i (words_of a) 0) (nth i (words_of b) 0) = nth i (words_of (xor_bytes a b)) 0.
Proof.
  intros Ha Hb. rewrite <- xor4_ok by assumption.
  destruct (words_of_ok a Ha) as (_ & La & _). destruct (words_of_ok b Hb) as (_ & Lb & _).
  destruct (words_of a) as [|x0 [|x1 [|x2 [|x3 [|]]]]]; try discriminate.
  destruct (words_of b) as [|y0 [|y1 [|y2 [|y3 [|]]]]]; try discriminate.
  destruct i as [|[|[|[|[|i]]]]]; reflexivity.
Qed.

Lemma ks_word_ok s i : st16 s -> (i < 4)%nat -> ks_word (words_of s) i = Ret (nth i (words_of s) 0).
Proof.
  intros H Hi. destruct (words_of_ok s H) as (_ & L & _). unfold ks_word.
  rewrite (nth_error_nth' _ 0) by lia. reflexivity.
Qed.

Lemma key_word_ok K S i x : st_ok S -> (i < 4)%nat ->
  key_word (enc K S) i x = Ret (N.lxor x (nth i (words_of (key_block S)) 0)).
Proof.
  intros (H0 & H1 & H2 & H3 & H4) Hi. unfold key_word, enc. cbn [s1 s2 s3 s4].
  rewrite !ks_word_ok by assumption. cbn [bind]. f_equal. unfold key_block.
  rewrite <- nth_lxor, <- nth_lxor, <- nth_land by (first [assumption|apply xor_st16; assumption|apply and_st16; assumption]).
  rewrite !N.lxor_assoc. reflexivity.
Qed.

Lemma word_step_ok K S out inp o i m d : st_ok S -> (i < 4)%nat -> io m (padd out o) (padd inp o) d ->
  length d = 4%nat ->
  word_step (enc K S) out inp o i m =
  Ret (write_at m (padd out o) (xor_bytes d (firstn 4 (skipn (4 * i) (key_block S))))).
Proof.
  intros H Hi Hio L. unfold word_step. rewrite (io_ld32 _ _ _ _ Hio L). cbn [bind].
  rewrite key_word_ok by assumption. cbn [bind].
  pose proof (io_xor32 _ _ _ _ (nth i (words_of (key_block S)) 0) Hio L) as X.
  rewrite (io_ld32 _ _ _ _ Hio L) in X. cbn [bind] in X. rewrite X. do 3 f_equal.
  pose proof (key_block_st16 S H) as HK. destruct (words_of_ok _ HK) as (_ & LK & _).
  rewrite <- (words_of_le _ HK) at 2. symmetry. apply le_bytes_word. apply nth_error_nth'. lia.
Qed.

Lemma byte_step_ok K S out inp o i j m x : st_ok S -> (i < 4)%nat -> (j < 4)%nat ->
  io m (padd out o) (padd inp o) [x] ->
  byte_step (enc K S) out inp o i j m =
  Ret (write_at m (padd out o) [N.lxor x (nth (4 * i + j) (key_block S) 0)]).
Proof.
  intros H Hi Hj Hio. unfold byte_step, key_byte. rewrite key_word_ok by assumption. cbn [bind].
  rewrite N.lxor_0_l. destruct (Nat.ltb_spec (8 * j) 32) as [_|Hj']; [|lia]. cbn [bind].
  rewrite (io_xor8 _ _ _ _ _ Hio). do 4 f_equal.
  pose proof (key_block_st16 S H) as HK. destruct (words_of_ok _ HK) as (_ & LK & _).
  rewrite <- (words_of_le _ HK) at 2. rewrite le_bytes_nth by lia. reflexivity.
Qed.

(** ** Pieces of a buffer *)
Lemma io_step m out inp o d1 d2 x : io m (padd out o) (padd inp o) (d1 ++ d2) -> length x = length d1 ->
  io (write_at m (padd out o) x) (padd out (o + length d1)) (padd inp (o + length d1)) d2.
Proof. intros H L. pose proof (io_rest _ _ _ _ _ _ H L) as X. rewrite !padd_padd in X. exact X. Qed.

Lemma io_join m out inp o d1 d2 x y : io m (padd out o) (padd inp o) (d1 ++ d2) ->
  length x = length d1 -> length y = length d2 ->
  write_at (write_at m (padd out o) x) (padd out (o + length d1)) y = write_at m (padd out o) (x ++ y).
Proof. intros H L1 L2. pose proof (io_write _ _ _ _ _ _ _ H L1 L2) as X. rewrite !padd_padd in X. exact X. Qed.

Lemma kb_len S i : st_ok S -> (i < 4)%nat -> length (firstn 4 (skipn (4 * i) (key_block S))) = 4%nat.
Proof. intros H Hi. destruct (key_block_st16 S H) as [_ L]. rewrite firstn_length, skipn_length. lia. Qed.

Lemma word_step_io K S out inp o i m d1 d2 : st_ok S -> (i < 4)%nat -> io m (padd out o) (padd inp o) (d1 ++ d2) ->
  length d1 = 4%nat ->
  let x := xor_bytes d1 (firstn 4 (skipn (4 * i) (key_block S))) in
  word_step (enc K S) out inp o i m = Ret (write_at m (padd out o) x) /\ length x = 4%nat /\
  io (write_at m (padd out o) x) (padd out (o + 4)) (padd inp (o + 4)) d2.
Proof.
  intros H Hi Hio L x. pose proof (io_prefix _ _ _ _ _ Hio) as H1.
  assert (Lx : length x = 4%nat) by (unfold x; rewrite xor_bytes_length_min, (kb_len S i H Hi), L; reflexivity).
  split; [|split; [exact Lx|]].
  - apply word_step_ok; assumption.
  - pose proof (io_step _ _ _ _ _ _ x Hio ltac:(rewrite Lx, L; reflexivity)) as X. rewrite L in X. exact X.
Qed.

Lemma four_parts {A} (d : list A) : length d = 16%nat ->
  exists d1 d2 d3 d4, d = d1 ++ d2 ++ d3 ++ d4 /\ length d1 = 4%nat /\ length d2 = 4%nat /\ length d3 = 4%nat /\ length d4 = 4%nat.
Proof.
  intros L. destruct (list16 d L) as (a0&a1&a2&a3&a4&a5&a6&a7&a8&a9&a10&a11&a12&a13&a14&a15&->).
  exists [a0;a1;a2;a3], [a4;a5;a6;a7], [a8;a9;a10;a11], [a12;a13;a14;a15]. repeat split.
Qed.

Lemma crypt_parts d1 d2 d3 d4 k : length d1 = 4%nat -> length d2 = 4%nat -> length d3 = 4%nat -> length d4 = 4%nat ->
  length k = 16%nat ->
  xor_bytes (d1 ++ d2 ++ d3 ++ d4) k =
  xor_bytes d1 (firstn 4 (skipn (4 * 0) k)) ++ xor_bytes d2 (firstn 4 (skipn (4 * 1) k)) ++
  xor_bytes d3 (firstn 4 (skipn (4 * 2) k)) ++ xor_bytes d4 (firstn 4 (skipn (4 * 3) k)).
Proof.
  intros L1 L2 L3 L4 L. destruct (list16 k L) as (a0&a1&a2&a3&a4&a5&a6&a7&a8&a9&a10&a11&a12&a13&a14&a15&->).
  cbn [Nat.mul Nat.add skipn firstn].
  change [a0;a1;a2;a3;a4;a5;a6;a7;a8;a9;a10;a11;a12;a13;a14;a15] with
    ([a0;a1;a2;a3] ++ [a4;a5;a6;a7] ++ [a8;a9;a10;a11] ++ [a12;a13;a14;a15]).
  rewrite !xor_bytes_app by assumption. reflexivity.
Qed.

Lemma block_ok {A} K S out inp o m d (k : mem -> res A) : st_ok S -> io m (padd out o) (padd inp o) d ->
  length d = 16%nat ->
  (let* m := word_step (enc K S) out inp o 0 m in
   let* m := word_step (enc K S) out inp (o + 4) 1 m in
   let* m := word_step (enc K S) out inp (o + 8) 2 m in
   let* m := word_step (enc K S) out inp (o + 12) 3 m in k m) =
  k (write_at m (padd out o) (crypt_block S d)).
Proof.
  intros H Hio L. destruct (four_parts d L) as (d1 & d2 & d3 & d4 & -> & L1 & L2 & L3 & L4).
  pose proof Hio as Hio0.
  destruct (word_step_io K S out inp o 0 m d1 _ H ltac:(lia) Hio L1) as (E1 & X1 & I1).
  destruct (word_step_io K S out inp (o + 4) 1 _ d2 _ H ltac:(lia) I1 L2) as (E2 & X2 & I2).
  replace (o + 4 + 4)%nat with (o + 8)%nat in I2 by lia.
  destruct (word_step_io K S out inp (o + 8) 2 _ d3 _ H ltac:(lia) I2 L3) as (E3 & X3 & I3).
  replace (o + 8 + 4)%nat with (o + 12)%nat in I3 by lia.
  pose proof I3 as I3'. rewrite <- (app_nil_r d4) in I3'.
  destruct (word_step_io K S out inp (o + 12) 3 _ d4 _ H ltac:(lia) I3' L4) as (E4 & X4 & _).
  unfold crypt_block. rewrite crypt_parts by (first [assumption|apply key_block_st16; assumption]).
  set (x1 := xor_bytes d1 _) in *. set (x2 := xor_bytes d2 _) in *. set (x3 := xor_bytes d3 _) in *. set (x4 := xor_bytes d4 _) in *.
  cbv zeta in *. rewrite E1. cbn [bind]. rewrite E2. cbn [bind]. rewrite E3. cbn [bind]. rewrite E4. cbn [bind]. f_equal.
  pose proof (io_join _ _ _ _ _ _ x3 x4 I2 ltac:(lia) ltac:(lia)) as J3. rewrite L3 in J3.
  replace (o + 8 + 4)%nat with (o + 12)%nat in J3 by lia. rewrite J3.
  pose proof (io_join _ _ _ _ _ _ x2 (x3 ++ x4) I1 ltac:(lia) ltac:(rewrite !app_length; lia)) as J2. rewrite L2 in J2.
  replace (o + 4 + 4)%nat with (o + 8)%nat in J2 by lia. rewrite J2.
  pose proof (io_join _ _ _ _ _ _ x1 (x2 ++ x3 ++ x4) Hio0 ltac:(lia) ltac:(rewrite !app_length; lia)) as J1. rewrite L1 in J1.
  exact J1.
Qed.

(** ** Full blocks *)

(** What the state is updated with: the block read ([true]) or written. *)
Definition feed (fb : bool) (S : state) (d : list N) : list N := if fb then d else crypt_block S d.

Fixpoint run (fb : bool) (S : state) (ds : list (list N)) : list N * state :=
  match ds with
  | [] => ([], S)
  | d :: ds => let '(c, T) := run fb (update S (pad16 (feed fb S d))) ds in (crypt_block S d ++ c, T)
  end.

Lemma run_encrypt S ds : run true S ds = encrypt_blocks S ds.
Proof. revert S. induction ds as [|d ds IH]; intros S; [reflexivity|]. cbn [run encrypt_blocks feed]. rewrite IH. reflexivity. Qed.
Lemma run_decrypt S ds : run false S ds = decrypt_blocks S ds.
Proof. revert S. induction ds as [|d ds IH]; intros S; [reflexivity|]. cbn [run decrypt_blocks feed]. rewrite IH. reflexivity. Qed.
Lemma run_app fb S a b : run fb S (a ++ b) =
  let '(c, T) := run fb S a in let '(r, U) := run fb T b in (c ++ r, U).
Proof.
  revert S. induction a as [|d a IH]; intros S; cbn [app run].
  - destruct (run fb S b) as [r U]. reflexivity.
  - rewrite IH. destruct (run fb _ a) as [c T]. destruct (run fb T b) as [r U]. rewrite app_assoc. reflexivity.
Qed.

Lemma crypt_length S d : st_ok S -> (length d <= 16)%nat -> length (crypt_block S d) = length d.
Proof.
  intros H L. unfold crypt_block. rewrite xor_bytes_length_min, (proj2 (key_block_st16 S H)). lia.
Qed.
Lemma crypt_ok S d : st_ok S -> bytes_ok d -> bytes_ok (crypt_block S d).
Proof. intros H B. apply xor_bytes_ok; [exact B|apply key_block_st16; exact H]. Qed.

Lemma feed_st16 fb S d : st_ok S -> bytes_ok d -> (length d <= 16)%nat -> st16 (pad16 (feed fb S d)).
Proof.
  intros H B L. destruct fb; cbn [feed].
  - apply pad16_st16; assumption.
  - apply pad16_st16; [apply crypt_ok; assumption|rewrite crypt_length by assumption; exact L].
Qed.

Lemma run_length fb S ds : st_ok S -> Forall bytes_ok ds -> Forall (fun d => length d <= 16)%nat ds ->
  length (fst (run fb S ds)) = length (concat ds) /\ bytes_ok (fst (run fb S ds)) /\ st_ok (snd (run fb S ds)).
Proof.
  intros H B. revert S H. induction B as [|d ds Bd B IH]; intros S H L.
  - cbn. repeat split; try apply H. constructor.
  - inversion L as [|? ? Ld L']; subst. cbn [run].
    pose proof (IH (update S (pad16 (feed fb S d))) (update_st_ok _ _ H (feed_st16 fb S d H Bd Ld)) L') as X.
    destruct (run fb (update S (pad16 (feed fb S d))) ds) as [c T]. cbn [fst snd] in *. destruct X as (X1 & X2 & X3).
    split; [|split; [|exact X3]].
    + cbn [concat]. rewrite !app_length, crypt_length by assumption. lia.
    + apply Forall_app. split; [apply crypt_ok; assumption|exact X2].
Qed.

Definition fed (fb : bool) (out inp msg : ptr) (o n : nat) : Prop :=
  if fb then msg = inp /\ disjoint (padd out o) n (padd inp o) n else msg = out.

Lemma fed_step fb out inp msg o n k : fed fb out inp msg o (k + n) -> fed fb out inp msg (o + k) n.
Proof.
  destruct fb; [|exact (fun x => x)]. intros [E D]. split; [exact E|].
  unfold disjoint in *. rewrite !pblk_padd, !poff_padd in *. lia.
Qed.

Lemma fed_read fb S m out inp msg o d1 d2 : st_ok S -> fed fb out inp msg o (length (d1 ++ d2)) ->
  io m (padd out o) (padd inp o) (d1 ++ d2) -> (length d1 <= 16)%nat ->
  has_bytes (write_at m (padd out o) (crypt_block S d1)) (padd msg o) (feed fb S d1).
Proof.
  intros H F Hio L. pose proof (io_prefix _ _ _ _ _ Hio) as (Hd & Wr & _). pose proof (has_bytes_bytes _ _ _ Hd) as B.
  rewrite <- (crypt_length S d1 H L) in Wr. destruct fb; cbn [fed feed] in *.
  - destruct F as [-> D]. apply has_bytes_write_other; [exact Wr| |exact Hd].
    rewrite crypt_length by assumption. rewrite app_length in D.
    unfold disjoint in *. rewrite !pblk_padd, !poff_padd in *. lia.
  - subst msg. apply has_bytes_write_same; [exact Wr|]. apply crypt_ok; assumption.
Qed.

Lemma u64_small x : x < 2^64 -> u64 x = x.
Proof. apply u64_id. Qed.

Lemma full_loop b K fb out inp msg bound rest : forall ds S m tmp o fuel,
  st_ok S -> Forall (fun d => length d = 16%nat) ds -> io m (padd out o) (padd inp o) (concat ds ++ rest) ->
  fed fb out inp msg o (length (concat ds ++ rest)) ->
  bound <= tmp + 16 * N.of_nat (length ds) < bound + 16 -> tmp + 16 * N.of_nat (length ds) < 2^64 ->
  (length ds < fuel)%nat ->
  while fuel (fun '(cs, m, tmp, o) => tmp <? bound)
    (fun '(cs, m, tmp, o) =>
       let* m := word_step cs out inp o 0 m in
       let* m := word_step cs out inp (o + 4) 1 m in
       let* m := word_step cs out inp (o + 8) 2 m in
       let* m := word_step cs out inp (o + 12) 3 m in
       let* v := ld_words m (padd msg o) 4 in
       Ret (aegis_state_update b cs v, m, add64 tmp 16, (o + 16)%nat)) (enc K S, m, tmp, o) =
  Ret (enc K (snd (run fb S ds)), write_at m (padd out o) (fst (run fb S ds)),
       tmp + 16 * N.of_nat (length ds), (o + 16 * length ds)%nat).
Proof.
  induction ds as [|d ds IH]; intros S m tmp o fuel H F Hio Hfed Hb H64 Hf; (destruct fuel as [|fuel]; [inversion Hf|]).
  - cbn [while]. cbn [length] in *. destruct (N.ltb_spec tmp bound) as [Hlt|_]; [lia|].
    cbn [run fst snd]. rewrite write_at_nil. rewrite Nat.mul_0_r, Nat.add_0_r, N.mul_0_r, N.add_0_r. reflexivity.
  - inversion F as [|? ? Ld F']; subst. cbn [concat] in Hio, Hfed. rewrite <- app_assoc in Hio, Hfed.
    cbn [length] in Hb, H64, Hf. cbn [while].
    destruct (N.ltb_spec tmp bound) as [_|Hge]; [|lia].
    rewrite block_ok with (d := d); [|exact H|exact (io_prefix _ _ _ _ _ Hio)|exact Ld].
    pose proof (fed_read fb S m out inp msg o d _ H Hfed Hio ltac:(lia)) as R.
    pose proof (io_bytes _ _ _ _ (io_prefix _ _ _ _ _ Hio)) as Bd.
    pose proof (feed_st16 fb S d H Bd ltac:(lia)) as HF.
    assert (Lf : length (feed fb S d) = 16%nat) by (destruct fb; cbn [feed]; rewrite ?crypt_length by (first [exact H|lia]); exact Ld).
    rewrite (ld_words4 _ _ _ R Lf). cbn [bind].
    rewrite <- (pad16_full _ Lf). rewrite update_ok by assumption.
    assert (Lc : length (crypt_block S d) = length d) by (apply crypt_length; [exact H|lia]).
    pose proof (io_step _ _ _ _ _ _ _ Hio Lc) as Hio'. rewrite Ld in Hio'.
    rewrite app_length, Ld in Hfed. apply fed_step in Hfed.
    replace (add64 tmp 16) with (tmp + 16) by (unfold add64; rewrite u64_small; [reflexivity|lia]).
    rewrite IH; [|apply update_st_ok; assumption|exact F'|exact Hio'|exact Hfed|lia|lia|lia].
    cbn [run]. 
    pose proof (run_length fb (update S (pad16 (feed fb S d))) ds (update_st_ok _ _ H HF)) as RL.
    assert (B' : Forall bytes_ok ds).
    { pose proof (io_bytes _ _ _ _ Hio') as B. apply Forall_app in B. destruct B as [B _].
      clear -B. induction ds as [|x ds IH]; [constructor|]. cbn [concat] in B. apply Forall_app in B. destruct B.
      constructor; [assumption|apply IH; assumption]. }
    specialize (RL B' ltac:(eapply Forall_impl; [|exact F']; cbn; intros; lia)).
    destruct (run fb (update S (pad16 (feed fb S d))) ds) as [c T]. cbn [fst snd] in *. destruct RL as (RL & _ & _).
    replace (tmp + 16 + 16 * N.of_nat (length ds)) with (tmp + 16 * N.of_nat (length (d :: ds))) by (cbn [length]; lia).
    replace (o + 16 + 16 * length ds)%nat with (o + 16 * length (d :: ds))%nat by (cbn [length]; lia).
    pose proof (io_prefix m (padd out o) (padd inp o) (d ++ concat ds) rest ltac:(rewrite <- app_assoc; exact Hio)) as HioP.
    pose proof (io_join _ _ _ _ _ _ _ c HioP Lc RL) as J. rewrite Ld in J. rewrite J. reflexivity.
Qed.

Lemma full_blocks_ok b K fb out inp msg S m ds rest :
  st_ok S -> Forall (fun d => length d = 16%nat) ds -> io m out inp (concat ds ++ rest) ->
  fed fb out inp msg 0 (length (concat ds ++ rest)) -> (length rest < 16)%nat -> (15 <= length (concat ds ++ rest))%nat ->
  N.of_nat (length (concat ds ++ rest)) < 2^64 ->
  full_blocks b out inp msg (N.of_nat (length (concat ds ++ rest))) (enc K S, m, 0, O) =
  Ret (enc K (snd (run fb S ds)), write_at m out (fst (run fb S ds)),
       N.of_nat (length (concat ds)), length (concat ds)).
Proof.
  intros H F Hio Hfed Lr L15 L64. rewrite <- (padd_0 out), <- (padd_0 inp) in Hio. unfold full_blocks.
  assert (LC : length (concat ds) = (16 * length ds)%nat).
  { clear -F. induction F as [|d ds Ld F IH]; [reflexivity|]. cbn [concat length]. rewrite app_length, Ld, IH. lia. }
  set (n := N.of_nat (length (concat ds ++ rest))) in *.
  assert (En : n = 16 * N.of_nat (length ds) + N.of_nat (length rest)) by (unfold n; rewrite app_length, LC; lia).
  assert (N15 : 15 <= n) by (unfold n; lia). clearbody n.
  assert (Eb : sub64 n 15 = n - 15).
  { unfold sub64. rewrite u64_mod. change 0x10000000000000000 with (1 * 2^64).
    replace (n + 1 * 2^64 - 15) with ((n - 15) + 1 * 2^64) by lia.
    rewrite N.mod_add by discriminate. apply N.mod_small. lia. }
  rewrite Eb. rewrite (full_loop b K fb out inp msg (n - 15) rest ds S m 0 0); [|exact H|exact F|exact Hio|exact Hfed| | |].
  - rewrite padd_0, LC. do 3 f_equal. lia.
  - lia.
  - lia.
  - assert (N.of_nat (length ds) <= (n - 15) / 16 + 1).
    { assert (N.of_nat (length ds) - 1 <= (n - 15) / 16); [|lia]. apply N.div_le_lower_bound; lia. }
    lia.
Qed.

(** ** The last, partial block *)
Lemma xor_skip d1 d2 k n i : length d1 = n -> (i + n <= length k)%nat ->
  xor_bytes (d1 ++ d2) (skipn i k) = xor_bytes d1 (firstn n (skipn i k)) ++ xor_bytes d2 (skipn (i + n) k).
Proof.
  intros L Lk. rewrite <- (firstn_skipn n (skipn i k)) at 1. rewrite skipn_skipn. apply xor_bytes_app.
  rewrite firstn_length, skipn_length. lia.
Qed.

Lemma tail_words_loop K S out inp bound r : st_ok S -> forall q d m tmp o i fuel,
  io m (padd out o) (padd inp o) (d ++ r) -> length d = (4 * q)%nat -> (i + q <= 4)%nat ->
  bound <= tmp + 4 * N.of_nat q < bound + 4 -> tmp + 4 * N.of_nat q < 2^64 -> (q < fuel)%nat ->
  while fuel (fun '(m, tmp, o, i) => tmp <? bound)
    (fun '(m, tmp, o, i) =>
       let* m := word_step (enc K S) out inp o i m in
       Ret (m, add64 tmp 4, (o + 4)%nat, Datatypes.S i)) (m, tmp, o, i) =
  Ret (write_at m (padd out o) (xor_bytes d (skipn (4 * i) (key_block S))),
       tmp + 4 * N.of_nat q, (o + 4 * q)%nat, (i + q)%nat).
Proof.
  intros H. pose proof (proj2 (key_block_st16 S H)) as LK.
  induction q as [|q IH]; intros d m tmp o i fuel Hio L Hi Hb H64 Hf; (destruct fuel as [|fuel]; [inversion Hf|]).
  - destruct d; [|cbn [length] in L; lia]. cbn [while]. destruct (N.ltb_spec tmp bound) as [Hlt|_]; [lia|].
    change (xor_bytes [] (skipn (4 * i) (key_block S))) with (@nil N). rewrite write_at_nil.
    rewrite Nat.mul_0_r, !Nat.add_0_r, N.mul_0_r, N.add_0_r. reflexivity.
  - destruct (length_split4 d q L) as (d1 & d2 & -> & L1 & L2). rewrite <- app_assoc in Hio.
    cbn [while]. destruct (N.ltb_spec tmp bound) as [_|Hge]; [|lia].
    destruct (word_step_io K S out inp o i m d1 _ H ltac:(lia) Hio L1) as (E & X & I). cbv zeta in *.
    rewrite E. cbn [bind].
    replace (add64 tmp 4) with (tmp + 4) by (unfold add64; rewrite u64_small; [reflexivity|lia]).
    rewrite (IH d2); [|exact I|exact L2|lia|lia|lia|lia].
    replace (tmp + 4 + 4 * N.of_nat q) with (tmp + 4 * N.of_nat (Datatypes.S q)) by lia.
    replace (o + 4 + 4 * q)%nat with (o + 4 * Datatypes.S q)%nat by lia.
    replace (Datatypes.S i + q)%nat with (i + Datatypes.S q)%nat by lia.
    rewrite (xor_skip d1 d2 _ 4) by lia. replace (4 * Datatypes.S i)%nat with (4 * i + 4)%nat by lia.
    pose proof (io_prefix m (padd out o) (padd inp o) (d1 ++ d2) r ltac:(rewrite <- app_assoc; exact Hio)) as HioP.
    pose proof (io_join _ _ _ _ _ _ (xor_bytes d1 (firstn 4 (skipn (4 * i) (key_block S))))
      (xor_bytes d2 (skipn (4 * i + 4) (key_block S))) HioP ltac:(lia)
      ltac:(rewrite xor_bytes_length_min, skipn_length; lia)) as J.
    rewrite L1 in J. rewrite J. reflexivity.
Qed.

Lemma tail_bytes_loop K S out inp msglen i : st_ok S -> (i < 4)%nat -> forall d m tmp o j fuel,
  io m (padd out o) (padd inp o) d -> (j + length d <= 4)%nat ->
  tmp + N.of_nat (length d) = msglen -> msglen < 2^64 -> (length d < fuel)%nat ->
  while fuel (fun '(m, tmp, o, j) => tmp <? msglen)
    (fun '(m, tmp, o, j) =>
       let* m := byte_step (enc K S) out inp o i j m in
       Ret (m, add64 tmp 1, (o + 1)%nat, Datatypes.S j)) (m, tmp, o, j) =
  Ret (write_at m (padd out o) (xor_bytes d (skipn (4 * i + j) (key_block S))),
       msglen, (o + length d)%nat, (j + length d)%nat).
Proof.
  intros H Hi. pose proof (proj2 (key_block_st16 S H)) as LK.
  induction d as [|x d IH]; intros m tmp o j fuel Hio L Hb H64 Hf; (destruct fuel as [|fuel]; [inversion Hf|]).
  - cbn [length] in *. cbn [while]. destruct (N.ltb_spec tmp msglen) as [Hlt|_]; [lia|].
    change (xor_bytes [] (skipn (4 * i + j) (key_block S))) with (@nil N). rewrite write_at_nil.
    rewrite !Nat.add_0_r. replace tmp with msglen by lia. reflexivity.
  - cbn [length] in *. change (x :: d) with ([x] ++ d) in *.
    cbn [while]. destruct (N.ltb_spec tmp msglen) as [_|Hge]; [|lia].
    rewrite (byte_step_ok K S out inp o i j m x H Hi ltac:(lia) (io_prefix _ _ _ _ _ Hio)). cbn [bind].
    replace (add64 tmp 1) with (tmp + 1) by (unfold add64; rewrite u64_small; [reflexivity|lia]).
    pose proof (io_step _ _ _ _ _ _ [N.lxor x (nth (4 * i + j) (key_block S) 0)] Hio eq_refl) as I. cbn [length] in I.
    rewrite IH; [|exact I|lia|lia|exact H64|lia].
    rewrite (xor_skip [x] d _ 1) by (first [reflexivity|lia]).
    replace (4 * i + Datatypes.S j)%nat with (4 * i + j + 1)%nat by lia.
    assert (E : firstn 1 (skipn (4 * i + j) (key_block S)) = [nth (4 * i + j) (key_block S) 0]).
    { rewrite (skipn_cons_nth _ _ 0) by lia. reflexivity. }
    rewrite E. change (xor_bytes [x] [nth (4 * i + j) (key_block S) 0]) with [N.lxor x (nth (4 * i + j) (key_block S) 0)].
    pose proof (io_join _ _ _ _ _ _ [N.lxor x (nth (4 * i + j) (key_block S) 0)]
      (xor_bytes d (skipn (4 * i + j + 1) (key_block S))) Hio eq_refl
      ltac:(rewrite xor_bytes_length_min, skipn_length; lia)) as J.
    cbn [length] in J. rewrite J.
    replace (o + 1 + length d)%nat with (o + Datatypes.S (length d))%nat by lia.
    replace (Datatypes.S j + length d)%nat with (j + Datatypes.S (length d))%nat by lia. reflexivity.
Qed.

(** Both loops over a partial block [d]. *)
Lemma tail_ok {A} K S out inp msglen m tmp o d (k : mem -> res A) : st_ok S -> io m (padd out o) (padd inp o) d ->
  (0 < length d < 16)%nat -> tmp + N.of_nat (length d) = msglen -> 15 <= msglen -> msglen < 2^64 ->
  (let* (m, tmp, o, i) := tail_words (enc K S) out inp msglen (m, tmp, o, O) in
   let* (m, tmp, o, j) := tail_bytes (enc K S) out inp msglen i (m, tmp, o, O) in k m) =
  k (write_at m (padd out o) (crypt_block S d)).
Proof.
  intros H Hio Ld Ht Hm H64. pose proof (proj2 (key_block_st16 S H)) as LK.
  assert (X : exists q d1 d2, d = d1 ++ d2 /\ length d1 = (4 * q)%nat /\ (length d2 < 4)%nat).
  { exists (length d / 4)%nat, (firstn (4 * (length d / 4)) d), (skipn (4 * (length d / 4)) d).
    pose proof (Nat.div_mod (length d) 4 ltac:(lia)). pose proof (Nat.mod_upper_bound (length d) 4 ltac:(lia)).
    split; [symmetry; apply firstn_skipn|]. rewrite firstn_length, skipn_length. lia. }
  destruct X as (q & d1 & d2 & -> & L1 & L2). rewrite app_length in *.
  assert (Eb : sub64 msglen 3 = msglen - 3).
  { unfold sub64. rewrite u64_mod. change 0x10000000000000000 with (1 * 2^64).
    replace (msglen + 1 * 2^64 - 3) with ((msglen - 3) + 1 * 2^64) by lia.
    rewrite N.mod_add by discriminate. apply N.mod_small. lia. }
  unfold tail_words. rewrite Eb.
  rewrite (tail_words_loop K S out inp (msglen - 3) d2 H q d1); [|exact Hio|exact L1|lia|lia|lia|lia].
  cbn [bind]. unfold tail_bytes. change (0 + q)%nat with q.
  assert (Lx : length (xor_bytes d1 (skipn (4 * 0) (key_block S))) = length d1)
    by (rewrite xor_bytes_length_min, skipn_length; lia).
  pose proof (io_step _ _ _ _ _ _ _ Hio Lx) as I. rewrite L1 in I.
  rewrite (tail_bytes_loop K S out inp msglen q H ltac:(lia) d2); [|exact I|lia|lia|exact H64|lia].
  cbn [bind]. f_equal. rewrite Nat.add_0_r. change (4 * 0)%nat with 0%nat in *. rewrite skipn_O in *.
  assert (Ly : length (xor_bytes d2 (skipn (4 * q) (key_block S))) = length d2)
    by (rewrite xor_bytes_length_min, skipn_length; lia).
  pose proof (io_join _ _ _ _ _ _ _ _ Hio Lx Ly) as J. rewrite L1 in J. rewrite J. f_equal.
  unfold crypt_block. symmetry.
  pose proof (xor_skip d1 d2 (key_block S) (4 * q) 0 L1 ltac:(lia)) as E. rewrite skipn_O in E. rewrite E.
  change (0 + 4 * q)%nat with (4 * q)%nat. f_equal. rewrite <- L1. apply xor_bytes_trunc.
Qed.

Lemma padded_ok m p d : has_bytes m p d -> (length d <= 16)%nat ->
  padded_block m p (N.of_nat (length d)) = Ret (words_of (pad16 d)).
Proof.
  intros H L. unfold padded_block. destruct (N.leb_spec (N.of_nat (length d)) 16) as [_|Hn]; [|lia].
  rewrite Nat2N.id, (has_bytes_ldn _ _ _ H). reflexivity.
Qed.

(** ** Whole messages *)
Lemma chunks_split (d : list N) : exists ds rest, d = concat ds ++ rest /\ Forall (fun d => length d = 16%nat) ds /\
  (length rest < 16)%nat /\ chunks 16 d = ds ++ (match rest with [] => [] | _ => [rest] end).
Proof.
  remember (length d) as n eqn:En. revert d En. induction n as [n IH] using lt_wf_ind. intros d En.
  destruct (Nat.lt_ge_cases (length d) 16) as [Hd|Hd].
  - exists [], d. cbn [concat app]. split; [reflexivity|]. split; [constructor|]. split; [exact Hd|].
    destruct d as [|x d]; [reflexivity|]. rewrite chunks_cons by (first [lia|discriminate]).
    rewrite firstn_all2, skipn_all2 by lia. reflexivity.
  - destruct (split16 d Hd) as (d1 & d2 & -> & L1). rewrite app_length in *.
    destruct (IH (length d2) ltac:(lia) d2 eq_refl) as (ds & rest & -> & F & Lr & C).
    exists (d1 :: ds), rest. cbn [concat]. rewrite app_assoc. split; [reflexivity|]. split; [constructor; assumption|].
    split; [exact Lr|]. rewrite <- app_assoc, chunks_app, C by lia. reflexivity.
Qed.

(** The message seen by the state with feedback [fb] in full blocks and [fbt]
    in the last one. *)
Definition crypt (fb fbt : bool) (S : state) (ds : list (list N)) (rest : list N) : list N * state :=
  let '(c, T) := run fb S ds in
  match rest with
  | [] => (c, T)
  | _ => (c ++ crypt_block T rest, update T (pad16 (feed fbt T rest)))
  end.

Lemma crypt_run fb S ds rest : crypt fb fb S ds rest = run fb S (ds ++ match rest with [] => [] | _ => [rest] end).
Proof.
  unfold crypt. rewrite run_app. destruct (run fb S ds) as [c T]. destruct rest as [|x r].
  - cbn [run]. rewrite app_nil_r. reflexivity.
  - cbn [run]. rewrite app_nil_r. reflexivity.
Qed.

Lemma sub64_tail a b : a + b < 2^64 -> sub64 (a + b) a = b.
Proof.
  intros H. unfold sub64. rewrite u64_mod. change 0x10000000000000000 with (1 * 2^64).
  replace (a + b + 1 * 2^64 - a) with (b + 1 * 2^64) by lia. rewrite N.mod_add by discriminate.
  apply N.mod_small. lia.
Qed.

Lemma encrypt_ok b K fb out inp S m ds rest :
  st_ok S -> Forall (fun d => length d = 16%nat) ds -> (length rest < 16)%nat ->
  io m out inp (concat ds ++ rest) -> fed fb out inp inp 0 (length (concat ds ++ rest)) ->
  (length (concat ds ++ rest) = 0 \/ 15 <= length (concat ds ++ rest))%nat ->
  N.of_nat (length (concat ds ++ rest)) < 2^64 ->
  aegis_encrypt b (enc K S) m out inp (N.of_nat (length (concat ds ++ rest))) =
  Ret (enc K (snd (crypt fb true S ds rest)), write_at m out (fst (crypt fb true S ds rest))).
Proof.
  intros H F Lr Hio Hfed HL H64. unfold aegis_encrypt.
  destruct (N.eqb_spec (N.of_nat (length (concat ds ++ rest))) 0) as [E0|E0].
  { destruct rest; [|rewrite app_length in E0; cbn [length] in E0; lia].
    destruct F as [|d ds Ld F]; [|cbn [concat] in E0; rewrite !app_length in E0; lia].
    cbn. rewrite write_at_nil. reflexivity. }
  rewrite (full_blocks_ok b K fb) by (first [assumption|lia]). cbn [bind].
  assert (BB : Forall bytes_ok ds /\ bytes_ok rest).
  { pose proof (io_bytes _ _ _ _ Hio) as B. apply Forall_app in B. destruct B as [B Br]. split; [|exact Br].
    clear -B. induction ds as [|x ds IH]; [constructor|]. cbn [concat] in B. apply Forall_app in B. destruct B.
    constructor; [assumption|apply IH; assumption]. }
  destruct BB as [Bds Br].
  destruct (run_length fb S ds H Bds ltac:(eapply Forall_impl; [|exact F]; cbn; intros; lia)) as (RL & RB & RS).
  unfold crypt. destruct (run fb S ds) as [c T]. cbn [fst snd] in *.
  rewrite app_length in *.
  destruct (N.eqb_spec (N.of_nat (length (concat ds))) (N.of_nat (length (concat ds) + length rest))) as [E|E].
  { destruct rest; [reflexivity|cbn [length] in E; lia]. }
  rewrite Nat2N.inj_add in *. rewrite sub64_tail by exact H64.
  rewrite <- (padd_0 out), <- (padd_0 inp) in Hio.
  pose proof (io_step _ _ _ _ _ _ _ Hio RL) as I. rewrite Nat.add_0_l in I. rewrite (padd_0 out) in I.
  rewrite (padded_ok _ _ rest); [|exact (proj1 I)|lia]. cbn [bind].
  rewrite (tail_ok K T out inp _ _ _ _ rest); [|exact RS|exact I|lia|reflexivity|lia|exact H64].
  rewrite update_ok by (first [exact RS|apply pad16_st16; [exact Br|lia]]).
  pose proof (io_join _ _ _ _ _ _ _ (crypt_block T rest) Hio RL (crypt_length T rest RS ltac:(lia))) as J.
  rewrite Nat.add_0_l, (padd_0 out) in J. rewrite J.
  destruct rest; [cbn [length] in E; lia|]. reflexivity.
Qed.

Lemma decrypt_ok b K out inp S m ds rest :
  st_ok S -> Forall (fun d => length d = 16%nat) ds -> (length rest < 16)%nat ->
  io m out inp (concat ds ++ rest) ->
  (length (concat ds ++ rest) = 0 \/ 15 <= length (concat ds ++ rest))%nat ->
  N.of_nat (length (concat ds ++ rest)) < 2^64 ->
  aegis_decrypt b (enc K S) m out inp (N.of_nat (length (concat ds ++ rest))) =
  Ret (enc K (snd (crypt false false S ds rest)), write_at m out (fst (crypt false false S ds rest))).
Proof.
  intros H F Lr Hio HL H64. unfold aegis_decrypt.
  destruct (N.eqb_spec (N.of_nat (length (concat ds ++ rest))) 0) as [E0|E0].
  { destruct rest; [|rewrite app_length in E0; cbn [length] in E0; lia].
    destruct F as [|d ds Ld F]; [|cbn [concat] in E0; rewrite !app_length in E0; lia].
    cbn. rewrite write_at_nil. reflexivity. }
  rewrite (full_blocks_ok b K false) by (first [assumption|reflexivity|lia]). cbn [bind].
  assert (BB : Forall bytes_ok ds /\ bytes_ok rest).
  { pose proof (io_bytes _ _ _ _ Hio) as B. apply Forall_app in B. destruct B as [B Br]. split; [|exact Br].
    clear -B. induction ds as [|x ds IH]; [constructor|]. cbn [concat] in B. apply Forall_app in B. destruct B.
    constructor; [assumption|apply IH; assumption]. }
  destruct BB as [Bds Br].
  destruct (run_length false S ds H Bds ltac:(eapply Forall_impl; [|exact F]; cbn; intros; lia)) as (RL & RB & RS).
  unfold crypt. destruct (run false S ds) as [c T]. cbn [fst snd] in *.
  rewrite app_length in *.
  destruct (N.eqb_spec (N.of_nat (length (concat ds))) (N.of_nat (length (concat ds) + length rest))) as [E|E].
  { destruct rest; [reflexivity|cbn [length] in E; lia]. }
  rewrite Nat2N.inj_add in *. rewrite sub64_tail by exact H64.
  rewrite <- (padd_0 out), <- (padd_0 inp) in Hio.
  pose proof (io_step _ _ _ _ _ _ _ Hio RL) as I. rewrite Nat.add_0_l in I. rewrite (padd_0 out) in I.
  rewrite (tail_ok K T out inp _ _ _ _ rest); [|exact RS|exact I|lia|reflexivity|lia|exact H64].
  pose proof (fed_read false T _ out inp out (length (concat ds)) rest [] RS eq_refl
    ltac:(rewrite app_nil_r; exact I) ltac:(lia)) as R. cbn [feed] in R.
  pose proof (crypt_length T rest RS ltac:(lia)) as CL.
  rewrite <- CL. rewrite (padded_ok _ _ _ R) by lia. cbn [bind].
  rewrite update_ok by (first [exact RS|apply pad16_st16; [apply crypt_ok; assumption|lia]]).
  pose proof (io_join _ _ _ _ _ _ _ (crypt_block T rest) Hio RL CL) as J.
  rewrite Nat.add_0_l, (padd_0 out) in J. rewrite J.
  destruct rest; [cbn [length] in E; lia|]. reflexivity.
Qed.
