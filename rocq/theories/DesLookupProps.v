(** Property C138: which S-box entries Legacy/DES reads. *)
From Coq Require Import Arith NArith List Bool Lia.
From Verif Require Import Res Words Mem MemSpec ListLemmas MemLemmas SpecWords WordsLemmas Concrete Finite BitSel
  DesTables DesSpec DesModel DesProofs DesRounds DesLink DesProps DesLookupSpec DesLookupModel.
Import ListNotations.
Local Open Scope N_scope.

(** ** The listing functions do what the functions of DesModel do *)
Definition at6 (T s : N) : N := N.land (shr32 T s) 0x3f.
Definition round_seen_list (cs : list N) (X : N) : list entry :=
  let T := N.lxor (nth 0 cs 0) X in
  let U := N.lxor (nth 1 cs 0) (N.lor (shl32 X 28) (shr32 X 4)) in
  [(8%nat, at6 T 0); (6%nat, at6 T 8); (4%nat, at6 T 16); (2%nat, at6 T 24);
   (7%nat, at6 U 0); (5%nat, at6 U 8); (3%nat, at6 U 16); (1%nat, at6 U 24)].
Lemma round_seen_eq cs X Y tr : des_round_seen cs X Y tr = (des_round cs X Y, tr ++ round_seen_list cs X).
Proof.
  unfold des_round_seen, sbox_sum_seen, sbox_seen. rewrite <- !app_assoc. reflexivity.
Qed.

(** ** In terms of the standard *)
Lemma six_num T s : bits_num (grp T s) = at6 T s.
Proof.
  assert (R : forall x, x < 64 -> bits_num (six x) = x).
  { intros x Hx. assert (V : forallb (fun x => bits_num (six x) =? x) (nrange 64) = true) by (vm_compute; reflexivity).
    apply N.eqb_eq. exact (forall_range _ _ V x Hx). }
  rewrite <- index_six. apply R, index_lt.
Qed.
Lemma round_entries_ok cs X R : holds X R -> round_seen_list cs X = round_entries R (sub1 cs).
Proof.
  intros (H1 & H2 & H3). unfold round_entries, sub1.
  assert (ER : R = rotate 31 (wbits X)) by (rewrite H3, rotate_back by exact H2; reflexivity).
  rewrite ER, (E_groups X H1), xor_groups. unfold round_seen_list. cbv zeta.
  generalize (N.lxor (nth 0 cs 0) X) as T. generalize (N.lxor (nth 1 cs 0) (N.lor (shl32 X 28) (shr32 X 4))) as U.
  intros U T. rewrite <- !six_num. reflexivity.
Qed.

Lemma rounds_seen_ok cs n : forall i X Y L R tr, holds X L -> holds Y R ->
  iter_n n i (fun _ '(X, Y, tr) =>
    let '(X, tr) := des_round_seen cs Y X tr in
    let '(Y, tr) := des_round_seen cs X Y tr in (X, Y, tr)) (X, Y, tr) =
  (iter_n n i (fun _ '(X, Y) => let X := des_round cs Y X in let Y := des_round cs X Y in (X, Y)) (X, Y),
   tr ++ rounds_entries (repeat (sub1 cs) (2 * n)) L R).
Proof.
  induction n as [|n IH]; intros i X Y L R tr HX HY.
  - cbn [iter_n Nat.mul repeat rounds_entries]. rewrite app_nil_r. reflexivity.
  - cbn [iter_n]. rewrite !round_seen_eq. replace (2 * S n)%nat with (S (S (2 * n))) by lia. cbn [repeat rounds_entries].
    pose proof (round_holds cs Y X L R HY HX) as H1. fold (sub1 cs) in H1.
    pose proof (round_holds cs _ Y R _ H1 HY) as H2. fold (sub1 cs) in H2.
    rewrite (IH (S i) _ _ _ _ _ H1 H2). f_equal.
    rewrite (round_entries_ok cs Y R HY), (round_entries_ok cs _ _ H1). rewrite <- !app_assoc. reflexivity.
Qed.

Lemma ecb_words_seen_ok cs X Y : X < 2^32 -> Y < 2^32 ->
  ecb_words_seen cs X Y = (ecb_words cs X Y, one_subkey_entries (sub1 cs) (block_of X Y)).
Proof.
  intros HX HY. unfold ecb_words_seen, ecb_words, one_subkey_entries. destruct (ip_bits X Y HX HY) as (A & B & C & D).
  unfold block_of. rewrite <- words_halves.
  destruct (des_ip X Y) as [X1 Y1]. cbn [fst snd] in *.
  remember (select IP (wbits X ++ wbits Y)) as x eqn:Ex.
  assert (Lx : length x = 64%nat) by (subst x; reflexivity). clear Ex HX HY.
  rewrite (rounds_seen_ok cs 8 0 X1 Y1 (firstn 32 x) (skipn 32 x) []).
  - change (2 * 8)%nat with 16%nat. cbn [app]. destruct (iter_n 8 0 _ (X1, Y1)) as [X2 Y2].
    destruct (des_fp Y2 X2) as [Y3 X3]. reflexivity.
  - split; [exact A|split; [rewrite firstn_length; lia|exact C]].
  - split; [exact B|split; [rewrite skipn_length; lia|exact D]].
Qed.

(** Encrypting a block reads, for each of the sixteen rounds, the S-box entries
    the standard prescribes for the first subkey, decrypting those for the last. *)
Theorem C138_des_block_lookups : forall m0 kp key m out inp block,
  has_bytes m0 kp key -> length key = 8%nat ->
  has_bytes m inp block -> length block = 8%nat -> writable m out 8 ->
  exists ek dk, des_key_schedule_encrypt m0 kp = Ret ek /\ des_key_schedule_decrypt m0 kp = Ret dk /\
    (exists m', des_ecb_block ek m out inp = Ret m' /\
       des_ecb_block_seen ek m out inp = Ret (m', one_subkey_entries (first_subkey key) block)) /\
    (exists m', des_ecb_block dk m out inp = Ret m' /\
       des_ecb_block_seen dk m out inp = Ret (m', one_subkey_entries (last_subkey key) block)).
Proof.
  intros m0 kp key m out inp block Hk Lk Hb Lb W.
  destruct (enc_schedule m0 kp key Hk Lk) as (ek & E1 & S1). destruct (dec_schedule m0 kp key Hk Lk) as (dk & E2 & S2).
  exists ek, dk. split; [exact E1|]. split; [exact E2|].
  destruct (block_words m inp block Hb Lb) as (X & Y & L1 & L2 & HX & HY & EB).
  assert (G : forall cs, exists m', des_ecb_block cs m out inp = Ret m' /\
    des_ecb_block_seen cs m out inp = Ret (m', one_subkey_entries (sub1 cs) block)).
  { intros cs. pose proof (des_ecb_block_ok cs m out inp block Hb Lb W) as E. eexists. split; [exact E|]. revert E.
    unfold des_ecb_block, des_ecb_block_seen. rewrite L1, L2. cbn [bind].
    rewrite ecb_words_seen_ok by assumption. rewrite EB. destruct (ecb_words cs X Y) as [a b].
    destruct (st32 m out a) as [m1| |]; [|discriminate|discriminate]. cbn [bind]. intros ->. reflexivity. }
  rewrite <- S1, <- S2. split; apply G.
Qed.
Print Assumptions C138_des_block_lookups.

(** ** What an observer of the first round learns *)
Lemma bits_num_app a b : bits_num (a ++ [b]) = 2 * bits_num a + bit b.
Proof. unfold bits_num. rewrite fold_left_app. reflexivity. Qed.
Lemma bits_num_bit l : forall n, N.testbit (bits_num l) (N.of_nat n) = nth n (rev l) false.
Proof.
  induction l as [|x l IH] using rev_ind; intros n.
  - destruct n; reflexivity.
  - rewrite bits_num_app, rev_unit. destruct n as [|n].
    + cbn [nth N.of_nat]. destruct x; cbn [bit]; [apply N.testbit_odd_0|rewrite N.add_0_r; apply N.testbit_even_0].
    + cbn [nth]. rewrite <- IH, Nat2N.inj_succ. destruct x; cbn [bit].
      * apply N.testbit_odd_succ. lia.
      * rewrite N.add_0_r. apply N.testbit_even_succ. lia.
Qed.
Lemma bits_num_inj a b : length a = length b -> bits_num a = bits_num b -> a = b.
Proof.
  intros L H. rewrite <- (rev_involutive a), <- (rev_involutive b). f_equal.
  apply nth_ext with false false; [rewrite !rev_length; exact L|]. intros n _. rewrite <- !bits_num_bit, H. reflexivity.
Qed.
Lemma xor_unit a b x y : length a = length b -> xor (a ++ [x]) (b ++ [y]) = xor a b ++ [xorb x y].
Proof. intros L. rewrite xor_app by exact L. reflexivity. Qed.
Lemma bits_num_xor a : forall b, length a = length b -> bits_num (xor a b) = N.lxor (bits_num a) (bits_num b).
Proof.
  induction a as [|x a IH] using rev_ind; intros b L.
  - destruct b; [reflexivity|discriminate L].
  - destruct b as [|y b _] using rev_ind; [rewrite app_length in L; cbn in L; lia|].
    rewrite !app_length in L. cbn [length] in L. assert (L' : length a = length b) by lia.
    rewrite xor_unit by exact L'. rewrite !bits_num_app, IH by exact L'.
    generalize (bits_num a) as u, (bits_num b) as v. intros u v. apply N.bits_inj. intros n. rewrite N.lxor_spec.
    destruct (N.eq_dec n 0) as [->|Hn].
    + assert (Z : forall w c, N.testbit (2 * w + bit c) 0 = c).
      { intros w [|]; cbn [bit]; [apply N.testbit_odd_0|rewrite N.add_0_r; apply N.testbit_even_0]. }
      rewrite !Z. reflexivity.
    + assert (Z : forall w c, N.testbit (2 * w + bit c) n = N.testbit w (N.pred n)).
      { intros w c. rewrite <- (N.succ_pred n Hn) at 1. destruct c; cbn [bit]; [apply N.testbit_odd_succ; lia|].
        rewrite N.add_0_r. apply N.testbit_even_succ. lia. }
      rewrite !Z, N.lxor_spec. reflexivity.
Qed.

Lemma xor_skipn n : forall a b, skipn n (xor a b) = xor (skipn n a) (skipn n b).
Proof.
  induction n as [|n IH]; intros [|x a] [|y b]; try reflexivity.
  - cbn [skipn]. destruct (skipn n a); reflexivity.
  - exact (IH a b).
Qed.
Lemma xor_firstn n : forall a b, firstn n (xor a b) = xor (firstn n a) (firstn n b).
Proof.
  induction n as [|n IH]; intros [|x a] [|y b]; try reflexivity. cbn [firstn]. unfold xor in *. cbn [combine map firstn fst snd].
  rewrite IH. reflexivity.
Qed.
Lemma six_nums_xor e K : length e = 48%nat -> length K = 48%nat ->
  six_nums (xor e K) = xor_bytes (six_nums e) (six_nums K).
Proof.
  intros Le LK. unfold six_nums, xor_bytes. cbn [seq map combine fst snd].
  assert (G : forall i, (i < 8)%nat -> bits_num (firstn 6 (skipn (6 * i) (xor e K))) =
    N.lxor (bits_num (firstn 6 (skipn (6 * i) e))) (bits_num (firstn 6 (skipn (6 * i) K)))).
  { intros i Hi. rewrite <- bits_num_xor by (rewrite !firstn_length, !skipn_length; lia). f_equal.
    rewrite xor_skipn, xor_firstn. reflexivity. }
  rewrite !G by lia. reflexivity.
Qed.
Lemma six_nums_inj K1 K2 : length K1 = 48%nat -> length K2 = 48%nat -> six_nums K1 = six_nums K2 -> K1 = K2.
Proof.
  intros L1 L2 H.
  assert (G : forall i, (i < 8)%nat -> firstn 6 (skipn (6 * i) K1) = firstn 6 (skipn (6 * i) K2)).
  { intros i Hi. apply bits_num_inj; [rewrite !firstn_length, !skipn_length; lia|].
    pose proof (f_equal (fun l => nth i l 0) H) as E. unfold six_nums in E. cbn [seq map] in E.
    do 8 (destruct i as [|i]; [exact E|]). lia. }
  assert (D : forall K : list bool, length K = 48%nat -> K = flat_map (fun i => firstn 6 (skipn (6 * i) K)) (seq 0 8)).
  { clear. intros K L.
    assert (S6 : forall n, skipn n K = firstn 6 (skipn n K) ++ skipn (n + 6) K).
    { intros n. rewrite <- skipn_skipn, firstn_skipn. reflexivity. }
    cbn [seq flat_map Nat.mul Nat.add].
    transitivity (skipn 0 K); [reflexivity|].
    rewrite (S6 0%nat) at 1. f_equal. cbn [Nat.add]. rewrite (S6 6%nat) at 1. f_equal. cbn [Nat.add].
    rewrite (S6 12%nat) at 1. f_equal. cbn [Nat.add]. rewrite (S6 18%nat) at 1. f_equal. cbn [Nat.add].
    rewrite (S6 24%nat) at 1. f_equal. cbn [Nat.add]. rewrite (S6 30%nat) at 1. f_equal. cbn [Nat.add].
    rewrite (S6 36%nat) at 1. f_equal. cbn [Nat.add]. rewrite (S6 42%nat) at 1. f_equal. cbn [Nat.add].
    apply skipn_all2. lia. }
  rewrite (D K1 L1), (D K2 L2). cbn [seq flat_map]. rewrite !G by lia. reflexivity.
Qed.

Lemma div_pow_xor g a b : N.lxor a b / 2^g = N.lxor (a / 2^g) (b / 2^g).
Proof. rewrite <- !N.shiftr_div_pow2. apply N.shiftr_lxor. Qed.
Lemma map_xor_bytes g a : forall b, map (fun x => x / 2^g) (xor_bytes a b) = xor_bytes (map (fun x => x / 2^g) a) (map (fun x => x / 2^g) b).
Proof.
  unfold xor_bytes. induction a as [|x a IH]; intros [|y b]; try reflexivity. cbn [combine map fst snd]. rewrite IH, div_pow_xor. reflexivity.
Qed.
Lemma lxor_inj_r a b c : N.lxor c a = N.lxor c b -> a = b.
Proof. intros H. apply (f_equal (N.lxor c)) in H. rewrite <- !N.lxor_assoc, N.lxor_nilpotent, !N.lxor_0_l in H. exact H. Qed.
Lemma xor_bytes_inj_r c : forall a b, length a = length c -> length b = length c -> xor_bytes c a = xor_bytes c b -> a = b.
Proof.
  unfold xor_bytes. induction c as [|z c IH]; intros [|x a] [|y b] La Lb; try discriminate La; try discriminate Lb; [reflexivity|].
  cbn [combine map fst snd]. intros E. injection E as E1 E2. f_equal; [exact (lxor_inj_r _ _ _ E1)|].
  apply IH; [cbn in La; lia|cbn in Lb; lia|exact E2].
Qed.
Lemma six_nums_length l : length (six_nums l) = 8%nat. Proof. reflexivity. Qed.

Lemma round_grouped g R K1 K2 : length R = 32%nat -> length K1 = 48%nat -> length K2 = 48%nat ->
  grouped g (round_entries R K1) = grouped g (round_entries R K2) <->
  map (fun x => x / 2^g) (six_nums K1) = map (fun x => x / 2^g) (six_nums K2).
Proof.
  intros LR L1 L2. unfold round_entries. assert (Le : length (select E R) = 48%nat) by reflexivity.
  rewrite !six_nums_xor by assumption. generalize (six_nums_length (select E R)). generalize (six_nums (select E R)) as e. intros e He.
  transitivity (map (fun x => x / 2^g) (xor_bytes e (six_nums K1)) = map (fun x => x / 2^g) (xor_bytes e (six_nums K2))).
  - assert (G : forall l : list N, length l = 8%nat -> exists a b c d u v w z, l = [a; b; c; d; u; v; w; z]).
    { clear. intros l L. do 8 (destruct l as [|? l]; [discriminate L|]). destruct l; [|discriminate L]. do 8 eexists. reflexivity. }
    assert (LX : forall K, length (xor_bytes e (six_nums K)) = 8%nat).
    { intros K. unfold xor_bytes. rewrite map_length, combine_length, six_nums_length, He. reflexivity. }
    destruct (G _ (LX K1)) as (a & b & c & d & u & v & w & z & ->).
    destruct (G _ (LX K2)) as (a' & b' & c' & d' & u' & v' & w' & z' & ->).
    unfold grouped. cbn [map nth Nat.sub]. split; intros H; injection H; intros; congruence.
  - rewrite !map_xor_bytes. split; [|intros ->; reflexivity]. apply xor_bytes_inj_r; rewrite !map_length, !six_nums_length, He; reflexivity.
Qed.

Lemma first_entries K block : length (halves_reversed block) = 8%nat -> exists R rest, length R = 32%nat /\
  one_subkey_entries K block = round_entries R K ++ rest /\ R = skipn 32 (select IP (bytes_bits (halves_reversed block))).
Proof.
  intros L. unfold one_subkey_entries.
  assert (Lx : length (select IP (bytes_bits (halves_reversed block))) = 64%nat) by (unfold select; rewrite map_length; reflexivity).
  revert Lx. generalize (select IP (bytes_bits (halves_reversed block))) as x. intros x Lx.
  exists (skipn 32 x). cbn [repeat rounds_entries]. eexists. split; [rewrite skipn_length; lia|]. split; reflexivity.
Qed.

(** Somebody who knows the block and sees, for its first 8 accesses, which group
    of 2^g entries is read, learns all but the low g bits of every six-bit group
    of the subkey, and no more. *)
Theorem C138_des_first_round_shows_subkey : forall g ma mb ka kb keya keyb eka ekb m1 m2 out1 out2 inp1 inp2 block r1 r2 tr1 tr2,
  has_bytes ma ka keya -> length keya = 8%nat -> has_bytes mb kb keyb -> length keyb = 8%nat ->
  des_key_schedule_encrypt ma ka = Ret eka -> des_key_schedule_encrypt mb kb = Ret ekb ->
  has_bytes m1 inp1 block -> has_bytes m2 inp2 block -> length block = 8%nat -> writable m1 out1 8 -> writable m2 out2 8 ->
  des_ecb_block_seen eka m1 out1 inp1 = Ret (r1, tr1) -> des_ecb_block_seen ekb m2 out2 inp2 = Ret (r2, tr2) ->
  firstn 8 (grouped g tr1) = firstn 8 (grouped g tr2) <->
  map (fun x => x / 2^g) (six_nums (first_subkey keya)) = map (fun x => x / 2^g) (six_nums (first_subkey keyb)).
Proof.
  intros g ma mb ka kb keya keyb eka ekb m1 m2 out1 out2 inp1 inp2 block r1 r2 tr1 tr2 Ha La Hb Lb Ea Eb H1 H2 L W1 W2 R1 R2.
  destruct (C138_des_block_lookups ma ka keya m1 out1 inp1 block Ha La H1 L W1) as (x & y & X1 & _ & (z & _ & X2) & _).
  rewrite Ea in X1. apply Ret_inj in X1. subst x. rewrite R1 in X2. apply Ret_pair in X2. destruct X2 as [_ ->]. clear y z.
  destruct (C138_des_block_lookups mb kb keyb m2 out2 inp2 block Hb Lb H2 L W2) as (x & y & X1 & _ & (z & _ & X2) & _).
  rewrite Eb in X1. apply Ret_inj in X1. subst x. rewrite R2 in X2. apply Ret_pair in X2. destruct X2 as [_ ->]. clear y z.
  pose proof (halves_reversed_length block L) as LH.
  destruct (first_entries (first_subkey keya) block LH) as (R & rest & LR & -> & ER).
  destruct (first_entries (first_subkey keyb) block LH) as (R' & rest' & LR' & -> & ER'). rewrite <- ER in ER'. subst R'.
  assert (F : forall K r, firstn 8 (grouped g (round_entries R K ++ r)) = grouped g (round_entries R K)).
  { intros K r. unfold grouped. rewrite map_app. reflexivity. }
  rewrite !F. apply round_grouped; [exact LR|reflexivity|reflexivity].
Qed.
Print Assumptions C138_des_first_round_shows_subkey.

(** The entries themselves give the subkey, and with it everything: whoever has
    another key with the same first 8 accesses on one block encrypts and decrypts
    every block alike. *)
Theorem C138_des_first_lookups_suffice : forall ma mb ka kb keya keyb eka ekb m1 m2 out1 out2 inp1 inp2 block r1 r2 tr1 tr2,
  has_bytes ma ka keya -> length keya = 8%nat -> has_bytes mb kb keyb -> length keyb = 8%nat ->
  des_key_schedule_encrypt ma ka = Ret eka -> des_key_schedule_encrypt mb kb = Ret ekb ->
  has_bytes m1 inp1 block -> has_bytes m2 inp2 block -> length block = 8%nat -> writable m1 out1 8 -> writable m2 out2 8 ->
  des_ecb_block_seen eka m1 out1 inp1 = Ret (r1, tr1) -> des_ecb_block_seen ekb m2 out2 inp2 = Ret (r2, tr2) ->
  firstn 8 tr1 = firstn 8 tr2 ->
  forall m out inp other, has_bytes m inp other -> length other = 8%nat -> writable m out 8 ->
    des_ecb_block eka m out inp = des_ecb_block ekb m out inp /\
    (let* m' := des_ecb_block eka m out inp in des_ecb_block ekb m' out out) = Ret (write_at m out other).
Proof.
  intros ma mb ka kb keya keyb eka ekb m1 m2 out1 out2 inp1 inp2 block r1 r2 tr1 tr2 Ha La Hb Lb Ea Eb H1 H2 L W1 W2 R1 R2 E
    m out inp other Ho Lo Wo.
  assert (Z : forall l, map (fun x => x / 2^0) l = l).
  { intros l. rewrite <- (map_id l) at 2. apply map_ext. intros x. apply N.div_1_r. }
  assert (SK : first_subkey keya = first_subkey keyb).
  { apply six_nums_inj; [reflexivity|reflexivity|]. rewrite <- (Z (six_nums (first_subkey keya))), <- (Z (six_nums (first_subkey keyb))).
    apply (C138_des_first_round_shows_subkey 0 ma mb ka kb keya keyb eka ekb m1 m2 out1 out2 inp1 inp2 block r1 r2 tr1 tr2); try assumption.
    unfold grouped. rewrite !firstn_map. f_equal. exact E. }
  assert (SE : sub1 eka = sub1 ekb).
  { destruct (enc_schedule ma ka keya Ha La) as (x & X1 & X2). rewrite Ea in X1. apply Ret_inj in X1. subst x.
    destruct (enc_schedule mb kb keyb Hb Lb) as (y & Y1 & Y2). rewrite Eb in Y1. apply Ret_inj in Y1. subst y. congruence. }
  assert (Q : forall m out inp other, has_bytes m inp other -> length other = 8%nat -> writable m out 8 ->
    des_ecb_block eka m out inp = des_ecb_block ekb m out inp).
  { intros m' out' inp' other' A B C. rewrite !(des_ecb_block_ok _ _ _ _ _ A B C), SE. reflexivity. }
  split; [exact (Q m out inp other Ho Lo Wo)|].
  rewrite <- (C50_des_block_involution eka m out inp other Ho Lo Wo).
  rewrite (des_ecb_block_ok eka m out inp other Ho Lo Wo). cbn [bind]. symmetry. apply (Q _ _ _ (one_subkey_des (sub1 eka) other)).
  - apply has_bytes_write_same; [rewrite one_subkey_length; exact Wo|apply one_subkey_ok].
  - apply one_subkey_length.
  - apply writable_write_at; [rewrite one_subkey_length; exact Wo|exact Wo].
Qed.
Print Assumptions C138_des_first_lookups_suffice.

(** The claim that the entries do not depend on the key is false. *)
Definition zero_key : list N := repeat 0 8.
Definition des_mem (key : list N) : mem := [holding key; holding block_ex; fresh 8].
Definition des_run (key : list N) : res (mem * list entry) :=
  let* ek := des_key_schedule_encrypt (des_mem key) (Ptr 0 0) in
  des_ecb_block_seen ek (des_mem key) (Ptr 2 0) (Ptr 1 0).
Theorem C138_des_lookups_independent_of_key_refuted : exists key1 key2,
  length key1 = 8%nat /\ length key2 = 8%nat /\
  exists m1 m2 tr1 tr2, des_run key1 = Ret (m1, tr1) /\ des_run key2 = Ret (m2, tr2) /\ grouped 4 tr1 <> grouped 4 tr2.
Proof.
  exists zero_key, key_ex. split; [reflexivity|]. split; [reflexivity|].
  assert (V : match des_run zero_key, des_run key_ex with
    | Ret (_, t1), Ret (_, t2) => negb (forallb (fun p => snd (fst p) =? snd (snd p)) (combine (grouped 4 t1) (grouped 4 t2)))
    | _, _ => false end = true) by (vm_compute; reflexivity).
  destruct (des_run zero_key) as [[m1 t1]| |]; [|discriminate V|discriminate V].
  destruct (des_run key_ex) as [[m2 t2]| |]; [|discriminate V|discriminate V].
  exists m1, m2, t1, t2. split; [reflexivity|]. split; [reflexivity|]. intros E. rewrite E in V.
  assert (S : forall l : list entry, forallb (fun p => snd (fst p) =? snd (snd p)) (combine l l) = true).
  { clear. induction l as [|x l IH]; [reflexivity|]. cbn [combine forallb fst snd]. rewrite N.eqb_refl. exact IH. }
  rewrite S in V. discriminate V.
Qed.
Print Assumptions C138_des_lookups_independent_of_key_refuted.

(** The keys of C80 differ but have the same first subkey. *)
Example C138_instance :
  has_bytes (des_mem key_ex) (Ptr 0 0) key_ex /\ has_bytes (des_mem key_flip) (Ptr 0 0) key_flip /\
  has_bytes (des_mem key_ex) (Ptr 1 0) block_ex /\ has_bytes (des_mem key_flip) (Ptr 1 0) block_ex /\
  writable (des_mem key_ex) (Ptr 2 0) 8 /\ writable (des_mem key_flip) (Ptr 2 0) 8 /\
  length key_ex = 8%nat /\ length key_flip = 8%nat /\ length block_ex = 8%nat /\ key_ex <> key_flip /\
  match des_run key_ex, des_run key_flip, des_run zero_key with
  | Ret (_, t1), Ret (_, t2), Ret (_, t3) => length t1 = 128%nat /\ t1 = t2 /\ firstn 8 t1 <> firstn 8 t3 /\
      firstn 2 t1 = [(8%nat, 0x1a); (6%nat, 0x0c)]
  | _, _, _ => False
  end.
Proof.
  split; [conc_has_bytes|]. split; [conc_has_bytes|]. split; [conc_has_bytes|]. split; [conc_has_bytes|].
  split; [conc_writable|]. split; [conc_writable|].
  split; [reflexivity|]. split; [reflexivity|]. split; [reflexivity|]. split; [discriminate|].
  vm_compute. split; [reflexivity|]. split; [reflexivity|]. split; [discriminate|reflexivity].
Qed.
