(** Lemmas about the Sosemanuk model. *)
From Coq Require Import NArith ZArith Arith List Lia Bool.
From Verif Require Import Res Words Mem MemSpec ListLemmas MemLemmas SpecWords WordsLemmas XorProofs ShaProofs Finite
  SerpentModel SerpentProofs SerpentInj SosemanukTables SosemanukModel.
From Verif Require SerpentSpec SosemanukSpec.
Import ListNotations.
Local Open Scope nat_scope.

(** *** Packets: the data are XORed with the words of length/16 + 1 blocks *)

Section Packets.
Context (scratch : N).
Notation block := (sosemanuk_block scratch).

Fixpoint st_at (cs : sosemanuk_state) (n : nat) : sosemanuk_state :=
  match n with O => cs | S n' => snd (block (st_at cs n')) end.
Definition blk_at (cs : sosemanuk_state) (i : nat) : list N := fst (block (st_at cs i)).
Definition ks_words (cs : sosemanuk_state) (n : nat) : list N := flat_map (blk_at cs) (seq 0 n).

Lemma block_length cs : length (fst (block cs)) = 4.
Proof.
  unfold sosemanuk_block.
  repeat match goal with |- context [let (_, _) := ?e in _] => destruct e end. reflexivity.
Qed.

Local Opaque sosemanuk_block.

Lemma st_at_S cs n : snd (block (st_at cs n)) = st_at cs (S n).
Proof. reflexivity. Qed.

Lemma ks_words_length cs n : length (ks_words cs n) = 4 * n.
Proof.
  unfold ks_words. generalize 0 at 1. induction n as [|n IH]; intros i; cbn [seq flat_map length]; [lia|].
  rewrite app_length, IH. unfold blk_at. rewrite block_length. lia.
Qed.

Lemma ks_words_nth cs n i j : i < n -> j < 4 -> nth_error (ks_words cs n) (4 * i + j) = nth_error (blk_at cs i) j.
Proof.
  intros Hi Hj. unfold ks_words.
  replace n with (i + S (n - i - 1)) by lia. rewrite seq_app, flat_map_app. cbn [Nat.add].
  assert (L : length (flat_map (blk_at cs) (seq 0 i)) = 4 * i) by apply ks_words_length.
  rewrite nth_error_app2 by lia. rewrite L. replace (4 * i + j - 4 * i) with j by lia.
  cbn [seq flat_map]. apply nth_error_app1. unfold blk_at. rewrite block_length. exact Hj.
Qed.

Lemma process_ok cs m out inp data :
  has_bytes m inp data -> writable m out (length data) -> same_or_disjoint out inp (length data) ->
  sosemanuk_process_packet scratch cs m out inp (N.of_nat (length data)) =
  Ret (st_at cs (length data / 16 + 1),
       write_at m out (xor_bytes data (le_bytes (ks_words cs (length data / 16 + 1))))).
Proof.
  intros Hin Hout Hov. set (n := length data) in *.
  set (ws := ks_words cs (n / 16 + 1)). set (ks := le_bytes ws).
  assert (Lw : length ws = 4 * (n / 16 + 1)) by apply ks_words_length.
  assert (Hks : n <= length ks) by (unfold ks; rewrite le_bytes_length, Lw; lia).
  assert (W : forall i j, i <= n / 16 -> j < 4 -> firstn 4 (skipn (16 * i + 4 * j) ks) = bytes_of_le32 (el (blk_at cs i) j)).
  { intros i j Hi Hj. replace (16 * i + 4 * j) with (4 * (4 * i + j)) by lia. apply le_bytes_word.
    unfold ws. rewrite ks_words_nth by lia. apply nth_error_nth'. unfold blk_at. rewrite block_length. exact Hj. }
  assert (X : forall i j, i <= n / 16 -> j < 4 -> 16 * i + 4 * j + 4 <= n ->
    xor_word (xst m out data ks (16 * i + 4 * j)) (padd out (16 * i + 4 * j)) (padd inp (16 * i + 4 * j)) (el (blk_at cs i) j) =
    Ret (xst m out data ks (16 * i + 4 * j + 4))).
  { intros i j Hi Hj Hle. unfold xor_word. apply xor32_step; auto. }
  unfold sosemanuk_process_packet.
  assert (L1 : forall fuel, n / 16 < fuel ->
    while fuel
      (fun '(cs, m, out, inp, size) => (16 <=? size)%N)
      (fun '(cs, m, out, inp, size) =>
         let (s_buf, cs) := sosemanuk_block scratch cs in
         let* m := xor_word m out inp (el s_buf 0) in
         let* m := xor_word m (padd out 4) (padd inp 4) (el s_buf 1) in
         let* m := xor_word m (padd out 8) (padd inp 8) (el s_buf 2) in
         let* m := xor_word m (padd out 12) (padd inp 12) (el s_buf 3) in
         Ret (cs, m, padd out 16, padd inp 16, (size - 16)%N))
      (cs, m, out, inp, N.of_nat n) =
    Ret (st_at cs (n / 16), xst m out data ks (16 * (n / 16)), padd out (16 * (n / 16)), padd inp (16 * (n / 16)), N.of_nat (n mod 16))).
  { intros fuel Hf.
    pose (st := fun i => (st_at cs i, xst m out data ks (16 * i), padd out (16 * i), padd inp (16 * i), N.of_nat (n - 16 * i))).
    replace (cs, m, out, inp, N.of_nat n) with (st 0)
      by (unfold st; cbn [Nat.mul]; rewrite xst_0, !padd_0, Nat.sub_0_r; reflexivity).
    rewrite (while_steps _ _ st (n / 16)).
    - unfold st. replace (n - 16 * (n / 16)) with (n mod 16) by lia. reflexivity.
    - intros i Hi. unfold st. split; [apply N.leb_le; lia|].
      pose proof (X i 0 ltac:(lia) ltac:(lia) ltac:(lia)) as X0. pose proof (X i 1 ltac:(lia) ltac:(lia) ltac:(lia)) as X1.
      pose proof (X i 2 ltac:(lia) ltac:(lia) ltac:(lia)) as X2. pose proof (X i 3 ltac:(lia) ltac:(lia) ltac:(lia)) as X3.
      replace (16 * i + 4 * 0) with (16 * i) in X0 by lia. replace (16 * i + 4 * 1) with (16 * i + 4) in X1 by lia.
      replace (16 * i + 4 * 2) with (16 * i + 8) in X2 by lia. replace (16 * i + 4 * 3) with (16 * i + 12) in X3 by lia.
      replace (16 * i + 4 + 4) with (16 * i + 8) in X1 by lia. replace (16 * i + 8 + 4) with (16 * i + 12) in X2 by lia.
      replace (16 * i + 12 + 4) with (16 * S i) in X3 by lia.
      change (el (blk_at cs i)) with (el (fst (block (st_at cs i)))) in X0, X1, X2, X3.
      rewrite (surjective_pairing (block (st_at cs i))). cbv beta iota.
      rewrite !padd_padd. rewrite X0. cbn [bind]. rewrite X1. cbn [bind]. rewrite X2. cbn [bind]. rewrite X3. cbn [bind].
      replace (16 * i + 16) with (16 * S i) by lia. rewrite st_at_S.
      replace (N.of_nat (n - 16 * i) - 16)%N with (N.of_nat (n - 16 * S i)) by lia. reflexivity.
    - apply N.leb_gt. lia.
    - exact Hf. }
  rewrite L1 by lia. cbn [bind]. set (q := n / 16) in *. set (r := n mod 16).
  assert (Hn : n = 16 * q + r) by (unfold q, r; lia). assert (Hr : r < 16) by (unfold r; lia). clearbody r.
  rewrite (surjective_pairing (block (st_at cs q))). cbv beta iota.
  change (fst (block (st_at cs q))) with (blk_at cs q).
  assert (KW : forall j, j < 4 -> ks_word (blk_at cs q) j = Ret (el (blk_at cs q) j)).
  { intros j Hj. unfold ks_word. rewrite (nth_error_nth' _ 0%N) by (unfold blk_at; rewrite block_length; exact Hj). reflexivity. }
  assert (L2 : forall fuel, r / 4 < fuel ->
    while fuel
      (fun '(i, m, out, inp, size) => (4 <=? size)%N)
      (fun '(i, m, out, inp, size) =>
         let* w := ks_word (blk_at cs q) i in
         let* m := xor_word m out inp w in
         Ret (S i, m, padd out 4, padd inp 4, (size - 4)%N))
      (0, xst m out data ks (16 * q), padd out (16 * q), padd inp (16 * q), N.of_nat r) =
    Ret (r / 4, xst m out data ks (16 * q + 4 * (r / 4)), padd out (16 * q + 4 * (r / 4)), padd inp (16 * q + 4 * (r / 4)), N.of_nat (r mod 4))).
  { intros fuel Hf.
    pose (st := fun i => (i, xst m out data ks (16 * q + 4 * i), padd out (16 * q + 4 * i), padd inp (16 * q + 4 * i), N.of_nat (r - 4 * i))).
    replace (0, xst m out data ks (16 * q), padd out (16 * q), padd inp (16 * q), N.of_nat r) with (st 0)
      by (unfold st; cbn [Nat.mul]; rewrite Nat.sub_0_r, !Nat.add_0_r; reflexivity).
    rewrite (while_steps _ _ st (r / 4)).
    - unfold st. do 2 f_equal. lia.
    - intros i Hi. unfold st. split; [apply N.leb_le; lia|].
      rewrite KW by lia. cbn [bind]. rewrite X by lia. cbn [bind]. rewrite !padd_padd.
      replace (16 * q + 4 * i + 4) with (16 * q + 4 * S i) by lia. do 2 f_equal. lia.
    - apply N.leb_gt. lia.
    - exact Hf. }
  rewrite L2 by lia. cbn [bind]. set (t := r / 4) in *. set (u := r mod 4).
  assert (Hu : r = 4 * t + u) by (unfold t, u; lia). assert (u < 4) by (unfold u; lia).
  assert (Ht : t < 4) by lia. clearbody t u. rewrite Nat2N.id.
  replace (xst m out data ks (16 * q + 4 * t)) with ((fun i => xst m out data ks (16 * q + 4 * t + i)) 0)
    by (cbv beta; rewrite Nat.add_0_r; reflexivity).
  rewrite (for_n_steps _ (fun i => xst m out data ks (16 * q + 4 * t + i))).
  - cbn [bind]. rewrite xst_all by (fold n; lia). rewrite st_at_S, Nat.add_1_r. reflexivity.
  - intros i Hi. cbn [Nat.add]. rewrite KW by exact Ht. cbn [bind]. rewrite !padd_padd.
    replace (16 * q + 4 * t + S i) with (16 * q + 4 * t + i + 1) by lia.
    apply xor8_step; auto; [fold n; lia|].
    replace (16 * q + 4 * t + i) with (4 * (4 * q + t) + i) by lia. unfold ks. rewrite le_bytes_nth by lia. f_equal.
    unfold el. apply nth_error_nth. unfold ws. rewrite ks_words_nth by lia. apply nth_error_nth'.
    unfold blk_at. rewrite block_length. exact Ht.
Qed.

Lemma st_at_app cs a b : st_at cs (a + b) = st_at (st_at cs a) b.
Proof.
  induction b as [|b IH]; [rewrite Nat.add_0_r; reflexivity|]. rewrite Nat.add_succ_r.
  rewrite <- !st_at_S, IH. reflexivity.
Qed.

Lemma ks_words_app cs a b : ks_words cs (a + b) = ks_words cs a ++ ks_words (st_at cs a) b.
Proof.
  unfold ks_words. rewrite seq_app, flat_map_app. f_equal. cbn [Nat.add].
  assert (G : forall b i, flat_map (blk_at cs) (seq (a + i) b) = flat_map (blk_at (st_at cs a)) (seq i b)).
  { clear. induction b as [|b IH]; intros i; cbn [seq flat_map]; [reflexivity|].
    rewrite <- Nat.add_succ_r, (IH (S i)). f_equal. unfold blk_at. rewrite st_at_app. reflexivity. }
  rewrite <- (G b 0), Nat.add_0_r. reflexivity.
Qed.

End Packets.

(** *** The field *)

Lemma word_ext a b : (a < 2^32)%N -> (b < 2^32)%N -> bytes_of_le32 a = bytes_of_le32 b -> a = b.
Proof.
  intros Ha Hb E. rewrite <- (le32_bytes_of a), <- (le32_bytes_of b) by assumption.
  unfold bytes_of_le32 in E. injection E as E0 E1 E2 E3. rewrite E0, E1, E2, E3. reflexivity.
Qed.

Lemma byte_shl8_0 w : byte_of (shl32 w 8) 0 = 0%N.
Proof.
  apply N.bits_inj. intros k. unfold byte_of. rewrite u8_testbit, N.shiftr_spec', shl32_testbit, N.bits_0.
  destruct (N.ltb_spec k 8); [|rewrite andb_false_r; reflexivity].
  destruct (N.leb_spec 8 (k + 8 * 0)); [lia|reflexivity].
Qed.

Lemma byte_shl8_S w i : (i < 3)%N -> byte_of (shl32 w 8) (i + 1) = byte_of w i.
Proof.
  intros Hi. apply N.bits_inj. intros k. unfold byte_of. rewrite !u8_testbit, !N.shiftr_spec', shl32_testbit.
  destruct (N.ltb_spec k 8); [|rewrite !andb_false_r; reflexivity].
  destruct (N.leb_spec 8 (k + 8 * (i + 1))); [|lia]. destruct (N.ltb_spec (k + 8 * (i + 1)) 32); [|lia].
  rewrite !andb_true_r. cbn [andb]. f_equal. lia.
Qed.

Lemma byte_shr8 w i : byte_of (shr32 w 8) i = byte_of w (i + 1).
Proof.
  apply N.bits_inj. intros k. unfold byte_of. unfold shr32. rewrite !u8_testbit, !N.shiftr_spec'. do 2 f_equal. lia.
Qed.

Lemma byte_high w i : (w < 2^32)%N -> (4 <= i)%N -> byte_of w i = 0%N.
Proof.
  intros Hw Hi. apply N.bits_inj. intros k. unfold byte_of. rewrite u8_testbit, N.shiftr_spec', N.bits_0.
  rewrite (proj1 (lt_pow2_testbit w 32) Hw) by lia. reflexivity.
Qed.

Definition alpha_row (c : N) : list N :=
  map (fun n => SosemanukSpec.gf_mul c (SosemanukSpec.beta_pow n)) [239; 48; 245; 23].
Definition inv_alpha_row (c : N) : list N :=
  map (fun n => SosemanukSpec.gf_mul c (SosemanukSpec.beta_pow n)) [64; 6; 39; 16].

Lemma tables_check : forallb (fun c =>
    list_N_eqb (bytes_of_le32 (el alpha (N.to_nat c))) (alpha_row c) &&
    list_N_eqb (bytes_of_le32 (el inv_alpha (N.to_nat c))) (inv_alpha_row c) &&
    (el alpha (N.to_nat c) <? 2^32)%N && (el inv_alpha (N.to_nat c) <? 2^32)%N) (nrange 256) = true.
Proof. vm_compute. reflexivity. Qed.

Lemma tables_ok c : (c < 256)%N ->
  bytes_of_le32 (el alpha (N.to_nat c)) = alpha_row c /\ bytes_of_le32 (el inv_alpha (N.to_nat c)) = inv_alpha_row c /\
  (el alpha (N.to_nat c) < 2^32)%N /\ (el inv_alpha (N.to_nat c) < 2^32)%N.
Proof.
  intros Hc. pose proof (forall_byte _ tables_check c Hc) as H. cbv beta in H.
  rewrite !andb_true_iff in H. destruct H as [[[H1 H2] H3] H4].
  split; [apply list_N_eqb_eq; exact H1|]. split; [apply list_N_eqb_eq; exact H2|].
  split; apply N.ltb_lt; assumption.
Qed.

Lemma rows_check : forallb (fun c =>
    let a := alpha_row c in let d := inv_alpha_row c in
    list_N_eqb (inv_alpha_row (nth 0 a 0%N)) [nth 1 a 0%N; nth 2 a 0%N; nth 3 a 0%N; c] &&
    list_N_eqb (alpha_row (nth 3 d 0%N)) [c; nth 0 d 0%N; nth 1 d 0%N; nth 2 d 0%N]) (nrange 256) = true.
Proof. vm_compute. reflexivity. Qed.

Local Opaque SosemanukSpec.gf_mul SosemanukSpec.beta_pow.

Lemma bytes4 a b c d : bytes_ok [a; b; c; d] -> (a < 256 /\ b < 256 /\ c < 256 /\ d < 256)%N.
Proof.
  intros R. inversion R as [|? ? R0 R']; subst. inversion R' as [|? ? R1 R'']; subst.
  inversion R'' as [|? ? R2 R''']; subst. inversion R''' as [|? ? R3 _]; subst. auto.
Qed.

Lemma alpha_row_ok c : (c < 256)%N -> bytes_ok (alpha_row c) /\ bytes_ok (inv_alpha_row c).
Proof.
  intros Hc. destruct (tables_ok c Hc) as (<- & <- & _). split; apply bytes_of_le32_ok.
Qed.

Lemma bytes_le_num4 a b c d : (a < 256)%N -> (b < 256)%N -> (c < 256)%N -> (d < 256)%N ->
  bytes_of_le32 (le_num [a; b; c; d]) = [a; b; c; d] /\ (le_num [a; b; c; d] < 2^32)%N.
Proof.
  intros. rewrite <- le32_of_bytes_num. split; [apply bytes_of_le32_of; assumption|apply le32_of_bytes_lt; assumption].
Qed.

Lemma lxor_byte a b : (a < 256)%N -> (b < 256)%N -> (N.lxor a b < 256)%N.
Proof. change 256%N with (2^8)%N. apply lxor_lt. Qed.

Lemma alpha_mul_bytes w : let c := byte_of w in
  bytes_of_le32 (SosemanukSpec.alpha_mul w) =
    xor_bytes [0; c 0; c 1; c 2]%N (alpha_row (c 3%N)) /\ (SosemanukSpec.alpha_mul w < 2^32)%N.
Proof.
  intros c. unfold SosemanukSpec.alpha_mul, SosemanukSpec.coeffs. rewrite <- bytes_of_le32_str.
  change (bytes_of_le32 w) with [c 0; c 1; c 2; c 3]%N. cbv beta iota.
  pose proof (proj1 (alpha_row_ok (c 3%N) (byte_of_lt _ _))) as R. unfold alpha_row in *.
  cbn [map combine xor_bytes fst snd] in *. unfold xor_bytes. cbn [map combine fst snd]. rewrite N.lxor_0_l.
  apply bytes4 in R. destruct R as (R0 & R1 & R2 & R3).
  apply bytes_le_num4; first [assumption | apply lxor_byte; [apply byte_of_lt|assumption]].
Qed.

Lemma alpha_div_bytes w : let c := byte_of w in
  bytes_of_le32 (SosemanukSpec.alpha_div w) =
    xor_bytes [c 1; c 2; c 3; 0]%N (inv_alpha_row (c 0%N)) /\ (SosemanukSpec.alpha_div w < 2^32)%N.
Proof.
  intros c. unfold SosemanukSpec.alpha_div, SosemanukSpec.coeffs. rewrite <- bytes_of_le32_str.
  change (bytes_of_le32 w) with [c 0; c 1; c 2; c 3]%N. cbv beta iota.
  pose proof (proj2 (alpha_row_ok (c 0%N) (byte_of_lt _ _))) as R. unfold inv_alpha_row in *.
  cbn [map combine xor_bytes fst snd] in *. unfold xor_bytes. cbn [map combine fst snd]. rewrite N.lxor_0_l.
  apply bytes4 in R. destruct R as (R0 & R1 & R2 & R3).
  apply bytes_le_num4; first [assumption | apply lxor_byte; [apply byte_of_lt|assumption]].
Qed.

Lemma alpha_ok w : (w < 2^32)%N ->
  N.lxor (shl32 w 8) (el alpha (N.to_nat (u8 (shr32 w 24)))) = SosemanukSpec.alpha_mul w.
Proof.
  intros Hw. change (u8 (shr32 w 24)) with (byte_of w 3).
  destruct (tables_ok (byte_of w 3) (byte_of_lt _ _)) as (T & _ & B & _).
  destruct (alpha_mul_bytes w) as [E L].
  apply word_ext; [apply lxor_lt; [apply shl32_lt|exact B]|exact L|].
  rewrite bytes_of_le32_lxor, T, E. f_equal. unfold bytes_of_le32.
  rewrite byte_shl8_0. change 3%N with (2 + 1)%N at 1. change 2%N with (1 + 1)%N at 1. change 1%N with (0 + 1)%N at 1.
  rewrite !byte_shl8_S by reflexivity. reflexivity.
Qed.

Lemma inv_alpha_ok w : (w < 2^32)%N ->
  N.lxor (shr32 w 8) (el inv_alpha (N.to_nat (u8 w))) = SosemanukSpec.alpha_div w.
Proof.
  intros Hw. change (u8 w) with (byte_of w 0).
  destruct (tables_ok (byte_of w 0) (byte_of_lt _ _)) as (_ & T & _ & B).
  destruct (alpha_div_bytes w) as [E L].
  apply word_ext; [apply lxor_lt; [apply shr32_lt; exact Hw|exact B]|exact L|].
  rewrite bytes_of_le32_lxor, T, E. f_equal. unfold bytes_of_le32.
  rewrite !byte_shr8. rewrite (byte_high w (3 + 1)) by (auto; lia). reflexivity.
Qed.

(** Multiplication and division by alpha are inverse. *)
Lemma lxor_cancel2 a b : N.lxor (N.lxor a b) b = a.
Proof. rewrite N.lxor_assoc, N.lxor_nilpotent, N.lxor_0_r. reflexivity. Qed.

Lemma bytes_byte a b c d w : bytes_of_le32 w = [a; b; c; d] ->
  byte_of w 0 = a /\ byte_of w 1 = b /\ byte_of w 2 = c /\ byte_of w 3 = d.
Proof. unfold bytes_of_le32. intros E. injection E as E0 E1 E2 E3. auto. Qed.

Lemma alpha_div_mul w : (w < 2^32)%N -> SosemanukSpec.alpha_div (SosemanukSpec.alpha_mul w) = w.
Proof.
  intros Hw. destruct (alpha_mul_bytes w) as [E L]. destruct (alpha_div_bytes (SosemanukSpec.alpha_mul w)) as [E' L'].
  apply word_ext; [exact L'|exact Hw|]. rewrite E'. unfold bytes_of_le32.
  pose proof (forall_byte _ rows_check (byte_of w 3) (byte_of_lt _ _)) as H. cbv beta zeta in H.
  apply andb_true_iff in H. destruct H as [H _]. apply list_N_eqb_eq in H.
  assert (RL : alpha_row (byte_of w 3) = [nth 0 (alpha_row (byte_of w 3)) 0%N; nth 1 (alpha_row (byte_of w 3)) 0%N;
     nth 2 (alpha_row (byte_of w 3)) 0%N; nth 3 (alpha_row (byte_of w 3)) 0%N]) by reflexivity.
  rewrite RL in E. revert H E. generalize (nth 0 (alpha_row (byte_of w 3)) 0%N) (nth 1 (alpha_row (byte_of w 3)) 0%N)
     (nth 2 (alpha_row (byte_of w 3)) 0%N) (nth 3 (alpha_row (byte_of w 3)) 0%N).
  intros a0 a1 a2 a3 H E. unfold xor_bytes in E. cbn [map combine fst snd] in E. rewrite N.lxor_0_l in E.
  apply bytes_byte in E. destruct E as (-> & -> & -> & ->).
  rewrite H. unfold xor_bytes. cbn [map combine fst snd]. rewrite !lxor_cancel2, N.lxor_0_l. reflexivity.
Qed.

Lemma alpha_mul_div w : (w < 2^32)%N -> SosemanukSpec.alpha_mul (SosemanukSpec.alpha_div w) = w.
Proof.
  intros Hw. destruct (alpha_div_bytes w) as [E L]. destruct (alpha_mul_bytes (SosemanukSpec.alpha_div w)) as [E' L'].
  apply word_ext; [exact L'|exact Hw|]. rewrite E'. unfold bytes_of_le32.
  pose proof (forall_byte _ rows_check (byte_of w 0) (byte_of_lt _ _)) as H. cbv beta zeta in H.
  apply andb_true_iff in H. destruct H as [_ H]. apply list_N_eqb_eq in H.
  assert (RL : inv_alpha_row (byte_of w 0) = [nth 0 (inv_alpha_row (byte_of w 0)) 0%N; nth 1 (inv_alpha_row (byte_of w 0)) 0%N;
     nth 2 (inv_alpha_row (byte_of w 0)) 0%N; nth 3 (inv_alpha_row (byte_of w 0)) 0%N]) by reflexivity.
  rewrite RL in E. revert H E. generalize (nth 0 (inv_alpha_row (byte_of w 0)) 0%N) (nth 1 (inv_alpha_row (byte_of w 0)) 0%N)
     (nth 2 (inv_alpha_row (byte_of w 0)) 0%N) (nth 3 (inv_alpha_row (byte_of w 0)) 0%N).
  intros a0 a1 a2 a3 H E. unfold xor_bytes in E. cbn [map combine fst snd] in E. rewrite N.lxor_0_l in E.
  apply bytes_byte in E. destruct E as (-> & -> & -> & ->).
  rewrite H. unfold xor_bytes. cbn [map combine fst snd]. rewrite !lxor_cancel2, N.lxor_0_l. reflexivity.
Qed.

(** *** Steps *)

Definition view (cs : sosemanuk_state) : SosemanukSpec.state := SosemanukSpec.St (s cs) (R1 cs) (R2 cs).
Definition unview (rk : list N) (q : SosemanukSpec.state) : sosemanuk_state :=
  Sosemanuk rk (SosemanukSpec.lfsr q) (SosemanukSpec.fsm1 q) (SosemanukSpec.fsm2 q).
Definition st_ok (q : SosemanukSpec.state) : Prop :=
  length (SosemanukSpec.lfsr q) = 10 /\ words_ok (SosemanukSpec.lfsr q) /\
  (SosemanukSpec.fsm1 q < 2^32)%N /\ (SosemanukSpec.fsm2 q < 2^32)%N.

Lemma mux_ok r a b : mux r a b = SosemanukSpec.mux r a b.
Proof.
  unfold mux, SosemanukSpec.mux. rewrite <- N.bit0_odd. change 0x1%N with (N.ones 1).
  rewrite N.land_ones. change (2^1)%N with 2%N. pose proof (N.bit0_mod r) as B.
  destruct (N.testbit r 0); rewrite <- B; reflexivity.
Qed.

Lemma Trans_ok r : Trans r = SosemanukSpec.trans r.
Proof.
  unfold Trans, SosemanukSpec.trans. cbv zeta.
  assert (E : mul32 M r = ((0x54655307 * r) mod 2^32)%N) by (unfold mul32; rewrite u32_mod; reflexivity).
  rewrite <- E. unfold ROTL_32. apply rotl32_spec; [apply mul32_lt|reflexivity].
Qed.

Lemma trans_lt r : (SosemanukSpec.trans r < 2^32)%N.
Proof. rewrite <- Trans_ok. apply rotl32_lt, mul32_lt. Qed.

Lemma feedback_lt l : length l = 10 -> words_ok l -> (SosemanukSpec.feedback l < 2^32)%N.
Proof.
  intros L W. unfold SosemanukSpec.feedback. apply lxor_lt; [apply words_ok_nth; exact W|].
  apply lxor_lt; [apply (alpha_div_bytes (nth 3 l 0%N))|apply (alpha_mul_bytes (nth 0 l 0%N))].
Qed.

Lemma lfsr_next_ok l : length l = 10 -> words_ok l ->
  length (SosemanukSpec.lfsr_next l) = 10 /\ words_ok (SosemanukSpec.lfsr_next l).
Proof.
  intros L W. unfold SosemanukSpec.lfsr_next. pose proof (feedback_lt l L W) as F.
  revert F. generalize (SosemanukSpec.feedback l). intros f F.
  destruct l as [|x l]; [discriminate|]. cbn [tl]. cbn [length] in L. split.
  - rewrite app_length. cbn [length]. lia.
  - apply Forall_app. split; [inversion W; assumption|]. constructor; [exact F|constructor].
Qed.

Lemma step_ok which q : st_ok q -> st_ok (snd (SosemanukSpec.step which q)).
Proof.
  intros (L & W & H1 & H2). unfold SosemanukSpec.step. cbv zeta. cbn [snd].
  destruct (lfsr_next_ok _ L W) as [L' W'].
  split; [exact L'|]. split; [exact W'|]. split; [apply add_w32_lt|apply trans_lt].
Qed.

Lemma lfsr_ok cs : length (s cs) = 10 -> words_ok (s cs) ->
  sosemanuk_lfsr_update cs =
  (nth 0 (s cs) 0%N, Sosemanuk (serpent_cs cs) (SosemanukSpec.lfsr_next (s cs)) (R1 cs) (R2 cs)).
Proof.
  intros L W. unfold sosemanuk_lfsr_update. cbv zeta. unfold el at 1. f_equal. f_equal.
  rewrite alpha_ok, inv_alpha_ok by (apply words_ok_nth; exact W).
  rewrite N.lxor_comm. unfold SosemanukSpec.lfsr_next, SosemanukSpec.feedback, el.
  destruct (s cs) as [|a0 [|a1 [|a2 [|a3 [|a4 [|a5 [|a6 [|a7 [|a8 [|a9 [|]]]]]]]]]]]; try discriminate L.
  cbn [tl app nth]. reflexivity.
Qed.

Lemma model_step cs : st_ok (view cs) ->
  (let (f, cs1) := sosemanuk_fsm_update cs in let (x, cs2) := sosemanuk_lfsr_update cs1 in (f, x, cs2)) =
  (let '(f, x, q) := SosemanukSpec.step false (view cs) in (f, x, unview (serpent_cs cs) q)).
Proof.
  intros (L & W & H1 & H2). unfold sosemanuk_fsm_update. cbv zeta. rewrite lfsr_ok by assumption.
  cbn [s R1 R2 serpent_cs]. unfold SosemanukSpec.step, view, unview. cbv zeta.
  cbn [SosemanukSpec.lfsr SosemanukSpec.fsm1 SosemanukSpec.fsm2].
  rewrite !mux_ok, !Trans_ok, !add32_spec. reflexivity.
Qed.

Lemma view_unview rk q : view (unview rk q) = q.
Proof. destruct q. reflexivity. Qed.

Lemma unview_view cs : unview (serpent_cs cs) (view cs) = cs.
Proof. destruct cs. reflexivity. Qed.

Lemma step_out which q : (fst (fst (SosemanukSpec.step which q)) < 2^32)%N.
Proof. unfold SosemanukSpec.step. cbv zeta. cbn [fst]. apply lxor_lt; [apply add_w32_lt|apply trans_lt]. Qed.

Lemma model_step' rk q : st_ok q -> exists f x q1, SosemanukSpec.step false q = (f, x, q1) /\ st_ok q1 /\ (f < 2^32)%N /\
  exists cs1, sosemanuk_fsm_update (unview rk q) = (f, cs1) /\ sosemanuk_lfsr_update cs1 = (x, unview rk q1).
Proof.
  intros H. pose proof (model_step (unview rk q)) as E. rewrite view_unview in E. specialize (E H).
  pose proof (step_ok false q H) as H1. pose proof (step_out false q) as H2.
  destruct (SosemanukSpec.step false q) as [[f x] q1]. cbn [fst snd] in *.
  exists f, x, q1. split; [reflexivity|]. split; [exact H1|]. split; [exact H2|].
  destruct (sosemanuk_fsm_update (unview rk q)) as [f' cs1]. destruct (sosemanuk_lfsr_update cs1) as [x' cs2] eqn:E1.
  change (serpent_cs (unview rk q)) with rk in E.
  assert (Ef := f_equal (fun t => fst (fst t)) E). assert (Ex := f_equal (fun t => snd (fst t)) E).
  assert (Ec := f_equal snd E). cbn [fst snd] in Ef, Ex, Ec. subst.
  exists cs1. split; [reflexivity|exact E1].
Qed.

Lemma block_ok scratch rk q : st_ok q ->
  sosemanuk_block scratch (unview rk q) =
    (fst (SosemanukSpec.quad false q), unview rk (snd (SosemanukSpec.quad false q))) /\
  st_ok (snd (SosemanukSpec.quad false q)).
Proof.
  intros H. unfold sosemanuk_block, SosemanukSpec.quad.
  destruct (model_step' rk q H) as (f0 & x0 & q0 & -> & H0 & F0 & c0 & -> & ->).
  destruct (model_step' rk q0 H0) as (f1 & x1 & q1 & -> & H1 & F1 & c1 & -> & ->).
  destruct (model_step' rk q1 H1) as (f2 & x2 & q2 & -> & H2 & F2 & c2 & -> & ->).
  destruct (model_step' rk q2 H2) as (f3 & x3 & q3 & -> & H3 & F3 & c3 & -> & ->).
  assert (W : w4 f0 f1 f2 f3) by (unfold w4; auto).
  unfold serpent1. pose proof (S2_ok f0 f1 f2 f3 scratch W) as E.
  destruct (S2 f0 f1 f2 f3 scratch) as [[[[a b] c] d] e]. cbn [fst snd]. split; [|exact H3]. f_equal.
  rewrite <- E. unfold SerpentSpec.xor_words. cbn [combine map fst snd].
  rewrite (N.lxor_comm x0), (N.lxor_comm x1), (N.lxor_comm x2), (N.lxor_comm x3). reflexivity.
Qed.

Local Opaque sosemanuk_block SosemanukSpec.quad.

Lemma quads_S which n q : SosemanukSpec.quads which (S n) q =
  (fst (SosemanukSpec.quad which q) ++ fst (SosemanukSpec.quads which n (snd (SosemanukSpec.quad which q))),
   snd (SosemanukSpec.quads which n (snd (SosemanukSpec.quad which q)))).
Proof.
  cbn [SosemanukSpec.quads]. destruct (SosemanukSpec.quad which q) as [a q1]. cbn [fst snd].
  destruct (SosemanukSpec.quads which n q1). reflexivity.
Qed.

Lemma st_at_1 scratch cs n : st_at scratch cs (S n) = st_at scratch (snd (sosemanuk_block scratch cs)) n.
Proof. exact (st_at_app scratch cs 1 n). Qed.

Lemma ks_words_1 scratch cs n : ks_words scratch cs (S n) =
  fst (sosemanuk_block scratch cs) ++ ks_words scratch (snd (sosemanuk_block scratch cs)) n.
Proof.
  change (S n) with (1 + n). rewrite (ks_words_app scratch cs 1 n).
  assert (E1 : st_at scratch cs 1 = snd (sosemanuk_block scratch cs)) by exact (eq_sym (st_at_S scratch cs 0)).
  assert (E2 : ks_words scratch cs 1 = fst (sosemanuk_block scratch cs)).
  { unfold ks_words. cbn [seq flat_map]. rewrite app_nil_r. unfold blk_at. cbn [st_at]. reflexivity. }
  rewrite E1, E2. reflexivity.
Qed.

Lemma ks_words_ok scratch rk n : forall q, st_ok q ->
  ks_words scratch (unview rk q) n = fst (SosemanukSpec.quads false n q) /\
  st_at scratch (unview rk q) n = unview rk (snd (SosemanukSpec.quads false n q)) /\
  st_ok (snd (SosemanukSpec.quads false n q)).
Proof.
  induction n as [|n IH]; intros q H.
  - split; [reflexivity|]. split; [reflexivity|exact H].
  - destruct (block_ok scratch rk q H) as [E H1]. destruct (IH _ H1) as (I1 & I2 & I3).
    rewrite st_at_1, ks_words_1, quads_S, E. cbn [fst snd]. rewrite I1, I2. auto.
Qed.

(** *** Loading *)

Lemma serpent24_words ks x : keys_ok ks -> length ks = 25 -> is4 x ->
  exists a0 a1 a2 a3 b0 b1 b2 b3 c0 c1 c2 c3,
  SerpentSpec.serpent24 ks x = [[a0; a1; a2; a3]; [b0; b1; b2; b3]; [c0; c1; c2; c3]] /\
  words_ok [a0; a1; a2; a3; b0; b1; b2; b3; c0; c1; c2; c3].
Proof.
  intros Hk L Hx. unfold SerpentSpec.serpent24.
  assert (A := after_is4 ks 12 x Hk ltac:(lia) Hx). assert (B := after_is4 ks 18 x Hk ltac:(lia) Hx).
  assert (C := after_is4 ks 24 x Hk ltac:(lia) Hx).
  assert (D := xor_words_is4 _ _ C (key_is4 ks 24 Hk ltac:(lia))).
  revert A B D. generalize (SerpentSpec.after ks 12 x) (SerpentSpec.after ks 18 x)
    (SerpentSpec.xor_words (SerpentSpec.after ks 24 x) (nth 24 ks [])).
  intros a b c A B D.
  destruct (is4_inv a A) as (a0 & a1 & a2 & a3 & -> & Ha0 & Ha1 & Ha2 & Ha3).
  destruct (is4_inv b B) as (b0 & b1 & b2 & b3 & -> & Hb0 & Hb1 & Hb2 & Hb3).
  destruct (is4_inv c D) as (c0 & c1 & c2 & c3 & -> & Hc0 & Hc1 & Hc2 & Hc3).
  exists a0, a1, a2, a3, b0, b1, b2, b3, c0, c1, c2, c3. split; [reflexivity|].
  repeat (constructor; [assumption|]). constructor.
Qed.

Lemma block_words_is4 iv : bytes_ok iv -> length iv = 16 -> is4 (SerpentSpec.block_words iv).
Proof.
  intros H L. destruct (words_le_ok iv 4 H L) as [W Lw]. split; [exact Lw|exact W].
Qed.

Lemma init_ok ks iv : keys_ok ks -> length ks = 25 -> bytes_ok iv -> length iv = 16 -> st_ok (SosemanukSpec.init ks iv).
Proof.
  intros Hk L Hiv Liv. unfold SosemanukSpec.init.
  destruct (serpent24_words ks _ Hk L (block_words_is4 iv Hiv Liv)) as
    (a0 & a1 & a2 & a3 & b0 & b1 & b2 & b3 & c0 & c1 & c2 & c3 & -> & W).
  rewrite <- (rev_involutive [a0; a1; a2; a3; b0; b1; b2; b3; c0; c1; c2; c3]) in W. apply Forall_rev in W. rewrite rev_involutive in W.
  repeat match goal with W : Forall _ (rev _) |- _ => cbn [rev app] in W end.
  repeat match goal with W : Forall _ (_ :: _) |- _ => inversion W; clear W; subst end.
  split; [reflexivity|]. cbn [SosemanukSpec.lfsr SosemanukSpec.fsm1 SosemanukSpec.fsm2].
  split; [repeat (constructor; [assumption|]); constructor|]. split; assumption.
Qed.

Lemma words_of_le_bytes ws : words_ok ws -> map le_num (chunks 4 (le_bytes ws)) = ws.
Proof.
  induction 1 as [|w ws Hw H IH]; [reflexivity|].
  unfold le_bytes. cbn [flat_map]. rewrite chunks_app; [|lia|reflexivity]. cbn [map]. fold (le_bytes ws). rewrite IH. f_equal.
  rewrite bytes_of_le32_str, le_num_str. apply N.mod_small. exact Hw.
Qed.

Lemma load_iv_ok scratch cs ks m p iv : keys_ok ks -> length ks = 25 -> serpent_cs cs = concat ks ->
  has_bytes m p iv -> length iv = 16 ->
  sosemanuk_load_iv scratch cs m p = Ret (unview (concat ks) (SosemanukSpec.init ks iv)).
Proof.
  intros Hk Lk Es Hiv Liv. unfold sosemanuk_load_iv, alloc.
  assert (Biv := has_bytes_bytes _ _ _ Hiv).
  assert (Wl : writable (m ++ [repeat None 48]) (Ptr (length m) 0) 48) by (apply writable_last; rewrite repeat_length; lia).
  rewrite Es, (serpent_block_ok ks scratch _ _ _ iv); auto; [|apply has_bytes_alloc; exact Hiv].
  unfold SosemanukSpec.init.
  destruct (serpent24_words ks _ Hk Lk (block_words_is4 iv Biv Liv)) as
    (a0 & a1 & a2 & a3 & b0 & b1 & b2 & b3 & c0 & c1 & c2 & c3 & -> & W).
  cbn [concat app bind].
  set (ws := [a0; a1; a2; a3; b0; b1; b2; b3; c0; c1; c2; c3]) in *.
  rewrite (has_bytes_words _ _ (le_bytes ws) 12).
  - rewrite words_of_le_bytes by exact W. reflexivity.
  - apply has_bytes_write_same; [rewrite le_bytes_length; exact Wl|].
    unfold le_bytes. apply Forall_flat_map. apply Forall_forall. intros w _. apply bytes_of_le32_ok.
  - rewrite le_bytes_length. reflexivity.
Qed.

(** *** Packets from a loaded state *)

Definition gen_ks (q : SosemanukSpec.state) (n : nat) : list N :=
  flat_map (le_str 4) (fst (SosemanukSpec.quads false (n / 16 + 1) q)).

Lemma quads_length which n : forall q, length (fst (SosemanukSpec.quads which n q)) = 4 * n.
Proof.
  induction n as [|n IH]; intros q; [reflexivity|]. rewrite quads_S. cbn [fst]. rewrite app_length, IH.
  assert (L : length (fst (SosemanukSpec.quad which q)) = 4).
  { Local Transparent SosemanukSpec.quad. unfold SosemanukSpec.quad.
    destruct (SosemanukSpec.step which q) as [[? ?] q0]. destruct (SosemanukSpec.step which q0) as [[? ?] q1].
    destruct (SosemanukSpec.step which q1) as [[? ?] q2]. destruct (SosemanukSpec.step which q2) as [[? ?] q3]. reflexivity. }
  lia.
Qed.
Local Opaque SosemanukSpec.quad.

Lemma process_loaded scratch rk q m out inp data : st_ok q ->
  has_bytes m inp data -> writable m out (length data) -> same_or_disjoint out inp (length data) ->
  sosemanuk_process_packet scratch (unview rk q) m out inp (N.of_nat (length data)) =
  Ret (unview rk (snd (SosemanukSpec.quads false (length data / 16 + 1) q)),
       write_at m out (xor_bytes data (gen_ks q (length data)))).
Proof.
  intros H H1 H2 H3. rewrite process_ok by assumption.
  destruct (ks_words_ok scratch rk (length data / 16 + 1) q H) as (E1 & E2 & _).
  rewrite E1, E2. unfold gen_ks. rewrite le_bytes_spec. reflexivity.
Qed.

Lemma gen_ks_length q n : n <= length (gen_ks q n).
Proof.
  unfold gen_ks. rewrite <- le_bytes_spec, le_bytes_length, quads_length. lia.
Qed.

Lemma quads_app which a : forall b q, SosemanukSpec.quads which (a + b) q =
  (fst (SosemanukSpec.quads which a q) ++ fst (SosemanukSpec.quads which b (snd (SosemanukSpec.quads which a q))),
   snd (SosemanukSpec.quads which b (snd (SosemanukSpec.quads which a q)))).
Proof.
  induction a as [|a IH]; intros b q; cbn [Nat.add].
  - cbn [SosemanukSpec.quads fst snd app]. destruct (SosemanukSpec.quads which b q); reflexivity.
  - rewrite !quads_S. cbn [fst snd]. rewrite IH. cbn [fst snd]. rewrite app_assoc. reflexivity.
Qed.

(** *** Reversibility *)

Lemma lfsr_next_inj l l' : length l = 10 -> length l' = 10 -> words_ok l -> words_ok l' ->
  SosemanukSpec.lfsr_next l = SosemanukSpec.lfsr_next l' -> l = l'.
Proof.
  intros L L' W W' E. unfold SosemanukSpec.lfsr_next in E.
  apply app_inj_tail in E. destruct E as [E F].
  destruct l as [|x l]; [discriminate L|]. destruct l' as [|x' l']; [discriminate L'|]. cbn [tl] in E. subst l'.
  f_equal. unfold SosemanukSpec.feedback in F. cbn [nth] in F.
  apply lxor_inj_l in F. apply lxor_inj_l in F.
  inversion W; subst. inversion W'; subst.
  rewrite <- (alpha_div_mul x), <- (alpha_div_mul x') by assumption. rewrite F. reflexivity.
Qed.

Lemma init_inj ks iv iv' : keys_ok ks -> length ks = 25 -> bytes_ok iv -> length iv = 16 -> bytes_ok iv' -> length iv' = 16 ->
  SosemanukSpec.init ks iv = SosemanukSpec.init ks iv' -> iv = iv'.
Proof.
  intros Hk Lk B L B' L' E.
  apply (le_words_inj 4); try assumption.
  change (SerpentSpec.block_words iv = SerpentSpec.block_words iv').
  apply (after_inj ks 24); try (apply block_words_is4; assumption); [exact Hk|lia|].
  assert (X := after_is4 ks 24 _ Hk ltac:(lia) (block_words_is4 iv B L)).
  assert (X' := after_is4 ks 24 _ Hk ltac:(lia) (block_words_is4 iv' B' L')).
  apply (xor_words_inj _ _ (nth 24 ks [])); [exact X|exact X'|apply key_is4; [exact Hk|lia]|].
  unfold SosemanukSpec.init in E.
  destruct (serpent24_words ks _ Hk Lk (block_words_is4 iv B L)) as
    (a0 & a1 & a2 & a3 & b0 & b1 & b2 & b3 & c0 & c1 & c2 & c3 & E1 & _).
  destruct (serpent24_words ks _ Hk Lk (block_words_is4 iv' B' L')) as
    (a0' & a1' & a2' & a3' & b0' & b1' & b2' & b3' & c0' & c1' & c2' & c3' & E2 & _).
  rewrite E1, E2 in E. unfold SerpentSpec.serpent24 in E1, E2. revert E1 E2.
  generalize (SerpentSpec.xor_words (SerpentSpec.after ks 24 (SerpentSpec.block_words iv)) (nth 24 ks []))
    (SerpentSpec.xor_words (SerpentSpec.after ks 24 (SerpentSpec.block_words iv')) (nth 24 ks [])).
  intros y y' E1 E2. assert (Y := f_equal (fun l => nth 2 l []) E1). assert (Y' := f_equal (fun l => nth 2 l []) E2).
  cbn [nth] in Y, Y'. rewrite Y, Y'. injection E. intros; subst. reflexivity.
Qed.
