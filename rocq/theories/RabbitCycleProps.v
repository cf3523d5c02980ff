(** Property theorems C121 and C122 (StreamCiphers/Rabbit): the cipher does not
    fall into a short cycle, and different IVs keep its states apart. *)
From Coq Require Import NArith ZArith Arith List Lia.
From Verif Require Import Res Words Mem MemSpec ListLemmas MemLemmas SpecWords WordsLemmas XorProofs Finite Concrete
  SyncSpec RabbitModel RabbitProofs RabbitProps RabbitCycle.
From Verif Require RabbitSpec.
Import ListNotations.
Local Open Scope nat_scope.

(** The states a program can bring the cipher into: load a key, then load IVs and
    process packets in any order. *)
Inductive reached (sq : N -> res N) : rabbit_state -> Prop :=
| after_key m key k cs : has_bytes m key k -> length k = 16 ->
    rabbit_load_key sq m key = Ret cs -> reached sq cs
| after_iv cs m iv v cs' : reached sq cs -> has_bytes m iv v -> length v = 8 ->
    rabbit_load_iv sq cs m iv = Ret cs' -> reached sq cs'
| after_packet cs p cs' m' : reached sq cs -> packet_ok p ->
    rabbit_process_packet sq cs (pk_mem p) (pk_out p) (pk_in p) (N.of_nat (length (pk_data p))) = Ret (cs', m') ->
    reached sq cs'.

(** Key stream blocks used by packets: 16 bytes each, the last of a packet
    perhaps in part. *)
Definition blocks (pks : list packet) : nat := fold_right (fun p n => (length (pk_data p) + 15) / 16 + n) 0 pks.

Lemma packet_steps sq cs p cs' m' : sq_ok sq -> packet_ok p ->
  rabbit_process_packet sq cs (pk_mem p) (pk_out p) (pk_in p) (N.of_nat (length (pk_data p))) = Ret (cs', m') ->
  cs' = psteps ((length (pk_data p) + 15) / 16) cs.
Proof.
  intros O (H1 & H2 & H3) E. rewrite process_ok in E by assumption.
  destruct (gen_ok sq (nblocks (length (pk_data p))) O cs) as [F|(ks & F & _)]; rewrite F in E; cbn [bind] in E; [discriminate|].
  apply Ret_pair in E. destruct E as [<- _]. reflexivity.
Qed.

Lemma history_steps sq : sq_ok sq -> forall pks cs cs', Forall packet_ok pks -> history sq cs pks cs' ->
  cs' = psteps (blocks pks) cs.
Proof.
  intros O. induction pks as [|p pks IH]; intros cs cs' Hp Hh; [exact Hh|].
  inversion_clear Hp as [|? ? P1 P2]. destruct Hh as (cs1 & m1 & E & Hh).
  cbn [blocks fold_right]. rewrite psteps_add. rewrite <- (packet_steps sq cs p cs1 m1 O P1 E).
  apply IH; assumption.
Qed.

Lemma steps_master n cs : MASTER_C (psteps n cs) = MASTER_C cs.
Proof. apply psteps_master. Qed.

Lemma reached_ok sq cs : sq_ok sq -> reached sq cs -> cs_ok cs /\ words_ok (MASTER_C cs).
Proof.
  intros O. induction 1 as [m key k cs Hk Lk E|cs m iv v cs' _ [IH1 IH2] Hv Lv E|cs p cs' m' _ [IH1 IH2] Hp E].
  - destruct (load_key_ok sq m key k O Hk Lk) as [F|F]; [congruence|]. assert (cs = pkey k) as -> by congruence.
    split; [apply pkey_ok|]. unfold pkey. rewrite (proj1 (premix_master _)). apply (pkey_ok k).
  - destruct (load_iv_ok sq cs m iv v O Hv Lv) as [F|F]; [congruence|].
    assert (cs' = psteps 4 (piv cs v)) as -> by congruence. split.
    + apply psteps_ok, piv_ok_gen; [exact IH2|]. apply IH1.
    + rewrite steps_master. exact IH2.
  - rewrite (packet_steps sq cs p cs' m' O Hp E). split.
    + apply psteps_ok. exact IH1.
    + rewrite steps_master. exact IH2.
Qed.

(** C121: from any state a program can reach, after packets that use fewer than
    2^32 blocks of key stream (64 GiB) the counters differ from what they were.
    This holds whether or not carries get lost on the way. *)
Theorem C121_rabbit_no_short_cycle : forall sq cs pks cs',
  sq = strict_sq \/ sq = wrap_sq ->
  reached sq cs -> Forall packet_ok pks -> history sq cs pks cs' ->
  (0 < N.of_nat (blocks pks) < 2^32)%N -> C cs' <> C cs.
Proof.
  intros sq cs pks cs' Hsq Hr Hp Hh Hn.
  assert (O : sq_ok sq) by (destruct Hsq; subst; [apply strict_sq_ok|apply wrap_sq_ok]).
  rewrite (history_steps sq O pks cs cs' Hp Hh). apply counters_move; [apply (reached_ok sq cs O Hr)|].
  change (2^32)%N with 4294967296%N in Hn. change (2^32)%Z with 4294967296%Z. lia.
Qed.
Print Assumptions C121_rabbit_no_short_cycle.

(** As long as no counter sum is exactly 2^32 (so that no carry gets lost), the
    cipher does not come back to its state before 2^256 - 1 blocks. *)
Theorem C121_rabbit_full_cycle_when_clean : forall sq cs pks cs',
  sq = strict_sq \/ sq = wrap_sq ->
  reached sq cs -> Forall packet_ok pks -> history sq cs pks cs' ->
  RabbitSpec.clean (blocks pks) (RabbitSpec.RState (X cs) (C cs) (carry cs)) ->
  (0 < N.of_nat (blocks pks) < 2^256 - 1)%N -> C cs' <> C cs \/ carry cs' <> carry cs.
Proof.
  intros sq cs pks cs' Hsq Hr Hp Hh Hc Hn.
  assert (O : sq_ok sq) by (destruct Hsq; subst; [apply strict_sq_ok|apply wrap_sq_ok]).
  destruct (reached_ok sq cs O Hr) as [K _].
  pose proof (history_steps sq O pks cs cs' Hp Hh) as E.
  pose proof (psteps_view (blocks pks) cs K Hc) as V. rewrite <- E in V. clear E.
  destruct (N.eq_dec (carry cs') (carry cs)) as [Eb|Eb]; [left|right; exact Eb].
  intros EC. apply (iterates_return (blocks pks) (view cs)).
  - apply K.
  - change (2^256 - 1)%N with 115792089237316195423570985008687907853269984665640564039457584007913129639935%N in Hn.
    change (2^256 - 1)%Z with 115792089237316195423570985008687907853269984665640564039457584007913129639935%Z. lia.
  - rewrite <- V. unfold total, view. cbn [RabbitSpec.sC RabbitSpec.sb]. rewrite EC, Eb. reflexivity.
Qed.
Print Assumptions C121_rabbit_full_cycle_when_clean.

Definition clean_at (c : list N) (b : N) : bool :=
  forallb (fun t => negb (N.eqb t (2^32))) (RabbitSpec.sums c RabbitSpec.A_const b).
Fixpoint clean_for (n : nat) (s : RabbitSpec.rstate) : bool :=
  match n with
  | O => true
  | S n' => if clean_at (RabbitSpec.sC s) (RabbitSpec.sb s) then clean_for n' (RabbitSpec.iterate s) else false
  end.
Lemma clean_for_sound n : forall s, clean_for n s = true -> RabbitSpec.clean n s.
Proof.
  induction n as [|n IH]; intros s H; cbn [clean_for RabbitSpec.clean] in *; [exact I|].
  destruct (clean_at (RabbitSpec.sC s) (RabbitSpec.sb s)) eqn:E; [|discriminate]. split; [|apply IH; exact H].
  intros K. unfold clean_at in E. rewrite forallb_forall in E. specialize (E _ K). discriminate.
Qed.

(** Concrete case: two packets of 21 and 5 bytes under an all-ones-byte key, three
    blocks, with no carry lost. *)
Definition c121_mem : mem := [holding (repeat 1%N 16); holding (repeat 2%N 8); holding (repeat 3%N 21); fresh 21].
Definition c121_pks : list packet :=
  [Packet c121_mem (Ptr 3 0) (Ptr 2 0) (repeat 3%N 21); Packet c121_mem (Ptr 2 0) (Ptr 2 0) (repeat 3%N 5)].
Example C121_instance : exists cs cs',
  reached wrap_sq cs /\ Forall packet_ok c121_pks /\ history wrap_sq cs c121_pks cs' /\
  blocks c121_pks = 3 /\ RabbitSpec.clean 3 (RabbitSpec.RState (X cs) (C cs) (carry cs)).
Proof.
  assert (P : Forall packet_ok c121_pks).
  { constructor; [|constructor; [|constructor]].
    - split; [conc_has_bytes|split; [conc_writable|right; conc_disjoint]].
    - split; [conc_has_bytes|split; [conc_writable|left; reflexivity]]. }
  assert (Hk : has_bytes c121_mem (Ptr 0 0) (repeat 1%N 16)) by conc_has_bytes.
  pose proof (load_key_wrap c121_mem (Ptr 0 0) (repeat 1%N 16) Hk eq_refl) as E.
  exists (pkey (repeat 1%N 16)), (psteps 1 (psteps 2 (pkey (repeat 1%N 16)))).
  split; [exact (after_key wrap_sq _ _ _ _ Hk eq_refl E)|]. split; [exact P|]. split; [|split; [reflexivity|]].
  - inversion_clear P as [|? ? (A1 & A2 & A3) P']. inversion_clear P' as [|? ? (B1 & B2 & B3) _].
    destruct (process_wrap_ret (pkey (repeat 1%N 16)) _ _ _ _ A1 A2 A3) as (ct & _ & F).
    destruct (process_wrap_ret (psteps 2 (pkey (repeat 1%N 16))) _ _ _ _ B1 B2 B3) as (ct' & _ & F').
    exists (psteps 2 (pkey (repeat 1%N 16))), (write_at c121_mem (Ptr 3 0) ct). split; [exact F|].
    exists (psteps 1 (psteps 2 (pkey (repeat 1%N 16)))), (write_at c121_mem (Ptr 2 0) ct'). split; [exact F'|]. reflexivity.
  - apply clean_for_sound. vm_compute. reflexivity.
Qed.

(** *** C122: different IVs *)

Lemma mix_word M V1 V2 j : j < 8 -> 
  map (fun j => N.lxor (RabbitSpec.at8 M j) (RabbitSpec.at8 (RabbitSpec.iv_words V1) j)) (seq 0 8) =
  map (fun j => N.lxor (RabbitSpec.at8 M j) (RabbitSpec.at8 (RabbitSpec.iv_words V2) j)) (seq 0 8) ->
  RabbitSpec.at8 (RabbitSpec.iv_words V1) j = RabbitSpec.at8 (RabbitSpec.iv_words V2) j.
Proof.
  intros Hj E. apply (f_equal (fun l => nth j l 0%N)) in E.
  assert (L : forall (f : nat -> N), nth j (map f (seq 0 8)) 0%N = f j).
  { intros f. do 8 (destruct j as [|j]; [reflexivity|]). lia. }
  rewrite !L in E. apply (f_equal (N.lxor (RabbitSpec.at8 M j))) in E.
  rewrite <- !N.lxor_assoc, N.lxor_nilpotent, !N.lxor_0_l in E. exact E.
Qed.

Lemma bits_split V : (V < 2^64)%N -> V = (RabbitSpec.bits V 0 32 + 2^32 * RabbitSpec.bits V 32 32)%N.
Proof.
  intros H. unfold RabbitSpec.bits. change (2^0)%N with 1%N. rewrite N.div_1_r.
  rewrite (N.mod_small (V / 2^32)) by (apply N.div_lt_upper_bound; [discriminate|exact H]).
  pose proof (N.div_mod V (2^32) ltac:(discriminate)). lia.
Qed.

Lemma xor_ones x y : (x < 2^32)%N -> (y < 2^32)%N -> N.lxor x y = 4294967295%N -> (x + y = 4294967295)%N.
Proof.
  intros Hx Hy E. rewrite N.add_nocarry_lxor; [exact E|].
  apply N.bits_inj. intros i. rewrite N.land_spec, N.bits_0.
  destruct (N.lt_ge_cases i 32) as [Hi|Hi].
  - apply (f_equal (fun n => N.testbit n i)) in E. rewrite N.lxor_spec in E.
    change 4294967295%N with (N.ones 32) in E. rewrite N.ones_spec_low in E by exact Hi.
    destruct (N.testbit x i), (N.testbit y i); auto.
  - rewrite <- (N.mod_small x (2^32) Hx), N.mod_pow2_bits_high by exact Hi. reflexivity.
Qed.

Lemma le_num_inj8 v v' : bytes_ok v -> bytes_ok v' -> length v = 8 -> length v' = 8 -> le_num v = le_num v' -> v = v'.
Proof. intros B B' L L' E. rewrite <- (le_str_num v B), <- (le_str_num v' B'), L, L', E. reflexivity. Qed.

Definition complement (l : list N) : list N := map (fun b => (255 - b)%N) l.

Lemma complement_ok l : bytes_ok (complement l).
Proof. apply Forall_forall. intros x Hx. apply in_map_iff in Hx. destruct Hx as (y & <- & _). lia. Qed.
Lemma complement_num l : bytes_ok l -> (le_num (complement l) + le_num l + 1 = 256 ^ N.of_nat (length l))%N.
Proof.
  induction 1 as [|b l Hb _ IH]; [reflexivity|].
  cbn [complement map le_num length]. fold (complement l). rewrite Nat2N.inj_succ, N.pow_succ_r'. lia.
Qed.

(** C122: two IVs that differ, and are not each other's complement, put the
    cipher into different states, which stay different after equally many blocks
    of key stream, as long as no carry gets lost. *)
Theorem C122_rabbit_ivs_kept_apart : forall sq cs m1 iv1 v1 cs1 pks1 cs1' m2 iv2 v2 cs2 pks2 cs2',
  sq = strict_sq \/ sq = wrap_sq -> reached sq cs ->
  has_bytes m1 iv1 v1 -> length v1 = 8 -> has_bytes m2 iv2 v2 -> length v2 = 8 ->
  v1 <> v2 -> v2 <> complement v1 ->
  rabbit_load_iv sq cs m1 iv1 = Ret cs1 -> rabbit_load_iv sq cs m2 iv2 = Ret cs2 ->
  Forall packet_ok pks1 -> history sq cs1 pks1 cs1' ->
  Forall packet_ok pks2 -> history sq cs2 pks2 cs2' -> blocks pks1 = blocks pks2 ->
  RabbitSpec.clean (4 + blocks pks1)
    (RabbitSpec.iv_mix (le_num v1) (RabbitSpec.RState (MASTER_X cs) (MASTER_C cs) (carry cs))) ->
  RabbitSpec.clean (4 + blocks pks2)
    (RabbitSpec.iv_mix (le_num v2) (RabbitSpec.RState (MASTER_X cs) (MASTER_C cs) (carry cs))) ->
  C cs1' <> C cs2' \/ carry cs1' <> carry cs2'.
Proof.
  intros sq cs m1 iv1 v1 cs1 pks1 cs1' m2 iv2 v2 cs2 pks2 cs2' Hsq Hr Hv1 L1 Hv2 L2 Hne Hnc E1 E2 P1 H1 P2 H2 Eb C1 C2.
  assert (O : sq_ok sq) by (destruct Hsq; subst; [apply strict_sq_ok|apply wrap_sq_ok]).
  destruct (reached_ok sq cs O Hr) as [K KM].
  assert (Kb : (carry cs <= 1)%N) by apply K.
  pose proof (has_bytes_bytes _ _ _ Hv1) as B1. pose proof (has_bytes_bytes _ _ _ Hv2) as B2.
  destruct (load_iv_ok sq cs m1 iv1 v1 O Hv1 L1) as [F|F]; [congruence|].
  assert (cs1 = psteps 4 (piv cs v1)) as -> by congruence. clear F.
  destruct (load_iv_ok sq cs m2 iv2 v2 O Hv2 L2) as [F|F]; [congruence|].
  assert (cs2 = psteps 4 (piv cs v2)) as -> by congruence. clear F.
  apply (history_steps sq O) in H1; [|exact P1]. apply (history_steps sq O) in H2; [|exact P2].
  rewrite <- psteps_add in H1, H2.
  pose proof (piv_ok_gen cs v1 KM Kb) as K1. pose proof (piv_ok_gen cs v2 KM Kb) as K2.
  pose proof (psteps_view (4 + blocks pks1) (piv cs v1) K1 C1) as V1.
  pose proof (psteps_view (4 + blocks pks2) (piv cs v2) K2 C2) as V2.
  rewrite <- H1 in V1. rewrite <- H2 in V2. rewrite <- Eb in V2.
  destruct (N.eq_dec (carry cs1') (carry cs2')) as [Ec|Ec]; [left|right; exact Ec].
  intros EC.
  assert (T : total (RabbitSpec.iterates (4 + blocks pks1) (view (piv cs v1))) =
              total (RabbitSpec.iterates (4 + blocks pks1) (view (piv cs v2)))).
  { rewrite <- V1, <- V2. unfold total, view. cbn [RabbitSpec.sC RabbitSpec.sb]. rewrite EC, Ec. reflexivity. }
  apply runs_meet in T; [|apply K1|apply K2|apply K1|apply K2|reflexivity].
  clear V1 V2 H1 H2 C1 C2 E1 E2.
  assert (N1 : (le_num v1 < 2^64)%N) by (pose proof (le_num_lt v1 B1) as Q; rewrite L1 in Q; exact Q).
  assert (N2 : (le_num v2 < 2^64)%N) by (pose proof (le_num_lt v2 B2) as Q; rewrite L2 in Q; exact Q).
  cbn [view RabbitSpec.sC piv C] in T.
  assert (Z : forall va vb, bytes_ok va -> bytes_ok vb -> length va = 8 -> length vb = 8 ->
     map (fun j => N.lxor (RabbitSpec.at8 (MASTER_C cs) j) (RabbitSpec.at8 (RabbitSpec.iv_words (le_num va)) j)) (seq 0 8) = repeat 4294967295%N 8 ->
     map (fun j => N.lxor (RabbitSpec.at8 (MASTER_C cs) j) (RabbitSpec.at8 (RabbitSpec.iv_words (le_num vb)) j)) (seq 0 8) = repeat 0%N 8 ->
     (le_num va + le_num vb + 1 = 2^64)%N).
  { intros va vb Ba Bb La Lb Ea Ez.
    assert (G : forall j, j < 8 -> (RabbitSpec.at8 (RabbitSpec.iv_words (le_num va)) j + RabbitSpec.at8 (RabbitSpec.iv_words (le_num vb)) j = 4294967295)%N).
    { intros j Hj.
      assert (L : forall (f : nat -> N), nth j (map f (seq 0 8)) 0%N = f j).
      { intros f. do 8 (destruct j as [|j]; [reflexivity|]). lia. }
      apply (f_equal (fun l => nth j l 0%N)) in Ea. apply (f_equal (fun l => nth j l 0%N)) in Ez. rewrite L in Ea, Ez.
      assert (R1 : nth j (repeat 4294967295%N 8) 0%N = 4294967295%N) by (do 8 (destruct j as [|j]; [reflexivity|]); lia).
      assert (R0 : nth j (repeat 0%N 8) 0%N = 0%N) by (do 8 (destruct j as [|j]; [reflexivity|]); lia).
      rewrite R1 in Ea. rewrite R0 in Ez. apply N.lxor_eq in Ez. rewrite Ez, N.lxor_comm in Ea.
      apply xor_ones; [| |exact Ea]; unfold RabbitSpec.at8; apply (el_words_ok (RabbitSpec.iv_words _)); apply iv_words_ok. }
    pose proof (G 0 ltac:(lia)) as G0. pose proof (G 2 ltac:(lia)) as G2.
    change (RabbitSpec.at8 (RabbitSpec.iv_words (le_num va)) 0) with (RabbitSpec.bits (le_num va) 0 32) in G0.
    change (RabbitSpec.at8 (RabbitSpec.iv_words (le_num vb)) 0) with (RabbitSpec.bits (le_num vb) 0 32) in G0.
    change (RabbitSpec.at8 (RabbitSpec.iv_words (le_num va)) 2) with (RabbitSpec.bits (le_num va) 32 32) in G2.
    change (RabbitSpec.at8 (RabbitSpec.iv_words (le_num vb)) 2) with (RabbitSpec.bits (le_num vb) 32 32) in G2.
    assert (Na : (le_num va < 2^64)%N) by (pose proof (le_num_lt va Ba) as Q; rewrite La in Q; exact Q).
    assert (Nb : (le_num vb < 2^64)%N) by (pose proof (le_num_lt vb Bb) as Q; rewrite Lb in Q; exact Q).
    rewrite (bits_split (le_num va) Na), (bits_split (le_num vb) Nb).
    change (2^32)%N with 4294967296%N. change (2^64)%N with 18446744073709551616%N. lia. }
  assert (ZC : (le_num v1 + le_num v2 + 1 = 2^64)%N -> False).
  { intros S. apply Hnc. apply le_num_inj8; auto using complement_ok; [unfold complement; rewrite map_length; exact L1|].
    pose proof (complement_num v1 B1) as Q. rewrite L1 in Q. change (256 ^ N.of_nat 8)%N with (2^64)%N in Q. lia. }
  destruct T as [T|[[T1 T2]|[T1 T2]]].
  - apply Hne. apply le_num_inj8; auto.
    pose proof (mix_word _ _ _ 0 ltac:(lia) T) as W0. pose proof (mix_word _ _ _ 2 ltac:(lia) T) as W2.
    rewrite (bits_split (le_num v1) N1), (bits_split (le_num v2) N2). f_equal; [exact W0|]. f_equal. exact W2.
  - apply ZC. apply Z; assumption.
  - apply ZC. rewrite (N.add_comm (le_num v1)). apply Z; assumption.
Qed.
Print Assumptions C122_rabbit_ivs_kept_apart.

(** Concrete case: the IVs 0 and 1 (as a packet counter would give them) under a key
    of ones, one 16-byte packet each. *)
Definition c122_mem : mem := [holding (repeat 1%N 16); holding (repeat 0%N 8); holding (1%N :: repeat 0%N 7); holding (repeat 3%N 16)].
Definition c122_pks : list packet := [Packet c122_mem (Ptr 3 0) (Ptr 3 0) (repeat 3%N 16)].
Example C122_instance : exists cs cs1 cs1' cs2 cs2',
  reached wrap_sq cs /\ repeat 0%N 8 <> 1%N :: repeat 0%N 7 /\ 1%N :: repeat 0%N 7 <> complement (repeat 0%N 8) /\
  rabbit_load_iv wrap_sq cs c122_mem (Ptr 1 0) = Ret cs1 /\ rabbit_load_iv wrap_sq cs c122_mem (Ptr 2 0) = Ret cs2 /\
  Forall packet_ok c122_pks /\ history wrap_sq cs1 c122_pks cs1' /\ history wrap_sq cs2 c122_pks cs2' /\
  RabbitSpec.clean (4 + blocks c122_pks)
    (RabbitSpec.iv_mix (le_num (repeat 0%N 8)) (RabbitSpec.RState (MASTER_X cs) (MASTER_C cs) (carry cs))) /\
  RabbitSpec.clean (4 + blocks c122_pks)
    (RabbitSpec.iv_mix (le_num (1%N :: repeat 0%N 7)) (RabbitSpec.RState (MASTER_X cs) (MASTER_C cs) (carry cs))).
Proof.
  assert (P : Forall packet_ok c122_pks).
  { constructor; [|constructor]. split; [conc_has_bytes|split; [conc_writable|left; reflexivity]]. }
  assert (Hk : has_bytes c122_mem (Ptr 0 0) (repeat 1%N 16)) by conc_has_bytes.
  assert (H1 : has_bytes c122_mem (Ptr 1 0) (repeat 0%N 8)) by conc_has_bytes.
  assert (H2 : has_bytes c122_mem (Ptr 2 0) (1%N :: repeat 0%N 7)) by conc_has_bytes.
  pose proof (load_key_wrap c122_mem (Ptr 0 0) (repeat 1%N 16) Hk eq_refl) as E.
  set (cs := pkey (repeat 1%N 16)) in *.
  pose proof (load_iv_wrap cs c122_mem (Ptr 1 0) (repeat 0%N 8) H1 eq_refl) as E1.
  pose proof (load_iv_wrap cs c122_mem (Ptr 2 0) (1%N :: repeat 0%N 7) H2 eq_refl) as E2.
  set (cs1 := psteps 4 (piv cs (repeat 0%N 8))) in *. set (cs2 := psteps 4 (piv cs (1%N :: repeat 0%N 7))) in *.
  assert (Hh : forall s, history wrap_sq s c122_pks (psteps 1 s)).
  { intros s. inversion_clear P as [|? ? (A1 & A2 & A3) _].
    destruct (process_wrap_ret s _ _ _ _ A1 A2 A3) as (ct & _ & F).
    exists (psteps 1 s), (write_at c122_mem (Ptr 3 0) ct). split; [exact F|reflexivity]. }
  exists cs, cs1, (psteps 1 cs1), cs2, (psteps 1 cs2).
  split; [exact (after_key wrap_sq _ _ _ _ Hk eq_refl E)|].
  split; [discriminate|]. split; [discriminate|]. split; [exact E1|]. split; [exact E2|]. split; [exact P|].
  split; [apply Hh|]. split; [apply Hh|].
  split; apply clean_for_sound; vm_compute; reflexivity.
Qed.

(** Complementary IVs have to be left out: with an all-zero master state the
    counters meet, although no carry is lost. *)
Example C122_complement_needed :
  let cs := Rabbit (repeat 0%N 8) (repeat 0%N 8) (repeat 0%N 8) (repeat 0%N 8) 0 in
  let m := [holding (repeat 0%N 8); holding (repeat 255%N 8)] in
  complement (repeat 0%N 8) = repeat 255%N 8 /\
  RabbitSpec.clean 4 (RabbitSpec.iv_mix (le_num (repeat 0%N 8)) (RabbitSpec.RState (repeat 0%N 8) (repeat 0%N 8) 0)) /\
  RabbitSpec.clean 4 (RabbitSpec.iv_mix (le_num (repeat 255%N 8)) (RabbitSpec.RState (repeat 0%N 8) (repeat 0%N 8) 0)) /\
  exists cs1 cs2, rabbit_load_iv wrap_sq cs m (Ptr 0 0) = Ret cs1 /\ rabbit_load_iv wrap_sq cs m (Ptr 1 0) = Ret cs2 /\
    C cs1 = C cs2 /\ carry cs1 = carry cs2.
Proof.
  split; [reflexivity|]. split; [apply clean_for_sound; vm_compute; reflexivity|].
  split; [apply clean_for_sound; vm_compute; reflexivity|].
  eexists. eexists. split; [vm_compute; reflexivity|]. split; [vm_compute; reflexivity|]. split; reflexivity.
Qed.
