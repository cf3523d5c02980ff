(** Property theorems C123-C125 (StreamCiphers/Sosemanuk): how long the cipher
    takes to come back to a state, and which states meet. *)
From Coq Require Import NArith ZArith Znumtheory Arith List Lia.
From Verif Require Import Res Words Mem MemSpec ListLemmas MemLemmas SpecWords WordsLemmas XorProofs Finite Concrete
  SyncSpec SerpentModel SerpentProofs SerpentInj SosemanukTables SosemanukModel SosemanukProofs SosemanukProps
  LinearCycle SosemanukLfsr SosemanukOrder.
From Verif Require SerpentSpec SosemanukSpec.
Import ListNotations.
Local Open Scope nat_scope.

(** The packets, processed one after the other from [cs], lead to [cs']. *)
Fixpoint history (scratch : N) (cs : sosemanuk_state) (pks : list packet) (cs' : sosemanuk_state) : Prop :=
  match pks with
  | [] => cs' = cs
  | k :: pks => exists cs1 m1,
      sosemanuk_process_packet scratch cs (pk_mem k) (pk_out k) (pk_in k) (N.of_nat (length (pk_data k))) = Ret (cs1, m1) /\
      history scratch cs1 pks cs'
  end.

(** Key stream blocks the packets use: one more than the number of whole blocks
    of 16 bytes (see C28). *)
Definition blocks (pks : list packet) : nat := fold_right (fun p n => length (pk_data p) / 16 + 1 + n) 0 pks.

(** The states a program can bring the cipher into: load a key of at most 32
    bytes and an IV, then process packets. *)
Inductive reached : sosemanuk_state -> Prop :=
| after_key scratch scratch' cs0 m key k ks m' p iv cs :
    has_bytes m key k -> length k <= 32 -> has_bytes m' p iv -> length iv = 16 ->
    sosemanuk_load_key scratch cs0 m key (Z.of_nat (length k)) = Ret (Some ks) ->
    sosemanuk_load_iv scratch' ks m' p = Ret cs -> reached cs
| after_packet scratch cs p cs' m' : reached cs -> packet_ok p ->
    sosemanuk_process_packet scratch cs (pk_mem p) (pk_out p) (pk_in p) (N.of_nat (length (pk_data p))) = Ret (cs', m') ->
    reached cs'.

Definition qs (n : nat) (q : SosemanukSpec.state) : SosemanukSpec.state := snd (SosemanukSpec.quads false n q).

Lemma packet_steps scratch cs p cs' m' : st_ok (view cs) -> packet_ok p ->
  sosemanuk_process_packet scratch cs (pk_mem p) (pk_out p) (pk_in p) (N.of_nat (length (pk_data p))) = Ret (cs', m') ->
  cs' = unview (serpent_cs cs) (qs (length (pk_data p) / 16 + 1) (view cs)).
Proof.
  intros H (H1 & H2 & H3) E. rewrite <- (unview_view cs) in E at 1.
  rewrite process_loaded in E by assumption. apply Ret_pair in E. destruct E as [<- _]. reflexivity.
Qed.
Lemma qs_ok n q : st_ok q -> st_ok (qs n q).
Proof. intros H. apply (ks_words_ok 0 [] n q H). Qed.
Lemma qs_add a b q : qs (a + b) q = qs b (qs a q).
Proof. unfold qs. rewrite quads_app. reflexivity. Qed.

Lemma history_steps scratch : forall pks cs cs', st_ok (view cs) -> Forall packet_ok pks -> history scratch cs pks cs' ->
  cs' = unview (serpent_cs cs) (qs (blocks pks) (view cs)).
Proof.
  induction pks as [|p pks IH]; intros cs cs' H Hp Hh; cbn [history blocks fold_right] in *.
  - rewrite Hh. symmetry. apply unview_view.
  - inversion_clear Hp as [|? ? P1 P2]. destruct Hh as (cs1 & m1 & E & Hh).
    apply (packet_steps scratch cs p cs1 m1 H P1) in E. subst cs1.
    apply IH in Hh; [|rewrite view_unview; apply qs_ok, H|exact P2]. rewrite Hh, view_unview. fold (blocks pks). rewrite (qs_add (length (pk_data p) / 16 + 1)). reflexivity.
Qed.

(** Loaded and reached states hold 32-bit words. *)
Lemma reached_ok cs : reached cs -> st_ok (view cs).
Proof.
  induction 1 as [scratch scratch' cs0 m key k ks m' p iv cs Hk Lk Hiv Liv E1 E2|scratch cs p cs' m' _ IH Hp E].
  - destruct (loading scratch scratch' cs0 m key k m' p iv Hk Lk Hiv Liv) as (c & A1 & A2).
    rewrite E1 in A1. apply Ret_inj in A1. assert (ks = c) by congruence. subst c.
    rewrite E2 in A2. apply Ret_inj in A2. rewrite A2, view_unview. apply loaded_ok; [eapply has_bytes_bytes; exact Hiv|exact Liv].
  - apply (packet_steps scratch cs p cs' m' IH Hp) in E. rewrite E, view_unview. apply qs_ok, IH.
Qed.

(** *** The register *)
Fixpoint nexts (n : nat) (l : list N) : list N := match n with O => l | S n => nexts n (SosemanukSpec.lfsr_next l) end.
Lemma nexts_add a b : forall l, nexts (a + b) l = nexts b (nexts a l).
Proof. induction a as [|a IH]; intros l; [reflexivity|]. apply IH. Qed.
Lemma step_lfsr q : SosemanukSpec.lfsr (snd (SosemanukSpec.step false q)) = SosemanukSpec.lfsr_next (SosemanukSpec.lfsr q).
Proof. reflexivity. Qed.
Lemma quad_lfsr q : SosemanukSpec.lfsr (snd (SosemanukSpec.quad false q)) = nexts 4 (SosemanukSpec.lfsr q).
Proof.
  unfold SosemanukSpec.quad. pose proof (step_lfsr q) as E0.
  destruct (SosemanukSpec.step false q) as [[f0 s0] q1]. pose proof (step_lfsr q1) as E1.
  destruct (SosemanukSpec.step false q1) as [[f1 s1] q2]. pose proof (step_lfsr q2) as E2.
  destruct (SosemanukSpec.step false q2) as [[f2 s2] q3]. pose proof (step_lfsr q3) as E3.
  destruct (SosemanukSpec.step false q3) as [[f3 s3] q4]. cbn [snd] in *. rewrite E3, E2, E1, E0. reflexivity.
Qed.
Lemma qs_lfsr n : forall q, SosemanukSpec.lfsr (qs n q) = nexts (4 * n) (SosemanukSpec.lfsr q).
Proof.
  induction n as [|n IH]; intros q; [reflexivity|]. unfold qs in *. rewrite quads_S. cbn [snd]. rewrite IH, quad_lfsr, <- nexts_add. f_equal. lia.
Qed.
Lemma nexts_ok n : forall l, length l = 10 -> words_ok l -> length (nexts n l) = 10 /\ words_ok (nexts n l).
Proof.
  induction n as [|n IH]; intros l E W; [split; assumption|]. destruct (next_ok l E W) as [E' W']. apply IH; assumption.
Qed.
Lemma nexts_packed n : forall l, length l = 10 -> words_ok l -> pack (nexts n l) = N.iter (N.of_nat n) L (pack l).
Proof.
  induction n as [|n IH]; intros l E W; [reflexivity|]. destruct (next_ok l E W) as [E' W']. cbn [nexts].
  rewrite IH, lfsr_packed by assumption. rewrite Nat2N.inj_succ, N.iter_succ_r. reflexivity.
Qed.
Lemma nexts_inj n : forall l l', length l = 10 -> words_ok l -> length l' = 10 -> words_ok l' -> nexts n l = nexts n l' -> l = l'.
Proof.
  induction n as [|n IH]; intros l l' E W E' W' H; [exact H|]. destruct (next_ok l E W) as [A B]. destruct (next_ok l' E' W') as [A' B'].
  apply lfsr_next_inj; try assumption. apply IH; assumption.
Qed.

Lemma order_4 k : N.divide order (4 * k) -> N.divide order k.
Proof.
  intros D. apply (N.gauss _ 4); [exact D|]. vm_compute. reflexivity.
Qed.

(** C123: from any state a program can reach in which the shift register is not
    all zero, the register is back to what it was exactly after the multiples of
    2^320 - 1 blocks. *)
Theorem C123_sosemanuk_register_cycle : forall scratch cs pks cs',
  reached cs -> s cs <> repeat 0%N 10 -> Forall packet_ok pks -> history scratch cs pks cs' ->
  s cs' = s cs <-> N.divide (2^320 - 1) (N.of_nat (blocks pks)).
Proof.
  intros scratch cs pks cs' Hr Hz Hp Hh. pose proof (reached_ok cs Hr) as K.
  rewrite (history_steps scratch pks cs cs' K Hp Hh). change (s (unview ?r ?q)) with (SosemanukSpec.lfsr q).
  rewrite qs_lfsr. change (SosemanukSpec.lfsr (view cs)) with (s cs). destruct K as (E & W & _). cbn [view SosemanukSpec.lfsr] in E, W.
  change (2^320 - 1)%N with order.
  assert (V : (pack (s cs) < 2^320)%N) by (apply pack_lt10; assumption).
  assert (V0 : pack (s cs) <> 0%N).
  { intros Z. apply Hz. apply pack_inj; [exact W| |rewrite E; reflexivity|rewrite Z; reflexivity].
    repeat (apply Forall_cons; [reflexivity|]). apply Forall_nil. }
  pose proof (return_times (pack (s cs)) (N.of_nat (4 * blocks pks)) V V0) as R.
  destruct (nexts_ok (4 * blocks pks) _ E W) as [E' W'].
  rewrite <- nexts_packed in R by assumption.
  assert (X : N.of_nat (4 * blocks pks) = (4 * N.of_nat (blocks pks))%N) by lia. rewrite X in R.
  split.
  - intros Q. apply order_4, R. rewrite Q. reflexivity.
  - intros D. apply pack_inj; try assumption; [congruence|]. apply R. apply N.divide_mul_r. exact D.
Qed.
Print Assumptions C123_sosemanuk_register_cycle.

(** So within 2^320 - 2 blocks no state comes back. *)
Theorem C123_sosemanuk_no_short_cycle : forall scratch cs pks cs',
  reached cs -> s cs <> repeat 0%N 10 -> Forall packet_ok pks -> history scratch cs pks cs' ->
  (0 < N.of_nat (blocks pks) < 2^320 - 1)%N -> cs' <> cs.
Proof.
  intros scratch cs pks cs' Hr Hz Hp Hh Hn E.
  apply (f_equal s) in E. apply (C123_sosemanuk_register_cycle scratch cs pks cs' Hr Hz Hp Hh) in E.
  apply N.divide_pos_le in E; [|apply Hn]. destruct Hn as [_ Hn]. apply (N.lt_irrefl (N.of_nat (blocks pks))). eapply N.lt_le_trans; eassumption.
Qed.
Print Assumptions C123_sosemanuk_no_short_cycle.

(** The all-zero register has to be left out: it stays as it is. *)
Theorem C123_sosemanuk_zero_register : forall scratch cs pks cs',
  reached cs -> s cs = repeat 0%N 10 -> Forall packet_ok pks -> history scratch cs pks cs' -> s cs' = s cs.
Proof.
  intros scratch cs pks cs' Hr Hz Hp Hh.
  rewrite (history_steps scratch pks cs cs' (reached_ok cs Hr) Hp Hh). change (s (unview ?r ?q)) with (SosemanukSpec.lfsr q).
  rewrite qs_lfsr. change (SosemanukSpec.lfsr (view cs)) with (s cs). rewrite Hz. generalize (4 * blocks pks).
  assert (Z : SosemanukSpec.lfsr_next (repeat 0%N 10) = repeat 0%N 10) by (vm_compute; reflexivity).
  induction n as [|n IH]; [reflexivity|]. cbn [nexts]. rewrite Z. exact IH.
Qed.
Print Assumptions C123_sosemanuk_zero_register.

Lemma init_lfsr_inj ks iv iv' : keys_ok ks -> length ks = 25 -> bytes_ok iv -> length iv = 16 -> bytes_ok iv' -> length iv' = 16 ->
  SosemanukSpec.lfsr (SosemanukSpec.init ks iv) = SosemanukSpec.lfsr (SosemanukSpec.init ks iv') -> iv = iv'.
Proof.
  intros Hk Lk B L0 B' L' E.
  apply (le_words_inj 4); try assumption.
  change (SerpentSpec.block_words iv = SerpentSpec.block_words iv').
  apply (after_inj ks 24); try (apply block_words_is4; assumption); [exact Hk|lia|].
  assert (X := after_is4 ks 24 _ Hk ltac:(lia) (block_words_is4 iv B L0)).
  assert (X' := after_is4 ks 24 _ Hk ltac:(lia) (block_words_is4 iv' B' L')).
  apply (xor_words_inj _ _ (nth 24 ks [])); [exact X|exact X'|apply key_is4; [exact Hk|lia]|].
  unfold SosemanukSpec.init in E.
  destruct (serpent24_words ks _ Hk Lk (block_words_is4 iv B L0)) as
    (a0 & a1 & a2 & a3 & b0 & b1 & b2 & b3 & c0 & c1 & c2 & c3 & E1 & _).
  destruct (serpent24_words ks _ Hk Lk (block_words_is4 iv' B' L')) as
    (a0' & a1' & a2' & a3' & b0' & b1' & b2' & b3' & c0' & c1' & c2' & c3' & E2 & _).
  rewrite E1, E2 in E. cbn [SosemanukSpec.lfsr] in E. unfold SerpentSpec.serpent24 in E1, E2. revert E1 E2.
  generalize (SerpentSpec.xor_words (SerpentSpec.after ks 24 (SerpentSpec.block_words iv)) (nth 24 ks []))
    (SerpentSpec.xor_words (SerpentSpec.after ks 24 (SerpentSpec.block_words iv')) (nth 24 ks [])).
  intros y y' E1 E2. assert (Y := f_equal (fun l => nth 2 l []) E1). assert (Y' := f_equal (fun l => nth 2 l []) E2).
  cbn [nth] in Y, Y'. rewrite Y, Y'. injection E. intros; subst. reflexivity.
Qed.

(** C124: under one key, the states of two different IVs stay apart however many
    blocks have been used. *)
Theorem C124_sosemanuk_ivs_stay_apart :
  forall scratch scratch' cs0 cs0' m key k m' p iv m'' p' iv' ks ks' cs cs' pks pks' cs1 cs1',
  has_bytes m key k -> length k <= 32 ->
  has_bytes m' p iv -> length iv = 16 -> has_bytes m'' p' iv' -> length iv' = 16 -> iv <> iv' ->
  sosemanuk_load_key scratch cs0 m key (Z.of_nat (length k)) = Ret (Some ks) ->
  sosemanuk_load_key scratch' cs0' m key (Z.of_nat (length k)) = Ret (Some ks') ->
  sosemanuk_load_iv scratch ks m' p = Ret cs -> sosemanuk_load_iv scratch' ks' m'' p' = Ret cs' ->
  Forall packet_ok pks -> Forall packet_ok pks' -> blocks pks = blocks pks' ->
  history scratch cs pks cs1 -> history scratch' cs' pks' cs1' ->
  s cs1 <> s cs1'.
Proof.
  intros scratch scratch' cs0 cs0' m key k m' p iv m'' p' iv' ks ks' cs cs' pks pks' cs1 cs1'
    Hk Lk Hiv Liv Hiv' Liv' Ne E1 E1' E2 E2' P P' Eb Hh Hh' Es. apply Ne.
  assert (K : st_ok (view cs)) by (apply reached_ok; eapply after_key; [exact Hk|exact Lk|exact Hiv|exact Liv|exact E1|exact E2]).
  assert (K' : st_ok (view cs')) by (apply reached_ok; eapply after_key; [exact Hk|exact Lk|exact Hiv'|exact Liv'|exact E1'|exact E2']).
  rewrite (history_steps scratch pks cs cs1 K P Hh), (history_steps scratch' pks' cs' cs1' K' P' Hh') in Es.
  cbn [unview s] in Es. rewrite !qs_lfsr, <- Eb in Es. destruct K as (A & B & _), K' as (A' & B' & _).
  apply nexts_inj in Es; [|assumption..].
  destruct (loading scratch scratch cs0 m key k m' p iv Hk Lk Hiv Liv) as (c & A1 & A2).
  destruct (loading scratch' scratch' cs0' m key k m'' p' iv' Hk Lk Hiv' Liv') as (c' & B1 & B2).
  rewrite E1 in A1. rewrite E1' in B1. apply Ret_inj in A1. apply Ret_inj in B1.
  assert (ks = c) by congruence. assert (ks' = c') by congruence. subst c c'.
  rewrite E2 in A2. rewrite E2' in B2. apply Ret_inj in A2. apply Ret_inj in B2.
  rewrite A2, B2, !view_unview in Es.
  apply init_lfsr_inj in Es; try assumption; [apply subkey_list_ok|apply subkey_list_length|eapply has_bytes_bytes; eassumption..].
Qed.
Print Assumptions C124_sosemanuk_ivs_stay_apart.

(** *** The two registers of the finite state machine *)
Lemma step_trans q : SosemanukSpec.fsm2 (snd (SosemanukSpec.step false q)) = SosemanukSpec.trans (SosemanukSpec.fsm1 (snd (SosemanukSpec.step false q))).
Proof. reflexivity. Qed.
Lemma quad_trans q : SosemanukSpec.fsm2 (snd (SosemanukSpec.quad false q)) = SosemanukSpec.trans (SosemanukSpec.fsm1 (snd (SosemanukSpec.quad false q))).
Proof.
  unfold SosemanukSpec.quad.
  destruct (SosemanukSpec.step false q) as [[f0 s0] q1]. destruct (SosemanukSpec.step false q1) as [[f1 s1] q2].
  destruct (SosemanukSpec.step false q2) as [[f2 s2] q3]. pose proof (step_trans q3) as E.
  destruct (SosemanukSpec.step false q3) as [[f3 s3] q4]. exact E.
Qed.
Lemma qs_trans n : forall q, SosemanukSpec.fsm2 (qs (S n) q) = SosemanukSpec.trans (SosemanukSpec.fsm1 (qs (S n) q)).
Proof.
  intros q. replace (S n) with (n + 1) by lia. rewrite qs_add. unfold qs at 1 3. rewrite quads_S. cbn [SosemanukSpec.quads snd]. exact (quad_trans (qs n q)).
Qed.
Lemma blocks_pos pks : pks <> [] -> exists n, blocks pks = S n.
Proof. destruct pks as [|p pks]; [congruence|]. intros _. exists (length (pk_data p) / 16 + blocks pks). cbn [blocks fold_right]. fold (blocks pks). lia. Qed.

(** C125, what the code does instead: from the first packet on, the second
    register is a function of the first. *)
Theorem C125_sosemanuk_second_register : forall scratch cs pks cs',
  reached cs -> pks <> [] -> Forall packet_ok pks -> history scratch cs pks cs' ->
  R2 cs' = SosemanukSpec.trans (R1 cs').
Proof.
  intros scratch cs pks cs' Hr Hn Hp Hh. rewrite (history_steps scratch pks cs cs' (reached_ok cs Hr) Hp Hh).
  destruct (blocks_pos pks Hn) as [n ->]. apply qs_trans.
Qed.
Print Assumptions C125_sosemanuk_second_register.

(** All that counts of both registers is one word of 32 bits. *)
Definition carried (l : list N) (r1 r2 : N) : N :=
  add_w32 r2 (if N.odd r1 then N.lxor (nth 8 l 0%N) (nth 9 l 0%N) else nth 1 l 0%N).

Lemma same_carried l r1 r2 r1' r2' : carried l r1 r2 = carried l r1' r2' ->
  SosemanukSpec.step false (SosemanukSpec.St l r1 r2) = SosemanukSpec.step false (SosemanukSpec.St l r1' r2').
Proof.
  unfold carried. intros E. unfold SosemanukSpec.step, SosemanukSpec.mux. cbn [SosemanukSpec.lfsr SosemanukSpec.fsm1 SosemanukSpec.fsm2].
  rewrite E. reflexivity.
Qed.

(** States with the same shift register meet in the first packet, and encrypt
    every packet alike, if that word is the same. *)
Theorem C125_sosemanuk_states_meet : forall scratch cs r1 r2 m out inp data,
  length (s cs) = 10 -> words_ok (s cs) -> (R1 cs < 2^32)%N -> (R2 cs < 2^32)%N -> (r1 < 2^32)%N -> (r2 < 2^32)%N ->
  carried (s cs) r1 r2 = carried (s cs) (R1 cs) (R2 cs) ->
  has_bytes m inp data -> writable m out (length data) -> same_or_disjoint out inp (length data) ->
  sosemanuk_process_packet scratch (Sosemanuk (serpent_cs cs) (s cs) r1 r2) m out inp (N.of_nat (length data)) =
  sosemanuk_process_packet scratch cs m out inp (N.of_nat (length data)).
Proof.
  intros scratch [rk l a1 a2] r1 r2 m out inp data E W H1 H2 Hr Hr' Ho P1 P2 P3. cbn [serpent_cs s R1 R2] in *.
  assert (K : st_ok (SosemanukSpec.St l a1 a2)) by (repeat split; assumption).
  assert (K' : st_ok (SosemanukSpec.St l r1 r2)) by (repeat split; assumption).
  change (Sosemanuk rk l a1 a2) with (unview rk (SosemanukSpec.St l a1 a2)).
  change (Sosemanuk rk l r1 r2) with (unview rk (SosemanukSpec.St l r1 r2)).
  rewrite !process_loaded by assumption. unfold gen_ks.
  assert (X : forall n, SosemanukSpec.quads false (n + 1) (SosemanukSpec.St l r1 r2) = SosemanukSpec.quads false (n + 1) (SosemanukSpec.St l a1 a2)).
  { intros n. replace (n + 1) with (S n) by lia. rewrite !quads_S. unfold SosemanukSpec.quad. rewrite (same_carried l r1 r2 a1 a2 Ho). reflexivity. }
  rewrite !X. reflexivity.
Qed.
Print Assumptions C125_sosemanuk_states_meet.

(** In particular the upper 31 bits of the first register never count. *)
Theorem C125_sosemanuk_upper_bits_unused : forall scratch cs r m out inp data,
  length (s cs) = 10 -> words_ok (s cs) -> (R1 cs < 2^32)%N -> (R2 cs < 2^32)%N -> (r < 2^32)%N -> N.odd r = N.odd (R1 cs) ->
  has_bytes m inp data -> writable m out (length data) -> same_or_disjoint out inp (length data) ->
  sosemanuk_process_packet scratch (Sosemanuk (serpent_cs cs) (s cs) r (R2 cs)) m out inp (N.of_nat (length data)) =
  sosemanuk_process_packet scratch cs m out inp (N.of_nat (length data)).
Proof.
  intros scratch cs r m out inp data E W H1 H2 Hr Ho. apply C125_sosemanuk_states_meet; try assumption. unfold carried. rewrite Ho. reflexivity.
Qed.
Print Assumptions C125_sosemanuk_upper_bits_unused.

(** C125 refuted: two different states, one packet, one resulting state. *)
Theorem C125_sosemanuk_states_apart_refuted : exists scratch cs cs' m out inp data cs1 m1,
  length (s cs) = 10 /\ words_ok (s cs) /\ length (s cs') = 10 /\ words_ok (s cs') /\
  (R1 cs < 2^32 /\ R2 cs < 2^32 /\ R1 cs' < 2^32 /\ R2 cs' < 2^32)%N /\
  has_bytes m inp data /\ writable m out (length data) /\ disjoint out (length data) inp (length data) /\ length data = 16 /\
  cs <> cs' /\
  sosemanuk_process_packet scratch cs m out inp (N.of_nat (length data)) = Ret (cs1, m1) /\
  sosemanuk_process_packet scratch cs' m out inp (N.of_nat (length data)) = Ret (cs1, m1).
Proof.
  set (l := [1; 2; 3; 4; 5; 6; 7; 8; 9; 10]%N). set (cs := Sosemanuk [] l 5 7). set (cs' := Sosemanuk [] l 0x80000001 7).
  set (m := [holding (repeat 65%N 16); fresh 16]). set (data := repeat 65%N 16).
  assert (W : words_ok l) by (repeat (apply Forall_cons; [reflexivity|]); apply Forall_nil).
  assert (A1 : has_bytes m (Ptr 0 0) data) by conc_has_bytes.
  assert (A2 : writable m (Ptr 1 0) (length data)) by conc_writable.
  assert (A3 : disjoint (Ptr 1 0) (length data) (Ptr 0 0) (length data)) by conc_disjoint.
  assert (K : st_ok (view cs)) by (repeat split; try reflexivity; exact W).
  pose proof (process_loaded 0 [] (view cs) m (Ptr 1 0) (Ptr 0 0) data K A1 A2 (or_intror A3)) as E.
  change (unview [] (view cs)) with cs in E.
  exists 0%N, cs, cs', m, (Ptr 1 0), (Ptr 0 0), data. do 2 eexists.
  do 4 (split; [first [reflexivity|exact W]|]). split; [repeat split|]. do 3 (split; [assumption|]). split; [reflexivity|].
  split; [discriminate|]. split; [exact E|].
  rewrite <- E. apply (C125_sosemanuk_upper_bits_unused 0 cs 0x80000001 m (Ptr 1 0) (Ptr 0 0) data); try assumption; try reflexivity.
  right. exact A3.
Qed.
Print Assumptions C125_sosemanuk_states_apart_refuted.

(** Where the property holds: states whose shift registers differ stay apart. *)
Theorem C125_sosemanuk_registers_stay_apart : forall scratch cs cs' pks pks' cs1 cs1',
  length (s cs) = 10 -> words_ok (s cs) -> length (s cs') = 10 -> words_ok (s cs') ->
  (R1 cs < 2^32 /\ R2 cs < 2^32 /\ R1 cs' < 2^32 /\ R2 cs' < 2^32)%N ->
  Forall packet_ok pks -> Forall packet_ok pks' -> blocks pks = blocks pks' ->
  history scratch cs pks cs1 -> history scratch cs' pks' cs1' ->
  s cs1 = s cs1' -> s cs = s cs'.
Proof.
  intros scratch cs cs' pks pks' cs1 cs1' A B A' B' (H1 & H2 & H3 & H4) P P' Eb Hh Hh' Es.
  assert (K : st_ok (view cs)) by (repeat split; assumption).
  assert (K' : st_ok (view cs')) by (repeat split; assumption).
  rewrite (history_steps scratch pks cs cs1 K P Hh), (history_steps scratch pks' cs' cs1' K' P' Hh') in Es.
  cbn [unview s] in Es. rewrite !qs_lfsr, <- Eb in Es. apply nexts_inj in Es; assumption.
Qed.
Print Assumptions C125_sosemanuk_registers_stay_apart.

(** The specification's step can be undone. *)
Lemma trans_inj x y : (x < 2^32)%N -> (y < 2^32)%N -> SosemanukSpec.trans x = SosemanukSpec.trans y -> x = y.
Proof.
  intros Hx Hy E. unfold SosemanukSpec.trans in E. apply (f_equal (rol_w32 (32 - 7))) in E.
  rewrite !rol_w32_inv in E by (try (apply N.mod_lt; discriminate); split; reflexivity).
  apply (f_equal (fun z => (324643511 * z) mod 2^32)%N) in E. rewrite !N.mul_mod_idemp_r, !N.mul_assoc in E by discriminate.
  change (324643511 * 0x54655307)%N with (107025579 * 2^32 + 1)%N in E.
  assert (X : forall z, (z < 2^32 -> ((107025579 * 2^32 + 1) * z) mod 2^32 = z)%N).
  { intros z Hz. replace ((107025579 * 2^32 + 1) * z)%N with (z + (107025579 * z) * 2^32)%N by ring. rewrite N.mod_add by discriminate. apply N.mod_small, Hz. }
  rewrite !X in E by assumption. exact E.
Qed.
Lemma add_w32_inj x y c : (x < 2^32)%N -> (y < 2^32)%N -> add_w32 x c = add_w32 y c -> x = y.
Proof.
  intros Hx Hy E. unfold add_w32 in E. change (2^32)%N with 4294967296%N in *.
  apply (f_equal (fun z => (z + (4294967296 - c mod 4294967296)) mod 4294967296)%N) in E.
  rewrite !N.add_mod_idemp_l in E by discriminate.
  pose proof (N.mod_lt c 4294967296 ltac:(discriminate)) as Hc. pose proof (N.div_mod c 4294967296 ltac:(discriminate)) as Dc.
  assert (X : forall z, (z < 4294967296 -> (z + c + (4294967296 - c mod 4294967296)) mod 4294967296 = z)%N).
  { intros z Hz. replace (z + c + (4294967296 - c mod 4294967296))%N with (z + (c / 4294967296 + 1) * 4294967296)%N by lia.
    rewrite N.mod_add by discriminate. apply N.mod_small, Hz. }
  rewrite !X in E by assumption. exact E.
Qed.
Theorem C125_specification_states_apart : forall q q' f f' w w' q1,
  length (SosemanukSpec.lfsr q) = 10 -> words_ok (SosemanukSpec.lfsr q) ->
  length (SosemanukSpec.lfsr q') = 10 -> words_ok (SosemanukSpec.lfsr q') ->
  (SosemanukSpec.fsm1 q < 2^32 /\ SosemanukSpec.fsm2 q < 2^32 /\ SosemanukSpec.fsm1 q' < 2^32 /\ SosemanukSpec.fsm2 q' < 2^32)%N ->
  SosemanukSpec.step true q = (f, w, q1) -> SosemanukSpec.step true q' = (f', w', q1) -> q = q'.
Proof.
  intros [l r1 r2] [l' r1' r2'] f f' w w' q1 A B A' B' (H1 & H2 & H3 & H4) E E'.
  cbn [SosemanukSpec.lfsr SosemanukSpec.fsm1 SosemanukSpec.fsm2] in *.
  apply (f_equal snd) in E. apply (f_equal snd) in E'. cbn [snd] in E, E'. rewrite <- E' in E. clear E'.
  assert (Xl := f_equal SosemanukSpec.lfsr E). assert (X1 := f_equal SosemanukSpec.fsm1 E). assert (X2 := f_equal SosemanukSpec.fsm2 E). clear E.
  cbn [SosemanukSpec.step snd SosemanukSpec.lfsr SosemanukSpec.fsm1 SosemanukSpec.fsm2] in Xl, X1, X2.
  apply lfsr_next_inj in Xl; try assumption. subst l'. apply trans_inj in X2; try assumption. subst r1'.
  apply add_w32_inj in X1; try assumption. subst r2'. reflexivity.
Qed.
Print Assumptions C125_specification_states_apart.

(** A loaded state and a packet to which the theorems apply. *)
Example C123_instance :
  let m := [holding (repeat 1%N 16); holding (repeat 2%N 16); holding (repeat 3%N 16); fresh 16] in
  let p := Packet m (Ptr 3 0) (Ptr 0 0) (repeat 1%N 16) in
  exists cs cs', reached cs /\ s cs <> repeat 0%N 10 /\ Forall packet_ok [p] /\ blocks [p] = 2 /\ history 0 cs [p] cs'.
Proof.
  intros m p.
  assert (A1 : has_bytes m (Ptr 0 0) (repeat 1%N 16)) by conc_has_bytes.
  assert (A2 : has_bytes m (Ptr 1 0) (repeat 2%N 16)) by conc_has_bytes.
  assert (P : packet_ok p) by (split; [conc_has_bytes|split; [conc_writable|right; conc_disjoint]]).
  destruct (loading 0 0 (Sosemanuk [] [] 0 0) m (Ptr 0 0) _ m (Ptr 1 0) _ A1 ltac:(cbn; lia) A2 eq_refl) as (c & E1 & E2).
  do 2 eexists.
  assert (R : reached _) by (eapply after_key; [exact A1| |exact A2|reflexivity|exact E1|exact E2]; cbn; lia).
  split; [exact R|].
  split; [vm_compute; discriminate|]. split; [apply Forall_cons; [exact P|apply Forall_nil]|]. split; [reflexivity|].
  pose proof (reached_ok _ R) as K. rewrite view_unview in K. destruct P as (P1 & P2 & P3).
  cbn [history]. rewrite process_loaded by assumption. do 2 eexists. split; reflexivity.
Qed.
Example C124_instance :
  let m := [holding (repeat 1%N 16); holding (repeat 2%N 16); holding (repeat 3%N 16); fresh 16] in
  has_bytes m (Ptr 0 0) (repeat 1%N 16) /\ has_bytes m (Ptr 1 0) (repeat 2%N 16) /\ has_bytes m (Ptr 2 0) (repeat 3%N 16) /\
  repeat 2%N 16 <> repeat 3%N 16 /\
  blocks [Packet m (Ptr 3 0) (Ptr 0 0) (repeat 1%N 16)] =
  blocks [Packet m (Ptr 3 0) (Ptr 0 0) (repeat 1%N 5); Packet m (Ptr 3 0) (Ptr 0 0) (repeat 1%N 5)].
Proof. intros m. split; [conc_has_bytes|]. split; [conc_has_bytes|]. split; [conc_has_bytes|]. split; [discriminate|reflexivity]. Qed.
Example C125_instance :
  let l := [1; 2; 3; 4; 5; 6; 7; 8; 9; 10]%N in
  length l = 10 /\ words_ok l /\ carried l 4 7 = carried l 5 6 /\ N.odd 5 = N.odd 0x80000001.
Proof. split; [reflexivity|]. split; [repeat (apply Forall_cons; [reflexivity|]); apply Forall_nil|]. split; reflexivity. Qed.
