(** Property C141: which table entries StreamCiphers/Sosemanuk reads. *)
From Coq Require Import Arith NArith ZArith List Bool Lia.
From Verif Require Import Res Words Mem MemSpec ListLemmas MemLemmas SpecWords WordsLemmas XorProofs ShaProofs Concrete SyncSpec
  SerpentModel SosemanukTables SosemanukModel SosemanukProofs SosemanukLookupSpec SosemanukLookupModel.
From Verif Require SerpentSpec SosemanukSpec SosemanukProps SosemanukCycleProps LoadOrderProps.
Import ListNotations.
Local Open Scope nat_scope.

(** ** The listing functions do what the functions of SosemanukModel do *)
Definition step_seen (cs : sosemanuk_state) : list entry :=
  [(OfDivision, u8 (el (s cs) 3)); (OfMultiplication, u8 (shr32 (el (s cs) 0) 24))].
Lemma lfsr_seen_eq cs tr : lfsr_update_seen cs tr =
  (fst (sosemanuk_lfsr_update cs), snd (sosemanuk_lfsr_update cs), tr ++ step_seen cs).
Proof. reflexivity. Qed.

Definition lfsr_words (l : list N) : Prop := length l = 10 /\ words_ok l.
Lemma lfsr_words_next l : lfsr_words l -> lfsr_words (SosemanukSpec.lfsr_next l).
Proof. intros [L W]. exact (lfsr_next_ok l L W). Qed.

Lemma step_seen_ok cs : lfsr_words (s cs) -> step_seen cs = step_entries (s cs).
Proof.
  intros [L W]. unfold step_seen, step_entries, el. rewrite u8_mod. do 4 f_equal.
  change (byte_of (nth 0 (s cs) 0%N) 3 = (nth 0 (s cs) 0 / 2^24)%N). rewrite byte_of_spec.
  change (8 * 3)%N with 24%N. apply N.mod_small.
  apply N.div_lt_upper_bound; [discriminate|]. change (2^24 * 256)%N with (2^32)%N. apply words_ok_nth. exact W.
Qed.

Lemma fsm_s cs : s (snd (sosemanuk_fsm_update cs)) = s cs.
Proof. reflexivity. Qed.
Lemma lfsr_s cs : lfsr_words (s cs) -> s (snd (sosemanuk_lfsr_update cs)) = SosemanukSpec.lfsr_next (s cs).
Proof. intros [L W]. rewrite lfsr_ok by assumption. reflexivity. Qed.

#[local] Opaque sosemanuk_fsm_update sosemanuk_lfsr_update SosemanukSpec.lfsr_next.

Lemma block_seen_eq scratch cs tr : lfsr_words (s cs) ->
  block_seen scratch cs tr =
    (fst (sosemanuk_block scratch cs), snd (sosemanuk_block scratch cs), tr ++ steps_entries 4 (s cs)) /\
  s (snd (sosemanuk_block scratch cs)) = Nat.iter 4 SosemanukSpec.lfsr_next (s cs).
Proof.
  intros H. unfold block_seen, sosemanuk_block.
  do 4 (
    match goal with |- context [sosemanuk_fsm_update ?c] =>
      let E := fresh "E" in let a := fresh "a" in let d := fresh "d" in
      pose proof (fsm_s c) as E; destruct (sosemanuk_fsm_update c) as [a d]; cbn [fst snd] in E end;
    rewrite lfsr_seen_eq;
    match goal with |- context [sosemanuk_lfsr_update ?c] =>
      let E := fresh "E" in let H' := fresh "H" in let X := fresh "X" in
      assert (H' : lfsr_words (s c)) by congruence;
      pose proof (step_seen_ok c H') as X; rewrite X;
      pose proof (lfsr_s c H') as E; apply lfsr_words_next in H'; rewrite <- E in H';
      let a := fresh "a" in let d := fresh "d" in
      destruct (sosemanuk_lfsr_update c) as [a d]; cbn [fst snd] in * end).
  match goal with |- context [serpent1 ?a ?b ?c ?d scratch] => destruct (serpent1 a b c d scratch) as [[[f0 f1] f2] f3] end.
  cbn [fst snd steps_entries]. rewrite <- !app_assoc, app_nil_r.
  assert (G : forall a b c d : list entry, forall A B C D, a = A -> b = B -> c = C -> d = D -> a ++ b ++ c ++ d = A ++ B ++ C ++ D)
    by (intros; subst; reflexivity).
  split; [f_equal; f_equal; apply G; f_equal; congruence|].
  cbn [Nat.iter nat_rect]. congruence.
Qed.
#[local] Opaque sosemanuk_block block_seen.

Lemma iter_comm {A} (f : A -> A) a x : Nat.iter a f (f x) = f (Nat.iter a f x).
Proof. induction a as [|a IH]; [reflexivity|]. exact (f_equal f IH). Qed.

Lemma steps_app a b l : steps_entries (a + b) l = steps_entries a l ++ steps_entries b (Nat.iter a SosemanukSpec.lfsr_next l).
Proof.
  revert l. induction a as [|a IH]; intros l; [reflexivity|].
  change (S a + b) with (S (a + b)). cbn [steps_entries]. rewrite IH, <- app_assoc. do 3 f_equal.

  apply iter_comm.
Qed.

(** The first loop: as many blocks as there are whole ones in the packet. *)
Lemma while_seen scratch fuel : forall cs m out inp size tr, lfsr_words (s cs) ->
  let n := N.to_nat (size / 16) in
  while fuel
      (fun '(cs, m, out, inp, size, tr) => (16 <=? size)%N)
      (fun '(cs, m, out, inp, size, tr) =>
         let '(s_buf, cs, tr) := block_seen scratch cs tr in
         let* m := xor_word m out inp (el s_buf 0) in
         let* m := xor_word m (padd out 4) (padd inp 4) (el s_buf 1) in
         let* m := xor_word m (padd out 8) (padd inp 8) (el s_buf 2) in
         let* m := xor_word m (padd out 12) (padd inp 12) (el s_buf 3) in
         Ret (cs, m, padd out 16, padd inp 16, (size - 16)%N, tr))
      (cs, m, out, inp, size, tr) =
  (let* (cs', m', out', inp', size') :=
     while fuel
      (fun '(cs, m, out, inp, size) => (16 <=? size)%N)
      (fun '(cs, m, out, inp, size) =>
         let (s_buf, cs) := sosemanuk_block scratch cs in
         let* m := xor_word m out inp (el s_buf 0) in
         let* m := xor_word m (padd out 4) (padd inp 4) (el s_buf 1) in
         let* m := xor_word m (padd out 8) (padd inp 8) (el s_buf 2) in
         let* m := xor_word m (padd out 12) (padd inp 12) (el s_buf 3) in
         Ret (cs, m, padd out 16, padd inp 16, (size - 16)%N))
      (cs, m, out, inp, size) in
   Ret (cs', m', out', inp', size', tr ++ steps_entries (4 * n) (s cs))) /\
  forall r, while fuel
      (fun '(cs, m, out, inp, size) => (16 <=? size)%N)
      (fun '(cs, m, out, inp, size) =>
         let (s_buf, cs) := sosemanuk_block scratch cs in
         let* m := xor_word m out inp (el s_buf 0) in
         let* m := xor_word m (padd out 4) (padd inp 4) (el s_buf 1) in
         let* m := xor_word m (padd out 8) (padd inp 8) (el s_buf 2) in
         let* m := xor_word m (padd out 12) (padd inp 12) (el s_buf 3) in
         Ret (cs, m, padd out 16, padd inp 16, (size - 16)%N))
      (cs, m, out, inp, size) = Ret r ->
    s (fst (fst (fst (fst r)))) = Nat.iter (4 * n) SosemanukSpec.lfsr_next (s cs).
Proof.
  induction fuel as [|fuel IH]; intros cs m out inp size tr H n; [split; [reflexivity|discriminate]|].
  cbn [while].
  destruct (N.leb_spec 16 size) as [G|G].
  - destruct (block_seen_eq scratch cs tr H) as [E Es]. rewrite E.
    destruct (sosemanuk_block scratch cs) as [sb cs1]. cbn [fst snd] in *. clear E.
    assert (H1 : lfsr_words (s cs1)).
    { rewrite Es. cbn [Nat.iter nat_rect]. do 4 apply lfsr_words_next. exact H. }
    assert (En : n = S (N.to_nat ((size - 16) / 16))).
    { unfold n. replace size with ((size - 16) + 1 * 16)%N at 1 by lia. rewrite N.div_add by discriminate. lia. }
    destruct (xor_word m out inp (el sb 0)) as [m1| |]; cbn [bind]; [|split; [reflexivity|discriminate]..].
    destruct (xor_word m1 (padd out 4) (padd inp 4) (el sb 1)) as [m2| |]; cbn [bind]; [|split; [reflexivity|discriminate]..].
    destruct (xor_word m2 (padd out 8) (padd inp 8) (el sb 2)) as [m3| |]; cbn [bind]; [|split; [reflexivity|discriminate]..].
    destruct (xor_word m3 (padd out 12) (padd inp 12) (el sb 3)) as [m4| |]; cbn [bind]; [|split; [reflexivity|discriminate]..].
    destruct (IH cs1 m4 (padd out 16) (padd inp 16) (size - 16)%N (tr ++ steps_entries 4 (s cs)) H1) as [I1 I2].
    rewrite I1. rewrite En. rewrite Es in I2 |- *. set (k := N.to_nat ((size - 16) / 16)) in *.
    replace (4 * S k) with (4 + 4 * k) by lia. rewrite steps_app, <- app_assoc. split; [reflexivity|].
    intros r Er. rewrite (I2 r Er). cbn [Nat.iter nat_rect Nat.add]. rewrite !iter_comm. reflexivity.
  - assert (En : n = 0) by (unfold n; rewrite N.div_small by lia; reflexivity).
    rewrite En. cbn [bind Nat.mul steps_entries Nat.iter nat_rect]. rewrite app_nil_r. split; [reflexivity|].
    intros r Er. apply Ret_inj in Er. subst r. reflexivity.
Qed.

(** The packet function does what it does, and reads the entries of the
    specification for one block more than the packet has whole ones, whatever the
    buffers (also when it fails). *)
Lemma process_seen_eq scratch cs m out inp size : lfsr_words (s cs) ->
  process_packet_seen scratch cs m out inp size =
  (let* (cs', m') := sosemanuk_process_packet scratch cs m out inp size in
   Ret (cs', m', steps_entries (4 * (N.to_nat (size / 16) + 1)) (s cs))).
Proof.
  intros H. unfold process_packet_seen, sosemanuk_process_packet.
  destruct (while_seen scratch (S (N.to_nat size)) cs m out inp size [] H) as [E1 E2]. rewrite E1.
  destruct (while (S (N.to_nat size)) _ _ (cs, m, out, inp, size)) as [[[[[c1 m1] o1] i1] z1]| |]; cbn [bind]; [|reflexivity..].
  specialize (E2 _ eq_refl). cbn [fst] in E2.
  set (n := N.to_nat (size / 16)) in *.
  assert (H1 : lfsr_words (s c1)).
  { rewrite E2. generalize (4 * n) as k. induction k as [|k IH]; [exact H|]. apply lfsr_words_next. exact IH. }
  destruct (block_seen_eq scratch c1 ([] ++ steps_entries (4 * n) (s cs)) H1) as [Eb _]. rewrite Eb.
  destruct (sosemanuk_block scratch c1) as [sb c2]. cbn [fst snd]. clear Eb.
  match goal with |- bind ?w _ = _ => destruct w as [[[[[i2 m2] o2] i3] z2]| |]; cbn [bind]; [|reflexivity..] end.
  match goal with |- bind ?w _ = _ => destruct w as [m3| |]; cbn [bind]; [|reflexivity..] end.
  rewrite E2. cbn [app]. replace (4 * (n + 1)) with (4 * n + 4) by lia. rewrite steps_app. reflexivity.
Qed.

(** From a loaded state: the entries of the specification for the state that key
    and IV give. *)
Theorem C141_sosemanuk_packet_lookups : forall scratch cs0 m key k m' p iv m'' out inp data,
  has_bytes m key k -> length k <= 32 -> has_bytes m' p iv -> length iv = 16 ->
  has_bytes m'' inp data -> writable m'' out (length data) -> same_or_disjoint out inp (length data) ->
  exists ks cs cs' m3,
    sosemanuk_load_key scratch cs0 m key (Z.of_nat (length k)) = Ret (Some ks) /\
    sosemanuk_load_iv scratch ks m' p = Ret cs /\
    sosemanuk_process_packet scratch cs m'' out inp (N.of_nat (length data)) = Ret (cs', m3) /\
    process_packet_seen scratch cs m'' out inp (N.of_nat (length data)) = Ret (cs', m3,
      steps_entries (4 * (length data / 16 + 1))
        (SosemanukSpec.lfsr (SosemanukSpec.init (SerpentSpec.subkeys_of (SerpentSpec.pad_with 0x80 k)) iv))).
Proof.
  intros scratch cs0 m key k m' p iv m'' out inp data Hk Lk Hiv Liv Hd Ho Hv.
  destruct (SosemanukProps.loading scratch scratch cs0 m key k m' p iv Hk Lk Hiv Liv) as (ks & E1 & E2).
  pose proof (SosemanukProps.loaded_ok k iv (has_bytes_bytes _ _ _ Hiv) Liv) as Q.
  pose proof (process_loaded scratch (concat (SosemanukProps.code_subkeys k)) _ m'' out inp data Q Hd Ho Hv) as E3.
  exists ks. do 3 eexists. split; [exact E1|]. split; [exact E2|]. split; [exact E3|].
  rewrite process_seen_eq, E3 by (destruct Q as (L & W & _); split; assumption).
  cbn [bind unview s]. do 3 f_equal.
  change 16%N with (N.of_nat 16). rewrite <- Nat2N.inj_div, Nat2N.id. reflexivity.
Qed.
Print Assumptions C141_sosemanuk_packet_lookups.

(** ** What the entries show *)

(** The word that leaves the LFSR at step t. *)
Definition word_out (l : list N) (t : nat) : N := nth 0 (Nat.iter t SosemanukSpec.lfsr_next l) 0%N.

Lemma iter_words l t : lfsr_words l -> lfsr_words (Nat.iter t SosemanukSpec.lfsr_next l).
Proof. intros H. induction t as [|t IH]; [exact H|]. apply lfsr_words_next. exact IH. Qed.

#[local] Transparent SosemanukSpec.lfsr_next.
Lemma next_nth l i : lfsr_words l -> i < 9 -> nth i (SosemanukSpec.lfsr_next l) 0%N = nth (S i) l 0%N.
Proof.
  intros [L _] Hi. unfold SosemanukSpec.lfsr_next. destruct l as [|a l]; [discriminate L|]. cbn [tl nth length] in *.
  apply app_nth1. lia.
Qed.
Lemma next_last l : lfsr_words l -> nth 9 (SosemanukSpec.lfsr_next l) 0%N = SosemanukSpec.feedback l.
Proof.
  intros [L _]. unfold SosemanukSpec.lfsr_next. destruct l as [|a l]; [discriminate L|]. cbn [tl length] in *.
  rewrite app_nth2 by lia. replace (9 - length l) with 0 by lia. reflexivity.
Qed.
#[local] Opaque SosemanukSpec.lfsr_next.

Lemma window l : lfsr_words l -> forall i t, i < 10 ->
  nth i (Nat.iter t SosemanukSpec.lfsr_next l) 0%N = word_out l (t + i).
Proof.
  intros H. induction i as [|i IH]; intros t Hi; [rewrite Nat.add_0_r; reflexivity|].
  rewrite <- next_nth by (try apply iter_words; try assumption; lia).
  change (SosemanukSpec.lfsr_next (Nat.iter t SosemanukSpec.lfsr_next l)) with (Nat.iter (S t) SosemanukSpec.lfsr_next l).
  rewrite IH by lia. f_equal. lia.
Qed.
Lemma word_out_lt l t : lfsr_words l -> (word_out l t < 2^32)%N.
Proof. intros H. apply words_ok_nth. apply (iter_words l t H). Qed.

(** The recurrence, byte by byte. *)
Definition row_a (c : N) (i : nat) : N := nth i (alpha_row c) 0%N.
Definition row_d (c : N) (i : nat) : N := nth i (inv_alpha_row c) 0%N.
#[local] Opaque SosemanukSpec.gf_mul SosemanukSpec.beta_pow.
Lemma recurrence l t : lfsr_words l ->
  let b j i := byte_of (word_out l (t + j)) i in
  b 10 0%N = N.lxor (b 9 0%N) (N.lxor (N.lxor (b 3 1%N) (row_d (b 3 0%N) 0)) (N.lxor 0 (row_a (b 0 3%N) 0))) /\
  b 10 1%N = N.lxor (b 9 1%N) (N.lxor (N.lxor (b 3 2%N) (row_d (b 3 0%N) 1)) (N.lxor (b 0 0%N) (row_a (b 0 3%N) 1))) /\
  b 10 2%N = N.lxor (b 9 2%N) (N.lxor (N.lxor (b 3 3%N) (row_d (b 3 0%N) 2)) (N.lxor (b 0 1%N) (row_a (b 0 3%N) 2))) /\
  b 10 3%N = N.lxor (b 9 3%N) (N.lxor (N.lxor 0 (row_d (b 3 0%N) 3)) (N.lxor (b 0 2%N) (row_a (b 0 3%N) 3))).
Proof.
  intros H b. pose proof (iter_words l t H) as Ht.
  assert (E : word_out l (t + 10) = N.lxor (word_out l (t + 9))
     (N.lxor (SosemanukSpec.alpha_div (word_out l (t + 3))) (SosemanukSpec.alpha_mul (word_out l (t + 0))))).
  { replace (t + 10) with (S t + 9) by lia.
    rewrite <- (window l H 9 (S t)), <- (window l H 9 t), <- (window l H 3 t), <- (window l H 0 t) by lia.
    exact (next_last _ Ht). }
  assert (X : bytes_of_le32 (word_out l (t + 10)) = xor_bytes (bytes_of_le32 (word_out l (t + 9)))
     (xor_bytes (xor_bytes [b 3 1%N; b 3 2%N; b 3 3%N; 0%N] (inv_alpha_row (b 3 0%N)))
                (xor_bytes [0%N; b 0 0%N; b 0 1%N; b 0 2%N] (alpha_row (b 0 3%N))))).
  { rewrite E, !bytes_of_le32_lxor.
    rewrite (proj1 (alpha_div_bytes (word_out l (t + 3)))), (proj1 (alpha_mul_bytes (word_out l (t + 0)))). reflexivity. }
  unfold row_a, row_d, alpha_row, inv_alpha_row in *. unfold bytes_of_le32 in X.
  cbn [map nth xor_bytes combine fst snd] in X |- *. unfold xor_bytes in X. cbn [map combine fst snd] in X.
  pose proof (f_equal (fun v => nth 0 v 0%N) X) as X0. pose proof (f_equal (fun v => nth 1 v 0%N) X) as X1.
  pose proof (f_equal (fun v => nth 2 v 0%N) X) as X2. pose proof (f_equal (fun v => nth 3 v 0%N) X) as X3.
  cbn [nth] in X0, X1, X2, X3. split; [exact X0|]. split; [exact X1|]. split; [exact X2|exact X3].
Qed.

Lemma cancel3 a y h x g : N.lxor a (N.lxor (N.lxor y h) (N.lxor x g)) = N.lxor y (N.lxor a (N.lxor h (N.lxor x g))).
Proof. apply N.bits_inj. intros k. rewrite !N.lxor_spec. repeat destruct (N.testbit _ k); reflexivity. Qed.
Lemma cancel4 a y h x g : N.lxor a (N.lxor (N.lxor y h) (N.lxor x g)) = N.lxor x (N.lxor a (N.lxor (N.lxor y h) g)).
Proof. apply N.bits_inj. intros k. rewrite !N.lxor_spec. repeat destruct (N.testbit _ k); reflexivity. Qed.
Lemma lxor_inj_r a b c : N.lxor a c = N.lxor b c -> a = b.
Proof. intros E. rewrite <- (lxor_cancel2 a c), E. apply lxor_cancel2. Qed.

(** Two registers whose table indices agree for 24 steps are equal. *)
Lemma indices_determine l l' : lfsr_words l -> lfsr_words l' ->
  (forall t, t < 24 -> byte_of (word_out l t) 3 = byte_of (word_out l' t) 3 /\
                       byte_of (word_out l (t + 3)) 0 = byte_of (word_out l' (t + 3)) 0) -> l = l'.
Proof.
  intros H H' S.
  pose (K := fun t i => byte_of (word_out l t) i = byte_of (word_out l' t) i).
  assert (B3 : forall t, t < 24 -> K t 3%N) by (intros t Ht; apply (S t Ht)).
  assert (B0 : forall t, 3 <= t < 27 -> K t 0%N).
  { intros t Ht. pose proof (proj2 (S (t - 3) ltac:(lia))) as E. replace (t - 3 + 3) with t in E by lia. exact E. }
  assert (B1 : forall t, 3 <= t < 17 -> K t 1%N).
  { intros t Ht. destruct (recurrence l (t - 3) H) as (E & _). destruct (recurrence l' (t - 3) H') as (E' & _).
    cbv zeta in E, E'. rewrite !cancel3 in E, E'.
    replace (t - 3 + 3) with t in * by lia. replace (t - 3 + 0) with (t - 3) in * by lia.
    replace (t - 3 + 10) with (t + 7) in * by lia. replace (t - 3 + 9) with (t + 6) in * by lia.
    pose proof (B0 (t + 7) ltac:(lia)) as e1. pose proof (B0 (t + 6) ltac:(lia)) as e2. pose proof (B0 t ltac:(lia)) as e3.
    pose proof (B3 (t - 3) ltac:(lia)) as e4. unfold K in *. rewrite e1, e2, e3, e4 in E.
    apply (lxor_inj_r _ _ _ (eq_trans (eq_sym E) E')). }
  assert (B2 : forall t, t < 14 -> K t 2%N).
  { intros t Ht. destruct (recurrence l t H) as (_ & _ & _ & E). destruct (recurrence l' t H') as (_ & _ & _ & E').
    cbv zeta in E, E'. rewrite !cancel4 in E, E'. rewrite (Nat.add_0_r t) in *.
    pose proof (B3 (t + 10) ltac:(lia)) as e1. pose proof (B3 (t + 9) ltac:(lia)) as e2. pose proof (B0 (t + 3) ltac:(lia)) as e3.
    pose proof (B3 t ltac:(lia)) as e4. unfold K in *. rewrite e1, e2, e3, e4 in E.
    apply (lxor_inj_r _ _ _ (eq_trans (eq_sym E) E')). }
  assert (A0 : forall t, t < 3 -> K t 0%N).
  { intros t Ht. destruct (recurrence l t H) as (_ & E & _). destruct (recurrence l' t H') as (_ & E' & _).
    cbv zeta in E, E'. rewrite !cancel4 in E, E'. rewrite (Nat.add_0_r t) in *.
    pose proof (B1 (t + 10) ltac:(lia)) as e1. pose proof (B1 (t + 9) ltac:(lia)) as e2. pose proof (B0 (t + 3) ltac:(lia)) as e3.
    pose proof (B3 t ltac:(lia)) as e4. pose proof (B2 (t + 3) ltac:(lia)) as e5. unfold K in *. rewrite e1, e2, e3, e4, e5 in E.
    apply (lxor_inj_r _ _ _ (eq_trans (eq_sym E) E')). }
  assert (A1 : forall t, t < 3 -> K t 1%N).
  { intros t Ht. destruct (recurrence l t H) as (_ & _ & E & _). destruct (recurrence l' t H') as (_ & _ & E' & _).
    cbv zeta in E, E'. rewrite !cancel4 in E, E'. rewrite (Nat.add_0_r t) in *.
    pose proof (B2 (t + 10) ltac:(lia)) as e1. pose proof (B2 (t + 9) ltac:(lia)) as e2. pose proof (B0 (t + 3) ltac:(lia)) as e3.
    pose proof (B3 t ltac:(lia)) as e4. pose proof (B3 (t + 3) ltac:(lia)) as e5. unfold K in *. rewrite e1, e2, e3, e4, e5 in E.
    apply (lxor_inj_r _ _ _ (eq_trans (eq_sym E) E')). }
  assert (D : forall t, t < 10 -> word_out l t = word_out l' t).
  { intros t Ht. apply word_ext; [apply word_out_lt; assumption..|]. unfold bytes_of_le32.
    assert (K t 0%N) as -> by (destruct (Nat.ltb_spec t 3); [apply A0|apply B0]; lia).
    assert (K t 1%N) as -> by (destruct (Nat.ltb_spec t 3); [apply A1|apply B1]; lia).
    assert (K t 2%N) as -> by (apply B2; lia). assert (K t 3%N) as -> by (apply B3; lia). reflexivity. }
  apply (nth_ext l l' 0%N 0%N); [destruct H as [-> _], H' as [-> _]; reflexivity|].
  intros i Hi. destruct H as [L W] eqn:EH. rewrite L in Hi.
  change l with (Nat.iter 0 SosemanukSpec.lfsr_next l) at 1. change l' with (Nat.iter 0 SosemanukSpec.lfsr_next l') at 1.
  rewrite (window l H i 0 Hi), (window l' H' i 0 Hi). apply D. exact Hi.
Qed.

Lemma entries_at n : forall l t, t < n ->
  nth_error (steps_entries n l) (2 * t) = Some (OfDivision, (nth 3 (Nat.iter t SosemanukSpec.lfsr_next l) 0 mod 256)%N) /\
  nth_error (steps_entries n l) (2 * t + 1) = Some (OfMultiplication, (nth 0 (Nat.iter t SosemanukSpec.lfsr_next l) 0 / 2^24)%N).
Proof.
  induction n as [|n IH]; intros l t Ht; [lia|]. cbn [steps_entries]. destruct t as [|t]; [split; reflexivity|].
  destruct (IH (SosemanukSpec.lfsr_next l) t ltac:(lia)) as [E1 E2].
  replace (2 * S t) with (2 + 2 * t) by lia. unfold step_entries. cbn [app nth_error Nat.add].
  rewrite E1, E2. rewrite !iter_comm. split; reflexivity.
Qed.

Lemma nth_error_firstn' {A} n (l : list A) i : i < n -> nth_error (firstn n l) i = nth_error l i.
Proof.
  revert l i. induction n as [|n IH]; intros l i Hi; [lia|]. destruct l as [|a l]; [destruct i; reflexivity|].
  destruct i as [|i]; [reflexivity|]. cbn [firstn nth_error]. apply IH. lia.
Qed.

(** Of any packet of 80 bytes or more, the first 48 entries determine the whole
    shift register, whatever the rest of the state, the data and the buffers. *)
Theorem C141_sosemanuk_lookups_determine_lfsr : forall scratch cs m out inp size c1 m1 tr cs' m' out' inp' size' c1' m1' tr',
  length (s cs) = 10 -> words_ok (s cs) -> length (s cs') = 10 -> words_ok (s cs') ->
  (80 <= size)%N -> (80 <= size')%N ->
  process_packet_seen scratch cs m out inp size = Ret (c1, m1, tr) ->
  process_packet_seen scratch cs' m' out' inp' size' = Ret (c1', m1', tr') ->
  firstn 48 tr = firstn 48 tr' -> s cs = s cs'.
Proof.
  intros scratch cs m out inp size c1 m1 tr cs' m' out' inp' size' c1' m1' tr' L W L' W' Hz Hz' E E' F.
  assert (H : lfsr_words (s cs)) by (split; assumption). assert (H' : lfsr_words (s cs')) by (split; assumption).
  assert (T : forall cs m out inp size c1 m1 tr, lfsr_words (s cs) -> (80 <= size)%N ->
    process_packet_seen scratch cs m out inp size = Ret (c1, m1, tr) -> exists n, 24 <= n /\ tr = steps_entries n (s cs)).
  { clear. intros cs m out inp size c1 m1 tr H Hz E. rewrite process_seen_eq in E by exact H.
    destruct (sosemanuk_process_packet scratch cs m out inp size) as [[c2 m2]| |]; cbn [bind] in E; try discriminate E.
    exists (4 * (N.to_nat (size / 16) + 1)). split; [|apply Ret_inj in E; congruence].
    assert (5 <= size / 16)%N by (apply N.div_le_lower_bound; [discriminate|]; lia). lia. }
  destruct (T _ _ _ _ _ _ _ _ H Hz E) as (n & Hn & ->). destruct (T _ _ _ _ _ _ _ _ H' Hz' E') as (n' & Hn' & ->).
  apply (indices_determine _ _ H H'). intros t Ht.
  destruct (entries_at n (s cs) t ltac:(lia)) as [D1 M1]. destruct (entries_at n' (s cs') t ltac:(lia)) as [D2 M2].
  rewrite <- (nth_error_firstn' 48) in D1, M1, D2, M2 by lia. rewrite F in D1, M1.
  rewrite D1 in D2. rewrite M1 in M2. injection D2 as D. injection M2 as M.
  rewrite !window in D, M by (try assumption; lia). rewrite !Nat.add_0_r in M.
  assert (B : forall l t, lfsr_words l -> byte_of (word_out l t) 3 = (word_out l t / 2^24)%N /\
    byte_of (word_out l t) 0 = (word_out l t mod 256)%N).
  { clear. intros l t Hl. rewrite !byte_of_spec. change (8 * 3)%N with 24%N. change (2 ^ (8 * 0))%N with 1%N.
    rewrite N.div_1_r. split; [|reflexivity]. apply N.mod_small. apply N.div_lt_upper_bound; [discriminate|].
    apply (word_out_lt l t Hl). }
  rewrite (proj1 (B _ t H)), (proj1 (B _ t H')), (proj2 (B _ (t + 3) H)), (proj2 (B _ (t + 3) H')). split; assumption.
Qed.
Print Assumptions C141_sosemanuk_lookups_determine_lfsr.

(** What they leave open is one word of 32 bits: of two states with the same
    first 48 entries, whatever their keys, IVs and FSM registers, those that agree
    in that word encrypt all sequences of packets alike. *)
Theorem C141_sosemanuk_one_word_remains : forall scratch cs m out inp size c1 m1 tr cs' m' out' inp' size' c1' m1' tr' ds t es,
  length (s cs) = 10 -> words_ok (s cs) -> length (s cs') = 10 -> words_ok (s cs') ->
  (R1 cs < 2^32)%N -> (R2 cs < 2^32)%N -> (R1 cs' < 2^32)%N -> (R2 cs' < 2^32)%N ->
  (80 <= size)%N -> (80 <= size')%N ->
  process_packet_seen scratch cs m out inp size = Ret (c1, m1, tr) ->
  process_packet_seen scratch cs' m' out' inp' size' = Ret (c1', m1', tr') ->
  firstn 48 tr = firstn 48 tr' ->
  SosemanukCycleProps.carried (s cs) (R1 cs') (R2 cs') = SosemanukCycleProps.carried (s cs) (R1 cs) (R2 cs) ->
  sends (sosemanuk_process_packet scratch) cs ds t es ->
  exists t', sends (sosemanuk_process_packet scratch) cs' ds t' es.
Proof.
  intros scratch cs m out inp size c1 m1 tr cs' m' out' inp' size' c1' m1' tr' ds t es L W L' W' r1 r2 r1' r2' Hz Hz' E E' F C S.
  pose proof (C141_sosemanuk_lookups_determine_lfsr scratch cs m out inp size c1 m1 tr cs' m' out' inp' size' c1' m1' tr'
    L W L' W' Hz Hz' E E' F) as Es.
  pose (mid := Sosemanuk (serpent_cs cs) (s cs) (R1 cs') (R2 cs')).
  assert (X : cs' = LoadOrderProps.with_subkeys (serpent_cs cs') mid).
  { unfold LoadOrderProps.with_subkeys, mid. cbn [s R1 R2]. rewrite Es. destruct cs'. reflexivity. }
  assert (M : exists t', sends (sosemanuk_process_packet scratch) mid ds t' es).
  { destruct ds as [|d ds], es as [|e es]; cbn [sends] in S; try contradiction; [exists mid; reflexivity|].
    destruct S as (u & [Le Se] & S). exists t. cbn [sends]. exists u. split; [|exact S]. split; [exact Le|].
    intros q o i Hi Ho Hv. unfold mid.
    rewrite (SosemanukCycleProps.C125_sosemanuk_states_meet scratch cs (R1 cs') (R2 cs') q o i d) by assumption.
    apply Se; assumption. }
  destruct M as [t' M]. rewrite X. exists (LoadOrderProps.with_subkeys (serpent_cs cs') t').
  apply LoadOrderProps.sends_subkeys. exact M.
Qed.
Print Assumptions C141_sosemanuk_one_word_remains.

(** Under one IV, two keys give different entries. *)
Theorem C141_sosemanuk_lookups_independent_of_key_refuted : exists scratch cs0 m key1 k1 key2 k2 p iv out inp data
    ks1 c1 d1 m1 tr1 ks2 c2 d2 m2 tr2,
  has_bytes m key1 k1 /\ length k1 = 16 /\ has_bytes m key2 k2 /\ length k2 = 16 /\ has_bytes m p iv /\ length iv = 16 /\
  has_bytes m inp data /\ writable m out (length data) /\ length data = 4 /\
  sosemanuk_load_key scratch cs0 m key1 16 = Ret (Some ks1) /\ sosemanuk_load_iv scratch ks1 m p = Ret c1 /\
  process_packet_seen scratch c1 m out inp 4 = Ret (d1, m1, tr1) /\
  sosemanuk_load_key scratch cs0 m key2 16 = Ret (Some ks2) /\ sosemanuk_load_iv scratch ks2 m p = Ret c2 /\
  process_packet_seen scratch c2 m out inp 4 = Ret (d2, m2, tr2) /\
  tr1 <> tr2.
Proof.
  set (k1 := repeat 1%N 16). set (k2 := repeat 2%N 16). set (iv := repeat 3%N 16). set (d := repeat 4%N 4).
  set (m := [holding k1; holding k2; holding iv; holding d]).
  assert (H1 : has_bytes m (Ptr 0 0) k1) by conc_has_bytes. assert (H2 : has_bytes m (Ptr 1 0) k2) by conc_has_bytes.
  assert (Hi : has_bytes m (Ptr 2 0) iv) by conc_has_bytes. assert (Hd : has_bytes m (Ptr 3 0) d) by conc_has_bytes.
  assert (Wd : writable m (Ptr 3 0) (length d)) by conc_writable.
  assert (L1 : length k1 <= 32) by (unfold k1; rewrite repeat_length; lia).
  assert (L2 : length k2 <= 32) by (unfold k2; rewrite repeat_length; lia).
  destruct (C141_sosemanuk_packet_lookups 0 (Sosemanuk [] [] 0 0) m (Ptr 0 0) k1 m (Ptr 2 0) iv m (Ptr 3 0) (Ptr 3 0) d
    H1 L1 Hi eq_refl Hd Wd (or_introl eq_refl)) as (ks1 & c1 & d1 & m1 & A1 & A2 & _ & A3).
  destruct (C141_sosemanuk_packet_lookups 0 (Sosemanuk [] [] 0 0) m (Ptr 1 0) k2 m (Ptr 2 0) iv m (Ptr 3 0) (Ptr 3 0) d
    H2 L2 Hi eq_refl Hd Wd (or_introl eq_refl)) as (ks2 & c2 & d2 & m2 & B1 & B2 & _ & B3).
  exists 0%N, (Sosemanuk [] [] 0 0), m, (Ptr 0 0), k1, (Ptr 1 0), k2, (Ptr 2 0), iv, (Ptr 3 0), (Ptr 3 0), d.
  exists ks1, c1, d1, m1. eexists. exists ks2, c2, d2, m2. eexists.
  split; [exact H1|]. split; [reflexivity|]. split; [exact H2|]. split; [reflexivity|]. split; [exact Hi|]. split; [reflexivity|].
  split; [exact Hd|]. split; [exact Wd|]. split; [reflexivity|].
  split; [exact A1|]. split; [exact A2|]. split; [exact A3|]. split; [exact B1|]. split; [exact B2|]. split; [exact B3|].
  clear. intros E. apply (f_equal (fun l => nth 0 (map snd l) 0%N)) in E. revert E. vm_compute. discriminate.
Qed.
Print Assumptions C141_sosemanuk_lookups_independent_of_key_refuted.

(** Two states with one shift register, of which the one word is the same though
    both registers of the FSM differ, and a packet of 80 bytes. *)
Example C141_instance :
  let l := [1; 2; 3; 4; 5; 6; 7; 8; 9; 10]%N in
  let cs := Sosemanuk [] l 5 7 in
  let cs' := Sosemanuk [] l 4 8 in
  let m := [holding (repeat 65%N 80)] in
  length (s cs) = 10 /\ words_ok (s cs) /\
  SosemanukCycleProps.carried (s cs) (R1 cs') (R2 cs') = SosemanukCycleProps.carried (s cs) (R1 cs) (R2 cs) /\
  exists c1 m1 tr c1' m1' tr',
    process_packet_seen 0 cs m (Ptr 0 0) (Ptr 0 0) 80 = Ret (c1, m1, tr) /\
    process_packet_seen 0 cs' m (Ptr 0 0) (Ptr 0 0) 80 = Ret (c1', m1', tr') /\
    length tr = 48 /\ firstn 48 tr = firstn 48 tr'.
Proof.
  split; [reflexivity|]. split; [repeat (apply Forall_cons; [reflexivity|]); apply Forall_nil|].
  split; [vm_compute; reflexivity|].
  set (l := [1; 2; 3; 4; 5; 6; 7; 8; 9; 10]%N). set (m := [holding (repeat 65%N 80)]).
  assert (Hw : lfsr_words l) by (split; [reflexivity|repeat (apply Forall_cons; [reflexivity|]); apply Forall_nil]).
  assert (Hd : has_bytes m (Ptr 0 0) (repeat 65%N 80)) by conc_has_bytes.
  assert (Wd : writable m (Ptr 0 0) (length (repeat 65%N 80))) by conc_writable.
  assert (X : forall a : sosemanuk_state, s a = l -> exists c1 m1,
    process_packet_seen 0 a m (Ptr 0 0) (Ptr 0 0) 80 = Ret (c1, m1, steps_entries 24 l)).
  { intros a Ea. rewrite process_seen_eq by (rewrite Ea; exact Hw).
    pose proof (process_ok 0 a m (Ptr 0 0) (Ptr 0 0) (repeat 65%N 80) Hd Wd (or_introl eq_refl)) as P.
    change (N.of_nat (length (repeat 65%N 80))) with 80%N in P. rewrite P. cbn [bind]. rewrite Ea.
    change (4 * (N.to_nat (80 / 16) + 1)) with 24. do 2 eexists. reflexivity. }
  destruct (X (Sosemanuk [] l 5 7) eq_refl) as (c1 & m1 & E1). destruct (X (Sosemanuk [] l 4 8) eq_refl) as (c2 & m2 & E2).
  do 6 eexists. split; [exact E1|]. split; [exact E2|]. split; [|reflexivity].
  assert (Ln : forall n l, length (steps_entries n l) = 2 * n).
  { induction n as [|n IH]; intros l0; [reflexivity|]. cbn [steps_entries]. rewrite app_length, IH. cbn [step_entries length]. lia. }
  rewrite Ln. reflexivity.
Qed.
