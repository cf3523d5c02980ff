(** Property C136: which table entries AES reads. *)
From Coq Require Import Arith NArith ZArith List Bool Lia.
From Verif Require Import Res Words Mem MemSpec ListLemmas MemLemmas SpecWords WordsLemmas Ints Concrete XorProofs
  AesTables AesSpec AesModel AesProofs AesCtrProofs AesCtrLink AesCfbProofs AesCfbLink AesProps AesLookupSpec AesLookupModel.
Import ListNotations.
Local Open Scope N_scope.

(** ** The listing functions do what the functions of AesModel do *)
Lemma SubByte_seen_eq w tr : SubByte_seen w tr =
  (SubByte w, tr ++ [(InSbox, u8 w); (InSbox, u8 (shr32 w 8)); (InSbox, u8 (shr32 w 16)); (InSbox, u8 (shr32 w 24))]).
Proof. unfold SubByte_seen, read. rewrite <- !app_assoc. reflexivity. Qed.
Lemma tcol_seen_eq x y z w k tr : tcol_seen x y z w k tr =
  (tcol x y z w k, tr ++ [(InT0, u8 x); (InT1, u8 (shr32 y 8)); (InT2, u8 (shr32 z 16)); (InT3, u8 (shr32 w 24))]).
Proof. unfold tcol_seen, read. rewrite <- !app_assoc. reflexivity. Qed.
Lemma scol_seen_eq x y z w k tr : scol_seen x y z w k tr =
  (scol x y z w k, tr ++ [(InSbox, u8 x); (InSbox, u8 (shr32 y 8)); (InSbox, u8 (shr32 z 16)); (InSbox, u8 (shr32 w 24))]).
Proof. unfold scol_seen, read. rewrite <- !app_assoc. reflexivity. Qed.

(** ** Key expansion *)
Lemma expand_seen_ok n i ws tr : length ws = i -> (4 <= i)%nat -> (i + n <= 44)%nat -> Forall word4 ws ->
  iter_n n i expand_step_seen (map le_num ws, tr) =
  (map le_num (expand n i ws),
   tr ++ flat_map (fun j => if Nat.eqb (j mod 4) 0 then map (pair InSbox) (rot_word (nth (j - 1) (expand n i ws) [])) else [])
           (seq i n)).
Proof.
  revert i ws tr. induction n as [|n IH]; intros i ws tr L Hi Hn F.
  - cbn [iter_n expand seq flat_map]. rewrite app_nil_r. reflexivity.
  - rewrite iter_n_S. cbn [expand seq flat_map].
    assert (N4 : word4 (nth (i - 4) ws [])) by (apply Forall_nth; [exact F|lia]).
    assert (N1 : word4 (nth (i - 1) ws [])) by (apply Forall_nth; [exact F|lia]).
    destruct (next_word4 i _ _ ltac:(lia) N4 N1) as [E X].
    set (ws' := ws ++ [next_word i (nth (i - 4) ws []) (nth (i - 1) ws [])]).
    assert (S : expand_step_seen i (map le_num ws, tr) =
      (map le_num ws', tr ++ if Nat.eqb (i mod 4) 0 then map (pair InSbox) (rot_word (nth (i - 1) ws [])) else [])).
    { assert (M : forall j, nth j (map le_num ws) 0 = le_num (nth j ws [])) by (intros j; exact (map_nth le_num ws [] j)).
      unfold expand_step_seen. rewrite !M, SubByte_seen_eq. unfold ws'. rewrite map_app. cbn [map]. rewrite <- E.
      destruct (Nat.eqb (i mod 4) 0); [|rewrite app_nil_r; reflexivity].
      destruct (RotByte_ok _ N1) as [R _].
      destruct (word4_inv _ N1) as (a & b & c & d & W1 & Ha & Hb & Hc & Hd). rewrite W1 in *. cbn [rot_word app map] in *.
      apply (f_equal2 (@pair _ _)); [reflexivity|]. rewrite R, le_num_W.
      destruct (W_shift b c d a Hb Hc Hd Ha) as (-> & -> & -> & ->). reflexivity. }
    rewrite S, IH; [|unfold ws'; rewrite app_length; cbn; lia|lia|lia|
      apply Forall_app; split; [exact F|constructor; [exact X|constructor]]].
    rewrite <- app_assoc. f_equal. f_equal. f_equal.
    destruct (Nat.eqb (i mod 4) 0); [|reflexivity]. f_equal. f_equal.
    assert (P : forall n j w k, (k < length w)%nat -> nth k (expand n j w) [] = nth k w []).
    { clear. induction n as [|n IH]; intros j w k Hk; [reflexivity|]. cbn [expand].
      rewrite IH by (rewrite app_length; cbn; lia). apply app_nth1. exact Hk. }
    rewrite P by (unfold ws'; rewrite app_length; cbn; lia). unfold ws'. symmetry. apply app_nth1. lia.
Qed.

Lemma key_expansion_seen_ok m p key : has_bytes m p key -> length key = 16%nat ->
  aes_key_expansion_seen m p = Ret (map le_num (key_words key), schedule_lookups key).
Proof.
  intros H L. pose proof (has_bytes_bytes _ _ _ H) as B. destruct (key_chunks key B L) as [F C].
  pose proof (expand_seen_ok 40 4 (chunks 4 key) [] C ltac:(lia) ltac:(lia) F) as E.
  unfold aes_key_expansion_seen.
  destruct (list16 key L) as (a0&a1&a2&a3&a4&a5&a6&a7&a8&a9&a10&a11&a12&a13&a14&a15&->).
  set (key := [a0;a1;a2;a3;a4;a5;a6;a7;a8;a9;a10;a11;a12;a13;a14;a15]) in *.
  assert (R : forall i, (i < 16)%nat -> ld8 m (padd p i) = Ret (nth i key 0)).
  { intros i Hi. apply has_bytes_nth; [exact Hi|exact H]. }
  unfold bytes_ok in B. unfold key in B. repeat rewrite Forall_cons_iff in B.
  destruct B as (?&?&?&?&?&?&?&?&?&?&?&?&?&?&?&?&_).
  replace (for_n 4 0 _ []) with (Ret (map le_num (chunks 4 key))).
  - cbn [bind]. rewrite E. unfold schedule_lookups, key_words.
    generalize (expand 40 4 (chunks 4 key)). intros ws. cbn [seq flat_map Nat.eqb Nat.modulo Nat.divmod Nat.sub fst snd app Nat.mul Nat.add].
    reflexivity.
  - symmetry. clear F C E. rewrite !for_n_S. cbn [for_n Nat.mul Nat.add]. rewrite !R by lia.
    unfold key. cbn [bind app nth]. rewrite !key_bytes_word by assumption. reflexivity.
Qed.

(** Loading a key, in every build, reads the Sbox entries of the FIPS 197 key
    expansion. *)
Theorem C136_aes_load_key_lookups : forall cs m p key,
  has_bytes m p key -> length key = 16%nat ->
  exists cs', aes_load_key cs m p = Ret cs' /\ aes_load_key_seen cs m p = Ret (cs', schedule_lookups key).
Proof.
  intros cs m p key H L. unfold aes_load_key, aes_load_key_seen.
  rewrite (key_expansion_seen_ok m p key H L), (proj1 (aes_key_expansion_ok m p key H L)). cbn [bind].
  eexists. split; reflexivity.
Qed.
Print Assumptions C136_aes_load_key_lookups.
Theorem C136_aes_cfb_initialize_lookups : forall m p v key iv,
  has_bytes m p key -> length key = 16%nat -> has_bytes m v iv -> length iv = 16%nat ->
  exists cs', aes_cfb_initialize m p v = Ret cs' /\ aes_cfb_initialize_seen m p v = Ret (cs', schedule_lookups key).
Proof.
  intros m p v key iv H L Hv Lv. destruct (cfb_init_ok m p v key iv H L Hv Lv) as (ks & E & _).
  eexists. split; [exact E|]. revert E. unfold aes_cfb_initialize, aes_cfb_initialize_seen.
  rewrite (key_expansion_seen_ok m p key H L), (proj1 (aes_key_expansion_ok m p key H L)). cbn [bind].
  destruct (ld32 m v) as [x| |]; [|discriminate|discriminate]. cbn [bind].
  destruct (ld32 m (padd v 4)) as [y| |]; [|discriminate|discriminate]. cbn [bind].
  destruct (ld32 m (padd v 8)) as [z| |]; [|discriminate|discriminate]. cbn [bind].
  destruct (ld32 m (padd v 12)) as [w| |]; [|discriminate|discriminate]. cbn [bind].
  intros E. apply Ret_inj in E. rewrite <- E. reflexivity.
Qed.
Print Assumptions C136_aes_cfb_initialize_lookups.

(** They determine the key. *)
Lemma expand_prefix n : forall i ws k, (k < length ws)%nat -> nth k (expand n i ws) [] = nth k ws [].
Proof.
  induction n as [|n IH]; intros i ws k H; [reflexivity|]. cbn [expand].
  rewrite IH by (rewrite app_length; cbn; lia). apply app_nth1. exact H.
Qed.
Lemma expand_next n : forall i ws k, length ws = i -> (4 <= i <= k)%nat -> (k < i + n)%nat ->
  nth k (expand n i ws) [] = next_word k (nth (k - 4) (expand n i ws) []) (nth (k - 1) (expand n i ws) []).
Proof.
  induction n as [|n IH]; intros i ws k L Hi Hk; [lia|]. cbn [expand].
  set (ws' := ws ++ [next_word i (nth (i - 4) ws []) (nth (i - 1) ws [])]).
  assert (L' : length ws' = S i) by (unfold ws'; rewrite app_length, L; cbn; lia).
  destruct (Nat.eq_dec k i) as [->|Hne]; [|apply IH; lia].
  rewrite !expand_prefix by lia. unfold ws'. rewrite (app_nth2 _ _ _ (n := i)) by lia.
  rewrite L, Nat.sub_diag, !app_nth1 by lia. reflexivity.
Qed.

Lemma xor_swap a : forall b, xor_bytes a b = xor_bytes b a.
Proof.
  unfold xor_bytes. induction a as [|x a IH]; intros [|y b]; try reflexivity. cbn [combine map fst snd]. rewrite IH, N.lxor_comm. reflexivity.
Qed.
Lemma xor_cancel_r a b f : length a = length f -> length b = length f -> xor_bytes a f = xor_bytes b f -> a = b.
Proof.
  intros La Lb E. rewrite <- (xor_bytes_invol a f), <- (xor_bytes_invol b f), E by lia. reflexivity.
Qed.
Lemma rot_word_inj a b : length a = length b -> rot_word a = rot_word b -> a = b.
Proof.
  intros L E. destruct a as [|x a], b as [|y b]; try discriminate L; [reflexivity|]. cbn [rot_word] in E.
  apply app_inj_tail in E. destruct E as [-> ->]. reflexivity.
Qed.

Lemma schedule_lookups_inj k1 k2 : bytes_ok k1 -> length k1 = 16%nat -> bytes_ok k2 -> length k2 = 16%nat ->
  firstn 16 (schedule_lookups k1) = firstn 16 (schedule_lookups k2) -> k1 = k2.
Proof.
  intros B1 L1 B2 L2 E.
  assert (P : forall key, bytes_ok key -> length key = 16%nat -> exists w : nat -> list N,
    (forall i, (i < 44)%nat -> length (w i) = 4%nat) /\
    (forall i, (4 <= i < 44)%nat -> w i = next_word i (w (i - 4)%nat) (w (i - 1)%nat)) /\
    key = w 0%nat ++ w 1%nat ++ w 2%nat ++ w 3%nat /\
    schedule_lookups key = flat_map (fun i => map (pair InSbox) (rot_word (w (4 * i - 1)%nat))) (seq 1 10)).
  { clear. intros key B L. destruct (key_chunks key B L) as [F C].
    destruct (expand_ok 40 4 (chunks 4 key) C ltac:(lia) ltac:(lia) F) as (_ & F' & L').
    exists (fun i => nth i (key_words key) []). split; [|split; [|split]].
    - intros i Hi. unfold key_words. apply (proj1 (Forall_forall _ _) F'). apply nth_In. rewrite L'. lia.
    - intros i Hi. unfold key_words. apply expand_next; lia.
    - unfold key_words. rewrite !expand_prefix by (rewrite C; lia).
      destruct (list16 key L) as (a0&a1&a2&a3&a4&a5&a6&a7&a8&a9&a10&a11&a12&a13&a14&a15&->). reflexivity.
    - reflexivity. }
  destruct (P k1 B1 L1) as (w & Lw & Nw & -> & Ew). destruct (P k2 B2 L2) as (v & Lv & Nv & -> & Ev). clear P B1 L1 B2 L2.
  rewrite Ew, Ev in E. clear Ew Ev. cbn [seq flat_map] in E.
  change (4 * 1 - 1)%nat with 3%nat in E. change (4 * 2 - 1)%nat with 7%nat in E.
  change (4 * 3 - 1)%nat with 11%nat in E. change (4 * 4 - 1)%nat with 15%nat in E.
  assert (Lr : forall x : list N, length x = 4%nat -> length (map (pair InSbox) (rot_word x)) = 4%nat).
  { intros x Hx. rewrite map_length. destruct x as [|a x]; [discriminate|]. cbn [rot_word]. rewrite app_length. cbn in *. lia. }
  assert (Q : forall (x y : list N) s t n, length x = 4%nat -> length y = 4%nat ->
    firstn (4 + n) (map (pair InSbox) (rot_word x) ++ s) = firstn (4 + n) (map (pair InSbox) (rot_word y) ++ t) ->
    x = y /\ firstn n s = firstn n t).
  { intros x y s t n Hx Hy H. rewrite !firstn_app, !(Lr _ Hx), !(Lr _ Hy) in H.
    replace (4 + n - 4)%nat with n in H by lia.
    rewrite (firstn_all2 (map (pair InSbox) (rot_word x))), (firstn_all2 (map (pair InSbox) (rot_word y))) in H by (rewrite Lr by assumption; lia).
    apply app_inv_length in H; [|rewrite !Lr by assumption; reflexivity]. destruct H as [H1 H2]. split; [|exact H2].
    apply rot_word_inj; [lia|]. apply (f_equal (map snd)) in H1. rewrite !map_map in H1. cbn [snd] in H1. rewrite !map_id in H1. exact H1. }
  apply (Q _ _ _ _ 12%nat) in E; [|apply Lw; lia|apply Lv; lia]. destruct E as [E3 E].
  apply (Q _ _ _ _ 8%nat) in E; [|apply Lw; lia|apply Lv; lia]. destruct E as [E7 E].
  apply (Q _ _ _ _ 4%nat) in E; [|apply Lw; lia|apply Lv; lia]. destruct E as [E11 E].
  apply (Q _ _ _ _ 0%nat) in E; [|apply Lw; lia|apply Lv; lia]. destruct E as [E15 _].
  assert (X : forall i, (4 <= i < 44)%nat -> Nat.eqb (i mod 4) 0 = false -> w i = xor_bytes (w (i - 4)%nat) (w (i - 1)%nat) /\
                                                      v i = xor_bytes (v (i - 4)%nat) (v (i - 1)%nat)).
  { intros i Hi Hm. rewrite (Nw i Hi), (Nv i Hi). unfold next_word. rewrite Hm. split; reflexivity. }
  (* two equal words of a step give the third *)
  assert (Back : forall i, (4 <= i < 44)%nat -> w i = v i -> w (i - 1)%nat = v (i - 1)%nat -> w (i - 4)%nat = v (i - 4)%nat).
  { intros i Hi Ei E1. rewrite (Nw i Hi), (Nv i Hi) in Ei. unfold next_word in Ei. rewrite E1 in Ei.
    revert Ei. apply xor_cancel_r.
    - rewrite (Lw (i - 4)%nat) by lia. destruct (Nat.eqb (i mod 4) 0); [|symmetry; apply Lv; lia].
      rewrite xor_bytes_length_min. unfold sub_word. rewrite map_length. rewrite <- (map_length (pair InSbox)), Lr by (apply Lv; lia). reflexivity.
    - rewrite (Lv (i - 4)%nat) by lia. destruct (Nat.eqb (i mod 4) 0); [|symmetry; apply Lv; lia].
      rewrite xor_bytes_length_min. unfold sub_word. rewrite map_length. rewrite <- (map_length (pair InSbox)), Lr by (apply Lv; lia). reflexivity. }
  assert (Prev : forall i, (4 <= i < 44)%nat -> Nat.eqb (i mod 4) 0 = false -> w i = v i -> w (i - 4)%nat = v (i - 4)%nat ->
                 w (i - 1)%nat = v (i - 1)%nat).
  { intros i Hi Hm Ei E4. destruct (X i Hi Hm) as [Xw Xv]. rewrite Xw, Xv, E4 in Ei.
    rewrite (xor_swap (v (i - 4)%nat)), (xor_swap (v (i - 4)%nat) (v (i - 1)%nat)) in Ei.
    revert Ei. apply xor_cancel_r; rewrite ?Lw, ?Lv by lia; reflexivity. }
  pose proof (Prev 7%nat ltac:(lia) eq_refl E7 E3) as E6.
  pose proof (Prev 11%nat ltac:(lia) eq_refl E11 E7) as E10.
  pose proof (Prev 10%nat ltac:(lia) eq_refl E10 E6) as E9.
  pose proof (Prev 15%nat ltac:(lia) eq_refl E15 E11) as E14.
  pose proof (Prev 14%nat ltac:(lia) eq_refl E14 E10) as E13.
  pose proof (Prev 13%nat ltac:(lia) eq_refl E13 E9) as E12.
  pose proof (Back 12%nat ltac:(lia) E12 E11) as E8.
  pose proof (Back 9%nat ltac:(lia) E9 E8) as E5.
  pose proof (Back 8%nat ltac:(lia) E8 E7) as E4.
  pose proof (Back 4%nat ltac:(lia) E4 E3) as E0.
  pose proof (Back 5%nat ltac:(lia) E5 E4) as E1.
  pose proof (Back 6%nat ltac:(lia) E6 E5) as E2.
  cbn [Nat.sub] in *. rewrite E0, E1, E2, E3. reflexivity.
Qed.

(** The first 16 entries, those of the first four steps, already do. *)
Theorem C136_aes_load_key_lookups_determine_key : forall cs1 cs2 m1 m2 p1 p2 key1 key2 cs1' cs2' tr1 tr2,
  has_bytes m1 p1 key1 -> length key1 = 16%nat -> has_bytes m2 p2 key2 -> length key2 = 16%nat ->
  aes_load_key_seen cs1 m1 p1 = Ret (cs1', tr1) -> aes_load_key_seen cs2 m2 p2 = Ret (cs2', tr2) ->
  firstn 16 tr1 = firstn 16 tr2 -> key1 = key2.
Proof.
  intros cs1 cs2 m1 m2 p1 p2 key1 key2 cs1' cs2' tr1 tr2 H1 L1 H2 L2 E1 E2 E.
  destruct (C136_aes_load_key_lookups cs1 m1 p1 key1 H1 L1) as (c1 & _ & X1).
  destruct (C136_aes_load_key_lookups cs2 m2 p2 key2 H2 L2) as (c2 & _ & X2).
  rewrite X1 in E1. rewrite X2 in E2. apply Ret_pair in E1. apply Ret_pair in E2. destruct E1 as [_ <-], E2 as [_ <-].
  exact (schedule_lookups_inj key1 key2 (has_bytes_bytes _ _ _ H1) L1 (has_bytes_bytes _ _ _ H2) L2 E).
Qed.
Print Assumptions C136_aes_load_key_lookups_determine_key.

(** ** The block function *)
Lemma round_seen_eq s tr k : round_seen (s, tr) k =
  (round s k, tr ++ (let '(a, b, c, d) := s in
    [(InT0, u8 a); (InT1, u8 (shr32 b 8)); (InT2, u8 (shr32 c 16)); (InT3, u8 (shr32 d 24));
     (InT0, u8 b); (InT1, u8 (shr32 c 8)); (InT2, u8 (shr32 d 16)); (InT3, u8 (shr32 a 24));
     (InT0, u8 c); (InT1, u8 (shr32 d 8)); (InT2, u8 (shr32 a 16)); (InT3, u8 (shr32 b 24));
     (InT0, u8 d); (InT1, u8 (shr32 a 8)); (InT2, u8 (shr32 b 16)); (InT3, u8 (shr32 c 24))])).
Proof.
  destruct s as [[[a b] c] d]. unfold round_seen. rewrite !tcol_seen_eq. cbv beta iota zeta. rewrite <- !app_assoc.
  reflexivity.
Qed.
Lemma final_seen_eq s tr k : final_round_seen (s, tr) k =
  (final_round s k, tr ++ (let '(a, b, c, d) := s in
    [(InSbox, u8 a); (InSbox, u8 (shr32 b 8)); (InSbox, u8 (shr32 c 16)); (InSbox, u8 (shr32 d 24));
     (InSbox, u8 b); (InSbox, u8 (shr32 c 8)); (InSbox, u8 (shr32 d 16)); (InSbox, u8 (shr32 a 24));
     (InSbox, u8 c); (InSbox, u8 (shr32 d 8)); (InSbox, u8 (shr32 a 16)); (InSbox, u8 (shr32 b 24));
     (InSbox, u8 d); (InSbox, u8 (shr32 a 8)); (InSbox, u8 (shr32 b 16)); (InSbox, u8 (shr32 c 24))])).
Proof.
  destruct s as [[[a b] c] d]. unfold final_round_seen. rewrite !scol_seen_eq. cbv beta iota zeta. rewrite <- !app_assoc.
  reflexivity.
Qed.
Ltac shifted B := unfold vstore, vword; cbn [Nat.mul Nat.add nth]; unfold bytes_ok in B; repeat rewrite Forall_cons_iff in B;
  destruct B as (?&?&?&?&?&?&?&?&?&?&?&?&?&?&?&?&_);
  repeat match goal with |- context [W ?a ?b ?c ?d] =>
    let E0 := fresh in let E1 := fresh in let E2 := fresh in let E3 := fresh in
    destruct (W_shift a b c d ltac:(assumption) ltac:(assumption) ltac:(assumption) ltac:(assumption)) as (E0 & E1 & E2 & E3);
    rewrite E0, E1, E2, E3; clear E0 E1 E2 E3 end.
Lemma round_seen_ok s tr k : st16 s -> words_ok k -> (4 <= length k)%nat ->
  round_seen (vstore s, tr) k = (vstore (aes_round s (vload k)), tr ++ round_lookups s).
Proof.
  intros Hs Hk Lk. rewrite round_seen_eq, round_ok by assumption. f_equal. f_equal. destruct Hs as [B L]. clear -B L.
  destruct (list16 s L) as (a0&a1&a2&a3&a4&a5&a6&a7&a8&a9&a10&a11&a12&a13&a14&a15&->).
  change (round_lookups [a0;a1;a2;a3;a4;a5;a6;a7;a8;a9;a10;a11;a12;a13;a14;a15]) with
    [(InT0, a0); (InT1, a5); (InT2, a10); (InT3, a15); (InT0, a4); (InT1, a9); (InT2, a14); (InT3, a3);
     (InT0, a8); (InT1, a13); (InT2, a2); (InT3, a7); (InT0, a12); (InT1, a1); (InT2, a6); (InT3, a11)].
  shifted B. reflexivity.
Qed.
Lemma final_seen_ok s tr k : st16 s -> words_ok k -> (4 <= length k)%nat ->
  final_round_seen (vstore s, tr) k = (vstore (aes_final_round s (vload k)), tr ++ last_lookups s).
Proof.
  intros Hs Hk Lk. rewrite final_seen_eq, final_round_ok by assumption. f_equal. f_equal. destruct Hs as [B L]. clear -B L.
  destruct (list16 s L) as (a0&a1&a2&a3&a4&a5&a6&a7&a8&a9&a10&a11&a12&a13&a14&a15&->).
  change (last_lookups [a0;a1;a2;a3;a4;a5;a6;a7;a8;a9;a10;a11;a12;a13;a14;a15]) with
    (map (pair InSbox) [a0;a5;a10;a15;a4;a9;a14;a3;a8;a13;a2;a7;a12;a1;a6;a11]).
  shifted B. reflexivity.
Qed.
#[local] Opaque aes_round vstore round_lookups last_lookups aes_final_round.

Lemma table_seen_ok reduced rk s : rk_ok rk -> st16 s ->
  table_rounds_seen reduced (vstore s) rk =
  (vstore (cipher_of (Table reduced) rk s),
   cipher_lookups (rkey rk 0) (map (rkey rk) (middle (Table reduced))) s).
Proof.
  intros H Hs.
  assert (K : forall i, (i <= 10)%nat -> st16 (vload (rk_at (4 * i) rk))) by (intros i Hi; exact (rkey_st16 rk i H Hi)).
  assert (R : forall i s tr, (i <= 10)%nat -> st16 s ->
    round_seen (vstore s, tr) (rk_at (4 * i) rk) = (vstore (aes_round s (rkey rk i)), tr ++ round_lookups s) /\
    st16 (aes_round s (rkey rk i))).
  { intros i t tr Hi Ht. destruct (rk_at_ok rk (4 * i) H ltac:(lia)) as [A B]. split.
    - apply round_seen_ok; assumption.
    - apply aes_round_st16; [assumption|apply K; lia]. }
  unfold table_rounds_seen, cipher_of, cipher, cipher_lookups.
  destruct (rk_at_ok rk 0 H ltac:(lia)) as [A0 B0]. rewrite initial_round_ok by assumption.
  assert (S0 : st16 (add_round_key s (vload (rk_at 0 rk)))) by (apply add_st16; [exact Hs|exact (K 0%nat ltac:(lia))]).
  change (rkey rk 0) with (vload (rk_at 0 rk)).
  generalize dependent (add_round_key s (vload (rk_at 0 rk))). intros t Ht. cbv zeta.
  assert (G : forall t tr, st16 t ->
    final_round_seen (round_seen (round_seen (round_seen (round_seen (round_seen (vstore t, tr) (rk_at 20 rk)) (rk_at 24 rk)) (rk_at 28 rk))
       (rk_at 32 rk)) (rk_at 36 rk)) (rk_at 40 rk) =
    (vstore (aes_final_round (fold_left aes_round (map (rkey rk) (seq 5 5)) t) (rkey rk 10)),
     tr ++ flat_map round_lookups (entering (map (rkey rk) (seq 5 5)) t) ++
       last_lookups (fold_left aes_round (map (rkey rk) (seq 5 5)) t))).
  { clear t Ht. intros t tr Ht. cbn [seq map fold_left entering flat_map].
    change 20%nat with (4 * 5)%nat at 1. destruct (R 5%nat t tr ltac:(lia) Ht) as [-> H5].
    change 24%nat with (4 * 6)%nat at 1. destruct (R 6%nat _ (tr ++ round_lookups t) ltac:(lia) H5) as [-> H6].
    change 28%nat with (4 * 7)%nat at 1. rewrite (proj1 (R 7%nat _ _ ltac:(lia) H6)). pose proof (proj2 (R 7%nat _ [] ltac:(lia) H6)) as H7.
    change 32%nat with (4 * 8)%nat at 1. rewrite (proj1 (R 8%nat _ _ ltac:(lia) H7)). pose proof (proj2 (R 8%nat _ [] ltac:(lia) H7)) as H8.
    change 36%nat with (4 * 9)%nat at 1. rewrite (proj1 (R 9%nat _ _ ltac:(lia) H8)). pose proof (proj2 (R 9%nat _ [] ltac:(lia) H8)) as H9.
    destruct (rk_at_ok rk 40 H ltac:(lia)) as [A B]. rewrite final_seen_ok by assumption.
    rewrite <- !app_assoc. reflexivity. }
  destruct reduced; [rewrite G by exact Ht; reflexivity|].
  cbn [middle]. change (seq 1 9) with (seq 1 4 ++ seq 5 5). rewrite map_app, fold_left_app.
  assert (EA : forall k1 k2 u, entering (k1 ++ k2) u = entering k1 u ++ entering k2 (fold_left aes_round k1 u)).
  { clear. induction k1 as [|k k1 IH]; intros k2 u; [reflexivity|]. cbn [app entering fold_left]. rewrite IH. reflexivity. }
  rewrite EA, flat_map_app.
  change 4%nat with (4 * 1)%nat at 1. rewrite (proj1 (R 1%nat t _ ltac:(lia) Ht)). pose proof (proj2 (R 1%nat t [] ltac:(lia) Ht)) as H1.
  change 8%nat with (4 * 2)%nat at 1. rewrite (proj1 (R 2%nat _ _ ltac:(lia) H1)). pose proof (proj2 (R 2%nat _ [] ltac:(lia) H1)) as H2.
  change 12%nat with (4 * 3)%nat at 1. rewrite (proj1 (R 3%nat _ _ ltac:(lia) H2)). pose proof (proj2 (R 3%nat _ [] ltac:(lia) H2)) as H3.
  change 16%nat with (4 * 4)%nat at 1. rewrite (proj1 (R 4%nat _ _ ltac:(lia) H3)). pose proof (proj2 (R 4%nat _ [] ltac:(lia) H3)) as H4.
  rewrite G by exact H4. cbn [seq map fold_left entering flat_map]. rewrite <- !app_assoc. reflexivity.
Qed.

Definition block_lookups (b : build) (key block : list N) : list lookup :=
  match b with
  | Table false => aes128_lookups key block
  | Table true => aes128_reduced_lookups key block
  | _ => []
  end.

Lemma rounds_seen_ok b key s : Forall word4 (key_words key) -> length (key_words key) = 44%nat -> st16 s ->
  let ks := map le_num (key_words key) in
  rounds_seen b (vstore s) ks = (rounds b (vstore s) ks, block_lookups b key s).
Proof.
  intros F L Hs ks.
  assert (K : rk_ok ks) by (split; [apply words4_ok; exact F|unfold ks; rewrite map_length; exact L]).
  destruct b as [reduced| |]; [|reflexivity|reflexivity]. cbn [rounds_seen rounds].
  rewrite table_seen_ok, table_rounds_ok by assumption. f_equal.
  assert (M : forall l, map (rkey ks) l = map (round_key key) l).
  { intros l. apply map_ext. intros i. apply rkey_round_key. exact F. }
  rewrite M. unfold ks. rewrite rkey_round_key by exact F. destruct reduced; reflexivity.
Qed.

(** Encrypting a block reads the entries of the rounds of AES-128 on it: the
    table build; the others read none. *)
Theorem C136_aes_block_lookups : forall b cs m p key,
  has_bytes m p key -> length key = 16%nat -> regs_32 cs ->
  exists cs', aes_load_key cs m p = Ret cs' /\
    ctr_aes_encrypt_seen b cs' = (ctr_aes_encrypt b cs', block_lookups b key (reg_bytes cs)) /\
    cfb_aes_encrypt_seen b cs' = (cfb_aes_encrypt b cs', block_lookups b key (reg_bytes cs)).
Proof.
  intros b cs m p key H L R. destruct (aes_key_expansion_ok m p key H L) as (E & F & Lw).
  unfold aes_load_key. rewrite E. cbn [bind]. eexists. split; [reflexivity|].
  destruct (reg_state cs R) as (s & S & Es & Eb). rewrite Eb.
  assert (X : Aes (reg1 cs) (reg2 cs) (reg3 cs) (reg4 cs) (map le_num (key_words key)) = cfb_st s (map le_num (key_words key))).
  { rewrite Es. unfold cfb_st. destruct (vstore s) as [[[x y] z] w]. cbn [set_regs reg1 reg2 reg3 reg4 rk]. reflexivity. }
  rewrite X. unfold ctr_aes_encrypt_seen, cfb_aes_encrypt_seen, ctr_aes_encrypt, cfb_aes_encrypt.
  rewrite regs_cfb_st, rk_cfb_st. rewrite (rounds_seen_ok b key s F Lw S). cbv zeta.
  split; [reflexivity|]. destruct b; reflexivity.
Qed.
Print Assumptions C136_aes_block_lookups.

(** ** CTR packets *)
Lemma table_seen_fst reduced s k : fst (table_rounds_seen reduced s k) = table_rounds reduced s k.
Proof.
  unfold table_rounds_seen, table_rounds. cbv zeta.
  destruct reduced; repeat rewrite round_seen_eq; rewrite final_seen_eq; reflexivity.
Qed.
Lemma encrypt_seen_fst b cs : fst (ctr_aes_encrypt_seen b cs) = ctr_aes_encrypt b cs.
Proof.
  unfold ctr_aes_encrypt_seen, ctr_aes_encrypt. destruct b; cbn [rounds_seen rounds]; try reflexivity.
  rewrite <- table_seen_fst. destruct (table_rounds_seen reduced (regs cs) (rk cs)). reflexivity.
Qed.
Fixpoint trail (b : build) (n : nat) (cs : aes_state) : list lookup :=
  match n with
  | O => []
  | S n' => snd (ctr_aes_encrypt_seen b cs) ++ trail b n' (state_update cs)
  end.
Definition blocks (size : Z) : nat := Z.to_nat ((size + 15) / 16).
Lemma blocks_step size : (16 <= size)%Z -> blocks size = S (blocks (size - 16)).
Proof.
  intros H. unfold blocks. replace (size + 15)%Z with ((size - 16 + 15) + 1 * 16)%Z by lia.
  rewrite Z.div_add by lia. rewrite Z2Nat.inj_add; [lia| |lia]. apply Z.div_pos; lia.
Qed.
Lemma blocks_last size : (0 < size < 16)%Z -> blocks size = 1%nat.
Proof. intros H. unfold blocks. replace ((size + 15) / 16)%Z with 1%Z; [reflexivity|]. apply Z.div_unique with (size - 1)%Z; lia. Qed.
Lemma blocks_none size : (size <= 0)%Z -> blocks size = 0%nat.
Proof.
  intros H. unfold blocks. assert ((size + 15) / 16 <= 0)%Z; [|lia].
  apply Z.lt_succ_r. apply Z.div_lt_upper_bound; lia.
Qed.

Lemma packet_seen_eq oor wild b cs m out inp size :
  aes_ctr_process_packet_seen oor wild b cs m out inp size =
  let* (cs', m') := aes_ctr_process_packet oor wild b cs m out inp size in Ret (cs', m', trail b (blocks size) cs).
Proof.
  unfold aes_ctr_process_packet_seen, aes_ctr_process_packet.
  match goal with |- bind (while _ ?C1 ?B1 _) _ = bind (bind (while _ ?C2 ?B2 _) _) _ =>
    assert (G : forall fuel size cs out inp m tr, while fuel C1 B1 (size, cs, out, inp, m, tr) =
      let* r := while fuel C2 B2 (size, cs, out, inp, m) in Ret (r, tr ++ trail b (blocks size) cs)) end.
  { clear cs m out inp size. induction fuel as [|fuel IH]; intros size cs out inp m tr; [reflexivity|]. cbn [while].
    destruct (Z.ltb_spec 0 size) as [Hp|Hp].
    2:{ cbn [bind]. rewrite blocks_none by exact Hp. cbn [trail]. rewrite app_nil_r. reflexivity. }
    rewrite <- (encrypt_seen_fst b cs). destruct (ctr_aes_encrypt_seen b cs) as [ks t] eqn:Ek. cbn [fst].
    destruct (Z.leb_spec 16 size) as [Hs|Hs].
    - destruct (xor_block m out inp ks) as [m1| |]; [|reflexivity|reflexivity]. cbn [bind]. rewrite IH.
      rewrite (blocks_step size Hs). cbn [trail]. rewrite Ek. cbn [snd].
      destruct (while fuel _ _ _) as [r| |]; [|reflexivity|reflexivity]. cbn [bind]. rewrite app_assoc. reflexivity.
    - destruct (ctr_tail oor wild m out inp size ks) as [m1| |]; [|reflexivity|reflexivity]. cbn [bind]. rewrite IH.
      rewrite (blocks_last size) by lia. rewrite (blocks_none 0) by lia. cbn [trail]. rewrite Ek. cbn [snd].
      destruct (while fuel _ _ _) as [r| |]; [|reflexivity|reflexivity]. cbn [bind]. rewrite !app_nil_r. reflexivity. }
  rewrite G. destruct (while _ _ _ _) as [[[[[sz c] o] i] m']| |]; reflexivity.
Qed.

Lemma trail_ok b key nonce n : Forall word4 (key_words key) -> length (key_words key) = 44%nat -> nonce_ok nonce ->
  forall c, trail b n (ctr_st nonce c (map le_num (key_words key))) = ctr_lookups (block_lookups b key) nonce c n.
Proof.
  intros F L Hn. induction n as [|n IH]; intros c; [reflexivity|]. cbn [trail ctr_lookups].
  rewrite state_update_ok, IH by exact Hn. f_equal.
  unfold ctr_aes_encrypt_seen, ctr_st.
  change (set_regs (Aes 0 0 0 0 (map le_num (key_words key))) (vstore (ctr_in nonce c))) with (cfb_st (ctr_in nonce c) (map le_num (key_words key))).
  rewrite regs_cfb_st, rk_cfb_st, (rounds_seen_ok b key _ F L (ctr_in_st16 nonce c Hn)). reflexivity.
Qed.

Lemma load_iv_rk cs m np cs2 : ctr_load_iv cs m np = Ret cs2 -> rk cs2 = rk cs.
Proof.
  unfold ctr_load_iv. destruct (ld32 m np); [|discriminate|discriminate]. destruct (ld32 m (padd np 4)); [|discriminate|discriminate].
  destruct (ld32 m (padd np 8)); [|discriminate|discriminate]. cbn [bind]. intros E. apply Ret_inj in E. rewrite <- E. reflexivity.
Qed.
Lemma ctr_st_rk nonce c k : rk (ctr_st nonce c k) = k.
Proof. unfold ctr_st. destruct (vstore (ctr_in nonce c)) as [[[x y] z] w]. reflexivity. Qed.

(** A packet, of whatever size and in whatever buffers, reads the entries for
    its counter blocks, and does besides what it does. *)
Theorem C136_aes_ctr_packet_lookups : forall oor wild b cs m kp np key nonce,
  has_bytes m kp key -> length key = 16%nat -> has_bytes m np nonce -> length nonce = 12%nat ->
  exists cs1 cs2, aes_load_key cs m kp = Ret cs1 /\ ctr_load_iv cs1 m np = Ret cs2 /\
    forall m1 out inp size, aes_ctr_process_packet_seen oor wild b cs2 m1 out inp size =
      let* (cs3, m2) := aes_ctr_process_packet oor wild b cs2 m1 out inp size in
      Ret (cs3, m2, ctr_lookups (block_lookups b key) nonce 1 (Z.to_nat ((size + 15) / 16))).
Proof.
  intros oor wild b cs m kp np key nonce H L Hn Ln.
  destruct (ctr_init_ok cs m kp np key nonce H L Hn Ln) as (cs1 & ks & E1 & E2 & _ & Nn & _).
  destruct (aes_key_expansion_ok m kp key H L) as (E & F & Lw).
  assert (K : ks = map le_num (key_words key)).
  { revert E. generalize (map le_num (key_words key)). intros kw E. unfold aes_load_key in E1. rewrite E in E1. cbn [bind] in E1. apply Ret_inj in E1. subst cs1.
    apply load_iv_rk in E2. rewrite ctr_st_rk in E2. exact E2. }
  subst ks. exists cs1, (ctr_st nonce 1 (map le_num (key_words key))). split; [exact E1|]. split; [exact E2|].
  intros m1 out inp size. rewrite packet_seen_eq. rewrite (trail_ok b key nonce _ F Lw Nn). reflexivity.
Qed.
Print Assumptions C136_aes_ctr_packet_lookups.

(** ** What an observer of the first round learns *)
Lemma coarse_xor g a b : coarse g (N.lxor a b) = N.lxor (coarse g a) (coarse g b).
Proof. unfold coarse. rewrite <- !N.shiftr_div_pow2. apply N.shiftr_lxor. Qed.
Lemma coarse_0 l : map (coarse 0) l = l.
Proof. rewrite <- (map_id l) at 2. apply map_ext. intros x. unfold coarse. apply N.div_1_r. Qed.
Lemma coarse_xor_bytes g a : forall b, map (coarse g) (xor_bytes a b) = xor_bytes (map (coarse g) a) (map (coarse g) b).
Proof.
  unfold xor_bytes. induction a as [|x a IH]; intros [|y b]; try reflexivity. cbn [combine map fst snd]. rewrite IH, coarse_xor. reflexivity.
Qed.
#[local] Transparent round_lookups.
Lemma round_observed g s t : length s = 16%nat -> length t = 16%nat ->
  observed g (round_lookups s) = observed g (round_lookups t) <-> map (coarse g) s = map (coarse g) t.
Proof.
  intros Ls Lt. destruct (list16 s Ls) as (a0&a1&a2&a3&a4&a5&a6&a7&a8&a9&a10&a11&a12&a13&a14&a15&->).
  destruct (list16 t Lt) as (b0&b1&b2&b3&b4&b5&b6&b7&b8&b9&b10&b11&b12&b13&b14&b15&->).
  unfold round_lookups, shift_rows, positions, byte, observed.
  cbn [seq flat_map map app fst snd Nat.add Nat.mul Nat.modulo Nat.divmod Nat.sub nth concat repeat combine].
  split; intros E.
  - injection E. intros. congruence.
  - injection E. intros. congruence.
Qed.
#[local] Opaque round_lookups.
Lemma round_lookups_length s : length (round_lookups s) = 16%nat.
Proof. reflexivity. Qed.
Lemma key0 key : bytes_ok key -> length key = 16%nat -> round_key key 0 = key.
Proof.
  intros B L. destruct (key_chunks key B L) as [F C]. unfold round_key, key_words. change (4 * 0)%nat with 0%nat. rewrite skipn_O.
  assert (P : forall n i ws, (4 <= length ws)%nat -> firstn 4 (expand n i ws) = firstn 4 ws).
  { clear. induction n as [|n IH]; intros i ws H; [reflexivity|]. cbn [expand]. rewrite IH by (rewrite app_length; lia).
    rewrite firstn_app. replace (4 - length ws)%nat with 0%nat by lia. apply app_nil_r. }
  rewrite P by lia. clear P.
  destruct (list16 key L) as (a0&a1&a2&a3&a4&a5&a6&a7&a8&a9&a10&a11&a12&a13&a14&a15&->). reflexivity.
Qed.
Lemma first_lookups reduced key block : exists rest,
  block_lookups (Table reduced) key block = round_lookups (xor_bytes block (round_key key 0)) ++ rest.
Proof.
  destruct reduced; cbn [block_lookups]; unfold aes128_lookups, aes128_reduced_lookups, cipher_lookups;
    cbn [seq map entering flat_map]; unfold add_round_key; rewrite <- app_assoc; eexists; reflexivity.
Qed.
Lemma firstn_observed g s r : firstn 16 (observed g (round_lookups s ++ r)) = observed g (round_lookups s).
Proof.
  unfold observed. rewrite map_app. set (l := map _ (round_lookups s)).
  assert (L : length l = 16%nat) by (unfold l; rewrite map_length; apply round_lookups_length).
  rewrite firstn_app, L, Nat.sub_diag, firstn_O, app_nil_r. apply firstn_all2. apply Nat.eq_le_incl. exact L.
Qed.

(** Somebody who sees, for the first 16 accesses of a packet under a known nonce,
    which group of 2^g entries is read, learns all but the low g bits of every
    byte of the key, and no more.  With g = 4, cache lines, half of the key. *)
Theorem C136_aes_ctr_first_round_shows_key : forall g oor wild r1 r2 cs1 cs2 m1 m2 kp1 kp2 np1 np2 key1 key2 nonce
    a1 a2 b1 b2 n1 n2 o1 o2 i1 i2 c1 c2 d1 d2 tr1 tr2 size1 size2,
  has_bytes m1 kp1 key1 -> length key1 = 16%nat -> has_bytes m1 np1 nonce ->
  has_bytes m2 kp2 key2 -> length key2 = 16%nat -> has_bytes m2 np2 nonce -> length nonce = 12%nat ->
  aes_load_key cs1 m1 kp1 = Ret a1 -> ctr_load_iv a1 m1 np1 = Ret b1 ->
  aes_load_key cs2 m2 kp2 = Ret a2 -> ctr_load_iv a2 m2 np2 = Ret b2 ->
  (0 < size1)%Z -> (0 < size2)%Z ->
  aes_ctr_process_packet_seen oor wild (Table r1) b1 n1 o1 i1 size1 = Ret (c1, d1, tr1) ->
  aes_ctr_process_packet_seen oor wild (Table r2) b2 n2 o2 i2 size2 = Ret (c2, d2, tr2) ->
  firstn 16 (observed g tr1) = firstn 16 (observed g tr2) <-> map (coarse g) key1 = map (coarse g) key2.
Proof.
  intros g oor wild r1 r2 cs1 cs2 m1 m2 kp1 kp2 np1 np2 key1 key2 nonce a1 a2 b1 b2 n1 n2 o1 o2 i1 i2 c1 c2 d1 d2 tr1 tr2 size1 size2
    H1 L1 N1 H2 L2 N2 Ln A1 B1 A2 B2 S1 S2 T1 T2.
  assert (G : forall r cs m kp np key a b n o i c d tr size, has_bytes m kp key -> length key = 16%nat -> has_bytes m np nonce ->
    aes_load_key cs m kp = Ret a -> ctr_load_iv a m np = Ret b -> (0 < size)%Z ->
    aes_ctr_process_packet_seen oor wild (Table r) b n o i size = Ret (c, d, tr) ->
    firstn 16 (observed g tr) = observed g (round_lookups (xor_bytes (nonce ++ be_str 4 (1 mod 2^32)) key))).
  { clear -Ln. intros r cs m kp np key a b n o i c d tr size H L Hn A B S T.
    destruct (C136_aes_ctr_packet_lookups oor wild (Table r) cs m kp np key nonce H L Hn Ln) as (a' & b' & A' & B' & E).
    rewrite A in A'. apply Ret_inj in A'. subst a'. rewrite B in B'. apply Ret_inj in B'. subst b'.
    rewrite E in T. destruct (aes_ctr_process_packet oor wild (Table r) b n o i size) as [[c' d']| |]; [|discriminate|discriminate].
    cbn [bind] in T. apply Ret_pair in T. destruct T as [_ <-].
    assert (K : exists k, Z.to_nat ((size + 15) / 16) = Datatypes.S k).
    { assert (1 <= (size + 15) / 16)%Z by (apply Z.div_le_lower_bound; lia).
      exists (Nat.pred (Z.to_nat ((size + 15) / 16))). lia. }
    destruct K as [k ->]. cbn [ctr_lookups].
    destruct (first_lookups r key (nonce ++ be_str 4 (1 mod 2^32))) as [rest ->].
    rewrite <- app_assoc, firstn_observed, (key0 key (has_bytes_bytes _ _ _ H) L). reflexivity. }
  rewrite (G _ _ _ _ _ _ _ _ _ _ _ _ _ _ _ H1 L1 N1 A1 B1 S1 T1), (G _ _ _ _ _ _ _ _ _ _ _ _ _ _ _ H2 L2 N2 A2 B2 S2 T2).
  assert (Lb : length (nonce ++ be_str 4 (1 mod 2 ^ 32)) = 16%nat) by (rewrite app_length, Ln, be_str_length; reflexivity).
  generalize dependent (nonce ++ be_str 4 (1 mod 2 ^ 32)). intros blk _ Lb.
  rewrite round_observed by (rewrite xor_bytes_length_min, Lb, ?L1, ?L2; reflexivity).
  rewrite !coarse_xor_bytes. split; intros E; [|rewrite E; reflexivity].
  rewrite !(xor_swap (map (coarse g) blk)) in E. revert E. apply xor_cancel_r; rewrite !map_length; lia.
Qed.
Print Assumptions C136_aes_ctr_first_round_shows_key.

(** The builds with vector instructions read no table while they encrypt. *)
Theorem C136_aes_vector_packets_read_no_table : forall oor wild b cs m out inp size cs' m' tr,
  b = X86 \/ b = Arm ->
  aes_ctr_process_packet_seen oor wild b cs m out inp size = Ret (cs', m', tr) -> tr = [].
Proof.
  intros oor wild b cs m out inp size cs' m' tr Hb. rewrite packet_seen_eq.
  destruct (aes_ctr_process_packet oor wild b cs m out inp size) as [[c d]| |]; [|discriminate|discriminate].
  cbn [bind]. intros E. apply Ret_pair in E. destruct E as [_ <-]. generalize (blocks size). intros n. revert cs.
  induction n as [|n IH]; intros cs; [reflexivity|]. cbn [trail]. rewrite IH. destruct Hb as [-> | ->]; reflexivity.
Qed.
Print Assumptions C136_aes_vector_packets_read_no_table.

(** Two keys that agree in the high halves of their bytes. *)
Definition high_key : list N := map (fun x => N.lxor x 5) fips_key.
Definition lookup_mem (key : list N) : mem := [holding key; holding (firstn 12 nist_iv); holding (map N.of_nat (seq 65 16)); fresh 16].
Definition lookup_run (b : build) (key : list N) : res (list lookup * list lookup) :=
  let m := lookup_mem key in
  let* (cs, tr) := aes_load_key_seen (Aes 0 0 0 0 []) m (Ptr 0 0) in
  let* cs := ctr_load_iv cs m (Ptr 1 0) in
  let* (_, _, tr') := aes_ctr_process_packet_seen ub_shift UB b cs m (Ptr 3 0) (Ptr 2 0) 16 in
  Ret (tr, tr').

(** In no build do the accesses leave the key out: those of loading it show it;
    in the table build those of every packet do too. *)
Theorem C136_aes_lookups_independent_of_key_refuted : exists key1 key2,
  length key1 = 16%nat /\ length key2 = 16%nat /\
  (forall b, exists l1 l2 p1 p2, lookup_run b key1 = Ret (l1, p1) /\ lookup_run b key2 = Ret (l2, p2) /\
     l1 <> l2 /\ ((exists r, b = Table r) -> p1 <> p2)).
Proof.
  exists fips_key, high_key. split; [reflexivity|]. split; [reflexivity|]. intros b.
  assert (T : forall x y : list lookup, nth 0 x (InT0, 0) <> nth 0 y (InT0, 0) -> x <> y) by (intros x y H E; apply H; rewrite E; reflexivity).
  assert (V : match lookup_run b fips_key, lookup_run b high_key with
    | Ret (l1, p1), Ret (l2, p2) => negb (snd (nth 0 l1 (InT0, 0)) =? snd (nth 0 l2 (InT0, 0))) &&
        match b with Table _ => negb (snd (nth 0 p1 (InT0, 0)) =? snd (nth 0 p2 (InT0, 0))) | _ => true end
    | _, _ => false end = true) by (destruct b as [[|]| |]; vm_compute; reflexivity).
  destruct (lookup_run b fips_key) as [[l1 p1]| |]; [|discriminate V|discriminate V].
  destruct (lookup_run b high_key) as [[l2 p2]| |]; [|discriminate V|discriminate V].
  apply andb_true_iff in V. destruct V as [V1 V2]. exists l1, l2, p1, p2. split; [reflexivity|]. split; [reflexivity|].
  assert (Ne : forall x y : lookup, negb (snd x =? snd y) = true -> x <> y).
  { intros x y H E. rewrite E, N.eqb_refl in H. discriminate H. }
  split; [apply T, Ne, V1|]. intros [r ->]. apply T, Ne, V2.
Qed.
Print Assumptions C136_aes_lookups_independent_of_key_refuted.

Example C136_instance :
  has_bytes (lookup_mem fips_key) (Ptr 0 0) fips_key /\ has_bytes (lookup_mem high_key) (Ptr 0 0) high_key /\
  has_bytes (lookup_mem fips_key) (Ptr 1 0) (firstn 12 nist_iv) /\ has_bytes (lookup_mem high_key) (Ptr 1 0) (firstn 12 nist_iv) /\
  length fips_key = 16%nat /\ length high_key = 16%nat /\ fips_key <> high_key /\
  map (coarse 4) fips_key = map (coarse 4) high_key /\
  match lookup_run (Table false) fips_key, lookup_run (Table false) high_key with
  | Ret (l1, p1), Ret (l2, p2) => length l1 = 40%nat /\ length p1 = 160%nat /\
      firstn 16 (observed 4 p1) = firstn 16 (observed 4 p2) /\ firstn 16 (observed 3 p1) = firstn 16 (observed 3 p2) /\
      firstn 16 (observed 2 p1) <> firstn 16 (observed 2 p2) /\ observed 4 p1 <> observed 4 p2
  | _, _ => False
  end /\
  match lookup_run X86 fips_key with Ret (l1, p1) => length l1 = 40%nat /\ p1 = [] | _ => False end.
Proof.
  split; [conc_has_bytes|]. split; [conc_has_bytes|]. split; [conc_has_bytes|]. split; [conc_has_bytes|].
  split; [reflexivity|]. split; [reflexivity|]. split; [discriminate|]. split; [reflexivity|].
  split; [|vm_compute; split; reflexivity].
  vm_compute. split; [reflexivity|]. split; [reflexivity|]. split; [reflexivity|]. split; [reflexivity|]. split; discriminate.
Qed.
