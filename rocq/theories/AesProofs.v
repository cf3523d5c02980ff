(** The table, x86 and ARM block functions compute the FIPS 197 cipher. *)
From Coq Require Import Arith NArith ZArith List Bool Lia.
From Verif Require Import Res Words Mem MemSpec ListLemmas MemLemmas SpecWords WordsLemmas Finite XorProofs
  AesTables AesSpec AesModel.
Import ListNotations.
Local Open Scope N_scope.

(** ** Words made of four bytes *)
Notation W := le32_of_bytes.

Lemma W_bytes w : w < 2^32 -> W (byte_of w 0) (byte_of w 1) (byte_of w 2) (byte_of w 3) = w.
Proof. intros H. apply le32_bytes_of. exact H. Qed.

Lemma W_byte a b c d : a < 256 -> b < 256 -> c < 256 -> d < 256 ->
  byte_of (W a b c d) 0 = a /\ byte_of (W a b c d) 1 = b /\
  byte_of (W a b c d) 2 = c /\ byte_of (W a b c d) 3 = d.
Proof.
  intros Ha Hb Hc Hd. pose proof (bytes_of_le32_of a b c d Ha Hb Hc Hd) as E.
  unfold bytes_of_le32 in E. injection E as E0 E1 E2 E3. auto.
Qed.

Lemma W_lt a b c d : a < 256 -> b < 256 -> c < 256 -> d < 256 -> W a b c d < 2^32.
Proof. unfold W. intros. change (2^32) with 4294967296. lia. Qed.

Lemma W_lxor a b c d a' b' c' d' :
  a < 256 -> b < 256 -> c < 256 -> d < 256 -> a' < 256 -> b' < 256 -> c' < 256 -> d' < 256 ->
  N.lxor (W a b c d) (W a' b' c' d') = W (N.lxor a a') (N.lxor b b') (N.lxor c c') (N.lxor d d').
Proof.
  intros. rewrite <- (W_bytes (N.lxor (W a b c d) (W a' b' c' d'))) by (apply lxor_lt; apply W_lt; auto).
  destruct (W_byte a b c d) as (E0 & E1 & E2 & E3); auto.
  destruct (W_byte a' b' c' d') as (F0 & F1 & F2 & F3); auto.
  rewrite !byte_of_lxor, E0, E1, E2, E3, F0, F1, F2, F3. reflexivity.
Qed.

Lemma byte_lxor x y : x < 256 -> y < 256 -> N.lxor x y < 256.
Proof. exact (lxor_lt x y 8). Qed.

Lemma byte_shr w i : byte_of w i = u8 (shr32 w (8 * i)).
Proof. reflexivity. Qed.

Lemma W_shift a b c d : a < 256 -> b < 256 -> c < 256 -> d < 256 ->
  u8 (W a b c d) = a /\ u8 (shr32 (W a b c d) 8) = b /\
  u8 (shr32 (W a b c d) 16) = c /\ u8 (shr32 (W a b c d) 24) = d.
Proof.
  intros Ha Hb Hc Hd. destruct (W_byte a b c d Ha Hb Hc Hd) as (E0 & E1 & E2 & E3). 
  rewrite <- E0 at 2. rewrite <- E1 at 4. rewrite <- E2 at 6. rewrite <- E3 at 8. repeat split.
Qed.

Lemma shl_W s : s < 256 ->
  s = W s 0 0 0 /\ shl32 s 8 = W 0 s 0 0 /\ shl32 s 16 = W 0 0 s 0 /\ shl32 s 24 = W 0 0 0 s.
Proof.
  intros H. unfold shl32. rewrite !u32_mod, !N.shiftl_mul_pow2. unfold W.
  change (2^32) with 4294967296. change (2^8) with 256. change (2^16) with 65536. change (2^24) with 16777216.
  rewrite !N.mod_small by lia. lia.
Qed.

(** ** Tables *)
Definition byteb (x : N) : bool := x <? 256.

Lemma tables_check : forallb (fun x =>
  (look Sbox x =? sbox x) && byteb (sbox x) && byteb (gf_mul 2 (sbox x)) && byteb (gf_mul 3 (sbox x)) &&
  (look T0 x =? W (gf_mul 2 (sbox x)) (sbox x) (sbox x) (gf_mul 3 (sbox x))) &&
  (look T1 x =? W (gf_mul 3 (sbox x)) (gf_mul 2 (sbox x)) (sbox x) (sbox x)) &&
  (look T2 x =? W (sbox x) (gf_mul 3 (sbox x)) (gf_mul 2 (sbox x)) (sbox x)) &&
  (look T3 x =? W (sbox x) (sbox x) (gf_mul 3 (sbox x)) (gf_mul 2 (sbox x)))) (nrange 256) = true.
Proof. vm_compute. reflexivity. Qed.

Global Opaque sbox gf_mul.
Local Opaque look.

Lemma tables x : x < 256 ->
  look Sbox x = sbox x /\ sbox x < 256 /\ gf_mul 2 (sbox x) < 256 /\ gf_mul 3 (sbox x) < 256 /\
  look T0 x = W (gf_mul 2 (sbox x)) (sbox x) (sbox x) (gf_mul 3 (sbox x)) /\
  look T1 x = W (gf_mul 3 (sbox x)) (gf_mul 2 (sbox x)) (sbox x) (sbox x) /\
  look T2 x = W (sbox x) (gf_mul 3 (sbox x)) (gf_mul 2 (sbox x)) (sbox x) /\
  look T3 x = W (sbox x) (sbox x) (gf_mul 3 (sbox x)) (gf_mul 2 (sbox x)).
Proof.
  intros H. pose proof (forall_byte _ tables_check x H) as E. cbv beta in E.
  rewrite !andb_true_iff in E. unfold byteb in E. rewrite !N.ltb_lt, !N.eqb_eq in E.
  destruct E as [[[[[[[E0 E1] E2] E3] E4] E5] E6] E7].
  exact (conj E0 (conj E1 (conj E2 (conj E3 (conj E4 (conj E5 (conj E6 E7))))))).
Qed.

Lemma look_u8 t x y : u8 x = y -> look t x = look t y.
Proof.
  Local Transparent look.
  intros <-. unfold look. f_equal. f_equal. rewrite !u8_mod. rewrite N.mod_mod by discriminate. reflexivity.
Qed.
Local Opaque look.

Lemma sbox_lt x : x < 256 -> sbox x < 256.
Proof. intros H. apply (tables x H). Qed.
Lemma look_Sbox x : x < 256 -> look Sbox x = sbox x.
Proof. intros H. apply (tables x H). Qed.

Ltac xor_ac := intros; apply N.bits_inj; intros i; rewrite !N.lxor_spec;
  repeat match goal with |- context [N.testbit ?x i] => destruct (N.testbit x i) end; reflexivity.
Lemma xor_rows a a2 a3 b b2 b3 c c2 c3 d d2 d3 k0 k1 k2 k3 :
  W (N.lxor (N.lxor (N.lxor (N.lxor a2 b3) c) d) k0) (N.lxor (N.lxor (N.lxor (N.lxor a b2) c3) d) k1)
    (N.lxor (N.lxor (N.lxor (N.lxor a b) c2) d3) k2) (N.lxor (N.lxor (N.lxor (N.lxor a3 b) c) d2) k3) =
  W (N.lxor (N.lxor a2 (N.lxor b3 (N.lxor c d))) k0) (N.lxor (N.lxor b2 (N.lxor c3 (N.lxor d a))) k1)
    (N.lxor (N.lxor c2 (N.lxor d3 (N.lxor a b))) k2) (N.lxor (N.lxor d2 (N.lxor a3 (N.lxor b c))) k3).
Proof. f_equal; xor_ac. Qed.

(** One column of ShiftRows, SubBytes, MixColumns. *)
Lemma tcol_ok x0 x1 x2 x3 y0 y1 y2 y3 z0 z1 z2 z3 w0 w1 w2 w3 k0 k1 k2 k3 :
  bytes_ok [x0;x1;x2;x3;y0;y1;y2;y3;z0;z1;z2;z3;w0;w1;w2;w3;k0;k1;k2;k3] ->
  tcol (W x0 x1 x2 x3) (W y0 y1 y2 y3) (W z0 z1 z2 z3) (W w0 w1 w2 w3) (W k0 k1 k2 k3) =
  let a := sbox x0 in let b := sbox y1 in let c := sbox z2 in let d := sbox w3 in
  W (N.lxor (N.lxor (gf_mul 2 a) (N.lxor (gf_mul 3 b) (N.lxor c d))) k0)
    (N.lxor (N.lxor (gf_mul 2 b) (N.lxor (gf_mul 3 c) (N.lxor d a))) k1)
    (N.lxor (N.lxor (gf_mul 2 c) (N.lxor (gf_mul 3 d) (N.lxor a b))) k2)
    (N.lxor (N.lxor (gf_mul 2 d) (N.lxor (gf_mul 3 a) (N.lxor b c))) k3).
Proof.
  intros F. unfold bytes_ok in F. repeat rewrite Forall_cons_iff in F.
  destruct F as (X0&X1&X2&X3&Y0&Y1&Y2&Y3&Z0&Z1&Z2&Z3&W0&W1&W2&W3&K0&K1&K2&K3&_).
  destruct (W_shift x0 x1 x2 x3 X0 X1 X2 X3) as (A0&_&_&_).
  destruct (W_shift y0 y1 y2 y3 Y0 Y1 Y2 Y3) as (_&A1&_&_).
  destruct (W_shift z0 z1 z2 z3 Z0 Z1 Z2 Z3) as (_&_&A2&_).
  destruct (W_shift w0 w1 w2 w3 W0 W1 W2 W3) as (_&_&_&A3).
  unfold tcol. rewrite (look_u8 T0 _ _ A0), (look_u8 T1 _ _ A1), (look_u8 T2 _ _ A2), (look_u8 T3 _ _ A3).
  destruct (tables x0 X0) as (_&S0&S0'&S0''&->&_&_&_).
  destruct (tables y1 Y1) as (_&S1&S1'&S1''&_&->&_&_).
  destruct (tables z2 Z2) as (_&S2&S2'&S2''&_&_&->&_).
  destruct (tables w3 W3) as (_&S3&S3'&S3''&_&_&_&->).
  rewrite !W_lxor by (repeat apply byte_lxor; assumption). cbv zeta.
  apply xor_rows.
Qed.

Lemma scol_ok x0 x1 x2 x3 y0 y1 y2 y3 z0 z1 z2 z3 w0 w1 w2 w3 k0 k1 k2 k3 :
  bytes_ok [x0;x1;x2;x3;y0;y1;y2;y3;z0;z1;z2;z3;w0;w1;w2;w3;k0;k1;k2;k3] ->
  scol (W x0 x1 x2 x3) (W y0 y1 y2 y3) (W z0 z1 z2 z3) (W w0 w1 w2 w3) (W k0 k1 k2 k3) =
  W (N.lxor (sbox x0) k0) (N.lxor (sbox y1) k1) (N.lxor (sbox z2) k2) (N.lxor (sbox w3) k3).
Proof.
  intros F. unfold bytes_ok in F. repeat rewrite Forall_cons_iff in F.
  destruct F as (X0&X1&X2&X3&Y0&Y1&Y2&Y3&Z0&Z1&Z2&Z3&W0&W1&W2&W3&K0&K1&K2&K3&_).
  destruct (W_shift x0 x1 x2 x3 X0 X1 X2 X3) as (A0&_&_&_).
  destruct (W_shift y0 y1 y2 y3 Y0 Y1 Y2 Y3) as (_&A1&_&_).
  destruct (W_shift z0 z1 z2 z3 Z0 Z1 Z2 Z3) as (_&_&A2&_).
  destruct (W_shift w0 w1 w2 w3 W0 W1 W2 W3) as (_&_&_&A3).
  unfold scol. rewrite (look_u8 Sbox _ _ A0), (look_u8 Sbox _ _ A1), (look_u8 Sbox _ _ A2), (look_u8 Sbox _ _ A3).
  rewrite !look_Sbox by assumption.
  destruct (shl_W (sbox x0)) as (E0&_&_&_); [apply sbox_lt; assumption|].
  destruct (shl_W (sbox y1)) as (_&E1&_&_); [apply sbox_lt; assumption|].
  destruct (shl_W (sbox z2)) as (_&_&E2&_); [apply sbox_lt; assumption|].
  destruct (shl_W (sbox w3)) as (_&_&_&E3); [apply sbox_lt; assumption|].
  rewrite E1, E2, E3, E0 at 1.
  assert (Z : 0 < 256) by reflexivity.
  rewrite !W_lxor by (repeat first [apply byte_lxor|apply sbox_lt|assumption]).
  rewrite ?N.lxor_0_r, ?N.lxor_0_l. reflexivity.
Qed.

(** ** States *)
Lemma list16 {A} (l : list A) : length l = 16%nat ->
  exists a0 a1 a2 a3 a4 a5 a6 a7 a8 a9 a10 a11 a12 a13 a14 a15,
  l = [a0;a1;a2;a3;a4;a5;a6;a7;a8;a9;a10;a11;a12;a13;a14;a15].
Proof.
  intros H. do 16 (destruct l as [|? l]; [discriminate|]). destruct l; [|discriminate].
  repeat eexists.
Qed.

Definition st16 (s : list N) : Prop := bytes_ok s /\ length s = 16%nat.

Lemma vload_ok k : words_ok k -> (4 <= length k)%nat ->
  exists k0 k1 k2 k3 k4 k5 k6 k7 k8 k9 k10 k11 k12 k13 k14 k15,
  vload k = [k0;k1;k2;k3;k4;k5;k6;k7;k8;k9;k10;k11;k12;k13;k14;k15] /\
  st16 (vload k) /\
  nth 0 k 0 = W k0 k1 k2 k3 /\ nth 1 k 0 = W k4 k5 k6 k7 /\
  nth 2 k 0 = W k8 k9 k10 k11 /\ nth 3 k 0 = W k12 k13 k14 k15.
Proof.
  intros H L. destruct k as [|a [|b [|c [|d k]]]]; simpl in L; try lia.
  unfold words_ok in H. repeat rewrite Forall_cons_iff in H. destruct H as (A & B & C & D & _).
  unfold vload. cbn [firstn flat_map bytes_of_le32 app nth].
  do 16 eexists. split; [reflexivity|]. split.
  - split; [|reflexivity]. unfold bytes_ok. repeat constructor; apply u8_lt.
  - rewrite !W_bytes by assumption. auto.
Qed.

Lemma vload_vstore s : st16 s -> vload (quad (vstore s)) = s.
Proof.
  intros [B L]. destruct (list16 s L) as (a0&a1&a2&a3&a4&a5&a6&a7&a8&a9&a10&a11&a12&a13&a14&a15&->).
  unfold bytes_ok in B. repeat rewrite Forall_cons_iff in B.
  destruct B as (?&?&?&?&?&?&?&?&?&?&?&?&?&?&?&?&_).
  unfold vstore, vword, quad, vload. cbn [Nat.mul Nat.add nth firstn flat_map app].
  rewrite !bytes_of_le32_of by assumption. reflexivity.
Qed.

Lemma vstore_vload a b c d : a < 2^32 -> b < 2^32 -> c < 2^32 -> d < 2^32 ->
  vstore (vload [a; b; c; d]) = (a, b, c, d).
Proof.
  intros. unfold vstore, vword, vload. cbn [firstn flat_map bytes_of_le32 app Nat.mul Nat.add nth].
  rewrite !W_bytes by assumption. reflexivity.
Qed.

Lemma initial_round_ok s k : st16 s -> words_ok k -> (4 <= length k)%nat ->
  initial_round (vstore s) k = vstore (add_round_key s (vload k)).
Proof.
  intros [B L] Hk Lk. destruct (list16 s L) as (a0&a1&a2&a3&a4&a5&a6&a7&a8&a9&a10&a11&a12&a13&a14&a15&->).
  destruct (vload_ok k Hk Lk) as (k0&k1&k2&k3&k4&k5&k6&k7&k8&k9&k10&k11&k12&k13&k14&k15&->&[BK _]&E0&E1&E2&E3).
  unfold bytes_ok in B, BK. repeat rewrite Forall_cons_iff in B. repeat rewrite Forall_cons_iff in BK.
  destruct B as (?&?&?&?&?&?&?&?&?&?&?&?&?&?&?&?&_). destruct BK as (?&?&?&?&?&?&?&?&?&?&?&?&?&?&?&?&_).
  unfold initial_round, vstore, vword, add_round_key, xor_bytes. rewrite E0, E1, E2, E3.
  cbn [Nat.mul Nat.add nth combine map fst snd]. rewrite !W_lxor by assumption. reflexivity.
Qed.

Lemma round_ok s k : st16 s -> words_ok k -> (4 <= length k)%nat ->
  round (vstore s) k = vstore (aes_round s (vload k)).
Proof.
  intros [B L] Hk Lk. destruct (list16 s L) as (a0&a1&a2&a3&a4&a5&a6&a7&a8&a9&a10&a11&a12&a13&a14&a15&->).
  destruct (vload_ok k Hk Lk) as (k0&k1&k2&k3&k4&k5&k6&k7&k8&k9&k10&k11&k12&k13&k14&k15&->&[BK _]&E0&E1&E2&E3).
  unfold bytes_ok in B, BK. repeat rewrite Forall_cons_iff in B. repeat rewrite Forall_cons_iff in BK.
  destruct B as (?&?&?&?&?&?&?&?&?&?&?&?&?&?&?&?&_). destruct BK as (?&?&?&?&?&?&?&?&?&?&?&?&?&?&?&?&_).
  unfold round, vstore, vword. rewrite E0, E1, E2, E3. cbn [Nat.mul Nat.add nth].
  rewrite !tcol_ok by (unfold bytes_ok; repeat constructor; assumption).
  cbv zeta.
  unfold aes_round, add_round_key, mix_columns, shift_rows, sub_bytes, xor_bytes, positions, byte.
  cbn [map flat_map seq app fst snd Nat.add Nat.mul Nat.modulo Nat.divmod Nat.sub nth combine].
  reflexivity.
Qed.

Lemma final_round_ok s k : st16 s -> words_ok k -> (4 <= length k)%nat ->
  final_round (vstore s) k = vstore (aes_final_round s (vload k)).
Proof.
  intros [B L] Hk Lk. destruct (list16 s L) as (a0&a1&a2&a3&a4&a5&a6&a7&a8&a9&a10&a11&a12&a13&a14&a15&->).
  destruct (vload_ok k Hk Lk) as (k0&k1&k2&k3&k4&k5&k6&k7&k8&k9&k10&k11&k12&k13&k14&k15&->&[BK _]&E0&E1&E2&E3).
  unfold bytes_ok in B, BK. repeat rewrite Forall_cons_iff in B. repeat rewrite Forall_cons_iff in BK.
  destruct B as (?&?&?&?&?&?&?&?&?&?&?&?&?&?&?&?&_). destruct BK as (?&?&?&?&?&?&?&?&?&?&?&?&?&?&?&?&_).
  unfold final_round, vstore, vword. rewrite E0, E1, E2, E3. cbn [Nat.mul Nat.add nth].
  rewrite !scol_ok by (unfold bytes_ok; repeat constructor; assumption).
  unfold aes_final_round, add_round_key, shift_rows, sub_bytes, xor_bytes, positions, byte.
  cbn [map flat_map seq app fst snd Nat.add Nat.mul Nat.modulo Nat.divmod Nat.sub nth combine].
  reflexivity.
Qed.

(** ** States stay states *)
Lemma add_st16 s k : st16 s -> st16 k -> st16 (add_round_key s k).
Proof.
  intros [B1 L1] [B2 L2]. unfold add_round_key. split.
  - apply xor_bytes_ok; assumption.
  - rewrite xor_bytes_length_min, L1, L2. reflexivity.
Qed.

Lemma sub_shift_st16 s : st16 s -> st16 (shift_rows (sub_bytes s)).
Proof.
  intros [B L]. destruct (list16 s L) as (a0&a1&a2&a3&a4&a5&a6&a7&a8&a9&a10&a11&a12&a13&a14&a15&->).
  split; [|reflexivity].
  unfold bytes_ok in B. repeat rewrite Forall_cons_iff in B.
  destruct B as (?&?&?&?&?&?&?&?&?&?&?&?&?&?&?&?&_).
  unfold shift_rows, sub_bytes, positions, byte, bytes_ok.
  cbn [map flat_map seq app fst snd Nat.add Nat.mul Nat.modulo Nat.divmod Nat.sub nth].
  repeat constructor; apply sbox_lt; assumption.
Qed.

Lemma mix_sub_shift_st16 s : st16 s -> st16 (mix_columns (shift_rows (sub_bytes s))).
Proof.
  intros [B L]. destruct (list16 s L) as (a0&a1&a2&a3&a4&a5&a6&a7&a8&a9&a10&a11&a12&a13&a14&a15&->).
  split; [|reflexivity].
  unfold bytes_ok in B. repeat rewrite Forall_cons_iff in B.
  destruct B as (?&?&?&?&?&?&?&?&?&?&?&?&?&?&?&?&_).
  unfold mix_columns, shift_rows, sub_bytes, positions, byte, bytes_ok.
  cbn [map flat_map seq app fst snd Nat.add Nat.mul Nat.modulo Nat.divmod Nat.sub nth].
  repeat constructor; repeat apply byte_lxor; try (apply sbox_lt; assumption); apply tables; assumption.
Qed.

Lemma aes_round_st16 s k : st16 s -> st16 k -> st16 (aes_round s k).
Proof. intros H1 H2. apply add_st16; [apply mix_sub_shift_st16; exact H1|exact H2]. Qed.
Lemma aes_final_round_st16 s k : st16 s -> st16 k -> st16 (aes_final_round s k).
Proof. intros H1 H2. apply add_st16; [apply sub_shift_st16; exact H1|exact H2]. Qed.
Lemma fold_round_st16 ks s : Forall st16 ks -> st16 s -> st16 (fold_left aes_round ks s).
Proof.
  intros H. revert s. induction H as [|k ks Hk H IH]; intros s Hs; [exact Hs|].
  cbn [fold_left]. apply IH. apply aes_round_st16; assumption.
Qed.
Lemma cipher_st16 k0 ks kl s : st16 k0 -> Forall st16 ks -> st16 kl -> st16 s -> st16 (cipher k0 ks kl s).
Proof.
  intros. unfold cipher. apply aes_final_round_st16; [|assumption].
  apply fold_round_st16; [assumption|]. apply add_st16; assumption.
Qed.

(** ** The three block functions *)
Definition rkey (rk : list N) (i : nat) : list N := vload (rk_at (4 * i) rk).
Definition middle (b : build) : list nat :=
  match b with Table true => seq 5 5 | _ => seq 1 9 end.
Definition cipher_of (b : build) (rk : list N) (s : list N) : list N :=
  cipher (rkey rk 0) (map (rkey rk) (middle b)) (rkey rk 10) s.

Definition rk_ok (rk : list N) : Prop := words_ok rk /\ length rk = 44%nat.

Lemma rk_at_ok rk i : rk_ok rk -> (i <= 40)%nat -> words_ok (rk_at i rk) /\ (4 <= length (rk_at i rk))%nat.
Proof.
  intros [H L] Hi. unfold rk_at. split.
  - rewrite <- (firstn_skipn i rk) in H. apply Forall_app in H. apply H.
  - rewrite skipn_length, L. lia.
Qed.

Lemma rkey_st16 rk i : rk_ok rk -> (i <= 10)%nat -> st16 (rkey rk i).
Proof.
  intros H Hi. destruct (rk_at_ok rk (4 * i) H ltac:(lia)) as [A B].
  destruct (vload_ok _ A B) as (?&?&?&?&?&?&?&?&?&?&?&?&?&?&?&?&_&S&_). exact S.
Qed.

Lemma cipher_of_st16 b rk s : rk_ok rk -> st16 s -> st16 (cipher_of b rk s).
Proof.
  intros H Hs. apply cipher_st16; [apply rkey_st16; [exact H|lia]| |apply rkey_st16; [exact H|lia]|exact Hs].
  apply Forall_map. apply Forall_forall. intros i Hi. apply rkey_st16; [exact H|].
  destruct b as [[]| |]; simpl in Hi; lia.
Qed.

Lemma table_rounds_ok reduced rk s : rk_ok rk -> st16 s ->
  table_rounds reduced (vstore s) rk = vstore (cipher_of (Table reduced) rk s).
Proof.
  intros H Hs.
  assert (K : forall i, (i <= 10)%nat -> st16 (vload (rk_at (4 * i) rk))) by (intros i Hi; exact (rkey_st16 rk i H Hi)).
  assert (R : forall i s, (i <= 10)%nat -> st16 s ->
    round (vstore s) (rk_at (4 * i) rk) = vstore (aes_round s (rkey rk i)) /\ st16 (aes_round s (rkey rk i))).
  { intros i t Hi Ht. destruct (rk_at_ok rk (4 * i) H ltac:(lia)) as [A B]. split.
    - apply round_ok; assumption.
    - apply aes_round_st16; [assumption|apply K; lia]. }
  unfold table_rounds, cipher_of, cipher.
  destruct (rk_at_ok rk 0 H ltac:(lia)) as [A0 B0]. rewrite initial_round_ok by assumption.
  assert (S0 : st16 (add_round_key s (vload (rk_at 0 rk)))) by (apply add_st16; [exact Hs|exact (K 0%nat ltac:(lia))]).
  change (rkey rk 0) with (vload (rk_at 0 rk)).
  generalize dependent (add_round_key s (vload (rk_at 0 rk))). intros t Ht.
  assert (G : forall t, st16 t ->
    final_round (round (round (round (round (round (vstore t) (rk_at 20 rk)) (rk_at 24 rk)) (rk_at 28 rk))
       (rk_at 32 rk)) (rk_at 36 rk)) (rk_at 40 rk) =
    vstore (aes_final_round (fold_left aes_round (map (rkey rk) (seq 5 5)) t) (rkey rk 10))).
  { clear t Ht. intros t Ht. cbn [seq map fold_left].
    change 20%nat with (4 * 5)%nat at 1. destruct (R 5%nat t ltac:(lia) Ht) as [-> H5].
    change 24%nat with (4 * 6)%nat at 1. destruct (R 6%nat _ ltac:(lia) H5) as [-> H6].
    change 28%nat with (4 * 7)%nat at 1. destruct (R 7%nat _ ltac:(lia) H6) as [-> H7].
    change 32%nat with (4 * 8)%nat at 1. destruct (R 8%nat _ ltac:(lia) H7) as [-> H8].
    change 36%nat with (4 * 9)%nat at 1. destruct (R 9%nat _ ltac:(lia) H8) as [-> H9].
    destruct (rk_at_ok rk 40 H ltac:(lia)) as [A B]. apply final_round_ok; assumption. }
  destruct reduced; [apply G; exact Ht|].
  cbn [middle]. change (seq 1 9) with (seq 1 4 ++ seq 5 5). rewrite map_app, fold_left_app.
  change 4%nat with (4 * 1)%nat at 1. destruct (R 1%nat t ltac:(lia) Ht) as [-> H1].
  change 8%nat with (4 * 2)%nat at 1. destruct (R 2%nat _ ltac:(lia) H1) as [-> H2].
  change 12%nat with (4 * 3)%nat at 1. destruct (R 3%nat _ ltac:(lia) H2) as [-> H3].
  change 16%nat with (4 * 4)%nat at 1. destruct (R 4%nat _ ltac:(lia) H3) as [-> H4].
  rewrite G by exact H4. reflexivity.
Qed.

Lemma vxor_add s k : vxor s k = add_round_key s k.
Proof. reflexivity. Qed.

Lemma sub_shift_comm s : length s = 16%nat -> sub_bytes (shift_rows s) = shift_rows (sub_bytes s).
Proof.
  intros L. destruct (list16 s L) as (a0&a1&a2&a3&a4&a5&a6&a7&a8&a9&a10&a11&a12&a13&a14&a15&->).
  unfold shift_rows, sub_bytes, positions, byte.
  cbn [map flat_map seq app fst snd Nat.add Nat.mul Nat.modulo Nat.divmod Nat.sub nth]. reflexivity.
Qed.

Lemma aesenc_ok s k : st16 s -> mm_aesenc s k = aes_round s k.
Proof. intros [_ L]. unfold mm_aesenc, aes_round. rewrite sub_shift_comm by exact L. reflexivity. Qed.
Lemma aesenclast_ok s k : st16 s -> mm_aesenclast s k = aes_final_round s k.
Proof. intros [_ L]. unfold mm_aesenclast, aes_final_round. rewrite sub_shift_comm by exact L. reflexivity. Qed.

Lemma x86_rounds_ok rk s : rk_ok rk -> st16 s ->
  x86_rounds (vstore s) rk = vstore (cipher_of X86 rk s).
Proof.
  intros H Hs. unfold x86_rounds. rewrite vload_vstore by exact Hs.
  assert (K : forall i, (i <= 10)%nat -> st16 (rkey rk i)) by (intros; apply rkey_st16; assumption).
  change (vload (rk_at 0 rk)) with (rkey rk 0). change (vload (rk_at 4 rk)) with (rkey rk 1).
  change (vload (rk_at 8 rk)) with (rkey rk 2). change (vload (rk_at 12 rk)) with (rkey rk 3).
  change (vload (rk_at 16 rk)) with (rkey rk 4). change (vload (rk_at 20 rk)) with (rkey rk 5).
  change (vload (rk_at 24 rk)) with (rkey rk 6). change (vload (rk_at 28 rk)) with (rkey rk 7).
  change (vload (rk_at 32 rk)) with (rkey rk 8). change (vload (rk_at 36 rk)) with (rkey rk 9).
  change (vload (rk_at 40 rk)) with (rkey rk 10).
  unfold cipher_of, cipher, middle. cbn [seq map fold_left]. rewrite vxor_add.
  assert (S0 : st16 (add_round_key s (rkey rk 0))) by (apply add_st16; [assumption|apply K; lia]).
  rewrite (aesenc_ok _ _ S0). pose proof (aes_round_st16 _ (rkey rk 1) S0 (K 1%nat ltac:(lia))) as S1.
  rewrite (aesenc_ok _ _ S1). pose proof (aes_round_st16 _ (rkey rk 2) S1 (K 2%nat ltac:(lia))) as S2.
  rewrite (aesenc_ok _ _ S2). pose proof (aes_round_st16 _ (rkey rk 3) S2 (K 3%nat ltac:(lia))) as S3.
  rewrite (aesenc_ok _ _ S3). pose proof (aes_round_st16 _ (rkey rk 4) S3 (K 4%nat ltac:(lia))) as S4.
  rewrite (aesenc_ok _ _ S4). pose proof (aes_round_st16 _ (rkey rk 5) S4 (K 5%nat ltac:(lia))) as S5.
  rewrite (aesenc_ok _ _ S5). pose proof (aes_round_st16 _ (rkey rk 6) S5 (K 6%nat ltac:(lia))) as S6.
  rewrite (aesenc_ok _ _ S6). pose proof (aes_round_st16 _ (rkey rk 7) S6 (K 7%nat ltac:(lia))) as S7.
  rewrite (aesenc_ok _ _ S7). pose proof (aes_round_st16 _ (rkey rk 8) S7 (K 8%nat ltac:(lia))) as S8.
  rewrite (aesenc_ok _ _ S8). pose proof (aes_round_st16 _ (rkey rk 9) S8 (K 9%nat ltac:(lia))) as S9.
  rewrite (aesenclast_ok _ _ S9). reflexivity.
Qed.

(** AESE then AESMC of a state to which the key is still to be added. *)
Lemma aese_ok s k : st16 s -> st16 k -> vaese s k = shift_rows (sub_bytes (add_round_key s k)).
Proof.
  intros Hs Hk. unfold vaese. rewrite vxor_add. apply sub_shift_comm.
  apply (proj2 (add_st16 s k Hs Hk)).
Qed.

Lemma arm_rounds_ok rk s : rk_ok rk -> st16 s ->
  arm_rounds (vstore s) rk = vstore (cipher_of Arm rk s).
Proof.
  intros H Hs. unfold arm_rounds. rewrite vload_vstore by exact Hs.
  assert (K : forall i, (i <= 10)%nat -> st16 (rkey rk i)) by (intros; apply rkey_st16; assumption).
  change (vload (rk_at 0 rk)) with (rkey rk 0). change (vload (rk_at 4 rk)) with (rkey rk 1).
  change (vload (rk_at 8 rk)) with (rkey rk 2). change (vload (rk_at 12 rk)) with (rkey rk 3).
  change (vload (rk_at 16 rk)) with (rkey rk 4). change (vload (rk_at 20 rk)) with (rkey rk 5).
  change (vload (rk_at 24 rk)) with (rkey rk 6). change (vload (rk_at 28 rk)) with (rkey rk 7).
  change (vload (rk_at 32 rk)) with (rkey rk 8). change (vload (rk_at 36 rk)) with (rkey rk 9).
  change (vload (rk_at 40 rk)) with (rkey rk 10).
  unfold cipher_of, cipher, middle. cbn [seq map fold_left].
  assert (M : forall s i, st16 s -> (i <= 10)%nat ->
     vaesmc (vaese s (rkey rk i)) = mix_columns (shift_rows (sub_bytes (add_round_key s (rkey rk i)))) /\
     st16 (mix_columns (shift_rows (sub_bytes (add_round_key s (rkey rk i)))))).
  { intros t i Ht Hi. rewrite aese_ok by (first [assumption|apply K; assumption]). split; [reflexivity|].
    apply mix_sub_shift_st16. apply add_st16; [assumption|apply K; assumption]. }
  destruct (M s 0%nat Hs ltac:(lia)) as [-> S0].
  destruct (M _ 1%nat S0 ltac:(lia)) as [-> S1]. destruct (M _ 2%nat S1 ltac:(lia)) as [-> S2].
  destruct (M _ 3%nat S2 ltac:(lia)) as [-> S3]. destruct (M _ 4%nat S3 ltac:(lia)) as [-> S4].
  destruct (M _ 5%nat S4 ltac:(lia)) as [-> S5]. destruct (M _ 6%nat S5 ltac:(lia)) as [-> S6].
  destruct (M _ 7%nat S6 ltac:(lia)) as [-> S7]. destruct (M _ 8%nat S7 ltac:(lia)) as [-> S8].
  rewrite aese_ok by (first [assumption|apply K; lia]). rewrite vxor_add. unfold aes_final_round, aes_round. reflexivity.
Qed.

Lemma rounds_ok b rk s : rk_ok rk -> st16 s -> rounds b (vstore s) rk = vstore (cipher_of b rk s).
Proof.
  intros H Hs. destruct b; cbn [rounds].
  - apply table_rounds_ok; assumption.
  - apply x86_rounds_ok; assumption.
  - apply arm_rounds_ok; assumption.
Qed.

(** ** Key expansion *)
Definition word4 (w : list N) : Prop := bytes_ok w /\ length w = 4%nat.

Lemma word4_inv w : word4 w -> exists a b c d, w = [a; b; c; d] /\ a < 256 /\ b < 256 /\ c < 256 /\ d < 256.
Proof.
  intros [B L]. destruct w as [|a [|b [|c [|d [|]]]]]; simpl in L; try discriminate.
  unfold bytes_ok in B. repeat rewrite Forall_cons_iff in B. exists a, b, c, d. tauto.
Qed.

Lemma le_num_W a b c d : le_num [a; b; c; d] = W a b c d.
Proof. unfold W. cbn [le_num]. lia. Qed.

Lemma le_num4_lxor x y : word4 x -> word4 y ->
  N.lxor (le_num x) (le_num y) = le_num (xor_bytes x y) /\ word4 (xor_bytes x y).
Proof.
  intros Hx Hy. pose proof Hx as [Bx Lx]. pose proof Hy as [By Ly].
  destruct (word4_inv x Hx) as (a & b & c & d & -> & ? & ? & ? & ?).
  destruct (word4_inv y Hy) as (a' & b' & c' & d' & -> & ? & ? & ? & ?). split.
  - unfold xor_bytes. cbn [combine map fst snd]. rewrite !le_num_W. apply W_lxor; assumption.
  - split; [apply xor_bytes_ok; assumption|reflexivity].
Qed.

Lemma RotByte_ok w : word4 w -> RotByte (le_num w) = le_num (rot_word w) /\ word4 (rot_word w).
Proof.
  intros H. destruct (word4_inv w H) as (a & b & c & d & -> & Ha & Hb & Hc & Hd).
  cbn [rot_word app]. split; [|split; [unfold bytes_ok; repeat constructor; assumption|reflexivity]].
  unfold RotByte. rewrite !le_num_W.
  rewrite lor_add.
  - unfold shl32, shr32. rewrite u32_mod, N.shiftl_mul_pow2, N.shiftr_div_pow2. unfold W.
    change (2^24) with 16777216. change (2^32) with 4294967296. change (2^8) with 256.
    rewrite (N.mul_comm 256 (b + _)), N.div_add, N.div_small by (assumption || discriminate).
    replace ((a + (b + 256 * (c + 256 * d)) * 256) * 16777216)
      with (a * 16777216 + (b + 256 * (c + 256 * d)) * 4294967296) by lia.
    rewrite N.mod_add, N.mod_small by lia. lia.
  - apply N.bits_inj. intros i. rewrite N.land_spec, N.bits_0, shl32_testbit, shr32_testbit.
    destruct (N.leb_spec 24 i); [|reflexivity].
    replace (N.testbit (W a b c d) (i + 8)) with false; [apply andb_false_r|].
    symmetry. apply (proj1 (lt_pow2_testbit (W a b c d) 32)); [apply W_lt; assumption|lia].
Qed.

Lemma SubByte_ok w : word4 w -> SubByte (le_num w) = le_num (sub_word w) /\ word4 (sub_word w).
Proof.
  intros H. destruct (word4_inv w H) as (a & b & c & d & -> & Ha & Hb & Hc & Hd).
  cbn [sub_word map]. split.
  2:{ split; [unfold bytes_ok; repeat constructor; apply sbox_lt; assumption|reflexivity]. }
  rewrite !le_num_W. pose proof (scol_ok a b c d a b c d a b c d a b c d 0 0 0 0) as E.
  rewrite !N.lxor_0_r in E. rewrite <- E by (unfold bytes_ok; repeat constructor; assumption).
  unfold scol. change (W 0 0 0 0) with 0. rewrite N.lxor_0_r. reflexivity.
Qed.

Lemma forallb_bytes l : forallb (fun x => x <? 256) l = true -> bytes_ok l.
Proof.
  intros H. apply Forall_forall. intros x Hx. rewrite forallb_forall in H. apply N.ltb_lt. apply H. exact Hx.
Qed.

Lemma Rcon_ok i : (1 <= i <= 10)%nat -> nth i Rcon 0 = le_num (rcon i) /\ word4 (rcon i).
Proof.
  intros Hi. do 11 (destruct i as [|i]; [first [lia | split; [vm_compute; reflexivity|split; [apply forallb_bytes; vm_compute; reflexivity|reflexivity]]]|]). lia.
Qed.

Lemma next_word4 i p4 p1 : (4 <= i < 44)%nat -> word4 p4 -> word4 p1 ->
  N.lxor (le_num p4) (if Nat.eqb (i mod 4) 0 then N.lxor (SubByte (RotByte (le_num p1))) (nth (i / 4) Rcon 0)
                      else le_num p1) = le_num (next_word i p4 p1) /\ word4 (next_word i p4 p1).
Proof.
  intros Hi H4 H1. unfold next_word. destruct (Nat.eqb (i mod 4) 0) eqn:E.
  - destruct (RotByte_ok p1 H1) as [-> R]. destruct (SubByte_ok _ R) as [-> S].
    destruct (Rcon_ok (i / 4)) as [-> C].
    { split; [apply Nat.div_le_lower_bound; lia|]. apply Nat.lt_succ_r. apply Nat.div_lt_upper_bound; lia. }
    destruct (le_num4_lxor _ _ S C) as [-> X]. apply le_num4_lxor; assumption.
  - apply le_num4_lxor; assumption.
Qed.

Lemma expand_ok n i ws : length ws = i -> (4 <= i)%nat -> (i + n <= 44)%nat -> Forall word4 ws ->
  iter_n n i expand_step (map le_num ws) = map le_num (expand n i ws) /\
  Forall word4 (expand n i ws) /\ length (expand n i ws) = (i + n)%nat.
Proof.
  revert i ws. induction n as [|n IH]; intros i ws L Hi Hn F.
  - cbn [iter_n expand]. rewrite Nat.add_0_r. auto.
  - rewrite iter_n_S. cbn [expand].
    assert (N4 : word4 (nth (i - 4) ws [])) by (apply Forall_nth; [exact F|lia]).
    assert (N1 : word4 (nth (i - 1) ws [])) by (apply Forall_nth; [exact F|lia]).
    destruct (next_word4 i _ _ ltac:(lia) N4 N1) as [E X].
    assert (S : expand_step i (map le_num ws) =
                map le_num (ws ++ [next_word i (nth (i - 4) ws []) (nth (i - 1) ws [])])).
    { assert (M : forall j, nth j (map le_num ws) 0 = le_num (nth j ws [])) by (intros j; exact (map_nth le_num ws [] j)).
      unfold expand_step. cbv zeta. rewrite !M, map_app. cbn [map]. rewrite <- E. reflexivity. }
    rewrite S. replace (i + Datatypes.S n)%nat with (Datatypes.S i + n)%nat by lia. apply IH.
    + rewrite app_length, L. simpl. lia.
    + lia.
    + lia.
    + apply Forall_app. split; [exact F|]. constructor; [exact X|constructor].
Qed.

Lemma key_bytes_word b0 b1 b2 b3 : b0 < 256 -> b1 < 256 -> b2 < 256 -> b3 < 256 ->
  N.lor (N.lor (N.lor b0 (shl32 b1 8)) (shl32 b2 16)) (shl32 b3 24) = le_num [b0; b1; b2; b3].
Proof.
  intros H0 H1 H2 H3. rewrite le_num_W. apply N.bits_inj. intros i.
  rewrite <- (W_bytes (W b0 b1 b2 b3)) by (apply W_lt; assumption).
  destruct (W_byte b0 b1 b2 b3 H0 H1 H2 H3) as (-> & -> & -> & ->).
  destruct (shl_W b1 H1) as (_ & E1 & _ & _). destruct (shl_W b2 H2) as (_ & _ & E2 & _).
  destruct (shl_W b3 H3) as (_ & _ & _ & E3).
  assert (X : forall a b, N.land a b = 0 -> N.lor a b = N.lxor a b).
  { intros a b H. rewrite lor_add by exact H. rewrite N.add_nocarry_lxor by exact H. reflexivity. }
  assert (Y : forall x n k, x < 2^n -> n <= k -> k < 32 -> forall y, N.land x (shl32 y k) = 0).
  { intros x n k Hx Hn Hk y. apply N.bits_inj. intros j. rewrite N.land_spec, N.bits_0, shl32_testbit.
    destruct (N.leb_spec k j); [|apply andb_false_r].
    rewrite (proj1 (lt_pow2_testbit x n) Hx j) by lia. reflexivity. }
  assert (Z : 0 < 256) by reflexivity.
  assert (A1 : N.lor b0 (shl32 b1 8) = W b0 b1 0 0).
  { rewrite X by (apply (Y b0 8); [exact H0|reflexivity|reflexivity]). rewrite E1.
    destruct (shl_W b0 H0) as (E0 & _). rewrite E0 at 1. rewrite W_lxor by assumption. rewrite !N.lxor_0_l, !N.lxor_0_r. reflexivity. }
  rewrite A1.
  assert (A2 : N.lor (W b0 b1 0 0) (shl32 b2 16) = W b0 b1 b2 0).
  { rewrite X by (apply (Y _ 16); [unfold W; change (2^16) with 65536; lia|reflexivity|reflexivity]). rewrite E2.
    rewrite W_lxor by assumption. rewrite !N.lxor_0_l, !N.lxor_0_r. reflexivity. }
  rewrite A2. f_equal.
  rewrite X by (apply (Y _ 24); [unfold W; change (2^24) with 16777216; lia|reflexivity|reflexivity]). rewrite E3.
  rewrite W_lxor by assumption. rewrite !N.lxor_0_l, !N.lxor_0_r. reflexivity.
Qed.

Lemma key_chunks key : bytes_ok key -> length key = 16%nat ->
  Forall word4 (chunks 4 key) /\ length (chunks 4 key) = 4%nat.
Proof.
  intros B L. destruct (list16 key L) as (a0&a1&a2&a3&a4&a5&a6&a7&a8&a9&a10&a11&a12&a13&a14&a15&->).
  unfold bytes_ok in B. repeat rewrite Forall_cons_iff in B.
  destruct B as (?&?&?&?&?&?&?&?&?&?&?&?&?&?&?&?&_).
  unfold chunks. cbn [length chunks_fuel firstn skipn]. split; [|reflexivity].
  repeat constructor; assumption.
Qed.

Lemma aes_key_expansion_ok m p key : has_bytes m p key -> length key = 16%nat ->
  aes_key_expansion m p = Ret (map le_num (key_words key)) /\
  Forall word4 (key_words key) /\ length (key_words key) = 44%nat.
Proof.
  intros H L. pose proof (has_bytes_bytes _ _ _ H) as B.
  destruct (key_chunks key B L) as [F C].
  destruct (expand_ok 40 4 (chunks 4 key) C ltac:(lia) ltac:(lia) F) as (E & F' & L').
  split; [|split; assumption]. unfold key_words. rewrite <- E. unfold aes_key_expansion.
  destruct (list16 key L) as (a0&a1&a2&a3&a4&a5&a6&a7&a8&a9&a10&a11&a12&a13&a14&a15&->).
  set (key := [a0;a1;a2;a3;a4;a5;a6;a7;a8;a9;a10;a11;a12;a13;a14;a15]) in *.
  assert (R : forall i, (i < 16)%nat -> ld8 m (padd p i) = Ret (nth i key 0)).
  { intros i Hi. apply has_bytes_nth; [exact Hi|exact H]. }
  unfold bytes_ok in B. unfold key in B. repeat rewrite Forall_cons_iff in B.
  destruct B as (?&?&?&?&?&?&?&?&?&?&?&?&?&?&?&?&_).
  replace (for_n 4 0 _ []) with (Ret (map le_num (chunks 4 key))); [reflexivity|]. symmetry.
  clear F C E F' L'.
  rewrite !for_n_S. cbn [for_n Nat.mul Nat.add]. rewrite !R by lia.
  unfold key. cbn [bind app nth].
  rewrite !key_bytes_word by assumption. reflexivity.
Qed.

(** The schedule as the words of the FIPS key schedule. *)
Lemma rkey_round_key key i : Forall word4 (key_words key) -> rkey (map le_num (key_words key)) i = round_key key i.
Proof.
  intros F. unfold rkey, round_key, rk_at, vload. rewrite skipn_map, firstn_map.
  assert (F' : Forall word4 (firstn 4 (skipn (4 * i) (key_words key)))).
  { apply Forall_firstn. apply Forall_skipn. exact F. }
  generalize dependent (firstn 4 (skipn (4 * i) (key_words key))). intros l Hl.
  induction Hl as [|w l Hw Hl IH]; [reflexivity|]. cbn [map flat_map concat]. rewrite IH. f_equal.
  destruct (word4_inv w Hw) as (a & b & c & d & -> & ? & ? & ? & ?). rewrite le_num_W.
  apply bytes_of_le32_of; assumption.
Qed.

Lemma words4_ok ws : Forall word4 ws -> words_ok (map le_num ws).
Proof.
  intros F. apply Forall_map. apply (Forall_impl _ (P := word4)); [|exact F].
  intros w [B L]. pose proof (le_num_lt w B) as X. rewrite L in X. exact X.
Qed.

(** The cipher computed under the schedule of a key. *)
Definition aes_of (b : build) (key block : list N) : list N :=
  match b with Table true => aes128_reduced key block | _ => aes128 key block end.

Lemma cipher_of_aes b key s : Forall word4 (key_words key) ->
  cipher_of b (map le_num (key_words key)) s = aes_of b key s.
Proof.
  intros F. unfold cipher_of.
  rewrite (map_ext _ (round_key key)) by (intros i; apply rkey_round_key; exact F).
  rewrite (rkey_round_key key 0 F), (rkey_round_key key 10 F).
  destruct b as [[]| |]; cbn [aes_of middle]; unfold aes128, aes128_reduced; reflexivity.
Qed.
