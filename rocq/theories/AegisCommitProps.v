(** AEGIS-128: a ciphertext and tag do not belong to one key.  The code
    modelled is [aegis_encrypt_packet] and [aegis_decrypt_packet] of AegisModel,
    all three builds. *)
From Coq Require Import Arith NArith List Bool Lia.
From Verif Require Import Res Mem MemSpec ListLemmas MemLemmas Words SpecWords WordsLemmas Concrete Finite AesSpec AesModel AesProofs AesProps AesInj
  AegisSpec AegisModel AegisProofs AegisIo AegisLink AegisProps.
Import ListNotations.
Local Open Scope N_scope.

(** ** An AES round without key can be undone *)
Definition unround (s : list N) : list N :=
  map (fun y => nth (N.to_nat y) sbox_inv_tab 0) (Nat.iter 3 shift_rows (Nat.iter 3 mix_columns s)).
Definition plain_round (s : list N) : list N := mix_columns (shift_rows (sub_bytes s)).

Lemma sbox_onto y : y < 256 -> sbox (nth (N.to_nat y) sbox_inv_tab 0) = y /\ nth (N.to_nat y) sbox_inv_tab 0 < 256.
Proof.
  intros H.
  assert (X : (sbox (nth (N.to_nat y) sbox_inv_tab 0) =? y) && (nth (N.to_nat y) sbox_inv_tab 0 <? 256) = true).
  { refine (forall_byte (fun y => (sbox (nth (N.to_nat y) sbox_inv_tab 0) =? y) && (nth (N.to_nat y) sbox_inv_tab 0 <? 256)) _ y H).
    vm_compute. reflexivity. }
  apply andb_true_iff in X as [X1 X2]. split; [apply N.eqb_eq|apply N.ltb_lt]; assumption.
Qed.

Lemma gf_mul2_lt a : a < 256 -> gf_mul 2 a < 256.
Proof. intros H. apply N.ltb_lt. refine (forall_byte (fun a => gf_mul 2 a <? 256) _ a H). vm_compute. reflexivity. Qed.

Lemma shift_rows_4 s : length s = 16%nat -> Nat.iter 4 shift_rows s = s.
Proof.
  intros L. destruct (list16 s L) as (a0&a1&a2&a3&a4&a5&a6&a7&a8&a9&a10&a11&a12&a13&a14&a15&->). reflexivity.
Qed.

(** One column: the square of the map, then its fourth power. *)
Section Column.
Variable T : N -> N.
Hypothesis T_add : forall x y, x < 256 -> y < 256 -> T (N.lxor x y) = N.lxor (T x) (T y).
Hypothesis T_lt : forall x, x < 256 -> T x < 256.
Definition col (a b c d : N) : N := N.lxor (T a) (N.lxor (N.lxor (T b) b) (N.lxor c d)).
Lemma col_lt a b c d : a < 256 -> b < 256 -> c < 256 -> d < 256 -> col a b c d < 256.
Proof. intros. unfold col. repeat apply byte_lxor; auto. Qed.
Lemma col_square a b c d : a < 256 -> b < 256 -> c < 256 -> d < 256 ->
  col (col a b c d) (col b c d a) (col c d a b) (col d a b c) = N.lxor (T (T a)) (N.lxor a (T (T c))).
Proof.
  intros Ha Hb Hc Hd. unfold col.
  repeat (rewrite T_add by (repeat first [assumption|apply byte_lxor|apply T_lt])). xor_bits.
Qed.
Lemma col_fourth a c : a < 256 -> c < 256 ->
  N.lxor (T (T (N.lxor (T (T a)) (N.lxor a (T (T c))))))
    (N.lxor (N.lxor (T (T a)) (N.lxor a (T (T c)))) (T (T (N.lxor (T (T c)) (N.lxor c (T (T a))))))) = a.
Proof.
  intros Ha Hc. repeat (rewrite T_add by (repeat first [assumption|apply byte_lxor|apply T_lt])). xor_bits.
Qed.
End Column.

Definition columns (T : N -> N) (s : list N) : list N :=
  match s with
  | [a0;a1;a2;a3;a4;a5;a6;a7;a8;a9;a10;a11;a12;a13;a14;a15] =>
      [col T a0 a1 a2 a3; col T a1 a2 a3 a0; col T a2 a3 a0 a1; col T a3 a0 a1 a2;
       col T a4 a5 a6 a7; col T a5 a6 a7 a4; col T a6 a7 a4 a5; col T a7 a4 a5 a6;
       col T a8 a9 a10 a11; col T a9 a10 a11 a8; col T a10 a11 a8 a9; col T a11 a8 a9 a10;
       col T a12 a13 a14 a15; col T a13 a14 a15 a12; col T a14 a15 a12 a13; col T a15 a12 a13 a14]
  | _ => []
  end.

Ltac list16_of s H :=
  let B := fresh "B" in let L := fresh "L" in destruct H as [B L];
  destruct (list16 s L) as (a0&a1&a2&a3&a4&a5&a6&a7&a8&a9&a10&a11&a12&a13&a14&a15&->); clear L;
  unfold bytes_ok in B; repeat rewrite Forall_cons_iff in B; destruct B as (?&?&?&?&?&?&?&?&?&?&?&?&?&?&?&?&_).

Lemma mix_columns_columns s : st16 s -> mix_columns s = columns (gf_mul 2) s.
Proof.
  intros H. list16_of s H. unfold mix_columns, positions, byte, columns, col.
  cbn [map flat_map seq app fst snd Nat.add Nat.mul Nat.modulo Nat.divmod Nat.sub nth].
  rewrite !gf_mul3 by assumption. reflexivity.
Qed.
Lemma mix_columns_st16 s : st16 s -> st16 (mix_columns s).
Proof.
  intros H. rewrite mix_columns_columns by exact H. list16_of s H. split; [|reflexivity].
  unfold columns, bytes_ok. repeat (apply Forall_cons; [apply col_lt; auto using gf_mul2_lt|]). apply Forall_nil.
Qed.

Definition squared (T : N -> N) (s : list N) : list N :=
  match s with
  | [a0;a1;a2;a3;a4;a5;a6;a7;a8;a9;a10;a11;a12;a13;a14;a15] =>
      let f a c := N.lxor (T (T a)) (N.lxor a (T (T c))) in
      [f a0 a2; f a1 a3; f a2 a0; f a3 a1; f a4 a6; f a5 a7; f a6 a4; f a7 a5;
       f a8 a10; f a9 a11; f a10 a8; f a11 a9; f a12 a14; f a13 a15; f a14 a12; f a15 a13]
  | _ => []
  end.
Lemma mix_columns_2 s : st16 s -> mix_columns (mix_columns s) = squared (gf_mul 2) s.
Proof.
  intros H. rewrite (mix_columns_columns (mix_columns s)) by (apply mix_columns_st16; exact H).
  rewrite mix_columns_columns by exact H. list16_of s H. unfold columns, squared.
  rewrite !(col_square (gf_mul 2) gf_mul2_lxor gf_mul2_lt) by assumption. reflexivity.
Qed.
Lemma mix_columns_4 s : st16 s -> Nat.iter 4 mix_columns s = s.
Proof.
  intros H. change (Nat.iter 4 mix_columns s) with (mix_columns (mix_columns (mix_columns (mix_columns s)))).
  rewrite mix_columns_2 by (apply mix_columns_st16, mix_columns_st16; exact H). rewrite mix_columns_2 by exact H.
  list16_of s H. unfold squared. cbv zeta.
  rewrite !(col_fourth (gf_mul 2) gf_mul2_lxor gf_mul2_lt) by assumption. reflexivity.
Qed.

Lemma unround_ok s : st16 s -> plain_round (unround s) = s /\ st16 (unround s).
Proof.
  intros H. set (u := Nat.iter 3 mix_columns s). set (v := Nat.iter 3 shift_rows u).
  assert (Hu : st16 u) by (unfold u; cbn [Nat.iter nat_rect]; repeat apply mix_columns_st16; exact H).
  assert (Hv : st16 v) by (unfold v; cbn [Nat.iter nat_rect]; repeat apply shift_rows_st16; exact Hu).
  assert (Eu : mix_columns u = s).
  { transitivity (Nat.iter 4 mix_columns s); [reflexivity|]. apply mix_columns_4. exact H. }
  assert (Ev : shift_rows v = u).
  { transitivity (Nat.iter 4 shift_rows u); [reflexivity|]. apply shift_rows_4. apply Hu. }
  unfold plain_round, unround. fold u v.
  assert (Es : sub_bytes (map (fun y => nth (N.to_nat y) sbox_inv_tab 0) v) = v).
  { unfold sub_bytes. rewrite map_map. rewrite <- (map_id v) at 2. apply map_ext_in. intros y Hy.
    apply sbox_onto. destruct Hv as [Bv _]. unfold bytes_ok in Bv. rewrite Forall_forall in Bv. apply Bv. exact Hy. }
  rewrite Es, Ev. split; [exact Eu|]. split; [|rewrite map_length; apply Hv].
  unfold bytes_ok. apply Forall_map. eapply Forall_impl; [|apply Hv]. intros y Hy. apply sbox_onto. exact Hy.
Qed.

(** ** Any state leads to any other in five blocks *)
Lemma xor_comm a : forall b, xor_bytes a b = xor_bytes b a.
Proof.
  unfold xor_bytes. induction a as [|x a IH]; intros [|y b]; cbn [combine map fst snd]; [reflexivity|reflexivity|reflexivity|].
  rewrite IH, N.lxor_comm. reflexivity.
Qed.
Lemma plain_round_st16 s : st16 s -> st16 (plain_round s).
Proof. intros H. unfold plain_round. apply mix_columns_st16, shift_rows_st16, sub_bytes_st16. exact H. Qed.

(** The register that a round with register [y] takes to [z]. *)
Definition before (y z : list N) : list N := unround (xor_bytes z y).
Lemma before_st16 y z : st16 y -> st16 z -> st16 (before y z).
Proof. intros. apply unround_ok. apply xor_st16; assumption. Qed.
Lemma before_ok y z : st16 y -> st16 z -> aes_round (before y z) y = z.
Proof.
  intros Hy Hz. unfold aes_round, add_round_key. fold (plain_round (before y z)). unfold before.
  rewrite (proj1 (unround_ok _ (xor_st16 _ _ Hz Hy))). apply xor_bytes_invol. rewrite (proj2 Hy), (proj2 Hz). lia.
Qed.

(** The block that makes [x] the first register. *)
Definition steer (S : state) (x : list N) : list N := xor_bytes (xor_bytes x (plain_round (S4 S))) (S0 S).
Definition turn (S : state) (x : list N) : state :=
  St x (aes_round (S0 S) (S1 S)) (aes_round (S1 S) (S2 S)) (aes_round (S2 S) (S3 S)) (aes_round (S3 S) (S4 S)).
Lemma steer_st16 S x : st_ok S -> st16 x -> st16 (steer S x).
Proof. intros (H0 & H1 & H2 & H3 & H4) Hx. unfold steer. repeat apply xor_st16; try assumption. apply plain_round_st16. assumption. Qed.
Lemma steer_ok S x : st_ok S -> st16 x -> update S (steer S x) = turn S x.
Proof.
  intros (H0 & H1 & H2 & H3 & H4) Hx. unfold update, turn. f_equal. unfold steer, aes_round, add_round_key.
  fold (plain_round (S4 S)). pose proof (plain_round_st16 _ H4) as HP.
  rewrite (xor_comm (S0 S)), xor_bytes_invol, xor_comm, xor_bytes_invol; [reflexivity| |].
  - rewrite (proj2 Hx), (proj2 HP). lia.
  - rewrite (proj2 (xor_st16 _ _ Hx HP)), (proj2 H0). lia.
Qed.
Fixpoint steers (S : state) (xs : list (list N)) : list (list N) :=
  match xs with [] => [] | x :: xs => steer S x :: steers (turn S x) xs end.
Lemma turn_ok S x : st_ok S -> st16 x -> st_ok (turn S x).
Proof. intros HS Hx. rewrite <- steer_ok by assumption. apply update_st_ok; [assumption|]. apply steer_st16; assumption. Qed.
Lemma steers_ok xs : Forall st16 xs -> forall S, st_ok S ->
  fold_left update (steers S xs) S = fold_left turn xs S /\ Forall st16 (steers S xs) /\ length (steers S xs) = length xs.
Proof.
  induction 1 as [|x xs Hx F IH]; intros S HS; [split; [reflexivity|split; [constructor|reflexivity]]|].
  cbn [steers fold_left length]. rewrite steer_ok by assumption. destruct (IH (turn S x)) as (A & B & C); [apply turn_ok; assumption|].
  split; [exact A|]. split; [constructor; [apply steer_st16; assumption|exact B]|]. rewrite C. reflexivity.
Qed.

Definition way (S T : state) : list (list N) :=
  let r := aes_round in
  let b1 := r (S0 S) (S1 S) in let b2 := r (S1 S) (S2 S) in let b3 := r (S2 S) (S3 S) in let b4 := r (S3 S) (S4 S) in
  let c2 := r b1 b2 in let c3 := r b2 b3 in let c4 := r b3 b4 in
  let d3 := r c2 c3 in let d4 := r c3 c4 in
  let e4 := r d3 d4 in
  let q := before d3 (before e4 (S4 T)) in
  let u := before c2 q in
  let p := before q (before (r q d3) (S3 T)) in
  let w := before (r p q) (S2 T) in
  [before b1 u; before u p; before p w; before w (S1 T); S0 T].
Lemma way_ok S T : st_ok S -> st_ok T -> fold_left turn (way S T) S = T /\ Forall st16 (way S T).
Proof.
  intros (A0 & A1 & A2 & A3 & A4) (T0 & T1 & T2 & T3 & T4). unfold way. cbv zeta.
  set (b1 := aes_round (S0 S) (S1 S)). set (b2 := aes_round (S1 S) (S2 S)). set (b3 := aes_round (S2 S) (S3 S)). set (b4 := aes_round (S3 S) (S4 S)).
  assert (B1 : st16 b1) by (apply aes_round_st16; assumption). assert (B2 : st16 b2) by (apply aes_round_st16; assumption).
  assert (B3 : st16 b3) by (apply aes_round_st16; assumption). assert (B4 : st16 b4) by (apply aes_round_st16; assumption).
  set (c2 := aes_round b1 b2). set (c3 := aes_round b2 b3). set (c4 := aes_round b3 b4).
  assert (C2 : st16 c2) by (apply aes_round_st16; assumption). assert (C3 : st16 c3) by (apply aes_round_st16; assumption).
  assert (C4 : st16 c4) by (apply aes_round_st16; assumption).
  set (d3 := aes_round c2 c3). set (d4 := aes_round c3 c4).
  assert (D3 : st16 d3) by (apply aes_round_st16; assumption). assert (D4 : st16 d4) by (apply aes_round_st16; assumption).
  set (e4 := aes_round d3 d4). assert (E4 : st16 e4) by (apply aes_round_st16; assumption).
  set (q' := before e4 (S4 T)). assert (Q' : st16 q') by (apply before_st16; assumption).
  set (q := before d3 q'). assert (Q : st16 q) by (apply before_st16; assumption).
  set (u := before c2 q). assert (U : st16 u) by (apply before_st16; assumption).
  assert (QD : st16 (aes_round q d3)) by (apply aes_round_st16; assumption).
  set (p' := before (aes_round q d3) (S3 T)). assert (P' : st16 p') by (apply before_st16; assumption).
  set (p := before q p'). assert (P : st16 p) by (apply before_st16; assumption).
  assert (PQ : st16 (aes_round p q)) by (apply aes_round_st16; assumption).
  set (w := before (aes_round p q) (S2 T)). assert (W : st16 w) by (apply before_st16; assumption).
  split; [|repeat (apply Forall_cons; [first [assumption|apply before_st16; assumption]|]); apply Forall_nil].
  pose proof (before_ok b1 u B1 U) as X1. pose proof (before_ok u p U P) as X2. pose proof (before_ok p w P W) as X3.
  pose proof (before_ok w (S1 T) W T1) as X4. pose proof (before_ok c2 q C2 Q : aes_round u c2 = q) as X5.
  pose proof (before_ok d3 q' D3 Q' : aes_round q d3 = q') as X6. pose proof (before_ok e4 (S4 T) E4 T4 : aes_round q' e4 = S4 T) as X7.
  pose proof (before_ok q p' Q P' : aes_round p q = p') as X8.
  pose proof (before_ok (aes_round q d3) (S3 T) QD T3 : aes_round p' (aes_round q d3) = S3 T) as X9.
  pose proof (before_ok (aes_round p q) (S2 T) PQ T2 : aes_round w (aes_round p q) = S2 T) as X10.
  cbn [fold_left]. unfold turn. cbn [S0 S1 S2 S3 S4]. fold b1 b2 b3 b4. fold c2 c3 c4. fold d3 d4. fold e4.
  clearbody w p p' u q q'. rewrite X6 in X9. rewrite X8 in X10.
  rewrite X1, X2, X3, X4, X5, X6, X7, X8, X9, X10. destruct T. reflexivity.
Qed.

Lemma reach S T : st_ok S -> st_ok T -> exists B, length B = 80%nat /\ bytes_ok B /\ absorb S B = T.
Proof.
  intros HS HT. destruct (way_ok S T HS HT) as [E F]. destruct (steers_ok _ F S HS) as (E' & F' & L).
  exists (concat (steers S (way S T))). rewrite E in E'. revert E' F' L. generalize (steers S (way S T)). intros l E' F' L.
  change (length (way S T)) with 5%nat in L. destruct l as [|m1 [|m2 [|m3 [|m4 [|m5 [|]]]]]]; try discriminate.
  repeat rewrite Forall_cons_iff in F'. destruct F' as ((O1 & L1) & (O2 & L2) & (O3 & L3) & (O4 & L4) & (O5 & L5) & _).
  cbn [concat]. rewrite !app_nil_r. split; [rewrite !app_length, L1, L2, L3, L4, L5; reflexivity|].
  split; [repeat (apply Forall_app; split); assumption|].
  assert (W : forall x : list N, length x = 16%nat -> (length x mod 16 = 0)%nat) by (intros x ->; reflexivity).
  unfold absorb. rewrite (chunks_app16 m1), (chunks_app16 m2), (chunks_app16 m3), (chunks_app16 m4) by auto.
  assert (C : forall x : list N, length x = 16%nat -> chunks 16 x = [x]).
  { intros x Lx. destruct (list16 x Lx) as (a0&a1&a2&a3&a4&a5&a6&a7&a8&a9&a10&a11&a12&a13&a14&a15&->). reflexivity. }
  rewrite !C by assumption. cbn [app map].
  assert (Z : forall x : list N, length x = 16%nat -> pad16 x = x) by (intros x Lx; unfold pad16; rewrite Lx; apply app_nil_r).
  rewrite !Z by assumption. exact E'.
Qed.

Lemma absorb_app S a b : (length a mod 16 = 0)%nat -> absorb S (a ++ b) = absorb (absorb S a) b.
Proof. intros H. unfold absorb. rewrite chunks_app16 by exact H. rewrite map_app, fold_left_app. reflexivity. Qed.

Lemma other_data K IV A K' IV' pre : st16 K -> st16 IV -> st16 K' -> st16 IV' -> bytes_ok A -> bytes_ok pre ->
  (length pre mod 16 = 0)%nat -> length A = (length pre + 80)%nat ->
  exists B, length B = 80%nat /\ bytes_ok B /\ forall msg, aegis128_encrypt K' IV' (pre ++ B) msg = aegis128_encrypt K IV A msg.
Proof.
  intros HK HI HK' HI' BA Bp M L.
  destruct (reach (absorb (initialize K' IV') pre) (absorb (initialize K IV) A)) as (B & LB & OB & E).
  - apply absorb_st_ok; [assumption|]. apply initialize_st_ok; assumption.
  - apply absorb_st_ok; [assumption|]. apply initialize_st_ok; assumption.
  - exists B. split; [exact LB|]. split; [exact OB|]. intros msg. unfold aegis128_encrypt. rewrite absorb_app, E by exact M.
    destruct (encrypt_blocks _ _). rewrite app_length, LB, L. reflexivity.
Qed.

(** C128: for any two keys and IVs, any associated data of at least 80 bytes in
    whole blocks and any other beginning [pre], there are 80 bytes to put after
    [pre] with which every ciphertext and tag made under the first key is
    accepted under the second, and gives the same message. *)
Theorem C128_aegis_accepted_under_any_key : forall K IV A K' IV' pre,
  bytes_ok K -> length K = 16%nat -> bytes_ok IV -> length IV = 16%nat ->
  bytes_ok K' -> length K' = 16%nat -> bytes_ok IV' -> length IV' = 16%nat ->
  bytes_ok A -> bytes_ok pre -> (length pre mod 16 = 0)%nat -> length A = (length pre + 80)%nat ->
  exists B, length B = 80%nat /\ bytes_ok B /\
  forall b cs m ct tag pt ad iv msg,
    session K cs -> header m ad iv A IV -> has_bytes m pt msg -> supported (length msg) ->
    writable m ct (length msg) -> writable m tag 16 -> disjoint ct (length msg) pt (length msg) ->
    exists cs' c t,
      aegis_encrypt_packet b cs m ct tag pt ad iv (len A) (len msg) = Ret (cs', write_at (write_at m ct c) tag t) /\
      length c = length msg /\ length t = 16%nat /\
      forall b2 cs2 m2 pt2 ct2 ad2 iv2 tag2,
        session K' cs2 -> header m2 ad2 iv2 (pre ++ B) IV' -> has_bytes m2 ct2 c -> has_bytes m2 tag2 t ->
        writable m2 pt2 (length msg) -> same_or_disjoint pt2 ct2 (length msg) ->
        exists cs2', aegis_decrypt_packet b2 cs2 m2 pt2 ct2 ad2 iv2 tag2 (len A) (len msg) =
          Ret (1, cs2', write_at m2 pt2 msg).
Proof.
  intros K IV A K' IV' pre BK LK BI LI BK' LK' BI' LI' BA Bp M L.
  assert (HK : st16 K) by (split; assumption). assert (HI : st16 IV) by (split; assumption).
  assert (HK' : st16 K') by (split; assumption). assert (HI' : st16 IV') by (split; assumption).
  destruct (other_data K IV A K' IV' pre HK HI HK' HI' BA Bp M L) as (B & LB & OB & Same).
  exists B. split; [exact LB|]. split; [exact OB|].
  intros b cs m ct tag pt ad iv msg HS Hh Hpt Sup Wc Wt D.
  destruct (C42_aegis_encrypt_is_aegis128 b K cs m ct tag pt ad iv A IV msg HS Hh Hpt Sup Wc Wt D) as (cs' & E).
  pose proof (has_bytes_bytes _ _ _ Hpt) as Bd.
  assert (BB : bytes_ok (pre ++ B)) by (apply Forall_app; split; assumption).
  destruct (seal_facts true true K IV A msg HK HI BA Bd) as (X1 & X2 & X3). rewrite seal_encrypt in *.
  pose proof (encrypt_open K' IV' (pre ++ B) msg HK' HI' BB Bd) as EO. rewrite Same in EO.
  destruct (aegis128_encrypt K IV A msg) as [c t]. cbn [fst snd] in *.
  exists cs', c, t. split; [exact E|]. split; [exact X1|]. split; [apply X3|].
  intros b2 cs2 m2 pt2 ct2 ad2 iv2 tag2 HS2 Hh2 Hct Ht Wp SD.
  rewrite <- X1 in Wp, SD, Sup. rewrite <- X1.
  destruct (C42_aegis_decrypt_is_aegis128 b2 K' cs2 m2 pt2 ct2 ad2 iv2 tag2 (pre ++ B) IV' c t HS2 Hh2 Hct Sup Ht (proj2 X3) Wp SD) as (cs2' & E2).
  exists cs2'. replace (length A) with (length (pre ++ B)) by (rewrite app_length, LB, L; reflexivity).
  rewrite E2. unfold aegis128_decrypt. rewrite EO. cbn [fst snd].
  destruct (list_eq_dec N.eq_dec t t); [reflexivity|congruence].
Qed.
Print Assumptions C128_aegis_accepted_under_any_key.

(** Refuted: one ciphertext and tag, accepted under two keys. *)
Definition two_keys_ad : list N :=
  Eval vm_compute in concat (steers (initialize (repeat 2 16%nat) (repeat 9 16%nat))
    (way (initialize (repeat 2 16%nat) (repeat 9 16%nat)) (absorb (initialize (repeat 1 16%nat) (repeat 9 16%nat)) (repeat 0 80%nat)))).
Definition two_keys_sealed : list N * list N :=
  Eval vm_compute in aegis128_encrypt (repeat 1 16%nat) (repeat 9 16%nat) (repeat 0 80%nat) (repeat 7 20%nat).
Definition two_keys_mem : mem :=
  [holding (repeat 1 16%nat); holding (repeat 2 16%nat); holding (repeat 9 16%nat); holding (repeat 0 80%nat); holding two_keys_ad;
   holding (fst two_keys_sealed); holding (snd two_keys_sealed); fresh 20].
Theorem C128_aegis_one_key_refuted : exists m key key' k k' iv ad ad' ct tag pt cs cs' n,
  has_bytes m key k /\ has_bytes m key' k' /\ length k = 16%nat /\ length k' = 16%nat /\ k <> k' /\
  aegis_load_key (Aegis [] [] [] [] [] []) m key = Ret cs /\ aegis_load_key (Aegis [] [] [] [] [] []) m key' = Ret cs' /\
  (exists c m1, aegis_decrypt_packet ATable cs m pt ct ad iv tag 80 n = Ret (1, c, m1)) /\
  (exists c m1, aegis_decrypt_packet ATable cs' m pt ct ad' iv tag 80 n = Ret (1, c, m1)).
Proof.
  exists two_keys_mem, (Ptr 0 0), (Ptr 1 0), (repeat 1 16%nat), (repeat 2 16%nat), (Ptr 2 0), (Ptr 3 0), (Ptr 4 0), (Ptr 5 0), (Ptr 6 0), (Ptr 7 0).
  do 2 eexists. exists 20. split; [conc_has_bytes|]. split; [conc_has_bytes|]. split; [reflexivity|]. split; [reflexivity|]. split; [discriminate|].
  split; [vm_compute; reflexivity|]. split; [vm_compute; reflexivity|].
  split; do 2 eexists; vm_compute; reflexivity.
Qed.
Print Assumptions C128_aegis_one_key_refuted.

Example C128_instance :
  (exists cs, session (repeat 1 16%nat) cs) /\ (exists cs, session (repeat 2 16%nat) cs) /\
  length two_keys_ad = 80%nat /\ header two_keys_mem (Ptr 3 0) (Ptr 2 0) (repeat 0 80%nat) (repeat 9 16%nat) /\
  header two_keys_mem (Ptr 4 0) (Ptr 2 0) two_keys_ad (repeat 9 16%nat) /\ supported 20 /\
  aegis128_encrypt (repeat 2 16%nat) (repeat 9 16%nat) two_keys_ad (repeat 7 20%nat) = two_keys_sealed.
Proof.
  split; [eexists; apply (session_load _ (Aegis [] [] [] [] [] []) _ two_keys_mem (Ptr 0 0)); [conc_has_bytes|reflexivity|vm_compute; reflexivity]|].
  split; [eexists; apply (session_load _ (Aegis [] [] [] [] [] []) _ two_keys_mem (Ptr 1 0)); [conc_has_bytes|reflexivity|vm_compute; reflexivity]|].
  split; [reflexivity|].
  split; [split; [conc_has_bytes|]; split; [reflexivity|]; split; [conc_has_bytes|]; vm_compute; discriminate|].
  split; [split; [conc_has_bytes|]; split; [reflexivity|]; split; [conc_has_bytes|]; vm_compute; discriminate|].
  split; [split; [lia|reflexivity]|]. vm_compute. reflexivity.
Qed.
