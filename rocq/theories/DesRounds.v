(** The key schedule, the rounds and the block function of Legacy/DES. *)
From Coq Require Import Arith NArith List Bool Lia.
From Verif Require Import Res Words Mem MemSpec ListLemmas WordsLemmas Finite BitSel DesTables DesSpec DesModel DesProofs.
Import ListNotations.
Local Open Scope N_scope.

(** ** Key schedule *)
Fixpoint pairs (ks : list N) : list (list bool) :=
  match ks with
  | k0 :: k1 :: ks => subkey_bits k0 k1 :: pairs ks
  | _ => []
  end.

Definition sched_step (i : nat) (st : N * N * list N) : N * N * list N :=
  let '(X, Y, ks) := st in
  let s := if ((i <? 2) || (i =? 8) || (i =? 15))%nat then 1 else 2 in
  let X := rot28 X s in
  let Y := rot28 Y s in
  (X, Y, ks ++ [subkey0 X Y; subkey1 X Y]).

Lemma schedule_words_eq X Y : schedule_words X Y = snd (iter_n 16 0 sched_step (X, Y, [])).
Proof.
  unfold schedule_words. change (fun i '(X, Y, ks) => _) with sched_step.
  destruct (iter_n 16 0 sched_step (X, Y, [])) as [[? ?] ks]. reflexivity.
Qed.

Lemma shift_of i : (i < 16)%nat -> exists s, (if ((i <? 2) || (i =? 8) || (i =? 15))%nat then 1 else 2) = s /\
  (s = 1 \/ s = 2) /\ skipn i shifts = N.to_nat s :: skipn (S i) shifts.
Proof.
  intros H. do 16 (destruct i as [|i]; [eexists; split; [reflexivity|]; split; [auto|reflexivity]|]). lia.
Qed.

Lemma schedule_loop n : forall i X Y ks, (i + n = 16)%nat -> X < 2^28 -> Y < 2^28 ->
  exists new, snd (iter_n n i sched_step (X, Y, ks)) = ks ++ new /\ length new = (2 * n)%nat /\
    Forall (fun w => w < 2^32) new /\ pairs new = subkeys_from (skipn i shifts) (b28 X) (b28 Y).
Proof.
  induction n as [|n IH]; intros i X Y ks Hi HX HY.
  - exists []. cbn [iter_n snd]. rewrite app_nil_r. replace i with 16%nat by lia. repeat split; constructor.
  - cbn [iter_n sched_step]. destruct (shift_of i ltac:(lia)) as (s & -> & Hs & ->).
    destruct (rot_ok X s HX Hs) as [RX BX]. destruct (rot_ok Y s HY Hs) as [RY BY].
    destruct (IH (S i) (rot28 X s) (rot28 Y s) (ks ++ [subkey0 (rot28 X s) (rot28 Y s); subkey1 (rot28 X s) (rot28 Y s)]) ltac:(lia) RX RY)
      as (new & E & L & W & P).
    destruct (subkey_ok _ _ RX RY) as (W0 & W1 & SB).
    exists (subkey0 (rot28 X s) (rot28 Y s) :: subkey1 (rot28 X s) (rot28 Y s) :: new).
    rewrite E, <- app_assoc. split; [reflexivity|]. split; [cbn [length]; lia|].
    split; [repeat constructor; assumption|]. cbn [pairs subkeys_from]. cbv zeta. rewrite SB, P, BX, BY. reflexivity.
Qed.

Lemma schedule_ok X Y : X < 2^32 -> Y < 2^32 ->
  let '(C, D) := key_halves X Y in
  let ks := schedule_words C D in
  length ks = 32%nat /\ Forall (fun w => w < 2^32) ks /\ pairs ks = subkeys (wbits X ++ wbits Y).
Proof.
  intros HX HY. destruct (halves_bits X Y HX HY) as (H1 & H2 & H3 & H4).
  destruct (key_halves X Y) as [C D]. cbn [fst snd] in *. cbv zeta. rewrite schedule_words_eq.
  destruct (schedule_loop 16 0 C D [] eq_refl H1 H2) as (new & E & L & W & P).
  rewrite E. cbn [app]. split; [exact L|]. split; [exact W|]. rewrite P. cbn [skipn]. unfold subkeys. rewrite H3, H4. reflexivity.
Qed.

(** ** The cipher function *)
Lemma wbits_lxor a b : wbits (N.lxor a b) = xor (wbits a) (wbits b).
Proof.
  rewrite !wbits_nth. generalize (rev (seq 0 32)). intros l. induction l as [|k l IH]; [reflexivity|].
  cbn [map xor combine]. unfold xor in IH. cbn [xor combine map fst snd]. rewrite <- IH, N.lxor_spec. reflexivity.
Qed.

(** The word a S-box contributes: its four output bits through P, rotated. *)
Definition spread (j : nat) (b : list bool) : list bool :=
  rotate 1 (select P (repeat false (4 * j) ++ b ++ repeat false (28 - 4 * j))).
Definition six (x : N) : list bool := grp x 0.
Definition table_ok (T S : list N) (j : nat) : bool :=
  forallb (fun x => if list_eq_dec bool_dec (wbits (nth (N.to_nat x) T 0)) (spread j (sbox S (six x))) then true else false)
    (nrange 64).
Lemma tables_ok : table_ok Sbox1 S1 0 = true /\ table_ok Sbox2 S2 1 = true /\ table_ok Sbox3 S3 2 = true /\
  table_ok Sbox4 S4 3 = true /\ table_ok Sbox5 S5 4 = true /\ table_ok Sbox6 S6 5 = true /\
  table_ok Sbox7 S7 6 = true /\ table_ok Sbox8 S8 7 = true.
Proof. vm_compute. repeat split. Qed.
Lemma table_use T S j x : table_ok T S j = true -> x < 64 -> wbits (nth (N.to_nat x) T 0) = spread j (sbox S (six x)).
Proof.
  intros H Hx. unfold table_ok in H. pose proof (forall_range _ _ H x Hx) as G. cbv beta in G.
  destruct (list_eq_dec bool_dec _ _) as [E|]; [exact E|discriminate].
Qed.

Lemma sbox_four S x : exists a b c d, sbox S (six x) = [a; b; c; d].
Proof. unfold six, grp, sbox. do 4 eexists. reflexivity. Qed.

Lemma index_lt T s : N.land (shr32 T s) 63 < 64.
Proof. change 63 with (N.ones 6). rewrite N.land_ones. apply N.mod_lt. discriminate. Qed.

Lemma index_bit T s i : i < 6 -> N.testbit (N.land (shr32 T s) 63) i = N.testbit T (i + s).
Proof.
  intros H. rewrite N.land_spec. unfold shr32. rewrite N.shiftr_spec'.
  change 63 with (N.ones 6). rewrite N.ones_spec_low by exact H. apply andb_true_r.
Qed.

Lemma index_six T s : six (N.land (shr32 T s) 63) = grp T s.
Proof.
  unfold six, grp. cbn [N.add]. rewrite !index_bit by reflexivity.
  rewrite (N.add_comm s 5), (N.add_comm s 4), (N.add_comm s 3), (N.add_comm s 2), (N.add_comm s 1). reflexivity.
Qed.

Lemma grp_lxor a b s : grp (N.lxor a b) s = xor (grp a s) (grp b s).
Proof. unfold grp, xor. cbn [combine map fst snd]. rewrite !N.lxor_spec. reflexivity. Qed.

(** The six-bit groups of E(R), for the register holding R rotated by one. *)
Lemma rot4_bits X : X < 2^32 -> forall i, i < 32 ->
  N.testbit (N.lor (shl32 X 28) (shr32 X 4)) i = N.testbit X ((i + 4) mod 32).
Proof.
  intros HX i Hi. rewrite N.lor_spec, shl32_bit. unfold shr32. rewrite N.shiftr_spec'.
  replace (i <? 32) with true by (symmetry; apply N.ltb_lt; exact Hi). cbn [andb].
  destruct (N.ltb_spec i 28) as [H|H]; cbn [negb andb orb].
  - rewrite N.mod_small by lia. reflexivity.
  - rewrite (proj1 (lt_pow2_testbit X 32) HX (i + 4)) by lia. rewrite orb_false_r. f_equal.
    apply N.mod_unique with 1; lia.
Qed.

Lemma E_groups X : X < 2^32 ->
  let e := select E (rotate 31 (wbits X)) in
  let Z := N.lor (shl32 X 28) (shr32 X 4) in
  e = grp Z 24 ++ grp X 24 ++ grp Z 16 ++ grp X 16 ++ grp Z 8 ++ grp X 8 ++ grp Z 0 ++ grp X 0.
Proof.
  intros HX e Z. assert (GZ : forall i, i < 32 -> N.testbit Z i = N.testbit X ((i + 4) mod 32)) by (apply rot4_bits; exact HX).
  clearbody Z. unfold grp. cbn [app].
  rewrite !GZ by (vm_compute; reflexivity). subst e. reflexivity.
Qed.

Lemma xor_app a b c d : length a = length c -> xor (a ++ b) (c ++ d) = xor a c ++ xor b d.
Proof.
  revert c. induction a as [|x a IH]; intros [|y c] L; try discriminate; [reflexivity|].
  cbn [app]. unfold xor in *. cbn [combine map app]. rewrite IH by (cbn in L; lia). reflexivity.
Qed.
Lemma grp_length w s : length (grp w s) = 6%nat. Proof. reflexivity. Qed.
Lemma xor_groups X Z k0 k1 :
  xor (grp Z 24 ++ grp X 24 ++ grp Z 16 ++ grp X 16 ++ grp Z 8 ++ grp X 8 ++ grp Z 0 ++ grp X 0) (subkey_bits k0 k1) =
  grp (N.lxor k1 Z) 24 ++ grp (N.lxor k0 X) 24 ++ grp (N.lxor k1 Z) 16 ++ grp (N.lxor k0 X) 16 ++
  grp (N.lxor k1 Z) 8 ++ grp (N.lxor k0 X) 8 ++ grp (N.lxor k1 Z) 0 ++ grp (N.lxor k0 X) 0.
Proof.
  rewrite (N.lxor_comm k1 Z), (N.lxor_comm k0 X). unfold subkey_bits. rewrite !grp_lxor.
  rewrite !xor_app by reflexivity. reflexivity.
Qed.

Lemma xor_nil_r x y : xor (x :: y) [] = []. Proof. reflexivity. Qed.

Lemma spread_sum a0 a1 a2 a3 b0 b1 b2 b3 c0 c1 c2 c3 d0 d1 d2 d3 e0 e1 e2 e3 f0 f1 f2 f3 g0 g1 g2 g3 h0 h1 h2 h3 :
  xor (xor (xor (xor (spread 7 [h0;h1;h2;h3]) (spread 5 [f0;f1;f2;f3])) (spread 3 [d0;d1;d2;d3])) (spread 1 [b0;b1;b2;b3]))
      (xor (xor (xor (spread 6 [g0;g1;g2;g3]) (spread 4 [e0;e1;e2;e3])) (spread 2 [c0;c1;c2;c3])) (spread 0 [a0;a1;a2;a3])) =
  rotate 1 (select P ([a0;a1;a2;a3] ++ [b0;b1;b2;b3] ++ [c0;c1;c2;c3] ++ [d0;d1;d2;d3] ++ [e0;e1;e2;e3] ++ [f0;f1;f2;f3] ++
    [g0;g1;g2;g3] ++ [h0;h1;h2;h3])).
Proof.
  unfold spread. cbv [select rotate P map nth Nat.sub Nat.mul Nat.add repeat app skipn firstn xor combine fst snd].
  rewrite ?xorb_false_l, ?xorb_false_r. reflexivity.
Qed.

Lemma xor_assoc_l a b c : xor (xor a b) c = xor a (xor b c).
Proof.
  revert b c. induction a as [|x a IH]; intros [|y b] [|z c]; try reflexivity.
  unfold xor in *. cbn [combine map fst snd]. rewrite IH, xorb_assoc. reflexivity.
Qed.

Lemma round_ok cs X Y : X < 2^32 -> 
  wbits (des_round cs X Y) =
  xor (wbits Y) (rotate 1 (f (rotate 31 (wbits X)) (subkey_bits (nth 0 cs 0) (nth 1 cs 0)))).
Proof.
  intros HX. unfold des_round, f. rewrite (E_groups X HX), xor_groups.
  cbv zeta.
  remember (N.lxor (nth 0 cs 0) X) as T0 eqn:E0. remember (N.lxor (nth 1 cs 0) (N.lor (shl32 X 28) (shr32 X 4))) as T1 eqn:E1.
  clear E0 E1 HX. rewrite !wbits_lxor, xor_assoc_l. f_equal. unfold sbox_sum. cbv zeta. rewrite !wbits_lxor.
  destruct tables_ok as (K1 & K2 & K3 & K4 & K5 & K6 & K7 & K8).
  rewrite (table_use _ _ _ _ K1), (table_use _ _ _ _ K2), (table_use _ _ _ _ K3), (table_use _ _ _ _ K4),
    (table_use _ _ _ _ K5), (table_use _ _ _ _ K6), (table_use _ _ _ _ K7), (table_use _ _ _ _ K8) by apply index_lt.
  rewrite !index_six. clear K1 K2 K3 K4 K5 K6 K7 K8.
  change (firstn 6 (skipn (6 * 0) _)) with (grp T1 24).
  change (firstn 6 (skipn (6 * 1) _)) with (grp T0 24).
  change (firstn 6 (skipn (6 * 2) _)) with (grp T1 16).
  change (firstn 6 (skipn (6 * 3) _)) with (grp T0 16).
  change (firstn 6 (skipn (6 * 4) _)) with (grp T1 8).
  change (firstn 6 (skipn (6 * 5) _)) with (grp T0 8).
  change (firstn 6 (skipn (6 * 6) _)) with (grp T1 0).
  change (firstn 6 (skipn (6 * 7) _)) with (grp T0 0).
  assert (Q : forall S x s, exists a b c d, sbox S (grp x s) = [a; b; c; d]) by (intros; unfold grp, sbox; do 4 eexists; reflexivity).
  destruct (Q S1 T1 24) as (a0 & a1 & a2 & a3 & ->). destruct (Q S2 T0 24) as (b0 & b1 & b2 & b3 & ->).
  destruct (Q S3 T1 16) as (c0 & c1 & c2 & c3 & ->). destruct (Q S4 T0 16) as (d0 & d1 & d2 & d3 & ->).
  destruct (Q S5 T1 8) as (e0 & e1 & e2 & e3 & ->). destruct (Q S6 T0 8) as (f0 & f1 & f2 & f3 & ->).
  destruct (Q S7 T1 0) as (g0 & g1 & g2 & g3 & ->). destruct (Q S8 T0 0) as (h0 & h1 & h2 & h3 & ->).
  apply spread_sum.
Qed.

(** ** The rounds *)
Lemma wbits_length n w : length (wbits_n n w) = n.
Proof. unfold wbits_n. rewrite map_length, seq_length. reflexivity. Qed.
Lemma list_cons {A} n (l : list A) : length l = S n -> exists x r, l = x :: r /\ length r = n.
Proof. destruct l as [|x r]; [discriminate|]. intros H. exists x, r. split; [reflexivity|]. cbn in H. lia. Qed.
Lemma xor_length a b : length a = length b -> length (xor a b) = length a.
Proof. intros H. unfold xor. rewrite map_length, combine_length. lia. Qed.
Lemma f_length R K : length (f R K) = 32%nat.
Proof. reflexivity. Qed.
Lemma rotate_back L : length L = 32%nat -> rotate 31 (rotate 1 L) = L.
Proof.
  intros H. destruct (list_cons 31 L H) as (x & r & -> & Hr). unfold rotate. change (skipn 1 (x :: r)) with r.
  change (firstn 1 (x :: r)) with [x].
  rewrite skipn_app, firstn_app, Hr, Nat.sub_diag. rewrite skipn_all2, firstn_all2 by lia. cbn [skipn firstn app].
  rewrite app_nil_r. reflexivity.
Qed.
Lemma rotate_xor a b : length a = 32%nat -> length b = 32%nat -> xor (rotate 1 a) (rotate 1 b) = rotate 1 (xor a b).
Proof.
  intros Ha Hb. destruct (list_cons 31 a Ha) as (x & a' & -> & Ha'). destruct (list_cons 31 b Hb) as (y & b' & -> & Hb').
  unfold rotate. cbn [skipn firstn app]. rewrite xor_app by lia. reflexivity.
Qed.

Lemma sbox_word_lt S x : forallb (fun w => w <? 2^32) S = true -> nth x S 0 < 2^32.
Proof.
  intros H. rewrite forallb_forall in H. destruct (nth_in_or_default x S 0) as [I|E0].
  - apply N.ltb_lt, H, I.
  - rewrite E0. reflexivity.
Qed.
Lemma sbox_sum_lt A B C D T : forallb (fun w => w <? 2^32) A = true -> forallb (fun w => w <? 2^32) B = true ->
  forallb (fun w => w <? 2^32) C = true -> forallb (fun w => w <? 2^32) D = true -> sbox_sum A B C D T < 2^32.
Proof. intros. unfold sbox_sum. repeat apply lxor_lt; apply sbox_word_lt; assumption. Qed.
Lemma round_lt cs X Y : Y < 2^32 -> des_round cs X Y < 2^32.
Proof.
  intros HY. unfold des_round. apply lxor_lt; [apply lxor_lt; [exact HY|]|]; apply sbox_sum_lt; vm_compute; reflexivity.
Qed.

Definition holds (w : N) (l : list bool) : Prop := w < 2^32 /\ length l = 32%nat /\ wbits w = rotate 1 l.

Lemma round_holds cs X Y L R : holds X R -> holds Y L ->
  holds (des_round cs X Y) (xor L (f R (subkey_bits (nth 0 cs 0) (nth 1 cs 0)))).
Proof.
  intros (X1 & X2 & X3) (Y1 & Y2 & Y3). split; [apply round_lt; exact Y1|].
  split; [rewrite xor_length by (rewrite f_length; exact Y2); exact Y2|].
  rewrite round_ok by exact X1. rewrite X3, Y3, rotate_back by exact X2. apply rotate_xor; [exact Y2|apply f_length].
Qed.

Lemma rounds_holds cs n : forall i X Y L R, holds X L -> holds Y R ->
  let K := subkey_bits (nth 0 cs 0) (nth 1 cs 0) in
  let '(X', Y') := iter_n n i (fun _ '(X, Y) => let X := des_round cs Y X in let Y := des_round cs X Y in (X, Y)) (X, Y) in
  let '(L', R') := rounds (repeat K (2 * n)) L R in
  holds X' L' /\ holds Y' R'.
Proof.
  induction n as [|n IH]; intros i X Y L R HX HY K.
  - cbn [iter_n Nat.mul repeat rounds]. split; assumption.
  - cbn [iter_n]. replace (2 * S n)%nat with (S (S (2 * n))) by lia. cbn [repeat rounds].
    pose proof (round_holds cs Y X L R HY HX) as H1. fold K in H1.
    pose proof (round_holds cs _ Y R _ H1 HY) as H2. fold K in H2.
    apply (IH (S i) _ _ _ _ H1 H2).
Qed.

Theorem ecb_words_ok cs X Y : X < 2^32 -> Y < 2^32 ->
  let '(a, b) := ecb_words cs X Y in
  a < 2^32 /\ b < 2^32 /\
  wbits a ++ wbits b = des_with (repeat (subkey_bits (nth 0 cs 0) (nth 1 cs 0)) 16) (wbits X ++ wbits Y).
Proof.
  intros HX HY. unfold ecb_words, des_with. destruct (ip_bits X Y HX HY) as (A & B & C & D).
  destruct (des_ip X Y) as [X1 Y1]. cbn [fst snd] in *.
  remember (select IP (wbits X ++ wbits Y)) as x eqn:Ex.
  assert (Lx : length x = 64%nat) by (subst x; reflexivity). clear Ex HX HY.
  pose proof (rounds_holds cs 8 0 X1 Y1 (firstn 32 x) (skipn 32 x)) as R.
  cbv zeta in R. specialize (R ltac:(split; [exact A|split; [rewrite firstn_length; lia|exact C]])
    ltac:(split; [exact B|split; [rewrite skipn_length; lia|exact D]])). change (2 * 8)%nat with 16%nat in R.
  destruct (iter_n 8 0 _ (X1, Y1)) as [X2 Y2].
  destruct (rounds (repeat (subkey_bits (nth 0 cs 0) (nth 1 cs 0)) 16) (firstn 32 x) (skipn 32 x)) as [L R'].
  destruct R as ((P1 & P2 & P3) & (Q1 & Q2 & Q3)).
  destruct (fp_bits Y2 X2 Q1 P1) as (F1 & F2 & F3). destruct (des_fp Y2 X2) as [Y3 X3]. cbn [fst snd] in *.
  split; [exact F1|]. split; [exact F2|]. rewrite F3, P3, Q3, !rotate_back by assumption. reflexivity.
Qed.

(** ** The standard: running the rounds with the subkeys reversed undoes them *)
Lemma xor_cancel a b : (length a <= length b)%nat -> xor (xor a b) b = a.
Proof.
  revert b. induction a as [|x a IH]; intros [|y b] H; cbn in H; try lia; try reflexivity.
  unfold xor in *. cbn [combine map fst snd]. rewrite IH by lia.
  rewrite xorb_assoc, xorb_nilpotent, xorb_false_r. reflexivity.
Qed.
Lemma rounds_app K1 K2 L R : rounds (K1 ++ K2) L R = let '(L, R) := rounds K1 L R in rounds K2 L R.
Proof. revert L R. induction K1 as [|K K1 IH]; intros L R; [reflexivity|]. cbn [app rounds]. apply IH. Qed.
Lemma rounds_length Ks : forall L R, length L = 32%nat -> length R = 32%nat ->
  length (fst (rounds Ks L R)) = 32%nat /\ length (snd (rounds Ks L R)) = 32%nat.
Proof.
  induction Ks as [|K Ks IH]; intros L R HL HR; [split; assumption|]. cbn [rounds]. apply IH; [exact HR|].
  rewrite xor_length; [exact HL|rewrite f_length; exact HL].
Qed.
Lemma rounds_back Ks : forall L R, length L = 32%nat -> length R = 32%nat ->
  let '(L', R') := rounds Ks L R in rounds (rev Ks) R' L' = (R, L).
Proof.
  induction Ks as [|K Ks IH]; intros L R HL HR; [reflexivity|]. cbn [rounds rev].
  assert (H2 : length (xor L (f R K)) = 32%nat) by (rewrite xor_length; [exact HL|rewrite f_length; exact HL]).
  specialize (IH R (xor L (f R K)) HR H2). destruct (rounds Ks R (xor L (f R K))) as [L' R'].
  rewrite rounds_app, IH. cbn [rounds]. rewrite xor_cancel by (rewrite f_length; lia). reflexivity.
Qed.

Lemma nth_select t l i : (i < length t)%nat -> nth i (select t l) false = nth (nth i t 1%nat - 1) l false.
Proof.
  intros H. unfold select. rewrite (nth_indep _ false ((fun i => nth (i - 1) l false) 1%nat)) by (rewrite map_length; exact H).
  rewrite (map_nth (fun i => nth (i - 1) l false)). reflexivity.
Qed.
Lemma select_inverse t1 t2 l : length l = 64%nat -> length t1 = 64%nat -> length t2 = 64%nat ->
  forallb (fun i => (nth (nth i t1 1 - 1) t2 1 - 1 =? i) && (nth i t1 1 - 1 <? 64))%nat (seq 0 64) = true ->
  select t1 (select t2 l) = l.
Proof.
  intros Ll L1 L2 H. apply nth_ext with false false; [unfold select; rewrite map_length; congruence|].
  intros i Hi. unfold select in Hi at 1. rewrite map_length, L1 in Hi. rewrite forallb_forall in H.
  specialize (H i ltac:(apply in_seq; lia)). apply andb_true_iff in H. destruct H as [H1 H2].
  apply Nat.eqb_eq in H1. apply Nat.ltb_lt in H2.
  rewrite nth_select by lia. rewrite nth_select by lia. rewrite H1. reflexivity.
Qed.
Lemma ip_inverse_ip l : length l = 64%nat -> select IP_inverse (select IP l) = l.
Proof. intros H. apply select_inverse; [exact H|reflexivity|reflexivity|vm_compute; reflexivity]. Qed.
Lemma ip_ip_inverse l : length l = 64%nat -> select IP (select IP_inverse l) = l.
Proof. intros H. apply select_inverse; [exact H|reflexivity|reflexivity|vm_compute; reflexivity]. Qed.

Lemma firstn_skipn_app {A} n (a b : list A) : length a = n -> firstn n (a ++ b) = a /\ skipn n (a ++ b) = b.
Proof.
  intros <-. rewrite firstn_app, skipn_app, Nat.sub_diag, firstn_all, skipn_all, app_nil_r. split; reflexivity.
Qed.

Theorem des_with_back Ks b : length b = 64%nat -> des_with (rev Ks) (des_with Ks b) = b.
Proof.
  intros Hb. unfold des_with at 2.
  remember (select IP b) as x eqn:Ex. assert (Lx : length x = 64%nat) by (subst x; reflexivity).
  assert (HL : length (firstn 32 x) = 32%nat) by (rewrite firstn_length; lia).
  assert (HR : length (skipn 32 x) = 32%nat) by (rewrite skipn_length; lia).
  pose proof (rounds_back Ks _ _ HL HR) as B. pose proof (rounds_length Ks _ _ HL HR) as [E1 E2].
  destruct (rounds Ks (firstn 32 x) (skipn 32 x)) as [L R]. cbn [fst snd] in *.
  unfold des_with. rewrite ip_ip_inverse by (rewrite app_length; lia).
  destruct (firstn_skipn_app 32 R L E2) as [-> ->]. rewrite B.
  rewrite firstn_skipn, Ex. apply ip_inverse_ip. exact Hb.
Qed.
Lemma des_with_length Ks b : length (des_with Ks b) = 64%nat.
Proof. unfold des_with. destruct (rounds _ _ _). reflexivity. Qed.

Lemma wbits_inj a b : a < 2^32 -> b < 2^32 -> wbits a = wbits b -> a = b.
Proof.
  intros Ha Hb E. apply N.bits_inj. intros i. destruct (N.lt_ge_cases i 32) as [H|H].
  - rewrite !wbits_nth in E.
    assert (G : forall l k, In k l -> map (fun k => N.testbit a (N.of_nat k)) l = map (fun k => N.testbit b (N.of_nat k)) l ->
      N.testbit a (N.of_nat k) = N.testbit b (N.of_nat k)).
    { clear. intros l k. induction l as [|x l IH]; intros I M; [contradiction I|]. cbn [map] in M. injection M as M1 M2.
      destruct I as [<-|I]; [exact M1|exact (IH I M2)]. }
    rewrite <- (N2Nat.id i). apply (G (rev (seq 0 32))); [|exact E]. apply -> in_rev. apply in_seq. lia.
  - rewrite (proj1 (lt_pow2_testbit a 32) Ha i H), (proj1 (lt_pow2_testbit b 32) Hb i H). reflexivity.
Qed.
Lemma wbits2_inj a b c d : a < 2^32 -> b < 2^32 -> c < 2^32 -> d < 2^32 -> wbits a ++ wbits b = wbits c ++ wbits d -> a = c /\ b = d.
Proof.
  intros Ha Hb Hc Hd E.
  pose proof (f_equal (firstn 32) E) as E1. pose proof (f_equal (skipn 32) E) as E2.
  rewrite (proj1 (firstn_skipn_app 32 (wbits a) (wbits b) (wbits_length _ _))), (proj1 (firstn_skipn_app 32 (wbits c) (wbits d) (wbits_length _ _))) in E1.
  rewrite (proj2 (firstn_skipn_app 32 (wbits a) (wbits b) (wbits_length _ _))), (proj2 (firstn_skipn_app 32 (wbits c) (wbits d) (wbits_length _ _))) in E2.
  split; apply wbits_inj; assumption.
Qed.

Lemma rev_repeat {A} (x : A) n : rev (repeat x n) = repeat x n.
Proof.
  induction n as [|n IH]; [reflexivity|]. cbn [repeat rev]. rewrite IH. clear.
  induction n as [|n IH]; [reflexivity|]. cbn [repeat app]. rewrite IH. reflexivity.
Qed.

(** The block function undoes itself. *)
Theorem ecb_twice cs X Y : X < 2^32 -> Y < 2^32 ->
  let '(a, b) := ecb_words cs X Y in ecb_words cs a b = (X, Y).
Proof.
  intros HX HY. pose proof (ecb_words_ok cs X Y HX HY) as H. destruct (ecb_words cs X Y) as [a b]. destruct H as (Ha & Hb & E).
  pose proof (ecb_words_ok cs a b Ha Hb) as H2. destruct (ecb_words cs a b) as [c d]. destruct H2 as (Hc & Hd & E2).
  rewrite E in E2. rewrite <- (rev_repeat _ 16) in E2 at 1.
  rewrite des_with_back in E2 by (rewrite app_length, !wbits_length; reflexivity).
  destruct (wbits2_inj c d X Y Hc Hd HX HY E2) as [-> ->]. reflexivity.
Qed.
