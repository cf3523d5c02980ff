(** Property C114: different keys or IVs keep HC-128 states apart for ever. *)
From Coq Require Import NArith ZArith Arith List Bool Lia.
From Verif Require Import Res Words Mem Ints MemSpec ListLemmas MemLemmas SpecWords WordsLemmas XorProofs Finite Concrete
  SyncSpec HcModel HcProofs.
From Verif Require Import HcSpec.
Import ListNotations.
Local Open Scope nat_scope.

Lemma add_cancel x y z : (x < 2^32)%N -> (y < 2^32)%N -> add_w32 x z = add_w32 y z -> x = y.
Proof.
  unfold add_w32. intros Hx Hy E.
  pose proof (N.div_mod (x + z) (2^32) ltac:(discriminate)) as D1. pose proof (N.div_mod (y + z) (2^32) ltac:(discriminate)) as D2.
  rewrite E in D1. set (r := ((y + z) mod 2^32)%N) in *. set (q1 := ((x + z) / 2^32)%N) in *. set (q2 := ((y + z) / 2^32)%N) in *.
  clearbody r q1 q2. change (2^32)%N with 4294967296%N in *. assert (q1 = q2) by lia. subst. lia.
Qed.

Lemma at_put t i j x : j < length t -> at_ (put t j x) i = if i =? j then x else at_ t i.
Proof.
  intros H. rewrite put_upd by exact H. unfold at_. rewrite nth_upd. apply Nat.ltb_lt in H. rewrite H, andb_true_r. reflexivity.
Qed.
Lemma minus_other j k : j < 512 -> 0 < k < 512 -> minus512 j k <> j.
Proof.
  intros Hj Hk. unfold minus512. destruct (Nat.le_gt_cases k j).
  - replace (j + 512 - k) with (j - k + 1 * 512) by lia. rewrite Nat.mod_add, Nat.mod_small by lia. lia.
  - rewrite Nat.mod_small by lia. lia.
Qed.
Lemma table_ext t t' : length t = length t' -> (forall i, i < length t -> at_ t i = at_ t' i) -> t = t'.
Proof. intros L H. apply (nth_ext _ _ 0%N 0%N); auto. Qed.

(** A table step, with anything that does not depend on the element replaced
    xored to it, loses nothing. *)
Lemma put_inj g (e : list N -> N) t t' j : table_ok t -> table_ok t' -> j < 512 ->
  (forall t t', (forall i, i <> j -> at_ t i = at_ t' i) -> e t = e t') ->
  put t j (N.lxor (step_val g t j) (e t)) = put t' j (N.lxor (step_val g t' j) (e t')) -> t = t'.
Proof.
  intros [L W] [L' W'] Hj He E.
  assert (X : forall i, i <> j -> at_ t i = at_ t' i).
  { intros i Hi. apply (f_equal (fun l => at_ l i)) in E. rewrite !at_put in E by lia.
    apply Nat.eqb_neq in Hi. rewrite Hi in E. exact E. }
  apply table_ext; [congruence|]. intros i _. destruct (Nat.eq_dec i j) as [->|Hi]; [|apply X; exact Hi].
  apply (f_equal (fun l => at_ l j)) in E. rewrite !at_put, Nat.eqb_refl in E by lia.
  rewrite (He t t' X) in E. apply (f_equal (fun z => N.lxor z (e t'))) in E.
  rewrite !N.lxor_assoc, N.lxor_nilpotent, !N.lxor_0_r in E. unfold step_val in E.
  rewrite !(X (minus512 j _)) in E by (apply minus_other; lia).
  apply add_cancel in E; [exact E|apply at_lt; assumption..].
Qed.

Lemma put_ok t j x : table_ok t -> j < 512 -> (x < 2^32)%N -> table_ok (put t j x).
Proof. intros H Hj Hx. rewrite put_upd by (destruct H; lia). apply table_upd; assumption. Qed.
Lemma warm_inj g o n : forall j t t', table_ok t -> table_ok t' -> j + n <= 512 ->
  warm_up g o n j t = warm_up g o n j t' -> t = t'.
Proof.
  induction n as [|n IH]; intros j t t' H H' Hj E; [exact E|]. cbn [warm_up] in E.
  assert (B : forall t, (N.lxor (step_val g t j) (h o (at_ t (minus512 j 12))) < 2^32)%N)
    by (intros; apply lxor_lt; [apply step_val_lt|apply h_lt]).
  apply IH in E; [|apply put_ok; auto; lia..|lia].
  apply (put_inj g (fun t => h o (at_ t (minus512 j 12)))) in E; auto; [lia|].
  intros a b X. rewrite (X (minus512 j 12)) by (apply minus_other; lia). reflexivity.
Qed.
Lemma warm_ok g o n : forall j t, table_ok t -> j + n <= 512 -> table_ok (warm_up g o n j t).
Proof.
  induction n as [|n IH]; intros j t H Hj; [exact H|]. cbn [warm_up]. apply IH; [|lia].
  apply put_ok; [exact H|lia|]. apply lxor_lt; [apply step_val_lt|apply h_lt].
Qed.

(** The expansion runs backwards as well. *)
Lemma expand_prefix n : forall W, exists t, w_expand n W = W ++ t.
Proof.
  induction n as [|n IH]; intros W; cbn [w_expand]; [exists []; rewrite app_nil_r; reflexivity|].
  destruct (IH (W ++ [w_next W])) as [t E]. exists (w_next W :: t). rewrite E, <- app_assoc. reflexivity.
Qed.
Lemma expand_at n : forall W i, length W <= i < length W + n -> at_ (w_expand n W) i = w_next (firstn i (w_expand n W)).
Proof.
  induction n as [|n IH]; intros W i Hi; [lia|]. cbn [w_expand].
  destruct (Nat.eq_dec i (length W)) as [->|Ne].
  - destruct (expand_prefix n (W ++ [w_next W])) as [t E]. rewrite E, <- app_assoc. unfold at_.
    rewrite app_nth2, Nat.sub_diag by lia. cbn [app nth]. rewrite firstn_app, Nat.sub_diag, firstn_all, firstn_O, app_nil_r. reflexivity.
  - apply IH. rewrite app_length. cbn [length]. lia.
Qed.
Lemma nth_firstn {A} (l : list A) n i d : i < n -> nth i (firstn n l) d = nth i l d.
Proof. revert n i. induction l as [|x l IH]; intros [|n] [|i] H; cbn; try lia; auto. apply IH. lia. Qed.
Lemma next_at l i : i <= length l -> 16 <= i -> w_next (firstn i l) =
  add_w32 (add_w32 (add_w32 (add_w32 (f2 (at_ l (i - 2))) (at_ l (i - 7))) (f1 (at_ l (i - 15)))) (at_ l (i - 16))) (N.of_nat i).
Proof.
  intros H H16. unfold w_next. rewrite firstn_length_le by exact H.
  unfold at_. rewrite !nth_firstn by lia. reflexivity.
Qed.
Lemma expand_back n W W' : words_ok W -> words_ok W' -> length W = 16 -> length W' = 16 ->
  forall k, k <= n -> (forall i, k <= i -> at_ (w_expand n W) i = at_ (w_expand n W') i) ->
  forall i, at_ (w_expand n W) i = at_ (w_expand n W') i.
Proof.
  intros O O' L L'. induction k as [|k IH]; intros Hk X; [intros; apply X; lia|].
  apply IH; [lia|]. intros i Hi. destruct (Nat.eq_dec i k) as [->|Ne]; [|apply X; lia].
  assert (E := X (k + 16) ltac:(lia)).
  assert (Le : length (w_expand n W) = 16 + n) by (rewrite w_expand_length; lia).
  assert (Le' : length (w_expand n W') = 16 + n) by (rewrite w_expand_length; lia).
  rewrite !expand_at in E by lia. rewrite !next_at in E by lia.
  rewrite (X (k + 16 - 2)), (X (k + 16 - 7)), (X (k + 16 - 15)) in E by lia.
  apply add_cancel in E; [|apply add_w32_lt..].
  replace (k + 16 - 16) with k in E by lia.
  rewrite !(add_w32_comm _ (at_ _ k)) in E. apply add_cancel in E; [exact E|apply at_lt, w_expand_ok; assumption..].
Qed.

Lemma cut_at (l : list N) k n i : i < n -> at_ (firstn n (skipn k l)) i = at_ l (k + i).
Proof.
  intros H. unfold at_. rewrite nth_firstn by exact H. clear H. revert l. induction k as [|k IH]; intros l; [reflexivity|].
  destruct l as [|x l]; [destruct i; reflexivity|]. apply IH.
Qed.
Lemma words_back l : bytes_ok l -> forall n, length l = 4 * n -> flat_map (le_str 4) (map le_num (chunks 4 l)) = l.
Proof.
  intros B n. revert l B. induction n as [|n IH]; intros l B L.
  - destruct l; [reflexivity|discriminate L].
  - do 4 (destruct l as [|? l]; [cbn in L; lia|]). rewrite chunks_cons by (lia || discriminate).
    cbn [firstn skipn map flat_map].
    repeat (apply Forall_inv_tail in B as B'; apply Forall_inv in B as ?; clear B; rename B' into B).
    rewrite IH by (auto; cbn in L; lia).
    rewrite <- le32_of_bytes_num, <- bytes_of_le32_str, bytes_of_le32_of by assumption. reflexivity.
Qed.
Lemma words_inj k k' : bytes_ok k -> bytes_ok k' -> length k = 16 -> length k' = 16 ->
  map le_num (chunks 4 k) = map le_num (chunks 4 k') -> k = k'.
Proof. intros B B' L L' E. rewrite <- (words_back k B 4 L), <- (words_back k' B' 4 L'), E. reflexivity. Qed.

Lemma init_words key iv : bytes_ok key -> bytes_ok iv -> length key = 16 -> length iv = 16 ->
  words_ok (w_init key iv) /\ length (w_init key iv) = 16.
Proof.
  intros Bk Bv Lk Lv. destruct (words_le_ok key 4 Bk Lk) as [Wk Nk]. destruct (words_le_ok iv 4 Bv Lv) as [Wv Nv]. split.
  - unfold w_init; repeat (apply Forall_app; split); assumption.
  - unfold w_init; rewrite !app_length, Nk, Nv; reflexivity.
Qed.

Lemma app_inj_len {A} (a b c d : list A) : a ++ b = c ++ d -> length a = length c -> a = c /\ b = d.
Proof.
  revert c. induction a as [|x a IH]; intros [|y c] E L; cbn in *; try discriminate L; [auto|].
  injection E as -> E. injection L as L. destruct (IH c E L) as [-> ->]. auto.
Qed.
Definition warmed (n : nat) (p q : list N) : tables := (warm_up g1 q n 0 p, warm_up g2 (warm_up g1 q n 0 p) n 0 q).
Definition start (e : list N) : tables := warmed 512 (firstn 512 (skipn 256 e)) (firstn 512 (skipn 768 e)).
Lemma cover e e' a b c : length e = a + c + c -> length e' = a + c + c -> b = a + c ->
  firstn c (skipn a e) = firstn c (skipn a e') -> firstn c (skipn b e) = firstn c (skipn b e') ->
  forall i, a <= i -> at_ e i = at_ e' i.
Proof.
  intros L L' -> E1 E2 i Hi. destruct (Nat.le_gt_cases (a + c + c) i) as [Big|Small].
  - unfold at_. rewrite !nth_overflow by lia. reflexivity.
  - destruct (Nat.le_gt_cases (a + c) i).
    + replace i with (a + c + (i - (a + c))) by lia. rewrite <- !(cut_at _ (a + c) c) by lia. rewrite E2. reflexivity.
    + replace i with (a + (i - a)) by lia. rewrite <- !(cut_at _ a c) by lia. rewrite E1. reflexivity.
Qed.
Lemma warm2_inj n p q p' q' : n <= 512 -> table_ok p -> table_ok q -> table_ok p' -> table_ok q' ->
  warmed n p q = warmed n p' q' -> p = p' /\ q = q'.
Proof.
  intros Hn Tp Tq Tp' Tq' E. unfold warmed in E.
  pose proof (f_equal fst E) as EP. pose proof (f_equal snd E) as EQ. cbn [fst snd] in EP, EQ. clear E.
  rewrite EP in EQ. apply warm_inj in EQ; [|assumption|assumption|lia]. rewrite EQ in EP. apply warm_inj in EP; [|assumption|assumption|lia].
  auto.
Qed.
Lemma cut_ok l k c : length l = k + c + (length l - k - c) -> c = 512 -> words_ok l -> table_ok (firstn c (skipn k l)).
Proof. intros L H W. split; [rewrite firstn_length, skipn_length; lia|apply Forall_firstn_skipn; exact W]. Qed.
#[local] Opaque warm_up w_expand warmed.
Lemma start_inj e e' : length e = 1280 -> length e' = 1280 -> words_ok e -> words_ok e' -> start e = start e' ->
  forall i, 256 <= i -> at_ e i = at_ e' i.
Proof.
  intros Le Le' O O' E. unfold start in E.
  destruct (warm2_inj 512 _ _ _ _ (le_n 512) (cut_ok e 256 512 ltac:(lia) eq_refl O) (cut_ok e 768 512 ltac:(lia) eq_refl O)
    (cut_ok e' 256 512 ltac:(lia) eq_refl O') (cut_ok e' 768 512 ltac:(lia) eq_refl O') E) as [E1 E2].
  exact (cover e e' 256 768 512 Le Le' eq_refl E1 E2).
Qed.
Lemma start_expand_inj n W W' : 16 + n = 1280 -> words_ok W -> words_ok W' -> length W = 16 -> length W' = 16 ->
  start (w_expand n W) = start (w_expand n W') -> W = W'.
Proof.
  intros Hn O O' L L' E.
  assert (Le : length (w_expand n W) = 1280) by (rewrite w_expand_length; lia).
  assert (Le' : length (w_expand n W') = 1280) by (rewrite w_expand_length; lia).
  pose proof (start_inj _ _ Le Le' (w_expand_ok n W O) (w_expand_ok n W' O') E) as Hi.
  assert (A : forall i, at_ (w_expand n W) i = at_ (w_expand n W') i) by (apply (expand_back n W W' O O' L L' 256); [lia|exact Hi]).
  assert (EE : w_expand n W = w_expand n W') by (apply table_ext; [congruence|intros; apply A]).
  destruct (expand_prefix n W) as [t F]. destruct (expand_prefix n W') as [t' F'].
  rewrite F, F' in EE. apply app_inj_len in EE as [EE _]; [exact EE|congruence].
Qed.
Lemma hc_init_inj k v k' v' : bytes_ok k -> bytes_ok v -> length k = 16 -> length v = 16 ->
  bytes_ok k' -> bytes_ok v' -> length k' = 16 -> length v' = 16 ->
  hc_init k v = hc_init k' v' -> k = k' /\ v = v'.
Proof.
  intros Bk Bv Lk Lv Bk' Bv' Lk' Lv' E.
  destruct (init_words k v Bk Bv Lk Lv) as (W & L). destruct (init_words k' v' Bk' Bv' Lk' Lv') as (W' & L').
  change (start (w_expand (1280 - 16) (w_init k v)) = start (w_expand (1280 - 16) (w_init k' v'))) in E.
  assert (EW : w_init k v = w_init k' v') by exact (start_expand_inj (1280 - 16) _ _ eq_refl W W' L L' E).
  clear E. unfold w_init in EW.
  destruct (words_le_ok k 4 Bk Lk) as [_ Nk]. destruct (words_le_ok k' 4 Bk' Lk') as [_ Nk'].
  destruct (words_le_ok v 4 Bv Lv) as [_ Nv]. destruct (words_le_ok v' 4 Bv' Lv') as [_ Nv'].
  apply app_inj_len in EW as [E1 EW]; [|congruence]. apply app_inj_len in EW as [_ EW]; [|congruence].
  apply app_inj_len in EW as [E2 _]; [|congruence]. split; apply words_inj; assumption.
Qed.

(** ** Steps *)
Definition tables_ok (s : tables) : Prop := table_ok (fst s) /\ table_ok (snd s).
Lemma step_keeps i s : tables_ok s -> tables_ok (snd (hc_step i s)).
Proof.
  destruct s as [p q]. intros [Hp Hq]. unfold hc_step. assert (Hj : i mod 512 < 512) by (apply Nat.mod_upper_bound; lia).
  destruct (_ <? _); split; cbn [fst snd] in *; auto; apply put_ok; auto; apply step_val_lt.
Qed.
Lemma put_step_inj g t t' j : table_ok t -> table_ok t' -> j < 512 -> put t j (step_val g t j) = put t' j (step_val g t' j) -> t = t'.
Proof.
  intros H H' Hj E. apply (put_inj g (fun _ => 0%N) t t' j H H' Hj); [reflexivity|]. rewrite !N.lxor_0_r. exact E.
Qed.
Lemma step_inj i s s' : tables_ok s -> tables_ok s' -> snd (hc_step i s) = snd (hc_step i s') -> s = s'.
Proof.
  destruct s as [p q], s' as [p' q']. intros [Hp Hq] [Hp' Hq']. cbn [fst snd] in *. unfold hc_step.
  assert (Hj : i mod 512 < 512) by (apply Nat.mod_upper_bound; lia). set (j := i mod 512) in *. clearbody j.
  destruct (_ <? _); cbn [snd]; intros E.
  - pose proof (f_equal fst E) as E1. pose proof (f_equal snd E) as E2. cbn [fst snd] in E1, E2. apply put_step_inj in E1; auto. congruence.
  - pose proof (f_equal fst E) as E1. pose proof (f_equal snd E) as E2. cbn [fst snd] in E1, E2. apply put_step_inj in E2; auto. congruence.
Qed.
Lemma words_state_inj n : forall i s s', tables_ok s -> tables_ok s' ->
  snd (hc_words i n s) = snd (hc_words i n s') -> s = s'.
Proof.
  induction n as [|n IH]; intros i s s' H H' E; [exact E|]. cbn [hc_words] in E.
  pose proof (step_keeps i s H) as K. pose proof (step_keeps i s' H') as K'. pose proof (step_inj i s s' H H') as J.
  destruct (hc_step i s) as [w t], (hc_step i s') as [w' t']. cbn [snd] in *.
  pose proof (IH (S i) t t' K K') as I. destruct (hc_words (S i) n t) as [ws u], (hc_words (S i) n t') as [ws' u'].
  cbn [snd] in *. auto.
Qed.

#[local] Opaque hc_init hc128_initialize hc_words.
(** A state that is reached from [cs] by processing the packets in order. *)
Fixpoint reaches (cs : hc128_state) (pks : list packet) (cs' : hc128_state) : Prop :=
  match pks with
  | [] => cs' = cs
  | k :: pks => exists cs1 m1,
      hc128_process_packet cs (pk_mem k) (pk_out k) (pk_in k) (N.of_nat (length (pk_data k))) = Ret (cs1, m1) /\
      reaches cs1 pks cs'
  end.
Definition short_packet (k : packet) : Prop := packet_ok k /\ (Z.of_nat (length (pk_data k)) <= 4 * (2^31 - 1))%Z.

Lemma reaches_inj : forall pks pks' cs cs' e, Forall short_packet pks -> Forall short_packet pks' ->
  map (fun k => length (pk_data k)) pks = map (fun k => length (pk_data k)) pks' ->
  state_ok cs -> state_ok cs' -> reaches cs pks e -> reaches cs' pks' e -> cs = cs'.
Proof.
  induction pks as [|k pks IH]; intros [|k' pks'] cs cs' e F F' L O O' R R'; try discriminate L; [cbn in R, R'; congruence|].
  cbn [map] in L. pose proof (f_equal (hd 0) L) as L1. pose proof (f_equal (@tl nat) L) as L2. cbn [hd tl] in L1, L2. clear L.
  apply Forall_inv in F as F1. apply Forall_inv_tail in F. apply Forall_inv in F' as F1'. apply Forall_inv_tail in F'.
  destruct F1 as [(A1 & A2 & A3) A4]. destruct F1' as [(B1 & B2 & B3) B4].
  destruct R as (cs1 & m1 & E & R). destruct R' as (cs1' & m1' & E' & R').
  destruct (process_next cs _ _ _ _ O A4 A1 A2 A3) as [X Y]. destruct (process_next cs' _ _ _ _ O' B4 B1 B2 B3) as [X' Y'].
  rewrite E in X. rewrite E' in X'. apply Ret_pair in X as [X _]. apply Ret_pair in X' as [X' _]. rewrite <- X in Y. rewrite <- X' in Y'.
  assert (Q : cs1 = cs1') by (apply (IH pks' cs1 cs1' e); assumption).
  rewrite Q in X. rewrite X in X'. clear -X' O O' L1. pose proof (f_equal P X') as E1. pose proof (f_equal HcModel.Q X') as E2. cbn [P HcModel.Q] in E1, E2.
  rewrite <- L1 in E1, E2.
  assert (V : view cs = view cs').
  { apply (words_state_inj (n_words (length (pk_data k))) 0); [exact O|exact O'|]. rewrite (surjective_pairing (snd (hc_words _ _ (view cs)))), E1, E2. symmetry. apply surjective_pairing. }
  destruct cs, cs'. unfold view in V. cbn in V. congruence.
Qed.

(** C114: if two sessions are ever in the same state after packets of the same
    lengths, they were started with the same key and IV. *)
Theorem C114_hc128_states_distinct : forall m key iv k v m' key' iv' k' v' cs cs' pks pks' e,
  has_bytes m key k -> length k = 16 -> has_bytes m iv v -> length v = 16 ->
  has_bytes m' key' k' -> length k' = 16 -> has_bytes m' iv' v' -> length v' = 16 ->
  hc128_initialize m key iv = Ret cs -> hc128_initialize m' key' iv' = Ret cs' ->
  Forall short_packet pks -> Forall short_packet pks' ->
  map (fun k => length (pk_data k)) pks = map (fun k => length (pk_data k)) pks' ->
  reaches cs pks e -> reaches cs' pks' e -> k = k' /\ v = v'.
Proof.
  intros m key iv k v m' key' iv' k' v' cs cs' pks pks' e Hk Lk Hv Lv Hk' Lk' Hv' Lv' E E' F F' L R R'.
  destruct (initialize_ok m key iv k v Hk Hv Lk Lv) as (c & A & O & V). rewrite E in A. apply Ret_inj in A. subst c.
  destruct (initialize_ok m' key' iv' k' v' Hk' Hv' Lk' Lv') as (c & A & O' & V'). rewrite E' in A. apply Ret_inj in A. subst c.
  assert (cs = cs') by (apply (reaches_inj pks pks' cs cs' e); assumption). subst cs'.
  exact (hc_init_inj k v k' v' (has_bytes_bytes _ _ _ Hk) (has_bytes_bytes _ _ _ Hv) Lk Lv
    (has_bytes_bytes _ _ _ Hk') (has_bytes_bytes _ _ _ Hv') Lk' Lv' (eq_trans (eq_sym V) V')).
Qed.
Print Assumptions C114_hc128_states_distinct.

(** Two sessions with IVs that differ in one bit, after one packet each: the
    theorem says that their states differ. *)
Example C114_instance :
  let m := [holding (repeat 1%N 16); holding (repeat 2%N 16); holding (3%N :: repeat 2%N 15); holding (repeat 5%N 7)] in
  let p := Packet m (Ptr 3 0) (Ptr 3 0) (repeat 5%N 7) in
  exists cs cs' e e', hc128_initialize m (Ptr 0 0) (Ptr 1 0) = Ret cs /\ hc128_initialize m (Ptr 0 0) (Ptr 2 0) = Ret cs' /\
    short_packet p /\ reaches cs [p] e /\ reaches cs' [p] e' /\ e <> e'.
Proof.
  intros m p.
  assert (H0 : has_bytes m (Ptr 0 0) (repeat 1%N 16)) by conc_has_bytes.
  assert (H1 : has_bytes m (Ptr 1 0) (repeat 2%N 16)) by conc_has_bytes.
  assert (H2 : has_bytes m (Ptr 2 0) (3%N :: repeat 2%N 15)) by conc_has_bytes.
  assert (S : short_packet p).
  { split; [|discriminate]. split; [conc_has_bytes|]. split; [conc_writable|left; reflexivity]. }
  destruct (initialize_ok m (Ptr 0 0) (Ptr 1 0) _ _ H0 H1 eq_refl eq_refl) as (cs & E & O & _).
  destruct (initialize_ok m (Ptr 0 0) (Ptr 2 0) _ _ H0 H2 eq_refl eq_refl) as (cs' & E' & O' & _).
  destruct S as [(A1 & A2 & A3) A4]. pose proof (conj (conj A1 (conj A2 A3)) A4 : short_packet p) as S.
  destruct (process_next cs _ _ _ _ O A4 A1 A2 A3) as [X _]. destruct (process_next cs' _ _ _ _ O' A4 A1 A2 A3) as [X' _].
  exists cs, cs'. do 2 eexists. split; [exact E|]. split; [exact E'|]. split; [exact S|].
  assert (R : reaches cs [p] _) by (do 2 eexists; split; [exact X|reflexivity]).
  assert (R' : reaches cs' [p] _) by (do 2 eexists; split; [exact X'|reflexivity]).
  split; [exact R|]. split; [exact R'|]. intros Q. rewrite Q in R.
  destruct (C114_hc128_states_distinct m (Ptr 0 0) (Ptr 1 0) _ _ m (Ptr 0 0) (Ptr 2 0) _ _ cs cs' [p] [p] _
    H0 eq_refl H1 eq_refl H0 eq_refl H2 eq_refl E E' (Forall_cons _ S (Forall_nil _)) (Forall_cons _ S (Forall_nil _)) eq_refl R R') as [_ D].
  discriminate D.
Qed.
