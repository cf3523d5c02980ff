(** HC-128: the model computes the specification. *)
From Coq Require Import NArith ZArith Arith List Lia Bool ZifyN ZifyNat.
From Verif Require Import Res Words Mem Ints MemSpec ListLemmas MemLemmas SpecWords WordsLemmas
  XorProofs ShaProofs HcModel.
From Verif Require HcSpec.
Import ListNotations.
Local Open Scope nat_scope.

Definition table_ok (t : list N) : Prop := length t = 512 /\ words_ok t.
Definition state_ok (cs : hc128_state) : Prop := table_ok (P cs) /\ table_ok (Q cs).
Definition view (cs : hc128_state) : HcSpec.tables := (P cs, Q cs).

Lemma tab_at t i : tab t i = HcSpec.at_ t i.
Proof. reflexivity. Qed.

Lemma at_lt t i : words_ok t -> (HcSpec.at_ t i < 2^32)%N.
Proof. intros H. apply words_ok_nth. exact H. Qed.

Lemma f1_spec x : (x < 2^32)%N -> f1 x = HcSpec.f1 x.
Proof. intros H. unfold f1, HcSpec.f1. rewrite !rotr32_spec, shr32_spec by (auto; lia). reflexivity. Qed.
Lemma f2_spec x : (x < 2^32)%N -> f2 x = HcSpec.f2 x.
Proof. intros H. unfold f2, HcSpec.f2. rewrite !rotr32_spec, shr32_spec by (auto; lia). reflexivity. Qed.
Lemma g1_spec x y z : (x < 2^32)%N -> (y < 2^32)%N -> (z < 2^32)%N -> g1 x y z = HcSpec.g1 x y z.
Proof. intros Hx Hy Hz. unfold g1, HcSpec.g1. rewrite !rotr32_spec, add32_spec by (auto; lia). reflexivity. Qed.
Lemma g2_spec x y z : (x < 2^32)%N -> (y < 2^32)%N -> (z < 2^32)%N -> g2 x y z = HcSpec.g2 x y z.
Proof. intros Hx Hy Hz. unfold g2, HcSpec.g2. rewrite !rotr32_spec, add32_spec by (auto; lia). reflexivity. Qed.

Lemma h1_spec cs x : h1 cs x = HcSpec.h (Q cs) x.
Proof. unfold h1, HcSpec.h. rewrite add32_spec, !u8_mod, shr32_spec. reflexivity. Qed.
Lemma h2_spec cs x : h2 cs x = HcSpec.h (P cs) x.
Proof. unfold h2, HcSpec.h. rewrite add32_spec, !u8_mod, shr32_spec. reflexivity. Qed.

Lemma masked_spec j k z : Z.of_nat k = z -> k <= 512 -> masked (Z.of_nat j) z = HcSpec.minus512 j k.
Proof.
  intros <- Hk. unfold masked, HcSpec.minus512. change 511%Z with (Z.ones 9).
  rewrite Z.land_ones by lia. change (2^9)%Z with 512%Z. lia.
Qed.

Lemma mask9 i : Z.to_nat (Z.land (Z.of_nat i) 0x1FF) = i mod 512.
Proof. change 0x1FF%Z with (Z.ones 9). rewrite Z.land_ones by lia. change (2^9)%Z with 512%Z. lia. Qed.
Lemma mask10 i : (Z.land (Z.of_nat i) 0x3FF <? 512)%Z = (i mod 1024 <? 512).
Proof.
  change 0x3FF%Z with (Z.ones 10). rewrite Z.land_ones by lia. change (2^10)%Z with 1024%Z.
  destruct (Z.ltb_spec (Z.of_nat i mod 1024) 512), (Nat.ltb_spec (i mod 1024) 512); auto; lia.
Qed.

Lemma put_upd t i x : i < length t -> HcSpec.put t i x = upd i x t.
Proof.
  unfold HcSpec.put. revert i. induction t as [|y t IH]; intros [|i] H; simpl in H; try lia; [reflexivity|].
  cbn [firstn skipn app upd]. f_equal. apply IH. lia.
Qed.

Lemma step_val1 t i : words_ok t ->
  add32 (tab t i) (g1 (tab t (masked (Z.of_nat i) 3)) (tab t (masked (Z.of_nat i) 10))
                      (tab t (masked (Z.of_nat i) 511))) = HcSpec.step_val HcSpec.g1 t i.
Proof.
  intros H. unfold HcSpec.step_val. rewrite add32_spec, !tab_at.
  rewrite (masked_spec i 3 3 eq_refl), (masked_spec i 10 10 eq_refl), (masked_spec i 511 511 eq_refl) by lia.
  rewrite g1_spec by (apply at_lt; auto). reflexivity.
Qed.
Lemma step_val2 t i : words_ok t ->
  add32 (tab t i) (g2 (tab t (masked (Z.of_nat i) 3)) (tab t (masked (Z.of_nat i) 10))
                      (tab t (masked (Z.of_nat i) 511))) = HcSpec.step_val HcSpec.g2 t i.
Proof.
  intros H. unfold HcSpec.step_val. rewrite add32_spec, !tab_at.
  rewrite (masked_spec i 3 3 eq_refl), (masked_spec i 10 10 eq_refl), (masked_spec i 511 511 eq_refl) by lia.
  rewrite g2_spec by (apply at_lt; auto). reflexivity.
Qed.

Lemma step_val_lt g t i : (HcSpec.step_val g t i < 2^32)%N.
Proof. apply add_w32_lt. Qed.
Lemma h_lt t x : (HcSpec.h t x < 2^32)%N.
Proof. apply add_w32_lt. Qed.

Lemma table_upd t i x : table_ok t -> (x < 2^32)%N -> table_ok (upd i x t).
Proof. intros [L W] H. split; [rewrite upd_length; auto|apply Forall_upd; auto]. Qed.

(** *** Warm-up *)

Lemma warm_P_spec n : forall j p q, table_ok p -> j + n <= 512 ->
  iter_n n j (fun i cs => HcState (upd i (warm_P cs i) (P cs)) (Q cs)) (HcState p q) =
    HcState (HcSpec.warm_up HcSpec.g1 q n j p) q /\ table_ok (HcSpec.warm_up HcSpec.g1 q n j p).
Proof.
  induction n as [|n IH]; intros j p q Hp Hj; [split; [reflexivity|exact Hp]|].
  rewrite iter_n_S. cbn [HcSpec.warm_up]. unfold warm_P. cbn [P Q].
  rewrite step_val1 by apply Hp. rewrite h1_spec, tab_at. cbn [P Q]. rewrite (masked_spec j 12 12 eq_refl) by lia.
  rewrite put_upd by (destruct Hp as [-> _]; lia).
  apply IH; [|lia]. apply table_upd; auto. apply lxor_lt; [apply step_val_lt|apply h_lt].
Qed.

Lemma warm_Q_spec n : forall j p q, table_ok q -> j + n <= 512 ->
  iter_n n j (fun i cs => HcState (P cs) (upd i (warm_Q cs i) (Q cs))) (HcState p q) =
    HcState p (HcSpec.warm_up HcSpec.g2 p n j q) /\ table_ok (HcSpec.warm_up HcSpec.g2 p n j q).
Proof.
  induction n as [|n IH]; intros j p q Hp Hj; [split; [reflexivity|exact Hp]|].
  rewrite iter_n_S. cbn [HcSpec.warm_up]. unfold warm_Q. cbn [P Q].
  rewrite step_val2 by apply Hp. rewrite h2_spec, tab_at. cbn [P Q]. rewrite (masked_spec j 12 12 eq_refl) by lia.
  rewrite put_upd by (destruct Hp as [-> _]; lia).
  apply IH; [|lia]. apply table_upd; auto. apply lxor_lt; [apply step_val_lt|apply h_lt].
Qed.

(** *** Expansion of W *)

Lemma w_expand_length n : forall W, length (HcSpec.w_expand n W) = length W + n.
Proof. induction n as [|n IH]; intros W; cbn [HcSpec.w_expand]; [lia|]. rewrite IH, app_length. simpl. lia. Qed.

Lemma w_expand_ok n : forall W, words_ok W -> words_ok (HcSpec.w_expand n W).
Proof.
  induction n as [|n IH]; intros W H; cbn [HcSpec.w_expand]; auto. apply IH. apply Forall_app. split; auto.
  constructor; [apply add_w32_lt|constructor].
Qed.

Lemma w_loop n : forall W, words_ok W -> 16 <= length W ->
  iter_n n (length W)
    (fun i W => upd i (add32 (add32 (add32 (add32 (f2 (tab W (i - 2))) (tab W (i - 7)))
                                       (f1 (tab W (i - 15)))) (tab W (i - 16))) (N.of_nat i)) W)
    (W ++ repeat 0%N n) = HcSpec.w_expand n W.
Proof.
  induction n as [|n IH]; intros W H L.
  - cbn [iter_n repeat HcSpec.w_expand]. apply app_nil_r.
  - rewrite iter_n_S. cbn [HcSpec.w_expand].
    set (i := length W).
    assert (T : forall k, 0 < k <= 16 -> tab (W ++ repeat 0%N (S n)) (i - k) = HcSpec.at_ W (i - k)).
    { intros k Hk. unfold tab, HcSpec.at_. apply app_nth1. fold i. unfold i. lia. }
    rewrite (T 2), (T 7), (T 15), (T 16) by lia.
    rewrite f2_spec, f1_spec by (apply at_lt; auto). rewrite !add32_spec.
    fold (HcSpec.w_next W).
    change (repeat 0%N (S n)) with ([0%N] ++ repeat 0%N n).
    rewrite app_assoc.
    rewrite upd_app_l by (rewrite app_length; simpl; unfold i; lia).
    unfold i at 2. rewrite upd_app_last.
    change (add_w32 (add_w32 (add_w32 (add_w32 (HcSpec.f2 (HcSpec.at_ W (i - 2))) (HcSpec.at_ W (i - 7)))
      (HcSpec.f1 (HcSpec.at_ W (i - 15)))) (HcSpec.at_ W (i - 16))) (N.of_nat i)) with (HcSpec.w_next W).
    replace (S i) with (length (W ++ [HcSpec.w_next W])) by (rewrite app_length; simpl; unfold i; lia).
    apply IH.
    + apply Forall_app. split; auto. constructor; [apply add_w32_lt|constructor].
    + rewrite app_length. simpl. lia.
Qed.

Lemma copy_loop (f g : nat -> N) n : forall j a b p q, length a = j -> length b = j ->
  length p = n -> length q = n ->
  iter_n n j (fun i cs => HcState (upd i (f i) (P cs)) (upd i (g i) (Q cs)))
    (HcState (a ++ p) (b ++ q)) = HcState (a ++ map f (seq j n)) (b ++ map g (seq j n)).
Proof.
  induction n as [|n IH]; intros j a b p q La Lb Lp Lq.
  - destruct p; [|discriminate]. destruct q; [|discriminate]. reflexivity.
  - destruct p as [|x p]; [discriminate|]. destruct q as [|y q]; [discriminate|].
    rewrite iter_n_S. cbn [P Q].
    assert (U : forall (c : list N) z r v, length c = j -> upd j v (c ++ z :: r) = (c ++ [v]) ++ r).
    { intros c z r v <-. change (z :: r) with ([z] ++ r). rewrite app_assoc.
      rewrite upd_app_l by (rewrite app_length; simpl; lia). rewrite upd_app_last. reflexivity. }
    rewrite !U by auto. rewrite IH by (rewrite ?app_length; simpl in *; lia).
    cbn [seq map]. rewrite <- !app_assoc. reflexivity.
Qed.

Lemma map_nth_seq (l : list N) k n : k + n <= length l ->
  map (fun i => tab l (i + k)) (seq 0 n) = firstn n (skipn k l).
Proof.
  intros H. assert (X : forall j, j + n <= length l - k ->
    map (fun i => tab l (i + k)) (seq j n) = firstn n (skipn (j + k) l)).
  { induction n as [|n IH]; intros j Hj; [reflexivity|].
    cbn [seq map]. rewrite (skipn_cons_nth l (j + k) 0%N) by lia. cbn [firstn].
    f_equal. change (S (j + k)) with (S j + k). apply IH; lia. }
  apply (X 0). lia.
Qed.

Lemma Forall_firstn_skipn {A} (Pr : A -> Prop) n k l : Forall Pr l -> Forall Pr (firstn n (skipn k l)).
Proof.
  intros H. rewrite <- (firstn_skipn k l) in H. apply Forall_app in H. destruct H as [_ H].
  rewrite <- (firstn_skipn n (skipn k l)) in H. apply Forall_app in H. apply H.
Qed.

Lemma initialize_ok m kp vp key iv :
  has_bytes m kp key -> has_bytes m vp iv -> length key = 16 -> length iv = 16 ->
  exists cs, hc128_initialize m kp vp = Ret cs /\ state_ok cs /\ view cs = HcSpec.hc_init key iv.
Proof.
  intros Hk Hv Lk Lv. unfold hc128_initialize.
  rewrite (has_bytes_words _ _ _ 4 Hk), (has_bytes_words _ _ _ 4 Hv) by auto. cbn [bind].
  destruct (words_le_ok key 4 (has_bytes_bytes _ _ _ Hk) Lk) as [Wk Nk].
  destruct (words_le_ok iv 4 (has_bytes_bytes _ _ _ Hv) Lv) as [Wv Nv].
  unfold HcSpec.hc_init, HcSpec.w_init.
  set (K := map le_num (chunks 4 key)) in *. set (V := map le_num (chunks 4 iv)) in *.
  set (W0 := K ++ K ++ V ++ V).
  assert (L0 : length W0 = 16) by (unfold W0; rewrite !app_length; lia).
  assert (O0 : words_ok W0) by (unfold W0, words_ok; rewrite !Forall_app; auto).
  replace (K ++ K ++ V ++ V ++ repeat 0%N (1280 - 16)) with (W0 ++ repeat 0%N (1280 - 16))
    by (unfold W0; rewrite <- !app_assoc; reflexivity).
  pose proof (w_loop (1280 - 16) W0 O0 ltac:(lia)) as E. rewrite L0 in E. rewrite E. clear E.
  set (W := HcSpec.w_expand (1280 - 16) W0).
  assert (LW : length W = 1280) by (unfold W; rewrite w_expand_length, L0; reflexivity).
  assert (OW : words_ok W) by (apply w_expand_ok; auto).
  pose proof (copy_loop (fun i => tab W (i + 256)) (fun i => tab W (i + 768)) 512 0 [] []
    (repeat 0%N 512) (repeat 0%N 512) eq_refl eq_refl (repeat_length _ _) (repeat_length _ _)) as E.
  cbn [app] in E. rewrite E. clear E. rewrite !map_nth_seq by (rewrite LW; lia).
  set (p := firstn 512 (skipn 256 W)). set (q := firstn 512 (skipn 768 W)).
  assert (Op : table_ok p).
  { split; [unfold p; rewrite firstn_length, skipn_length, LW; lia|apply Forall_firstn_skipn; auto]. }
  assert (Oq : table_ok q).
  { split; [unfold q; rewrite firstn_length, skipn_length, LW; lia|apply Forall_firstn_skipn; auto]. }
  destruct (warm_P_spec 512 0 p q Op ltac:(lia)) as [-> Op'].
  destruct (warm_Q_spec 512 0 (HcSpec.warm_up HcSpec.g1 q 512 0 p) q Oq ltac:(lia)) as [-> Oq'].
  eexists. split; [reflexivity|]. split; [split; [exact Op'|exact Oq']|].
  unfold view. cbn [P Q]. reflexivity.
Qed.

(** *** Key stream *)

Lemma generate_step_spec i cs : state_ok cs ->
  exists w cs', generate_step i cs = (w, cs') /\ HcSpec.hc_step i (view cs) = (w, view cs') /\
    state_ok cs' /\ (w < 2^32)%N.
Proof.
  intros [Hp Hq]. unfold generate_step, HcSpec.hc_step, view. rewrite mask10, mask9.
  set (j := i mod 512). assert (Hj : j < 512) by (apply Nat.mod_upper_bound; lia).
  destruct (i mod 1024 <? 512).
  - rewrite step_val1 by apply Hp. rewrite h1_spec, !tab_at. cbn [P Q].
    rewrite (masked_spec j 12 12 eq_refl) by lia. rewrite put_upd by (destruct Hp as [-> _]; lia).
    set (p' := upd j (HcSpec.step_val HcSpec.g1 (P cs) j) (P cs)).
    assert (Hp' : table_ok p') by (apply table_upd; auto; apply step_val_lt).
    exists (N.lxor (HcSpec.h (Q cs) (HcSpec.at_ p' (HcSpec.minus512 j 12))) (HcSpec.at_ p' j)), (HcState p' (Q cs)).
    split; [reflexivity|]. split; [reflexivity|]. split; [split; auto|].
    apply lxor_lt; [apply h_lt|apply at_lt; apply Hp'].
  - rewrite step_val2 by apply Hq. rewrite h2_spec, !tab_at. cbn [P Q].
    rewrite (masked_spec j 12 12 eq_refl) by lia. rewrite put_upd by (destruct Hq as [-> _]; lia).
    set (p' := upd j (HcSpec.step_val HcSpec.g2 (Q cs) j) (Q cs)).
    assert (Hp' : table_ok p') by (apply table_upd; auto; apply step_val_lt).
    exists (N.lxor (HcSpec.h (P cs) (HcSpec.at_ p' (HcSpec.minus512 j 12))) (HcSpec.at_ p' j)), (HcState (P cs) p').
    split; [reflexivity|]. split; [reflexivity|]. split; [split; auto|].
    apply lxor_lt; [apply h_lt|apply at_lt; apply Hp'].
Qed.

Definition gen_body (i : nat) (x : list N * hc128_state) : res (list N * hc128_state) :=
  let '(ks, cs) := x in
  let (w, cs) := generate_step i cs in
  let* _ := int_ret (Z.of_nat i + 1) in
  Ret (ks ++ [w], cs).

Lemma gen_loop n : forall i acc cs, state_ok cs -> (Z.of_nat i + Z.of_nat n < 2^31)%Z ->
  exists cs', for_n n i gen_body (acc, cs) = Ret (acc ++ fst (HcSpec.hc_words i n (view cs)), cs') /\
    view cs' = snd (HcSpec.hc_words i n (view cs)) /\ state_ok cs' /\
    length (fst (HcSpec.hc_words i n (view cs))) = n /\ words_ok (fst (HcSpec.hc_words i n (view cs))).
Proof.
  induction n as [|n IH]; intros i acc cs Hs Hb.
  - exists cs. cbn [for_n HcSpec.hc_words fst snd]. rewrite app_nil_r. repeat split; auto; try apply Hs. constructor.
  - rewrite for_n_S. unfold gen_body at 1. cbn [HcSpec.hc_words].
    destruct (generate_step_spec i cs Hs) as (w & cs1 & -> & -> & Hs1 & Hw).
    unfold int_ret, int_min, int_max. change (2^31)%Z with 2147483648%Z in Hb.
    destruct (Z.leb_spec (-2147483648) (Z.of_nat i + 1)), (Z.leb_spec (Z.of_nat i + 1) 2147483647); try lia.
    cbn [andb bind].
    destruct (IH (S i) (acc ++ [w]) cs1 Hs1 ltac:(change (2^31)%Z with 2147483648%Z; lia))
      as (cs2 & E & V & O & L & W).
    rewrite E. destruct (HcSpec.hc_words (S i) n (view cs1)) as [ws s2]. cbn [fst snd] in *.
    exists cs2. split; [rewrite <- app_assoc; reflexivity|]. split; auto. split; auto.
    split; [simpl; lia|constructor; auto].
Qed.

Lemma generate_unfold cs size :
  hc128_generate_keystream cs size = for_n (S (N.to_nat (N.div (sub64 size 1) 4))) 0 gen_body ([], cs).
Proof. reflexivity. Qed.

(** Number of words generated for a packet. *)
Definition n_words (n : nat) : nat := match n with O => 0 | S k => S (k / 4) end.

Lemma process_ok cs m out inp data :
  state_ok cs -> (Z.of_nat (length data) <= 4 * (2^31 - 1))%Z ->
  has_bytes m inp data -> writable m out (length data) -> same_or_disjoint out inp (length data) ->
  exists cs', hc128_process_packet cs m out inp (N.of_nat (length data)) =
    Ret (cs', write_at m out (xor_bytes data
               (le_bytes (fst (HcSpec.hc_words 0 (n_words (length data)) (view cs)))))) /\
    state_ok cs' /\ view cs' = snd (HcSpec.hc_words 0 (n_words (length data)) (view cs)).
Proof.
  intros Hs Hlen Hin Hout Hov. unfold hc128_process_packet.
  change (4 * (2^31 - 1))%Z with 8589934588%Z in Hlen.
  destruct (N.ltb_spec (N.of_nat (length data)) 1) as [H0|H0].
  { destruct data; [|simpl in H0; lia]. exists cs. cbn [xor_bytes combine map n_words length HcSpec.hc_words snd].
    rewrite write_at_nil. auto. }
  rewrite generate_unfold. set (n := length data) in *.
  replace (S (N.to_nat (sub64 (N.of_nat n) 1 / 4))) with (n_words n).
  2:{ unfold sub64. rewrite u64_mod. replace (N.of_nat n + 0x10000000000000000 - 1)%N
        with (N.of_nat (n - 1) + 1 * 2^64)%N by (change (2^64)%N with 0x10000000000000000%N; lia).
      rewrite N.mod_add by discriminate. rewrite N.mod_small.
      2:{ change (2^64)%N with 0x10000000000000000%N. lia. }
      unfold n_words. destruct n as [|k]; [lia|]. replace (S k - 1) with k by lia.
      f_equal. rewrite N2Nat.inj_div, Nat2N.id. reflexivity. }
  assert (Hnw : n <= 4 * n_words n < n + 4).
  { unfold n_words. destruct n as [|k]; [lia|].
    pose proof (Nat.div_mod k 4 ltac:(lia)). pose proof (Nat.mod_upper_bound k 4 ltac:(lia)). lia. }
  destruct (gen_loop (n_words n) 0 [] cs Hs) as (cs' & E & V & O & L & W).
  { change (2^31)%Z with 2147483648%Z. lia. }
  rewrite E. cbn [bind app]. set (ksw := fst (HcSpec.hc_words 0 (n_words n) (view cs))) in *.
  set (ks := le_bytes ksw).
  assert (Lks : length ks = 4 * n_words n) by (unfold ks; rewrite le_bytes_length; lia).
  assert (Hks : n <= length ks) by lia.
  exists cs'. split; [|auto].
  pose (st := fun i => (xst m out data ks (4 * i), padd out (4 * i), padd inp (4 * i), i,
                        (N.of_nat n - 4 * N.of_nat i)%N)).
  assert (E0 : (m, out, inp, 0, N.of_nat n) = st 0).
  { unfold st. rewrite Nat.mul_0_r, xst_0, !padd_0. do 2 f_equal. lia. }
  rewrite E0. rewrite (while_steps _ _ st (n / 4)).
  - cbn [bind]. unfold st at 1.
    set (q := n / 4). set (r := N.to_nat (N.of_nat n - 4 * N.of_nat q)).
    assert (Hr : n = 4 * q + r /\ r < 4) by (unfold r, q; lia).
    pose (st2 := fun i => xst m out data ks (4 * q + i)).
    replace (xst m out data ks (4 * q)) with (st2 0) by (unfold st2; rewrite Nat.add_0_r; reflexivity).
    rewrite (for_n_steps _ st2).
    + cbn [bind]. unfold st2. rewrite xst_all by (fold n; lia). reflexivity.
    + intros i Hi. rewrite Nat.add_0_l.
      rewrite Nat.div_small, Nat.mod_small, Nat.add_0_r by lia.
      unfold ks_word. destruct (nth_error ksw q) as [w|] eqn:Ew.
      2:{ apply nth_error_None in Ew. lia. }
      cbn [bind]. rewrite !padd_padd. unfold st2.
      rewrite (xor8_step m out inp data ks Hin Hout Hov Hks (4 * q + i)).
      * f_equal. f_equal. lia.
      * fold n. lia.
      * unfold ks. rewrite le_bytes_nth by lia. rewrite (nth_error_nth _ _ _ Ew). reflexivity.
  - intros i Hi. unfold st at 1 2. split; [apply N.ltb_lt; lia|].
    unfold ks_word. destruct (nth_error ksw i) as [w|] eqn:Ew.
    2:{ apply nth_error_None in Ew. lia. }
    cbn [bind]. rewrite (xor32_step m out inp data ks Hin Hout Hov Hks (4 * i) w).
    + cbn [bind]. unfold st. rewrite !padd_padd. replace (4 * S i) with (4 * i + 4) by lia.
      f_equal. f_equal. lia.
    + fold n. lia.
    + unfold ks. apply le_bytes_word. auto.
  - unfold st. apply N.ltb_ge. lia.
  - rewrite Nat2N.id. lia.
Qed.

(** *** Consequences *)

Lemma hc_words_app n k : forall i s,
  HcSpec.hc_words i (n + k) s =
  (fst (HcSpec.hc_words i n s) ++ fst (HcSpec.hc_words (i + n) k (snd (HcSpec.hc_words i n s))),
   snd (HcSpec.hc_words (i + n) k (snd (HcSpec.hc_words i n s)))).
Proof.
  induction n as [|n IH]; intros i s.
  - cbn [HcSpec.hc_words fst snd app Nat.add]. rewrite Nat.add_0_r.
    destruct (HcSpec.hc_words i k s). reflexivity.
  - cbn [HcSpec.hc_words Nat.add]. destruct (HcSpec.hc_step i s) as [w s1]. rewrite IH.
    replace (i + S n) with (S i + n) by lia.
    destruct (HcSpec.hc_words (S i) n s1) as [ws s2]. cbn [fst snd app]. reflexivity.
Qed.

Lemma hc_step_period i k s : HcSpec.hc_step (1024 * k + i) s = HcSpec.hc_step i s.
Proof.
  unfold HcSpec.hc_step.
  replace ((1024 * k + i) mod 512) with (i mod 512) by lia.
  replace ((1024 * k + i) mod 1024) with (i mod 1024) by lia. reflexivity.
Qed.

Lemma hc_words_period n k : forall i s, HcSpec.hc_words (1024 * k + i) n s = HcSpec.hc_words i n s.
Proof.
  induction n as [|n IH]; intros i s; [reflexivity|]. cbn [HcSpec.hc_words].
  rewrite hc_step_period. destruct (HcSpec.hc_step i s) as [w s1].
  rewrite <- Nat.add_succ_r, IH. reflexivity.
Qed.

Lemma hc_words_length n : forall i s, length (fst (HcSpec.hc_words i n s)) = n.
Proof.
  induction n as [|n IH]; intros i s; [reflexivity|]. cbn [HcSpec.hc_words].
  destruct (HcSpec.hc_step i s) as [w s1]. specialize (IH (S i) s1).
  destruct (HcSpec.hc_words (S i) n s1) as [ws s2]. cbn [fst length] in *. lia.
Qed.

Lemma xor_app_l a s t : length a <= length s -> xor_bytes a (s ++ t) = xor_bytes a s.
Proof.
  intros H. rewrite <- (xor_bytes_trunc a (s ++ t)), <- (xor_bytes_trunc a s).
  rewrite firstn_app. replace (length a - length s) with 0 by lia. cbn [firstn].
  rewrite app_nil_r. reflexivity.
Qed.

Lemma n_words_bound n : n <= 4 * n_words n < n + 4.
Proof.
  unfold n_words. destruct n as [|k]; [lia|].
  pose proof (Nat.div_mod k 4 ltac:(lia)). pose proof (Nat.mod_upper_bound k 4 ltac:(lia)). lia.
Qed.

Lemma encrypt_words key iv data :
  xor_bytes data (le_bytes (fst (HcSpec.hc_words 0 (n_words (length data)) (HcSpec.hc_init key iv)))) =
  HcSpec.hc_encrypt key iv data.
Proof.
  unfold HcSpec.hc_encrypt, HcSpec.hc_stream. rewrite <- le_bytes_spec.
  pose proof (n_words_bound (length data)) as B.
  pose proof (Nat.div_mod (length data) 4 ltac:(lia)). pose proof (Nat.mod_upper_bound (length data) 4 ltac:(lia)).
  replace (length data / 4 + 1) with (n_words (length data) + (length data / 4 + 1 - n_words (length data))) by lia.
  rewrite hc_words_app. cbn [fst]. rewrite le_bytes_app, xor_app_l; auto.
  rewrite le_bytes_length, hc_words_length. lia.
Qed.

Lemma process_next cs m out inp data :
  state_ok cs -> (Z.of_nat (length data) <= 4 * (2^31 - 1))%Z ->
  has_bytes m inp data -> writable m out (length data) -> same_or_disjoint out inp (length data) ->
  let r := HcSpec.hc_words 0 (n_words (length data)) (view cs) in
  hc128_process_packet cs m out inp (N.of_nat (length data)) =
    Ret (HcState (fst (snd r)) (snd (snd r)), write_at m out (xor_bytes data (le_bytes (fst r)))) /\
  state_ok (HcState (fst (snd r)) (snd (snd r))).
Proof.
  intros Hs Hl Hin Hout Hov r.
  destruct (process_ok cs m out inp data Hs Hl Hin Hout Hov) as (cs' & E & O & V).
  assert (C : cs' = HcState (fst (snd r)) (snd (snd r))).
  { unfold r. rewrite <- V. destruct cs'; reflexivity. }
  rewrite <- C. auto.
Qed.

Lemma hc_words_state n cs : state_ok cs -> (Z.of_nat n < 2^31)%Z ->
  let r := HcSpec.hc_words 0 n (view cs) in state_ok (HcState (fst (snd r)) (snd (snd r))).
Proof.
  intros Hs Hn r. destruct (gen_loop n 0 [] cs Hs) as (cs' & _ & V & O & _); [lia|].
  unfold r. rewrite <- V. destruct cs'; exact O.
Qed.

Lemma xor_bytes_app2 a b s t : length a = length s ->
  xor_bytes (a ++ b) (s ++ t) = xor_bytes a s ++ xor_bytes b t.
Proof. intros H. apply xor_bytes_app. exact H. Qed.

Lemma split_ok cs a b :
  state_ok cs -> length a mod 4096 = 0 -> (Z.of_nat (length a + length b) <= 4 * (2^31 - 1))%Z ->
  exists cs1 cs2 ea eb, length ea = length a /\ length eb = length b /\
    (forall m out inp, has_bytes m inp a -> writable m out (length a) ->
       same_or_disjoint out inp (length a) ->
       hc128_process_packet cs m out inp (N.of_nat (length a)) = Ret (cs1, write_at m out ea)) /\
    (forall m out inp, has_bytes m inp b -> writable m out (length b) ->
       same_or_disjoint out inp (length b) ->
       hc128_process_packet cs1 m out inp (N.of_nat (length b)) = Ret (cs2, write_at m out eb)) /\
    (forall m out inp, has_bytes m inp (a ++ b) -> writable m out (length (a ++ b)) ->
       same_or_disjoint out inp (length (a ++ b)) ->
       hc128_process_packet cs m out inp (N.of_nat (length (a ++ b))) = Ret (cs2, write_at m out (ea ++ eb))).
Proof.
  intros Hs Ha Hl. change (4 * (2^31 - 1))%Z with 8589934588%Z in Hl.
  set (k := length a / 4096).
  assert (La : length a = 4096 * k) by (pose proof (Nat.div_mod (length a) 4096 ltac:(lia)); unfold k; lia).
  assert (Na : n_words (length a) = 1024 * k).
  { pose proof (n_words_bound (length a)). lia. }
  assert (Nab : n_words (length (a ++ b)) = 1024 * k + n_words (length b)).
  { rewrite app_length. pose proof (n_words_bound (length a + length b)).
    pose proof (n_words_bound (length b)). lia. }
  set (r1 := HcSpec.hc_words 0 (1024 * k) (view cs)).
  set (cs1 := HcState (fst (snd r1)) (snd (snd r1))).
  assert (Hs1 : state_ok cs1) by (apply hc_words_state; auto; lia).
  assert (V1 : view cs1 = snd r1) by (unfold cs1, view; cbn [P Q]; destruct (snd r1); reflexivity).
  set (r2 := HcSpec.hc_words 0 (n_words (length b)) (view cs1)).
  set (cs2 := HcState (fst (snd r2)) (snd (snd r2))).
  assert (E12 : HcSpec.hc_words 0 (n_words (length (a ++ b))) (view cs) = (fst r1 ++ fst r2, snd r2)).
  { rewrite Nab, hc_words_app. rewrite Nat.add_0_l.
    rewrite <- (Nat.add_0_r (1024 * k)) at 2 4. rewrite hc_words_period. fold r1. rewrite <- V1. reflexivity. }
  assert (L1 : length (le_bytes (fst r1)) = length a).
  { rewrite le_bytes_length. unfold r1. rewrite hc_words_length. lia. }
  assert (L2 : length b <= length (le_bytes (fst r2))).
  { rewrite le_bytes_length. unfold r2. rewrite hc_words_length. pose proof (n_words_bound (length b)). lia. }
  exists cs1, cs2, (xor_bytes a (le_bytes (fst r1))), (xor_bytes b (le_bytes (fst r2))).
  split; [rewrite xor_bytes_length_min; lia|]. split; [rewrite xor_bytes_length_min; lia|].
  split; [|split]; intros m out inp H1 H2 H3.
  - destruct (process_next cs m out inp a Hs ltac:(lia) H1 H2 H3) as [E _]. rewrite E.
    rewrite Na. reflexivity.
  - destruct (process_next cs1 m out inp b Hs1 ltac:(lia) H1 H2 H3) as [E _]. rewrite E. reflexivity.
  - destruct (process_next cs m out inp (a ++ b) Hs ltac:(rewrite app_length; lia) H1 H2 H3) as [E _]. rewrite E.
    rewrite E12. cbn [fst snd]. rewrite le_bytes_app, xor_bytes_app by auto. reflexivity.
Qed.
