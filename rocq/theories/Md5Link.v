(** MD5Update, MD5Final over messages. *)
From Coq Require Import Arith NArith List Bool Lia.
From Verif Require Import Res Words Mem MemSpec ListLemmas MemLemmas SpecWords WordsLemmas XorProofs ShaProofs AegisLink Md5Model Md5Proofs.
From Verif Require Md5Spec.
Import ListNotations.
Local Open Scope N_scope.

#[local] Opaque transform Md5Spec.compress.

(** ** Copying into the buffer *)
Lemma copy_in_ok rd l : forall b index i, reads rd i l -> (N.to_nat index + length l <= length b)%nat ->
  copy_in b index rd i (N.of_nat (length l)) =
    Ret (firstn (N.to_nat index) b ++ map Some l ++ skipn (N.to_nat index + length l) b).
Proof.
  intros b index i R L. unfold copy_in. rewrite Nat2N.id.
  pose (st k := firstn (N.to_nat index) b ++ map Some (firstn k l) ++ skipn (N.to_nat index + k) b).
  assert (E : for_n (length l) 0 (fun j b => let* x := rd (i + N.of_nat j) in
      let o := (N.to_nat index + j)%nat in if (o <? length b)%nat then Ret (upd o (Some x) b) else UB) (st 0%nat) = Ret (st (length l))).
  { apply for_n_steps. intros j Hj. cbn [Nat.add]. rewrite (R j Hj). cbn [bind].
    assert (Ls : length (st j) = length b).
    { unfold st. rewrite !app_length, map_length, firstn_length, firstn_length, skipn_length. lia. }
    rewrite Ls. replace (N.to_nat index + j <? length b)%nat with true by (symmetry; apply Nat.ltb_lt; lia). f_equal.
    unfold st. rewrite (firstn_S_nth l j 0) by exact Hj. rewrite map_app, <- app_assoc. cbn [map app].
    rewrite app_assoc. rewrite app_assoc.
    assert (X : skipn (N.to_nat index + j) b = nth (N.to_nat index + j) b None :: skipn (N.to_nat index + S j) b).
    { replace (N.to_nat index + S j)%nat with (S (N.to_nat index + j)) by lia. apply skipn_cons_nth. lia. }
    rewrite X.
    assert (Lp : length (firstn (N.to_nat index) b ++ map Some (firstn j l)) = (N.to_nat index + j)%nat).
    { rewrite app_length, map_length, !firstn_length. lia. }
    rewrite <- Lp at 1. generalize (firstn (N.to_nat index) b ++ map Some (firstn j l)). clear. intros p.
    induction p as [|x p IH]; [reflexivity|]. cbn [length app upd]. rewrite IH. reflexivity. }
  unfold st in E at 1. cbn [firstn map app] in E. rewrite Nat.add_0_r, firstn_skipn in E. rewrite E. unfold st.
  rewrite firstn_all. reflexivity.
Qed.

(** ** The context after a message *)
Definition blocks_ok (bs : list (list N)) : Prop := Forall (fun b => length b = 64%nat /\ bytes_ok b) bs.
Lemma concat_blocks_length bs : blocks_ok bs -> length (concat bs) = (64 * length bs)%nat.
Proof.
  induction 1 as [|b bs [H _] _ IH]; [reflexivity|]. cbn [concat length]. rewrite app_length, H, IH. lia.
Qed.
Lemma split_blocks l : bytes_ok l -> exists bs t, l = concat bs ++ t /\ blocks_ok bs /\ (length t < 64)%nat.
Proof.
  remember (length l) as n eqn:E. revert l E. induction n as [n IH] using lt_wf_ind. intros l -> B.
  destruct (Nat.lt_ge_cases (length l) 64) as [H|H].
  - exists [], l. split; [reflexivity|]. split; [constructor|exact H].
  - destruct (IH (length (skipn 64 l)) ltac:(rewrite skipn_length; lia) (skipn 64 l) eq_refl ltac:(apply Forall_skipn; exact B))
      as (bs & t & E & O & Lt).
    exists (firstn 64 l :: bs), t. cbn [concat]. rewrite <- app_assoc, <- E, firstn_skipn. split; [reflexivity|].
    split; [|exact Lt]. constructor; [|exact O]. split; [rewrite firstn_length; lia|apply Forall_firstn; exact B].
Qed.
Lemma chunks_concat bs : blocks_ok bs -> chunks 64 (concat bs) = bs.
Proof.
  induction 1 as [|b bs [H _] _ IH]; [reflexivity|]. cbn [concat]. rewrite chunks_app by (lia || exact H). rewrite IH. reflexivity.
Qed.

Definition nlen (l : list N) : N := N.of_nat (length l).
Definition holds_with (c : ctx) (msg : list N) (bs : list (list N)) (t : list N) : Prop :=
  (msg = concat bs ++ t /\ blocks_ok bs /\ (length t < 64)%nat /\ bytes_ok t) /\
  (state c = list4 (fold_left Md5Spec.compress bs Md5Spec.init) /\ w4 (fold_left Md5Spec.compress bs Md5Spec.init)) /\
  (count0 c = (8 * nlen msg) mod 2^32 /\ count1 c = (8 * nlen msg / 2^32) mod 2^32) /\
  length (buffer c) = 64%nat /\ firstn (length t) (buffer c) = map Some t.
Definition holds (c : ctx) (msg : list N) : Prop := exists bs t, holds_with c msg bs t.

Lemma index_ok c msg bs t : holds_with c msg bs t -> N.land (shr32 (count0 c) 3) 0x3f = N.of_nat (length t).
Proof.
  intros ((-> & O & L & _) & _ & (C0 & _) & _). rewrite C0. unfold shr32. rewrite N.shiftr_div_pow2.
  change 0x3f with (N.ones 6). rewrite N.land_ones. change (2^3) with 8. change (2^6) with 64.
  unfold nlen. rewrite app_length, (concat_blocks_length bs O).
  set (n := length bs). set (k := length t) in *.
  replace (8 * N.of_nat (64 * n + k)) with (8 * (64 * N.of_nat n + N.of_nat k)) by lia.
  change (2^32) with (8 * 536870912). rewrite N.mul_mod_distr_l by discriminate.
  rewrite N.mul_comm, N.div_mul by discriminate. change 536870912 with (64 * 8388608).
  rewrite N.mod_mul_r by discriminate. 
  rewrite (N.mul_comm 64 (_ mod 8388608)), N.mod_add by discriminate. rewrite N.mod_mod by discriminate.
  rewrite N.add_comm, N.mul_comm, N.mod_add by discriminate. apply N.mod_small. lia.
Qed.

Lemma count_ok n k c0 c1 : k < 2^32 -> c0 = (8 * n) mod 2^32 -> c1 = (8 * n / 2^32) mod 2^32 ->
  let c0' := add32 c0 (shl32 k 3) in
  let c1' := if c0' <? shl32 k 3 then add32 c1 1 else c1 in
  c0' = (8 * (n + k)) mod 2^32 /\ add32 c1' (shr32 k 29) = (8 * (n + k) / 2^32) mod 2^32.
Proof.
  intros Hk -> -> c0' c1'. unfold c1', c0'. clear c1' c0'. rewrite !add32_spec. unfold shl32, shr32.
  rewrite u32_mod, N.shiftl_mul_pow2, N.shiftr_div_pow2. change (2^3) with 8. unfold add_w32.
  change (2^29) with 536870912. set (B := 2^32) in *.
  assert (Bv : B = 4294967296) by reflexivity. clearbody B.
  pose proof (N.div_mod (8 * n) B ltac:(lia)) as D1. pose proof (N.mod_lt (8 * n) B ltac:(lia)) as M1.
  set (q := 8 * n / B) in *. set (r := (8 * n) mod B) in *.
  assert (K : (k * 8) mod B = 8 * (k mod 536870912)).
  { rewrite Bv. change 4294967296 with (536870912 * 8). rewrite N.mul_mod_distr_r by discriminate. lia. }
  rewrite K. pose proof (N.div_mod k 536870912 ltac:(discriminate)) as D2. pose proof (N.mod_lt k 536870912 ltac:(discriminate)) as M2.
  set (kq := k / 536870912) in *. set (kr := k mod 536870912) in *. clearbody kq kr q r.
  assert (E : 8 * (n + k) = (r + 8 * kr) + (q + kq) * B) by (rewrite Bv in *; lia).
  assert (B0 : B <> 0) by lia.
  destruct (N.lt_ge_cases (r + 8 * kr) B) as [S|S].
  - rewrite (N.mod_small (r + 8 * kr) B S).
    replace (r + 8 * kr <? 8 * kr) with false by (symmetry; apply N.ltb_ge; lia).
    rewrite E, (N.mod_add _ _ B B0), (N.div_add _ _ B B0), (N.mod_small (r + 8 * kr) B S), (N.div_small (r + 8 * kr) B S).
    split; [reflexivity|]. rewrite (N.add_mod_idemp_l q kq B B0). reflexivity.
  - assert (Z : (r + 8 * kr) mod B = r + 8 * kr - B).
    { symmetry. apply (N.mod_unique _ B 1); lia. }
    rewrite Z. replace (r + 8 * kr - B <? 8 * kr) with true by (symmetry; apply N.ltb_lt; lia).
    assert (E2 : 8 * (n + k) = (r + 8 * kr - B) + (q + kq + 1) * B) by (rewrite Bv in *; lia).
    assert (S2 : r + 8 * kr - B < B) by lia.
    rewrite E2, (N.mod_add _ _ B B0), (N.div_add _ _ B B0), (N.mod_small _ B S2), (N.div_small _ B S2).
    split; [reflexivity|].
    rewrite (N.add_mod_idemp_l q 1 B B0), (N.add_mod_idemp_l (q + 1) kq B B0). f_equal. lia.
Qed.

Lemma reads_app rd i a b : reads rd i (a ++ b) -> reads rd i a /\ reads rd (i + N.of_nat (length a)) b.
Proof.
  intros R. split; intros j Hj.
  - rewrite (R j) by (rewrite app_length; lia). rewrite app_nth1 by exact Hj. reflexivity.
  - specialize (R (length a + j)%nat ltac:(rewrite app_length; lia)). rewrite app_nth2 in R by lia.
    replace (length a + j - length a)%nat with j in R by lia. rewrite <- R. f_equal. lia.
Qed.
Lemma reads_buf b l : map Some l = firstn (length l) b -> reads (buf_rd b) 0 l.
Proof.
  intros E j Hj. unfold buf_rd. rewrite N.add_0_l, Nat2N.id.
  assert (X : nth_error (firstn (length l) b) j = Some (Some (nth j l 0))).
  { rewrite <- E, nth_error_map, (nth_error_nth' l 0 Hj). reflexivity. }
  assert (Y : nth_error b j = nth_error (firstn (length l) b) j).
  { rewrite <- (firstn_skipn (length l) b) at 1. apply nth_error_app1.
    pose proof (f_equal (@length _) E) as L. rewrite map_length in L. lia. }
  rewrite Y, X. reflexivity.
Qed.

Lemma add32_small x y : x + y < 2^32 -> add32 x y = x + y.
Proof. intros H. rewrite add32_spec. apply N.mod_small. exact H. Qed.
Lemma sub32_small x y : y <= x -> x < 2^32 -> sub32 x y = x - y.
Proof.
  intros H1 H2. unfold sub32. rewrite u32_mod. change 0x100000000 with (2^32).
  replace (x + 2^32 - y) with (x - y + 1 * 2^32) by lia. rewrite N.mod_add by discriminate. apply N.mod_small. lia.
Qed.

Lemma loop_ok rd len : forall bs s i t fuel, blocks_ok bs -> w4 s -> reads rd i (concat bs ++ t) -> (length t < 64)%nat ->
  len = i + 64 * N.of_nat (length bs) + N.of_nat (length t) -> i + 64 * N.of_nat (length bs) + 63 < 2^32 ->
  (length bs < fuel)%nat ->
  update_loop rd len fuel (list4 s, i) = Ret (list4 (fold_left Md5Spec.compress bs s), i + 64 * N.of_nat (length bs)) /\
  w4 (fold_left Md5Spec.compress bs s).
Proof.
  unfold update_loop.
  induction bs as [|b bs IH]; intros s i t [|fuel] O W R Lt E Hb F; try (cbn [length] in F; lia).
  - cbn [while]. cbn [length] in *. replace (add32 i 63 <? len) with false.
    + cbn [fold_left]. rewrite N.mul_0_r, N.add_0_r. split; [reflexivity|exact W].
    + symmetry. apply N.ltb_ge. rewrite add32_small by lia. lia.
  - inversion O as [|? ? [Lb Bb] O2]; subst. cbn [while length] in *. rewrite Nat2N.inj_succ in *.
    replace (add32 i 63 <? i + 64 * N.succ (N.of_nat (length bs)) + N.of_nat (length t)) with true.
    2:{ symmetry. apply N.ltb_lt. rewrite add32_small by lia. lia. }
    cbn [concat] in R. rewrite <- app_assoc in R. apply reads_app in R. destruct R as [R1 R2]. rewrite Lb in R2.
    destruct (transform_ok rd i b s R1 Lb Bb W) as [T1 W1]. rewrite T1. cbn [bind]. rewrite add32_small by lia.
    change (N.of_nat 64) with 64 in R2.
    destruct (IH (Md5Spec.compress s b) (i + 64) t fuel O2 W1 R2 Lt) as [E1 E2]; try lia.
    replace (i + 64 + 64 * N.of_nat (length bs) + N.of_nat (length t)) with (i + 64 * N.succ (N.of_nat (length bs)) + N.of_nat (length t)) in E1 by lia.
    rewrite E1. cbn [fold_left]. split; [|exact E2]. do 2 f_equal. lia.
Qed.

Lemma bytes_app a b : bytes_ok (a ++ b) <-> bytes_ok a /\ bytes_ok b.
Proof. apply Forall_app. Qed.

Definition fits (msg : list N) (n : N) : Prop :=
  (length msg mod 64 = 0)%nat \/ N.of_nat (length msg mod 64) + n < 2^32.

Lemma tail_mod bs t : blocks_ok bs -> (length t < 64)%nat -> (length (concat bs ++ t) mod 64 = length t)%nat.
Proof.
  intros O L. rewrite app_length, (concat_blocks_length bs O), Nat.add_comm, Nat.mul_comm, Nat.mod_add by discriminate.
  apply Nat.mod_small. exact L.
Qed.

Theorem update_ok c msg rd data : holds c msg -> reads rd 0 data -> bytes_ok data -> nlen data < 2^32 ->
  fits msg (nlen data) ->
  exists c', md5_update c rd (nlen data) = Ret c' /\ holds c' (msg ++ data).
Proof.
  intros (bs & t & H) R Bd Ld F. pose proof (index_ok _ _ _ _ H) as IX.
  destruct H as ((-> & O & Lt & Bt) & (Es & Ws) & (C0 & C1) & Lb & Eb).
  unfold fits in F. rewrite (tail_mod bs t O Lt) in F.
  unfold md5_update. rewrite IX.
  destruct (count_ok _ _ _ _ Ld C0 C1) as [D0 D1].
  set (c0 := add32 (count0 c) (shl32 (nlen data) 3)) in *.
  set (c1 := add32 (if c0 <? shl32 (nlen data) 3 then add32 (count1 c) 1 else count1 c) (shr32 (nlen data) 29)) in *.
  cbn zeta. fold c1.
  assert (NL : nlen (concat bs ++ t) + nlen data = nlen ((concat bs ++ t) ++ data)) by (unfold nlen; rewrite (app_length _ data); lia).
  rewrite NL in D0, D1. clearbody c0 c1.
  rewrite (sub32_small 64 (N.of_nat (length t))) by lia.
  destruct (64 - N.of_nat (length t) <=? nlen data) eqn:Q.
  - apply N.leb_le in Q. unfold nlen in Q, Ld, F.
    set (k := (64 - length t)%nat). pose (d1 := firstn k data). pose (d2 := skipn k data).
    assert (Ed : data = d1 ++ d2) by (symmetry; apply firstn_skipn).
    assert (L1 : length d1 = k) by (unfold d1; rewrite firstn_length; unfold k; lia).
    clearbody d1 d2. subst data. apply bytes_app in Bd. destruct Bd as [B1 B2].
    apply reads_app in R. destruct R as [R1 R2].
    replace (64 - N.of_nat (length t)) with (N.of_nat (length d1)) by (rewrite L1; unfold k; lia).
    rewrite (copy_in_ok rd d1 (buffer c) _ 0 R1) by (rewrite Nat2N.id, L1, Lb; unfold k; lia).
    rewrite Nat2N.id, Eb. cbn [bind].
    replace (length t + length d1)%nat with (length (buffer c)) by (rewrite L1, Lb; unfold k; lia).
    rewrite skipn_all, app_nil_r, <- map_app.
    assert (Lp : length (t ++ d1) = 64%nat) by (rewrite app_length, L1; unfold k; lia).
    assert (Bp : bytes_ok (t ++ d1)) by (apply bytes_app; split; assumption).
    assert (Rp : reads (buf_rd (map Some (t ++ d1))) 0 (t ++ d1)).
    { apply reads_buf. rewrite <- (map_length (@Some N) (t ++ d1)). symmetry. apply firstn_all. }
    rewrite Es. destruct (transform_ok _ 0 _ _ Rp Lp Bp Ws) as [T1 W1]. rewrite T1. cbn [bind].
    destruct (split_blocks d2 B2) as (bs2 & t2 & E2 & O2 & L2). subst d2. apply bytes_app in B2. destruct B2 as [_ B2].
    rewrite !app_length, (concat_blocks_length bs2 O2) in Q, F, Ld. rewrite N.add_0_l in R2.
    assert (EL : nlen (d1 ++ concat bs2 ++ t2) = N.of_nat (length d1) + 64 * N.of_nat (length bs2) + N.of_nat (length t2)).
    { unfold nlen. rewrite !app_length, (concat_blocks_length bs2 O2). lia. }
    assert (Hb : N.of_nat (length d1) + 64 * N.of_nat (length bs2) + 63 < 2^32).
    { rewrite L1 in *. unfold k in *. change (2^32) with 4294967296 in *. lia. }
    destruct (loop_ok rd (nlen (d1 ++ concat bs2 ++ t2)) bs2 _ (N.of_nat (length d1)) t2
        (S (S (N.to_nat (nlen (d1 ++ concat bs2 ++ t2) / 64)))) O2 W1 R2 L2 EL Hb) as [E1 W2].
    { rewrite EL. assert (X : N.of_nat (length bs2) <= (N.of_nat (length d1) + 64 * N.of_nat (length bs2) + N.of_nat (length t2)) / 64).
      { apply N.div_le_lower_bound; lia. } lia. }
    rewrite E1. cbn [bind]. clear E1.
    apply reads_app in R2. destruct R2 as [_ R3]. rewrite (concat_blocks_length bs2 O2) in R3.
    rewrite sub32_small; rewrite EL; [|lia|lia].
    replace (_ - _) with (N.of_nat (length t2)) by lia.
    replace (N.of_nat (length d1) + N.of_nat (64 * length bs2)) with (N.of_nat (length d1) + 64 * N.of_nat (length bs2)) in R3 by lia.
    rewrite (copy_in_ok rd t2 _ 0 _ R3) by (rewrite map_length, Lp; cbn; lia). cbn [bind]. rewrite N2Nat.inj_0. cbn [firstn app Nat.add].
    eexists. split; [reflexivity|].
    exists (bs ++ (t ++ d1) :: bs2), t2. unfold holds_with. cbn [state count0 count1 buffer].
    rewrite fold_left_app. cbn [fold_left].
    split; [split; [|split; [|split]]|split; [|split; [|split]]].
    + rewrite concat_app. cbn [concat]. rewrite <- !app_assoc. reflexivity.
    + unfold blocks_ok. apply Forall_app. split; [exact O|]. constructor; [split; assumption|exact O2].
    + exact L2.
    + exact B2.
    + split; [reflexivity|exact W2].
    + split; assumption.
    + rewrite app_length, skipn_length, !map_length, Lp. lia.
    + rewrite firstn_app, map_length, Nat.sub_diag, firstn_O, app_nil_r. rewrite <- (map_length (@Some N) t2) at 1. apply firstn_all.
  - apply N.leb_gt in Q. unfold nlen in Q. cbn [bind].
    unfold nlen at 1. rewrite (sub32_small _ 0) by (lia || exact Ld). rewrite N.sub_0_r.
    rewrite (copy_in_ok rd data _ _ 0 R) by (rewrite Nat2N.id, Lb; lia). cbn [bind].
    rewrite Nat2N.id, Eb. eexists. split; [reflexivity|].
    exists bs, (t ++ data). unfold holds_with. cbn [state count0 count1 buffer].
    split; [split; [|split; [|split]]|split; [|split; [|split]]].
    + rewrite <- app_assoc. reflexivity.
    + exact O.
    + rewrite app_length. lia.
    + apply bytes_app. split; assumption.
    + split; assumption.
    + split; assumption.
    + rewrite !app_length, skipn_length, !map_length, Lb. lia.
    + rewrite app_length, app_assoc, <- map_app, firstn_app, map_length, app_length, Nat.sub_diag, firstn_O, app_nil_r.
      rewrite <- app_length, <- (map_length (@Some N) (t ++ data)). apply firstn_all.
Qed.

Lemma init_ok c : length (buffer c) = 64%nat -> holds (md5_init c) [].
Proof.
  intros L. exists [], []. unfold holds_with, md5_init. cbn [state count0 count1 buffer concat app length fold_left firstn map].
  repeat split; try assumption; try constructor; lia.
Qed.

(** ** MD5Final *)
Lemma encode_word w : [u8 (N.land w 0xff); u8 (N.land (shr32 w 8) 0xff); u8 (N.land (shr32 w 16) 0xff); u8 (N.land (shr32 w 24) 0xff)] = le_str 4 w.
Proof.
  assert (X : forall x, u8 (N.land x 0xff) = x mod 256).
  { intros x. rewrite u8_mod. change 0xff with (N.ones 8). rewrite N.land_ones. change (2^8) with 256. apply N.mod_mod. discriminate. }
  rewrite !X. unfold shr32. rewrite !N.shiftr_div_pow2. cbn [le_str]. rewrite !N.div_div by discriminate. reflexivity.
Qed.
Lemma encode_ok l : encode l = flat_map (le_str 4) l.
Proof. unfold encode. induction l as [|w l IH]; [reflexivity|]. cbn [flat_map]. rewrite encode_word, IH. reflexivity. Qed.

Lemma arr_reads l : reads (arr_rd l) 0 l.
Proof.
  intros j Hj. unfold arr_rd. rewrite N.add_0_l, Nat2N.id, (nth_error_nth' l 0 Hj). reflexivity.
Qed.
Lemma reads_firstn rd i n l : reads rd i l -> reads rd i (firstn n l).
Proof. intros R. rewrite <- (firstn_skipn n l) in R. apply reads_app in R. apply R. Qed.

Lemma bits_ok n : encode [(8 * n) mod 2^32; (8 * n / 2^32) mod 2^32] = le_str 8 ((8 * n) mod 2^64).
Proof.
  rewrite encode_ok. cbn [flat_map]. rewrite app_nil_r.
  change (2^64) with (2^32 * 2^32). rewrite (N.mod_mul_r _ (2^32) (2^32)) by discriminate.
  symmetry. apply (le_str_app 4 4). apply N.mod_lt. discriminate.
Qed.

Lemma holds_state c bs : holds c (concat bs) -> blocks_ok bs -> state c = list4 (fold_left Md5Spec.compress bs Md5Spec.init).
Proof.
  intros (bs2 & t & (E & O2 & Lt & Bt) & (-> & _) & _) O. do 2 f_equal.
  assert (t = []).
  { pose proof (f_equal (@length _) E) as L. rewrite app_length, !concat_blocks_length in L by assumption. destruct t; [reflexivity|]. cbn [length] in *. lia. }
  subst t. rewrite app_nil_r in E. rewrite <- (chunks_concat bs O), <- (chunks_concat bs2 O2), E. reflexivity.
Qed.

Lemma output_ok s : encode (list4 s) = Md5Spec.output s.
Proof. rewrite encode_ok. destruct s as [[[a b] c] d]. reflexivity. Qed.

Lemma list4_length s : length (list4 s) = 4%nat.
Proof. destruct s as [[[? ?] ?] ?]. reflexivity. Qed.
Lemma upd_split {A} (x : A) : forall k l, (k < length l)%nat -> upd k x l = firstn k l ++ x :: skipn (S k) l.
Proof.
  induction k as [|k IH]; intros [|a l] H; cbn [length] in H; try lia; [reflexivity|]. cbn [upd firstn app]. rewrite IH by lia. reflexivity.
Qed.
Lemma memset_steps n v : forall k l, (k + n <= length l)%nat ->
  for_n n k (fun i l => if (i <? length l)%nat then Ret (upd i (Some (u8 v)) l) else UB) l
    = Ret (firstn k l ++ repeat (Some (u8 v)) n ++ skipn (k + n) l).
Proof.
  induction n as [|n IH]; intros k l H; cbn [for_n].
  - cbn [repeat app]. rewrite Nat.add_0_r, firstn_skipn. reflexivity.
  - replace (k <? length l)%nat with true by (symmetry; apply Nat.ltb_lt; lia). cbn [bind].
    rewrite IH by (rewrite upd_length; lia). f_equal. rewrite upd_split by lia.
    replace (S k + n)%nat with (k + S n)%nat by lia.
    assert (Lf : length (firstn k l) = k) by (rewrite firstn_length; lia).
    rewrite (firstn_app (S k)), (skipn_app (k + S n)), Lf. rewrite (firstn_all2 (firstn k l)) by lia.
    rewrite (skipn_all2 (firstn k l)) by lia.
    replace (S k - k)%nat with 1%nat by lia. replace (k + S n - k)%nat with (S n) by lia. cbn [firstn skipn repeat app].
    rewrite <- app_assoc. cbn [app]. change (match l with [] => [] | _ :: l0 => skipn k l0 end) with (skipn (S k) l). rewrite skipn_skipn. do 4 f_equal. lia.
Qed.
Lemma wipe_ok c : length (state c) = 4%nat -> length (buffer c) = 64%nat ->
  md5_memset (ctx_bytes c) 0 88 = Ret (repeat (Some 0) 88).
Proof.
  intros Ls Lb. unfold md5_memset. change (N.to_nat 88) with 88%nat.
  assert (L : length (ctx_bytes c) = 88%nat).
  { unfold ctx_bytes. destruct c as [st c0 c1 b]. cbn [state count0 count1 buffer] in *.
    do 4 (destruct st as [|? st]; [discriminate|]). destruct st; [|discriminate]. rewrite app_length, Lb. reflexivity. }
  rewrite memset_steps by (rewrite L; lia). cbn [firstn app]. rewrite skipn_all2 by (rewrite L; lia). rewrite app_nil_r. reflexivity.
Qed.
Lemma wiped : ctx_of_bytes (repeat (Some 0) 88) = Ret (Ctx [0; 0; 0; 0] 0 0 (repeat (Some 0) 64)).
Proof. reflexivity. Qed.

Lemma copy_in_length rd index i len b b' : copy_in b index rd i len = Ret b' -> length b' = length b.
Proof.
  unfold copy_in. revert b. generalize 0%nat. induction (N.to_nat len) as [|n IH]; intros k b E; cbn [for_n] in E.
  - apply Ret_inj in E. subst. reflexivity.
  - destruct (rd _); cbn [bind] in E; try discriminate. destruct (_ <? _)%nat; cbn [bind] in E; try discriminate.
    apply IH in E. rewrite upd_length in E. exact E.
Qed.
#[local] Transparent transform.
Lemma transform_length st rd i st' : transform st rd i = Ret st' -> length st' = 4%nat.
Proof.
  unfold transform. destruct (decode rd i); cbn [bind]; try discriminate. intros E. apply Ret_inj in E. subst. reflexivity.
Qed.
#[local] Opaque transform.
Lemma update_shape c rd len c' : md5_update c rd len = Ret c' -> length (state c) = 4%nat -> length (buffer c) = 64%nat ->
  length (state c') = 4%nat /\ length (buffer c') = 64%nat.
Proof.
  intros E Ls Lb. unfold md5_update in E. cbn zeta in E. revert E.
  match goal with |- bind ?X _ = _ -> _ => assert (S : forall st b i k, X = Ret (st, b, i, k) -> length st = 4%nat /\ length b = 64%nat) end.
  { intros st b i k. destruct (_ <=? len).
    - destruct (copy_in _ _ _ _ _) eqn:C; cbn [bind]; try discriminate. apply copy_in_length in C.
      destruct (transform _ _ _) eqn:T; cbn [bind]; try discriminate. apply transform_length in T.
      destruct (update_loop _ _ _ _) as [[st2 i2]| |] eqn:U; cbn [bind]; try discriminate.
      intros Q. apply Ret_inj in Q. injection Q as -> -> _ _. split; [|lia].
      revert U. unfold update_loop. 
      generalize (S (S (N.to_nat (len / 64)))) (sub32 64 (N.land (shr32 (count0 c) 3) 63)). intros fuel. revert T. generalize a0.
      induction fuel as [|fuel IH]; intros s Hs j; cbn [while]; [discriminate|].
      destruct (_ <? len); [|intros Q; apply Ret_inj in Q; injection Q as -> _; exact Hs].
      destruct (transform s rd j) as [s2| |] eqn:T2; cbn [bind]; try discriminate. apply transform_length in T2. apply IH. exact T2.
    - intros Q. apply Ret_inj in Q. injection Q as <- <- _ _. split; assumption. }
  destruct (if _ <=? len then _ else _) as [[[[st b] i] k]| |]; cbn [bind]; try discriminate.
  destruct (S _ _ _ _ eq_refl) as [S1 S2]. destruct (copy_in b _ _ _ _) eqn:C; cbn [bind]; try discriminate.
  apply copy_in_length in C. intros Q. apply Ret_inj in Q. subst c'. cbn [state buffer]. split; [exact S1|lia].
Qed.

(** Whatever context MD5Final is given, it is clear afterwards. *)
Theorem final_wipes m digest c m' c' : length (state c) = 4%nat -> length (buffer c) = 64%nat ->
  md5_final m digest c = Ret (m', c') -> c' = Ctx [0; 0; 0; 0] 0 0 (repeat (Some 0) 64).
Proof.
  intros Ls Lb. unfold md5_final. cbn zeta.
  destruct (md5_update c _ _) as [c1| |] eqn:E1; cbn [bind]; try discriminate. destruct (update_shape _ _ _ _ E1 Ls Lb) as [Ls1 Lb1].
  destruct (md5_update c1 _ _) as [c2| |] eqn:E2; cbn [bind]; try discriminate. destruct (update_shape _ _ _ _ E2 Ls1 Lb1) as [Ls2 Lb2].
  destruct (stn _ _ _); cbn [bind]; try discriminate. rewrite wipe_ok by assumption. cbn [bind]. rewrite wiped. cbn [bind].
  intros E. apply Ret_inj in E. congruence.
Qed.

Theorem final_ok m digest c msg : holds c msg -> writable m digest 16 ->
  md5_final m digest c = Ret (write_at m digest (Md5Spec.md5 msg), Ctx [0; 0; 0; 0] 0 0 (repeat (Some 0) 64)).
Proof.
  intros Hc W. unfold md5_final.
  destruct Hc as (bs & t & H). pose proof (index_ok _ _ _ _ H) as IX. rewrite IX.
  pose proof H as ((Em & O & Lt & Bt) & _ & (C0 & C1) & _). rewrite C0, C1. cbn zeta.
  assert (Hc : holds c msg) by (exists bs, t; exact H).
  assert (Bm : bytes_ok msg).
  { rewrite Em. apply bytes_app. split; [|exact Bt]. clear - O. induction O as [|b bs [_ B] _ IH]; [constructor|]. cbn [concat].
    apply bytes_app. split; assumption. }
  assert (Mt : (length msg mod 64 = length t)%nat) by (rewrite Em; apply tail_mod; assumption).
  rewrite bits_ok. fold (nlen msg).
  set (zs := repeat 0 ((119 - length t) mod 64)%nat).
  assert (Lz : (length zs = if (length t <? 56)%nat then 55 - length t else 119 - length t)%nat).
  { unfold zs. rewrite repeat_length. destruct (Nat.ltb_spec (length t) 56).
    - symmetry. apply Nat.mod_unique with 1%nat; lia.
    - apply Nat.mod_small. lia. }
  assert (Pad : (if N.of_nat (length t) <? 56 then sub32 56 (N.of_nat (length t)) else sub32 120 (N.of_nat (length t))) = nlen (128 :: zs)).
  { unfold nlen. cbn [length]. rewrite Lz. destruct (Nat.ltb_spec (length t) 56).
    - replace (_ <? 56) with true by (symmetry; apply N.ltb_lt; lia). rewrite sub32_small by lia. lia.
    - replace (_ <? 56) with false by (symmetry; apply N.ltb_ge; lia). rewrite sub32_small by lia. lia. }
  rewrite Pad.
  assert (Lz2 : (length zs <= 63)%nat) by (rewrite Lz; destruct (Nat.ltb_spec (length t) 56); lia).
  assert (R1 : reads (arr_rd PADDING) 0 (128 :: zs)).
  { replace (128 :: zs) with (firstn (S (length zs)) PADDING).
    - apply reads_firstn, arr_reads.
    - unfold PADDING. cbn [firstn]. f_equal. 
      assert (Z : forall a b, (a <= b)%nat -> firstn a (repeat (0 : N) b) = repeat 0 a).
      { induction a as [|a IH]; intros [|b] L; try reflexivity; [lia|]. cbn [repeat firstn]. rewrite IH by lia. reflexivity. }
      rewrite Z by exact Lz2. unfold zs at 2. unfold zs. rewrite repeat_length. reflexivity. }
  assert (B1 : bytes_ok (128 :: zs)).
  { constructor; [reflexivity|]. unfold zs. apply Forall_forall. intros x Hx. apply repeat_spec in Hx. subst x. reflexivity. }
  destruct (update_ok c msg _ _ Hc R1 B1) as (c' & E' & H').
  { unfold nlen. cbn [length]. change (2^32) with 4294967296. lia. }
  { right. rewrite Mt. unfold nlen. cbn [length]. change (2^32) with 4294967296. lia. }
  rewrite E'. cbn [bind].
  set (tl := le_str 8 ((8 * nlen msg) mod 2^64)).
  assert (L8 : nlen tl = 8) by (unfold nlen, tl; rewrite le_str_length; reflexivity).
  destruct (update_ok c' _ (arr_rd tl) tl H' (arr_reads tl) (le_str_ok _ _)) as (c'' & E'' & H'').
  { rewrite L8. reflexivity. }
  { right. rewrite L8. pose proof (Nat.mod_upper_bound (length (msg ++ 128 :: zs)) 64 ltac:(discriminate)). change (2^32) with 4294967296. lia. }
  rewrite L8 in E''. rewrite E''. cbn [bind].
  assert (EP : (msg ++ 128 :: zs) ++ tl = Md5Spec.pad msg).
  { unfold Md5Spec.pad, tl, zs. rewrite Mt, <- app_assoc. reflexivity. }
  rewrite EP in H''.
  assert (BP : bytes_ok (Md5Spec.pad msg)).
  { rewrite <- EP. apply bytes_app. split; [apply bytes_app; split; assumption|apply le_str_ok]. }
  destruct (split_blocks _ BP) as (bp & tp & Ebp & Op & Ltp).
  assert (tp = []).
  { assert (L : (length (Md5Spec.pad msg) mod 64 = 0)%nat).
    { rewrite <- EP, Em. rewrite !app_length. cbn [length]. unfold tl. rewrite le_str_length, Lz, (concat_blocks_length bs O).
      destruct (Nat.ltb_spec (length t) 56).
      - replace (64 * length bs + length t + S (55 - length t) + 8)%nat with ((length bs + 1) * 64)%nat by lia. apply Nat.mod_mul. discriminate.
      - replace (64 * length bs + length t + S (119 - length t) + 8)%nat with ((length bs + 2) * 64)%nat by lia. apply Nat.mod_mul. discriminate. }
    rewrite Ebp, tail_mod in L by assumption. destruct tp; [reflexivity|discriminate]. }
  subst tp. rewrite app_nil_r in Ebp. rewrite Ebp in H''.
  destruct (update_shape _ _ _ _ E') as [S1 S2]; [destruct H as (_ & (-> & _) & _); apply list4_length|destruct H as (_ & _ & _ & L & _); exact L|].
  destruct (update_shape _ _ _ _ E'' S1 S2) as [S3 S4].
  rewrite (holds_state _ _ H'' Op), output_ok.
  rewrite stn_write.
  2:{ replace (length _) with 16%nat; [exact W|]. destruct (fold_left _ _ _) as [[[? ?] ?] ?]. reflexivity. }
  cbn [bind]. rewrite (wipe_ok c'' S3 S4). cbn [bind]. rewrite wiped. cbn [bind]. unfold Md5Spec.md5. rewrite Ebp, (chunks_concat bp Op). reflexivity.
Qed.

Lemma md5_length msg : length (Md5Spec.md5 msg) = 16%nat.
Proof. unfold Md5Spec.md5. destruct (fold_left _ _ _) as [[[? ?] ?] ?]. reflexivity. Qed.

(** ** Inputs near 2^32 bytes after a partial block *)
Lemma cond_always index len i : 0 < index -> index < 64 -> 2^32 <= index + len -> len < 2^32 -> i < 2^32 -> (i + index) mod 64 = 0 ->
  (add32 i 63 <? len) = true.
Proof.
  intros H0 H1 H2 H3 Hi M. apply N.ltb_lt. rewrite add32_spec. unfold add_w32.
  apply N.mod_divides in M; [|discriminate]. destruct M as [q E]. change (2^32) with 4294967296 in *.
  destruct (N.lt_ge_cases (i + 63) 4294967296) as [S|S].
  - rewrite N.mod_small by exact S. lia.
  - replace ((i + 63) mod 4294967296) with (i + 63 - 4294967296); [lia|].
    apply (N.mod_unique _ _ 1); lia.
Qed.

Lemma add64_mod index i : i < 2^32 -> (i + index) mod 64 = 0 -> add32 i 64 < 2^32 /\ (add32 i 64 + index) mod 64 = 0.
Proof.
  intros Hi M. rewrite add32_spec. unfold add_w32. split; [apply N.mod_lt; discriminate|].
  apply N.mod_divides in M; [|discriminate]. destruct M as [q E]. change (2^32) with 4294967296 in *.
  destruct (N.lt_ge_cases (i + 64) 4294967296) as [S|S].
  - rewrite (N.mod_small (i + 64)) by exact S. replace (i + 64 + index) with ((q + 1) * 64) by lia. apply N.mod_mul. discriminate.
  - replace ((i + 64) mod 4294967296) with (i + 64 - 4294967296) by (apply (N.mod_unique _ _ 1); lia).
    replace (i + 64 - 4294967296 + index) with ((q + 1 - 67108864) * 64) by lia. apply N.mod_mul. discriminate.
Qed.

(** The loop never ends, whatever it reads. *)
Lemma loop_never_returns rd index len : 0 < index -> index < 64 -> 2^32 <= index + len -> len < 2^32 ->
  forall fuel st i s', i < 2^32 -> (i + index) mod 64 = 0 -> update_loop rd len fuel (st, i) <> Ret s'.
Proof.
  intros H0 H1 H2 H3. unfold update_loop. induction fuel as [|fuel IH]; intros st i s' Hi M; cbn [while]; [discriminate|].
  rewrite (cond_always index len i) by assumption.
  destruct (transform st rd i) as [st'| |]; cbn [bind]; [|discriminate|discriminate].
  destruct (add64_mod index i Hi M). apply IH; assumption.
Qed.

Theorem update_never_returns c msg rd len c' : holds c msg -> len < 2^32 -> (length msg mod 64 <> 0)%nat ->
  2^32 <= N.of_nat (length msg mod 64) + len -> md5_update c rd len <> Ret c'.
Proof.
  intros (bs & t & H) L M B. pose proof (index_ok _ _ _ _ H) as IX. destruct H as ((-> & O & Lt & Bt) & _).
  rewrite (tail_mod bs t O Lt) in *. unfold md5_update. rewrite IX. cbn zeta.
  rewrite sub32_small by lia.
  replace (64 - N.of_nat (length t) <=? len) with true by (symmetry; apply N.leb_le; change (2^32) with 4294967296 in *; lia).
  destruct (copy_in _ _ _ _ _) as [b| |]; cbn [bind]; try discriminate.
  destruct (transform _ _ _) as [st| |]; cbn [bind]; try discriminate.
  destruct (update_loop _ _ _ _) as [s'| |] eqn:E; cbn [bind]; try discriminate. exfalso. revert E.
  apply loop_never_returns with (N.of_nat (length t)); try assumption; try lia.
Qed.

(** With an input buffer of exactly len bytes it reads past the end. *)
Lemma for_ub {A} (body : nat -> A -> res A) k0 : (forall k a, body k a <> NoFuel) -> (forall a, body k0 a = UB) ->
  forall n k a, (k <= k0 < k + n)%nat -> for_n n k body a = UB.
Proof.
  intros C U. induction n as [|n IH]; intros k a H; [lia|]. cbn [for_n].
  destruct (Nat.eq_dec k k0) as [->|Hn]; [rewrite U; reflexivity|].
  destruct (body k a) as [a'| |] eqn:E; cbn [bind]; [|reflexivity|destruct (C k a E)]. apply IH. lia.
Qed.

Lemma decode_ub rd i j : (forall x, rd x <> NoFuel) -> rd j = UB -> i <= j -> j < i + 64 -> decode rd i = UB.
Proof.
  intros C U H1 H2. unfold decode. apply for_ub with (N.to_nat ((j - i) / 4)).
  - intros k a. cbn zeta. 
    repeat match goal with |- context [rd ?x] => let E := fresh in destruct (rd x) eqn:E; cbn [bind]; [|discriminate|destruct (C _ E)] end. discriminate.
  - intros a. cbn zeta. rewrite N2Nat.id. pose proof (N.div_mod (j - i) 4 ltac:(discriminate)) as D.
    pose proof (N.mod_lt (j - i) 4 ltac:(discriminate)) as M. set (q := (j - i) / 4) in *.
    set (r := (j - i) mod 4) in *. clearbody q r.
    assert (X : r = 0 \/ r = 1 \/ r = 2 \/ r = 3) by lia.
    destruct X as [-> | [-> | [-> | ->]]].
    + replace (i + 4 * q) with j by lia. rewrite U. reflexivity.
    + replace (i + 4 * q + 1) with j by lia. rewrite U. 
      destruct (rd (i + 4 * q)) eqn:E; cbn [bind]; [reflexivity|reflexivity|destruct (C _ E)].
    + replace (i + 4 * q + 2) with j by lia. rewrite U. 
      destruct (rd (i + 4 * q)) eqn:E; cbn [bind]; [|reflexivity|destruct (C _ E)].
      destruct (rd (i + 4 * q + 1)) eqn:E1; cbn [bind]; [reflexivity|reflexivity|destruct (C _ E1)].
    + replace (i + 4 * q + 3) with j by lia. rewrite U. 
      destruct (rd (i + 4 * q)) eqn:E; cbn [bind]; [|reflexivity|destruct (C _ E)].
      destruct (rd (i + 4 * q + 1)) eqn:E1; cbn [bind]; [|reflexivity|destruct (C _ E1)].
      destruct (rd (i + 4 * q + 2)) eqn:E2; cbn [bind]; [reflexivity|reflexivity|destruct (C _ E2)].
  - assert ((j - i) / 4 < 16) by (apply N.div_lt_upper_bound; lia). lia.
Qed.
#[local] Transparent transform.
Lemma transform_ub st rd i j : (forall x, rd x <> NoFuel) -> rd j = UB -> i <= j -> j < i + 64 -> transform st rd i = UB.
Proof. intros. unfold transform. rewrite (decode_ub rd i j) by assumption. reflexivity. Qed.
Lemma transform_calm st rd i : (forall x, rd x <> NoFuel) -> transform st rd i <> NoFuel.
Proof.
  intros C. unfold transform. 
  assert (D : forall n k a, for_n n k (fun k x =>
    let j := i + 4 * N.of_nat k in
    let* b0 := rd j in let* b1 := rd (j + 1) in let* b2 := rd (j + 2) in let* b3 := rd (j + 3) in
    Ret (x ++ [N.lor (N.lor (N.lor b0 (shl32 b1 8)) (shl32 b2 16)) (shl32 b3 24)])) a <> NoFuel).
  { induction n as [|n IH]; intros k a; cbn [for_n]; [discriminate|]. cbn zeta.
    repeat match goal with |- context [rd ?x] => let E := fresh in destruct (rd x) eqn:E; cbn [bind]; [|discriminate|destruct (C _ E)] end.
    apply IH. }
  unfold decode. destruct (for_n _ _ _ _) eqn:E; cbn [bind]; [discriminate|discriminate|]. destruct (D _ _ _ E).
Qed.
#[local] Opaque transform.

Theorem update_runs_off c msg rd len : holds c msg -> len < 2^32 -> (length msg mod 64 <> 0)%nat ->
  2^32 <= N.of_nat (length msg mod 64) + len -> (forall x, rd x <> NoFuel) -> (forall x, len <= x -> rd x = UB) ->
  md5_update c rd len = UB.
Proof.
  intros (bs & t & H) L M B C U. pose proof (index_ok _ _ _ _ H) as IX. destruct H as ((-> & O & Lt & Bt) & _).
  rewrite (tail_mod bs t O Lt) in *. unfold md5_update. rewrite IX. cbn zeta.
  rewrite sub32_small by lia. change (2^32) with 4294967296 in *. set (index := length t) in *.
  replace (64 - N.of_nat index <=? len) with true by (symmetry; apply N.leb_le; lia).
  assert (X : copy_in (buffer c) (N.of_nat index) rd 0 (64 - N.of_nat index) <> NoFuel).
  { unfold copy_in. generalize (buffer c) 0%nat. induction (N.to_nat (64 - N.of_nat index)) as [|n IH]; intros b k; cbn [for_n]; [discriminate|].
    destruct (rd _) eqn:E; cbn [bind]; [|discriminate|destruct (C _ E)]. destruct (_ <? _)%nat; [apply IH|discriminate]. }
  destruct (copy_in _ _ _ _ _) as [b| |]; cbn [bind]; [|reflexivity|destruct (X eq_refl)]. clear X.
  assert (X : transform (state c) (buf_rd b) 0 <> NoFuel).
  { apply transform_calm. intros x. unfold buf_rd. destruct (nth_error _ _) as [[|]|]; discriminate. }
  destruct (transform _ _ _) as [st| |]; cbn [bind]; [|reflexivity|destruct (X eq_refl)]. clear X.
  unfold update_loop. rewrite (while_ub _ _ (fun k s => snd s + 64 * N.of_nat k = 4294967296 - N.of_nat index)) with (k := N.to_nat (67108863)).
  - reflexivity.
  - intros k [st' i] Hk. cbn [snd] in Hk. split.
    + apply cond_always with (N.of_nat index); change (2^32) with 4294967296; try lia.
    + pose proof (transform_calm st' rd i C) as X. destruct (transform st' rd i) as [st2| |]; cbn [bind]; [|left; reflexivity|destruct (X eq_refl)].
      right. eexists. split; [reflexivity|]. cbn [snd]. rewrite add32_small by (change (2^32) with 4294967296; lia). lia.
  - intros [st' i] Hk. cbn [snd] in Hk. split.
    + apply cond_always with (N.of_nat index); change (2^32) with 4294967296; try lia.
    + rewrite (transform_ub st' rd i len) by (assumption || (apply U; lia) || lia). reflexivity.
  - cbn [snd]. lia.
  - assert (Q : len / 64 = 67108863) by (symmetry; apply (N.div_unique len 64 67108863 (len - 64 * 67108863)); lia).
    rewrite Q. lia.
Qed.
