(** Property C142, continued: StreamCiphers/HC-128 on sequences of packets of at
    most twelve bytes. *)
From Coq Require Import NArith ZArith Arith List Lia.
From Verif Require Import Res Words Mem Ints MemSpec MemLemmas SpecWords WordsLemmas XorProofs Finite Concrete
  SyncSpec SyncProofs HcModel HcProofs HcSpec HcSmallSpec HcSmallProps HcLastSpec.
From Verif Require ListLemmas HcDistinctProps.
Import ListNotations.
Local Open Scope nat_scope.

#[local] Opaque HcSpec.hc_init.

Lemma one_step j t q : j < 512 -> length t = 512 ->
  hc_words j 1 (t, q) =
  ([N.lxor (h q (at_ (put t j (step_val HcSpec.g1 t j)) (minus512 j 12))) (step_val HcSpec.g1 t j)],
   (put t j (step_val HcSpec.g1 t j), q)).
Proof.
  intros Hj L. cbn [hc_words hc_step]. rewrite !Nat.mod_small by lia.
  destruct (Nat.ltb_spec j 512) as [_|C]; [|lia].
  rewrite (HcDistinctProps.at_put t j j) by lia. rewrite Nat.eqb_refl. reflexivity.
Qed.
#[local] Opaque HcSpec.hc_words HcSpec.step_val HcSpec.put HcSpec.minus512.

(** A packet of n words changes the first n words of the first table only. *)
Lemma words_keep n : forall t q, table_ok t -> n <= 512 ->
  exists t', snd (hc_words 0 n (t, q)) = (t', q) /\ table_ok t' /\ forall i, n <= i -> at_ t' i = at_ t i.
Proof.
  induction n as [|n IH]; intros t q O H; [exists t; split; [reflexivity|]; split; [exact O|reflexivity]|].
  destruct (IH t q O ltac:(lia)) as (t1 & E & O1 & K).
  replace (S n) with (n + 1) by lia. rewrite hc_words_app, E. cbn [snd]. rewrite Nat.add_0_l.
  rewrite one_step by (lia || exact (proj1 O1)). cbn [snd].
  eexists. split; [reflexivity|]. split.
  - apply HcDistinctProps.put_ok; [exact O1|lia|apply step_val_lt].
  - intros i Hi. rewrite HcDistinctProps.at_put by (rewrite (proj1 O1); lia).
    destruct (Nat.eqb_spec i n) as [->|_]; [lia|]. apply K. lia.
Qed.

Definition rate_at (j : nat) (t : list N) : N := HcSpec.g1 (at_ t (509 + j)) (at_ t (502 + j)) (at_ t (1 + j)).
Lemma step_val_at j t : j <= 2 -> step_val HcSpec.g1 t j = ((at_ t j + rate_at j t) mod 2^32)%N.
Proof. intros H. destruct j as [|[|[|j]]]; [reflexivity..|lia]. Qed.
Lemma back12 j : j <= 2 -> minus512 j 12 = 500 + j.
Proof. intros H. destruct j as [|[|[|j]]]; [reflexivity..|lia]. Qed.

Lemma last_word j t q : j <= 2 -> table_ok t ->
  let w := ((at_ t j + rate_at j t) mod 2^32)%N in
  exists ws t', hc_words 0 (S j) (t, q) = (ws ++ [N.lxor (h q (at_ t (500 + j))) w], (t', q)) /\ length ws = j /\
    table_ok t' /\ at_ t' j = w /\ forall i, j < i -> at_ t' i = at_ t i.
Proof.
  intros Hj O w. destruct (words_keep j t q O ltac:(lia)) as (t1 & E & O1 & K).
  exists (fst (hc_words 0 j (t, q))), (put t1 j w).
  assert (Ew : step_val HcSpec.g1 t1 j = w).
  { rewrite step_val_at by exact Hj. unfold w, rate_at. rewrite !K by lia. reflexivity. }
  assert (L1 : length t1 = 512) by exact (proj1 O1).
  split.
  { replace (S j) with (j + 1) by lia. rewrite hc_words_app, E, Nat.add_0_l. rewrite one_step, Ew by (lia || exact L1).
    cbn [fst snd]. rewrite back12 by exact Hj. rewrite HcDistinctProps.at_put by lia.
    destruct (Nat.eqb_spec (500 + j) j) as [C|_]; [lia|]. rewrite K by lia. reflexivity. }
  split; [apply hc_words_length|]. split.
  { rewrite <- Ew. apply HcDistinctProps.put_ok; [exact O1|lia|apply step_val_lt]. }
  split; [rewrite HcDistinctProps.at_put by lia; rewrite Nat.eqb_refl; reflexivity|].
  intros i Hi. rewrite HcDistinctProps.at_put by lia. destruct (Nat.eqb_spec i j) as [C|_]; [lia|]. apply K. lia.
Qed.

Lemma last_sends j ds : j <= 2 -> Forall (fun d => length d <= 4 * (j + 1)) ds ->
  forall x a d n t q, state_ok (HcState t q) ->
  at_ t j = ((a + N.of_nat n * d) mod 2^32)%N -> rate_at j t = d -> h q (at_ t (500 + j)) = x ->
  exists cs' es, sends hc128_process_packet (HcState t q) ds cs' es /\ last_words_step j x a d n ds es.
Proof.
  intros Hj. induction ds as [|e ds IH]; intros F x a d n t q O E0 Er Ex; [eexists; exists []; split; reflexivity || exact I|].
  pose proof (Forall_inv F) as Fe. cbv beta in Fe. apply Forall_inv_tail in F.
  pose proof O as [Op Oq]. cbn [P Q] in Op, Oq.
  assert (Le : (Z.of_nat (length e) <= 4 * (2^31 - 1))%Z) by lia.
  pose proof (n_words_bound (length e)) as NB.
  cbn [last_words_step sends].
  assert (Enc : forall t' ws, hc_words 0 (n_words (length e)) (t, q) = (ws, (t', q)) ->
    encrypts hc128_process_packet (HcState t q) e (HcState t' q) (xor_bytes e (le_bytes ws))).
  { intros t' ws E. split.
    - rewrite xor_bytes_length_min, le_bytes_length.
      pose proof (hc_words_length (n_words (length e)) 0 (t, q)) as L. rewrite E in L. cbn [fst] in L. lia.
    - intros m out inp H1 H2 H3. destruct (process_next (HcState t q) m out inp e O Le H1 H2 H3) as [X _].
      unfold view in X. cbn [P Q] in X. rewrite E in X. exact X. }
  destruct (Nat.ltb_spec (4 * j) (length e)) as [G|G].
  - assert (NW : n_words (length e) = S j) by lia.
    destruct (last_word j t q Hj Op) as (ws & t' & E & Lw & O' & Ej & K). rewrite <- NW in E.
    specialize (Enc t' _ E).
    destruct (IH F x a d (S n) t' q) as (cs' & es & S & R).
    { split; [exact O'|exact Oq]. }
    { rewrite Ej, E0, Er, N.add_mod_idemp_l by discriminate. f_equal. lia. }
    { unfold rate_at. rewrite !K by lia. exact Er. }
    { rewrite K by lia. exact Ex. }
    exists cs'. eexists (_ :: es). split; [exists (HcState t' q); split; [exact Enc|exact S]|].
    cbn iota beta. split; [|exact R].
    rewrite xor_bytes_skipn. f_equal. rewrite le_bytes_app, skipn_app, le_bytes_length, Lw.
    rewrite skipn_all2 by (rewrite le_bytes_length; lia).
    rewrite Nat.sub_diag, le_bytes_spec. cbn [skipn app flat_map]. rewrite app_nil_r. f_equal.
    unfold stepping_word. rewrite Ex, E0, Er, N.add_mod_idemp_l by discriminate. do 2 f_equal. lia.
  - assert (NW : n_words (length e) <= j) by lia.
    destruct (words_keep (n_words (length e)) t q Op ltac:(lia)) as (t' & E & O' & K).
    assert (E' : hc_words 0 (n_words (length e)) (t, q) = (fst (hc_words 0 (n_words (length e)) (t, q)), (t', q))).
    { rewrite <- E. apply surjective_pairing. }
    specialize (Enc t' _ E').
    destruct (IH F x a d n t' q) as (cs' & es & S & R).
    { split; [exact O'|exact Oq]. }
    { rewrite K by lia. exact E0. }
    { unfold rate_at. rewrite !K by lia. exact Er. }
    { rewrite K by lia. exact Ex. }
    exists cs'. eexists (_ :: es). split; [exists (HcState t' q); split; [exact Enc|exact S]|].
    exact R.
Qed.

(** Packets of at most one, two or three words (j = 0, 1, 2), of any lengths
    within this limit: the last possible word is encrypted with
    x xor (a + n d) when it occurs for the n-th time. *)
Theorem C142_hc128_last_words_exact : forall m key k iv v j ds,
  has_bytes m key k -> length k = 16 -> has_bytes m iv v -> length v = 16 ->
  j <= 2 -> Forall (fun d => length d <= 4 * (j + 1)) ds ->
  let P := fst (hc_init k v) in let Q := snd (hc_init k v) in
  exists cs cs' es, hc128_initialize m key iv = Ret cs /\ sends hc128_process_packet cs ds cs' es /\
    last_words_step j (h Q (at_ P (500 + j))) (at_ P j)
      (HcSpec.g1 (at_ P (509 + j)) (at_ P (502 + j)) (at_ P (1 + j))) 0 ds es.
Proof.
  intros m key k iv v j ds Hk Lk Hv Lv Hj F P Q.
  destruct (initialize_ok m key iv k v Hk Hv Lk Lv) as (cs & E & O & V).
  assert (C : cs = HcState P Q). { unfold P, Q. rewrite <- V. destruct cs; reflexivity. }
  rewrite C in E, O. exists (HcState P Q).
  destruct (last_sends j ds Hj F (h Q (at_ P (500 + j))) (at_ P j) (rate_at j P) 0 P Q O) as (cs' & es & S & R).
  { change (N.of_nat 0) with 0%N. rewrite N.mul_0_l, N.add_0_r. symmetry. apply N.mod_small. apply at_lt. exact (proj2 (proj1 O)). }
  { reflexivity. }
  { reflexivity. }
  exists cs', es. split; [exact E|]. split; [exact S|exact R].
Qed.
Print Assumptions C142_hc128_last_words_exact.

(** The same at any time, whatever was sent before. *)
Theorem C142_hc128_last_words_any_time : forall m key k iv v before cs cs1 es0 j,
  has_bytes m key k -> length k = 16 -> has_bytes m iv v -> length v = 16 ->
  Forall (fun d => bytes_ok d /\ (Z.of_nat (length d) <= 4 * (2^31 - 1))%Z) before ->
  hc128_initialize m key iv = Ret cs -> sends hc128_process_packet cs before cs1 es0 -> j <= 2 ->
  exists x a d, forall ds, Forall (fun e => length e <= 4 * (j + 1)) ds ->
    exists cs' es, sends hc128_process_packet cs1 ds cs' es /\ last_words_step j x a d 0 ds es.
Proof.
  intros m key k iv v before cs cs1 es0 j Hk Lk Hv Lv F E S Hj.
  destruct (initialize_ok m key iv k v Hk Hv Lk Lv) as (c & E' & O & _). rewrite E in E'. apply Ret_inj in E'. subst c.
  pose proof (sends_state_ok before cs cs1 es0 O F S) as O1. destruct cs1 as [p q].
  exists (h q (at_ p (500 + j))), (at_ p j), (rate_at j p). intros ds Fs.
  apply last_sends; [exact Hj|exact Fs|exact O1| |reflexivity|reflexivity].
  change (N.of_nat 0) with 0%N. rewrite N.mul_0_l, N.add_0_r. symmetry. apply N.mod_small. apply at_lt. exact (proj2 (proj1 O1)).
Qed.
Print Assumptions C142_hc128_last_words_any_time.

Lemma last_nth j x a d : forall ds es n i, Forall (fun e => 4 * j < length e) ds -> last_words_step j x a d n ds es ->
  i < length ds ->
  skipn (4 * j) (nth i es []) = xor_bytes (skipn (4 * j) (nth i ds [])) (le_str 4 (stepping_word x a d (n + i))).
Proof.
  induction ds as [|e ds IH]; intros [|c es] n i F R H; cbn [last_words_step] in R; try contradiction; [cbn in H; lia|].
  pose proof (Forall_inv F) as Fe. cbv beta in Fe. apply Forall_inv_tail in F.
  rewrite (proj2 (Nat.ltb_lt _ _) Fe) in R. destruct R as [R0 R].
  destruct i as [|i]; cbn [nth].
  - rewrite Nat.add_0_r. exact R0.
  - rewrite (IH es (S n) i F R) by (cbn [length] in H; lia). do 3 f_equal. lia.
Qed.

(** Packets of the same number of words, at most three: the low b bits of the
    last words of packets i and i + 2^b q are encrypted with the same key stream,
    whatever key and IV. *)
Theorem C142_hc128_last_words_leak : forall m key k iv v j ds cs cs' es,
  has_bytes m key k -> length k = 16 -> has_bytes m iv v -> length v = 16 ->
  j <= 2 -> Forall (fun d => bytes_ok d /\ 4 * j < length d <= 4 * (j + 1)) ds ->
  hc128_initialize m key iv = Ret cs -> sends hc128_process_packet cs ds cs' es ->
  forall b i q, let i' := i + N.to_nat (2^b) * q in i' < length ds ->
    let last l := skipn (4 * j) l in
    (b <= 8 * N.of_nat (length (last (nth i ds []))))%N -> (b <= 8 * N.of_nat (length (last (nth i' ds []))))%N ->
    (N.lxor (le_num (last (nth i es []))) (le_num (last (nth i' es []))) mod 2^b =
     N.lxor (le_num (last (nth i ds []))) (le_num (last (nth i' ds []))) mod 2^b)%N.
Proof.
  intros m key k iv v j ds cs cs' es Hk Lk Hv Lv Hj F E S b i q i' Hi' last Bi Bi'.
  assert (F1 : Forall bytes_ok ds) by (eapply Forall_impl; [|exact F]; intros u [X _]; exact X).
  assert (F2 : Forall (fun d => length d <= 4 * (j + 1)) ds) by (eapply Forall_impl; [|exact F]; intros u [_ [_ X]]; exact X).
  assert (F3 : Forall (fun d => 4 * j < length d) ds) by (eapply Forall_impl; [|exact F]; intros u [_ [X _]]; exact X).
  destruct (C142_hc128_last_words_exact m key k iv v j ds Hk Lk Hv Lv Hj F2) as (c & c' & es' & E' & S' & R).
  rewrite E in E'. apply Ret_inj in E'. rewrite <- E' in S'.
  rewrite (sends_det _ ds cs cs' c' es es' F1 S S').
  assert (Hi : i < length ds) by (unfold i' in Hi'; lia).
  unfold last in *. rewrite (last_nth _ _ _ _ _ _ _ _ F3 R Hi), (last_nth _ _ _ _ _ _ _ _ F3 R Hi').
  rewrite !Nat.add_0_l. rewrite Forall_forall in F.
  destruct (F _ (nth_In ds [] Hi)) as [Oi Li]. destruct (F _ (nth_In ds [] Hi')) as [Oj Lj].
  assert (G : forall e, bytes_ok e -> 4 * j < length e <= 4 * (j + 1) -> bytes_ok (skipn (4 * j) e) /\ small (skipn (4 * j) e)).
  { intros e Oe Le. split; [apply ListLemmas.Forall_skipn; exact Oe|]. unfold small. rewrite skipn_length. lia. }
  destruct (G _ Oi Li) as [A1 A2]. destruct (G _ Oj Lj) as [B1 B2].
  assert (Hb : (b <= 32)%N) by (destruct A2; lia).
  generalize dependent (skipn (4 * j) (nth i ds [])). generalize dependent (skipn (4 * j) (nth i' ds [])).
  intros u Bu Ou Su u' Bu' Ou' Su'. rewrite !mod_lxor, !packet_low by assumption. unfold i'. rewrite word_low by exact Hb. apply lxor_same.
Qed.
Print Assumptions C142_hc128_last_words_leak.

(** Concrete case: four packets of nine to twelve bytes; the lowest bits of their
    ninth bytes are related whatever the key. *)
Example C142_last_words_instance :
  let m := [holding (repeat 1%N 16); holding (repeat 2%N 16)] in
  let ds := [repeat 1%N 9; repeat 2%N 12; repeat 4%N 10; repeat 7%N 11] in
  exists cs cs' es, has_bytes m (Ptr 0 0) (repeat 1%N 16) /\ has_bytes m (Ptr 1 0) (repeat 2%N 16) /\
    Forall (fun d => bytes_ok d /\ 4 * 2 < length d <= 4 * (2 + 1)) ds /\
    hc128_initialize m (Ptr 0 0) (Ptr 1 0) = Ret cs /\ sends hc128_process_packet cs ds cs' es /\
    (N.lxor (le_num (skipn 8 (nth 0 es []))) (le_num (skipn 8 (nth 2 es []))) mod 2 = 1)%N /\
    (N.lxor (le_num (skipn 8 (nth 1 es []))) (le_num (skipn 8 (nth 3 es []))) mod 2 = 1)%N.
Proof.
  intros m ds.
  assert (H0 : has_bytes m (Ptr 0 0) (repeat 1%N 16)) by conc_has_bytes.
  assert (H1 : has_bytes m (Ptr 1 0) (repeat 2%N 16)) by conc_has_bytes.
  assert (F : Forall (fun d => bytes_ok d /\ 4 * 2 < length d <= 4 * (2 + 1)) ds).
  { unfold ds. repeat (apply Forall_cons; [split; [repeat constructor|cbn [length repeat]; lia]|]). constructor. }
  assert (F2 : Forall (fun d => length d <= 4 * (2 + 1)) ds) by (eapply Forall_impl; [|exact F]; intros u [_ [_ X]]; exact X).
  destruct (C142_hc128_last_words_exact m _ _ _ _ 2 ds H0 eq_refl H1 eq_refl (le_n 2) F2) as (cs & cs' & es & E & S & _).
  pose proof (C142_hc128_last_words_leak m _ _ _ _ 2 ds cs cs' es H0 eq_refl H1 eq_refl (le_n 2) F E S) as K.
  exists cs, cs', es. split; [exact H0|]. split; [exact H1|]. split; [exact F|]. split; [exact E|]. split; [exact S|].
  split.
  - exact (K 1%N 0 1 ltac:(apply Nat.ltb_lt; reflexivity) ltac:(apply N.leb_le; reflexivity) ltac:(apply N.leb_le; reflexivity)).
  - exact (K 1%N 1 1 ltac:(apply Nat.ltb_lt; reflexivity) ltac:(apply N.leb_le; reflexivity) ltac:(apply N.leb_le; reflexivity)).
Qed.
