(** Property C143: which table entries StreamCiphers/HC-128 reads. *)
From Coq Require Import NArith ZArith Arith List Lia.
From Verif Require Import Res Words Mem Ints MemSpec MemLemmas SpecWords WordsLemmas XorProofs Finite Concrete
  SyncSpec SyncProofs HcModel HcProofs HcSpec HcSmallSpec HcSmallProps HcLookupSpec HcLookupModel.
From Verif Require HcDistinctProps.
Import ListNotations.
Local Open Scope nat_scope.

#[local] Opaque HcSpec.hc_init.

(** ** The listing functions do what the functions of HcModel do *)
Lemma h_seen_ok t x : h_seen t x = h_entries t x.
Proof.
  unfold h_seen, h_entries. rewrite !u8_mod. unfold shr32. rewrite N.shiftr_div_pow2. reflexivity.
Qed.

Lemma step_seen_eq i cs : state_ok cs ->
  generate_step_seen i cs = (generate_step i cs, step_entries i (view cs)).
Proof.
  intros O. destruct (generate_step_spec i cs O) as (w & cs' & E & S & _).
  unfold step_entries, h_argument. rewrite S. cbn [snd]. unfold view. cbn [fst snd].
  unfold generate_step in E |- *. unfold generate_step_seen. rewrite mask10, mask9 in E |- *.
  assert (Hj : i mod 512 < 512) by (apply Nat.mod_upper_bound; lia).
  destruct (i mod 1024 <? 512).
  - rewrite h_seen_ok. f_equal. f_equal. pose proof (f_equal snd E) as E2. cbn [snd] in E2. rewrite <- E2. cbn [P Q].
    rewrite (masked_spec (i mod 512) 12 12 eq_refl) by lia. apply tab_at.
  - rewrite h_seen_ok. f_equal. f_equal. pose proof (f_equal snd E) as E2. cbn [snd] in E2. rewrite <- E2. cbn [P Q].
    rewrite (masked_spec (i mod 512) 12 12 eq_refl) by lia. apply tab_at.
Qed.
#[local] Opaque generate_step generate_step_seen step_entries.

Definition gen_body_seen (i : nat) (x : list N * hc128_state * list entry) : res (list N * hc128_state * list entry) :=
  let '(ks, cs, tr) := x in
  let '(w, cs, seen) := generate_step_seen i cs in
  let* _ := int_ret (Z.of_nat i + 1) in
  Ret (ks ++ [w], cs, tr ++ seen).

Lemma gen_loop_seen n : forall i acc cs tr, state_ok cs ->
  for_n n i gen_body_seen (acc, cs, tr) =
  (let* (ks, cs') := for_n n i gen_body (acc, cs) in Ret (ks, cs', tr ++ steps_entries i n (view cs))).
Proof.
  induction n as [|n IH]; intros i acc cs tr O.
  - cbn [for_n bind steps_entries]. rewrite app_nil_r. reflexivity.
  - rewrite !for_n_S. unfold gen_body_seen at 1, gen_body at 1. rewrite step_seen_eq by exact O.
    destruct (generate_step_spec i cs O) as (w & cs1 & E & S & O1 & _). rewrite E.
    destruct (int_ret (Z.of_nat i + 1)) as [z| |]; cbn [bind]; [|reflexivity..].
    rewrite IH by exact O1. cbn [steps_entries]. rewrite S. cbn [snd]. rewrite app_assoc. reflexivity.
Qed.
#[local] Opaque steps_entries.

(** Whatever the buffers (also when it fails). *)
Lemma process_seen_eq cs m out inp n : state_ok cs -> (Z.of_nat n < 2^64)%Z ->
  process_packet_seen cs m out inp (N.of_nat n) =
  (let* (cs', m') := hc128_process_packet cs m out inp (N.of_nat n) in
   Ret (cs', m', steps_entries 0 (n_words n) (view cs))).
Proof.
  intros O Hn. change (2^64)%Z with 0x10000000000000000%Z in Hn. unfold process_packet_seen, hc128_process_packet.
  destruct (N.ltb_spec (N.of_nat n) 1) as [H0|H0].
  { replace n with 0 by lia. reflexivity. }
  unfold generate_keystream_seen. rewrite generate_unfold.
  replace (S (N.to_nat (sub64 (N.of_nat n) 1 / 4))) with (n_words n).
  2:{ unfold sub64. rewrite u64_mod. replace (N.of_nat n + 0x10000000000000000 - 1)%N
        with (N.of_nat (n - 1) + 1 * 2^64)%N by (change (2^64)%N with 0x10000000000000000%N; lia).
      rewrite N.mod_add by discriminate. rewrite N.mod_small.
      2:{ change (2^64)%N with 0x10000000000000000%N. lia. }
      unfold n_words. destruct n as [|k]; [lia|]. replace (S k - 1) with k by lia.
      f_equal. rewrite N2Nat.inj_div, Nat2N.id. reflexivity. }
  change (for_n (n_words n) 0 _ ([], cs, [])) with (for_n (n_words n) 0 gen_body_seen ([], cs, [])).
  rewrite gen_loop_seen by exact O. cbn [app].
  destruct (for_n (n_words n) 0 gen_body ([], cs)) as [[ks cs1]| |]; cbn [bind]; [|reflexivity..].
  match goal with |- bind ?w _ = _ => destruct w as [[[[[m2 o2] i2] c2] z2]| |]; cbn [bind]; [|reflexivity..] end.
  match goal with |- bind ?w _ = _ => destruct w as [m3| |]; cbn [bind]; reflexivity end.
Qed.

(** After set-up and any packets: the entries of the specification, from step 0
    on, for the tables left by these packets. *)
Fixpoint tables_after (s : tables) (ds : list (list N)) : tables :=
  match ds with [] => s | d :: ds => tables_after (snd (hc_words 0 ((length d + 3) / 4) s)) ds end.
Definition sendable (d : list N) : Prop := bytes_ok d /\ (Z.of_nat (length d) <= 4 * (2^31 - 1))%Z.

Lemma words_div n : n_words n = (n + 3) / 4.
Proof.
  pose proof (n_words_bound n). pose proof (Nat.div_mod (n + 3) 4 ltac:(lia)).
  pose proof (Nat.mod_upper_bound (n + 3) 4 ltac:(lia)). lia.
Qed.
#[local] Opaque HcSpec.hc_words.
Lemma sends_view : forall ds cs cs' es, state_ok cs -> Forall sendable ds ->
  sends hc128_process_packet cs ds cs' es -> state_ok cs' /\ view cs' = tables_after (view cs) ds.
Proof.
  induction ds as [|d ds IH]; intros cs cs' [|e es] O F S; cbn [sends] in S; try contradiction; [subst cs'; split; [exact O|reflexivity]|].
  pose proof (Forall_inv F) as [Bd Ld]. apply Forall_inv_tail in F. destruct S as (t & [_ E] & S).
  assert (Hm : has_bytes [map Some d] (Ptr 0 0) d) by (apply (has_bytes_last []); exact Bd).
  pose proof (has_bytes_writable _ _ _ Hm) as Wm.
  specialize (E _ _ _ Hm Wm (or_introl eq_refl)).
  destruct (process_ok cs _ _ _ d O Ld Hm Wm (or_introl eq_refl)) as (c & X & Oc & Vc).
  rewrite E in X. apply Ret_pair in X as [X _]. rewrite <- X in Oc, Vc.
  cbn [tables_after]. rewrite <- words_div, <- Vc. exact (IH t cs' es Oc F S).
Qed.

Theorem C143_hc128_packet_lookups : forall m key k iv v before cs cs1 es m' out inp data,
  has_bytes m key k -> length k = 16 -> has_bytes m iv v -> length v = 16 ->
  Forall (fun d => bytes_ok d /\ (Z.of_nat (length d) <= 4 * (2^31 - 1))%Z) before ->
  hc128_initialize m key iv = Ret cs -> sends hc128_process_packet cs before cs1 es ->
  has_bytes m' inp data -> writable m' out (length data) -> same_or_disjoint out inp (length data) ->
  (Z.of_nat (length data) <= 4 * (2^31 - 1))%Z ->
  exists cs2 m2, hc128_process_packet cs1 m' out inp (N.of_nat (length data)) = Ret (cs2, m2) /\
    process_packet_seen cs1 m' out inp (N.of_nat (length data)) = Ret (cs2, m2,
      steps_entries 0 ((length data + 3) / 4) (tables_after (hc_init k v) before)).
Proof.
  intros m key k iv v before cs cs1 es m' out inp data Hk Lk Hv Lv F E S H1 H2 H3 L.
  destruct (initialize_ok m key iv k v Hk Hv Lk Lv) as (c & E' & O & V). rewrite E in E'. apply Ret_inj in E'. subst c.
  destruct (sends_view before cs cs1 es O F S) as [O1 V1].
  destruct (process_ok cs1 m' out inp data O1 L H1 H2 H3) as (cs2 & X & _).
  exists cs2. eexists. split; [exact X|].
  rewrite process_seen_eq, X by (exact O1 || lia). cbn [bind]. rewrite V1, V, words_div. reflexivity.
Qed.
Print Assumptions C143_hc128_packet_lookups.

(** ** What the entries show *)
#[local] Transparent steps_entries.
Lemma h_entries_inj t t' x x' : h_entries t x = h_entries t' x' ->
  (x mod 256 = x' mod 256 /\ (x / 2^16) mod 256 = (x' / 2^16) mod 256)%N.
Proof.
  intros E. unfold h_entries in E.
  pose proof (f_equal (fun l => snd (nth 0 l (TableP, 0%N))) E) as E0. pose proof (f_equal (fun l => snd (nth 1 l (TableP, 0%N))) E) as E1.
  cbn [nth snd] in E0, E1. split; [exact E0|]. lia.
Qed.
#[local] Transparent step_entries HcSpec.hc_words.
Lemma one_word i u : snd (hc_words i 1 u) = snd (hc_step i u).
Proof. cbn [hc_words]. destruct (hc_step i u). reflexivity. Qed.
Lemma entries_inj n : forall i s s', steps_entries i n s = steps_entries i n s' ->
  forall j, j < n ->
    let x := h_argument (i + j) (snd (hc_words i j s)) in let x' := h_argument (i + j) (snd (hc_words i j s')) in
    (x mod 256 = x' mod 256 /\ (x / 2^16) mod 256 = (x' / 2^16) mod 256)%N.
Proof.
  induction n as [|n IH]; intros i s s' E j Hj; [lia|].
  cbn [steps_entries] in E.
  assert (L : forall u, length (step_entries i u) = 2) by reflexivity.
  pose proof (f_equal (firstn 2) E) as E1. pose proof (f_equal (skipn 2) E) as E2.
  assert (G1 : forall u (l : list entry), firstn 2 (step_entries i u ++ l) = step_entries i u) by reflexivity.
  assert (G2 : forall u (l : list entry), skipn 2 (step_entries i u ++ l) = l) by reflexivity.
  rewrite !G1 in E1. rewrite !G2 in E2.
  destruct j as [|j].
  - rewrite Nat.add_0_r. cbn [hc_words snd]. exact (h_entries_inj _ _ _ _ E1).
  - cbn [hc_words]. specialize (IH (S i) _ _ E2 j ltac:(lia)).
    destruct (hc_step i s) as [w t]. destruct (hc_step i s') as [w' t']. cbn [snd] in IH.
    replace (i + S j) with (S i + j) by lia.
    destruct (hc_words (S i) j t) as [ws u]. destruct (hc_words (S i) j t') as [ws' u']. cbn [snd] in *. exact IH.
Qed.
#[local] Opaque step_entries HcSpec.hc_words steps_entries.

(** A session: set-up and packets of any lengths, the state being [cs1] now. *)
Definition session (k v : list N) (before : list (list N)) (cs1 : hc128_state) : Prop :=
  length k = 16 /\ length v = 16 /\ Forall (fun d => bytes_ok d /\ (Z.of_nat (length d) <= 4 * (2^31 - 1))%Z) before /\
  exists m key iv cs es, has_bytes m key k /\ has_bytes m iv v /\ hc128_initialize m key iv = Ret cs /\
    sends hc128_process_packet cs before cs1 es.

Lemma session_view k v before cs1 : session k v before cs1 -> state_ok cs1 /\ view cs1 = tables_after (hc_init k v) before.
Proof.
  intros (Lk & Lv & F & m & key & iv & cs & es & Hk & Hv & E & S).
  destruct (initialize_ok m key iv k v Hk Hv Lk Lv) as (c & E' & O & V). rewrite E in E'. apply Ret_inj in E'. subst c.
  rewrite <- V. exact (sends_view before cs cs1 es O F S).
Qed.
Lemma session_seen k v before cs1 m out inp n r : session k v before cs1 -> (Z.of_nat n < 2^64)%Z ->
  process_packet_seen cs1 m out inp (N.of_nat n) = Ret r ->
  snd r = steps_entries 0 (n_words n) (tables_after (hc_init k v) before).
Proof.
  intros X Hn E. destruct (session_view _ _ _ _ X) as [O V]. rewrite process_seen_eq in E by assumption. rewrite V in E.
  destruct (hc128_process_packet cs1 m out inp (N.of_nat n)) as [[c m']| |]; cbn [bind] in E; [|discriminate E..].
  apply Ret_inj in E. rewrite <- E. reflexivity.
Qed.

(** Two sessions in which a packet of n bytes reads the same entries agree, in
    every step, in the lowest and the third byte of the table word twelve places
    back: half of the bits of the table, for a packet of 2048 bytes. *)
Theorem C143_hc128_lookups_determine_half : forall k v before cs k' v' before' cs' m out inp m' out' inp' n r r',
  session k v before cs -> session k' v' before' cs' -> (Z.of_nat n < 2^64)%Z ->
  process_packet_seen cs m out inp (N.of_nat n) = Ret r -> process_packet_seen cs' m' out' inp' (N.of_nat n) = Ret r' ->
  snd r = snd r' ->
  forall i, 4 * i < n ->
    let word s := let t := snd (hc_words 0 (S i) s) in
      at_ (if i mod 1024 <? 512 then fst t else snd t) (minus512 (i mod 512) 12) in
    let x := word (tables_after (hc_init k v) before) in let x' := word (tables_after (hc_init k' v') before') in
    (x mod 256 = x' mod 256 /\ (x / 2^16) mod 256 = (x' / 2^16) mod 256)%N.
Proof.
  intros k v before cs k' v' before' cs' m out inp m' out' inp' n r r' X X' Hn R R' E i Hi word x x'.
  rewrite (session_seen _ _ _ _ _ _ _ _ _ X Hn R), (session_seen _ _ _ _ _ _ _ _ _ X' Hn R') in E.
  pose proof (n_words_bound n) as NB.
  pose proof (entries_inj _ 0 _ _ E i ltac:(lia)) as G. cbv zeta in G. rewrite Nat.add_0_l in G.
  assert (W : forall s, h_argument i (snd (hc_words 0 i s)) = word s).
  { intros s. unfold word, h_argument. replace (S i) with (i + 1) by lia. rewrite hc_words_app. cbn [snd]. rewrite Nat.add_0_l.
    rewrite one_word. reflexivity. }
  rewrite !W in G. exact G.
Qed.
Print Assumptions C143_hc128_lookups_determine_half.

(** ** Small packets always read the same two entries *)
Lemma small_after : forall ds t q, table_ok t -> Forall small ds ->
  exists t', tables_after (t, q) ds = (t', q) /\ table_ok t' /\ at_ t' 500 = at_ t 500.
Proof.
  induction ds as [|d ds IH]; intros t q O F; [exists t; auto|].
  pose proof (Forall_inv F) as Fd. apply Forall_inv_tail in F. cbn [tables_after].
  rewrite <- words_div, small_words by exact Fd. rewrite small_step by exact O. cbn [snd].
  destruct (IH (put t 0 (step_val HcSpec.g1 t 0)) q) as (t' & E & O' & K).
  { apply HcDistinctProps.put_ok; [exact O|lia|apply step_val_lt]. }
  { exact F. }
  exists t'. split; [exact E|]. split; [exact O'|]. rewrite K. apply put_keeps; [exact (proj1 O)|discriminate].
Qed.
#[local] Transparent step_entries steps_entries.
Lemma first_entries t q : table_ok t -> steps_entries 0 1 (t, q) = h_entries TableQ (at_ t 500).
Proof.
  intros O. cbn [steps_entries]. rewrite app_nil_r. unfold step_entries, h_argument.
  rewrite <- one_word, small_step by exact O. change (0 mod 1024 <? 512) with true. cbv iota. cbn [fst snd].
  change (minus512 (0 mod 512) 12) with 500. rewrite put_keeps by (exact (proj1 O) || discriminate). reflexivity.
Qed.
#[local] Opaque step_entries steps_entries.

Theorem C143_hc128_small_packets_same_lookups : forall k v before cs m out inp n r,
  session k v before cs -> Forall (fun d => 1 <= length d <= 4) before -> 1 <= n <= 4 ->
  process_packet_seen cs m out inp (N.of_nat n) = Ret r ->
  snd r = h_entries TableQ (at_ (fst (hc_init k v)) 500).
Proof.
  intros k v before cs m out inp n r X F Hn R.
  rewrite (session_seen _ _ _ _ _ _ _ _ _ X) with (2 := R) by lia.
  assert (NW : n_words n = 1) by (destruct n as [|[|[|[|[|n]]]]]; try lia; reflexivity). rewrite NW.
  destruct X as (Lk & Lv & _ & m0 & key & iv & cs0 & es & Hk & Hv & _).
  destruct (initialize_ok m0 key iv k v Hk Hv Lk Lv) as (c & _ & O & V). rewrite <- V. unfold view. cbn [fst].
  destruct (small_after before (P c) (Q c) (proj1 O) F) as (t' & E & O' & K). rewrite E, first_entries by exact O'. rewrite K. reflexivity.
Qed.
Print Assumptions C143_hc128_small_packets_same_lookups.

(** The initial expansion with the newest word first, which is quicker to compute. *)
Definition next_rev (i : N) (R : list N) : N :=
  add_w32 (add_w32 (add_w32 (add_w32 (HcSpec.f2 (nth 1 R 0%N)) (nth 6 R 0%N)) (HcSpec.f1 (nth 14 R 0%N))) (nth 15 R 0%N)) i.
Fixpoint expand_rev (n : nat) (i : N) (R : list N) : list N :=
  match n with O => R | S n => expand_rev n (N.succ i) (next_rev i R :: R) end.
Lemma at_rev W k : k < length W -> at_ W (length W - S k) = nth k (rev W) 0%N.
Proof. intros H. symmetry. apply rev_nth. exact H. Qed.
Lemma expand_rev_ok n : forall W, 16 <= length W -> rev (w_expand n W) = expand_rev n (N.of_nat (length W)) (rev W).
Proof.
  induction n as [|n IH]; intros W H; [reflexivity|]. cbn [w_expand expand_rev].
  rewrite IH by (rewrite app_length; lia). rewrite rev_app_distr, app_length. cbn [rev app length].
  replace (N.of_nat (length W + 1)) with (N.succ (N.of_nat (length W))) by lia. do 2 f_equal.
  unfold w_next, next_rev. cbv zeta. rewrite !at_rev by lia. reflexivity.
Qed.
#[local] Transparent HcSpec.hc_init.
Definition fast_P (k v : list N) : list N :=
  let W := rev (expand_rev (1280 - 16) 16 (rev (w_init k v))) in
  warm_up HcSpec.g1 (firstn 512 (skipn 768 W)) 512 0 (firstn 512 (skipn 256 W)).
Lemma fast_P_ok k v : length (w_init k v) = 16 -> fst (hc_init k v) = fast_P k v.
Proof.
  intros L. unfold hc_init, fast_P. cbv zeta. cbn [fst]. change 16%N with (N.of_nat 16). rewrite <- L.
  rewrite <- expand_rev_ok by (rewrite L; apply le_n). rewrite rev_involutive. reflexivity.
Qed.
#[local] Opaque HcSpec.hc_init.

(** C143 is false: two keys, the first four bytes of a session. *)
Lemma two_keys : ((at_ (fast_P (repeat 1 16) (repeat 3 16)) 500 mod 256 =?
                   at_ (fast_P (repeat 2 16) (repeat 3 16)) 500 mod 256) = false)%N.
Proof. vm_compute. reflexivity. Qed.

Theorem C143_hc128_lookups_independent_of_key_refuted : exists k k' v cs cs' m out inp data r r',
  session k v [] cs /\ session k' v [] cs' /\ has_bytes m inp data /\ writable m out (length data) /\ length data = 4 /\
  process_packet_seen cs m out inp 4 = Ret r /\ process_packet_seen cs' m out inp 4 = Ret r' /\ snd r <> snd r'.
Proof.
  set (k := repeat 1%N 16). set (k' := repeat 2%N 16). set (v := repeat 3%N 16). set (d := repeat 4%N 4).
  set (m := [holding k; holding k'; holding v; holding d]).
  assert (H1 : has_bytes m (Ptr 0 0) k) by conc_has_bytes. assert (H2 : has_bytes m (Ptr 1 0) k') by conc_has_bytes.
  assert (Hv : has_bytes m (Ptr 2 0) v) by conc_has_bytes. assert (Hd : has_bytes m (Ptr 3 0) d) by conc_has_bytes.
  assert (Wd : writable m (Ptr 3 0) (length d)) by conc_writable.
  destruct (initialize_ok m (Ptr 0 0) (Ptr 2 0) k v H1 Hv eq_refl eq_refl) as (cs & E & O & _).
  destruct (initialize_ok m (Ptr 1 0) (Ptr 2 0) k' v H2 Hv eq_refl eq_refl) as (cs' & E' & O' & _).
  assert (X : session k v [] cs).
  { split; [reflexivity|]. split; [reflexivity|]. split; [constructor|]. exists m, (Ptr 0 0), (Ptr 2 0), cs, []. repeat (split; [assumption|]). reflexivity. }
  assert (X' : session k' v [] cs').
  { split; [reflexivity|]. split; [reflexivity|]. split; [constructor|]. exists m, (Ptr 1 0), (Ptr 2 0), cs', []. repeat (split; [assumption|]). reflexivity. }
  assert (Hn : 1 <= length d <= 4) by (unfold d; rewrite repeat_length; lia).
  assert (Ld : (Z.of_nat (length d) <= 4 * (2^31 - 1))%Z) by discriminate.
  destruct (process_ok cs m (Ptr 3 0) (Ptr 3 0) d O Ld Hd Wd (or_introl eq_refl)) as (c2 & R & _).
  destruct (process_ok cs' m (Ptr 3 0) (Ptr 3 0) d O' Ld Hd Wd (or_introl eq_refl)) as (c2' & R' & _).
  assert (G : forall c, state_ok c -> forall u, hc128_process_packet c m (Ptr 3 0) (Ptr 3 0) (N.of_nat (length d)) = Ret u ->
    exists r, process_packet_seen c m (Ptr 3 0) (Ptr 3 0) (N.of_nat (length d)) = Ret r).
  { intros c Oc [u1 u2] Eu. rewrite process_seen_eq, Eu by (exact Oc || reflexivity). eexists. reflexivity. }
  destruct (G cs O _ R) as [r Er]. destruct (G cs' O' _ R') as [r' Er'].
  exists k, k', v, cs, cs', m, (Ptr 3 0), (Ptr 3 0), d, r, r'.
  split; [exact X|]. split; [exact X'|]. split; [exact Hd|]. split; [exact Wd|]. split; [reflexivity|]. split; [exact Er|]. split; [exact Er'|].
  rewrite (C143_hc128_small_packets_same_lookups k v [] cs m (Ptr 3 0) (Ptr 3 0) (length d) r X (Forall_nil _) Hn Er).
  rewrite (C143_hc128_small_packets_same_lookups k' v [] cs' m (Ptr 3 0) (Ptr 3 0) (length d) r' X' (Forall_nil _) Hn Er').
  intros C. apply h_entries_inj in C as [C _]. apply N.eqb_eq in C. unfold k, k', v in C. rewrite !fast_P_ok in C by reflexivity. rewrite two_keys in C. discriminate C.
Qed.
Print Assumptions C143_hc128_lookups_independent_of_key_refuted.

(** Two sessions with one key, one of which has sent a packet of four bytes
    already: the next packet reads the same entries. *)
Example C143_instance :
  let k := repeat 1%N 16 in let v := repeat 3%N 16 in let d := repeat 4%N 4 in
  let m := [holding k; holding v; holding d] in
  exists cs cs' r r', session k v [] cs /\ session k v [d] cs' /\
    process_packet_seen cs m (Ptr 2 0) (Ptr 2 0) (N.of_nat (length d)) = Ret r /\
    process_packet_seen cs' m (Ptr 2 0) (Ptr 2 0) (N.of_nat (length d)) = Ret r' /\ snd r = snd r'.
Proof.
  intros k v d m.
  assert (H1 : has_bytes m (Ptr 0 0) k) by conc_has_bytes. assert (Hv : has_bytes m (Ptr 1 0) v) by conc_has_bytes.
  assert (Hd : has_bytes m (Ptr 2 0) d) by conc_has_bytes. assert (Wd : writable m (Ptr 2 0) (length d)) by conc_writable.
  assert (Hn : 1 <= length d <= 4) by (unfold d; rewrite repeat_length; lia).
  assert (Ld : (Z.of_nat (length d) <= 4 * (2^31 - 1))%Z) by discriminate.
  assert (F : Forall (fun e => 1 <= length e <= 4) [d]) by (constructor; [exact Hn|constructor]).
  destruct (C142_hc128_small_packets_exact m (Ptr 0 0) k (Ptr 1 0) v [d] H1 eq_refl Hv eq_refl F) as (cs & cs' & E & S).
  destruct (initialize_ok m (Ptr 0 0) (Ptr 1 0) k v H1 Hv eq_refl eq_refl) as (c & E' & O & _). rewrite E in E'. apply Ret_inj in E'. subst c.
  assert (X : session k v [] cs).
  { split; [reflexivity|]. split; [reflexivity|]. split; [constructor|]. exists m, (Ptr 0 0), (Ptr 1 0), cs, []. repeat (split; [assumption|]). reflexivity. }
  assert (X' : session k v [d] cs').
  { split; [reflexivity|]. split; [reflexivity|]. split; [constructor; [split; [exact (has_bytes_bytes _ _ _ Hd)|exact Ld]|constructor]|].
    exists m, (Ptr 0 0), (Ptr 1 0), cs. eexists. repeat (split; [assumption|]). exact S. }
  destruct (session_view _ _ _ _ X') as [O' _].
  assert (G : forall c, state_ok c -> exists r, process_packet_seen c m (Ptr 2 0) (Ptr 2 0) (N.of_nat (length d)) = Ret r).
  { intros c Oc. destruct (process_ok c m (Ptr 2 0) (Ptr 2 0) d Oc Ld Hd Wd (or_introl eq_refl)) as (c2 & R & _).
    rewrite process_seen_eq, R by (exact Oc || reflexivity). eexists. reflexivity. }
  destruct (G cs O) as [r Er]. destruct (G cs' O') as [r' Er'].
  exists cs, cs', r, r'. split; [exact X|]. split; [exact X'|]. split; [exact Er|]. split; [exact Er'|].
  rewrite (C143_hc128_small_packets_same_lookups k v [] cs m (Ptr 2 0) (Ptr 2 0) (length d) r X (Forall_nil _) Hn Er).
  symmetry. exact (C143_hc128_small_packets_same_lookups k v [d] cs' m (Ptr 2 0) (Ptr 2 0) (length d) r' X' F Hn Er').
Qed.
