(** Property C142: what StreamCiphers/HC-128 does to sequences of packets of at
    most four bytes. *)
From Coq Require Import NArith ZArith Arith List Lia.
From Verif Require Import Res Words Mem Ints MemSpec MemLemmas SpecWords WordsLemmas XorProofs Finite Concrete
  SyncSpec SyncProofs HcModel HcProofs HcSpec HcSmallSpec.
From Verif Require HcDistinctProps.
Import ListNotations.
Local Open Scope nat_scope.

#[local] Opaque HcSpec.hc_init.

(** ** One packet: one step of the first table, always at index 0 *)
Lemma small_step t q : table_ok t ->
  hc_words 0 1 (t, q) =
  ([N.lxor (h q (at_ t 500)) (step_val HcSpec.g1 t 0)], (put t 0 (step_val HcSpec.g1 t 0), q)).
Proof.
  intros [L W]. cbn [hc_words hc_step].
  change (0 mod 1024 <? 512) with true. change (0 mod 512) with 0. cbv iota.
  rewrite !HcDistinctProps.at_put by lia.
  change (minus512 0 12 =? 0) with false. change (0 =? 0) with true. cbv iota.
  change (minus512 0 12) with 500. reflexivity.
Qed.

Definition rate (t : list N) : N := HcSpec.g1 (at_ t 509) (at_ t 502) (at_ t 1).
Lemma step_val_0 t : step_val HcSpec.g1 t 0 = ((at_ t 0 + rate t) mod 2^32)%N.
Proof. reflexivity. Qed.

Lemma put_keeps t x i : length t = 512 -> i <> 0 -> at_ (put t 0 x) i = at_ t i.
Proof. intros L H. rewrite HcDistinctProps.at_put by lia. destruct (Nat.eqb_spec i 0); [contradiction|reflexivity]. Qed.
Lemma put_sets t x : length t = 512 -> at_ (put t 0 x) 0 = x.
Proof. intros L. rewrite HcDistinctProps.at_put by lia. reflexivity. Qed.

Definition small (d : list N) : Prop := 1 <= length d <= 4.
Lemma small_words d : small d -> n_words (length d) = 1.
Proof. intros [A B]. destruct (length d) as [|[|[|[|[|n]]]]]; try lia; reflexivity. Qed.
Lemma small_bound d : small d -> (Z.of_nat (length d) <= 4 * (2^31 - 1))%Z.
Proof. intros [A B]. lia. Qed.

#[local] Opaque HcSpec.hc_words HcSpec.step_val HcSpec.put.

Lemma small_sends ds : Forall small ds -> forall x a d n t q, state_ok (HcState t q) ->
  at_ t 0 = ((a + N.of_nat n * d) mod 2^32)%N -> rate t = d -> h q (at_ t 500) = x ->
  exists cs', sends hc128_process_packet (HcState t q) ds cs' (stepping_packets x a d n ds).
Proof.
  induction ds as [|e ds IH]; intros F x a d n t q O E0 Er Ex; [eexists; reflexivity|].
  apply Forall_inv in F as Fe. apply Forall_inv_tail in F.
  pose proof O as [[L W] Oq]. cbn [P Q] in L, W, Oq.
  set (w := step_val HcSpec.g1 t 0).
  assert (Ew : w = ((a + N.of_nat (S n) * d) mod 2^32)%N).
  { unfold w. rewrite step_val_0, E0, Er, N.add_mod_idemp_l by discriminate. f_equal. lia. }
  assert (O' : state_ok (HcState (put t 0 w) q)).
  { split; [|exact Oq]. apply HcDistinctProps.put_ok; [split; assumption|lia|apply step_val_lt]. }
  destruct (IH F x a d (S n) (put t 0 w) q O') as [cs' IS].
  { rewrite put_sets by exact L. exact Ew. }
  { unfold rate. rewrite !put_keeps by (exact L || discriminate). exact Er. }
  { rewrite put_keeps by (exact L || discriminate). exact Ex. }
  exists cs'. cbn [sends stepping_packets]. exists (HcState (put t 0 w) q). split; [|exact IS].
  assert (Es : N.lxor (h q (at_ t 500)) w = stepping_word x a d n) by (unfold stepping_word; rewrite Ex, Ew; reflexivity).
  split.
  { rewrite xor_bytes_length_min, le_str_length. destruct Fe. lia. }
  intros m out inp H1 H2 H3.
  destruct (process_next (HcState t q) m out inp e O (small_bound e Fe) H1 H2 H3) as [E _].
  rewrite (small_words e Fe) in E. unfold view in E. cbn [P Q] in E. rewrite small_step in E by (split; assumption).
  cbn [fst snd] in E. fold w in E. rewrite Es in E. rewrite E. rewrite le_bytes_spec. cbn [flat_map]. rewrite app_nil_r. reflexivity.
Qed.

(** From a fresh state: packet n is encrypted with x xor (a + (n+1) d), the three
    words being those of the initial tables of the specification. *)
Theorem C142_hc128_small_packets_exact : forall m key k iv v ds,
  has_bytes m key k -> length k = 16 -> has_bytes m iv v -> length v = 16 ->
  Forall (fun d => 1 <= length d <= 4) ds ->
  let P := fst (hc_init k v) in let Q := snd (hc_init k v) in
  exists cs cs', hc128_initialize m key iv = Ret cs /\
    sends hc128_process_packet cs ds cs'
      (stepping_packets (h Q (at_ P 500)) (at_ P 0) (HcSpec.g1 (at_ P 509) (at_ P 502) (at_ P 1)) 0 ds).
Proof.
  intros m key k iv v ds Hk Lk Hv Lv F P Q.
  destruct (initialize_ok m key iv k v Hk Hv Lk Lv) as (cs & E & O & V).
  assert (C : cs = HcState P Q). { unfold P, Q. rewrite <- V. destruct cs; reflexivity. }
  rewrite C in E, O. exists (HcState P Q).
  destruct (small_sends ds F (h Q (at_ P 500)) (at_ P 0) (HcSpec.g1 (at_ P 509) (at_ P 502) (at_ P 1)) 0 P Q O) as [cs' S].
  { change (N.of_nat 0) with 0%N. rewrite N.mul_0_l, N.add_0_r. symmetry. apply N.mod_small. apply at_lt. exact (proj2 (proj1 O)). }
  { reflexivity. }
  { reflexivity. }
  exists cs'. split; [exact E|exact S].
Qed.
Print Assumptions C142_hc128_small_packets_exact.

(** The same at any time: whatever was sent before, three words of the state
    decide about all packets of at most four bytes that follow. *)
Lemma sends_state_ok : forall ds cs cs' es, state_ok cs ->
  Forall (fun d => bytes_ok d /\ (Z.of_nat (length d) <= 4 * (2^31 - 1))%Z) ds ->
  sends hc128_process_packet cs ds cs' es -> state_ok cs'.
Proof.
  induction ds as [|d ds IH]; intros cs cs' [|e es] O F S; cbn [sends] in S; try contradiction; [subst cs'; exact O|].
  pose proof (Forall_inv F) as [Bd Ld]. apply Forall_inv_tail in F. destruct S as (t & [_ E] & S).
  refine (IH t cs' es _ F S).
  assert (Hm : has_bytes [map Some d] (Ptr 0 0) d) by (apply (has_bytes_last []); exact Bd).
  pose proof (has_bytes_writable _ _ _ Hm) as Wm.
  specialize (E _ _ _ Hm Wm (or_introl eq_refl)).
  destruct (process_next cs _ _ _ d O Ld Hm Wm (or_introl eq_refl)) as [X Y].
  rewrite E in X. apply Ret_pair in X as [X _]. rewrite <- X in Y. exact Y.
Qed.
Theorem C142_hc128_small_packets_any_time : forall m key k iv v before cs cs1 es,
  has_bytes m key k -> length k = 16 -> has_bytes m iv v -> length v = 16 ->
  Forall (fun d => bytes_ok d /\ (Z.of_nat (length d) <= 4 * (2^31 - 1))%Z) before ->
  hc128_initialize m key iv = Ret cs -> sends hc128_process_packet cs before cs1 es ->
  exists x a d, forall ds, Forall (fun e => 1 <= length e <= 4) ds ->
    exists cs', sends hc128_process_packet cs1 ds cs' (stepping_packets x a d 0 ds).
Proof.
  intros m key k iv v before cs cs1 es Hk Lk Hv Lv F E S.
  destruct (initialize_ok m key iv k v Hk Hv Lk Lv) as (c & E' & O & _). rewrite E in E'. apply Ret_inj in E'. subst c.
  pose proof (sends_state_ok before cs cs1 es O F S) as O1. destruct cs1 as [p q].
  exists (h q (at_ p 500)), (at_ p 0), (rate p). intros ds Fs. apply small_sends; [exact Fs|exact O1| |reflexivity|reflexivity].
  change (N.of_nat 0) with 0%N. rewrite N.mul_0_l, N.add_0_r. symmetry. apply N.mod_small. apply at_lt. exact (proj2 (proj1 O1)).
Qed.
Print Assumptions C142_hc128_small_packets_any_time.

(** ** What the ciphertexts show *)
Lemma mod_lxor a b k : (N.lxor a b mod 2^k = N.lxor (a mod 2^k) (b mod 2^k))%N.
Proof.
  apply N.bits_inj. intros i. rewrite N.lxor_spec. destruct (N.lt_ge_cases i k).
  - rewrite !N.mod_pow2_bits_low, N.lxor_spec by assumption. reflexivity.
  - rewrite !N.mod_pow2_bits_high by assumption. reflexivity.
Qed.
Lemma lxor_digit x y a b : (x < 256)%N -> (y < 256)%N ->
  (N.lxor x y + 256 * N.lxor a b = N.lxor (x + 256 * a) (y + 256 * b))%N.
Proof.
  intros Hx Hy. assert (G : forall u v, (u < 256)%N -> ((u + 256 * v) / 2^8 = v /\ (u + 256 * v) mod 2^8 = u)%N).
  { intros u v Hu. change (2^8)%N with 256%N. rewrite (N.mul_comm 256 v). split.
    - rewrite N.div_add by discriminate. rewrite N.div_small by exact Hu. reflexivity.
    - rewrite N.mod_add by discriminate. apply N.mod_small. exact Hu. }
  rewrite (N.div_mod (N.lxor (x + 256 * a) (y + 256 * b)) (2^8)) by discriminate.
  rewrite mod_lxor. rewrite <- N.shiftr_div_pow2, N.shiftr_lxor, !N.shiftr_div_pow2.
  destruct (G x a Hx) as [-> ->]. destruct (G y b Hy) as [-> ->]. change (2^8)%N with 256%N. apply N.add_comm.
Qed.
Lemma le_num_xor : forall a b, bytes_ok a -> bytes_ok b -> length a = length b ->
  le_num (xor_bytes a b) = N.lxor (le_num a) (le_num b).
Proof.
  induction a as [|x a IH]; intros [|y b] Ha Hb L; try discriminate L; [reflexivity|].
  inversion Ha; inversion Hb; subst. cbn [length] in L. change (xor_bytes (x :: a) (y :: b)) with (N.lxor x y :: xor_bytes a b).
  cbn [le_num]. rewrite IH by (assumption || lia). apply lxor_digit; assumption.
Qed.
Lemma firstn_le_str n : forall k w, k <= n -> firstn k (le_str n w) = le_str k w.
Proof.
  induction n as [|n IH]; intros k w H; [replace k with 0 by lia; reflexivity|].
  destruct k as [|k]; [reflexivity|]. cbn [le_str firstn]. f_equal. apply IH. lia.
Qed.
Lemma mod_mod_pow u b c : (b <= c)%N -> ((u mod 2^c) mod 2^b = u mod 2^b)%N.
Proof.
  intros H. apply N.bits_inj. intros i. destruct (N.lt_ge_cases i b).
  - rewrite !N.mod_pow2_bits_low by (assumption || lia). reflexivity.
  - rewrite !N.mod_pow2_bits_high by assumption. reflexivity.
Qed.

Lemma lxor_same a b w : N.lxor (N.lxor a w) (N.lxor b w) = N.lxor a b.
Proof.
  rewrite (N.lxor_comm b w), N.lxor_assoc, <- (N.lxor_assoc w w b), N.lxor_nilpotent, N.lxor_0_l. reflexivity.
Qed.

(** The low bits of one ciphertext. *)
Lemma packet_low e w b : bytes_ok e -> small e -> (b <= 8 * N.of_nat (length e))%N ->
  (le_num (xor_bytes e (le_str 4 w)) mod 2^b = N.lxor (le_num e mod 2^b) (w mod 2^b))%N.
Proof.
  intros He [A B] Hb. rewrite <- xor_bytes_trunc, firstn_le_str by exact B.
  rewrite le_num_xor by (exact He || apply le_str_ok || (rewrite le_str_length; reflexivity)).
  rewrite mod_lxor, le_num_str. f_equal. change 256%N with (2^8)%N. rewrite <- N.pow_mul_r. apply mod_mod_pow. exact Hb.
Qed.
(** The low bits of the key stream words come round. *)
Lemma word_low x a d i q b : (b <= 32)%N ->
  (stepping_word x a d (i + N.to_nat (2^b) * q) mod 2^b = stepping_word x a d i mod 2^b)%N.
Proof.
  intros Hb. unfold stepping_word. rewrite !mod_lxor, !mod_mod_pow by exact Hb. f_equal.
  replace (a + N.of_nat (S (i + N.to_nat (2^b) * q)) * d)%N with (a + N.of_nat (S i) * d + N.of_nat q * d * 2^b)%N.
  - apply N.mod_add. apply N.pow_nonzero. discriminate.
  - rewrite <- !Nat.add_succ_l. rewrite Nat2N.inj_add, Nat2N.inj_mul, N2Nat.id. lia.
Qed.

Lemma stepping_nth x a d : forall ds n i, i < length ds ->
  nth i (stepping_packets x a d n ds) [] = xor_bytes (nth i ds []) (le_str 4 (stepping_word x a d (n + i))).
Proof.
  induction ds as [|e ds IH]; intros n i H; [cbn in H; lia|]. destruct i as [|i]; cbn [nth stepping_packets].
  - rewrite Nat.add_0_r. reflexivity.
  - rewrite IH by (cbn [length] in H; lia). do 3 f_equal. lia.
Qed.

Lemma sends_det {S} (proc : S -> mem -> ptr -> ptr -> N -> res (S * mem)) : forall ds s x x' es es',
  Forall bytes_ok ds -> sends proc s ds x es -> sends proc s ds x' es' -> es = es'.
Proof.
  induction ds as [|d ds IH]; intros s x x' [|e es] [|e' es'] F X Y; cbn [sends] in X, Y; try contradiction; [reflexivity|].
  apply Forall_inv in F as Fd. apply Forall_inv_tail in F.
  destruct X as (t & E & X). destruct Y as (t' & E' & Y).
  destruct (encrypts_det proc s d t t' e e' Fd E E') as [Et Ee]. rewrite <- Et in Y. rewrite Ee. f_equal. exact (IH t x x' es es' F X Y).
Qed.

(** In packets number i and i + 2^b q the low b bits are encrypted with the same
    b key stream bits, whatever key and IV: the exclusive or of the two messages,
    in these bits, is the exclusive or of the two ciphertexts. *)
Theorem C142_hc128_small_packets_leak : forall m key k iv v ds cs cs' es,
  has_bytes m key k -> length k = 16 -> has_bytes m iv v -> length v = 16 ->
  Forall (fun d => bytes_ok d /\ 1 <= length d <= 4) ds ->
  hc128_initialize m key iv = Ret cs -> sends hc128_process_packet cs ds cs' es ->
  forall b i q, let j := i + N.to_nat (2^b) * q in j < length ds ->
    (b <= 8 * N.of_nat (length (nth i ds [])))%N -> (b <= 8 * N.of_nat (length (nth j ds [])))%N ->
    (N.lxor (le_num (nth i es [])) (le_num (nth j es [])) mod 2^b =
     N.lxor (le_num (nth i ds [])) (le_num (nth j ds [])) mod 2^b)%N.
Proof.
  intros m key k iv v ds cs cs' es Hk Lk Hv Lv F E S b i q j Hj Bi Bj.
  assert (F1 : Forall bytes_ok ds) by (eapply Forall_impl; [|exact F]; intros u [X _]; exact X).
  assert (F2 : Forall (fun d => 1 <= length d <= 4) ds) by (eapply Forall_impl; [|exact F]; intros u [_ X]; exact X).
  destruct (C142_hc128_small_packets_exact m key k iv v ds Hk Lk Hv Lv F2) as (c & c' & E' & S').
  rewrite E in E'. apply Ret_inj in E'. rewrite <- E' in S'.
  rewrite (sends_det _ ds cs cs' c' es _ F1 S S').
  assert (Hi : i < length ds) by (unfold j in Hj; lia).
  rewrite !stepping_nth by assumption. rewrite !Nat.add_0_l.
  rewrite Forall_forall in F.
  destruct (F _ (nth_In ds [] Hi)) as [Oi Li]. destruct (F _ (nth_In ds [] Hj)) as [Oj Lj].
  rewrite !mod_lxor, !packet_low by assumption. unfold j at 2. rewrite word_low by lia.
  apply lxor_same.
Qed.
Print Assumptions C142_hc128_small_packets_leak.

(** C142 is false: three packets of one byte, and nobody needs the key to see
    that the messages were not these. *)
Theorem C142_hc128_small_packets_hide_messages_refuted : exists ds ds',
  map (@length N) ds = map (@length N) ds' /\ Forall bytes_ok ds /\ Forall bytes_ok ds' /\ length (concat ds) = 3 /\
  forall m key k iv v m' key' k' iv' v' s s' t t' es,
    has_bytes m key k -> length k = 16 -> has_bytes m iv v -> length v = 16 ->
    has_bytes m' key' k' -> length k' = 16 -> has_bytes m' iv' v' -> length v' = 16 ->
    hc128_initialize m key iv = Ret s -> hc128_initialize m' key' iv' = Ret s' ->
    sends hc128_process_packet s ds t es -> sends hc128_process_packet s' ds' t' es -> False.
Proof.
  exists [[0%N]; [0%N]; [0%N]], [[0%N]; [0%N]; [1%N]].
  assert (B : forall x, (x < 256)%N -> bytes_ok [x]) by (intros; constructor; [assumption|constructor]).
  assert (B0 : bytes_ok [0%N]) by (apply B; reflexivity). assert (B1 : bytes_ok [1%N]) by (apply B; reflexivity).
  split; [reflexivity|]. split; [repeat (constructor; [assumption|]); constructor|]. split; [repeat (constructor; [assumption|]); constructor|].
  split; [reflexivity|].
  intros m key k iv v m' key' k' iv' v' s s' t t' es Hk Lk Hv Lv Hk' Lk' Hv' Lv' E E' S S'.
  assert (F : forall x y z, bytes_ok [x] -> bytes_ok [y] -> bytes_ok [z] ->
    Forall (fun d => bytes_ok d /\ 1 <= length d <= 4) [[x]; [y]; [z]]).
  { intros x y z Hx Hy Hz. repeat (apply Forall_cons; [split; [assumption|cbn [length]; lia]|]). apply Forall_nil. }
  pose proof (C142_hc128_small_packets_leak m key k iv v _ s t es Hk Lk Hv Lv (F 0%N 0%N 0%N B0 B0 B0) E S 1%N 0 1) as X.
  pose proof (C142_hc128_small_packets_leak m' key' k' iv' v' _ s' t' es Hk' Lk' Hv' Lv' (F 0%N 0%N 1%N B0 B0 B1) E' S' 1%N 0 1) as Y.
  cbn [Nat.add] in X, Y. change (N.to_nat (2^1) * 1) with 2 in X, Y. cbv zeta in X, Y.
  specialize (X ltac:(cbn; lia) ltac:(cbn; lia) ltac:(cbn; lia)). specialize (Y ltac:(apply Nat.ltb_lt; reflexivity) ltac:(apply N.leb_le; reflexivity) ltac:(apply N.leb_le; reflexivity)).
  rewrite X in Y. vm_compute in Y. discriminate Y.
Qed.
Print Assumptions C142_hc128_small_packets_hide_messages_refuted.

(** Concrete case: a key and an IV, five packets of one to four bytes; bit 0 of
    the first, third and fifth packets, and bits 0 and 1 of the first and fifth,
    are exchanged in the clear up to a constant. *)
Example C142_instance :
  let m := [holding (repeat 1%N 16); holding (repeat 2%N 16)] in
  let ds := [[1]; [2; 3]; [4; 5; 6]; [7; 8; 9; 10]; [11; 12]]%N in
  exists cs cs' es, has_bytes m (Ptr 0 0) (repeat 1%N 16) /\ has_bytes m (Ptr 1 0) (repeat 2%N 16) /\
    Forall (fun d => bytes_ok d /\ 1 <= length d <= 4) ds /\
    hc128_initialize m (Ptr 0 0) (Ptr 1 0) = Ret cs /\ sends hc128_process_packet cs ds cs' es /\
    (N.lxor (le_num (nth 0 es [])) (le_num (nth 2 es [])) mod 2 = 1)%N /\
    (N.lxor (le_num (nth 2 es [])) (le_num (nth 4 es [])) mod 2 = 1)%N /\
    (N.lxor (le_num (nth 0 es [])) (le_num (nth 4 es [])) mod 4 = 2)%N.
Proof.
  intros m ds.
  assert (H0 : has_bytes m (Ptr 0 0) (repeat 1%N 16)) by conc_has_bytes.
  assert (H1 : has_bytes m (Ptr 1 0) (repeat 2%N 16)) by conc_has_bytes.
  assert (F : Forall (fun d => bytes_ok d /\ 1 <= length d <= 4) ds).
  { unfold ds. repeat (apply Forall_cons; [split; [repeat constructor|cbn [length]; lia]|]). constructor. }
  assert (F2 : Forall (fun d => 1 <= length d <= 4) ds) by (eapply Forall_impl; [|exact F]; intros u [_ X]; exact X).
  destruct (C142_hc128_small_packets_exact m _ _ _ _ ds H0 eq_refl H1 eq_refl F2) as (cs & cs' & E & S).
  pose proof (C142_hc128_small_packets_leak m _ _ _ _ ds cs cs' _ H0 eq_refl H1 eq_refl F E S) as K.
  do 3 eexists. split; [exact H0|]. split; [exact H1|]. split; [exact F|]. split; [exact E|]. split; [exact S|].
  match type of S with sends _ _ _ _ ?es => set (zs := es) in * end.
  split; [|split].
  - change 2%N with (2^1)%N at 1. exact (K 1%N 0 1 ltac:(apply Nat.ltb_lt; reflexivity) ltac:(apply N.leb_le; reflexivity) ltac:(apply N.leb_le; reflexivity)).
  - exact (K 1%N 2 1 ltac:(apply Nat.ltb_lt; reflexivity) ltac:(apply N.leb_le; reflexivity) ltac:(apply N.leb_le; reflexivity)).
  - exact (K 2%N 0 1 ltac:(apply Nat.ltb_lt; reflexivity) ltac:(apply N.leb_le; reflexivity) ltac:(apply N.leb_le; reflexivity)).
Qed.
