(** Property C142, continued: reading small HC-128 packets without the key. *)
From Coq Require Import NArith ZArith Arith List Lia.
From Verif Require Import Res Words Mem Ints MemSpec MemLemmas SpecWords WordsLemmas XorProofs Finite Concrete
  SyncSpec SyncProofs HcModel HcProofs HcSpec HcSmallSpec HcSmallProps
  HcLastSpec HcLastProps.
Import ListNotations.
Local Open Scope nat_scope.

#[local] Opaque HcSpec.hc_init.

Lemma le_str_mod n w w' : (w mod 256^N.of_nat n = w' mod 256^N.of_nat n)%N -> le_str n w = le_str n w'.
Proof.
  intros E. rewrite <- !le_num_str in E. apply (f_equal (le_str n)) in E.
  rewrite <- (le_str_length n w) in E at 1. rewrite <- (le_str_length n w') in E at 3.
  rewrite !le_str_num in E by apply le_str_ok. exact E.
Qed.
Lemma xor_known : forall a k b, length a = length k -> length b = length k ->
  xor_bytes (xor_bytes b k) (xor_bytes (xor_bytes a k) a) = b.
Proof.
  induction a as [|x a IH]; intros [|y k] [|z b] L L'; try discriminate; [reflexivity|].
  cbn [length] in L, L'.
  change (N.lxor (N.lxor z y) (N.lxor (N.lxor x y) x) :: xor_bytes (xor_bytes b k) (xor_bytes (xor_bytes a k) a) = z :: b).
  f_equal; [|apply IH; lia].
  apply N.bits_inj. intros t. rewrite !N.lxor_spec.
  destruct (N.testbit x t), (N.testbit y t), (N.testbit z t); reflexivity.
Qed.

(** Whoever knows one packet of L bytes (L at most four) reads, without the key,
    every packet of L bytes that comes a multiple of 256^L packets later. *)
Theorem C142_hc128_small_packets_readable : forall m key k iv v ds cs cs' es,
  has_bytes m key k -> length k = 16 -> has_bytes m iv v -> length v = 16 ->
  Forall (fun d => bytes_ok d /\ 1 <= length d <= 4) ds ->
  hc128_initialize m key iv = Ret cs -> sends hc128_process_packet cs ds cs' es ->
  forall i q, let n := length (nth i ds []) in let j := i + N.to_nat (256^N.of_nat n) * q in
    j < length ds -> length (nth j ds []) = n ->
    xor_bytes (nth j es []) (xor_bytes (nth i es []) (nth i ds [])) = nth j ds [].
Proof.
  intros m key k iv v ds cs cs' es Hk Lk Hv Lv F E S i q n j Hj Ln.
  assert (F1 : Forall bytes_ok ds) by (eapply Forall_impl; [|exact F]; intros u [X _]; exact X).
  assert (F2 : Forall (fun d => 1 <= length d <= 4) ds) by (eapply Forall_impl; [|exact F]; intros u [_ X]; exact X).
  destruct (C142_hc128_small_packets_exact m key k iv v ds Hk Lk Hv Lv F2) as (c & c' & E' & S').
  rewrite E in E'. apply Ret_inj in E'. rewrite <- E' in S'.
  rewrite (sends_det _ ds cs cs' c' es _ F1 S S').
  assert (Hi : i < length ds) by (unfold j in Hj; lia).
  rewrite !stepping_nth by assumption. rewrite !Nat.add_0_l.
  rewrite Forall_forall in F2. pose proof (F2 _ (nth_In ds [] Hi)) as Li. fold n in Li.
  set (x := h _ _). set (a := at_ _ 0). set (d := HcSpec.g1 _ _ _). clearbody x a d.
  assert (G : forall e w, length e = n -> xor_bytes e (le_str 4 w) = xor_bytes e (le_str n w)).
  { intros e w Le. rewrite <- xor_bytes_trunc, Le, firstn_le_str by lia. reflexivity. }
  rewrite !G by (exact Ln || reflexivity).
  assert (W : le_str n (stepping_word x a d j) = le_str n (stepping_word x a d i)).
  { apply le_str_mod. change 256%N with (2^8)%N. rewrite <- N.pow_mul_r.
    unfold j. change 256%N with (2^8)%N. rewrite <- N.pow_mul_r. apply word_low. lia. }
  rewrite W. apply xor_known; rewrite le_str_length; [reflexivity|exact Ln].
Qed.
Print Assumptions C142_hc128_small_packets_readable.

(** Concrete case: 258 packets of one byte; the last two are read off their
    ciphertexts and the first two packets. *)
Example C142_readable_instance :
  let m := [holding (repeat 1%N 16); holding (repeat 2%N 16)] in
  let ds := repeat [7%N] 256 ++ [[65]; [66]]%N in
  exists cs cs' es, Forall (fun d => bytes_ok d /\ 1 <= length d <= 4) ds /\
    hc128_initialize m (Ptr 0 0) (Ptr 1 0) = Ret cs /\ sends hc128_process_packet cs ds cs' es /\
    xor_bytes (nth 256 es []) (xor_bytes (nth 0 es []) [7%N]) = [65%N] /\
    xor_bytes (nth 257 es []) (xor_bytes (nth 1 es []) [7%N]) = [66%N].
Proof.
  intros m ds.
  assert (H0 : has_bytes m (Ptr 0 0) (repeat 1%N 16)) by conc_has_bytes.
  assert (H1 : has_bytes m (Ptr 1 0) (repeat 2%N 16)) by conc_has_bytes.
  assert (B : forall x, (x < 256)%N -> bytes_ok [x] /\ 1 <= length [x] <= 4).
  { intros x Hx. split; [constructor; [exact Hx|constructor]|cbn [length]; lia]. }
  assert (F : Forall (fun d => bytes_ok d /\ 1 <= length d <= 4) ds).
  { apply Forall_app. split; [apply Forall_forall; intros u Hu; apply repeat_spec in Hu; rewrite Hu; apply B; reflexivity|].
    apply Forall_cons; [apply B; reflexivity|]. apply Forall_cons; [apply B; reflexivity|constructor]. }
  assert (F2 : Forall (fun d => 1 <= length d <= 4) ds) by (eapply Forall_impl; [|exact F]; intros u [_ X]; exact X).
  destruct (C142_hc128_small_packets_exact m _ _ _ _ ds H0 eq_refl H1 eq_refl F2) as (cs & cs' & E & S).
  match type of S with sends _ _ _ _ ?es => set (zs := es) in *; clearbody zs end.
  pose proof (C142_hc128_small_packets_readable m _ _ _ _ ds cs cs' zs H0 eq_refl H1 eq_refl F E S) as K.
  exists cs, cs', zs. split; [exact F|]. split; [exact E|]. split; [exact S|]. split.
  - exact (K 0 1 ltac:(apply Nat.ltb_lt; reflexivity) eq_refl).
  - exact (K 1 1 ltac:(apply Nat.ltb_lt; reflexivity) eq_refl).
Qed.

(** The same for the last words of packets of the same number of words, at most
    three: a packet that ends in L bytes of word j shows how those bytes are
    encrypted in every packet of this length 256^L packets later. *)
Theorem C142_hc128_last_words_readable : forall m key k iv v j ds cs cs' es,
  has_bytes m key k -> length k = 16 -> has_bytes m iv v -> length v = 16 ->
  j <= 2 -> Forall (fun d => bytes_ok d /\ 4 * j < length d <= 4 * (j + 1)) ds ->
  hc128_initialize m key iv = Ret cs -> sends hc128_process_packet cs ds cs' es ->
  forall i q, let last l := skipn (4 * j) l in
    let n := length (last (nth i ds [])) in let i' := i + N.to_nat (256^N.of_nat n) * q in
    i' < length ds -> length (last (nth i' ds [])) = n ->
    xor_bytes (last (nth i' es [])) (xor_bytes (last (nth i es [])) (last (nth i ds []))) = last (nth i' ds []).
Proof.
  intros m key k iv v j ds cs cs' es Hk Lk Hv Lv Hj F E S i q last n i' Hi' Ln.
  assert (F1 : Forall bytes_ok ds) by (eapply Forall_impl; [|exact F]; intros u [X _]; exact X).
  assert (F2 : Forall (fun d => length d <= 4 * (j + 1)) ds) by (eapply Forall_impl; [|exact F]; intros u [_ [_ X]]; exact X).
  assert (F3 : Forall (fun d => 4 * j < length d) ds) by (eapply Forall_impl; [|exact F]; intros u [_ [X _]]; exact X).
  destruct (C142_hc128_last_words_exact m key k iv v j ds Hk Lk Hv Lv Hj F2) as (c & c' & es' & E' & S' & R).
  rewrite E in E'. apply Ret_inj in E'. rewrite <- E' in S'.
  rewrite (sends_det _ ds cs cs' c' es es' F1 S S').
  assert (Hi : i < length ds) by (unfold i' in Hi'; lia).
  unfold last in *. rewrite (last_nth _ _ _ _ _ _ _ _ F3 R Hi), (last_nth _ _ _ _ _ _ _ _ F3 R Hi').
  rewrite !Nat.add_0_l. rewrite Forall_forall in F2. pose proof (F2 _ (nth_In ds [] Hi)) as Li.
  assert (Lm : n <= 4) by (unfold n; rewrite skipn_length; lia).
  set (x := h _ _). set (a := at_ _ j). set (d := HcSpec.g1 _ _ _). clearbody x a d.
  assert (G : forall e w, length e = n -> xor_bytes e (le_str 4 w) = xor_bytes e (le_str n w)).
  { intros e w Le. rewrite <- xor_bytes_trunc, Le, firstn_le_str by exact Lm. reflexivity. }
  rewrite !G by (exact Ln || reflexivity).
  assert (W : le_str n (stepping_word x a d i') = le_str n (stepping_word x a d i)).
  { apply le_str_mod. change 256%N with (2^8)%N. rewrite <- N.pow_mul_r.
    unfold i'. change 256%N with (2^8)%N. rewrite <- N.pow_mul_r. apply word_low. lia. }
  rewrite W. apply xor_known; rewrite le_str_length; [reflexivity|exact Ln].
Qed.
Print Assumptions C142_hc128_last_words_readable.

(** Concrete case: 257 packets of five bytes; the last byte of the last one is
    read off its ciphertext and the first packet. *)
Example C142_last_words_readable_instance :
  let m := [holding (repeat 1%N 16); holding (repeat 2%N 16)] in
  let ds := repeat (repeat 7%N 5) 256 ++ [[72; 101; 108; 108; 111]]%N in
  exists cs cs' es, Forall (fun d => bytes_ok d /\ 4 * 1 < length d <= 4 * (1 + 1)) ds /\
    hc128_initialize m (Ptr 0 0) (Ptr 1 0) = Ret cs /\ sends hc128_process_packet cs ds cs' es /\
    xor_bytes (skipn 4 (nth 256 es [])) (xor_bytes (skipn 4 (nth 0 es [])) [7%N]) = [111%N].
Proof.
  intros m ds.
  assert (H0 : has_bytes m (Ptr 0 0) (repeat 1%N 16)) by conc_has_bytes.
  assert (H1 : has_bytes m (Ptr 1 0) (repeat 2%N 16)) by conc_has_bytes.
  assert (F : Forall (fun d => bytes_ok d /\ 4 * 1 < length d <= 4 * (1 + 1)) ds).
  { apply Forall_app. split.
    - apply Forall_forall. intros u Hu. apply repeat_spec in Hu. rewrite Hu.
      split; [repeat constructor|cbn [length repeat]; lia].
    - apply Forall_cons; [|constructor]. split; [repeat constructor|cbn [length]; lia]. }
  assert (F2 : Forall (fun d => length d <= 4 * (1 + 1)) ds) by (eapply Forall_impl; [|exact F]; intros u [_ [_ X]]; exact X).
  assert (J : 1 <= 2) by lia.
  destruct (C142_hc128_last_words_exact m _ _ _ _ 1 ds H0 eq_refl H1 eq_refl J F2) as (cs & cs' & es & E & S & _).
  pose proof (C142_hc128_last_words_readable m _ _ _ _ 1 ds cs cs' es H0 eq_refl H1 eq_refl J F E S) as K.
  exists cs, cs', es. split; [exact F|]. split; [exact E|]. split; [exact S|].
  exact (K 0 1 ltac:(apply Nat.ltb_lt; reflexivity) eq_refl).
Qed.
