(** Property C130: labeled homomorphic encryption from the initial key stream
    under two labels.  The code modelled is [he_encrypt] of HeModel. *)
From Coq Require Import NArith ZArith List Bool Arith Lia.
From Verif Require Import Res Mem MemSpec ListLemmas MemLemmas SpecWords WordsLemmas XorProofs Concrete Gmp JoyeModel HeModel HeSpec HeLabel HeRun HeProofs HeProps.
From Verif Require HcModel HcSpec HcProofs AeProofs.
Import ListNotations.
Local Open Scope Z_scope.

(** [a] is the first, public component of some encryption of [m] under [label],
    the generator for labels being in state [cs]: any random numbers, any
    arrangement of the variables, anything on the stack. *)
Definition published (cs : HcModel.hc128_state) (k : nat) (label m a : Z) : Prop :=
  exists fuel stack s c g b mr y N lr s' g' cs',
    zget s lr = label /\ zget s mr = m /\ zget s' (ct_a c) = a /\
    (forall i x, stack i = Some x -> (x < 256)%N) /\
    (b < length s)%nat /\ (ct_a c < length s)%nat /\ b <> mr /\ ct_beta c <> b /\ ct_beta c <> mr /\ ct_a c <> b /\ ct_a c <> ct_beta c /\
    he_encrypt fuel stack s c g cs b mr y N lr k = Ret (s', g', cs').

(** A label of exactly [n] bytes. *)
Definition full_label (label : Z) (n : nat) : Prop := label <> 0 /\ 256 ^ (Z.of_nat n - 1) <= Z.abs label < 256 ^ Z.of_nat n.

(** The bytes of a number in 32-bit little-endian words, most significant word
    first, and what anyone can compute from two labels, one message and the two
    public components. *)
Fixpoint words_bytes (n : nat) (z : Z) : list N :=
  match n with O => [] | S n' => words_bytes n' (z / 2 ^ 32) ++ le_str 4 (Z.to_N (z mod 2 ^ 32)) end.
Definition expose (k : nat) (label m a label' a' : Z) : Z :=
  (a' + word_number (xor_bytes (words_bytes (k / 32) ((m - a) mod 2 ^ Z.of_nat k))
    (xor_bytes (label_bytes label (k / 8)) (label_bytes label' (k / 8))))) mod 2 ^ Z.of_nat k.

Lemma words_bytes_back n : forall l, bytes_ok l -> length l = (4 * n)%nat -> words_bytes n (word_number l) = l.
Proof.
  induction n as [|n IH]; intros l B L; [destruct l; [reflexivity|discriminate]|].
  assert (L1 : length (firstn (4 * n) l) = (4 * n)%nat) by (rewrite firstn_length; lia).
  assert (L2 : length (skipn (4 * n) l) = 4%nat) by (rewrite skipn_length; lia).
  pose proof (Forall_skipn _ (4 * n) _ B) as B2. pose proof (Forall_firstn _ (4 * n) _ B) as B1.
  pose proof (le_num_lt _ B2) as W. rewrite L2 in W. change (256 ^ N.of_nat 4)%N with 4294967296%N in W.
  assert (E : word_number l = word_number (firstn (4 * n) l) * 2 ^ 32 + Z.of_N (le_num (skipn (4 * n) l))).
  { rewrite <- word_number_snoc; [rewrite firstn_skipn; reflexivity| |exact L2]. rewrite L1, Nat.mul_comm. apply Nat.mod_mul. lia. }
  cbn [words_bytes]. rewrite E. change (2 ^ 32) with 4294967296.
  rewrite Z.div_add_l, (Z.div_small (Z.of_N _)), Z.add_0_r by lia. rewrite Z.add_comm, Z.mod_add, Z.mod_small, N2Z.id by lia.
  rewrite IH by assumption. rewrite <- L2 at 2. rewrite le_str_num by exact B2. apply firstn_skipn.
Qed.

Lemma xor_other d : forall d' s, length d = length d' -> (length d <= length s)%nat ->
  xor_bytes d' s = xor_bytes (xor_bytes d s) (xor_bytes d d').
Proof.
  unfold xor_bytes. induction d as [|x d IH]; intros [|y d'] [|z s] L1 L2; cbn [combine map fst snd length] in *; try discriminate; try lia; try reflexivity.
  rewrite <- (IH d' s) by lia. f_equal. rewrite (N.lxor_comm x z), N.lxor_assoc, <- (N.lxor_assoc x x y), N.lxor_nilpotent, N.lxor_0_l. apply N.lxor_comm.
Qed.
Lemma hc_encrypt_other key iv d d' : length d = length d' ->
  HcSpec.hc_encrypt key iv d' = xor_bytes (HcSpec.hc_encrypt key iv d) (xor_bytes d d').
Proof.
  intros L. unfold HcSpec.hc_encrypt. rewrite <- L. apply xor_other; [exact L|].
  pose proof (AeProofs.hc_encrypt_length key iv d) as X. unfold HcSpec.hc_encrypt in X. rewrite xor_bytes_length_min in X. lia.
Qed.

Lemma published_blinding mem kp vp key iv cs k label m a :
  has_bytes mem kp key -> has_bytes mem vp iv -> length key = 16%nat -> length iv = 16%nat -> HcModel.hc128_initialize mem kp vp = Ret cs ->
  Z.of_nat k < 2 ^ 32 -> full_label label (k / 8) -> published cs k label m a ->
  let b := blinding k (HcSpec.hc_encrypt key iv (label_bytes label (k / 8))) in
  0 <= b < 2 ^ Z.of_nat k /\ a = (m - b) mod 2 ^ Z.of_nat k.
Proof.
  intros Hk Hv Lk Lv Ei K [F0 F] (fuel & stack & s & c & g & b & mr & y & N & lr & s' & g' & cs' & El & Em & Ea & St & D1 & D2 & D3 & D4 & D5 & D6 & D7 & R).
  subst label m. intros b0.
  pose proof (C65_labeled_he_full_label mem kp vp key iv fuel stack s c g cs b mr y N lr k s' g' cs' Hk Hv Lk Lv Ei K F F0 D1 D2 D3 D4 D5 D6 D7 R) as Eb.
  fold b0 in Eb.
  assert (SO : HcProofs.state_ok cs).
  { destruct (HcProofs.initialize_ok mem kp vp key iv) as (cs1 & E1 & S1 & _); try assumption. rewrite Ei in E1. apply Ret_inj in E1 as ->. exact S1. }
  destruct (C87_labeled_he_blinding_size fuel stack s c g cs b mr y N lr k s' g' cs' SO K D1 D2 D3 D4 D5 D6 D7 St R) as [B A].
  rewrite Eb in A, B. split; [pose proof (blinding_max k); lia|]. rewrite <- Ea. exact A.
Qed.

(** C130: with one message of length-filling label known, every other message
    follows from its label and public component: no key, no secret. *)
Theorem C130_labeled_he_labels_related : forall mem kp vp key iv cs k label label' m m' a a',
  has_bytes mem kp key -> has_bytes mem vp iv -> length key = 16%nat -> length iv = 16%nat -> HcModel.hc128_initialize mem kp vp = Ret cs ->
  Z.of_nat k < 2 ^ 32 -> (k mod 32 = 0)%nat ->
  full_label label (k / 8) -> full_label label' (k / 8) ->
  published cs k label m a -> published cs k label' m' a' ->
  m' mod 2 ^ Z.of_nat k = expose k label m a label' a'.
Proof.
  intros mem kp vp key iv cs k label label' m m' a a' Hk Hv Lk Lv Ei K M F F' P P'.
  destruct (published_blinding mem kp vp key iv cs k label m a Hk Hv Lk Lv Ei K F P) as [B A].
  destruct (published_blinding mem kp vp key iv cs k label' m' a' Hk Hv Lk Lv Ei K F' P') as [B' A'].
  assert (K8 : (k / 8 = 4 * (k / 32))%nat).
  { pose proof (Nat.div_mod k 32 ltac:(lia)). rewrite M, Nat.add_0_r in H. rewrite H at 1.
    replace (32 * (k / 32))%nat with (4 * (k / 32) * 8)%nat by lia. apply Nat.div_mul. lia. }
  set (d := label_bytes label (k / 8)) in *. set (d' := label_bytes label' (k / 8)) in *.
  assert (L : length d = (4 * (k / 32))%nat) by (unfold d, label_bytes; rewrite be_str_length; exact K8).
  assert (L' : length d' = (4 * (k / 32))%nat) by (unfold d', label_bytes; rewrite be_str_length; exact K8).
  assert (D : forall x, length x = (4 * (k / 32))%nat -> blinding k (HcSpec.hc_encrypt key iv x) = word_number (HcSpec.hc_encrypt key iv x)).
  { intros x Lx. unfold blinding. rewrite firstn_all2; [reflexivity|]. rewrite AeProofs.hc_encrypt_length. lia. }
  rewrite (D d L) in *. rewrite (D d' L') in *. clear D.
  assert (Bd : bytes_ok d) by apply be_str_ok.
  set (e := HcSpec.hc_encrypt key iv d) in *.
  assert (Le : length e = (4 * (k / 32))%nat) by (unfold e; rewrite AeProofs.hc_encrypt_length; exact L).
  assert (Be : bytes_ok e) by (apply AeProofs.hc_encrypt_ok; exact Bd).
  assert (Ee : HcSpec.hc_encrypt key iv d' = xor_bytes e (xor_bytes d d')) by (apply hc_encrypt_other; lia).
  assert (Q : (m - a) mod 2 ^ Z.of_nat k = word_number e).
  { rewrite A, Zminus_mod_idemp_r. replace (m - (m - word_number e)) with (word_number e) by lia. apply Z.mod_small. exact B. }
  unfold expose. fold d d'. rewrite Q, words_bytes_back by assumption. rewrite <- Ee, A', Zplus_mod_idemp_l.
  f_equal. lia.
Qed.
Print Assumptions C130_labeled_he_labels_related.

(** Refuted: two encryptions under different labels, and a function of what is
    public that gives the second message from the first. *)
Definition label_store (label m : Z) : store := [77309411329 * 11; 7; 77309411329; 0; m; label; 0; 0].
Definition label_run (cs : HcModel.hc128_state) (label m : Z) : res Z :=
  let* (s, _, _) := he_encrypt 2 (fun _ => None) (label_store label m) (Ct 6 7) (fun _ => 5) cs 3 4 1 0 5 32 in Ret (zget s 6).
Lemma label_run_published cs label m a : label_run cs label m = Ret a -> published cs 32 label m a.
Proof.
  unfold label_run. destruct (he_encrypt _ _ _ _ _ _ _ _ _ _ _ _) as [[[s' g'] cs']| |] eqn:R; cbn [bind]; try discriminate.
  intros E. apply Ret_inj in E. exists 2%nat, (fun _ => None), (label_store label m), (Ct 6 7), (fun _ => 5), 3%nat, 4%nat, 1%nat, 0%nat, 5%nat, s', g', cs'.
  split; [reflexivity|]. split; [reflexivity|]. split; [exact E|]. split; [intros i x H; discriminate H|].
  cbn [length label_store ct_a ct_beta]. repeat (split; [lia|]). exact R.
Qed.
Lemma published_ex : exists cs a a', HcModel.hc128_initialize main_mem (Ptr 0 0) (Ptr 1 0) = Ret cs /\
  published cs 32 0x01020304 10 a /\ published cs 32 0x7a6b5c4d 123456789 a' /\ expose 32 0x01020304 10 a 0x7a6b5c4d a' = 123456789.
Proof.
  assert (X : match (let* cs := HcModel.hc128_initialize main_mem (Ptr 0 0) (Ptr 1 0) in
                     let* a := label_run cs 0x01020304 10 in let* a' := label_run cs 0x7a6b5c4d 123456789 in
                     Ret (expose 32 0x01020304 10 a 0x7a6b5c4d a')) with Ret z => z =? 123456789 | _ => false end = true)
    by (rewrite main_cs_ok; vm_compute; reflexivity).
  destruct (HcModel.hc128_initialize main_mem (Ptr 0 0) (Ptr 1 0)) as [cs| |]; cbn [bind] in X; try discriminate.
  destruct (label_run cs 0x01020304 10) as [a| |] eqn:E1; cbn [bind] in X; try discriminate.
  destruct (label_run cs 0x7a6b5c4d 123456789) as [a'| |] eqn:E2; cbn [bind] in X; try discriminate.
  exists cs, a, a'. split; [reflexivity|]. split; [apply label_run_published; exact E1|]. split; [apply label_run_published; exact E2|].
  apply Z.eqb_eq. exact X.
Qed.
Theorem C130_labeled_he_labels_independent_refuted : exists k label label' m m' f cs a a',
  label <> label' /\ full_label label (k / 8) /\ full_label label' (k / 8) /\
  HcModel.hc128_initialize main_mem (Ptr 0 0) (Ptr 1 0) = Ret cs /\ published cs k label m a /\ published cs k label' m' a' /\ f m a a' = m' /\
  forall mem kp vp key iv cs m m' a a',
    has_bytes mem kp key -> has_bytes mem vp iv -> length key = 16%nat -> length iv = 16%nat -> HcModel.hc128_initialize mem kp vp = Ret cs ->
    published cs k label m a -> published cs k label' m' a' -> m' mod 2 ^ Z.of_nat k = f m a a'.
Proof.
  destruct published_ex as (cs & a & a' & E & P & P' & X).
  exists 32%nat, 0x01020304, 0x7a6b5c4d, 10, 123456789, (fun m a a' => expose 32 0x01020304 m a 0x7a6b5c4d a'), cs, a, a'.
  assert (F : full_label 0x01020304 (32 / 8)) by (split; [lia|]; split; [discriminate|reflexivity]).
  assert (F' : full_label 0x7a6b5c4d (32 / 8)) by (split; [lia|]; split; [discriminate|reflexivity]).
  split; [lia|]. split; [exact F|]. split; [exact F'|]. split; [exact E|]. split; [exact P|]. split; [exact P'|]. split; [exact X|].
  intros mem kp vp key iv cs0 m m' b b' Hk Hv Lk Lv Ei Q Q'.
  apply (C130_labeled_he_labels_related mem kp vp key iv cs0); try assumption; reflexivity.
Qed.
Print Assumptions C130_labeled_he_labels_independent_refuted.

Example C130_instance : full_label 0x01020304 (32 / 8) /\ (32 mod 32 = 0)%nat /\
  has_bytes main_mem (Ptr 0 0) [0; 1; 2; 3; 4; 5; 6; 7; 8; 9; 16; 17; 18; 19; 20; 21]%N /\ has_bytes main_mem (Ptr 1 0) (repeat 0%N 16).
Proof. split; [split; [lia|]; split; [discriminate|reflexivity]|]. split; [reflexivity|]. split; conc_has_bytes. Qed.
