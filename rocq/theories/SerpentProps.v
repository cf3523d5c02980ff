(** Property theorems C24-C26, C73 and C74 (BlockCiphers/Serpent, and the same code
    in StreamCiphers/Sosemanuk). *)
From Coq Require Import NArith ZArith Arith List Lia.
From Verif Require Import Res Words Mem MemSpec ListLemmas MemLemmas SpecWords WordsLemmas XorProofs ShaProofs Finite Concrete
  SerpentModel SerpentProofs SerpentInj.
From Verif Require SerpentSpec.
Import ListNotations.
Local Open Scope nat_scope.

(** C24: the eight S-box functions; the registers that hold the result are
    listed in order. *)
Theorem C24_serpent_sboxes : forall a b c d scratch,
  (a < 2^32 -> b < 2^32 -> c < 2^32 -> d < 2^32 ->
  (let '(r0, r1, r2, r3, r4) := S0 a b c d scratch in [r1; r4; r2; r0] = SerpentSpec.S_words 0 [a; b; c; d]) /\
  (let '(r0, r1, r2, r3, r4) := S1 a b c d scratch in [r2; r0; r3; r1] = SerpentSpec.S_words 1 [a; b; c; d]) /\
  (let '(r0, r1, r2, r3, r4) := S2 a b c d scratch in [r2; r3; r1; r4] = SerpentSpec.S_words 2 [a; b; c; d]) /\
  (let '(r0, r1, r2, r3, r4) := S3 a b c d scratch in [r1; r2; r3; r4] = SerpentSpec.S_words 3 [a; b; c; d]) /\
  (let '(r0, r1, r2, r3, r4) := S4 a b c d scratch in [r1; r4; r0; r3] = SerpentSpec.S_words 4 [a; b; c; d]) /\
  (let '(r0, r1, r2, r3, r4) := S5 a b c d scratch in [r1; r3; r0; r2] = SerpentSpec.S_words 5 [a; b; c; d]) /\
  (let '(r0, r1, r2, r3, r4) := S6 a b c d scratch in [r0; r1; r4; r2] = SerpentSpec.S_words 6 [a; b; c; d]) /\
  (let '(r0, r1, r2, r3, r4) := S7 a b c d scratch in [r4; r3; r1; r0] = SerpentSpec.S_words 7 [a; b; c; d]) /\
  (let '(r0, r1, r2, r3) := serpent1 a b c d scratch in [r0; r1; r2; r3] = SerpentSpec.S_words 2 [a; b; c; d]))%N.
Proof.
  intros a b c d e Ha Hb Hc Hd. assert (W : w4 a b c d) by (unfold w4; auto).
  split; [exact (S0_ok a b c d e W)|]. split; [exact (S1_ok a b c d e W)|].
  split; [exact (S2_ok a b c d e W)|]. split; [exact (S3_ok a b c d e W)|].
  split; [exact (S4_ok a b c d e W)|]. split; [exact (S5_ok a b c d e W)|].
  split; [exact (S6_ok a b c d e W)|]. split; [exact (S7_ok a b c d e W)|].
  unfold serpent1. pose proof (S2_ok a b c d e W) as H.
  destruct (S2 a b c d e) as [[[[? ?] ?] ?] ?]. exact H.
Qed.
Print Assumptions C24_serpent_sboxes.

(** The specification [S_words] really is the table applied to each of the 32
    bit columns. *)
Theorem C24_sbox_columns : forall k x i, k < 8 -> (i < 32)%N ->
  SerpentSpec.column (SerpentSpec.S_words k x) i = SerpentSpec.S_apply k (SerpentSpec.column x i).
Proof. exact S_words_column. Qed.
Print Assumptions C24_sbox_columns.

Example C24_instance : (0xdeadbeef < 2^32)%N /\ 7 < 8 /\
  SerpentSpec.S_words 0 [0xffffffff; 0; 0; 0]%N = [0; 0; 0; 0xffffffff]%N.
Proof. vm_compute. auto. Qed.

(** C25: the key schedule.  What the code computes for every key of up to 32
    bytes: the subkeys of the 256-bit key that is the key, the byte 0x80 and
    zero bytes. *)
Theorem C25_serpent_key_schedule_exact : forall scratch m key k,
  has_bytes m key k -> length k <= 32 ->
  serpent_key_schedule scratch m key (Z.of_nat (length k)) =
  Ret (Some (concat (SerpentSpec.subkeys_of (SerpentSpec.pad_with 0x80 k)))).
Proof. exact key_schedule_ok. Qed.
Print Assumptions C25_serpent_key_schedule_exact.

Lemma concat4_inj (a b : list (list N)) : Forall (fun k => length k = 4) a -> Forall (fun k => length k = 4) b ->
  length a = length b -> concat a = concat b -> a = b.
Proof.
  intros Ha. revert b. induction Ha as [|x a Hx Ha IH]; intros b Hb L E; destruct b as [|y b]; try discriminate L; [reflexivity|].
  inversion Hb as [|? ? Hy Hb']; subst. cbn [concat] in E. cbn [length] in L.
  apply app_inv_length in E; [|lia]. destruct E as [-> E]. f_equal. apply IH; auto.
Qed.

Lemma keys4 k : Forall (fun x => length x = 4) (SerpentSpec.subkeys_of k).
Proof. eapply Forall_impl; [|apply subkey_list_ok]. intros x [H _]. exact H. Qed.

(** C25 is false for every key shorter than 32 bytes: Serpent pads with the byte
    0x01, so the subkeys are always different from the specified ones. *)
Theorem C25_serpent_short_keys_wrong : forall scratch m key k,
  has_bytes m key k -> length k <= 32 ->
  (serpent_key_schedule scratch m key (Z.of_nat (length k)) = Ret (Some (concat (SerpentSpec.subkey_list k))) <->
   length k = 32).
Proof.
  intros scratch m key k Hk L. rewrite key_schedule_ok by assumption.
  assert (Bk := has_bytes_bytes _ _ _ Hk). split.
  - intros E. destruct (Nat.eq_dec (length k) 32) as [|N]; [assumption|exfalso]. apply Ret_inj in E.
    assert (X : concat (SerpentSpec.subkeys_of (SerpentSpec.pad_with 0x80 k)) = concat (SerpentSpec.subkey_list k)) by congruence.
    change (SerpentSpec.subkey_list k) with (SerpentSpec.subkeys_of (SerpentSpec.pad_with 0x01 k)) in X.
    apply concat4_inj in X; [|apply keys4|apply keys4|rewrite !subkey_list_length; reflexivity].
    apply subkeys_of_inj in X;
      [|apply pad_with_bytes; [reflexivity|exact Bk]|apply pad_with_bytes; [reflexivity|exact Bk]
       |apply pad_with_length; exact L|apply pad_with_length; exact L].
    apply pad_with_first in X; [discriminate X|]. clear X E. lia.
  - intros E. unfold SerpentSpec.subkey_list, SerpentSpec.pad_key. rewrite !pad_with_full by exact E. reflexivity.
Qed.
Print Assumptions C25_serpent_short_keys_wrong.

Theorem C25_serpent_key_schedule_refuted : exists scratch m key k,
  has_bytes m key k /\ length k = 16 /\
  serpent_key_schedule scratch m key 16 <> Ret (Some (concat (SerpentSpec.subkey_list k))).
Proof.
  exists 0%N, [holding (repeat 1%N 16)], (Ptr 0 0), (repeat 1%N 16).
  assert (H : has_bytes [holding (repeat 1%N 16)] (Ptr 0 0) (repeat 1%N 16)) by conc_has_bytes.
  split; [exact H|]. split; [reflexivity|]. intros E.
  apply (C25_serpent_short_keys_wrong 0 _ _ _ H) in E; rewrite repeat_length in *; [discriminate E|lia].
Qed.
Print Assumptions C25_serpent_key_schedule_refuted.

(** Longer keys end the program without reading anything. *)
Theorem C25_serpent_long_key : forall scratch m key size,
  (32 < size)%Z -> serpent_key_schedule scratch m key size = Ret None.
Proof.
  intros. unfold serpent_key_schedule. destruct (Z.ltb_spec 32 size); [reflexivity|lia].
Qed.
Print Assumptions C25_serpent_long_key.

Example C25_instance :
  let m := [holding (repeat 1%N 20)] in
  has_bytes m (Ptr 0 0) (repeat 1%N 20) /\ length (repeat 1%N 20) <= 32.
Proof. split; [conc_has_bytes|]. rewrite repeat_length. lia. Qed.

(** C74: with a 256-bit key the subkeys are Serpent's and the rounds are
    Serpent's.  The 48 bytes written are the states after 12, 18 and 24 rounds,
    and nothing else changes, wherever the output buffer is. *)
Theorem C74_serpent_is_serpent24 : forall scratch scratch' m key k m' out inp b,
  has_bytes m key k -> length k = 32 ->
  has_bytes m' inp b -> length b = 16 -> writable m' out 48 ->
  exists RK,
    serpent_key_schedule scratch m key 32 = Ret (Some RK) /\
    RK = concat (SerpentSpec.subkey_list k) /\
    serpent_process_packet RK scratch' m' out inp 16 =
    Ret (write_at m' out (flat_map (le_str 4)
      (concat (SerpentSpec.serpent24 (SerpentSpec.subkey_list k) (SerpentSpec.block_words b))))).
Proof.
  intros scratch scratch' m key k m' out inp b Hk Lk Hb Lb Wo.
  exists (concat (SerpentSpec.subkey_list k)).
  split; [change 32%Z with (Z.of_nat 32); rewrite <- Lk; apply C25_serpent_short_keys_wrong; [exact Hk|lia|exact Lk]|].
  split; [reflexivity|]. rewrite <- le_bytes_spec.
  apply serpent_block_ok; try assumption; [apply subkey_list_ok|apply subkey_list_length].
Qed.
Print Assumptions C74_serpent_is_serpent24.

(** The rounds are Serpent's for any subkeys, so for a shorter key the output is
    that of the key extended with 0x80 and zeros. *)
Theorem C74_serpent_rounds : forall scratch ks m out inp b,
  length ks = 25 -> Forall (fun x => length x = 4 /\ words_ok x) ks ->
  has_bytes m inp b -> length b = 16 -> writable m out 48 ->
  serpent_process_packet (concat ks) scratch m out inp 16 =
  Ret (write_at m out (flat_map (le_str 4) (concat (SerpentSpec.serpent24 ks (SerpentSpec.block_words b))))).
Proof.
  intros. rewrite <- le_bytes_spec. apply serpent_block_ok; assumption.
Qed.
Print Assumptions C74_serpent_rounds.

Example C74_instance :
  let m := [holding (repeat 1%N 32); holding (repeat 7%N 16); fresh 48] in
  has_bytes m (Ptr 0 0) (repeat 1%N 32) /\ has_bytes m (Ptr 1 0) (repeat 7%N 16) /\ writable m (Ptr 2 0) 48 /\
  length (SerpentSpec.subkey_list []) = 25 /\ Forall (fun x => length x = 4 /\ words_ok x) (SerpentSpec.subkey_list []).
Proof.
  split; [conc_has_bytes|]. split; [conc_has_bytes|]. split; [conc_writable|].
  split; [apply subkey_list_length|apply subkey_list_ok].
Qed.

(** C26 is false: two blocks overflow the local array. *)
Theorem C26_serpent_safe_refuted : exists RK scratch m out inp b,
  has_bytes m inp b /\ length b = 32 /\ writable m out 96 /\
  serpent_process_packet RK scratch m out inp 32 = UB.
Proof.
  exists [], 0%N, [holding (repeat 7%N 32); fresh 96], (Ptr 1 0), (Ptr 0 0), (repeat 7%N 32).
  split; [conc_has_bytes|]. split; [reflexivity|]. split; [conc_writable|]. vm_compute. reflexivity.
Qed.
Print Assumptions C26_serpent_safe_refuted.

(** Exactly which sizes are safe: no bytes (nothing happens) and one block. *)
Theorem C26_serpent_safe_exact : forall scratch m out inp b ks,
  length ks = 25 -> Forall (fun x => length x = 4 /\ words_ok x) ks ->
  has_bytes m inp b -> writable m out 48 ->
  (serpent_process_packet (concat ks) scratch m out inp (N.of_nat (length b)) <> UB <->
   length b = 0 \/ length b = 16).
Proof.
  intros scratch m out inp b ks Lks Wks Hb Wo. split.
  - intros H. destruct (Nat.eq_dec (length b) 0); [auto|]. destruct (Nat.eq_dec (length b) 16); [auto|].
    exfalso. apply H. destruct (Nat.lt_ge_cases (length b) 16).
    + apply serpent_block_short; [exact Hb|lia].
    + apply serpent_block_long; [exact Hb|lia].
  - intros [E|E]; rewrite E.
    + rewrite serpent_block_empty. discriminate.
    + rewrite (serpent_block_ok _ _ _ _ _ b); auto. discriminate.
Qed.
Print Assumptions C26_serpent_safe_exact.

Example C26_instance :
  let m := [holding (repeat 7%N 16); fresh 48] in
  has_bytes m (Ptr 0 0) (repeat 7%N 16) /\ writable m (Ptr 1 0) 48.
Proof. split; [conc_has_bytes|conc_writable]. Qed.

Lemma le_num_le_str4 w : (w < 2^32)%N -> le_num (le_str 4 w) = w.
Proof. intros H. rewrite le_num_str. apply N.mod_small. exact H. Qed.
Lemma block_words_is4 b : length b = 16 -> bytes_ok b -> is4 (SerpentSpec.block_words b).
Proof. intros L H. destruct (words_le_ok b 4 H L) as [W Lw]. split; [exact Lw|exact W]. Qed.
Lemma serpent24_is4 ks x t : keys_ok ks -> length ks = 25 -> is4 x -> t < 3 -> is4 (nth t (SerpentSpec.serpent24 ks x) []).
Proof.
  intros K L I Ht. destruct t as [|[|[|t]]]; [..|lia]; cbn [nth SerpentSpec.serpent24].
  - apply after_is4; auto. lia.
  - apply after_is4; auto. lia.
  - apply xor_words_is4; [apply after_is4; auto; lia|apply key_is4; auto; lia].
Qed.
Lemma le_str_words_inj x y : is4 x -> is4 y -> flat_map (le_str 4) x = flat_map (le_str 4) y -> x = y.
Proof.
  intros X Y E. destruct (is4_inv x X) as (a & b & c & d & -> & Ha & Hb & Hc & Hd).
  destruct (is4_inv y Y) as (a' & b' & c' & d' & -> & Ha' & Hb' & Hc' & Hd').
  cbn [flat_map] in E. rewrite !app_nil_r in E.
  assert (G : forall u v p q, (u < 2^32)%N -> (v < 2^32)%N -> le_str 4 u ++ p = le_str 4 v ++ q -> u = v /\ p = q).
  { intros u v p q Hu Hv W. apply app_inv_length in W; [|reflexivity]. destruct W as [W ->]. split; [|reflexivity].
    rewrite <- (le_num_le_str4 u Hu), <- (le_num_le_str4 v Hv), W. reflexivity. }
  apply G in E; try assumption. destruct E as [-> E]. apply G in E; try assumption. destruct E as [-> E].
  apply G in E; try assumption. destruct E as [-> E].
  rewrite <- (le_num_le_str4 d Hd), <- (le_num_le_str4 d' Hd'), E. reflexivity.
Qed.
Lemma read_tap m out ks x t : writable m out 48 -> keys_ok ks -> length ks = 25 -> is4 x -> t < 3 ->
  ldn (write_at m out (flat_map (le_str 4) (concat (SerpentSpec.serpent24 ks x)))) (padd out (16 * t)) 16 =
  Ret (flat_map (le_str 4) (nth t (SerpentSpec.serpent24 ks x) [])).
Proof.
  intros W K L I Ht.
  set (P := concat (SerpentSpec.serpent24 ks x)). set (bs := flat_map (le_str 4) P).
  assert (I0 := serpent24_is4 ks x 0 K L I ltac:(lia)). assert (I1 := serpent24_is4 ks x 1 K L I ltac:(lia)).
  assert (I2 := serpent24_is4 ks x 2 K L I ltac:(lia)).
  assert (E : bs = flat_map (le_str 4) (nth 0 (SerpentSpec.serpent24 ks x) []) ++
    flat_map (le_str 4) (nth 1 (SerpentSpec.serpent24 ks x) []) ++ flat_map (le_str 4) (nth 2 (SerpentSpec.serpent24 ks x) [])).
  { unfold bs, P, SerpentSpec.serpent24. cbn [concat nth]. rewrite app_nil_r, !flat_map_app. reflexivity. }
  assert (G : forall u, is4 u -> length (flat_map (le_str 4) u) = 16).
  { intros u Hu. destruct (is4_inv u Hu) as (a & b & c & d & -> & _). reflexivity. }
  pose proof (G _ I0) as G0. pose proof (G _ I1) as G1. pose proof (G _ I2) as G2.
  assert (Lb : length bs = 48) by (rewrite E, !app_length, G0, G1, G2; reflexivity).
  assert (B : bytes_ok bs). { unfold bs. apply Forall_flat_map, Forall_forall. intros w _. apply le_str_ok. }
  assert (H : has_bytes (write_at m out bs) out bs) by (apply has_bytes_write_same; [rewrite Lb; exact W|exact B]).
  rewrite E in H at 2. apply has_bytes_app in H. destruct H as [H0 H]. rewrite G0 in H.
  apply has_bytes_app in H. destruct H as [H1 H]. rewrite G1, padd_padd in H.
  apply has_bytes_ldn in H0, H1, H. rewrite G0 in H0. rewrite G1 in H1. rewrite G2 in H.
  destruct t as [|[|[|t]]]; [..|lia].
  - change (16 * 0) with 0. rewrite padd_0. exact H0.
  - exact H1.
  - exact H.
Qed.

(** C73: different keys of one length give different subkeys, and under one key
    different blocks give different outputs. *)
Theorem C73_serpent_keys_distinct : forall scratch scratch' m key k m' key' k' RK,
  has_bytes m key k -> has_bytes m' key' k' -> length k = length k' -> length k <= 32 ->
  serpent_key_schedule scratch m key (Z.of_nat (length k)) = Ret (Some RK) ->
  serpent_key_schedule scratch' m' key' (Z.of_nat (length k')) = Ret (Some RK) ->
  k = k'.
Proof.
  intros scratch scratch' m key k m' key' k' RK Hk Hk' LL L E E'.
  rewrite key_schedule_ok in E by assumption. rewrite key_schedule_ok in E' by (auto; lia).
  apply Ret_inj in E. apply Ret_inj in E'. rewrite <- E in E'.
  assert (X : concat (SerpentSpec.subkeys_of (SerpentSpec.pad_with 0x80 k')) =
    concat (SerpentSpec.subkeys_of (SerpentSpec.pad_with 0x80 k))) by congruence.
  symmetry in X. apply concat4_inj in X; [|apply keys4|apply keys4|rewrite !subkey_list_length; reflexivity].
  assert (Bk := has_bytes_bytes _ _ _ Hk). assert (Bk' := has_bytes_bytes _ _ _ Hk').
  apply subkeys_of_inj in X;
    [|apply pad_with_bytes; [reflexivity|assumption]|apply pad_with_bytes; [reflexivity|assumption]
     |apply pad_with_length; lia|apply pad_with_length; lia].
  apply pad_with_inj in X; auto.
Qed.
Print Assumptions C73_serpent_keys_distinct.

(** At every one of the three points where the state is given out. *)
Theorem C73_serpent_blocks_distinct : forall scratch m key k RK s1 m1 out1 inp1 b1 r1 s2 m2 out2 inp2 b2 r2 t,
  has_bytes m key k -> length k <= 32 -> serpent_key_schedule scratch m key (Z.of_nat (length k)) = Ret (Some RK) ->
  has_bytes m1 inp1 b1 -> length b1 = 16 -> writable m1 out1 48 -> serpent_process_packet RK s1 m1 out1 inp1 16 = Ret r1 ->
  has_bytes m2 inp2 b2 -> length b2 = 16 -> writable m2 out2 48 -> serpent_process_packet RK s2 m2 out2 inp2 16 = Ret r2 ->
  t < 3 -> ldn r1 (padd out1 (16 * t)) 16 = ldn r2 (padd out2 (16 * t)) 16 -> b1 = b2.
Proof.
  intros scratch m key k RK s1 m1 out1 inp1 b1 r1 s2 m2 out2 inp2 b2 r2 t Hk Lk E H1 L1 W1 E1 H2 L2 W2 E2 Ht T.
  rewrite key_schedule_ok in E by assumption. apply Ret_inj in E.
  set (ks := SerpentSpec.subkeys_of (SerpentSpec.pad_with 0x80 k)) in *.
  assert (RK = concat ks) by congruence. subst RK. clear E.
  assert (K : keys_ok ks) by apply subkey_list_ok. assert (Lks : length ks = 25) by reflexivity. clearbody ks.
  rewrite (serpent_block_ok _ _ _ _ _ b1) in E1 by assumption. rewrite (serpent_block_ok _ _ _ _ _ b2) in E2 by assumption.
  apply Ret_inj in E1. apply Ret_inj in E2. subst r1 r2. rewrite !le_bytes_spec in T.
  assert (B1 := has_bytes_bytes _ _ _ H1). assert (B2 := has_bytes_bytes _ _ _ H2).
  assert (I1 := block_words_is4 _ L1 B1). assert (I2 := block_words_is4 _ L2 B2).
  rewrite !read_tap in T by assumption. apply Ret_inj in T.
  apply (le_words_inj 4 b1 b2 B1 B2 L1 L2). change (SerpentSpec.block_words b1 = SerpentSpec.block_words b2).
  assert (X : nth t (SerpentSpec.serpent24 ks (SerpentSpec.block_words b1)) [] = nth t (SerpentSpec.serpent24 ks (SerpentSpec.block_words b2)) []).
  { apply le_str_words_inj; [apply serpent24_is4; assumption..|exact T]. }
  destruct t as [|[|[|t]]]; [..|lia]; cbn [nth SerpentSpec.serpent24] in X.
  - apply after_inj in X; auto. lia.
  - apply after_inj in X; auto. lia.
  - apply xor_words_inj in X; [|apply after_is4; auto; lia|apply after_is4; auto; lia|apply key_is4; auto; lia].
    apply after_inj in X; auto. lia.
Qed.
Print Assumptions C73_serpent_blocks_distinct.

(** Keys of different lengths may collide, as the padding intends. *)
Example C73_lengths_collide :
  SerpentSpec.pad_with 0x80 [1; 2]%N = SerpentSpec.pad_with 0x80 ([1; 2; 0x80] ++ repeat 0 29)%N.
Proof. vm_compute. reflexivity. Qed.
Example C73_instance :
  let m := [holding (repeat 1%N 16)] in
  let m1 := [holding (repeat 0%N 16); fresh 48] in
  let m2 := [holding (repeat 0%N 15 ++ [1%N]); fresh 48] in
  has_bytes m (Ptr 0 0) (repeat 1%N 16) /\ words_ok [1; 2; 3; 0xffffffff]%N /\
  has_bytes m1 (Ptr 0 0) (repeat 0%N 16) /\ writable m1 (Ptr 1 0) 48 /\
  has_bytes m2 (Ptr 0 0) (repeat 0%N 15 ++ [1%N]) /\ writable m2 (Ptr 1 0) 48 /\
  match serpent_key_schedule 0 m (Ptr 0 0) 16 with
  | Ret (Some RK) =>
      match serpent_process_packet RK 0 m1 (Ptr 1 0) (Ptr 0 0) 16, serpent_process_packet RK 0 m2 (Ptr 1 0) (Ptr 0 0) 16 with
      | Ret r1, Ret r2 => ldn r1 (Ptr 1 0) 16 <> ldn r2 (Ptr 1 0) 16
      | _, _ => False
      end
  | _ => False
  end.
Proof.
  cbv zeta. split; [conc_has_bytes|]. split; [apply words_ok_forallb; vm_compute; reflexivity|].
  split; [conc_has_bytes|]. split; [conc_writable|]. split; [conc_has_bytes|]. split; [conc_writable|].
  vm_compute. intros X. discriminate X.
Qed.
