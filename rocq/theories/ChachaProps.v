(** Property theorems C11-C14, C70, C71 (StreamCiphers/ChaCha). *)
From Coq Require Import NArith ZArith Arith List Lia.
From Verif Require Import Res Words Mem Ints MemSpec ListLemmas MemLemmas SpecWords WordsLemmas
  XorProofs Concrete StreamProofs ChachaSpec ChachaModel ChachaProofs.
Import ListNotations.

(** C11: initialising and processing a packet writes the RFC 7539 encryption
    and changes nothing else.  [nr] is the round count selected at compile time
    (20, 12, 8); the statement holds for any. *)
Theorem C11_chacha_is_rfc7539 : forall nr m key k nonce n out inp data,
  has_bytes m key k -> length k = 32 -> has_bytes m nonce n -> length n = 12 ->
  has_bytes m inp data -> writable m out (length data) ->
  same_or_disjoint out inp (length data) -> (Z.of_nat (length data) < 2^31)%Z ->
  exists cs cs',
    chacha_initialize m key nonce = Ret cs /\
    chacha_process_packet nr cs m out inp (N.of_nat (length data)) =
      Ret (cs', write_at m out (chacha_encrypt nr k n data)).
Proof.
  intros nr m key k nonce n out inp data Hk Lk Hn Ln Hin Hout Hov Hlen.
  pose proof (has_bytes_bytes _ _ _ Hk) as Ok. pose proof (has_bytes_bytes _ _ _ Hn) as On.
  destruct (process_ok k n Ok On Lk Ln nr 1 m out inp data) as [c E]; auto.
  exists (init_words k n 1). eexists. split; [apply initialize_spec; auto|exact E].
Qed.
Print Assumptions C11_chacha_is_rfc7539.

(** Concrete case: 67 bytes (a whole block and a partial word), in place, with
    the first block of RFC 7539 section 2.3.2 as key stream. *)
Example C11_instance :
  let k := map N.of_nat (seq 0 32) in
  let n := [0; 0; 0; 9; 0; 0; 0; 0x4a; 0; 0; 0; 0]%N in
  let m := [holding k; holding n; holding (repeat 7%N 67)] in
  has_bytes m (Ptr 0 0) k /\ has_bytes m (Ptr 1 0) n /\ has_bytes m (Ptr 2 0) (repeat 7%N 67) /\
  writable m (Ptr 2 0) 67 /\ same_or_disjoint (Ptr 2 0) (Ptr 2 0) 67 /\
  exists cs cs' m', chacha_initialize m (Ptr 0 0) (Ptr 1 0) = Ret cs /\
    chacha_process_packet 20 cs m (Ptr 2 0) (Ptr 2 0) 67 = Ret (cs', m') /\
    ldn m' (Ptr 2 0) 5 = Ret [0x17; 0xf6; 0xe0; 0xe3; 0xd6]%N.
Proof.
  split; [conc_has_bytes|split; [conc_has_bytes|split; [conc_has_bytes|split; [conc_writable|]]]].
  split; [left; reflexivity|]. do 3 eexists. split; [vm_compute; reflexivity|split; [vm_compute; reflexivity|vm_compute; reflexivity]].
Qed.

(** C12: processing the result with an equally initialised state restores the data. *)
Theorem C12_chacha_round_trip : forall nr m key k nonce n out inp back data,
  has_bytes m key k -> length k = 32 -> has_bytes m nonce n -> length n = 12 ->
  has_bytes m inp data -> writable m out (length data) -> same_or_disjoint out inp (length data) ->
  writable m back (length data) -> same_or_disjoint back out (length data) ->
  (Z.of_nat (length data) < 2^31)%Z ->
  exists cs cs1 m1 cs2,
    chacha_initialize m key nonce = Ret cs /\
    chacha_process_packet nr cs m out inp (N.of_nat (length data)) = Ret (cs1, m1) /\
    chacha_process_packet nr cs m1 back out (N.of_nat (length data)) = Ret (cs2, write_at m1 back data).
Proof. exact chacha_round_trip. Qed.
Print Assumptions C12_chacha_round_trip.

Example C12_instance :
  let m := [holding (repeat 1%N 32); holding (repeat 2%N 12); holding [72; 105; 33]%N; fresh 3; fresh 3] in
  has_bytes m (Ptr 2 0) [72; 105; 33]%N /\ writable m (Ptr 3 0) 3 /\ writable m (Ptr 4 0) 3 /\
  same_or_disjoint (Ptr 3 0) (Ptr 2 0) 3 /\ same_or_disjoint (Ptr 4 0) (Ptr 3 0) 3 /\
  exists cs cs1 m1 cs2 m2, chacha_initialize m (Ptr 0 0) (Ptr 1 0) = Ret cs /\
    chacha_process_packet 20 cs m (Ptr 3 0) (Ptr 2 0) 3 = Ret (cs1, m1) /\
    chacha_process_packet 20 cs m1 (Ptr 4 0) (Ptr 3 0) 3 = Ret (cs2, m2) /\
    ldn m1 (Ptr 3 0) 3 <> Ret [72; 105; 33]%N /\ ldn m2 (Ptr 4 0) 3 = Ret [72; 105; 33]%N.
Proof.
  split; [conc_has_bytes|split; [conc_writable|split; [conc_writable|]]].
  split; [right; conc_disjoint|split; [right; conc_disjoint|]].
  do 5 eexists. split; [vm_compute; reflexivity|]. split; [vm_compute; reflexivity|].
  split; [vm_compute; reflexivity|]. split; [vm_compute; discriminate|vm_compute; reflexivity].
Qed.

(** The states a caller can hold: the initialised one, and whatever any number
    of successful calls of any kind leave behind. *)
Inductive held nr : chacha_state -> chacha_state -> Prop :=
| held_init cs : held nr cs cs
| held_step cs cs1 cs2 m out inp size m' :
    held nr cs cs1 -> chacha_process_packet nr cs1 m out inp size = Ret (cs2, m') -> held nr cs cs2.

(** C13: after any history the next packet is encrypted from block counter 1. *)
Theorem C13_chacha_history_independent : forall nr m0 key k nonce n cs cs' m out inp data,
  has_bytes m0 key k -> length k = 32 -> has_bytes m0 nonce n -> length n = 12 ->
  chacha_initialize m0 key nonce = Ret cs -> held nr cs cs' ->
  has_bytes m inp data -> writable m out (length data) ->
  same_or_disjoint out inp (length data) -> (Z.of_nat (length data) < 2^31)%Z ->
  exists cs'', chacha_process_packet nr cs' m out inp (N.of_nat (length data)) =
    Ret (cs'', write_at m out (chacha_encrypt nr k n data)).
Proof.
  intros nr m0 key k nonce n cs cs' m out inp data Hk Lk Hn Ln Ei Hh Hin Hout Hov Hlen.
  pose proof (has_bytes_bytes _ _ _ Hk) as Ok. pose proof (has_bytes_bytes _ _ _ Hn) as On.
  assert (C : exists c, cs' = init_words k n c).
  { assert (Ei' : chacha_initialize m0 key nonce = Ret (init_words k n 1)) by (apply initialize_spec; auto).
    rewrite Ei' in Ei. injection Ei as Ei.
    induction Hh as [cs|cs cs1 cs2 m1 o1 i1 size m2 H IH E].
    - exists 1%N. auto.
    - destruct (IH Ei) as [c ->]. apply process_state in E; auto. }
  destruct C as [c ->].
  destruct (process_ok k n Ok On Lk Ln nr c m out inp data) as [c' E]; auto.
  eexists. exact E.
Qed.
Print Assumptions C13_chacha_history_independent.

(** Hence two packets under one key and nonce reveal the XOR of their contents. *)
Lemma reused nr k n p1 p2 :
  bytes_ok k -> length k = 32 -> bytes_ok n -> length n = 12 -> length p1 = length p2 ->
  xor_bytes (chacha_encrypt nr k n p1) (chacha_encrypt nr k n p2) = xor_bytes p1 p2.
Proof.
  intros Ok Lk On Ln L. unfold chacha_encrypt. rewrite <- L.
  set (s := chacha_stream nr k n (length p1 / 64 + 1)).
  assert (Ls : length p1 <= length s).
  { unfold s. rewrite stream_length by auto.
    pose proof (Nat.div_mod (length p1) 64 ltac:(lia)).
    pose proof (Nat.mod_upper_bound (length p1) 64 ltac:(lia)). lia. }
  clearbody s. revert p2 s L Ls. induction p1 as [|a p1 IH]; intros [|b p2] s L Ls; try discriminate; auto.
  destruct s as [|c s]; [cbn in Ls; lia|]. unfold xor_bytes in *. cbn [combine map fst snd]. f_equal.
  - rewrite <- N.lxor_assoc, (N.lxor_comm (N.lxor a c) b), <- N.lxor_assoc, (N.lxor_assoc (N.lxor b a)),
      N.lxor_nilpotent, N.lxor_0_r, N.lxor_comm. reflexivity.
  - apply IH; cbn in L, Ls; lia.
Qed.

Theorem C13_chacha_keystream_reused : forall nr m0 key k nonce n cs cs1 cs2 m1 out1 inp1 p1 m2 out2 inp2 p2,
  has_bytes m0 key k -> length k = 32 -> has_bytes m0 nonce n -> length n = 12 ->
  chacha_initialize m0 key nonce = Ret cs -> held nr cs cs1 -> held nr cs cs2 ->
  has_bytes m1 inp1 p1 -> writable m1 out1 (length p1) -> same_or_disjoint out1 inp1 (length p1) ->
  has_bytes m2 inp2 p2 -> writable m2 out2 (length p2) -> same_or_disjoint out2 inp2 (length p2) ->
  length p1 = length p2 -> (Z.of_nat (length p1) < 2^31)%Z ->
  exists cs1' cs2' e1 e2,
    chacha_process_packet nr cs1 m1 out1 inp1 (N.of_nat (length p1)) = Ret (cs1', write_at m1 out1 e1) /\
    chacha_process_packet nr cs2 m2 out2 inp2 (N.of_nat (length p2)) = Ret (cs2', write_at m2 out2 e2) /\
    length e1 = length p1 /\ length e2 = length p2 /\ xor_bytes e1 e2 = xor_bytes p1 p2.
Proof.
  intros nr m0 key k nonce n cs cs1 cs2 m1 out1 inp1 p1 m2 out2 inp2 p2 Hk Lk Hn Ln Ei H1 H2 I1 O1 S1 I2 O2 S2 L Hlen.
  pose proof (has_bytes_bytes _ _ _ Hk) as Ok. pose proof (has_bytes_bytes _ _ _ Hn) as On.
  destruct (C13_chacha_history_independent nr m0 key k nonce n cs cs1 m1 out1 inp1 p1) as [c1 E1]; auto.
  destruct (C13_chacha_history_independent nr m0 key k nonce n cs cs2 m2 out2 inp2 p2) as [c2 E2]; auto; [rewrite <- L; exact Hlen|].
  assert (Le : forall p, length (chacha_encrypt nr k n p) = length p).
  { intros p. unfold chacha_encrypt. rewrite xor_bytes_length_min, stream_length by auto.
    pose proof (Nat.div_mod (length p) 64 ltac:(lia)).
    pose proof (Nat.mod_upper_bound (length p) 64 ltac:(lia)). lia. }
  exists c1, c2, (chacha_encrypt nr k n p1), (chacha_encrypt nr k n p2).
  split; [exact E1|]. split; [exact E2|]. split; [apply Le|]. split; [apply Le|]. apply reused; assumption.
Qed.
Print Assumptions C13_chacha_keystream_reused.

(** Concrete case: after a first packet of 5 bytes, the second packet still is
    the RFC encryption from counter 1. *)
Example C13_instance :
  let k := repeat 1%N 32 in let n := repeat 2%N 12 in
  let m := [holding k; holding n; holding [1; 2; 3; 4; 5]%N; fresh 5] in
  exists cs cs' m',
    chacha_initialize m (Ptr 0 0) (Ptr 1 0) = Ret cs /\
    chacha_process_packet 20 cs m (Ptr 3 0) (Ptr 2 0) 5 = Ret (cs', m') /\ held 20 cs cs' /\
    exists cs'', chacha_process_packet 20 cs' m' (Ptr 3 0) (Ptr 2 0) 5 =
    Ret (cs'', [holding k; holding n; holding [1; 2; 3; 4; 5]%N;
                holding (chacha_encrypt 20 k n [1; 2; 3; 4; 5]%N)]).
Proof.
  do 3 eexists. split; [vm_compute; reflexivity|]. split; [vm_compute; reflexivity|]. split.
  - eapply held_step with (m := [holding (repeat 1%N 32); holding (repeat 2%N 12); holding [1; 2; 3; 4; 5]%N; fresh 5])
      (out := Ptr 3 0) (inp := Ptr 2 0) (size := 5%N); [apply held_init|vm_compute; reflexivity].
  - eexists. vm_compute. reflexivity.
Qed.

(** C14: the rounds of chacha_block are double rounds of RFC 7539, and form a
    permutation of the 512-bit states. *)
Theorem C14_chacha_block_is_rfc7539 : forall nr cs counter,
  length cs = 16 -> words_ok cs -> (counter < 2^32)%N ->
  snd (chacha_block nr cs counter) = chacha_block_words nr (upd 12 counter cs) /\
  fst (chacha_block nr cs counter) = upd 12 counter cs.
Proof.
  intros nr cs ctr L W C. rewrite chacha_block_spec; auto. apply Forall_upd; auto.
Qed.
Print Assumptions C14_chacha_block_is_rfc7539.

Theorem C14_chacha_rounds_permute : forall nr,
  let rounds w := iter_n (nr / 2) 0 (fun _ w => inner_block w) w in
  let state w := length w = 16 /\ words_ok w in
  (forall w, state w -> state (rounds w) /\
     rounds w = grid_words (iter (nr / 2) double_round (grid_of w))) /\
  (forall w w', state w -> state w' -> rounds w = rounds w' -> w = w') /\
  (forall w, state w -> exists w', state w' /\ rounds w' = w).
Proof.
  intros nr rounds state.
  assert (G : forall w, state w -> grid_ok (grid_of w)).
  { intros w [L W]. unfold grid_ok. rewrite grid_words_of; auto. }
  assert (GO : forall n g, grid_ok g -> grid_ok (iter n double_round g)).
  { intros n. induction n as [|n IH]; intros g Hg; [exact Hg|].
    change (grid_ok (double_round (iter n double_round g))).
    unfold double_round at 1. apply unshift_ok, columns_ok, shift_ok, columns_ok, IH, Hg. }
  assert (R : forall w, state w -> rounds w = grid_words (iter (nr / 2) double_round (grid_of w))).
  { intros w S. unfold rounds. rewrite <- (grid_words_of w) at 1 by apply S.
    apply inner_iter; auto. }
  split; [|split].
  - intros w S. split; [|auto]. rewrite R by auto. split; [apply grid_words_length|apply GO; auto].
  - intros w w' S S' E. rewrite !R in E by auto.
    apply (f_equal grid_of) in E. rewrite !grid_of_words in E.
    apply iter_double_inj in E; auto. apply (f_equal grid_words) in E.
    rewrite !grid_words_of in E by (apply S || apply S'). exact E.
  - intros w S. destruct (iter_double_surj (nr / 2) (grid_of w) (G w S)) as [g [Og Eg]].
    exists (grid_words g). assert (S' : state (grid_words g)) by (split; [apply grid_words_length|exact Og]).
    split; [exact S'|]. rewrite R by exact S'. rewrite grid_of_words, Eg. apply grid_words_of, S.
Qed.
Print Assumptions C14_chacha_rounds_permute.

Example C14_instance : length (map N.of_nat (seq 0 16)) = 16 /\ words_ok (map N.of_nat (seq 0 16)) /\
  nth 0 (iter_n (20 / 2) 0 (fun _ w => inner_block w) (map N.of_nat (seq 0 16))) 0%N <> 0%N.
Proof.
  split; [reflexivity|split; [|vm_compute; discriminate]].
  apply Forall_forall. intros x Hx. apply in_map_iff in Hx. destruct Hx as [i [<- Hi]].
  apply in_seq in Hi. lia.
Qed.

(** C70 is false: the size parameter is 64 bits wide, but sizes from 2^31 to
    2^32-1 leave the output buffer as it was. *)
Theorem C70_chacha_long_packets_exact : forall nr m0 key k nonce n cs m out inp size,
  has_bytes m0 key k -> length k = 32 -> has_bytes m0 nonce n -> length n = 12 ->
  chacha_initialize m0 key nonce = Ret cs -> (2^31 <= Z.of_N size < 2^32)%Z ->
  exists cs', chacha_process_packet nr cs m out inp size = Ret (cs', m).
Proof.
  intros nr m0 key k nonce n cs m out inp size Hk Lk Hn Ln Ei Hs.
  pose proof (has_bytes_bytes _ _ _ Hk) as Ok. pose proof (has_bytes_bytes _ _ _ Hn) as On.
  assert (Ei' : chacha_initialize m0 key nonce = Ret (init_words k n 1)) by (apply initialize_spec; auto).
  rewrite Ei' in Ei. injection Ei as <-.
  apply process_too_long; auto.
Qed.
Print Assumptions C70_chacha_long_packets_exact.

Theorem C70_chacha_long_packets_refuted : exists m key k nonce n out inp data cs cs',
  has_bytes m key k /\ length k = 32 /\ has_bytes m nonce n /\ length n = 12 /\
  has_bytes m inp data /\ writable m out (length data) /\ disjoint out (length data) inp (length data) /\
  (Z.of_nat (length data) < 2^64)%Z /\
  chacha_initialize m key nonce = Ret cs /\
  chacha_process_packet 20 cs m out inp (N.of_nat (length data)) = Ret (cs', m) /\
  m <> write_at m out (chacha_encrypt 20 k n data).
Proof.
  assert (X : exists L : nat, Z.of_nat L = (2^31)%Z).
  { exists (Z.to_nat (2^31)). apply Z2Nat.id. discriminate. }
  destruct X as [L HL].
  set (k := repeat 1%N 32). set (n := repeat 2%N 12). set (data := repeat 0%N L).
  assert (Ld : length data = L) by apply repeat_length.
  set (m := [holding k; holding n; holding data; fresh L]).
  assert (Hk : has_bytes m (Ptr 0 0) k) by conc_has_bytes.
  assert (Hn : has_bytes m (Ptr 1 0) n) by conc_has_bytes.
  assert (Ok : bytes_ok k) by exact (has_bytes_bytes _ _ _ Hk).
  assert (On : bytes_ok n) by exact (has_bytes_bytes _ _ _ Hn).
  assert (Hout : writable m (Ptr 3 0) (length data)).
  { eexists. split; [reflexivity|]. unfold fresh. rewrite repeat_length. cbn [poff]. lia. }
  assert (Hd : has_bytes m (Ptr 2 0) data).
  { split.
    - apply Forall_forall. intros x Hx. apply repeat_spec in Hx. subst x. reflexivity.
    - exists (holding data). split; [reflexivity|]. split.
      + unfold holding. rewrite map_length. cbn [poff]. lia.
      + cbn [poff skipn]. unfold holding. rewrite <- (map_length Some data). apply firstn_all. }
  assert (HN : Z.of_N (N.of_nat (length data)) = (2^31)%Z) by (rewrite nat_N_Z, Ld; exact HL).
  destruct (process_too_long k n eq_refl eq_refl 20 1 m (Ptr 3 0) (Ptr 2 0) (N.of_nat (length data))) as [cs' E].
  { rewrite HN. split; [apply Z.le_refl|reflexivity]. }
  exists m, (Ptr 0 0), k, (Ptr 1 0), n, (Ptr 3 0), (Ptr 2 0), data, (init_words k n 1), cs'.
  split; [exact Hk|]. split; [reflexivity|]. split; [exact Hn|]. split; [reflexivity|].
  split; [exact Hd|]. split; [exact Hout|]. split; [left; discriminate|].
  split; [rewrite Ld, HL; reflexivity|].
  split; [apply initialize_spec; auto|]. split; [exact E|].
  intros B. set (e := chacha_encrypt 20 k n data) in B.
  assert (Le : length e = L) by (unfold e; rewrite chacha_encrypt_length; auto).
  assert (Oe : bytes_ok e) by (apply chacha_encrypt_ok; exact (has_bytes_bytes _ _ _ Hd)).
  assert (He : has_bytes m (Ptr 3 0) e).
  { rewrite B. apply has_bytes_write_same; auto. rewrite Le, <- Ld. exact Hout. }
  destruct e as [|x e]; [cbn [length] in Le; lia|].
  apply has_bytes_ld8 in He. unfold m, fresh in He. destruct L as [|L]; [discriminate Le|].
  discriminate He.
Qed.
Print Assumptions C70_chacha_long_packets_refuted.
Example C70_instance :
  let m := [holding (repeat 1%N 32); holding (repeat 2%N 12)] in
  has_bytes m (Ptr 0 0) (repeat 1%N 32) /\ has_bytes m (Ptr 1 0) (repeat 2%N 12) /\
  (exists cs, chacha_initialize m (Ptr 0 0) (Ptr 1 0) = Ret cs) /\ (2^31 <= Z.of_N 0x80000005 < 2^32)%Z.
Proof.
  split; [conc_has_bytes|]. split; [conc_has_bytes|]. split; [eexists; vm_compute; reflexivity|]. split; [discriminate|reflexivity].
Qed.

(** C71 is false: byte_swap does not write its output argument; it swaps the
    words of its input in place, whatever the output pointer is. *)
Theorem C71_byte_swap_exact : forall m output input ws,
  has_bytes m input (le_bytes ws) -> words_ok ws ->
  byte_swap m output input (Z.of_nat (4 * length ws)) =
  Ret (write_at m input (flat_map (fun w => rev (le_str 4 w)) ws)).
Proof.
  intros m output input ws H W. rewrite byte_swap_writes_input by auto. do 2 f_equal.
  clear H. induction W as [|w ws Hw W IH]; [reflexivity|].
  cbn [map]. unfold le_bytes in *. cbn [flat_map]. rewrite IH. f_equal. apply swap32_rev. exact Hw.
Qed.
Print Assumptions C71_byte_swap_exact.

Theorem C71_byte_swap_refuted : exists m output input data m',
  has_bytes m input data /\ writable m output 4 /\ disjoint output 4 input 4 /\
  byte_swap m output input 4 = Ret m' /\ ~ has_bytes m' input data /\
  ~ has_bytes m' output (rev data).
Proof.
  exists [holding [1; 2; 3; 4]%N; fresh 4], (Ptr 1 0), (Ptr 0 0), [1; 2; 3; 4]%N,
    [holding [4; 3; 2; 1]%N; fresh 4].
  split; [conc_has_bytes|]. split; [conc_writable|]. split; [conc_disjoint|].
  split; [vm_compute; reflexivity|].
  split; intros H; apply has_bytes_ld8 in H; vm_compute in H; discriminate.
Qed.
Print Assumptions C71_byte_swap_refuted.

Example C71_instance :
  has_bytes [holding (le_bytes [0x01020304; 0xa0b0c0d0]%N)] (Ptr 0 0) (le_bytes [0x01020304; 0xa0b0c0d0]%N) /\
  words_ok [0x01020304; 0xa0b0c0d0]%N /\
  flat_map (fun w => rev (le_str 4 w)) [0x01020304; 0xa0b0c0d0]%N = [1; 2; 3; 4; 0xa0; 0xb0; 0xc0; 0xd0]%N.
Proof.
  split; [conc_has_bytes|split; [|vm_compute; reflexivity]].
  repeat (constructor; [reflexivity|]). constructor.
Qed.

(** C98: whatever is XORed into a packet on its way is XORed into the received
    data, whatever both parties did before. *)
Theorem C98_chacha_damage : forall nr m0 key k nonce n cs cs1 cs2 m1 out1 inp1 data,
  has_bytes m0 key k -> length k = 32 -> has_bytes m0 nonce n -> length n = 12 ->
  chacha_initialize m0 key nonce = Ret cs -> held nr cs cs1 -> held nr cs cs2 ->
  has_bytes m1 inp1 data -> writable m1 out1 (length data) -> same_or_disjoint out1 inp1 (length data) ->
  (Z.of_nat (length data) < 2^31)%Z ->
  exists cs1' e, chacha_process_packet nr cs1 m1 out1 inp1 (N.of_nat (length data)) = Ret (cs1', write_at m1 out1 e) /\
    length e = length data /\
    forall delta m2 out2 src, length delta = length data ->
      has_bytes m2 src (xor_bytes e delta) -> writable m2 out2 (length data) -> same_or_disjoint out2 src (length data) ->
      exists cs2', chacha_process_packet nr cs2 m2 out2 src (N.of_nat (length data)) =
        Ret (cs2', write_at m2 out2 (xor_bytes data delta)).
Proof.
  intros nr m0 key k nonce n cs cs1 cs2 m1 out1 inp1 data Hk Lk Hn Ln Ei H1 H2 I1 O1 S1 Hlen.
  pose proof (has_bytes_bytes _ _ _ Hk) as Ok. pose proof (has_bytes_bytes _ _ _ Hn) as On.
  destruct (C13_chacha_history_independent nr m0 key k nonce n cs cs1 m1 out1 inp1 data) as [c1 E1]; auto.
  assert (Le : forall p, length (chacha_encrypt nr k n p) = length p).
  { intros p. unfold chacha_encrypt. rewrite xor_bytes_length_min, stream_length by auto.
    pose proof (Nat.div_mod_eq (length p + 63) 64). pose proof (Nat.mod_upper_bound (length p + 63) 64 ltac:(lia)). lia. }
  exists c1, (chacha_encrypt nr k n data). split; [exact E1|]. split; [apply Le|].
  intros delta m2 out2 src Ld I2 O2 S2.
  assert (Lx : length (xor_bytes (chacha_encrypt nr k n data) delta) = length data)
    by (rewrite xor_bytes_length_min, Le; lia).
  destruct (C13_chacha_history_independent nr m0 key k nonce n cs cs2 m2 out2 src (xor_bytes (chacha_encrypt nr k n data) delta)) as [c2 E2];
    auto; rewrite ?Lx; auto.
  exists c2. rewrite Lx in E2. rewrite E2. do 3 f_equal.
  unfold chacha_encrypt at 1. rewrite Lx. unfold chacha_encrypt. rewrite xor_swap.
  set (st := chacha_stream nr k n _). f_equal. apply xor_bytes_invol.
  unfold st. rewrite stream_length by auto. pose proof (Nat.div_mod_eq (length data + 63) 64).
  pose proof (Nat.mod_upper_bound (length data + 63) 64 ltac:(lia)). lia.
Qed.
Print Assumptions C98_chacha_damage.

(** Concrete case: both parties have just initialised; the third bit of the
    second byte is flipped on the way. *)
Example C98_chacha_instance :
  let k := repeat 1%N 32 in let n := repeat 2%N 12 in
  let m := [holding k; holding n; holding [1; 2; 3; 4; 5]%N; fresh 5] in
  has_bytes m (Ptr 0 0) k /\ has_bytes m (Ptr 1 0) n /\ has_bytes m (Ptr 2 0) [1; 2; 3; 4; 5]%N /\
  writable m (Ptr 3 0) 5 /\
  (exists cs, chacha_initialize m (Ptr 0 0) (Ptr 1 0) = Ret cs /\ held 20 cs cs) /\
  xor_bytes [1; 2; 3; 4; 5]%N [0; 4; 0; 0; 0]%N = [1; 6; 3; 4; 5]%N.
Proof.
  split; [conc_has_bytes|split; [conc_has_bytes|split; [conc_has_bytes|split; [conc_writable|split; [|reflexivity]]]]].
  eexists. split; [vm_compute; reflexivity|apply held_init].
Qed.
