(** Legacy/DES over memory: blocks, key schedules and packets. *)
From Coq Require Import Arith NArith List Bool Lia.
From Verif Require Import Res Words Mem MemSpec ListLemmas MemLemmas SpecWords WordsLemmas XorProofs IoProofs
  BitSel DesTables DesSpec DesModel DesProofs DesRounds.
From Verif Require AegisLink.
Import ListNotations.
Local Open Scope N_scope.

(** ** Bits and bytes *)
Lemma wbits_bytes w : wbits w = bytes_bits (rev (bytes_of_le32 w)).
Proof.
  unfold bytes_of_le32. cbn [rev app]. unfold bytes_bits, byte_bits, wbits_n.
  cbn [flat_map seq map app]. unfold byte_of. rewrite !u8_testbit, !N.shiftr_spec'.
  repeat match goal with |- context [?a <? 8] => change (a <? 8) with true end. rewrite !andb_true_r. reflexivity.
Qed.

Lemma bits_num_byte x : x < 256 -> bits_num (byte_bits x) = x.
Proof. intros H. apply (Finite.forall_byte (fun x => bits_num (byte_bits x) =? x) ltac:(vm_compute; reflexivity)) in H. apply N.eqb_eq, H. Qed.
Lemma byte_bits_length x : length (byte_bits x) = 8%nat. Proof. reflexivity. Qed.
Lemma chunk8_bits l : bytes_ok l -> chunk8 (length l) (bytes_bits l) = l.
Proof.
  induction l as [|x l IH]; intros H; [reflexivity|]. inversion H; subst. cbn [length chunk8 bytes_bits flat_map].
  destruct (firstn_skipn_app 8 (byte_bits x) (flat_map byte_bits l) (byte_bits_length x)) as [-> ->].
  rewrite bits_num_byte by assumption. f_equal. apply IH. assumption.
Qed.
Lemma bits_bytes_bits l : bytes_ok l -> length l = 8%nat -> bits_bytes (bytes_bits l) = l.
Proof. intros B L. unfold bits_bytes. rewrite <- L. apply chunk8_bits. exact B. Qed.
Lemma bytes_bits_app a b : bytes_bits (a ++ b) = bytes_bits a ++ bytes_bits b.
Proof. apply flat_map_app. Qed.

Lemma list8 {A} (l : list A) : length l = 8%nat -> exists a b c d e f g h, l = [a; b; c; d; e; f; g; h].
Proof. intros H. do 8 (destruct l as [|? l]; [discriminate|]). destruct l; [|discriminate]. do 8 eexists. reflexivity. Qed.
Lemma halves_rev_rev l : length l = 8%nat -> halves_reversed (halves_reversed l) = l.
Proof. intros H. destruct (list8 l H) as (a&b&c&d&e&f&g&h&->). reflexivity. Qed.
Lemma halves_reversed_length l : length l = 8%nat -> length (halves_reversed l) = 8%nat.
Proof. intros H. destruct (list8 l H) as (a&b&c&d&e&f&g&h&->). reflexivity. Qed.
Lemma halves_reversed_ok l : bytes_ok l -> length l = 8%nat -> bytes_ok (halves_reversed l).
Proof.
  intros B H. destruct (list8 l H) as (a&b&c&d&e&f&g&h&->). unfold bytes_ok in *.
  repeat rewrite Forall_cons_iff in B. destruct B as (?&?&?&?&?&?&?&?&_). cbn. repeat constructor; assumption.
Qed.
Lemma words_halves a b : wbits a ++ wbits b = bytes_bits (halves_reversed (bytes_of_le32 a ++ bytes_of_le32 b)).
Proof. rewrite !wbits_bytes, <- bytes_bits_app. reflexivity. Qed.

Definition sub1 (cs : list N) : list bool := subkey_bits (nth 0 cs 0) (nth 1 cs 0).

(** Two words as the block they are stored as. *)
Definition block_of (X Y : N) : list N := bytes_of_le32 X ++ bytes_of_le32 Y.
Lemma block_of_ok X Y : bytes_ok (block_of X Y).
Proof. apply Forall_app; split; apply bytes_of_le32_ok. Qed.

Lemma ecb_words_bytes cs X Y : X < 2^32 -> Y < 2^32 ->
  let '(a, b) := ecb_words cs X Y in block_of a b = one_subkey_des (sub1 cs) (block_of X Y).
Proof.
  intros HX HY. pose proof (ecb_words_ok cs X Y HX HY) as H. destruct (ecb_words cs X Y) as [a b].
  destruct H as (Ha & Hb & E). unfold one_subkey_des, sub1. unfold block_of at 2. rewrite <- words_halves, <- E, words_halves.
  fold (block_of a b). rewrite bits_bytes_bits, halves_rev_rev; [reflexivity|reflexivity| |reflexivity].
  apply halves_reversed_ok; [apply block_of_ok|reflexivity].
Qed.

Lemma one_subkey_length K b : length (one_subkey_des K b) = 8%nat.
Proof. reflexivity. Qed.
Lemma bit_num_le l : bits_num l < 2^N.of_nat (length l).
Proof.
  induction l as [|b l IH] using rev_ind; [reflexivity|]. unfold bits_num in *. rewrite fold_left_app, app_length. cbn [fold_left length].
  replace (N.of_nat (length l + 1)) with (N.succ (N.of_nat (length l))) by lia. rewrite N.pow_succ_r'.
  destruct b; cbn [bit]; lia.
Qed.
Lemma one_subkey_ok K b : bytes_ok (one_subkey_des K b).
Proof.
  unfold one_subkey_des. apply halves_reversed_ok; [|reflexivity]. unfold bits_bytes. generalize (des_with (repeat K 16) (bytes_bits (halves_reversed b))).
  generalize 8%nat at 1. induction n as [|n IH]; intros l; [constructor|]. constructor; [|apply IH].
  eapply N.lt_le_trans; [apply bit_num_le|]. rewrite firstn_length. change 256 with (2^8). apply N.pow_le_mono_r; lia.
Qed.
Lemma one_subkey_twice K b : bytes_ok b -> length b = 8%nat -> one_subkey_des K (one_subkey_des K b) = b.
Proof.
  intros B L. unfold one_subkey_des at 1. unfold one_subkey_des at 1.
  rewrite halves_rev_rev by reflexivity.
  assert (X : forall l, length l = 64%nat -> bytes_bits (bits_bytes l) = l).
  { clear. intros l H. do 64 (destruct l as [|? l]; [discriminate|]). destruct l; [|discriminate].
    unfold bits_bytes. cbn [chunk8 firstn skipn].
    assert (Y : forall a b c d e f g h, byte_bits (bits_num [a;b;c;d;e;f;g;h]) = [a;b;c;d;e;f;g;h]).
    { intros [|] [|] [|] [|] [|] [|] [|] [|]; reflexivity. }
    unfold bytes_bits. cbn [flat_map]. rewrite !Y. reflexivity. }
  rewrite X by apply des_with_length. rewrite <- (rev_repeat K 16) at 1.
  rewrite des_with_back. 2:{ destruct (list8 _ (halves_reversed_length b L)) as (?&?&?&?&?&?&?&?&->). reflexivity. }
  rewrite bits_bytes_bits; [apply halves_rev_rev; exact L|apply halves_reversed_ok; assumption|apply halves_reversed_length; exact L].
Qed.

(** A block in memory is two words. *)
Lemma block_words m p b : has_bytes m p b -> length b = 8%nat ->
  exists X Y, ld32 m p = Ret X /\ ld32 m (padd p 4) = Ret Y /\ X < 2^32 /\ Y < 2^32 /\ b = block_of X Y.
Proof.
  intros H L. pose proof (has_bytes_bytes _ _ _ H) as B. destruct (list8 b L) as (b0&b1&b2&b3&b4&b5&b6&b7&->).
  change [b0;b1;b2;b3;b4;b5;b6;b7] with ([b0;b1;b2;b3] ++ [b4;b5;b6;b7]) in H. apply has_bytes_app in H. destruct H as [H1 H2].
  cbn [length] in H2. repeat rewrite Forall_cons_iff in B. destruct B as (?&?&?&?&?&?&?&?&_).
  exists (le32_of_bytes b0 b1 b2 b3), (le32_of_bytes b4 b5 b6 b7).
  split; [apply (has_bytes_ld32 _ _ _ _ _ _ _ H1)|]. split; [apply (has_bytes_ld32 _ _ _ _ _ _ _ H2)|].
  split; [apply le32_of_bytes_lt; assumption|]. split; [apply le32_of_bytes_lt; assumption|].
  unfold block_of. rewrite !bytes_of_le32_of by assumption. reflexivity.
Qed.

Lemma store_block m p a b : writable m p 8 ->
  (let* m := st32 m p a in st32 m (padd p 4) b) = Ret (write_at m p (block_of a b)).
Proof.
  intros W. rewrite st32_write by (apply (writable_le _ _ _ _ W); lia). cbn [bind].
  rewrite st32_write.
  - unfold block_of. rewrite write_at_app by exact W. reflexivity.
  - apply writable_write_at; [apply (writable_le _ _ _ _ W); cbn; lia|]. apply writable_padd. exact W.
Qed.

Lemma des_ecb_block_ok cs m out inp b : has_bytes m inp b -> length b = 8%nat -> writable m out 8 ->
  des_ecb_block cs m out inp = Ret (write_at m out (one_subkey_des (sub1 cs) b)).
Proof.
  intros H L W. destruct (block_words m inp b H L) as (X & Y & E1 & E2 & HX & HY & ->).
  unfold des_ecb_block. rewrite E1, E2. cbn [bind]. pose proof (ecb_words_bytes cs X Y HX HY) as P.
  destruct (ecb_words cs X Y) as [a c]. rewrite store_block by exact W. rewrite P. reflexivity.
Qed.

(** ** Key schedules *)
Lemma des_schedule_ok m p key : has_bytes m p key -> length key = 8%nat ->
  exists ks, des_key_schedule_encrypt m p = Ret ks /\ length ks = 32%nat /\ words_ok ks /\ pairs ks = key_subkeys key.
Proof.
  intros H L. destruct (block_words m p key H L) as (X & Y & E1 & E2 & HX & HY & ->).
  unfold des_key_schedule_encrypt. rewrite E1, E2. cbn [bind]. pose proof (schedule_ok X Y HX HY) as S.
  destruct (key_halves X Y) as [C D]. destruct S as (S1 & S2 & S3). exists (schedule_words C D).
  split; [reflexivity|]. split; [exact S1|]. split; [exact S2|]. rewrite S3. unfold key_subkeys. rewrite words_halves. reflexivity.
Qed.

Lemma list32 (l : list N) : length l = 32%nat -> exists a0 a1 a2 a3 a4 a5 a6 a7 a8 a9 a10 a11 a12 a13 a14 a15 a16 a17 a18 a19 a20 a21 a22 a23 a24 a25 a26 a27 a28 a29 a30 a31,
  l = [a0;a1;a2;a3;a4;a5;a6;a7;a8;a9;a10;a11;a12;a13;a14;a15;a16;a17;a18;a19;a20;a21;a22;a23;a24;a25;a26;a27;a28;a29;a30;a31].
Proof. intros H. do 32 (destruct l as [|? l]; [discriminate|]). destruct l; [|discriminate]. do 32 eexists. reflexivity. Qed.

Lemma reverse_ok ks : length ks = 32%nat -> pairs (reverse_schedule ks) = rev (pairs ks) /\ length (reverse_schedule ks) = 32%nat.
Proof.
  intros H. destruct (list32 ks H) as (?&?&?&?&?&?&?&?&?&?&?&?&?&?&?&?&?&?&?&?&?&?&?&?&?&?&?&?&?&?&?&?&->).
  split; reflexivity.
Qed.
Lemma sub1_pairs cs : length cs = 32%nat -> sub1 cs = hd [] (pairs cs).
Proof. intros H. do 2 (destruct cs as [|? cs]; [discriminate|]). reflexivity. Qed.

Lemma des_schedule_dec_ok m p key : has_bytes m p key -> length key = 8%nat ->
  exists ks, des_key_schedule_decrypt m p = Ret ks /\ length ks = 32%nat /\ pairs ks = rev (key_subkeys key).
Proof.
  intros H L. destruct (des_schedule_ok m p key H L) as (ks & E & E1 & _ & E2).
  unfold des_key_schedule_decrypt. rewrite E. cbn [bind]. exists (reverse_schedule ks). split; [reflexivity|].
  destruct (reverse_ok ks E1) as [A B]. split; [exact B|]. rewrite A, E2. reflexivity.
Qed.

#[local] Opaque ecb_words one_subkey_des.

(** ** Packets of whole blocks *)
Lemma io_ends m out inp d : io m out inp d -> has_bytes m inp d /\ writable m out (length d).
Proof. intros (A & B & _). split; assumption. Qed.
Lemma sub64_8 n : N.of_nat (8 * S n) < 2^64 -> sub64 (N.of_nat (8 * S n)) 8 = N.of_nat (8 * n).
Proof.
  intros H. unfold sub64. change 0x10000000000000000 with (2^64).
  replace (N.of_nat (8 * S n) + 2^64 - 8) with (N.of_nat (8 * n) + 1 * 2^64) by lia.
  rewrite u64_mod, N.mod_add by discriminate. apply N.mod_small. lia.
Qed.
Lemma split8 {A} (d : list A) n : length d = (8 * S n)%nat ->
  exists d1 d2, d = d1 ++ d2 /\ length d1 = 8%nat /\ length d2 = (8 * n)%nat.
Proof.
  intros H. exists (firstn 8 d), (skipn 8 d). split; [symmetry; apply firstn_skipn|].
  rewrite firstn_length, skipn_length. lia.
Qed.
Lemma pos_size n : (0 <? N.of_nat (8 * S n)) = true.
Proof. apply N.ltb_lt. lia. Qed.

Definition ecb_data (K : list bool) (data : list N) : list N := flat_map (one_subkey_des K) (chunks 8 data).
Lemma ecb_data_cons K d1 d2 : length d1 = 8%nat -> ecb_data K (d1 ++ d2) = one_subkey_des K d1 ++ ecb_data K d2.
Proof. intros H. unfold ecb_data. rewrite chunks_app by (lia || exact H). reflexivity. Qed.
Lemma ecb_data_length K n : forall d, length d = (8 * n)%nat -> length (ecb_data K d) = (8 * n)%nat.
Proof.
  induction n as [|n IH]; intros d H.
  - destruct d; [reflexivity|discriminate].
  - destruct (split8 d n H) as (d1 & d2 & -> & L1 & L2). rewrite ecb_data_cons, app_length, one_subkey_length, IH by assumption. lia.
Qed.

Definition ecb_body cs output input : mem * N * nat -> res (mem * N * nat) :=
  (fun '(m, size, o) =>
       let* m := des_ecb_block cs m (padd output o) (padd input o) in
       Ret (m, sub64 size 8, (o + 8)%nat)).

Lemma ecb_loop cs out inp n : forall m o data fuel, length data = (8 * n)%nat -> N.of_nat (8 * n) < 2^64 ->
  io m (padd out o) (padd inp o) data -> (n < fuel)%nat ->
  while fuel (fun '(m, size, o) => 0 <? size) (ecb_body cs out inp) (m, N.of_nat (8 * n), o)
    = Ret (write_at m (padd out o) (ecb_data (sub1 cs) data), 0, (o + 8 * n)%nat).
Proof.
  induction n as [|n IH]; intros m o data [|fuel] L Hn I F; try lia.
  - destruct data; [|discriminate]. cbn [while]. rewrite write_at_nil, Nat.mul_0_r, Nat.add_0_r. reflexivity.
  - destruct (split8 data n L) as (d1 & d2 & -> & L1 & L2). cbn [while]. rewrite pos_size. unfold ecb_body at 1.
    destruct (io_ends _ _ _ _ (io_prefix _ _ _ _ _ I)) as [A B]. rewrite L1 in B.
    rewrite (des_ecb_block_ok cs m _ _ d1 A L1 B). cbn [bind]. rewrite sub64_8 by exact Hn.
    pose proof (io_rest _ _ _ _ _ (one_subkey_des (sub1 cs) d1) I ltac:(rewrite one_subkey_length; auto)) as R.
    rewrite L1, !padd_padd in R. rewrite (IH _ _ d2 fuel L2) by (first [exact R|lia]).
    assert (E : ecb_data (sub1 cs) (d1 ++ d2) = one_subkey_des (sub1 cs) d1 ++ ecb_data (sub1 cs) d2) by (apply ecb_data_cons; exact L1).
    rewrite E. rewrite <- (io_write _ _ _ d1 d2 _ _ I) by (rewrite ?one_subkey_length, ?(ecb_data_length _ n) by exact L2; lia).
    rewrite L1, padd_padd. do 2 f_equal. lia.
Qed.

Lemma packet_fuel_enough m inp n : (n < packet_fuel m inp (N.of_nat (8 * n)))%nat.
Proof.
  unfold packet_fuel. rewrite Nat2N.inj_mul. change (N.of_nat 8) with 8. rewrite (N.mul_comm 8), N.div_mul by discriminate.
  rewrite Nat2N.id. lia.
Qed.

Lemma des_ecb_packet_ok cs m out inp data n : length data = (8 * n)%nat -> N.of_nat (8 * n) < 2^64 ->
  io m out inp data ->
  des_process_packet_ecb cs m out inp (N.of_nat (8 * n)) = Ret (write_at m out (ecb_data (sub1 cs) data)).
Proof.
  intros L Hn I. unfold des_process_packet_ecb. fold (ecb_body cs out inp).
  pose proof (ecb_loop cs out inp n m 0 data _ L Hn ltac:(rewrite !padd_0; exact I) (packet_fuel_enough m inp n)) as E.
  rewrite E. cbn [bind]. rewrite padd_0. reflexivity.
Qed.

Definition ctr_body cs output input : mem * list N * N * nat -> res (mem * list N * N * nat) :=
  (fun '(m, iv, size, o) =>
       let '(k0, k1) := ecb_words cs (nth 0 iv 0) (nth 1 iv 0) in
       let* x := ld32 m (padd input o) in
       let* m := st32 m (padd output o) (N.lxor x k0) in
       let* x := ld32 m (padd input (o + 4)) in
       let* m := st32 m (padd output (o + 4)) (N.lxor x k1) in
       let iv := upd 3 (add32 (nth 3 iv 0) 1) iv in
       Ret (m, iv, sub64 size 8, (o + 8)%nat)).

Definition ctr_data (ks : list N) (data : list N) : list N := flat_map (fun d => xor_bytes d ks) (chunks 8 data).
Lemma ctr_data_cons K d1 d2 : length d1 = 8%nat -> ctr_data K (d1 ++ d2) = xor_bytes d1 K ++ ctr_data K d2.
Proof. intros H. unfold ctr_data. rewrite chunks_app by (lia || exact H). reflexivity. Qed.
Lemma xor8_length d K : length d = 8%nat -> length K = 8%nat -> length (xor_bytes d K) = 8%nat.
Proof. intros A B. rewrite xor_bytes_length_min, A, B. reflexivity. Qed.
Lemma ctr_data_length K n : length K = 8%nat -> forall d, length d = (8 * n)%nat -> length (ctr_data K d) = (8 * n)%nat.
Proof.
  intros HK. induction n as [|n IH]; intros d H.
  - destruct d; [reflexivity|discriminate].
  - destruct (split8 d n H) as (d1 & d2 & -> & L1 & L2). rewrite ctr_data_cons, app_length, xor8_length, IH by assumption. lia.
Qed.

Lemma xor_block m out inp d k0 k1 : io m out inp d -> length d = 8%nat ->
  (let* x := ld32 m inp in
   let* m := st32 m out (N.lxor x k0) in
   let* x := ld32 m (padd inp 4) in
   st32 m (padd out 4) (N.lxor x k1)) = Ret (write_at m out (xor_bytes d (block_of k0 k1))).
Proof.
  intros I L. destruct (length_split4 d 1 L) as (d1 & d2 & -> & L1 & L2). cbn in L2.
  pose proof (io_xor32 _ _ _ _ k0 (io_prefix _ _ _ _ _ I) L1) as E1.
  assert (Lx : length (xor_bytes d1 (bytes_of_le32 k0)) = length d1) by (rewrite xor_bytes_length_min, L1; reflexivity).
  pose proof (io_rest _ _ _ _ _ _ I Lx) as R.
  rewrite L1 in R. pose proof (io_xor32 _ _ _ _ k1 R L2) as E2.
  rewrite <- bind_assoc. rewrite E1. cbn [bind]. rewrite E2. f_equal.
  pose proof (io_write _ _ _ d1 d2 (xor_bytes d1 (bytes_of_le32 k0)) (xor_bytes d2 (bytes_of_le32 k1)) I Lx) as Wt.
  rewrite L1 in Wt. rewrite Wt by (rewrite xor_bytes_length_min, L2; reflexivity).
  unfold block_of. rewrite xor_bytes_app by (rewrite L1; reflexivity). reflexivity.
Qed.

Lemma ctr_loop cs out inp iv n : forall c m o data fuel, length data = (8 * n)%nat -> N.of_nat (8 * n) < 2^64 ->
  io m (padd out o) (padd inp o) data -> (n < fuel)%nat ->
  let K := let '(k0, k1) := ecb_words cs (nth 0 iv 0) (nth 1 iv 0) in block_of k0 k1 in
  exists c', while fuel (fun '(m, iv, size, o) => 0 <? size) (ctr_body cs out inp)
     (m, [nth 0 iv 0; nth 1 iv 0; nth 2 iv 0; c], N.of_nat (8 * n), o)
    = Ret (write_at m (padd out o) (ctr_data K data), [nth 0 iv 0; nth 1 iv 0; nth 2 iv 0; c'], 0, (o + 8 * n)%nat).
Proof.
  destruct (ecb_words cs (nth 0 iv 0) (nth 1 iv 0)) as [k0 k1] eqn:Ew.
  intros c m o data fuel L Hn I F K. revert c m o data fuel L Hn I F.
  assert (HK : length K = 8%nat) by reflexivity.
  induction n as [|n IH]; intros c m o data [|fuel] L Hn I F; try lia.
  - destruct data; [|discriminate]. exists c. cbn [while]. rewrite write_at_nil, Nat.mul_0_r, Nat.add_0_r. reflexivity.
  - destruct (split8 data n L) as (d1 & d2 & -> & L1 & L2).
    pose proof (io_rest _ _ _ _ _ (xor_bytes d1 K) I ltac:(rewrite xor8_length; auto)) as R.
    rewrite L1, !padd_padd in R.
    destruct (IH (add32 c 1) _ _ d2 fuel L2 ltac:(lia) R ltac:(lia)) as (c' & E). exists c'.
    cbn [while]. rewrite pos_size. unfold ctr_body at 1. cbn [nth upd].
    rewrite Ew.
    pose proof (xor_block _ _ _ d1 k0 k1 (io_prefix _ _ _ _ _ I) L1) as X.
    rewrite !padd_padd in X. fold K in X.
    match goal with |- bind ?b _ = _ => replace b with (let* m := Ret (write_at m (padd out o) (xor_bytes d1 K)) in
      Ret (m, [nth 0 iv 0; nth 1 iv 0; nth 2 iv 0; add32 c 1], sub64 (N.of_nat (8 * S n)) 8, (o + 8)%nat)) end.
    2:{ rewrite <- X. rewrite !bind_assoc. destruct (ld32 m (padd inp o)); [|reflexivity|reflexivity]. cbn [bind]. rewrite bind_assoc.
        destruct (st32 m (padd out o) _); [|reflexivity|reflexivity]. cbn [bind]. rewrite bind_assoc. reflexivity. }
    cbn [bind]. rewrite sub64_8 by exact Hn. rewrite E. rewrite ctr_data_cons by exact L1.
    rewrite <- (io_write _ _ _ d1 d2 _ _ I) by (rewrite ?xor8_length, ?(ctr_data_length _ n) by assumption; lia).
    rewrite L1, padd_padd. do 2 f_equal. lia.
Qed.

Lemma ctr_key_block cs nonce : bytes_ok nonce -> (8 <= length nonce)%nat ->
  (let '(k0, k1) := ecb_words cs (le32_of_bytes (nth 0 nonce 0) (nth 1 nonce 0) (nth 2 nonce 0) (nth 3 nonce 0))
      (le32_of_bytes (nth 4 nonce 0) (nth 5 nonce 0) (nth 6 nonce 0) (nth 7 nonce 0)) in block_of k0 k1)
   = one_subkey_des (sub1 cs) (firstn 8 nonce).
Proof.
  intros B L. do 8 (destruct nonce as [|? nonce]; [cbn in L; lia|]).
  unfold bytes_ok in B. repeat rewrite Forall_cons_iff in B. destruct B as (?&?&?&?&?&?&?&?&_).
  cbn [nth firstn].
  match goal with |- context [ecb_words cs ?X ?Y] => pose proof (ecb_words_bytes cs X Y) as P end.
  specialize (P ltac:(apply le32_of_bytes_lt; assumption) ltac:(apply le32_of_bytes_lt; assumption)).
  destruct (ecb_words cs _ _) as [k0 k1]. rewrite P. unfold block_of. rewrite !bytes_of_le32_of by assumption. reflexivity.
Qed.

Lemma des_ctr_packet_ok cs m out inp np nonce data n : has_bytes m np nonce -> length nonce = 12%nat ->
  length data = (8 * n)%nat -> N.of_nat (8 * n) < 2^64 -> io m out inp data ->
  des_process_packet_ctr cs m out inp np (N.of_nat (8 * n)) =
    Ret (write_at m out (ctr_data (one_subkey_des (sub1 cs) (firstn 8 nonce)) data)).
Proof.
  intros H Ln L Hn I. unfold des_process_packet_ctr. fold (ctr_body cs out inp).
  pose proof (has_bytes_ldn _ _ _ H) as E. rewrite Ln in E. rewrite E. cbn [bind].
  rewrite <- (ctr_key_block cs nonce (has_bytes_bytes _ _ _ H) ltac:(lia)).
  set (w0 := le32_of_bytes (nth 0 nonce 0) (nth 1 nonce 0) (nth 2 nonce 0) (nth 3 nonce 0)).
  set (w1 := le32_of_bytes (nth 4 nonce 0) (nth 5 nonce 0) (nth 6 nonce 0) (nth 7 nonce 0)).
  set (w2 := le32_of_bytes (nth 8 nonce 0) (nth 9 nonce 0) (nth 10 nonce 0) (nth 11 nonce 0)).
  match goal with |- (let* _ := while ?f ?c ?b (_, _, ?s, _) in _) = ?r =>
    change ((let* (m, iv, size, o) := while f c b (m, [w0; w1; w2; 0], s, 0%nat) in Ret m) = r) end.
  destruct (ctr_loop cs out inp [w0; w1; w2; 0] n 0 m 0 data _ L Hn ltac:(rewrite !padd_0; exact I) (packet_fuel_enough m inp n)) as (c & X).
  cbn [nth] in X. rewrite X. cbn [bind]. rewrite padd_0. reflexivity.
Qed.

(** ** Other sizes run off the input *)
Lemma sub64_odd s : s < 2^64 -> s mod 8 <> 0 -> sub64 s 8 < 2^64 /\ sub64 s 8 mod 8 <> 0.
Proof.
  intros H M. unfold sub64. rewrite u64_mod. split; [apply N.mod_lt; discriminate|].
  intros E. apply M. change 0x10000000000000000 with (2^64) in E.
  pose proof (N.div_mod (s + 2^64 - 8) (2^64) ltac:(discriminate)) as D1.
  pose proof (N.mod_lt (s + 2^64 - 8) (2^64) ltac:(discriminate)) as B1.
  pose proof (N.div_mod ((s + 2^64 - 8) mod 2^64) 8 ltac:(discriminate)) as D2. rewrite E in D2.
  set (q := (s + 2^64 - 8) / 2^64) in *. set (r := (s + 2^64 - 8) mod 2^64) in *. set (t := r / 8) in *.
  assert (X : s + 2^64 = 8 * (2^61 * q + t + 1)).
  { change (2^64) with (8 * 2^61) in *. lia. }
  assert (Y : s = (2^61 * q + t + 1 - 2^61) * 8) by (change (2^64) with (8 * 2^61) in X; lia).
  rewrite Y. apply N.mod_mul. discriminate.
Qed.

Lemma ctr_body_tame cs out inp m iv size o :
  ctr_body cs out inp (m, iv, size, o) = UB \/
  exists m' iv', ctr_body cs out inp (m, iv, size, o) = Ret (m', iv', sub64 size 8, (o + 8)%nat) /\ AegisLink.shape m' = AegisLink.shape m.
Proof.
  unfold ctr_body. destruct (ecb_words cs (nth 0 iv 0) (nth 1 iv 0)) as [k0 k1].
  destruct (AegisLink.calm_ld32 m (padd inp o)) as [->|(x & ->)]; [left; reflexivity|]. cbn [bind].
  destruct (AegisLink.tame_st32 m (padd out o) (N.lxor x k0)) as [->|(m1 & -> & E1)]; [left; reflexivity|]. cbn [bind].
  destruct (AegisLink.calm_ld32 m1 (padd inp (o + 4))) as [->|(y & ->)]; [left; reflexivity|]. cbn [bind].
  destruct (AegisLink.tame_st32 m1 (padd out (o + 4)) (N.lxor y k1)) as [->|(m2 & -> & E2)]; [left; reflexivity|]. cbn [bind].
  right. do 2 eexists. split; [reflexivity|congruence].
Qed.
Lemma ecb_body_tame cs out inp m size o :
  ecb_body cs out inp (m, size, o) = UB \/
  exists m', ecb_body cs out inp (m, size, o) = Ret (m', sub64 size 8, (o + 8)%nat) /\ AegisLink.shape m' = AegisLink.shape m.
Proof.
  unfold ecb_body, des_ecb_block.
  destruct (AegisLink.calm_ld32 m (padd inp o)) as [->|(x & ->)]; [left; reflexivity|]. cbn [bind].
  destruct (AegisLink.calm_ld32 m (padd (padd inp o) 4)) as [->|(y & ->)]; [left; reflexivity|]. cbn [bind].
  destruct (ecb_words cs x y) as [k0 k1].
  destruct (AegisLink.tame_st32 m (padd out o) k0) as [->|(m1 & -> & E1)]; [left; reflexivity|]. cbn [bind].
  destruct (AegisLink.tame_st32 m1 (padd (padd out o) 4) k1) as [->|(m2 & -> & E2)]; [left; reflexivity|]. cbn [bind].
  right. eexists. split; [reflexivity|congruence].
Qed.

Definition block_len (m : mem) (p : ptr) : nat := match nth_error m (pblk p) with Some b => length b | None => 0 end.
Lemma ld32_off m0 m p o : AegisLink.shape m = AegisLink.shape m0 -> (block_len m0 p <= poff p + o)%nat -> ld32 m (padd p o) = UB.
Proof.
  intros E L. unfold block_len in L. destruct (nth_error m0 (pblk p)) as [b|] eqn:Eb.
  - apply (AegisLink.shape_oob m0 m p b o Eb E L).
  - unfold ld32, ld8. rewrite pblk_padd. assert (X : nth_error (AegisLink.shape m) (pblk p) = None).
    { rewrite E. unfold AegisLink.shape. rewrite nth_error_map, Eb. reflexivity. }
    unfold AegisLink.shape in X. rewrite nth_error_map in X. destruct (nth_error m (pblk p)); [discriminate|]. reflexivity.
Qed.
Lemma odd_pos s : s mod 8 <> 0 -> (0 <? s) = true.
Proof. intros H. apply N.ltb_lt. destruct s; [exfalso; apply H; reflexivity|lia]. Qed.

Lemma ctr_runs_off cs out inp m0 fuel iv s : s < 2^64 -> s mod 8 <> 0 -> (block_len m0 inp < fuel)%nat ->
  while fuel (fun '(m, iv, size, o) => 0 <? size) (ctr_body cs out inp) (m0, iv, s, 0%nat) = UB.
Proof.
  intros H1 H2 Hf.
  apply (AegisLink.while_ub _ _ (fun k st => let '(m, iv, size, o) := st in
    AegisLink.shape m = AegisLink.shape m0 /\ size < 2^64 /\ size mod 8 <> 0 /\ (block_len m0 inp <= o + k)%nat)
    ) with (k := block_len m0 inp); [| | |exact Hf].
  - intros k [[[m iv1] size] o] (E & A & B & C). split; [apply odd_pos; exact B|].
    destruct (ctr_body_tame cs out inp m iv1 size o) as [->|(m' & iv' & -> & E')]; [left; reflexivity|].
    right. eexists. split; [reflexivity|]. destruct (sub64_odd size A B) as [A' B'].
    split; [congruence|]. split; [exact A'|]. split; [exact B'|]. lia.
  - intros [[[m iv1] size] o] (E & A & B & C). split; [apply odd_pos; exact B|].
    unfold ctr_body. destruct (ecb_words cs (nth 0 iv1 0) (nth 1 iv1 0)) as [k0 k1].
    rewrite (ld32_off m0 m inp o E ltac:(lia)). reflexivity.
  - split; [reflexivity|]. split; [exact H1|]. split; [exact H2|]. lia.
Qed.
Lemma ecb_runs_off cs out inp m0 fuel s : s < 2^64 -> s mod 8 <> 0 -> (block_len m0 inp < fuel)%nat ->
  while fuel (fun '(m, size, o) => 0 <? size) (ecb_body cs out inp) (m0, s, 0%nat) = UB.
Proof.
  intros H1 H2 Hf.
  apply (AegisLink.while_ub _ _ (fun k st => let '(m, size, o) := st in
    AegisLink.shape m = AegisLink.shape m0 /\ size < 2^64 /\ size mod 8 <> 0 /\ (block_len m0 inp <= o + k)%nat)
    ) with (k := block_len m0 inp); [| | |exact Hf].
  - intros k [[m size] o] (E & A & B & C). split; [apply odd_pos; exact B|].
    destruct (ecb_body_tame cs out inp m size o) as [->|(m' & -> & E')]; [left; reflexivity|].
    right. eexists. split; [reflexivity|]. destruct (sub64_odd size A B) as [A' B'].
    split; [congruence|]. split; [exact A'|]. split; [exact B'|]. lia.
  - intros [[m size] o] (E & A & B & C). split; [apply odd_pos; exact B|].
    unfold ecb_body, des_ecb_block. rewrite (ld32_off m0 m inp o E ltac:(lia)). reflexivity.
  - split; [reflexivity|]. split; [exact H1|]. split; [exact H2|]. lia.
Qed.

Lemma fuel_len m inp s : (block_len m inp < packet_fuel m inp s)%nat.
Proof. unfold packet_fuel, block_len. destruct (nth_error m (pblk inp)); lia. Qed.

Theorem des_ctr_odd cs m out inp np s : s < 2^64 -> s mod 8 <> 0 -> des_process_packet_ctr cs m out inp np s = UB.
Proof.
  intros H1 H2. unfold des_process_packet_ctr. fold (ctr_body cs out inp).
  destruct (AegisLink.calm_ldn m np 12) as [->|(l & ->)]; [reflexivity|]. cbn [bind].
  rewrite ctr_runs_off; [reflexivity|exact H1|exact H2|apply fuel_len].
Qed.
Theorem des_ecb_odd cs m out inp s : s < 2^64 -> s mod 8 <> 0 -> des_process_packet_ecb cs m out inp s = UB.
Proof.
  intros H1 H2. unfold des_process_packet_ecb. fold (ecb_body cs out inp).
  rewrite ecb_runs_off; [reflexivity|exact H1|exact H2|apply fuel_len].
Qed.

(** ** Round trips *)
Lemma ecb_data_twice K n : forall d, length d = (8 * n)%nat -> bytes_ok d -> ecb_data K (ecb_data K d) = d.
Proof.
  induction n as [|n IH]; intros d H B.
  - destruct d; [reflexivity|discriminate].
  - destruct (split8 d n H) as (d1 & d2 & -> & L1 & L2). apply Forall_app in B. destruct B as [B1 B2].
    rewrite (ecb_data_cons K d1) by exact L1. rewrite ecb_data_cons by apply one_subkey_length.
    rewrite one_subkey_twice, IH by assumption. reflexivity.
Qed.
Lemma ecb_data_ok K n : forall d, length d = (8 * n)%nat -> bytes_ok (ecb_data K d).
Proof.
  induction n as [|n IH]; intros d H.
  - destruct d; [constructor|discriminate].
  - destruct (split8 d n H) as (d1 & d2 & -> & L1 & L2). rewrite ecb_data_cons by exact L1. apply Forall_app. split; [apply one_subkey_ok|apply IH; exact L2].
Qed.
Lemma ctr_data_twice K n : bytes_ok K -> length K = 8%nat -> forall d, length d = (8 * n)%nat -> ctr_data K (ctr_data K d) = d.
Proof.
  intros BK LK. induction n as [|n IH]; intros d H.
  - destruct d; [reflexivity|discriminate].
  - destruct (split8 d n H) as (d1 & d2 & -> & L1 & L2).
    rewrite (ctr_data_cons K d1) by exact L1. rewrite ctr_data_cons by (apply xor8_length; assumption).
    rewrite xor_bytes_invol, IH by (first [assumption|lia]). reflexivity.
Qed.
Lemma ctr_data_ok K n : bytes_ok K -> length K = 8%nat -> forall d, length d = (8 * n)%nat -> bytes_ok d -> bytes_ok (ctr_data K d).
Proof.
  intros BK LK. induction n as [|n IH]; intros d H B.
  - destruct d; [constructor|discriminate].
  - destruct (split8 d n H) as (d1 & d2 & -> & L1 & L2). apply Forall_app in B. destruct B as [B1 B2].
    rewrite ctr_data_cons by exact L1. apply Forall_app. split; [apply xor_bytes_ok; assumption|apply IH; assumption].
Qed.
