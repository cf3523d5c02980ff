(** Property C117: complementing key and data complements what DES computes. *)
From Coq Require Import Arith NArith List Bool Lia.
From Verif Require Import Res Words Mem MemSpec ListLemmas MemLemmas SpecWords WordsLemmas IoProofs Concrete Finite
  DesTables DesSpec DesModel DesRounds DesLink DesProps.
Import ListNotations.
Local Open Scope nat_scope.

(** The bytes with every bit turned over. *)
Definition complement (l : list N) : list N := map (fun x => N.lxor x 255) l.
Notation neg := (map negb).

(** ** Lists of bits *)
Lemma xor_neg_both : forall a b, xor (neg a) (neg b) = xor a b.
Proof.
  unfold xor. induction a as [|x a IH]; intros [|y b]; try reflexivity. cbn [map combine fst snd]. rewrite IH. destruct x, y; reflexivity.
Qed.
Lemma xor_neg_l : forall a b, xor (neg a) b = neg (xor a b).
Proof.
  unfold xor. induction a as [|x a IH]; intros [|y b]; try reflexivity. cbn [map combine fst snd]. rewrite IH. destruct x, y; reflexivity.
Qed.
Definition within (n : nat) (tbl : list nat) : bool := forallb (fun i => (1 <=? i) && (i <=? n)) tbl.
Lemma select_neg n tbl l : length l = n -> within n tbl = true -> select tbl (neg l) = neg (select tbl l).
Proof.
  intros L W. unfold select. rewrite map_map. apply map_ext_in. intros i I. unfold within in W. rewrite forallb_forall in W. specialize (W i I).
  apply andb_true_iff in W as [W1 W2]. apply Nat.leb_le in W1, W2.
  rewrite (nth_indep (neg l) false (negb false)) by (rewrite map_length; lia). apply map_nth.
Qed.
Lemma select_len tbl l : length (select tbl l) = length tbl.
Proof. apply map_length. Qed.
Lemma xor_len a b : length (xor a b) = min (length a) (length b).
Proof. unfold xor. rewrite map_length. apply combine_length. Qed.

Lemma sbox_len S l : length l = 6 -> length (sbox S l) = 4.
Proof. destruct l as [|a [|b [|c [|d [|e [|g [|]]]]]]]; intros H; try discriminate H. reflexivity. Qed.

Lemma f_len R K : length (f R K) = 32.
Proof. unfold f. rewrite select_len. reflexivity. Qed.
Lemma f_neg R K : length R = 32 -> f (neg R) (neg K) = f R K.
Proof. intros L. unfold f. rewrite (select_neg 32 E R L) by reflexivity. rewrite xor_neg_both. reflexivity. Qed.

Lemma rounds_neg : forall Ks L R, length L = 32 -> length R = 32 ->
  rounds (map neg Ks) (neg L) (neg R) = (neg (fst (rounds Ks L R)), neg (snd (rounds Ks L R))) /\
  length (fst (rounds Ks L R)) = 32 /\ length (snd (rounds Ks L R)) = 32.
Proof.
  induction Ks as [|K Ks IH]; intros L R HL HR; [split; [reflexivity|split; assumption]|].
  cbn [map rounds]. rewrite f_neg by exact HR. rewrite xor_neg_l. apply IH; [exact HR|]. rewrite xor_len, f_len, HL. reflexivity.
Qed.

Lemma des_with_neg Ks block : length block = 64 -> des_with (map neg Ks) (neg block) = neg (des_with Ks block).
Proof.
  intros L. unfold des_with. rewrite (select_neg 64 IP block L) by reflexivity. set (x := select IP block).
  assert (Lx : length x = 64) by (unfold x; rewrite select_len; reflexivity).
  rewrite firstn_map, skipn_map.
  destruct (rounds_neg Ks (firstn 32 x) (skipn 32 x)) as (Q & L1 & L2);
    [rewrite firstn_length, Lx; reflexivity|rewrite skipn_length, Lx; reflexivity|].
  rewrite Q. destruct (rounds Ks (firstn 32 x) (skipn 32 x)) as [A B]. cbn [fst snd] in *.
  rewrite <- map_app. apply (select_neg 64); [rewrite app_length; lia|reflexivity].
Qed.

Lemma rotate_neg n l : rotate n (neg l) = neg (rotate n l).
Proof. unfold rotate. rewrite firstn_map, skipn_map, map_app. reflexivity. Qed.
Lemma rotate_len n l : length (rotate n l) = length l.
Proof. unfold rotate. rewrite app_length, skipn_length, firstn_length. lia. Qed.
Lemma subkeys_from_neg : forall s C D, length C = 28 -> length D = 28 ->
  subkeys_from s (neg C) (neg D) = map neg (subkeys_from s C D).
Proof.
  induction s as [|n s IH]; intros C D HC HD; [reflexivity|]. cbn [subkeys_from map]. rewrite !rotate_neg, <- map_app.
  rewrite (select_neg 56) by (rewrite ?app_length, ?rotate_len, ?HC, ?HD; reflexivity).
  rewrite IH by (rewrite rotate_len; assumption). reflexivity.
Qed.
Lemma subkeys_neg key : length key = 64 -> subkeys (neg key) = map neg (subkeys key).
Proof.
  intros L. unfold subkeys. rewrite (select_neg 64 PC1 key L) by reflexivity. set (x := select PC1 key).
  assert (Lx : length x = 56) by (unfold x; rewrite select_len; reflexivity).
  rewrite firstn_map, skipn_map. apply subkeys_from_neg; [rewrite firstn_length, Lx; reflexivity|rewrite skipn_length, Lx; reflexivity].
Qed.

(** ** Bytes *)
Lemma bytes_bits_neg l : bytes_bits (complement l) = neg (bytes_bits l).
Proof.
  induction l as [|x l IH]; [reflexivity|]. unfold bytes_bits, complement in *. cbn [map flat_map]. rewrite map_app, IH. f_equal.
  unfold byte_bits. rewrite map_map. apply map_ext_in. intros i I. apply in_seq in I. rewrite N.lxor_spec.
  replace (N.testbit 255 (7 - N.of_nat i)) with true; [destruct (N.testbit x (7 - N.of_nat i)); reflexivity|].
  do 8 (destruct i as [|i]; [reflexivity|]). lia.
Qed.
Lemma bytes_bits_len l : length (bytes_bits l) = 8 * length l.
Proof. induction l as [|x l IH]; [reflexivity|]. unfold bytes_bits in *. cbn [flat_map length]. rewrite app_length, IH. cbn [byte_bits map seq length]. lia. Qed.
Lemma bits_num_neg l : length l = 8 -> bits_num (neg l) = N.lxor (bits_num l) 255.
Proof.
  destruct l as [|a [|b [|c [|d [|e [|g [|h [|i [|]]]]]]]]]; intros H; try discriminate H.
  destruct a, b, c, d, e, g, h, i; reflexivity.
Qed.
Lemma chunk8_neg : forall n l, length l = 8 * n -> chunk8 n (neg l) = complement (chunk8 n l).
Proof.
  induction n as [|n IH]; intros l L; [reflexivity|]. cbn [chunk8 complement map]. rewrite firstn_map, skipn_map.
  rewrite bits_num_neg by (rewrite firstn_length; lia). rewrite IH by (rewrite skipn_length; lia). reflexivity.
Qed.
Lemma halves_complement l : halves_reversed (complement l) = complement (halves_reversed l).
Proof. unfold halves_reversed, complement. rewrite firstn_map, skipn_map, <- !map_rev, map_app. reflexivity. Qed.
Lemma halves_len l : length (halves_reversed l) = length l.
Proof. unfold halves_reversed. rewrite app_length, !rev_length, firstn_length, skipn_length. lia. Qed.

Lemma des_with_len Ks block : length (des_with Ks block) = 64.
Proof. unfold des_with. destruct (rounds Ks _ _). rewrite select_len. reflexivity. Qed.

Lemma one_subkey_complement K block : length block = 8 ->
  one_subkey_des (neg K) (complement block) = complement (one_subkey_des K block).
Proof.
  intros L. unfold one_subkey_des. rewrite halves_complement, bytes_bits_neg.
  replace (repeat (neg K) 16) with (map neg (repeat K 16)) by reflexivity.
  rewrite des_with_neg by (rewrite bytes_bits_len, halves_len, L; reflexivity).
  unfold bits_bytes. rewrite chunk8_neg by apply des_with_len. apply halves_complement.
Qed.

Lemma key_subkeys_complement key : length key = 8 -> key_subkeys (complement key) = map neg (key_subkeys key).
Proof.
  intros L. unfold key_subkeys. rewrite halves_complement, bytes_bits_neg. apply subkeys_neg. rewrite bytes_bits_len, halves_len, L. reflexivity.
Qed.

Lemma ecb_data_complement K : forall n data, length data = 8 * n -> ecb_data (neg K) (complement data) = complement (ecb_data K data).
Proof.
  induction n as [|n IH]; intros data L.
  - destruct data; [reflexivity|discriminate L].
  - assert (D : data = firstn 8 data ++ skipn 8 data) by (symmetry; apply firstn_skipn).
    assert (L1 : length (firstn 8 data) = 8) by (rewrite firstn_length; lia).
    rewrite D. unfold complement at 1. rewrite map_app. fold (complement (firstn 8 data)) (complement (skipn 8 data)).
    rewrite (ecb_data_cons (neg K) (complement (firstn 8 data))) by (unfold complement; rewrite map_length; exact L1).
    rewrite (ecb_data_cons K (firstn 8 data)) by exact L1.
    rewrite one_subkey_complement by exact L1. rewrite IH by (rewrite skipn_length; lia). unfold complement. rewrite map_app. reflexivity.
Qed.

Lemma first_complement key : length key = 8 -> first_subkey (complement key) = neg (first_subkey key).
Proof.
  intros L. unfold first_subkey. rewrite (key_subkeys_complement key L). destruct (key_subkeys key); reflexivity.
Qed.
Lemma last_map : forall l : list (list bool), last (map neg l) [] = neg (last l []).
Proof.
  induction l as [|x l IH]; [reflexivity|]. cbn [map]. destruct l as [|y l]; [reflexivity|].
  change (last (x :: y :: l) []) with (last (y :: l) []). rewrite <- IH. reflexivity.
Qed.
Lemma last_complement key : length key = 8 -> last_subkey (complement key) = neg (last_subkey key).
Proof. intros L. unfold last_subkey. rewrite (key_subkeys_complement key L). apply last_map. Qed.

Lemma ecb_complement cs1 cs2 m1 m2 out1 out2 inp1 inp2 data :
  sub1 cs2 = neg (sub1 cs1) ->
  has_bytes m1 inp1 data -> has_bytes m2 inp2 (complement data) -> length data mod 8 = 0 -> (N.of_nat (length data) < 2^64)%N ->
  writable m1 out1 (length data) -> same_or_disjoint out1 inp1 (length data) ->
  writable m2 out2 (length data) -> same_or_disjoint out2 inp2 (length data) ->
  exists c, length c = length data /\
    des_process_packet_ecb cs1 m1 out1 inp1 (N.of_nat (length data)) = Ret (write_at m1 out1 c) /\
    des_process_packet_ecb cs2 m2 out2 inp2 (N.of_nat (length data)) = Ret (write_at m2 out2 (complement c)).
Proof.
  intros K H1 H2 M Sz W1 S1 W2 S2.
  assert (X : exists n, length data = 8 * n) by (exists (length data / 8); apply Nat.div_exact; [discriminate|exact M]).
  destruct X as (n & L). assert (L' : length (complement data) = 8 * n) by (unfold complement; rewrite map_length; exact L).
  rewrite L in *. exists (ecb_data (sub1 cs1) data). split; [apply ecb_data_length; exact L|]. split.
  - apply des_ecb_packet_ok; [exact L|exact Sz|]. split; [exact H1|]. rewrite L. split; assumption.
  - rewrite <- (ecb_data_complement _ n data L), <- K.
    apply des_ecb_packet_ok; [exact L'|exact Sz|]. split; [exact H2|]. rewrite L'. split; assumption.
Qed.

(** Encrypting the complement of a packet with the complement of the key gives
    the complement of the ciphertext: whoever has the encryptions of a packet and
    of its complement tests two keys with one trial encryption. *)
Theorem C117_des_encrypt_complement : forall m1 m2 kp1 kp2 key ek1 ek2 inp1 inp2 data out1 out2,
  has_bytes m1 kp1 key -> has_bytes m2 kp2 (complement key) -> length key = 8 ->
  des_key_schedule_encrypt m1 kp1 = Ret ek1 -> des_key_schedule_encrypt m2 kp2 = Ret ek2 ->
  has_bytes m1 inp1 data -> has_bytes m2 inp2 (complement data) -> length data mod 8 = 0 -> (N.of_nat (length data) < 2^64)%N ->
  writable m1 out1 (length data) -> same_or_disjoint out1 inp1 (length data) ->
  writable m2 out2 (length data) -> same_or_disjoint out2 inp2 (length data) ->
  exists c, length c = length data /\
    des_process_packet_ecb ek1 m1 out1 inp1 (N.of_nat (length data)) = Ret (write_at m1 out1 c) /\
    des_process_packet_ecb ek2 m2 out2 inp2 (N.of_nat (length data)) = Ret (write_at m2 out2 (complement c)).
Proof.
  intros m1 m2 kp1 kp2 key ek1 ek2 inp1 inp2 data out1 out2 K1 K2 LK E1 E2. apply ecb_complement.
  destruct (enc_schedule m1 kp1 key K1 LK) as (a & A & SA).
  destruct (enc_schedule m2 kp2 (complement key) K2) as (b & B & SB); [unfold complement; rewrite map_length; exact LK|].
  rewrite E1 in A. rewrite E2 in B. apply Ret_inj in A, B. subst a b. rewrite SA, SB. apply first_complement, LK.
Qed.
Print Assumptions C117_des_encrypt_complement.

(** The same for decryption. *)
Theorem C117_des_decrypt_complement : forall m1 m2 kp1 kp2 key dk1 dk2 inp1 inp2 data out1 out2,
  has_bytes m1 kp1 key -> has_bytes m2 kp2 (complement key) -> length key = 8 ->
  des_key_schedule_decrypt m1 kp1 = Ret dk1 -> des_key_schedule_decrypt m2 kp2 = Ret dk2 ->
  has_bytes m1 inp1 data -> has_bytes m2 inp2 (complement data) -> length data mod 8 = 0 -> (N.of_nat (length data) < 2^64)%N ->
  writable m1 out1 (length data) -> same_or_disjoint out1 inp1 (length data) ->
  writable m2 out2 (length data) -> same_or_disjoint out2 inp2 (length data) ->
  exists c, length c = length data /\
    des_process_packet_ecb dk1 m1 out1 inp1 (N.of_nat (length data)) = Ret (write_at m1 out1 c) /\
    des_process_packet_ecb dk2 m2 out2 inp2 (N.of_nat (length data)) = Ret (write_at m2 out2 (complement c)).
Proof.
  intros m1 m2 kp1 kp2 key dk1 dk2 inp1 inp2 data out1 out2 K1 K2 LK E1 E2. apply ecb_complement.
  destruct (dec_schedule m1 kp1 key K1 LK) as (a & A & SA).
  destruct (dec_schedule m2 kp2 (complement key) K2) as (b & B & SB); [unfold complement; rewrite map_length; exact LK|].
  rewrite E1 in A. rewrite E2 in B. apply Ret_inj in A, B. subst a b. rewrite SA, SB. apply last_complement, LK.
Qed.
Print Assumptions C117_des_decrypt_complement.

(** The standard itself has the property. *)
Lemma fips_des_complement key block : length key = 64 -> length block = 64 ->
  des_encrypt (neg key) (neg block) = neg (des_encrypt key block).
Proof. intros LK LB. unfold des_encrypt. rewrite subkeys_neg by exact LK. apply des_with_neg, LB. Qed.

Example C117_instance : let m1 := [holding key_ex; holding (block_ex ++ key_ex); fresh 16] in
  let m2 := [holding (complement key_ex); holding (complement (block_ex ++ key_ex)); fresh 16] in
  has_bytes m1 (Ptr 0 0) key_ex /\ has_bytes m2 (Ptr 0 0) (complement key_ex) /\
  has_bytes m1 (Ptr 1 0) (block_ex ++ key_ex) /\ has_bytes m2 (Ptr 1 0) (complement (block_ex ++ key_ex)) /\
  writable m1 (Ptr 2 0) 16 /\ same_or_disjoint (Ptr 2 0) (Ptr 1 0) 16 /\ writable m2 (Ptr 2 0) 16 /\
  (let* ek := des_key_schedule_encrypt m1 (Ptr 0 0) in
   let* m := des_process_packet_ecb ek m1 (Ptr 2 0) (Ptr 1 0) 16 in
   let* c := ldn m (Ptr 2 0) 16 in Ret (complement c)) =
  (let* ek := des_key_schedule_encrypt m2 (Ptr 0 0) in
   let* m := des_process_packet_ecb ek m2 (Ptr 2 0) (Ptr 1 0) 16 in ldn m (Ptr 2 0) 16).
Proof.
  split; [conc_has_bytes|]. split; [conc_has_bytes|]. split; [conc_has_bytes|]. split; [conc_has_bytes|].
  split; [conc_writable|]. split; [right; conc_disjoint|]. split; [conc_writable|]. vm_compute. reflexivity.
Qed.
