(** Properties C93 to C96: what equal digests mean, and what a digest gives away. *)
From Coq Require Import Arith ZArith NArith List Bool Lia.
From Verif Require Import Res Words Mem MemSpec ListLemmas MemLemmas SpecWords WordsLemmas Concrete Finite
  ShaSpec ShaModel ShaProofs ShaProps HmacModel HmacProofs HmacProps Merkle MerklePad Md5Model Md5Proofs Md5Link Md5Props.
From Verif Require Md5Spec.
Import ListNotations.
Local Open Scope nat_scope.

#[local] Opaque compress sha_H0 Md5Spec.T sha_K.

(** ** Words and their bytes *)
Lemma list_N_neq a b : list_N_eqb a b = false -> a <> b.
Proof. intros H E. rewrite E, list_N_eqb_refl in H. discriminate. Qed.

Lemma be_num_str n x : (x < 256 ^ N.of_nat n)%N -> be_num (be_str n x) = x.
Proof.
  intros H. unfold be_num, be_str. rewrite rev_involutive, le_num_str. apply N.mod_small. exact H.
Qed.

Lemma words_of_be_bytes ws : words_ok ws -> map be_num (chunks 4 (flat_map (be_str 4) ws)) = ws.
Proof.
  induction 1 as [|w ws Hw H IH]; [reflexivity|]. cbn [flat_map].
  rewrite chunks_app by (first [lia|apply be_str_length]). cbn [map]. rewrite IH, be_num_str by exact Hw. reflexivity.
Qed.
Lemma words_of_le_bytes ws : words_ok ws -> map le_num (chunks 4 (flat_map (le_str 4) ws)) = ws.
Proof.
  induction 1 as [|w ws Hw H IH]; [reflexivity|]. cbn [flat_map].
  rewrite chunks_app by (first [lia|apply le_str_length]). cbn [map].
  rewrite IH, le_num_str, N.mod_small by exact Hw. reflexivity.
Qed.

Lemma state_of_list8 s : state_of (list8 s) = s.
Proof. destruct s as [[[[[[[? ?] ?] ?] ?] ?] ?] ?]. reflexivity. Qed.

Lemma fold_compress_ok bs : forall s, ok8 s -> ok8 (fold_left compress bs s).
Proof. induction bs as [|b bs IH]; intros s H; [exact H|]. rewrite fold_left_cons. apply IH. apply compress_ok. Qed.

Definition sha_digest (s : state8) : list N := flat_map (be_str 4) (list8 s).
Lemma sha_digest_back s : ok8 s -> state_of (map be_num (chunks 4 (sha_digest s))) = s.
Proof. intros H. unfold sha_digest. rewrite words_of_be_bytes by exact H. apply state_of_list8. Qed.

Lemma state8_dec (x y : state8) : {x = y} + {x <> y}.
Proof. repeat decide equality. Defined.

(** ** C93: SHA-256 *)

(** The calls of the compression function made for a message. *)
Definition sha_calls (msg : list N) : list (state8 * list N) :=
  calls compress (state_of sha_H0) (chunks 64 (ShaSpec.pad msg)).

Definition sha_len (n : nat) : list N := be_str 8 ((8 * N.of_nat n) mod 2^64).
Lemma sha_pad_by msg : ShaSpec.pad msg = pad_by sha_len msg.
Proof. reflexivity. Qed.
Lemma sha_len8 n : length (sha_len n) = 8.
Proof. apply be_str_length. Qed.
Lemma sha_len_inj a b : (N.of_nat a < 2^61)%N -> (N.of_nat b < 2^61)%N -> sha_len a = sha_len b -> a = b.
Proof.
  intros Ha Hb E. unfold sha_len in E. apply (f_equal be_num) in E. revert Ha Hb E.
  change (2^61)%N with 2305843009213693952%N. change (2^64)%N with 18446744073709551616%N. intros Ha Hb E.
  rewrite !N.mod_small in E by lia.
  rewrite !be_num_str in E by (change (256 ^ N.of_nat 8)%N with 18446744073709551616%N; lia). lia.
Qed.

Lemma SHA256_collision m1 m2 : (N.of_nat (length m1) < 2^61)%N -> (N.of_nat (length m2) < 2^61)%N ->
  SHA256 m1 = SHA256 m2 -> m1 <> m2 -> collision compress (sha_calls m1) (sha_calls m2).
Proof.
  intros L1 L2 E N. unfold sha_calls. rewrite !sha_pad_by. apply (pad_collision sha_len sha_len8 compress state8_dec).
  - apply sha_len_inj; assumption.
  - unfold SHA256 in E. fold (sha_digest (fold_left compress (chunks 64 (ShaSpec.pad m1)) (state_of sha_H0))) in E.
    fold (sha_digest (fold_left compress (chunks 64 (ShaSpec.pad m2)) (state_of sha_H0))) in E.
    apply (f_equal (fun d => state_of (map be_num (chunks 4 d)))) in E.
    rewrite !sha_digest_back in E by (apply fold_compress_ok; apply H0_ok). exact E.
  - exact N.
Qed.

Lemma int_lt61 n : (Z.of_nat n + 73 <= 2^31)%Z -> (N.of_nat n < 2^61)%N.
Proof. change (2^31)%Z with 2147483648%Z. change (2^61)%N with 2305843009213693952%N. lia. Qed.

Lemma sha_written m d msg : writable m d 32 -> ldn (write_at m d (SHA256 msg)) d 32 = Ret (SHA256 msg).
Proof.
  intros W. pose proof (has_bytes_ldn (write_at m d (SHA256 msg)) d (SHA256 msg)) as X. rewrite SHA256_length in X. apply X.
  apply has_bytes_write_same; [rewrite SHA256_length; exact W|apply SHA256_ok].
Qed.

Theorem C93_sha256_collision : forall m1 d1 p1 msg1 r1 m2 d2 p2 msg2 r2,
  has_bytes m1 p1 msg1 -> writable m1 d1 32 -> (Z.of_nat (length msg1) + 73 <= 2^31)%Z ->
  has_bytes m2 p2 msg2 -> writable m2 d2 32 -> (Z.of_nat (length msg2) + 73 <= 2^31)%Z ->
  sha256_auth m1 d1 p1 (N.of_nat (length msg1)) = Ret r1 ->
  sha256_auth m2 d2 p2 (N.of_nat (length msg2)) = Ret r2 ->
  msg1 <> msg2 ->
  ldn r1 d1 32 <> ldn r2 d2 32 \/
  exists h1 b1 h2 b2, In (h1, b1) (sha_calls msg1) /\ In (h2, b2) (sha_calls msg2) /\
    (h1, b1) <> (h2, b2) /\ compress h1 b1 = compress h2 b2.
Proof.
  intros m1 d1 p1 msg1 r1 m2 d2 p2 msg2 r2 H1 W1 L1 H2 W2 L2 E1 E2 N.
  rewrite C04_sha256_is_fips in E1, E2 by assumption. apply Ret_inj in E1, E2. subst r1 r2.
  assert (X : forall m d msg, writable m d 32 -> ldn (write_at m d (SHA256 msg)) d 32 = Ret (SHA256 msg)).
  { intros m d msg W. apply sha_written. exact W. }
  rewrite !X by assumption.
  destruct (list_eq_dec N.eq_dec (SHA256 msg1) (SHA256 msg2)) as [E|D]; [right|left; intros Y; apply Ret_inj in Y; exact (D Y)].
  apply SHA256_collision; [apply int_lt61; exact L1|apply int_lt61; exact L2|exact E|exact N].
Qed.
Print Assumptions C93_sha256_collision.

(** Concrete case: "abc" and "abd", one block each, whose calls do not collide. *)
Example C93_instance :
  let m1 := [holding [97; 98; 99]%N; fresh 32] in let m2 := [holding [97; 98; 100]%N; fresh 32] in
  has_bytes m1 (Ptr 0 0) [97; 98; 99]%N /\ writable m1 (Ptr 1 0) 32 /\
  has_bytes m2 (Ptr 0 0) [97; 98; 100]%N /\ writable m2 (Ptr 1 0) 32 /\
  length (sha_calls [97; 98; 99]%N) = 1 /\ length (sha_calls [97; 98; 100]%N) = 1 /\
  match sha256_auth m1 (Ptr 1 0) (Ptr 0 0) 3, sha256_auth m2 (Ptr 1 0) (Ptr 0 0) 3 with
  | Ret r1, Ret r2 => ldn r1 (Ptr 1 0) 32 <> ldn r2 (Ptr 1 0) 32
  | _, _ => False
  end.
Proof.
  cbv zeta. split; [conc_has_bytes|]. split; [conc_writable|]. split; [conc_has_bytes|]. split; [conc_writable|].
  split; [reflexivity|]. split; [reflexivity|]. vm_compute. intros X. discriminate X.
Qed.

(** ** C94: MD5 *)
Definition md5_calls (msg : list N) : list (Md5Spec.state4 * list N) :=
  calls Md5Spec.compress Md5Spec.init (chunks 64 (Md5Spec.pad msg)).

Definition md5_len (n : nat) : list N := le_str 8 ((8 * N.of_nat n) mod 2^64).
Lemma md5_pad_by msg : Md5Spec.pad msg = pad_by md5_len msg.
Proof. reflexivity. Qed.
Lemma md5_len8 n : length (md5_len n) = 8.
Proof. apply le_str_length. Qed.
Lemma md5_len_inj a b : (N.of_nat a < 2^61)%N -> (N.of_nat b < 2^61)%N -> md5_len a = md5_len b -> a = b.
Proof.
  intros Ha Hb E. unfold md5_len in E. apply (f_equal le_num) in E. rewrite !le_num_str in E. revert Ha Hb E.
  change (256 ^ N.of_nat 8)%N with (2^64)%N. rewrite !N.mod_mod by discriminate.
  change (2^61)%N with 2305843009213693952%N. change (2^64)%N with 18446744073709551616%N. intros Ha Hb E.
  rewrite !N.mod_small in E by lia. lia.
Qed.

Lemma md5_compress_ok s b : words_ok (list4 (Md5Spec.compress s b)).
Proof.
  unfold Md5Spec.compress. destruct (fold_left _ _ _) as [[[a' b'] c'] d']. destruct s as [[[x y] z] w].
  cbn [Md5Spec.add4 list4]. unfold words_ok, add_w32.
  do 4 (apply Forall_cons; [apply N.mod_lt; discriminate|]). apply Forall_nil.
Qed.
Lemma fold_md5_ok bs : forall s, words_ok (list4 s) -> words_ok (list4 (fold_left Md5Spec.compress bs s)).
Proof. induction bs as [|b bs IH]; intros s H; [exact H|]. rewrite fold_left_cons. apply IH. apply md5_compress_ok. Qed.

Lemma output_flat s : Md5Spec.output s = flat_map (le_str 4) (list4 s).
Proof. destruct s as [[[? ?] ?] ?]. reflexivity. Qed.
Definition state4_of (l : list N) : Md5Spec.state4 := (nth 0 l 0%N, nth 1 l 0%N, nth 2 l 0%N, nth 3 l 0%N).
Lemma output_back s : words_ok (list4 s) -> state4_of (map le_num (chunks 4 (Md5Spec.output s))) = s.
Proof.
  intros H. rewrite output_flat, words_of_le_bytes by exact H. destruct s as [[[? ?] ?] ?]. reflexivity.
Qed.
Lemma md5_init_ok : words_ok (list4 Md5Spec.init).
Proof. apply words_ok_forallb. vm_compute. reflexivity. Qed.

Lemma state4_dec (x y : Md5Spec.state4) : {x = y} + {x <> y}.
Proof. repeat decide equality. Defined.

Lemma md5_bytes msg : bytes_ok (Md5Spec.md5 msg).
Proof.
  unfold Md5Spec.md5. rewrite output_flat. generalize (list4 (fold_left Md5Spec.compress (chunks 64 (Md5Spec.pad msg)) Md5Spec.init)).
  induction l as [|x l IH]; [apply Forall_nil|]. cbn [flat_map]. apply Forall_app. split; [apply le_str_ok|exact IH].
Qed.

Lemma md5_written m d msg : writable m d 16 -> ldn (write_at m d (Md5Spec.md5 msg)) d 16 = Ret (Md5Spec.md5 msg).
Proof.
  intros W. pose proof (has_bytes_ldn (write_at m d (Md5Spec.md5 msg)) d (Md5Spec.md5 msg)) as X. rewrite md5_length in X. apply X.
  apply has_bytes_write_same; [rewrite md5_length; exact W|apply md5_bytes].
Qed.

(** Two messages, given to MD5Update in any pieces. *)
Theorem C94_md5_collision : forall c1 ps1 m1 d1 r1 k1 c2 ps2 m2 d2 r2 k2,
  context c1 -> Forall held ps1 -> all_allowed [] ps1 -> writable m1 d1 16 -> (N.of_nat (length (message ps1)) < 2^61)%N ->
  context c2 -> Forall held ps2 -> all_allowed [] ps2 -> writable m2 d2 16 -> (N.of_nat (length (message ps2)) < 2^61)%N ->
  (let* c := updates (md5_init c1) ps1 in md5_final m1 d1 c) = Ret (r1, k1) ->
  (let* c := updates (md5_init c2) ps2 in md5_final m2 d2 c) = Ret (r2, k2) ->
  ldn r1 d1 16 = ldn r2 d2 16 -> message ps1 <> message ps2 ->
  exists h1 b1 h2 b2, In (h1, b1) (md5_calls (message ps1)) /\ In (h2, b2) (md5_calls (message ps2)) /\
    (h1, b1) <> (h2, b2) /\ Md5Spec.compress h1 b1 = Md5Spec.compress h2 b2.
Proof.
  intros c1 ps1 m1 d1 r1 k1 c2 ps2 m2 d2 r2 k2 C1 F1 A1 W1 L1 C2 F2 A2 W2 L2 E1 E2 E N.
  rewrite C55_md5_is_rfc1321 in E1, E2 by assumption. apply Ret_pair in E1, E2.
  destruct E1 as [<- _]. destruct E2 as [<- _]. rewrite !md5_written in E by assumption. apply Ret_inj in E.
  revert E N L1 L2. generalize (message ps1) (message ps2). clear. intros a b E N L1 L2.
  change (collision Md5Spec.compress (md5_calls a) (md5_calls b)).
  unfold md5_calls. rewrite !md5_pad_by. apply (pad_collision md5_len md5_len8 Md5Spec.compress state4_dec).
  - apply md5_len_inj; assumption.
  - unfold Md5Spec.md5 in E. apply (f_equal (fun d => state4_of (map le_num (chunks 4 d)))) in E.
    rewrite !output_back in E by (apply fold_md5_ok; apply md5_init_ok). exact E.
  - exact N.
Qed.
Print Assumptions C94_md5_collision.

(** Two messages with the same MD5 digest (X. Wang, H. Yu, EUROCRYPT 2005). *)
Definition wang1 : list N :=
  [209; 49; 221; 2; 197; 230; 238; 196; 105; 61; 154; 6; 152; 175; 249; 92;
   47; 202; 181; 135; 18; 70; 126; 171; 64; 4; 88; 62; 184; 251; 127; 137;
   85; 173; 52; 6; 9; 244; 179; 2; 131; 228; 136; 131; 37; 113; 65; 90;
   8; 81; 37; 232; 247; 205; 201; 159; 217; 29; 189; 242; 128; 55; 60; 91;
   216; 130; 62; 49; 86; 52; 143; 91; 174; 109; 172; 212; 54; 201; 25; 198;
   221; 83; 226; 180; 135; 218; 3; 253; 2; 57; 99; 6; 210; 72; 205; 160;
   233; 159; 51; 66; 15; 87; 126; 232; 206; 84; 182; 112; 128; 168; 13; 30;
   198; 152; 33; 188; 182; 168; 131; 147; 150; 249; 101; 43; 111; 247; 42; 112]%N.
Definition wang2 : list N :=
  [209; 49; 221; 2; 197; 230; 238; 196; 105; 61; 154; 6; 152; 175; 249; 92;
   47; 202; 181; 7; 18; 70; 126; 171; 64; 4; 88; 62; 184; 251; 127; 137;
   85; 173; 52; 6; 9; 244; 179; 2; 131; 228; 136; 131; 37; 241; 65; 90;
   8; 81; 37; 232; 247; 205; 201; 159; 217; 29; 189; 114; 128; 55; 60; 91;
   216; 130; 62; 49; 86; 52; 143; 91; 174; 109; 172; 212; 54; 201; 25; 198;
   221; 83; 226; 52; 135; 218; 3; 253; 2; 57; 99; 6; 210; 72; 205; 160;
   233; 159; 51; 66; 15; 87; 126; 232; 206; 84; 182; 112; 128; 40; 13; 30;
   198; 152; 33; 188; 182; 168; 131; 147; 150; 249; 101; 171; 111; 247; 42; 112]%N.

Lemma wang1_digest : Md5Spec.md5 wang1 = be_str 16 0x79054025255fb1a26e4bc422aef54eb4.
Proof. apply list_N_eqb_eq. vm_compute. reflexivity. Qed.
Lemma wang2_digest : Md5Spec.md5 wang2 = be_str 16 0x79054025255fb1a26e4bc422aef54eb4.
Proof. apply list_N_eqb_eq. vm_compute. reflexivity. Qed.

(** C97: MD5 digests do not tell messages apart. *)
Theorem C97_md5_distinguishes_refuted : exists c m1 m2 digest input msg1 msg2 r1 r2 k1 k2,
  context c /\ has_bytes m1 input msg1 /\ has_bytes m2 input msg2 /\ writable m1 digest 16 /\ writable m2 digest 16 /\
  length msg1 = 128 /\ length msg2 = 128 /\ msg1 <> msg2 /\
  md5_process_packet c m1 digest input 128 = Ret (r1, k1) /\ md5_process_packet c m2 digest input 128 = Ret (r2, k2) /\
  ldn r1 digest 16 = ldn r2 digest 16 /\ ldn r1 digest 16 = Ret (be_str 16 0x79054025255fb1a26e4bc422aef54eb4).
Proof.
  set (c := Ctx [7; 7; 7; 7]%N 7 7 (fresh 64)).
  set (m1 := [holding wang1; fresh 16]). set (m2 := [holding wang2; fresh 16]).
  assert (C : context c) by (split; reflexivity).
  assert (H1 : has_bytes m1 (Ptr 0 0) wang1) by conc_has_bytes. assert (H2 : has_bytes m2 (Ptr 0 0) wang2) by conc_has_bytes.
  assert (W1 : writable m1 (Ptr 1 0) 16) by conc_writable. assert (W2 : writable m2 (Ptr 1 0) 16) by conc_writable.
  exists c, m1, m2, (Ptr 1 0), (Ptr 0 0), wang1, wang2. do 4 eexists.
  do 5 (split; [assumption|]). split; [reflexivity|]. split; [reflexivity|].
  split; [apply list_N_neq; vm_compute; reflexivity|].
  split; [exact (C55_md5_packet_is_rfc1321 c m1 (Ptr 1 0) (Ptr 0 0) wang1 C H1 W1 eq_refl)|].
  split; [exact (C55_md5_packet_is_rfc1321 c m2 (Ptr 1 0) (Ptr 0 0) wang2 C H2 W2 eq_refl)|].
  rewrite !md5_written by assumption.
  rewrite wang1_digest, wang2_digest. split; reflexivity.
Qed.
Print Assumptions C97_md5_distinguishes_refuted.

(** The hypotheses of C94, with equal digests, are met by these messages. *)
Example C94_instance :
  let c := Ctx [7; 7; 7; 7]%N 7 7 (fresh 64) in
  let m1 := [holding wang1; fresh 16] in let m2 := [holding wang2; fresh 16] in
  let ps1 := [(m1, Ptr 0 0, wang1)] in let ps2 := [(m2, Ptr 0 0, firstn 60 wang2); (m2, Ptr 0 60, skipn 60 wang2)] in
  context c /\ Forall held ps1 /\ all_allowed [] ps1 /\ writable m1 (Ptr 1 0) 16 /\
  Forall held ps2 /\ all_allowed [] ps2 /\ writable m2 (Ptr 1 0) 16 /\ message ps1 <> message ps2 /\
  Md5Spec.md5 (message ps1) = Md5Spec.md5 (message ps2).
Proof.
  cbv zeta. split; [split; reflexivity|].
  split; [apply Forall_cons; [split; [conc_has_bytes|vm_compute; reflexivity]|apply Forall_nil]|].
  split; [split; [left; reflexivity|exact I]|]. split; [conc_writable|].
  split; [apply Forall_cons; [split; [conc_has_bytes|vm_compute; reflexivity]|
          apply Forall_cons; [split; [conc_has_bytes|vm_compute; reflexivity]|apply Forall_nil]]|].
  split; [split; [left; reflexivity|split; [right; vm_compute; reflexivity|exact I]]|]. split; [conc_writable|].
  split; [apply list_N_neq; vm_compute; reflexivity|].
  transitivity (Md5Spec.md5 wang1); [reflexivity|]. rewrite wang1_digest, <- wang2_digest. reflexivity.
Qed.

(** ** C95: HMAC *)

(** A full tag made for one message is rejected for any other under the same
    key, unless there is a collision of the compression function among the calls made for the
    two inner strings, or among those made for the two outer strings. *)
Theorem C95_hmac_forgery_is_collision : forall m1 key1 k tag1 p1 msg1 m2 key2 tag2 p2 msg2 cs1 cs2 r1 tag,
  has_bytes m1 key1 k -> has_bytes m2 key2 k -> (Z.of_nat (length k) + 73 <= 2^31)%Z ->
  has_bytes m1 p1 msg1 -> 0 < length msg1 -> (Z.of_nat (length msg1) + 137 <= 2^31)%Z -> writable m1 tag1 32 ->
  has_bytes m2 p2 msg2 -> 0 < length msg2 -> (Z.of_nat (length msg2) + 137 <= 2^31)%Z -> has_bytes m2 tag2 tag ->
  hmac_load_key sha256_auth m1 key1 (Z.of_nat (length k)) = Ret cs1 ->
  hmac_load_key sha256_auth m2 key2 (Z.of_nat (length k)) = Ret cs2 ->
  hmac_tag_generation sha256_auth cs1 m1 tag1 p1 (N.of_nat (length msg1)) 32 = Ret r1 ->
  ldn r1 tag1 32 = Ret tag ->
  msg1 <> msg2 ->
  let inner msg := map (N.lxor 0x36) (hmac_key k) ++ msg in
  let outer msg := map (N.lxor 0x5c) (hmac_key k) ++ SHA256 (inner msg) in
  hmac_tag_validation sha256_auth cs2 m2 tag2 p2 (N.of_nat (length msg2)) 32 = Ret 0%N \/
  collision compress (sha_calls (inner msg1)) (sha_calls (inner msg2)) \/
  collision compress (sha_calls (outer msg1)) (sha_calls (outer msg2)).
Proof.
  intros m1 key1 k tag1 p1 msg1 m2 key2 tag2 p2 msg2 cs1 cs2 r1 tag K1 K2 Lk H1 P1 L1 W1 H2 P2 L2 T2 E1 E2 G R N inner outer.
  destruct (C07_hmac_generation_is_rfc2104 m1 key1 k tag1 p1 msg1 32 K1 Lk H1 P1 L1 W1 (le_n _)) as (x & X1 & X2).
  rewrite E1 in X1. apply Ret_inj in X1. subst x. change (Z.of_nat 32) with 32%Z in X2. rewrite X2 in G. apply Ret_inj in G. subst r1.
  assert (LH : forall msg, length (HMAC k msg) = 32) by (intros; apply SHA256_length).
  rewrite firstn_all2 in R by (rewrite LH; lia). unfold HMAC in R. rewrite sha_written in R by exact W1. apply Ret_inj in R.
  fold (HMAC k msg1) in R. subst tag.
  destruct (C08_hmac_validation_exact m2 key2 k tag2 p2 msg2 (HMAC k msg1) K2 Lk H2 P2 L2 T2 ltac:(rewrite LH; lia)) as (x & X1 & _ & X3).
  rewrite E2 in X1. apply Ret_inj in X1. subst x. rewrite !LH in X3. change (Z.of_nat 32) with 32%Z in X3.
  rewrite (firstn_all2 (n := 32)) in X3 by (rewrite LH; lia).
  destruct (list_eq_dec N.eq_dec (HMAC k msg1) (HMAC k msg2)) as [E|D]; [right|left; apply X3; exact D].
  assert (LI : forall msg, (Z.of_nat (length msg) + 137 <= 2^31)%Z -> (N.of_nat (length (inner msg)) < 2^61)%N).
  { intros msg. unfold inner. rewrite app_length, map_length, hmac_key_length.
    change (2^31)%Z with 2147483648%Z. change (2^61)%N with 2305843009213693952%N. lia. }
  assert (LO : forall msg, (N.of_nat (length (outer msg)) < 2^61)%N).
  { intros msg. unfold outer. rewrite app_length, map_length, hmac_key_length, SHA256_length. reflexivity. }
  change (SHA256 (outer msg1) = SHA256 (outer msg2)) in E.
  destruct (list_eq_dec N.eq_dec (SHA256 (inner msg1)) (SHA256 (inner msg2))) as [EI|NI].
  - left. apply SHA256_collision; [apply LI; exact L1|apply LI; exact L2|exact EI|].
    intros Y. apply app_inv_head in Y. exact (N Y).
  - right. apply SHA256_collision; [apply LO|apply LO|exact E|].
    intros Y. unfold outer in Y. apply app_inv_head in Y. exact (NI Y).
Qed.
Print Assumptions C95_hmac_forgery_is_collision.

(** Concrete case: the tag of [1] made under the key [9; 9] is rejected for [2]. *)
Example C95_instance :
  let m1 := [holding [9; 9]%N; holding [1]%N; fresh 32] in
  has_bytes m1 (Ptr 0 0) [9; 9]%N /\ has_bytes m1 (Ptr 1 0) [1]%N /\ writable m1 (Ptr 2 0) 32 /\
  match (let* cs := hmac_load_key sha256_auth m1 (Ptr 0 0) 2 in
         let* r1 := hmac_tag_generation sha256_auth cs m1 (Ptr 2 0) (Ptr 1 0) 1 32 in
         let* tag := ldn r1 (Ptr 2 0) 32 in Ret (cs, tag)) with
  | Ret (cs, tag) =>
      let m2 := [holding [9; 9]%N; holding [2]%N; holding tag] in
      has_bytes m2 (Ptr 0 0) [9; 9]%N /\ has_bytes m2 (Ptr 1 0) [2]%N /\ length tag = 32 /\
      hmac_tag_validation sha256_auth cs m2 (Ptr 2 0) (Ptr 1 0) 1 32 = Ret 0%N
  | _ => False
  end.
Proof.
  cbv zeta. split; [conc_has_bytes|]. split; [conc_has_bytes|]. split; [conc_writable|].
  vm_compute. split; [conc_has_bytes|]. split; [conc_has_bytes|]. split; reflexivity.
Qed.

(** ** C96: digests can be extended *)

(** The digest of [pad msg ++ x], from the digest of [msg], the length [n] of
    [pad msg], and [x]. *)
Definition sha_extend (digest : list N) (n : nat) (x : list N) : list N :=
  flat_map (be_str 4) (list8 (fold_left compress
    (chunks 64 (x ++ [128%N] ++ repeat 0%N ((119 - (n + length x) mod 64) mod 64)
                 ++ be_str 8 ((8 * N.of_nat (n + length x)) mod 2^64)))
    (state_of (map be_num (chunks 4 digest))))).
Definition md5_extend (digest : list N) (n : nat) (x : list N) : list N :=
  Md5Spec.output (fold_left Md5Spec.compress
    (chunks 64 (x ++ [128%N] ++ repeat 0%N ((119 - (n + length x) mod 64) mod 64)
                 ++ le_str 8 ((8 * N.of_nat (n + length x)) mod 2^64)))
    (state4_of (map le_num (chunks 4 digest)))).

Lemma chunks_app64 q (a l : list N) : length a = q * 64 -> chunks 64 (a ++ l) = chunks 64 a ++ chunks 64 l.
Proof.
  revert a. induction q as [|q IH]; intros a H.
  - destruct a; [rewrite chunks_nil; reflexivity|discriminate].
  - rewrite <- (firstn_skipn 64 a), <- app_assoc.
    assert (L1 : length (firstn 64 a) = 64) by (rewrite firstn_length; lia).
    rewrite !(chunks_app 64 (firstn 64 a)) by (first [lia|exact L1]). cbn [app]. f_equal. apply IH. rewrite skipn_length. lia.
Qed.

Theorem C96_sha256_extension : forall m1 d1 p1 msg r1 digest m2 d2 p2 x,
  has_bytes m1 p1 msg -> writable m1 d1 32 -> (Z.of_nat (length msg) + 73 <= 2^31)%Z ->
  sha256_auth m1 d1 p1 (N.of_nat (length msg)) = Ret r1 -> ldn r1 d1 32 = Ret digest ->
  let long := ShaSpec.pad msg ++ x in
  has_bytes m2 p2 long -> writable m2 d2 32 -> (Z.of_nat (length long) + 73 <= 2^31)%Z ->
  sha256_auth m2 d2 p2 (N.of_nat (length long)) =
    Ret (write_at m2 d2 (sha_extend digest (length (ShaSpec.pad msg)) x)).
Proof.
  intros m1 d1 p1 msg r1 digest m2 d2 p2 x H1 W1 L1 E1 R long H2 W2 L2.
  rewrite C04_sha256_is_fips in E1 by assumption. apply Ret_inj in E1. subst r1.
  rewrite sha_written in R by exact W1. apply Ret_inj in R. subst digest.
  rewrite C04_sha256_is_fips by assumption. do 2 f_equal. unfold SHA256 at 1, sha_extend, long, ShaSpec.pad at 1. clear H2 L2 long.
  destruct (pad_by_length sha_len sha_len8 msg) as [q Q]. rewrite <- sha_pad_by in Q.
  rewrite app_length, <- app_assoc, (chunks_app64 (S q)) by exact Q. rewrite fold_left_app.
  unfold SHA256. fold (sha_digest (fold_left compress (chunks 64 (ShaSpec.pad msg)) (state_of sha_H0))).
  rewrite sha_digest_back by (apply fold_compress_ok; apply H0_ok). reflexivity.
Qed.
Print Assumptions C96_sha256_extension.

Theorem C96_md5_extension : forall c1 m1 d1 p1 msg r1 k1 digest c2 m2 d2 p2 x,
  context c1 -> has_bytes m1 p1 msg -> writable m1 d1 16 -> (N.of_nat (length msg) < 2^32)%N ->
  md5_process_packet c1 m1 d1 p1 (N.of_nat (length msg)) = Ret (r1, k1) -> ldn r1 d1 16 = Ret digest ->
  let long := Md5Spec.pad msg ++ x in
  context c2 -> has_bytes m2 p2 long -> writable m2 d2 16 -> (N.of_nat (length long) < 2^32)%N ->
  exists k2, md5_process_packet c2 m2 d2 p2 (N.of_nat (length long)) =
    Ret (write_at m2 d2 (md5_extend digest (length (Md5Spec.pad msg)) x), k2).
Proof.
  intros c1 m1 d1 p1 msg r1 k1 digest c2 m2 d2 p2 x C1 H1 W1 L1 E1 R long C2 H2 W2 L2.
  rewrite C55_md5_packet_is_rfc1321 in E1 by assumption. apply Ret_pair in E1. destruct E1 as [<- _].
  rewrite md5_written in R by exact W1. apply Ret_inj in R. subst digest.
  exists cleared. rewrite C55_md5_packet_is_rfc1321 by assumption. do 3 f_equal.
  unfold Md5Spec.md5 at 1, md5_extend, long, Md5Spec.pad at 1. clear H2 L2 long.
  destruct (pad_by_length md5_len md5_len8 msg) as [q Q]. rewrite <- md5_pad_by in Q.
  rewrite app_length, <- app_assoc, (chunks_app64 (S q)) by exact Q. rewrite fold_left_app.
  unfold Md5Spec.md5. rewrite output_back by (apply fold_md5_ok; apply md5_init_ok). reflexivity.
Qed.
Print Assumptions C96_md5_extension.

(** Concrete cases: the message [1; 2; 3] extended by [7]. *)
Example C96_instance :
  let m1 := [holding [1; 2; 3]%N; fresh 32] in
  let long := ShaSpec.pad [1; 2; 3]%N ++ [7%N] in let m2 := [holding long; fresh 32] in
  let long' := Md5Spec.pad [1; 2; 3]%N ++ [7%N] in let m3 := [holding long'; fresh 16] in
  has_bytes m1 (Ptr 0 0) [1; 2; 3]%N /\ writable m1 (Ptr 1 0) 32 /\ length long = 65 /\
  has_bytes m2 (Ptr 0 0) long /\ writable m2 (Ptr 1 0) 32 /\ has_bytes m3 (Ptr 0 0) long' /\ writable m3 (Ptr 1 0) 16 /\
  SHA256 long = sha_extend (SHA256 [1; 2; 3]%N) 64 [7%N] /\ Md5Spec.md5 long' = md5_extend (Md5Spec.md5 [1; 2; 3]%N) 64 [7%N].
Proof.
  cbv zeta. split; [conc_has_bytes|]. split; [conc_writable|]. split; [reflexivity|].
  split; [conc_has_bytes|]. split; [conc_writable|]. split; [conc_has_bytes|]. split; [conc_writable|].
  split; apply list_N_eqb_eq; vm_compute; reflexivity.
Qed.
