(** Property C144: blocks that Legacy/DES leaves as they are. *)
From Coq Require Import Arith NArith List Bool Lia.
From Verif Require Import Res Words Mem MemSpec ListLemmas MemLemmas SpecWords WordsLemmas IoProofs Concrete Finite
  DesTables DesSpec DesModel DesRounds DesLink DesProps DesFixedSpec.
Import ListNotations.
Local Open Scope nat_scope.

(** ** Bits and bytes *)
Lemma bytes_bits_bytes l : length l = 64 -> bytes_bits (bits_bytes l) = l.
Proof.
  intros H. do 64 (destruct l as [|? l]; [discriminate|]). destruct l; [|discriminate].
  unfold bits_bytes. cbn [chunk8 firstn skipn].
  assert (Y : forall a b c d e f g h, byte_bits (bits_num [a;b;c;d;e;f;g;h]) = [a;b;c;d;e;f;g;h]).
  { intros [|] [|] [|] [|] [|] [|] [|] [|]; reflexivity. }
  unfold bytes_bits. cbn [flat_map]. rewrite !Y. reflexivity.
Qed.
Lemma bits_bytes_ok l : bytes_ok (bits_bytes l).
Proof.
  unfold bits_bytes. revert l. generalize 8 at 1. induction n as [|n IH]; intros l; [constructor|]. constructor; [|apply IH].
  eapply N.lt_le_trans; [apply bit_num_le|]. rewrite firstn_length. change 256%N with (2^8)%N. apply N.pow_le_mono_r; lia.
Qed.
Lemma block_bits b : length b = 8 -> length (bytes_bits (halves_reversed b)) = 64.
Proof. intros L. destruct (list8 _ (halves_reversed_length b L)) as (?&?&?&?&?&?&?&?&->). reflexivity. Qed.

(** ** Sixteen equal rounds *)
Lemma equal_rounds_back K n L R : length L = 32 -> length R = 32 ->
  rounds (repeat K n) (snd (rounds (repeat K n) L R)) (fst (rounds (repeat K n) L R)) = (R, L).
Proof.
  intros HL HR. pose proof (rounds_back (repeat K n) L R HL HR) as B. rewrite rev_repeat in B.
  destruct (rounds (repeat K n) L R) as [A C]. exact B.
Qed.
Lemma sixteen K L R : rounds (repeat K 16) L R = let '(A, B) := rounds (repeat K 8) L R in rounds (repeat K 8) A B.
Proof. change (repeat K 16) with (repeat K 8 ++ repeat K 8). apply rounds_app. Qed.
(** The halves change places exactly if they are equal in the middle. *)
Lemma sixteen_swap K L R : length L = 32 -> length R = 32 ->
  rounds (repeat K 16) L R = (R, L) <-> fst (rounds (repeat K 8) L R) = snd (rounds (repeat K 8) L R).
Proof.
  intros HL HR. rewrite sixteen. pose proof (equal_rounds_back K 8 L R HL HR) as B.
  pose proof (rounds_length (repeat K 8) L R HL HR) as [H1 H2].
  destruct (rounds (repeat K 8) L R) as [A C]. cbn [fst snd] in *. split; intros E.
  - pose proof (equal_rounds_back K 8 A C H1 H2) as X. pose proof (equal_rounds_back K 8 C A H2 H1) as Y.
    rewrite E in X. rewrite B in Y. rewrite X in Y. injection Y as Y _. symmetry. exact Y.
  - rewrite E in B |- *. exact B.
Qed.
Lemma app_split (a b c d : list bool) : length a = length c -> a ++ b = c ++ d -> a = c /\ b = d.
Proof.
  intros L E. pose proof (f_equal (firstn (length a)) E) as E1. pose proof (f_equal (skipn (length a)) E) as E2.
  rewrite (proj1 (firstn_skipn_app _ a b eq_refl)), (proj1 (firstn_skipn_app _ c d (eq_sym L))) in E1.
  rewrite (proj2 (firstn_skipn_app _ a b eq_refl)), (proj2 (firstn_skipn_app _ c d (eq_sym L))) in E2. split; assumption.
Qed.
Lemma des_with_fixed K b : length b = 64 -> let x := select IP b in
  des_with (repeat K 16) b = b <->
  fst (rounds (repeat K 8) (firstn 32 x) (skipn 32 x)) = snd (rounds (repeat K 8) (firstn 32 x) (skipn 32 x)).
Proof.
  intros Hb x. assert (Lx : length x = 64) by reflexivity.
  assert (HL : length (firstn 32 x) = 32) by (rewrite firstn_length, Lx; reflexivity).
  assert (HR : length (skipn 32 x) = 32) by (rewrite skipn_length, Lx; reflexivity).
  rewrite <- sixteen_swap by assumption. unfold des_with. fold x.
  pose proof (rounds_length (repeat K 16) _ _ HL HR) as [E1 E2].
  destruct (rounds (repeat K 16) (firstn 32 x) (skipn 32 x)) as [L R]. cbn [fst snd] in *. split; intros E.
  - assert (X : R ++ L = firstn 32 x ++ skipn 32 x).
    { rewrite firstn_skipn. rewrite <- (ip_ip_inverse (R ++ L)) by (rewrite app_length, E1, E2; reflexivity).
      unfold x. f_equal. exact E. }
    apply app_split in X; [|rewrite E2; symmetry; exact HL]. destruct X as [-> ->]. reflexivity.
  - pose proof (f_equal fst E) as Ea. pose proof (f_equal snd E) as Eb. cbn [fst snd] in Ea, Eb.
    rewrite Ea, Eb, firstn_skipn. unfold x. apply ip_inverse_ip. exact Hb.
Qed.
Lemma one_subkey_fixed K b : bytes_ok b -> length b = 8 ->
  one_subkey_des K b = b <-> fst (halfway K b) = snd (halfway K b).
Proof.
  intros B L. unfold halfway. rewrite <- des_with_fixed by (apply block_bits; exact L). unfold one_subkey_des.
  set (d := des_with _ _). assert (Ld : length d = 64) by apply des_with_length. clearbody d. split; intros E.
  - rewrite <- (bytes_bits_bytes d Ld). f_equal. rewrite <- (halves_rev_rev (bits_bytes d)) by reflexivity. f_equal. exact E.
  - rewrite E. rewrite bits_bytes_bits by (apply halves_reversed_ok || apply halves_reversed_length; assumption).
    apply halves_rev_rev. exact L.
Qed.

(** ** The blocks with given halves in the middle *)
Lemma unchanged_ok K H : bytes_ok (unchanged_block K H) /\ length (unchanged_block K H) = 8.
Proof.
  unfold unchanged_block. destruct (rounds _ H H) as [R L].
  split; [|reflexivity]. apply halves_reversed_ok; [apply bits_bytes_ok|reflexivity].
Qed.
Lemma unchanged_halfway K H : length H = 32 -> halfway K (unchanged_block K H) = (H, H).
Proof.
  intros LH. unfold halfway, unchanged_block. pose proof (equal_rounds_back K 8 H H LH LH) as B.
  pose proof (rounds_length (repeat K 8) H H LH LH) as [H1 H2].
  destruct (rounds (repeat K 8) H H) as [R L]. cbn [fst snd] in *.
  rewrite halves_rev_rev by reflexivity. rewrite bytes_bits_bytes by reflexivity.
  rewrite ip_ip_inverse by (rewrite app_length, H1, H2; reflexivity).
  destruct (firstn_skipn_app 32 L R H2) as [-> ->]. exact B.
Qed.
Lemma unchanged_fixed K H : length H = 32 -> one_subkey_des K (unchanged_block K H) = unchanged_block K H.
Proof.
  intros LH. destruct (unchanged_ok K H) as [O L]. apply one_subkey_fixed; [exact O|exact L|].
  rewrite unchanged_halfway by exact LH. reflexivity.
Qed.
Lemma unchanged_all K b : bytes_ok b -> length b = 8 -> fst (halfway K b) = snd (halfway K b) ->
  b = unchanged_block K (fst (halfway K b)).
Proof.
  intros B L. unfold halfway. pose proof (block_bits b L) as Lb. set (x := select IP (bytes_bits (halves_reversed b))).
  assert (Lx : length x = 64) by reflexivity.
  assert (HL : length (firstn 32 x) = 32) by (rewrite firstn_length, Lx; reflexivity).
  assert (HR : length (skipn 32 x) = 32) by (rewrite skipn_length, Lx; reflexivity).
  pose proof (equal_rounds_back K 8 _ _ HL HR) as X. intros E. unfold unchanged_block. rewrite <- E in X. rewrite X.
  rewrite firstn_skipn. unfold x. rewrite ip_inverse_ip by exact Lb.
  rewrite bits_bytes_bits by (apply halves_reversed_ok || apply halves_reversed_length; assumption).
  symmetry. apply halves_rev_rev. exact L.
Qed.

(** ** The property *)
(** Which blocks encryption leaves as they are, for every key: exactly those whose
    halves are equal after eight rounds. *)
Theorem C144_des_unchanged_blocks_exact : forall m kp key ek inp block out,
  has_bytes m kp key -> length key = 8 -> des_key_schedule_encrypt m kp = Ret ek ->
  has_bytes m inp block -> length block = 8 -> writable m out 8 ->
  exists c, des_ecb_block ek m out inp = Ret (write_at m out c) /\ length c = 8 /\
    (c = block <-> fst (halfway (first_subkey key) block) = snd (halfway (first_subkey key) block)).
Proof.
  intros m kp key ek inp block out Hk Lk E Hb Lb W. exists (one_subkey_des (first_subkey key) block).
  split; [exact (C78_des_block_exact m kp key ek inp block out Hk Lk E Hb Lb W)|]. split; [reflexivity|].
  apply one_subkey_fixed; [exact (has_bytes_bytes _ _ _ Hb)|exact Lb].
Qed.
Print Assumptions C144_des_unchanged_blocks_exact.

(** With every key there are 2^32 of them, one for each choice of 32 bits. *)
Theorem C144_des_unchanged_blocks_all : forall key, length key = 8 -> let K := first_subkey key in
  (forall H, length H = 32 -> bytes_ok (unchanged_block K H) /\ length (unchanged_block K H) = 8 /\
     fst (halfway K (unchanged_block K H)) = snd (halfway K (unchanged_block K H))) /\
  (forall H1 H2, length H1 = 32 -> length H2 = 32 -> unchanged_block K H1 = unchanged_block K H2 -> H1 = H2) /\
  (forall block, bytes_ok block -> length block = 8 -> fst (halfway K block) = snd (halfway K block) ->
     exists H, length H = 32 /\ block = unchanged_block K H).
Proof.
  intros key Lk K. split; [|split].
  - intros H LH. destruct (unchanged_ok K H) as [O L]. split; [exact O|]. split; [exact L|].
    rewrite unchanged_halfway by exact LH. reflexivity.
  - intros H1 H2 L1 L2 E. apply (f_equal (halfway K)) in E. rewrite !unchanged_halfway in E by assumption.
    injection E as E. exact E.
  - intros b B L E. exists (fst (halfway K b)). split; [|apply unchanged_all; assumption].
    unfold halfway. apply rounds_length; [rewrite firstn_length|rewrite skipn_length]; reflexivity.
Qed.
Print Assumptions C144_des_unchanged_blocks_all.

(** Packets made of such blocks leave the electronic code book mode unencrypted. *)
Theorem C144_des_unchanged_packets : forall m kp key ek inp out Hs,
  has_bytes m kp key -> length key = 8 -> des_key_schedule_encrypt m kp = Ret ek ->
  Forall (fun H => length H = 32) Hs ->
  let data := flat_map (unchanged_block (first_subkey key)) Hs in
  has_bytes m inp data -> (N.of_nat (length data) < 2^64)%N ->
  writable m out (length data) -> same_or_disjoint out inp (length data) ->
  des_process_packet_ecb ek m out inp (N.of_nat (length data)) = Ret (write_at m out data).
Proof.
  intros m kp key ek inp out Hs Hk Lk E F data Hd Hn W SD.
  destruct (enc_schedule m kp key Hk Lk) as (ek' & E' & S). rewrite E in E'. apply Ret_inj in E'. subst ek'.
  assert (L : length data = 8 * length Hs).
  { unfold data. clear. induction Hs as [|H Hs IH]; [reflexivity|]. cbn [flat_map length]. rewrite app_length, IH, (proj2 (unchanged_ok _ H)). lia. }
  assert (D : ecb_data (first_subkey key) data = data).
  { unfold data. clear - F. induction F as [|H Hs LH F IH]; [reflexivity|]. cbn [flat_map].
    rewrite ecb_data_cons by apply unchanged_ok. rewrite IH, unchanged_fixed by exact LH. reflexivity. }
  rewrite L in *. rewrite (des_ecb_packet_ok ek m out inp data (length Hs) L Hn) by (split; [exact Hd|rewrite L; split; assumption]).
  rewrite S. fold (first_subkey key). rewrite D. reflexivity.
Qed.
Print Assumptions C144_des_unchanged_packets.

(** A counter-mode nonce that starts with such a block is itself the key stream. *)
Theorem C144_des_ctr_nonce_is_keystream : forall m kp key ek np H rest inp data out,
  has_bytes m kp key -> length key = 8 -> des_key_schedule_encrypt m kp = Ret ek -> length H = 32 ->
  let b := unchanged_block (first_subkey key) H in
  has_bytes m np (b ++ rest) -> length rest = 4 -> has_bytes m inp data -> writable m out (length data) ->
  same_or_disjoint out inp (length data) -> length data mod 8 = 0 -> (N.of_nat (length data) < 2^64)%N ->
  des_process_packet_ctr ek m out inp np (N.of_nat (length data)) =
    Ret (write_at m out (flat_map (fun d => xor_bytes d b) (chunks 8 data))).
Proof.
  intros m kp key ek np H rest inp data out Hk Lk E LH b Hn Lr Hd W SD M Sz.
  assert (Lb : length b = 8) by apply unchanged_ok.
  rewrite (C52_des_ctr_keystream_constant m kp key np (b ++ rest) out inp data ek Hk Lk E Hn) by
    (assumption || rewrite app_length, Lb, Lr; reflexivity).
  rewrite (proj1 (firstn_skipn_app 8 b rest Lb)). unfold b. rewrite unchanged_fixed by exact LH. reflexivity.
Qed.
Print Assumptions C144_des_ctr_nonce_is_keystream.

Lemma unchanged_ecb m kp key ek inp out H : length H = 32 -> has_bytes m kp key -> length key = 8 ->
  des_key_schedule_encrypt m kp = Ret ek ->
  has_bytes m inp (unchanged_block (first_subkey key) H) -> writable m out 8 ->
  des_ecb_block ek m out inp = Ret (write_at m out (unchanged_block (first_subkey key) H)).
Proof.
  intros LH Hk Lk E Hb W. destruct (unchanged_ok (first_subkey key) H) as [O L].
  destruct (enc_schedule m kp key Hk Lk) as (ek' & E' & S). rewrite E in E'. apply Ret_inj in E'. subst ek'.
  rewrite (des_ecb_block_ok ek m out inp _ Hb L W), S. fold (first_subkey key). rewrite unchanged_fixed by exact LH. reflexivity.
Qed.

(** Only weak keys, those with a subkey twice, should have such blocks: standard
    DES with the key below changes one of them, but the library changes none. *)
Definition good_key : list N := [0x13;0x34;0x57;0x79;0x9B;0xBC;0xDF;0xF1]%N.
Theorem C144_des_only_weak_keys_refuted : exists key, length key = 8 /\ NoDup (key_subkeys key) /\
  (exists H, length H = 32 /\ let b := bytes_bits (halves_reversed (unchanged_block (first_subkey key) H)) in
     des_encrypt (bytes_bits (halves_reversed key)) b <> b) /\
  forall H, length H = 32 -> forall m kp ek inp out,
    has_bytes m kp key -> des_key_schedule_encrypt m kp = Ret ek ->
    has_bytes m inp (unchanged_block (first_subkey key) H) -> writable m out 8 ->
    des_ecb_block ek m out inp = Ret (write_at m out (unchanged_block (first_subkey key) H)).
Proof.
  exists good_key. split; [reflexivity|]. split.
  { assert (X : (fix distinct (l : list (list bool)) := match l with [] => true | x :: l =>
        forallb (fun y => negb (if list_eq_dec bool_dec x y then true else false)) l && distinct l end) (key_subkeys good_key) = true)
      by (vm_compute; reflexivity).
    revert X. generalize (key_subkeys good_key). induction l as [|x l IH]; intros X; [constructor|].
    apply andb_true_iff in X. destruct X as [X1 X2]. constructor; [|exact (IH X2)].
    intros I. rewrite forallb_forall in X1. specialize (X1 x I). destruct (list_eq_dec bool_dec x x); [discriminate|contradiction]. }
  split.
  - exists (repeat true 32). split; [reflexivity|]. vm_compute. discriminate.
  - intros H LH m kp ek inp out Hk E Hb W. exact (unchanged_ecb m kp good_key ek inp out H LH Hk eq_refl E Hb W).
Qed.
Print Assumptions C144_des_only_weak_keys_refuted.

(** Concrete case: a packet of two blocks is sent as it is. *)
Example C144_instance :
  let data := flat_map (unchanged_block (first_subkey good_key)) [repeat true 32; repeat false 32] in
  let m := [holding good_key; holding data; repeat None 16] in
  exists ek, des_key_schedule_encrypt m (Ptr 0 0) = Ret ek /\ length data = 16 /\ firstn 8 data <> skipn 8 data /\
    des_process_packet_ecb ek m (Ptr 2 0) (Ptr 1 0) 16 = Ret (write_at m (Ptr 2 0) data) /\
    ldn (write_at m (Ptr 2 0) data) (Ptr 2 0) 16 = Ret data.
Proof.
  intros data m.
  assert (V : data = ltac:(let v := eval vm_compute in data in exact v)) by (vm_compute; reflexivity).
  assert (Hk : has_bytes m (Ptr 0 0) good_key) by conc_has_bytes.
  destruct (enc_schedule m (Ptr 0 0) good_key Hk eq_refl) as (ek & E & _).
  exists ek. split; [exact E|].
  pose proof (fun X => C144_des_unchanged_packets m (Ptr 0 0) good_key ek (Ptr 1 0) (Ptr 2 0) [repeat true 32; repeat false 32] Hk eq_refl E X) as K.
  cbv zeta in K. fold data in K. subst m. clearbody data. subst data.
  split; [reflexivity|]. split; [discriminate|]. split; [|reflexivity].
  apply K; [repeat constructor|conc_has_bytes|reflexivity|conc_writable|right; left; discriminate].
Qed.

(** Likewise in counter mode: the sixteen bytes below are sent xored with the
    first eight bytes of the nonce. *)
Example C144_ctr_instance :
  let b := unchanged_block (first_subkey good_key) (repeat true 32) in
  let data := good_key ++ good_key in
  let m := [holding good_key; holding data; repeat None 16; holding (b ++ [0; 0; 0; 1]%N)] in
  exists ek, des_key_schedule_encrypt m (Ptr 0 0) = Ret ek /\
    des_process_packet_ctr ek m (Ptr 2 0) (Ptr 1 0) (Ptr 3 0) 16 =
      Ret (write_at m (Ptr 2 0) (xor_bytes good_key b ++ xor_bytes good_key b)).
Proof.
  intros b data m.
  assert (V : b = ltac:(let v := eval vm_compute in b in exact v)) by (vm_compute; reflexivity).
  assert (Hk : has_bytes m (Ptr 0 0) good_key) by conc_has_bytes.
  destruct (enc_schedule m (Ptr 0 0) good_key Hk eq_refl) as (ek & E & _).
  exists ek. split; [exact E|].
  pose proof (C144_des_ctr_nonce_is_keystream m (Ptr 0 0) good_key ek (Ptr 3 0) (repeat true 32) [0; 0; 0; 1]%N
    (Ptr 1 0) data (Ptr 2 0) Hk eq_refl E eq_refl) as K.
  cbv zeta in K. fold b in K. subst m. clearbody b. subst b.
  etransitivity; [apply K|reflexivity];
    [conc_has_bytes|reflexivity|conc_has_bytes|conc_writable|right; left; discriminate|reflexivity|reflexivity].
Qed.
