(** Property theorems C15-C17 (StreamCiphers/HC-128). *)
From Coq Require Import NArith ZArith Arith List Lia.
From Verif Require Import Res Words Mem Ints MemSpec MemLemmas SpecWords WordsLemmas XorProofs Finite Concrete
  SyncSpec SyncProofs StreamSpec StreamProofs HcModel HcProofs.
From Verif Require Import HcSpec.
Import ListNotations.

(** C15: set-up and one packet give the HC-128 encryption, nothing else changes.
    The bound is that of the [int] index of the generator. *)
Theorem C15_hc128_is_estream : forall m key k iv v out inp data,
  has_bytes m key k -> length k = 16 -> has_bytes m iv v -> length v = 16 ->
  has_bytes m inp data -> writable m out (length data) ->
  same_or_disjoint out inp (length data) -> (Z.of_nat (length data) <= 4 * (2^31 - 1))%Z ->
  exists cs cs',
    hc128_initialize m key iv = Ret cs /\
    hc128_process_packet cs m out inp (N.of_nat (length data)) =
      Ret (cs', write_at m out (hc_encrypt k v data)).
Proof.
  intros m key k iv v out inp data Hk Lk Hv Lv Hin Hout Hov Hlen.
  destruct (initialize_ok m key iv k v Hk Hv Lk Lv) as (cs & E & O & V).
  destruct (process_ok cs m out inp data O Hlen Hin Hout Hov) as (cs' & E' & _).
  exists cs, cs'. split; [exact E|]. rewrite E', V, encrypt_words. reflexivity.
Qed.
Print Assumptions C15_hc128_is_estream.

(** Concrete case: zero key and IV, seven zero bytes in place; the result is the
    start of the published key stream 82 00 15 73 A0 03 FD. *)
Example C15_instance :
  let m := [holding (repeat 0%N 16); holding (repeat 0%N 16); holding (repeat 0%N 7)] in
  has_bytes m (Ptr 0 0) (repeat 0%N 16) /\ has_bytes m (Ptr 1 0) (repeat 0%N 16) /\
  has_bytes m (Ptr 2 0) (repeat 0%N 7) /\ writable m (Ptr 2 0) 7 /\ same_or_disjoint (Ptr 2 0) (Ptr 2 0) 7 /\
  (let* cs := hc128_initialize m (Ptr 0 0) (Ptr 1 0) in
   let* (_, m') := hc128_process_packet cs m (Ptr 2 0) (Ptr 2 0) 7 in ldn m' (Ptr 2 0) 7) =
  Ret [0x82; 0x00; 0x15; 0x73; 0xa0; 0x03; 0xfd]%N.
Proof.
  split; [conc_has_bytes|split; [conc_has_bytes|split; [conc_has_bytes|split; [conc_writable|]]]].
  split; [left; reflexivity|vm_compute; reflexivity].
Qed.

(** C16: two parties that set up the same key and IV exchange any packets. *)
Theorem C16_hc128_synchronised : forall m1 key1 iv1 m2 key2 iv2 k v pks,
  has_bytes m1 key1 k -> has_bytes m1 iv1 v -> has_bytes m2 key2 k -> has_bytes m2 iv2 v ->
  length k = 16 -> length v = 16 ->
  Forall packet_ok pks ->
  Forall (fun p => (Z.of_nat (length (pk_data p)) <= 4 * (2^31 - 1))%Z) pks ->
  exists s r, hc128_initialize m1 key1 iv1 = Ret s /\ hc128_initialize m2 key2 iv2 = Ret r /\
    talk hc128_process_packet s r pks.
Proof.
  intros m1 key1 iv1 m2 key2 iv2 k v pks Hk1 Hv1 Hk2 Hv2 Lk Lv Hp Hl.
  destruct (initialize_ok m1 key1 iv1 k v Hk1 Hv1 Lk Lv) as (s & E1 & O1 & V1).
  destruct (initialize_ok m2 key2 iv2 k v Hk2 Hv2 Lk Lv) as (r & E2 & O2 & V2).
  assert (s = r) as <-.
  { destruct s, r. unfold view in V1, V2. cbn in V1, V2. congruence. }
  exists s, s. split; [exact E1|]. split; [exact E2|].
  apply (sync_talk hc128_process_packet state_ok (fun n => (Z.of_nat n <= 4 * (2^31 - 1))%Z)
    (fun s n => le_bytes (fst (hc_words 0 (n_words n) (view s))))
    (fun s n => let r := hc_words 0 (n_words n) (view s) in HcState (fst (snd r)) (snd (snd r)))); auto.
  - intros s0 m out inp data Os Ln H1 H2 H3. apply (process_next s0 m out inp data); auto.
  - intros s0 n Os Ln. apply hc_words_state; auto.
    change (4 * (2^31 - 1))%Z with 8589934588%Z in Ln. change (2^31)%Z with 2147483648%Z.
    pose proof (n_words_bound n). lia.
  - intros s0 n Os Ln. rewrite le_bytes_length, hc_words_length. pose proof (n_words_bound n). lia.
Qed.
Print Assumptions C16_hc128_synchronised.

Example C16_instance :
  let m := [holding (repeat 1%N 16); holding (repeat 2%N 16); holding [1; 2; 3; 4; 5]%N; fresh 5] in
  has_bytes m (Ptr 0 0) (repeat 1%N 16) /\ has_bytes m (Ptr 1 0) (repeat 2%N 16) /\
  Forall packet_ok [Packet m (Ptr 3 0) (Ptr 2 0) [1; 2; 3; 4; 5]%N; Packet m (Ptr 2 0) (Ptr 2 0) [1; 2; 3]%N].
Proof.
  split; [conc_has_bytes|split; [conc_has_bytes|]].
  constructor; [|constructor; [|constructor]].
  - split; [conc_has_bytes|split; [conc_writable|right; conc_disjoint]].
  - split; [conc_has_bytes|split; [conc_writable|left; reflexivity]].
Qed.

(** C17 is false: two four-byte packets do not give the bytes of one eight-byte
    packet, because the second starts the table index at 0 again. *)
Theorem C17_hc128_concatenation_refuted : exists m key k iv v out inp data cs cs1 m1 cs2 m2 cs' m',
  has_bytes m key k /\ length k = 16 /\ has_bytes m iv v /\ length v = 16 /\
  has_bytes m inp data /\ length data = 8 /\ writable m out 8 /\ disjoint out 8 inp 8 /\
  hc128_initialize m key iv = Ret cs /\
  hc128_process_packet cs m out inp 4 = Ret (cs1, m1) /\
  hc128_process_packet cs1 m1 (padd out 4) (padd inp 4) 4 = Ret (cs2, m2) /\
  hc128_process_packet cs m out inp 8 = Ret (cs', m') /\ ldn m2 out 8 <> ldn m' out 8.
Proof.
  set (m := [holding (repeat 0%N 16); holding (repeat 0%N 16); holding (repeat 0%N 8); fresh 8]).
  assert (Hk : has_bytes m (Ptr 0 0) (repeat 0%N 16)) by conc_has_bytes.
  assert (Hv : has_bytes m (Ptr 1 0) (repeat 0%N 16)) by conc_has_bytes.
  assert (Hd : has_bytes m (Ptr 2 0) (repeat 0%N 8)) by conc_has_bytes.
  assert (X : (let* cs := hc128_initialize m (Ptr 0 0) (Ptr 1 0) in
     let* (cs1, m1) := hc128_process_packet cs m (Ptr 3 0) (Ptr 2 0) 4 in
     let* (cs2, m2) := hc128_process_packet cs1 m1 (padd (Ptr 3 0) 4) (padd (Ptr 2 0) 4) 4 in
     let* (cs', m') := hc128_process_packet cs m (Ptr 3 0) (Ptr 2 0) 8 in
     let* a := ldn m2 (Ptr 3 0) 8 in let* b := ldn m' (Ptr 3 0) 8 in
     Ret (list_N_eqb a b)) = Ret false) by (vm_compute; reflexivity).
  destruct (hc128_initialize m (Ptr 0 0) (Ptr 1 0)) as [cs| |] eqn:E1; cbn [bind] in X; try discriminate.
  destruct (hc128_process_packet cs m (Ptr 3 0) (Ptr 2 0) 4) as [[cs1 m1]| |] eqn:E2;
    cbn [bind] in X; try discriminate.
  destruct (hc128_process_packet cs1 m1 (padd (Ptr 3 0) 4) (padd (Ptr 2 0) 4) 4) as [[cs2 m2]| |] eqn:E3;
    cbn [bind] in X; try discriminate.
  destruct (hc128_process_packet cs m (Ptr 3 0) (Ptr 2 0) 8) as [[cs' m']| |] eqn:E4;
    cbn [bind] in X; try discriminate.
  exists m, (Ptr 0 0), (repeat 0%N 16), (Ptr 1 0), (repeat 0%N 16), (Ptr 3 0), (Ptr 2 0), (repeat 0%N 8),
    cs, cs1, m1, cs2, m2, cs', m'.
  split; [exact Hk|]. split; [reflexivity|]. split; [exact Hv|]. split; [reflexivity|].
  split; [exact Hd|]. split; [reflexivity|]. split; [conc_writable|]. split; [conc_disjoint|].
  split; [exact E1|]. split; [exact E2|]. split; [exact E3|]. split; [exact E4|].
  intros B. rewrite B in X. destruct (ldn m' (Ptr 3 0) 8) as [l| |]; cbn [bind] in X; try discriminate.
  rewrite list_N_eqb_refl in X. discriminate.
Qed.
Print Assumptions C17_hc128_concatenation_refuted.

(** The part that holds: a first packet whose length is a multiple of 4096
    bytes (1024 words) can be split off, whatever state one starts from. *)
Theorem C17_hc128_concatenation_4096 : forall m0 key k iv v cs a b,
  has_bytes m0 key k -> length k = 16 -> has_bytes m0 iv v -> length v = 16 ->
  hc128_initialize m0 key iv = Ret cs ->
  length a mod 4096 = 0 -> (Z.of_nat (length a + length b) <= 4 * (2^31 - 1))%Z ->
  exists cs1 cs2 ea eb, length ea = length a /\ length eb = length b /\
    (forall m out inp, has_bytes m inp a -> writable m out (length a) ->
       same_or_disjoint out inp (length a) ->
       hc128_process_packet cs m out inp (N.of_nat (length a)) = Ret (cs1, write_at m out ea)) /\
    (forall m out inp, has_bytes m inp b -> writable m out (length b) ->
       same_or_disjoint out inp (length b) ->
       hc128_process_packet cs1 m out inp (N.of_nat (length b)) = Ret (cs2, write_at m out eb)) /\
    (forall m out inp, has_bytes m inp (a ++ b) -> writable m out (length (a ++ b)) ->
       same_or_disjoint out inp (length (a ++ b)) ->
       hc128_process_packet cs m out inp (N.of_nat (length (a ++ b))) = Ret (cs2, write_at m out (ea ++ eb))).
Proof.
  intros m0 key k iv v cs a b Hk Lk Hv Lv Ei Ha Hl.
  destruct (initialize_ok m0 key iv k v Hk Hv Lk Lv) as (cs0 & E & O & _).
  rewrite E in Ei. injection Ei as <-. apply split_ok; auto.
Qed.
Print Assumptions C17_hc128_concatenation_4096.

(** What the second and later packets are encrypted with: the generator started
    again at step 0 on the tables the earlier packets left. *)
Theorem C17_hc128_packet_exact : forall m0 key k iv v cs a,
  has_bytes m0 key k -> length k = 16 -> has_bytes m0 iv v -> length v = 16 ->
  hc128_initialize m0 key iv = Ret cs ->
  0 < length a -> (Z.of_nat (length a) <= 4 * (2^31 - 1))%Z ->
  let tables_after := snd (hc_words 0 ((length a + 3) / 4) (hc_init k v)) in
  exists cs1,
    (forall m out inp, has_bytes m inp a -> writable m out (length a) ->
       same_or_disjoint out inp (length a) ->
       hc128_process_packet cs m out inp (N.of_nat (length a)) =
       Ret (cs1, write_at m out (hc_encrypt k v a))) /\
    (forall m out inp b, has_bytes m inp b -> writable m out (length b) ->
       same_or_disjoint out inp (length b) -> (Z.of_nat (length b) <= 4 * (2^31 - 1))%Z ->
       exists cs2, hc128_process_packet cs1 m out inp (N.of_nat (length b)) =
       Ret (cs2, write_at m out (xor_bytes b
              (flat_map (le_str 4) (fst (hc_words 0 ((length b + 3) / 4) tables_after)))))).
Proof.
  intros m0 key k iv v cs a Hk Lk Hv Lv Ei Ha Hl T.
  destruct (initialize_ok m0 key iv k v Hk Hv Lk Lv) as (cs0 & E & O & V).
  rewrite E in Ei. injection Ei as <-.
  assert (NW : forall n, n_words n = (n + 3) / 4).
  { intros n. pose proof (n_words_bound n). pose proof (Nat.div_mod (n + 3) 4 ltac:(lia)).
    pose proof (Nat.mod_upper_bound (n + 3) 4 ltac:(lia)). lia. }
  set (r := hc_words 0 (n_words (length a)) (view cs0)).
  exists (HcState (fst (snd r)) (snd (snd r))). split.
  - intros m out inp H1 H2 H3. destruct (process_next cs0 m out inp a O Hl H1 H2 H3) as [E1 _].
    rewrite E1. fold r. unfold r at 3. rewrite V, encrypt_words. reflexivity.
  - intros m out inp b H1 H2 H3 H4.
    assert (O1 : state_ok (HcState (fst (snd r)) (snd (snd r)))).
    { apply hc_words_state; auto. pose proof (n_words_bound (length a)).
      change (4 * (2^31 - 1))%Z with 8589934588%Z in Hl. change (2^31)%Z with 2147483648%Z. lia. }
    destruct (process_next _ m out inp b O1 H4 H1 H2 H3) as [E1 _].
    eexists. rewrite E1. do 3 f_equal. rewrite le_bytes_spec, NW.
    assert (VV : forall t : tables, view (HcState (fst t) (snd t)) = t) by (intros []; reflexivity).
    rewrite VV. unfold T, r. rewrite V, NW. reflexivity.
Qed.
Print Assumptions C17_hc128_packet_exact.

(** Concrete case for both: the zero key, a first packet of 4096 zero bytes. *)
Example C17_instance :
  let m := [holding (repeat 0%N 16)] in
  has_bytes m (Ptr 0 0) (repeat 0%N 16) /\ (exists cs, hc128_initialize m (Ptr 0 0) (Ptr 0 0) = Ret cs) /\
  length (repeat 0%N 4096) mod 4096 = 0.
Proof.
  intros m. assert (H : has_bytes m (Ptr 0 0) (repeat 0%N 16)) by conc_has_bytes.
  destruct (initialize_ok m (Ptr 0 0) (Ptr 0 0) _ _ H H eq_refl eq_refl) as (cs & E & _).
  split; [exact H|]. split; [exists cs; exact E|]. rewrite repeat_length. reflexivity.
Qed.

(** C98: altering packets on their way alters the received data in the same
    bits, and nothing else. *)
Theorem C98_hc128_damage : forall m1 key1 iv1 m2 key2 iv2 k v ds,
  has_bytes m1 key1 k -> has_bytes m1 iv1 v -> has_bytes m2 key2 k -> has_bytes m2 iv2 v ->
  length k = 16 -> length v = 16 ->
  Forall (fun d => (Z.of_nat (length d) <= 4 * (2^31 - 1))%Z) ds ->
  exists s r, hc128_initialize m1 key1 iv1 = Ret s /\ hc128_initialize m2 key2 iv2 = Ret r /\
    damage_stays hc128_process_packet hc128_process_packet s r ds.
Proof.
  intros m1 key1 iv1 m2 key2 iv2 k v ds Hk1 Hv1 Hk2 Hv2 Lk Lv Hl.
  destruct (initialize_ok m1 key1 iv1 k v Hk1 Hv1 Lk Lv) as (s & E1 & O1 & V1).
  destruct (initialize_ok m2 key2 iv2 k v Hk2 Hv2 Lk Lv) as (r & E2 & O2 & V2).
  assert (s = r) as <-.
  { destruct s, r. unfold view in V1, V2. cbn in V1, V2. congruence. }
  exists s, s. split; [exact E1|]. split; [exact E2|].
  assert (P : forall s0 m out inp data, state_ok s0 -> (Z.of_nat (length data) <= 4 * (2^31 - 1))%Z ->
    has_bytes m inp data -> writable m out (length data) -> same_or_disjoint out inp (length data) ->
    hc128_process_packet s0 m out inp (N.of_nat (length data)) =
      Ret (let r := hc_words 0 (n_words (length data)) (view s0) in HcState (fst (snd r)) (snd (snd r)),
           write_at m out (xor_bytes data (le_bytes (fst (hc_words 0 (n_words (length data)) (view s0))))))).
  { intros s0 m out inp data Os Ln H1 H2 H3. apply (process_next s0 m out inp data); auto. }
  apply (sync_damage hc128_process_packet hc128_process_packet state_ok (fun n => (Z.of_nat n <= 4 * (2^31 - 1))%Z)
    (fun s n => le_bytes (fst (hc_words 0 (n_words n) (view s))))
    (fun s n => let r := hc_words 0 (n_words n) (view s) in HcState (fst (snd r)) (snd (snd r)))); auto.
  - intros s0 n Os Ln. apply hc_words_state; auto.
    change (4 * (2^31 - 1))%Z with 8589934588%Z in Ln. change (2^31)%Z with 2147483648%Z.
    pose proof (n_words_bound n). lia.
  - intros s0 n Os Ln. rewrite le_bytes_length, hc_words_length. pose proof (n_words_bound n). lia.
Qed.
Print Assumptions C98_hc128_damage.

Example C98_hc128_instance :
  let m := [holding (repeat 1%N 16); holding (repeat 2%N 16)] in
  has_bytes m (Ptr 0 0) (repeat 1%N 16) /\ has_bytes m (Ptr 1 0) (repeat 2%N 16) /\
  Forall (fun d => (Z.of_nat (length d) <= 4 * (2^31 - 1))%Z) [[1; 2; 3; 4; 5]; [6; 7]]%N /\
  map (@length N) [[0; 0; 0; 0; 0]; [0; 128]]%N = map (@length N) [[1; 2; 3; 4; 5]; [6; 7]]%N /\
  altered [[1; 2; 3; 4; 5]; [6; 7]]%N [[0; 0; 0; 0; 0]; [0; 128]]%N = [[1; 2; 3; 4; 5]; [6; 135]]%N.
Proof.
  split; [conc_has_bytes|split; [conc_has_bytes|]]. split; [|split; reflexivity].
  do 2 (apply Forall_cons; [cbn; lia|]). apply Forall_nil.
Qed.
