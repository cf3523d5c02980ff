(** Property theorems C27-C30 and C72 (StreamCiphers/Sosemanuk). *)
From Coq Require Import NArith ZArith Arith List Lia.
From Verif Require Import Res Words Mem MemSpec ListLemmas MemLemmas SpecWords WordsLemmas XorProofs ShaProofs Concrete
  SyncSpec SyncProofs StreamSpec StreamProofs SerpentModel SerpentProofs SosemanukTables SosemanukModel SosemanukProofs.
From Verif Require HcProofs SerpentSpec SosemanukSpec.
Import ListNotations.
Local Open Scope nat_scope.

(** The Serpent subkeys that the code uses for a key (see C25). *)
Definition code_subkeys (k : list N) : list (list N) := SerpentSpec.subkeys_of (SerpentSpec.pad_with 0x80 k).

(** What loading a key and an IV does: the Sosemanuk IV injection. *)
Lemma loading scratch scratch' cs0 m key k m' p iv :
  has_bytes m key k -> length k <= 32 -> has_bytes m' p iv -> length iv = 16 ->
  exists cs, sosemanuk_load_key scratch cs0 m key (Z.of_nat (length k)) = Ret (Some cs) /\
    sosemanuk_load_iv scratch' cs m' p = Ret (unview (concat (code_subkeys k)) (SosemanukSpec.init (code_subkeys k) iv)).
Proof.
  intros Hk Lk Hiv Liv. exists (Sosemanuk (concat (code_subkeys k)) (s cs0) (R1 cs0) (R2 cs0)). split.
  - unfold sosemanuk_load_key. rewrite key_schedule_ok by assumption. reflexivity.
  - apply load_iv_ok; try assumption; [apply subkey_list_ok|apply subkey_list_length|reflexivity].
Qed.

Lemma bytes_ok_forallb l : forallb (fun x => N.ltb x 256) l = true -> bytes_ok l.
Proof.
  intros H. apply Forall_forall. intros x Hx. rewrite forallb_forall in H. apply N.ltb_lt. apply H. exact Hx.
Qed.

Lemma loaded_ok k iv : bytes_ok iv -> length iv = 16 -> st_ok (SosemanukSpec.init (code_subkeys k) iv).
Proof. intros. apply init_ok; try assumption; [apply subkey_list_ok|apply subkey_list_length]. Qed.

(** C27: whatever the previous contents of the state and of the scratch
    registers, two parties that load one key and IV exchange every sequence of
    packets. *)
Theorem C27_sosemanuk_synchronised : forall s1 s2 s3 s4 cs0 cs1 ms keys ivs mr keyr ivr k iv pks,
  has_bytes ms keys k -> has_bytes mr keyr k -> length k <= 32 ->
  has_bytes ms ivs iv -> has_bytes mr ivr iv -> length iv = 16 ->
  Forall packet_ok pks ->
  exists ks kr cs cr,
    sosemanuk_load_key s1 cs0 ms keys (Z.of_nat (length k)) = Ret (Some ks) /\
    sosemanuk_load_key s3 cs1 mr keyr (Z.of_nat (length k)) = Ret (Some kr) /\
    sosemanuk_load_iv s1 ks ms ivs = Ret cs /\ sosemanuk_load_iv s3 kr mr ivr = Ret cr /\
    talk2 (sosemanuk_process_packet s2) (sosemanuk_process_packet s4) cs cr pks.
Proof.
  intros s1 s2 s3 s4 cs0 cs1 ms keys ivs mr keyr ivr k iv pks Hk Hk' Lk Hiv Hiv' Liv Hp.
  destruct (loading s1 s1 cs0 ms keys k ms ivs iv Hk Lk Hiv Liv) as (a & A1 & A2).
  destruct (loading s3 s3 cs1 mr keyr k mr ivr iv Hk' Lk Hiv' Liv) as (b & B1 & B2).
  exists a, b. do 2 eexists. split; [exact A1|]. split; [exact B1|]. split; [exact A2|]. split; [exact B2|].
  set (rk := concat (code_subkeys k)).
  apply (sync_talk2 _ _ (fun cs => serpent_cs cs = rk /\ st_ok (view cs)) (fun _ => True)
    (fun cs n => gen_ks (view cs) n) (fun cs n => unview rk (snd (SosemanukSpec.quads false (n / 16 + 1) (view cs))))).
  - intros cs m out inp data [Er Hs] _ H1 H2 H3. rewrite <- (unview_view cs) at 1. rewrite Er.
    apply process_loaded; assumption.
  - intros cs m out inp data [Er Hs] _ H1 H2 H3. rewrite <- (unview_view cs) at 1. rewrite Er.
    apply process_loaded; assumption.
  - intros cs n [Er Hs] _. split; [reflexivity|]. rewrite view_unview. apply (ks_words_ok 0 rk _ _ Hs).
  - intros cs n _ _. apply gen_ks_length.
  - exact Hp.
  - apply Forall_forall. auto.
  - split; [reflexivity|]. rewrite view_unview. apply loaded_ok; [eapply has_bytes_bytes; exact Hiv|exact Liv].
Qed.
Print Assumptions C27_sosemanuk_synchronised.

Example C27_instance :
  let m := [holding (repeat 1%N 16); holding (repeat 2%N 16); holding (repeat 3%N 21); fresh 21] in
  has_bytes m (Ptr 0 0) (repeat 1%N 16) /\ has_bytes m (Ptr 1 0) (repeat 2%N 16) /\
  Forall packet_ok [Packet m (Ptr 3 0) (Ptr 2 0) (repeat 3%N 21); Packet m (Ptr 2 0) (Ptr 2 0) (repeat 3%N 21)].
Proof.
  split; [conc_has_bytes|]. split; [conc_has_bytes|].
  constructor; [split; [conc_has_bytes|split; [conc_writable|right; conc_disjoint]]|].
  constructor; [split; [conc_has_bytes|split; [conc_writable|left; reflexivity]]|constructor].
Qed.

(** What each packet is XORed with: every packet of n bytes takes n/16 + 1
    blocks of the (code's) key stream, also when n is a multiple of 16. *)
Theorem C28_sosemanuk_packet_exact : forall scratch cs data,
  length (s cs) = 10 -> words_ok (s cs) -> (R1 cs < 2^32)%N -> (R2 cs < 2^32)%N ->
  let q := SosemanukSpec.St (s cs) (R1 cs) (R2 cs) in
  let n := length data / 16 + 1 in
  exists cs', serpent_cs cs' = serpent_cs cs /\
    SosemanukSpec.St (s cs') (R1 cs') (R2 cs') = snd (SosemanukSpec.quads false n q) /\
    encrypts (sosemanuk_process_packet scratch) cs data cs'
      (xor_bytes data (flat_map (le_str 4) (fst (SosemanukSpec.quads false n q)))).
Proof.
  intros scratch cs data L W H1 H2 q n.
  assert (Hq : st_ok q) by (unfold st_ok, q; auto).
  exists (unview (serpent_cs cs) (snd (SosemanukSpec.quads false n q))).
  split; [reflexivity|]. split; [apply view_unview|]. split.
  - pose proof (gen_ks_length q (length data)) as G. unfold gen_ks in G. fold n in G. rewrite xor_bytes_length_min. lia.
  - intros m out inp Hd Ho Hv. rewrite <- (unview_view cs) at 1. apply process_loaded; assumption.
Qed.
Print Assumptions C28_sosemanuk_packet_exact.

(** Hence a message cut at a multiple of 16 is not treated as one packet: the
    second part is encrypted from one block later. *)
Theorem C28_sosemanuk_split_skips_block : forall scratch cs a b cs1 ea cs2 eb,
  length (s cs) = 10 -> words_ok (s cs) -> (R1 cs < 2^32)%N -> (R2 cs < 2^32)%N ->
  bytes_ok a -> bytes_ok b -> length a mod 16 = 0 ->
  encrypts (sosemanuk_process_packet scratch) cs a cs1 ea ->
  encrypts (sosemanuk_process_packet scratch) cs1 b cs2 eb ->
  let q := SosemanukSpec.St (s cs) (R1 cs) (R2 cs) in
  let stream := flat_map (le_str 4) (fst (SosemanukSpec.quads false (length a / 16 + (length b / 16 + 2)) q)) in
  ea = xor_bytes a stream /\ eb = xor_bytes b (skipn (length a + 16) stream).
Proof.
  intros scratch cs a b cs1 ea cs2 eb L W H1 H2 Ba Bb Hm Ea Eb q stream.
  destruct (C28_sosemanuk_packet_exact scratch cs a L W H1 H2) as (c1 & _ & Q1 & Xa).
  destruct (encrypts_det _ _ _ _ _ _ _ Ba Ea Xa) as [-> ->].
  assert (Hq : st_ok q) by (unfold st_ok, q; auto).
  pose proof (ks_words_ok 0 [] (length a / 16 + 1) q Hq) as (_ & _ & Hq1).
  change (snd (SosemanukSpec.quads false (length a / 16 + 1) {| SosemanukSpec.lfsr := s cs; SosemanukSpec.fsm1 := R1 cs; SosemanukSpec.fsm2 := R2 cs |})) with
    (snd (SosemanukSpec.quads false (length a / 16 + 1) q)) in Q1.
  rewrite <- Q1 in Hq1. destruct Hq1 as (L1 & W1 & R11 & R21). cbn [SosemanukSpec.lfsr SosemanukSpec.fsm1 SosemanukSpec.fsm2] in *.
  destruct (C28_sosemanuk_packet_exact scratch c1 b L1 W1 R11 R21) as (c2 & _ & _ & Xb).
  destruct (encrypts_det _ _ _ _ _ _ _ Bb Eb Xb) as [_ ->].
  fold q.
  assert (Es : stream = flat_map (le_str 4) (fst (SosemanukSpec.quads false (length a / 16 + 1) q)) ++
     flat_map (le_str 4) (fst (SosemanukSpec.quads false (length b / 16 + 1) (snd (SosemanukSpec.quads false (length a / 16 + 1) q))))).
  { unfold stream. replace (length a / 16 + (length b / 16 + 2)) with ((length a / 16 + 1) + (length b / 16 + 1)) by lia.
    rewrite quads_app. cbn [fst]. apply flat_map_app. }
  rewrite Q1.
  assert (Lg : length (flat_map (le_str 4) (fst (SosemanukSpec.quads false (length a / 16 + 1) q))) = length a + 16).
  { rewrite <- le_bytes_spec, le_bytes_length, quads_length. lia. }
  revert Es Lg.
  generalize (flat_map (le_str 4) (fst (SosemanukSpec.quads false (length a / 16 + 1) q))) as u.
  generalize (flat_map (le_str 4) (fst (SosemanukSpec.quads false (length b / 16 + 1) (snd (SosemanukSpec.quads false (length a / 16 + 1) q))))) as v.
  intros v u Es Lg. rewrite Es. split.
  - rewrite HcProofs.xor_app_l by lia. reflexivity.
  - rewrite skipn_app, skipn_all2, Lg, Nat.sub_diag by lia. reflexivity.
Qed.
Print Assumptions C28_sosemanuk_split_skips_block.

(** C28 is false for a loaded state. *)
Theorem C28_sosemanuk_concatenation_refuted : exists scratch m key p cs0 ks cs a b cs1 ea cs2 eb cs3 eab,
  sosemanuk_load_key scratch cs0 m key 16 = Ret (Some ks) /\ sosemanuk_load_iv scratch ks m p = Ret cs /\
  length a = 16 /\
  encrypts (sosemanuk_process_packet scratch) cs a cs1 ea /\
  encrypts (sosemanuk_process_packet scratch) cs1 b cs2 eb /\
  encrypts (sosemanuk_process_packet scratch) cs (a ++ b) cs3 eab /\
  eab <> ea ++ eb.
Proof.
  set (k := repeat 1%N 16). set (iv := repeat 2%N 16).
  set (m := [holding k; holding iv]).
  assert (Hk : has_bytes m (Ptr 0 0) k) by conc_has_bytes. assert (Hiv : has_bytes m (Ptr 1 0) iv) by conc_has_bytes.
  destruct (loading 0 0 (Sosemanuk [] [] 0 0) m (Ptr 0 0) k m (Ptr 1 0) iv Hk ltac:(unfold k; rewrite repeat_length; lia) Hiv eq_refl) as (ks & E1 & E2).
  assert (Biv : bytes_ok iv) by exact (has_bytes_bytes _ _ _ Hiv).
  pose proof (loaded_ok k iv Biv eq_refl) as Hq.
  remember (SosemanukSpec.init (code_subkeys k) iv) as q eqn:Q. remember (concat (code_subkeys k)) as rk eqn:RK.
  assert (A : forall q d, st_ok q -> encrypts (sosemanuk_process_packet 0) (unview rk q) d
     (unview rk (snd (SosemanukSpec.quads false (length d / 16 + 1) q))) (xor_bytes d (gen_ks q (length d))) /\
     st_ok (snd (SosemanukSpec.quads false (length d / 16 + 1) q))).
  { intros q0 d H0. split; [|apply (ks_words_ok 0 rk _ _ H0)]. split.
    - rewrite xor_bytes_length_min. pose proof (gen_ks_length q0 (length d)). lia.
    - intros. apply process_loaded; assumption. }
  set (a := repeat 0%N 16). set (b := [0%N]).
  destruct (A q a Hq) as [Xa Ha]. destruct (A _ b Ha) as [Xb _]. destruct (A q (a ++ b) Hq) as [Xab _].
  exists 0%N, m, (Ptr 0 0), (Ptr 1 0), (Sosemanuk [] [] 0 0), ks, (unview rk q), a, b.
  do 6 eexists. split; [exact E1|]. split; [exact E2|]. split; [reflexivity|].
  split; [exact Xa|]. split; [exact Xb|]. split; [exact Xab|].
  subst q. clear. vm_compute. discriminate.
Qed.
Print Assumptions C28_sosemanuk_concatenation_refuted.

Example C28_instance :
  let cs := Sosemanuk [] (repeat 5%N 10) 1 2 in
  length (s cs) = 10 /\ words_ok (s cs) /\ (R1 cs < 2^32)%N /\ (R2 cs < 2^32)%N /\
  bytes_ok (repeat 0%N 16) /\ length (repeat 0%N 16) mod 16 = 0.
Proof.
  split; [reflexivity|]. split; [apply words_ok_forallb; vm_compute; reflexivity|].
  split; [reflexivity|]. split; [reflexivity|]. split; [apply bytes_ok_forallb; vm_compute; reflexivity|reflexivity].
Qed.

(** C29: what the code computes, for every key, IV and packet: the
    specification with three changes, the padding byte 0x80, the multiplexer
    word s_(t+8) + s_(t+9), and Trans applied to the new R1. *)
Theorem C29_sosemanuk_exact : forall scratch cs0 m key k m' p iv m'' out inp data,
  has_bytes m key k -> length k <= 32 -> has_bytes m' p iv -> length iv = 16 ->
  has_bytes m'' inp data -> writable m'' out (length data) -> same_or_disjoint out inp (length data) ->
  exists ks cs cs',
    sosemanuk_load_key scratch cs0 m key (Z.of_nat (length k)) = Ret (Some ks) /\
    sosemanuk_load_iv scratch ks m' p = Ret cs /\
    sosemanuk_process_packet scratch cs m'' out inp (N.of_nat (length data)) =
    Ret (cs', write_at m'' out (xor_bytes data (flat_map (le_str 4)
      (fst (SosemanukSpec.quads false (length data / 16 + 1)
        (SosemanukSpec.init (SerpentSpec.subkeys_of (SerpentSpec.pad_with 0x80 k)) iv)))))).
Proof.
  intros scratch cs0 m key k m' p iv m'' out inp data Hk Lk Hiv Liv Hd Ho Hv.
  destruct (loading scratch scratch cs0 m key k m' p iv Hk Lk Hiv Liv) as (ks & E1 & E2).
  exists ks. do 2 eexists. split; [exact E1|]. split; [exact E2|].
  apply process_loaded; try assumption. apply loaded_ok; [eapply has_bytes_bytes; exact Hiv|exact Liv].
Qed.
Print Assumptions C29_sosemanuk_exact.

Lemma differs k iv : bytes_ok k -> length k <= 32 -> bytes_ok iv -> length iv = 16 ->
  xor_bytes (repeat 0%N 16) (flat_map (le_str 4)
    (fst (SosemanukSpec.quads false 2 (SosemanukSpec.init (SerpentSpec.subkeys_of (SerpentSpec.pad_with 0x80 k)) iv)))) <>
  xor_bytes (repeat 0%N 16) (SosemanukSpec.keystream k iv 2) ->
  exists scratch cs0 m key p out inp data ks cs cs' r,
    has_bytes m key k /\ has_bytes m p iv /\ has_bytes m inp data /\ writable m out (length data) /\
    length data = 16 /\
    sosemanuk_load_key scratch cs0 m key (Z.of_nat (length k)) = Ret (Some ks) /\
    sosemanuk_load_iv scratch ks m p = Ret cs /\
    sosemanuk_process_packet scratch cs m out inp 16 = Ret (cs', write_at m out r) /\
    r <> xor_bytes data (SosemanukSpec.keystream k iv 2).
Proof.
  intros Bk Lk Biv Liv D. set (data := repeat 0%N 16) in *.
  set (m := [holding k; holding iv; holding data; fresh 16]).
  assert (H0 : has_bytes m (Ptr 0 0) k).
  { split; [exact Bk|]. exists (map Some k). split; [reflexivity|]. cbn [poff skipn]. rewrite map_length. split; [lia|].
    apply firstn_all2. rewrite map_length. lia. }
  assert (H1 : has_bytes m (Ptr 1 0) iv).
  { split; [exact Biv|]. exists (map Some iv). split; [reflexivity|]. cbn [poff skipn]. rewrite map_length. split; [lia|].
    apply firstn_all2. rewrite map_length. lia. }
  assert (H2 : has_bytes m (Ptr 2 0) data) by conc_has_bytes.
  assert (H3 : writable m (Ptr 3 0) (length data)) by conc_writable.
  destruct (C29_sosemanuk_exact 0 (Sosemanuk [] [] 0 0) m (Ptr 0 0) k m (Ptr 1 0) iv m (Ptr 3 0) (Ptr 2 0) data
     H0 Lk H1 Liv H2 H3 ltac:(right; conc_disjoint)) as (ks & cs & cs' & E1 & E2 & E3).
  exists 0%N, (Sosemanuk [] [] 0 0), m, (Ptr 0 0), (Ptr 1 0), (Ptr 3 0), (Ptr 2 0), data, ks, cs, cs'. eexists.
  split; [exact H0|]. split; [exact H1|]. split; [exact H2|]. split; [exact H3|]. split; [reflexivity|].
  split; [exact E1|]. split; [exact E2|]. split; [exact E3|]. exact D.
Qed.

(** C29 is false, for a 128-bit key ... *)
Theorem C29_sosemanuk_is_estream_refuted : exists k iv scratch cs0 m key p out inp data ks cs cs' r,
  length k = 16 /\ length iv = 16 /\
  has_bytes m key k /\ has_bytes m p iv /\ has_bytes m inp data /\ writable m out (length data) /\
  length data = 16 /\
  sosemanuk_load_key scratch cs0 m key (Z.of_nat (length k)) = Ret (Some ks) /\
  sosemanuk_load_iv scratch ks m p = Ret cs /\
  sosemanuk_process_packet scratch cs m out inp 16 = Ret (cs', write_at m out r) /\
  r <> xor_bytes data (SosemanukSpec.keystream k iv 2).
Proof.
  exists (repeat 1%N 16), (repeat 2%N 16).
  destruct (differs (repeat 1%N 16) (repeat 2%N 16)) as (a & b & c & d & e & f & g & h & i & j & k & l & H).
  - apply bytes_ok_forallb. vm_compute. reflexivity.
  - rewrite repeat_length. lia.
  - apply bytes_ok_forallb. vm_compute. reflexivity.
  - reflexivity.
  - vm_compute. discriminate.
  - exists a, b, c, d, e, f, g, h, i, j, k, l. split; [reflexivity|]. split; [reflexivity|]. exact H.
Qed.
Print Assumptions C29_sosemanuk_is_estream_refuted.

(** ... and also for a 256-bit key, where the padding does not matter. *)
Theorem C29_sosemanuk_fsm_refuted : exists k iv scratch cs0 m key p out inp data ks cs cs' r,
  length k = 32 /\ length iv = 16 /\
  has_bytes m key k /\ has_bytes m p iv /\ has_bytes m inp data /\ writable m out (length data) /\
  length data = 16 /\
  sosemanuk_load_key scratch cs0 m key (Z.of_nat (length k)) = Ret (Some ks) /\
  sosemanuk_load_iv scratch ks m p = Ret cs /\
  sosemanuk_process_packet scratch cs m out inp 16 = Ret (cs', write_at m out r) /\
  r <> xor_bytes data (SosemanukSpec.keystream k iv 2).
Proof.
  exists (repeat 1%N 32), (repeat 2%N 16).
  destruct (differs (repeat 1%N 32) (repeat 2%N 16)) as (a & b & c & d & e & f & g & h & i & j & k & l & H).
  - apply bytes_ok_forallb. vm_compute. reflexivity.
  - rewrite repeat_length. lia.
  - apply bytes_ok_forallb. vm_compute. reflexivity.
  - reflexivity.
  - vm_compute. discriminate.
  - exists a, b, c, d, e, f, g, h, i, j, k, l. split; [reflexivity|]. split; [reflexivity|]. exact H.
Qed.
Print Assumptions C29_sosemanuk_fsm_refuted.

Example C29_instance :
  let m := [holding (repeat 1%N 16); holding (repeat 2%N 16); holding (repeat 3%N 21); fresh 21] in
  has_bytes m (Ptr 0 0) (repeat 1%N 16) /\ has_bytes m (Ptr 1 0) (repeat 2%N 16) /\
  has_bytes m (Ptr 2 0) (repeat 3%N 21) /\ writable m (Ptr 3 0) 21 /\ same_or_disjoint (Ptr 3 0) (Ptr 2 0) 21.
Proof.
  split; [conc_has_bytes|]. split; [conc_has_bytes|]. split; [conc_has_bytes|].
  split; [conc_writable|right; conc_disjoint].
Qed.

(** C30: the feedback, for every state of words. *)
Theorem C30_sosemanuk_lfsr : forall cs,
  length (s cs) = 10 -> words_ok (s cs) ->
  let w i := nth i (s cs) 0%N in
  sosemanuk_lfsr_update cs =
  (w 0, Sosemanuk (serpent_cs cs)
    [w 1; w 2; w 3; w 4; w 5; w 6; w 7; w 8; w 9;
     N.lxor (w 9) (N.lxor (SosemanukSpec.alpha_div (w 3)) (SosemanukSpec.alpha_mul (w 0)))] (R1 cs) (R2 cs)).
Proof.
  intros cs L W w. rewrite lfsr_ok by assumption. unfold SosemanukSpec.lfsr_next, SosemanukSpec.feedback, w.
  destruct (s cs) as [|a0 [|a1 [|a2 [|a3 [|a4 [|a5 [|a6 [|a7 [|a8 [|a9 [|]]]]]]]]]]]; try discriminate L.
  cbn [tl app nth]. reflexivity.
Qed.
Print Assumptions C30_sosemanuk_lfsr.

Theorem C30_alpha_inverse : forall w, (w < 2^32)%N ->
  SosemanukSpec.alpha_div (SosemanukSpec.alpha_mul w) = w /\ SosemanukSpec.alpha_mul (SosemanukSpec.alpha_div w) = w.
Proof. intros w H. split; [apply alpha_div_mul|apply alpha_mul_div]; exact H. Qed.
Print Assumptions C30_alpha_inverse.

Theorem C30_lfsr_reversible : forall cs cs' x x' cs1,
  length (s cs) = 10 -> words_ok (s cs) -> length (s cs') = 10 -> words_ok (s cs') ->
  sosemanuk_lfsr_update cs = (x, cs1) -> sosemanuk_lfsr_update cs' = (x', cs1) -> cs = cs' /\ x = x'.
Proof.
  intros cs cs' x x' cs1 L W L' W' E E'. rewrite lfsr_ok in E by assumption. rewrite lfsr_ok in E' by assumption.
  assert (X := f_equal fst E). assert (X' := f_equal fst E'). cbn [fst] in X, X'.
  assert (Y := f_equal snd E). assert (Y' := f_equal snd E'). cbn [snd] in Y, Y'.
  rewrite <- Y in Y'. clear E E' Y.
  assert (E1 := f_equal s Y'). assert (E2 := f_equal serpent_cs Y'). assert (E3 := f_equal R1 Y'). assert (E4 := f_equal R2 Y').
  cbn [s serpent_cs R1 R2] in *. apply lfsr_next_inj in E1; try assumption.
  destruct cs as [rk l r1 r2], cs' as [rk' l' r1' r2']. cbn [s serpent_cs R1 R2] in *. subst. split; reflexivity.
Qed.
Print Assumptions C30_lfsr_reversible.

Example C30_instance :
  let cs := Sosemanuk [] [1; 2; 3; 4; 5; 6; 7; 8; 9; 0xffffffff]%N 1 2 in
  length (s cs) = 10 /\ words_ok (s cs) /\ SosemanukSpec.alpha_mul 0x01000000 = 0xe19fcf13%N /\
  exists x cs1, sosemanuk_lfsr_update cs = (x, cs1).
Proof.
  split; [reflexivity|]. split; [apply words_ok_forallb; vm_compute; reflexivity|].
  split; [vm_compute; reflexivity|]. do 2 eexists. vm_compute. reflexivity.
Qed.

(** C72: under one key, different IVs lead to different states. *)
Theorem C72_sosemanuk_ivs_distinct : forall scratch scratch' cs0 cs0' m key k m' p iv m'' p' iv' ks ks' cs,
  has_bytes m key k -> length k <= 32 ->
  has_bytes m' p iv -> length iv = 16 -> has_bytes m'' p' iv' -> length iv' = 16 ->
  sosemanuk_load_key scratch cs0 m key (Z.of_nat (length k)) = Ret (Some ks) ->
  sosemanuk_load_key scratch' cs0' m key (Z.of_nat (length k)) = Ret (Some ks') ->
  sosemanuk_load_iv scratch ks m' p = Ret cs -> sosemanuk_load_iv scratch' ks' m'' p' = Ret cs ->
  iv = iv'.
Proof.
  intros scratch scratch' cs0 cs0' m key k m' p iv m'' p' iv' ks ks' cs Hk Lk Hiv Liv Hiv' Liv' E1 E1' E2 E2'.
  destruct (loading scratch scratch cs0 m key k m' p iv Hk Lk Hiv Liv) as (c & A1 & A2).
  destruct (loading scratch' scratch' cs0' m key k m'' p' iv' Hk Lk Hiv' Liv') as (c' & B1 & B2).
  rewrite E1 in A1. rewrite E1' in B1. apply Ret_inj in A1. apply Ret_inj in B1.
  assert (ks = c) by congruence. assert (ks' = c') by congruence. subst c c'.
  rewrite E2 in A2. rewrite E2' in B2. apply Ret_inj in A2. apply Ret_inj in B2.
  rewrite A2 in B2. apply (f_equal view) in B2. rewrite !view_unview in B2.
  apply init_inj in B2; try assumption; [apply subkey_list_ok|apply subkey_list_length|eapply has_bytes_bytes; eassumption..].
Qed.
Print Assumptions C72_sosemanuk_ivs_distinct.

(** One key and two IVs: both load, and the theorem says that the states differ. *)
Example C72_instance :
  let m := [holding (repeat 1%N 16); holding (repeat 2%N 16); holding (repeat 3%N 16)] in
  exists ks cs cs', has_bytes m (Ptr 0 0) (repeat 1%N 16) /\ has_bytes m (Ptr 1 0) (repeat 2%N 16) /\
    has_bytes m (Ptr 2 0) (repeat 3%N 16) /\
    sosemanuk_load_key 0 (Sosemanuk [] [] 0 0) m (Ptr 0 0) 16 = Ret (Some ks) /\
    sosemanuk_load_iv 0 ks m (Ptr 1 0) = Ret cs /\ sosemanuk_load_iv 0 ks m (Ptr 2 0) = Ret cs' /\ cs <> cs'.
Proof.
  intros m.
  assert (Hk : has_bytes m (Ptr 0 0) (repeat 1%N 16)) by conc_has_bytes.
  assert (H1 : has_bytes m (Ptr 1 0) (repeat 2%N 16)) by conc_has_bytes.
  assert (H2 : has_bytes m (Ptr 2 0) (repeat 3%N 16)) by conc_has_bytes.
  assert (L : length (repeat 1%N 16) <= 32) by (rewrite repeat_length; lia).
  destruct (loading 0%N 0%N (Sosemanuk [] [] 0 0) m _ _ m _ _ Hk L H1 eq_refl) as (ks & A1 & A2).
  destruct (loading 0%N 0%N (Sosemanuk [] [] 0 0) m _ _ m _ _ Hk L H2 eq_refl) as (ks' & B1 & B2).
  assert (E : ks' = ks) by (rewrite A1 in B1; apply Ret_inj in B1; congruence). rewrite E in B1, B2.
  exists ks. do 2 eexists. do 3 (split; [assumption|]). split; [exact A1|]. split; [exact A2|]. split; [exact B2|].
  intros D. rewrite <- D in B2.
  pose proof (C72_sosemanuk_ivs_distinct 0 0 _ _ m _ _ m _ _ m _ _ ks ks _ Hk L H1 eq_refl H2 eq_refl A1 B1 A2 B2) as X.
  discriminate X.
Qed.

(** C98: altering packets on their way alters the received data in the same
    bits, and nothing else. *)
Theorem C98_sosemanuk_damage : forall s1 s2 s3 s4 cs0 cs1 ms keys ivs mr keyr ivr k iv ds,
  has_bytes ms keys k -> has_bytes mr keyr k -> length k <= 32 ->
  has_bytes ms ivs iv -> has_bytes mr ivr iv -> length iv = 16 ->
  exists ks kr cs cr,
    sosemanuk_load_key s1 cs0 ms keys (Z.of_nat (length k)) = Ret (Some ks) /\
    sosemanuk_load_key s3 cs1 mr keyr (Z.of_nat (length k)) = Ret (Some kr) /\
    sosemanuk_load_iv s1 ks ms ivs = Ret cs /\ sosemanuk_load_iv s3 kr mr ivr = Ret cr /\
    damage_stays (sosemanuk_process_packet s2) (sosemanuk_process_packet s4) cs cr ds.
Proof.
  intros s1 s2 s3 s4 cs0 cs1 ms keys ivs mr keyr ivr k iv ds Hk Hk' Lk Hiv Hiv' Liv.
  destruct (loading s1 s1 cs0 ms keys k ms ivs iv Hk Lk Hiv Liv) as (a & A1 & A2).
  destruct (loading s3 s3 cs1 mr keyr k mr ivr iv Hk' Lk Hiv' Liv) as (b & B1 & B2).
  exists a, b. do 2 eexists. split; [exact A1|]. split; [exact B1|]. split; [exact A2|]. split; [exact B2|].
  set (rk := concat (code_subkeys k)).
  apply (sync_damage _ _ (fun cs => serpent_cs cs = rk /\ st_ok (view cs)) (fun _ => True)
    (fun cs n => gen_ks (view cs) n) (fun cs n => unview rk (snd (SosemanukSpec.quads false (n / 16 + 1) (view cs))))).
  - intros cs m out inp data [Er Hs] _ H1 H2 H3. rewrite <- (unview_view cs) at 1. rewrite Er.
    apply process_loaded; assumption.
  - intros cs m out inp data [Er Hs] _ H1 H2 H3. rewrite <- (unview_view cs) at 1. rewrite Er.
    apply process_loaded; assumption.
  - intros cs n [Er Hs] _. split; [reflexivity|]. rewrite view_unview. apply (ks_words_ok 0 rk _ _ Hs).
  - intros cs n _ _. apply gen_ks_length.
  - apply Forall_forall. auto.
  - split; [reflexivity|]. rewrite view_unview. apply loaded_ok; [eapply has_bytes_bytes; exact Hiv|exact Liv].
Qed.
Print Assumptions C98_sosemanuk_damage.
Example C98_sosemanuk_instance :
  let m := [holding (repeat 1%N 16); holding (repeat 2%N 16)] in
  has_bytes m (Ptr 0 0) (repeat 1%N 16) /\ has_bytes m (Ptr 1 0) (repeat 2%N 16) /\
  altered [[1; 2; 3; 4; 5]; [6; 7]]%N [[0; 0; 0; 0; 0]; [0; 128]]%N = [[1; 2; 3; 4; 5]; [6; 135]]%N.
Proof. split; [conc_has_bytes|split; [conc_has_bytes|reflexivity]]. Qed.
