(** Property C137: which table entries AEGIS-128 reads. *)
From Coq Require Import Arith NArith ZArith List Bool Lia.
From Verif Require Import Res Words Mem MemSpec ListLemmas MemLemmas SpecWords WordsLemmas Ints Concrete XorProofs
  AesTables AesSpec AesModel AesProofs AegisSpec AegisModel AegisProofs
  AesLookupSpec AesLookupModel AesLookupProps AegisLookupSpec AegisLookupModel.
Import ListNotations.
Local Open Scope N_scope.

(** The entries in the table build; the other builds use no tables. *)
Definition of_build (b : aegis_build) (tr : list lookup) : list lookup := match b with ATable => tr | _ => [] end.

Lemma around_seen_ok b s k tr : st16 s -> st16 k ->
  around_seen b (words_of s) (words_of k) tr = (words_of (aes_round s k), tr ++ of_build b (round_lookups s)).
Proof.
  intros Hs Hk. rewrite <- (around_ok b s k Hs Hk).
  destruct b; cbn [around_seen around of_build]; [|rewrite app_nil_r; reflexivity..].
  destruct (words_of_ok k Hk) as (Wk & Lk & Vk).
  pose proof (round_seen_ok s tr (words_of k) Hs Wk ltac:(lia)) as E.
  pose proof (round_ok s (words_of k) Hs Wk ltac:(lia)) as E1.
  assert (Q : (nth 0 (words_of s) 0, nth 1 (words_of s) 0, nth 2 (words_of s) 0, nth 3 (words_of s) 0) = vstore s).
  { unfold words_of. destruct (vstore s) as [[[a0 a1] a2] a3]. reflexivity. }
  rewrite Q, E, E1. reflexivity.
Qed.

#[local] Opaque aes_round words_of round_lookups.
Lemma update_seen_ok b K S m tr : st_ok S -> st16 m ->
  aegis_state_update_seen b (enc K S, tr) (words_of m) = (enc K (update S m), tr ++ of_build b (update_lookups S)).
Proof.
  intros (H0 & H1 & H2 & H3 & H4) Hm. unfold aegis_state_update_seen, enc, update, update_lookups.
  cbn [AegisModel.key s0 s1 s2 s3 s4 S0 S1 S2 S3 S4].
  rewrite xor4_ok by assumption. rewrite around_seen_ok by (first [assumption|apply xor_st16; assumption]).
  rewrite !around_seen_ok by assumption. apply (f_equal2 (@pair _ _)); [reflexivity|].
  destruct b; cbn [of_build]; rewrite <- ?app_assoc, ?app_nil_r; reflexivity.
Qed.

(** Taking in key and IV gives the state of AEGIS-128 and reads, in the table
    build, the entries for its ten updates; the other builds read none. *)
Theorem C137_aegis_initialize_lookups : forall b cs m kp iv K IV,
  has_bytes m kp K -> length K = 16%nat -> has_bytes m iv IV -> length IV = 16%nat ->
  exists cs1 cs2, aegis_load_key cs m kp = Ret cs1 /\ aegis_initialize b cs1 m iv = Ret cs2 /\
    aegis_initialize_seen b cs1 m iv = Ret (cs2, of_build b (initialize_lookups K IV)).
Proof.
  intros b cs m kp iv K IV Hk LK Hiv LIV.
  assert (HK : st16 K) by (split; [exact (has_bytes_bytes _ _ _ Hk)|exact LK]).
  assert (HI : st16 IV) by (split; [exact (has_bytes_bytes _ _ _ Hiv)|exact LIV]).
  unfold aegis_load_key. rewrite (ld_words4 _ _ _ Hk LK). cbn [bind].
  eexists. eexists. split; [reflexivity|].
  split; [apply (initialize_ok b K _ m iv IV HK HI); [reflexivity|exact Hiv]|].
  unfold aegis_initialize_seen. rewrite (ld_words4 _ _ _ Hiv LIV). cbn [bind AegisModel.key].
  destruct const_words as [-> ->]. destruct const_st16 as [C0 C1].
  rewrite !xor4_ok by assumption.
  pose proof (initial_ok K IV HK HI) as H. pose proof (xor_st16 K IV HK HI) as HX.
  rewrite enc_St. unfold initialize, initialize_lookups. fold (initial K IV).
  destruct (words_of_ok K HK) as (_ & L1 & _). destruct (words_of_ok _ HX) as (_ & LX & _).
  revert HX LX. generalize (xor_bytes K IV) as X. revert H. generalize (initial K IV) as S.
  intros S H X HX LX. f_equal. cbn [iter_n].
  rewrite !message_block by (first [assumption|lia]). cbn [Nat.even repeat concat app].
  unfold rounds2. rewrite !update_seen_ok by (repeat (first [assumption|apply update_st_ok])).
  apply (f_equal2 (@pair _ _)); [reflexivity|]. cbn [updates_lookups]. rewrite app_nil_r.
  destruct b; cbn [of_build]; rewrite <- ?app_assoc, ?app_nil_r; reflexivity.
Qed.
Print Assumptions C137_aegis_initialize_lookups.

Lemma first_block K IV : exists rest, initialize_lookups K IV = round_lookups (xor_bytes K const1) ++ rest.
Proof.
  unfold initialize_lookups. cbn [repeat concat app updates_lookups]. unfold update_lookups at 1.
  rewrite <- !app_assoc. eexists. reflexivity.
Qed.

(** Somebody who sees, for the first 16 accesses, which group of 2^g entries is
    read, learns all but the low g bits of every byte of the key and no more:
    without knowing or choosing anything, the IVs may differ and be secret. *)
Theorem C137_aegis_first_round_shows_key : forall g ca cb ma mb ka kb va vb Ka Kb IVa IVb ca1 ca2 cb1 cb2 tra trb,
  has_bytes ma ka Ka -> length Ka = 16%nat -> has_bytes ma va IVa -> length IVa = 16%nat ->
  has_bytes mb kb Kb -> length Kb = 16%nat -> has_bytes mb vb IVb -> length IVb = 16%nat ->
  aegis_load_key ca ma ka = Ret ca1 -> aegis_initialize_seen ATable ca1 ma va = Ret (ca2, tra) ->
  aegis_load_key cb mb kb = Ret cb1 -> aegis_initialize_seen ATable cb1 mb vb = Ret (cb2, trb) ->
  firstn 16 (observed g tra) = firstn 16 (observed g trb) <-> map (coarse g) Ka = map (coarse g) Kb.
Proof.
  intros g ca cb ma mb ka kb va vb Ka Kb IVa IVb ca1 ca2 cb1 cb2 tra trb Hka LKa Hva LVa Hkb LKb Hvb LVb Ea Ia Eb Ib.
  destruct (C137_aegis_initialize_lookups ATable ca ma ka va Ka IVa Hka LKa Hva LVa) as (xa & ya & Fa & _ & Ja).
  destruct (C137_aegis_initialize_lookups ATable cb mb kb vb Kb IVb Hkb LKb Hvb LVb) as (xb & yb & Fb & _ & Jb).
  rewrite Ea in Fa. apply Ret_inj in Fa. subst xa. rewrite Eb in Fb. apply Ret_inj in Fb. subst xb.
  rewrite Ia in Ja. apply Ret_pair in Ja. destruct Ja as [_ ->]. rewrite Ib in Jb. apply Ret_pair in Jb. destruct Jb as [_ ->].
  cbn [of_build]. destruct (first_block Ka IVa) as [ra ->]. destruct (first_block Kb IVb) as [rb ->].
  rewrite !firstn_observed. destruct const_st16 as [_ [_ Lc]].
  rewrite round_observed by (rewrite xor_bytes_length_min; lia).
  rewrite !coarse_xor_bytes. split; [|intros ->; reflexivity].
  apply xor_cancel_r; rewrite !map_length; lia.
Qed.
Print Assumptions C137_aegis_first_round_shows_key.

(** So that the entries themselves determine the key. *)
Theorem C137_aegis_initialize_lookups_determine_key : forall ca cb ma mb ka kb va vb Ka Kb IVa IVb ca1 ca2 cb1 cb2 tra trb,
  has_bytes ma ka Ka -> length Ka = 16%nat -> has_bytes ma va IVa -> length IVa = 16%nat ->
  has_bytes mb kb Kb -> length Kb = 16%nat -> has_bytes mb vb IVb -> length IVb = 16%nat ->
  aegis_load_key ca ma ka = Ret ca1 -> aegis_initialize_seen ATable ca1 ma va = Ret (ca2, tra) ->
  aegis_load_key cb mb kb = Ret cb1 -> aegis_initialize_seen ATable cb1 mb vb = Ret (cb2, trb) ->
  tra = trb -> Ka = Kb.
Proof.
  intros ca cb ma mb ka kb va vb Ka Kb IVa IVb ca1 ca2 cb1 cb2 tra trb Hka LKa Hva LVa Hkb LKb Hvb LVb Ea Ia Eb Ib E.
  rewrite <- (coarse_0 Ka), <- (coarse_0 Kb).
  apply (C137_aegis_first_round_shows_key 0 ca cb ma mb ka kb va vb Ka Kb IVa IVb ca1 ca2 cb1 cb2 tra trb); try assumption.
  rewrite E. reflexivity.
Qed.
Print Assumptions C137_aegis_initialize_lookups_determine_key.

(** The claim that the entries do not depend on the key is false of the table
    build, whatever the two IVs, even at the granularity of a cache line. *)
Definition low_key : list N := map N.of_nat (seq 0 16).
Definition other_key : list N := map (fun x => N.lxor x 64) low_key.
Definition near_key : list N := map (fun x => N.lxor x 5) low_key.
Definition some_iv : list N := repeat 7 16.
Definition init_mem (K : list N) : mem := [holding K; holding some_iv].
Definition init_run (b : aegis_build) (K : list N) : res (aegis_state * list lookup) :=
  let* cs := aegis_load_key (Aegis [] [] [] [] [] []) (init_mem K) (Ptr 0 0) in
  aegis_initialize_seen b cs (init_mem K) (Ptr 1 0).
Theorem C137_aegis_lookups_independent_of_key_refuted : exists K1 K2,
  length K1 = 16%nat /\ length K2 = 16%nat /\
  exists c1 c2 tr1 tr2, init_run ATable K1 = Ret (c1, tr1) /\ init_run ATable K2 = Ret (c2, tr2) /\
    observed 4 tr1 <> observed 4 tr2.
Proof.
  exists low_key, other_key. split; [reflexivity|]. split; [reflexivity|].
  assert (V : match init_run ATable low_key, init_run ATable other_key with
    | Ret (_, t1), Ret (_, t2) => negb (snd (nth 0 (observed 4 t1) (InT0, 0)) =? snd (nth 0 (observed 4 t2) (InT0, 0)))
    | _, _ => false end = true) by (vm_compute; reflexivity).
  destruct (init_run ATable low_key) as [[c1 t1]| |]; [|discriminate V|discriminate V].
  destruct (init_run ATable other_key) as [[c2 t2]| |]; [|discriminate V|discriminate V].
  exists c1, c2, t1, t2. split; [reflexivity|]. split; [reflexivity|].
  intros E. rewrite E, N.eqb_refl in V. discriminate V.
Qed.
Print Assumptions C137_aegis_lookups_independent_of_key_refuted.

Example C137_instance :
  has_bytes (init_mem low_key) (Ptr 0 0) low_key /\ has_bytes (init_mem near_key) (Ptr 0 0) near_key /\
  has_bytes (init_mem low_key) (Ptr 1 0) some_iv /\ has_bytes (init_mem near_key) (Ptr 1 0) some_iv /\
  length low_key = 16%nat /\ length near_key = 16%nat /\ length some_iv = 16%nat /\
  low_key <> near_key /\ map (coarse 4) low_key = map (coarse 4) near_key /\
  match init_run ATable low_key, init_run ATable near_key, init_run AX86 low_key, init_run AArm low_key with
  | Ret (_, t1), Ret (_, t2), Ret (_, t3), Ret (_, t4) => length t1 = 800%nat /\
      firstn 16 (observed 4 t1) = firstn 16 (observed 4 t2) /\ firstn 16 (observed 2 t1) <> firstn 16 (observed 2 t2) /\
      observed 4 t1 <> observed 4 t2 /\ t3 = [] /\ t4 = []
  | _, _, _, _ => False
  end.
Proof.
  split; [conc_has_bytes|]. split; [conc_has_bytes|]. split; [conc_has_bytes|]. split; [conc_has_bytes|].
  split; [reflexivity|]. split; [reflexivity|]. split; [reflexivity|]. split; [discriminate|]. split; [reflexivity|].
  vm_compute. split; [reflexivity|]. split; [reflexivity|]. split; [discriminate|]. split; [discriminate|]. split; reflexivity.
Qed.
