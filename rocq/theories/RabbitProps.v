(** Property theorems C18-C23 (StreamCiphers/Rabbit).  [strict_sq] is the
    program under the C++ standard, [wrap_sq] the program compiled so that
    signed multiplication wraps. *)
From Coq Require Import NArith ZArith Arith List Lia.
From Verif Require Import Res Words Mem MemSpec ListLemmas MemLemmas SpecWords WordsLemmas XorProofs ShaProofs Finite Concrete
  SyncSpec SyncProofs StreamSpec StreamProofs RabbitModel RabbitProofs.
From Verif Require RabbitSpec.
Import ListNotations.
Local Open Scope nat_scope.

(** C18: sender and receiver set up with the same key and IV exchange any
    sequence of packets. *)
Theorem C18_rabbit_synchronised : forall m1 key1 iv1 m2 key2 iv2 k v pks,
  has_bytes m1 key1 k -> has_bytes m1 iv1 v -> has_bytes m2 key2 k -> has_bytes m2 iv2 v ->
  length k = 16 -> length v = 8 -> Forall packet_ok pks ->
  exists s0 r0 s r,
    rabbit_load_key wrap_sq m1 key1 = Ret s0 /\ rabbit_load_iv wrap_sq s0 m1 iv1 = Ret s /\
    rabbit_load_key wrap_sq m2 key2 = Ret r0 /\ rabbit_load_iv wrap_sq r0 m2 iv2 = Ret r /\
    talk (rabbit_process_packet wrap_sq) s r pks /\
    talk (rabbit_process_packet wrap_sq) s0 r0 pks.
Proof.
  intros m1 key1 iv1 m2 key2 iv2 k v pks Hk1 Hv1 Hk2 Hv2 Lk Lv Hp.
  assert (T : forall s, talk (rabbit_process_packet wrap_sq) s s pks).
  { intros s. apply (sync_talk (rabbit_process_packet wrap_sq) (fun _ => True) (fun _ => True)
      wrap_ks (fun cs n => psteps (nblocks n) cs)); auto.
    - intros cs m out inp data _ _ H1 H2 H3. rewrite process_pgen by assumption.
      destruct (pgen_wrap_eq cs (length data)) as [E _]. rewrite E. reflexivity.
    - intros cs n _ _. apply pgen_wrap_eq.
    - clear. induction pks; constructor; auto. }
  exists (pkey k), (pkey k), (psteps 4 (piv (pkey k) v)), (psteps 4 (piv (pkey k) v)).
  split; [apply load_key_wrap; assumption|]. split; [apply load_iv_wrap; assumption|].
  split; [apply load_key_wrap; assumption|]. split; [apply load_iv_wrap; assumption|].
  split; apply T.
Qed.
Print Assumptions C18_rabbit_synchronised.

(** The same under the C++ standard, from any common state: as long as the
    sender's calls are defined, the receiver's are, and decrypt. *)
Theorem C18_rabbit_synchronised_strict : forall s pks,
  Forall packet_ok pks -> talk_if (rabbit_process_packet strict_sq) s s pks.
Proof.
  intros s pks H. apply (sync_talk_if _ (pgen strict_sq)); auto.
  - intros. apply process_pgen; assumption.
  - intros s0 n ks s'. apply pgen_length.
Qed.
Print Assumptions C18_rabbit_synchronised_strict.

Example C18_instance :
  let m := [holding (repeat 1%N 16); holding (repeat 2%N 8); holding (repeat 3%N 21); fresh 21] in
  has_bytes m (Ptr 0 0) (repeat 1%N 16) /\ has_bytes m (Ptr 1 0) (repeat 2%N 8) /\
  Forall packet_ok [Packet m (Ptr 3 0) (Ptr 2 0) (repeat 3%N 21); Packet m (Ptr 2 0) (Ptr 2 0) (repeat 3%N 5)].
Proof.
  split; [conc_has_bytes|split; [conc_has_bytes|]].
  constructor; [|constructor; [|constructor]].
  - split; [conc_has_bytes|split; [conc_writable|right; conc_disjoint]].
  - split; [conc_has_bytes|split; [conc_writable|left; reflexivity]].
Qed.

(** C19 is false: for this key the first counter sum of the key set-up is
    exactly 2^32, the carry is lost, and the key stream differs from RFC 4503.
    Both models agree (no signed overflow is involved). *)
Definition lost_carry_key : list N :=
  [0x6f; 0xa4; 0x39; 0x16; 0x6f; 0x2c; 0x71; 0xb8; 0xcb; 0xb2; 0xb3; 0x2c; 0x4d; 0x33; 0x68; 0x2b]%N.

Lemma lost_carry sq : sq = strict_sq \/ sq = wrap_sq ->
  let m := [holding lost_carry_key; holding (repeat 0%N 16)] in
  exists cs cs' m', rabbit_load_key sq m (Ptr 0 0) = Ret cs /\
  rabbit_process_packet sq cs m (Ptr 1 0) (Ptr 1 0) 16 = Ret (cs', m') /\
  ldn m' (Ptr 1 0) 16 <> Ret (RabbitSpec.rabbit_encrypt_no_iv lost_carry_key (repeat 0%N 16)).
Proof.
  intros Hsq m.
  assert (X : (let* cs := rabbit_load_key sq m (Ptr 0 0) in
     let* (cs', m') := rabbit_process_packet sq cs m (Ptr 1 0) (Ptr 1 0) 16 in
     let* a := ldn m' (Ptr 1 0) 16 in
     Ret (list_N_eqb a (RabbitSpec.rabbit_encrypt_no_iv lost_carry_key (repeat 0%N 16)))) = Ret false)
    by (destruct Hsq; subst sq; vm_compute; reflexivity).
  destruct (rabbit_load_key sq m (Ptr 0 0)) as [cs| |] eqn:E1; [|discriminate X|discriminate X]; cbn [bind] in X.
  destruct (rabbit_process_packet sq cs m (Ptr 1 0) (Ptr 1 0) 16) as [[cs' m']| |] eqn:E2; [|discriminate X|discriminate X]; cbn [bind] in X.
  exists cs, cs', m'. split; [reflexivity|]. split; [exact E2|].
  intros B. rewrite B in X. cbn [bind] in X. rewrite list_N_eqb_refl in X. discriminate.
Qed.

Theorem C19_rabbit_is_rfc4503_refuted : forall sq, sq = strict_sq \/ sq = wrap_sq ->
  exists m key k out inp data cs cs' m',
  has_bytes m key k /\ length k = 16 /\ has_bytes m inp data /\ length data = 16 /\
  writable m out 16 /\ same_or_disjoint out inp 16 /\
  rabbit_load_key sq m key = Ret cs /\
  rabbit_process_packet sq cs m out inp 16 = Ret (cs', m') /\
  ldn m' out 16 <> Ret (RabbitSpec.rabbit_encrypt_no_iv k data).
Proof.
  intros sq Hsq. destruct (lost_carry sq Hsq) as (cs & cs' & m' & H1 & H2 & H3).
  exists [holding lost_carry_key; holding (repeat 0%N 16)], (Ptr 0 0), lost_carry_key, (Ptr 1 0), (Ptr 1 0),
    (repeat 0%N 16), cs, cs', m'.
  split; [conc_has_bytes|]. split; [reflexivity|]. split; [conc_has_bytes|]. split; [reflexivity|].
  split; [conc_writable|]. split; [left; reflexivity|]. split; [exact H1|]. split; [exact H2|exact H3].
Qed.
Print Assumptions C19_rabbit_is_rfc4503_refuted.

(** C20, one iteration: the code agrees with RFC 4503 if and only if no counter
    sum is exactly 2^32. *)
Theorem C20_rabbit_step_exact : forall cs cs' sq,
  sq = strict_sq \/ sq = wrap_sq ->
  length (C cs) = 8 -> words_ok (C cs) -> (carry cs <= 1)%N ->
  rabbit_step sq cs = Ret cs' ->
  (RabbitSpec.RState (X cs') (C cs') (carry cs') =
     RabbitSpec.iterate (RabbitSpec.RState (X cs) (C cs) (carry cs)) <->
   ~ In (2^32)%N (RabbitSpec.sums (C cs) RabbitSpec.A_const (carry cs))).
Proof.
  intros cs cs' sq Hsq L W B E.
  assert (O : sq_ok sq) by (destruct Hsq; subst; [apply strict_sq_ok|apply wrap_sq_ok]).
  destruct (step_ok sq O cs) as [F|F]; [congruence|].
  assert (cs' = pstep cs) as -> by congruence. apply (step_exact cs). repeat split; assumption.
Qed.
Print Assumptions C20_rabbit_step_exact.

(** C20, whole runs: with no such sum in the RFC 4503 run, key set-up, IV set-up
    and a packet of any length give RFC 4503. *)
Theorem C20_rabbit_is_rfc4503_when_clean : forall sq m key k iv v m' out inp data cs cs1 cs2 m2,
  sq = strict_sq \/ sq = wrap_sq ->
  has_bytes m key k -> length k = 16 -> has_bytes m iv v -> length v = 8 ->
  has_bytes m' inp data -> writable m' out (length data) -> same_or_disjoint out inp (length data) ->
  RabbitSpec.clean 4 (RabbitSpec.key_words (le_num k)) ->
  RabbitSpec.clean 4 (RabbitSpec.iv_mix (le_num v) (RabbitSpec.key_setup (le_num k))) ->
  RabbitSpec.clean ((length data + 15) / 16) (RabbitSpec.iv_setup (le_num v) (RabbitSpec.key_setup (le_num k))) ->
  rabbit_load_key sq m key = Ret cs -> rabbit_load_iv sq cs m iv = Ret cs1 ->
  rabbit_process_packet sq cs1 m' out inp (N.of_nat (length data)) = Ret (cs2, m2) ->
  m2 = write_at m' out (RabbitSpec.rabbit_encrypt k v data).
Proof.
  intros sq m key k iv v m' out inp data cs cs1 cs2 m2 Hsq Hk Lk Hv Lv Hin Hout Hov C1 C2 C3 E1 E2 E3.
  assert (O : sq_ok sq) by (destruct Hsq; subst; [apply strict_sq_ok|apply wrap_sq_ok]).
  destruct (load_key_ok sq m key k O Hk Lk) as [F|F]; [congruence|].
  assert (cs = pkey k) as -> by congruence.
  destruct (load_iv_ok sq (pkey k) m iv v O Hv Lv) as [G|G]; [congruence|].
  assert (cs1 = psteps 4 (piv (pkey k) v)) as -> by congruence.
  assert (V : view (psteps 4 (piv (pkey k) v)) = RabbitSpec.iv_setup (le_num v) (RabbitSpec.key_setup (le_num k))).
  { unfold RabbitSpec.iv_setup. rewrite psteps_view, piv_view, pkey_view; auto using piv_ok.
    rewrite piv_view, pkey_view by exact C1. exact C2. }
  rewrite <- V in C3.
  destruct (process_clean sq (psteps 4 (piv (pkey k) v)) m' out inp data O (psteps_ok 4 _ (piv_ok k v)) C3 Hin Hout Hov)
    as [K|K]; [congruence|].
  rewrite E3 in K. apply Ret_pair in K. destruct K as [_ K]. rewrite V in K. exact K.
Qed.
Print Assumptions C20_rabbit_is_rfc4503_when_clean.

(** Without an IV. *)
Theorem C20_rabbit_is_rfc4503_when_clean_no_iv : forall sq m key k m' out inp data cs cs2 m2,
  sq = strict_sq \/ sq = wrap_sq ->
  has_bytes m key k -> length k = 16 ->
  has_bytes m' inp data -> writable m' out (length data) -> same_or_disjoint out inp (length data) ->
  RabbitSpec.clean 4 (RabbitSpec.key_words (le_num k)) ->
  RabbitSpec.clean ((length data + 15) / 16) (RabbitSpec.key_setup (le_num k)) ->
  rabbit_load_key sq m key = Ret cs ->
  rabbit_process_packet sq cs m' out inp (N.of_nat (length data)) = Ret (cs2, m2) ->
  m2 = write_at m' out (RabbitSpec.rabbit_encrypt_no_iv k data).
Proof.
  intros sq m key k m' out inp data cs cs2 m2 Hsq Hk Lk Hin Hout Hov C1 C3 E1 E3.
  assert (O : sq_ok sq) by (destruct Hsq; subst; [apply strict_sq_ok|apply wrap_sq_ok]).
  destruct (load_key_ok sq m key k O Hk Lk) as [F|F]; [congruence|].
  assert (cs = pkey k) as -> by congruence.
  rewrite <- (pkey_view k C1) in C3.
  destruct (process_clean sq (pkey k) m' out inp data O (pkey_ok k) C3 Hin Hout Hov) as [K|K]; [congruence|].
  rewrite E3 in K. apply Ret_pair in K. destruct K as [_ K]. rewrite (pkey_view k C1) in K. exact K.
Qed.
Print Assumptions C20_rabbit_is_rfc4503_when_clean_no_iv.

(** Concrete case: the zero key and IV of the RFC vectors and 20 zero bytes are
    clean, and every call succeeds in the wrapping model. *)
Example C20_instance :
  RabbitSpec.clean 4 (RabbitSpec.key_words (le_num (repeat 0%N 16))) /\
  RabbitSpec.clean 4 (RabbitSpec.iv_mix (le_num (repeat 0%N 8)) (RabbitSpec.key_setup (le_num (repeat 0%N 16)))) /\
  RabbitSpec.clean 2 (RabbitSpec.iv_setup (le_num (repeat 0%N 8)) (RabbitSpec.key_setup (le_num (repeat 0%N 16)))) /\
  let m := [holding (repeat 0%N 16); holding (repeat 0%N 8); holding (repeat 0%N 20)] in
  (let* cs := rabbit_load_key wrap_sq m (Ptr 0 0) in
   let* cs := rabbit_load_iv wrap_sq cs m (Ptr 1 0) in
   let* (_, m') := rabbit_process_packet wrap_sq cs m (Ptr 2 0) (Ptr 2 0) 20 in
   ldn m' (Ptr 2 0) 16) =
  Ret (rev [0xC6; 0xA7; 0x27; 0x5E; 0xF8; 0x54; 0x95; 0xD8; 0x7C; 0xCD; 0x5D; 0x37; 0x67; 0x05; 0xB7; 0xED]%N).
Proof.
  assert (D : forall n s, (fix go n s := match n with O => true | S n' =>
      andb (negb (existsb (N.eqb (2^32)) (RabbitSpec.sums (RabbitSpec.sC s) RabbitSpec.A_const (RabbitSpec.sb s))))
           (go n' (RabbitSpec.iterate s)) end) n s = true -> RabbitSpec.clean n s).
  { induction n as [|n IH]; intros s H; [exact I|]. apply Bool.andb_true_iff in H. destruct H as [H1 H2].
    split; [|apply IH; exact H2]. intros K. apply Bool.negb_true_iff in H1.
    assert (existsb (N.eqb (2^32)) (RabbitSpec.sums (RabbitSpec.sC s) RabbitSpec.A_const (RabbitSpec.sb s)) = true).
    { apply existsb_exists. exists (2^32)%N. split; [exact K|reflexivity]. }
    congruence. }
  split; [apply D; vm_compute; reflexivity|]. split; [apply D; vm_compute; reflexivity|].
  split; [apply D; vm_compute; reflexivity|]. vm_compute. reflexivity.
Qed.

Lemma process_step sq cs m p data r : has_bytes m p data -> length data = 16 ->
  rabbit_process_packet sq cs m p p 16 = Ret r -> exists s, rabbit_step sq cs = Ret s.
Proof.
  intros H L. change 16%N with (N.of_nat 16). rewrite <- L.
  rewrite process_ok; [|exact H|apply has_bytes_writable; exact H|left; reflexivity].
  rewrite L. change (nblocks 16) with 1. cbn [gen]. rewrite extract_step.
  destruct (rabbit_step sq cs) as [s| |]; cbn [bind]; try discriminate. intros _. exists s. reflexivity.
Qed.

(** A key for which the standard-conforming program also has defined behaviour. *)
Example C20_instance_strict :
  let m := [holding lost_carry_key; holding (repeat 0%N 16)] in
  exists cs, rabbit_load_key strict_sq m (Ptr 0 0) = Ret cs /\
    length (C cs) = 8 /\ words_ok (C cs) /\ (carry cs <= 1)%N /\
    exists cs', rabbit_step strict_sq cs = Ret cs'.
Proof.
  destruct (lost_carry strict_sq (or_introl eq_refl)) as (cs & cs' & m' & H1 & H2 & _).
  exists cs. split; [exact H1|].
  assert (Hk : has_bytes [holding lost_carry_key; holding (repeat 0%N 16)] (Ptr 0 0) lost_carry_key) by conc_has_bytes.
  destruct (load_key_ok strict_sq _ (Ptr 0 0) lost_carry_key strict_sq_ok Hk eq_refl) as [F|F]; [congruence|].
  assert (cs = pkey lost_carry_key) as -> by congruence.
  destruct (pkey_ok lost_carry_key) as (A1 & A2 & A3). split; [exact A1|]. split; [exact A2|]. split; [exact A3|].
  assert (Hd : has_bytes [holding lost_carry_key; holding (repeat 0%N 16)] (Ptr 1 0) (repeat 0%N 16)) by conc_has_bytes.
  exact (process_step _ _ _ _ _ _ Hd eq_refl H2).
Qed.

(** C21 is false: after five blocks of key stream under the zero key the carry
    bit differs from its value after key set-up, and loading the same IV gives a
    different key stream. *)
Definition iv_block (sq : N -> res N) (cs : rabbit_state) (m : mem) (iv : ptr) : res (list N) :=
  let* s := rabbit_load_iv sq cs m iv in let* (ks, _) := rabbit_extract_keystream sq s in Ret ks.

Lemma two_ivs sq m key iv inp n :
  (let* cs := rabbit_load_key sq m key in
   let* (cs1, m1) := rabbit_process_packet sq cs m inp inp n in
   let* a := iv_block sq cs m iv in let* b := iv_block sq cs1 m1 iv in
   Ret (list_N_eqb a b)) = Ret false ->
  exists cs cs1 m1 a b, rabbit_load_key sq m key = Ret cs /\
    rabbit_process_packet sq cs m inp inp n = Ret (cs1, m1) /\
    iv_block sq cs m iv = Ret a /\ iv_block sq cs1 m1 iv = Ret b /\ a <> b.
Proof.
  intros X.
  destruct (rabbit_load_key sq m key) as [cs| |] eqn:E1; cbn [bind] in X; try discriminate X.
  destruct (rabbit_process_packet sq cs m inp inp n) as [[cs1 m1]| |] eqn:E2; cbn [bind] in X; try discriminate X.
  destruct (iv_block sq cs m iv) as [a| |] eqn:E3; cbn [bind] in X; try discriminate X.
  destruct (iv_block sq cs1 m1 iv) as [b| |] eqn:E4; cbn [bind] in X; try discriminate X.
  exists cs, cs1, m1, a, b.
  split; [reflexivity|]. split; [exact E2|]. split; [exact E3|]. split; [exact E4|].
  intros B. rewrite B, list_N_eqb_refl in X. discriminate.
Qed.

Theorem C21_rabbit_iv_forgets_history_refuted : exists m key k iv v inp data cs cs1 m1 a b,
  has_bytes m key k /\ length k = 16 /\ has_bytes m iv v /\ length v = 8 /\
  has_bytes m inp data /\
  rabbit_load_key wrap_sq m key = Ret cs /\
  rabbit_process_packet wrap_sq cs m inp inp (N.of_nat (length data)) = Ret (cs1, m1) /\
  iv_block wrap_sq cs m iv = Ret a /\ iv_block wrap_sq cs1 m1 iv = Ret b /\ a <> b.
Proof.
  pose (m := [holding (repeat 0%N 16); holding (repeat 0%N 8); holding (repeat 0%N 80)]).
  destruct (two_ivs wrap_sq m (Ptr 0 0) (Ptr 1 0) (Ptr 2 0) (N.of_nat (length (repeat 0%N 80))))
    as (cs & cs1 & m1 & a & b & H); [vm_compute; reflexivity|].
  exists m, (Ptr 0 0), (repeat 0%N 16), (Ptr 1 0), (repeat 0%N 8), (Ptr 2 0), (repeat 0%N 80), cs, cs1, m1, a, b.
  split; [conc_has_bytes|]. split; [reflexivity|]. split; [conc_has_bytes|]. split; [reflexivity|].
  split; [conc_has_bytes|exact H].
Qed.
Print Assumptions C21_rabbit_iv_forgets_history_refuted.

(** What is true: of the packet history only the carry bit survives.  A history
    is a list of packets processed one after the other. *)
Fixpoint history (sq : N -> res N) (cs : rabbit_state) (pks : list packet) (cs' : rabbit_state) : Prop :=
  match pks with
  | [] => cs' = cs
  | k :: pks => exists cs1 m1,
      rabbit_process_packet sq cs (pk_mem k) (pk_out k) (pk_in k) (N.of_nat (length (pk_data k))) = Ret (cs1, m1) /\
      history sq cs1 pks cs'
  end.

Theorem C21_rabbit_only_carry_survives : forall sq cs pks cs' m iv,
  sq = strict_sq \/ sq = wrap_sq ->
  Forall packet_ok pks -> history sq cs pks cs' -> carry cs' = carry cs ->
  rabbit_load_iv sq cs' m iv = rabbit_load_iv sq cs m iv.
Proof.
  intros sq cs pks cs' m iv Hsq Hp Hh Hc.
  assert (O : sq_ok sq) by (destruct Hsq; subst; [apply strict_sq_ok|apply wrap_sq_ok]).
  assert (M : MASTER_X cs' = MASTER_X cs /\ MASTER_C cs' = MASTER_C cs).
  { clear Hc. revert cs Hh. induction Hp as [|k pks (H1 & H2 & H3) Hp IH]; intros cs Hh.
    - cbn in Hh. subst. auto.
    - destruct Hh as (cs1 & m1 & E & Hh). destruct (IH cs1 Hh) as [-> ->].
      rewrite process_ok in E by assumption.
      destruct (gen_ok sq (nblocks (length (pk_data k))) O cs) as [F|(ks & F & _)]; rewrite F in E; cbn [bind] in E; [discriminate|].
      apply Ret_pair in E. destruct E as [<- _]. apply psteps_master. }
  destruct M as [M1 M2]. unfold rabbit_load_iv. rewrite M1, M2, Hc. reflexivity.
Qed.
Print Assumptions C21_rabbit_only_carry_survives.

(** Concrete case: one block under the zero key leaves the carry as it was. *)
Example C21_instance :
  let m := [holding (repeat 0%N 16); holding (repeat 0%N 16)] in
  (let* cs := rabbit_load_key wrap_sq m (Ptr 0 0) in
   let* (cs1, _) := rabbit_process_packet wrap_sq cs m (Ptr 1 0) (Ptr 1 0) 16 in
   Ret (N.eqb (carry cs1) (carry cs))) = Ret true.
Proof. vm_compute. reflexivity. Qed.

(** C22: splitting at a multiple of 16 bytes does not matter (for both models,
    in every state). *)
Theorem C22_rabbit_concatenation : forall sq s s2 a b ea eb,
  bytes_ok a -> bytes_ok b -> length a mod 16 = 0 -> length ea = length a ->
  encrypts (rabbit_process_packet sq) s (a ++ b) s2 (ea ++ eb) <->
  exists s1, encrypts (rabbit_process_packet sq) s a s1 ea /\ encrypts (rabbit_process_packet sq) s1 b s2 eb.
Proof.
  intros sq s s2 a b ea eb Ha Hb Hm Le.
  assert (P : forall s m out inp data,
    has_bytes m inp data -> writable m out (length data) -> same_or_disjoint out inp (length data) ->
    rabbit_process_packet sq s m out inp (N.of_nat (length data)) =
    let* (ks, s') := pgen sq s (length data) in Ret (s', write_at m out (xor_bytes data ks)))
    by (intros; apply process_pgen; assumption).
  assert (Q : forall s n ks s', pgen sq s n = Ret (ks, s') -> n <= length ks) by (intros s0 n ks s'; apply pgen_length).
  assert (EG : forall s data s' e, bytes_ok data -> encrypts (rabbit_process_packet sq) s data s' e <->
     exists ks, pgen sq s (length data) = Ret (ks, s') /\ e = xor_bytes data ks).
  { intros. apply (encrypts_gen _ (pgen sq)); assumption. }
  assert (Hab : bytes_ok (a ++ b)) by (apply Forall_app; split; assumption).
  rewrite (EG s (a ++ b) s2 (ea ++ eb) Hab), app_length, (pgen_app sq s _ _ Hm). split.
  - intros (ks & E & X).
    destruct (pgen sq s (length a)) as [[ka s1]| |] eqn:G1; cbn [bind] in E; try discriminate.
    destruct (pgen sq s1 (length b)) as [[kb s3]| |] eqn:G2; cbn [bind] in E; try discriminate.
    apply Ret_pair in E. destruct E as [<- <-].
    pose proof (pgen_exact sq s _ _ _ Hm G1) as L1.
    rewrite xor_bytes_app in X by auto.
    apply app_inv_length in X; [|rewrite xor_bytes_length; auto]. destruct X as [-> ->].
    exists s1. rewrite !EG by assumption. split; eexists; split; try eassumption; reflexivity.
  - intros (s1 & E1 & E2). apply EG in E1; [|exact Ha]. apply EG in E2; [|exact Hb].
    destruct E1 as (ka & G1 & ->), E2 as (kb & G2 & ->). rewrite G1. cbn [bind]. rewrite G2. cbn [bind].
    exists (ka ++ kb). split; [reflexivity|].
    rewrite xor_bytes_app; [reflexivity|]. symmetry. apply (pgen_exact sq s _ _ _ Hm G1).
Qed.
Print Assumptions C22_rabbit_concatenation.

(** Every packet does encrypt to something in the wrapping model, so the
    equivalence is not empty. *)
Example C22_instance : forall s data, bytes_ok data ->
  exists s' e, encrypts (rabbit_process_packet wrap_sq) s data s' e.
Proof.
  intros s data H. destruct (pgen_wrap_eq s (length data)) as [E L].
  exists (psteps (nblocks (length data)) s), (xor_bytes data (wrap_ks s (length data))).
  split; [rewrite xor_bytes_length_min; lia|].
  intros m out inp H1 H2 H3. rewrite process_pgen, E by assumption. reflexivity.
Qed.

(** C23 is false: setting up the zero key overflows a signed 64-bit
    multiplication. *)
Theorem C23_rabbit_no_ub_refuted : exists m key k,
  has_bytes m key k /\ length k = 16 /\ rabbit_load_key strict_sq m key = UB.
Proof.
  exists [holding (repeat 0%N 16)], (Ptr 0 0), (repeat 0%N 16).
  split; [conc_has_bytes|]. split; [reflexivity|]. vm_compute. reflexivity.
Qed.
Print Assumptions C23_rabbit_no_ub_refuted.

(** Exactly when: an iteration is undefined if and only if one of the eight
    squares is 2^63 or more. *)
Theorem C23_rabbit_ub_exact : forall cs,
  rabbit_step strict_sq cs = UB <->
  exists j, j < 8 /\ (2^63 <= RabbitSpec.square (nth j (X cs) 0%N) (nth j (C (rabbit_counter cs)) 0%N))%N.
Proof. exact step_strict. Qed.
Print Assumptions C23_rabbit_ub_exact.

(** The overflow is the only undefined behaviour: with wrapping multiplication
    every call with valid buffers succeeds. *)
Theorem C23_rabbit_wrapping_total : forall m key k iv v cs m' out inp data,
  has_bytes m key k -> length k = 16 -> has_bytes m iv v -> length v = 8 ->
  has_bytes m' inp data -> writable m' out (length data) -> same_or_disjoint out inp (length data) ->
  (exists c, rabbit_load_key wrap_sq m key = Ret c) /\
  (exists c, rabbit_load_iv wrap_sq cs m iv = Ret c) /\
  (exists c ct, length ct = length data /\
     rabbit_process_packet wrap_sq cs m' out inp (N.of_nat (length data)) = Ret (c, write_at m' out ct)).
Proof.
  intros m key k iv v cs m' out inp data Hk Lk Hv Lv H1 H2 H3. split; [|split].
  - eexists. apply load_key_wrap; eassumption.
  - eexists. apply load_iv_wrap; eassumption.
  - destruct (process_wrap_ret cs m' out inp data H1 H2 H3) as (ct & L & E).
    eexists. exists ct. split; [exact L|exact E].
Qed.
Print Assumptions C23_rabbit_wrapping_total.

(** And whenever the standard-conforming program has a result, wrapping
    multiplication gives the same. *)
Theorem C23_rabbit_strict_refines_wrapping : forall m key k iv v cs m' out inp data,
  has_bytes m key k -> length k = 16 -> has_bytes m iv v -> length v = 8 ->
  has_bytes m' inp data -> writable m' out (length data) -> same_or_disjoint out inp (length data) ->
  (forall c, rabbit_load_key strict_sq m key = Ret c -> rabbit_load_key wrap_sq m key = Ret c) /\
  (forall c, rabbit_load_iv strict_sq cs m iv = Ret c -> rabbit_load_iv wrap_sq cs m iv = Ret c) /\
  (forall r, rabbit_process_packet strict_sq cs m' out inp (N.of_nat (length data)) = Ret r ->
             rabbit_process_packet wrap_sq cs m' out inp (N.of_nat (length data)) = Ret r).
Proof.
  intros m key k iv v cs m' out inp data Hk Lk Hv Lv H1 H2 H3. split; [|split].
  - intros c. apply (load_key_refines _ _ _ k); auto using strict_sq_ok.
  - intros c. apply (load_iv_refines _ _ _ _ v); auto using strict_sq_ok.
  - intros r. apply process_refines; auto using strict_sq_ok.
Qed.
Print Assumptions C23_rabbit_strict_refines_wrapping.

Example C23_instance :
  let m := [holding lost_carry_key; holding (repeat 0%N 16)] in
  has_bytes m (Ptr 0 0) lost_carry_key /\
  (exists cs cs' m', rabbit_load_key strict_sq m (Ptr 0 0) = Ret cs /\
     rabbit_process_packet strict_sq cs m (Ptr 1 0) (Ptr 1 0) 16 = Ret (cs', m')).
Proof.
  split; [conc_has_bytes|].
  destruct (lost_carry strict_sq (or_introl eq_refl)) as (cs & cs' & m' & H1 & H2 & _). exists cs, cs', m'. auto.
Qed.

(** C98: altering packets on their way alters the received data in the same
    bits, and nothing else. *)
Theorem C98_rabbit_damage : forall m1 key1 iv1 m2 key2 iv2 k v ds,
  has_bytes m1 key1 k -> has_bytes m1 iv1 v -> has_bytes m2 key2 k -> has_bytes m2 iv2 v ->
  length k = 16 -> length v = 8 ->
  exists s0 r0 s r,
    rabbit_load_key wrap_sq m1 key1 = Ret s0 /\ rabbit_load_iv wrap_sq s0 m1 iv1 = Ret s /\
    rabbit_load_key wrap_sq m2 key2 = Ret r0 /\ rabbit_load_iv wrap_sq r0 m2 iv2 = Ret r /\
    damage_stays (rabbit_process_packet wrap_sq) (rabbit_process_packet wrap_sq) s r ds.
Proof.
  intros m1 key1 iv1 m2 key2 iv2 k v ds Hk1 Hv1 Hk2 Hv2 Lk Lv.
  assert (T : forall s, damage_stays (rabbit_process_packet wrap_sq) (rabbit_process_packet wrap_sq) s s ds).
  { assert (P : forall cs m out inp data, True -> True -> has_bytes m inp data -> writable m out (length data) ->
      same_or_disjoint out inp (length data) -> rabbit_process_packet wrap_sq cs m out inp (N.of_nat (length data)) =
        Ret (psteps (nblocks (length data)) cs, write_at m out (xor_bytes data (wrap_ks cs (length data))))).
    { intros cs m out inp data _ _ H1 H2 H3. rewrite process_pgen by assumption.
      destruct (pgen_wrap_eq cs (length data)) as [E _]. rewrite E. reflexivity. }
    intros s. apply (sync_damage (rabbit_process_packet wrap_sq) (rabbit_process_packet wrap_sq) (fun _ => True) (fun _ => True)
      wrap_ks (fun cs n => psteps (nblocks n) cs)); auto.
    - intros cs n _ _. apply pgen_wrap_eq.
    - clear. induction ds; constructor; auto. }
  exists (pkey k), (pkey k), (psteps 4 (piv (pkey k) v)), (psteps 4 (piv (pkey k) v)).
  split; [apply load_key_wrap; assumption|]. split; [apply load_iv_wrap; assumption|].
  split; [apply load_key_wrap; assumption|]. split; [apply load_iv_wrap; assumption|].
  apply T.
Qed.
Print Assumptions C98_rabbit_damage.
Example C98_rabbit_instance :
  let m := [holding (repeat 1%N 16); holding (repeat 2%N 8)] in
  has_bytes m (Ptr 0 0) (repeat 1%N 16) /\ has_bytes m (Ptr 1 0) (repeat 2%N 8) /\
  altered [[1; 2; 3; 4; 5]; [6; 7]]%N [[0; 0; 0; 0; 0]; [0; 128]]%N = [[1; 2; 3; 4; 5]; [6; 135]]%N.
Proof. split; [conc_has_bytes|split; [conc_has_bytes|reflexivity]]. Qed.
