(** The key stream of AES-CTR packets in terms of SP 800-38A. *)
From Coq Require Import Arith NArith ZArith List Bool Lia.
From Verif Require Import Res Words Mem MemSpec ListLemmas MemLemmas SpecWords WordsLemmas XorProofs IoProofs
  SyncSpec AesTables AesSpec AesModel AesProofs AesCtrProofs.
From Verif Require ChachaModel ChachaProofs.
Import ListNotations.
Local Open Scope N_scope.

Lemma bswap_swap32 x : bswap x = ChachaModel.swap32 x.
Proof.
  unfold bswap, ChachaModel.swap32. f_equal.
  set (a := N.land (shr32 x 24) 255). set (b := N.land (shr32 x 8) 65280). set (c := N.land (shl32 x 8) 16711680).
  clearbody a b c. rewrite <- !N.lor_assoc. f_equal. apply N.lor_comm.
Qed.

Lemma bswap_lt x : x < 2^32 -> bswap x < 2^32.
Proof.
  intros H. unfold bswap. repeat apply lor_lt; apply land_lt_l; first [apply shr32_lt; exact H|apply shl32_lt].
Qed.

Lemma le_num_bytes x : x < 2^32 -> le_num (bytes_of_le32 x) = x.
Proof. intros H. unfold bytes_of_le32. rewrite <- le32_of_bytes_num. apply le32_bytes_of. exact H. Qed.

Lemma bswap_num x : x < 2^32 -> bswap x = le_num (be_str 4 x).
Proof.
  intros H. rewrite <- (le_num_bytes (bswap x)) by (apply bswap_lt; exact H).
  rewrite bswap_swap32, ChachaProofs.swap32_rev by exact H. reflexivity.
Qed.

Lemma be_str_length n x : length (be_str n x) = n.
Proof. unfold be_str. rewrite rev_length. apply le_str_length. Qed.

Lemma be4_lt x : le_num (be_str 4 x) < 2^32.
Proof.
  pose proof (le_num_lt (be_str 4 x) (be_str_ok 4 x)) as H. rewrite be_str_length in H. exact H.
Qed.

Lemma bswap_be x : x < 2^32 -> bswap (le_num (be_str 4 x)) = x.
Proof.
  intros H. rewrite bswap_num by apply be4_lt. unfold be_str at 1.
  rewrite <- (be_str_length 4 x) at 1. rewrite le_str_num by apply be_str_ok.
  unfold be_str. rewrite rev_involutive, le_num_str. apply N.mod_small. exact H.
Qed.

(** The state with the given nonce and counter. *)
Definition ctr_in (nonce : list N) (c : N) : list N := nonce ++ be_str 4 (c mod 2^32).
Definition ctr_st (nonce : list N) (c : N) (rk : list N) : aes_state :=
  set_regs (Aes 0 0 0 0 rk) (vstore (ctr_in nonce c)).

Definition nonce_ok (nonce : list N) : Prop := bytes_ok nonce /\ length nonce = 12%nat.

Lemma ctr_in_st16 nonce c : nonce_ok nonce -> st16 (ctr_in nonce c).
Proof.
  intros [B L]. unfold ctr_in. split.
  - apply Forall_app. split; [exact B|apply be_str_ok].
  - rewrite app_length, L, be_str_length. reflexivity.
Qed.

Lemma list12 {A} (l : list A) : length l = 12%nat ->
  exists a0 a1 a2 a3 a4 a5 a6 a7 a8 a9 a10 a11, l = [a0;a1;a2;a3;a4;a5;a6;a7;a8;a9;a10;a11].
Proof.
  intros H. do 12 (destruct l as [|? l]; [discriminate|]). destruct l; [|discriminate]. repeat eexists.
Qed.

Lemma vstore_ctr nonce l : length nonce = 12%nat -> length l = 4%nat ->
  vstore (nonce ++ l) = (vword nonce 0, vword nonce 1, vword nonce 2, le_num l).
Proof.
  intros L4 L. destruct (list12 nonce L4) as (a0&a1&a2&a3&a4&a5&a6&a7&a8&a9&a10&a11&->).
  destruct l as [|b0 [|b1 [|b2 [|b3 [|]]]]]; try discriminate.
  unfold vstore, vword. cbn [Nat.mul Nat.add nth app]. rewrite le_num_W. reflexivity.
Qed.

Lemma state_update_ok nonce c rk : nonce_ok nonce ->
  state_update (ctr_st nonce c rk) = ctr_st nonce (c + 1) rk.
Proof.
  intros [B L]. unfold ctr_st, ctr_in. rewrite !vstore_ctr by (first [exact L|apply be_str_length]).
  cbn [set_regs AesModel.rk]. unfold state_update. cbn [reg1 reg2 reg3 reg4 AesModel.rk].
  assert (H : c mod 2^32 < 2^32) by (apply N.mod_lt; discriminate).
  rewrite bswap_be by exact H. rewrite add32_spec. unfold add_w32.
  rewrite N.add_mod_idemp_l by discriminate.
  rewrite bswap_num by (apply N.mod_lt; discriminate). reflexivity.
Qed.

Lemma iter_update_ok nonce rk n : nonce_ok nonce -> forall c,
  Nat.iter n state_update (ctr_st nonce c rk) = ctr_st nonce (c + N.of_nat n) rk.
Proof.
  intros H. induction n as [|n IH]; intros c.
  - change (N.of_nat 0) with 0. rewrite N.add_0_r. reflexivity.
  - change (Nat.iter (S n) state_update (ctr_st nonce c rk)) with
      (state_update (Nat.iter n state_update (ctr_st nonce c rk))).
    rewrite IH, state_update_ok by exact H. f_equal. lia.
Qed.

Lemma le_bytes_vstore s : st16 s -> le_bytes (quad (vstore s)) = s.
Proof.
  intros H. rewrite <- (vload_vstore s H) at 2. unfold vload, le_bytes.
  destruct (vstore s) as [[[a b] c] d]. reflexivity.
Qed.

Lemma regs_ctr_st nonce c rk : regs (ctr_st nonce c rk) = vstore (ctr_in nonce c).
Proof. unfold ctr_st. destruct (vstore (ctr_in nonce c)) as [[[x y] z] w]. reflexivity. Qed.
Lemma rk_ctr_st nonce c rk : AesModel.rk (ctr_st nonce c rk) = rk.
Proof. unfold ctr_st. destruct (vstore (ctr_in nonce c)) as [[[x y] z] w]. reflexivity. Qed.

Lemma ctr_encrypt_ok b nonce c rk : nonce_ok nonce -> rk_ok rk ->
  ctr_aes_encrypt b (ctr_st nonce c rk) = quad (vstore (cipher_of b rk (ctr_in nonce c))) /\
  le_bytes (ctr_aes_encrypt b (ctr_st nonce c rk)) = ctr_block (cipher_of b rk) nonce c /\
  st16 (ctr_block (cipher_of b rk) nonce c).
Proof.
  intros Hn Hk. pose proof (ctr_in_st16 nonce c Hn) as S.
  pose proof (cipher_of_st16 b rk _ Hk S) as S'.
  assert (E : ctr_aes_encrypt b (ctr_st nonce c rk) = quad (vstore (cipher_of b rk (ctr_in nonce c)))).
  { unfold ctr_aes_encrypt. rewrite regs_ctr_st, rk_ctr_st, rounds_ok by assumption. reflexivity. }
  split; [exact E|]. split; [|exact S']. rewrite E. apply le_bytes_vstore. exact S'.
Qed.

(** Length of the chunk list. *)
Lemma blocks_of_chunks {A} (d : list A) : blocks_of (length d) = length (chunks 16 d).
Proof.
  unfold blocks_of. pose proof (Nat.div_mod_eq (length d) 16) as E.
  remember (length d / 16)%nat as q eqn:Q. revert d E Q. induction q as [|q IH]; intros d E Q.
  - assert (length d < 16)%nat by (pose proof (Nat.mod_upper_bound (length d) 16 ltac:(lia)); lia).
    rewrite Nat.mod_small by lia. destruct d as [|x d]; [reflexivity|].
    cbn [length Nat.eqb]. unfold chunks. cbn [length chunks_fuel].
    rewrite (skipn_all2 (x :: d)) by (cbn [length] in *; lia).
    destruct (length d); reflexivity.
  - assert (E' : exists d1 d2, d = d1 ++ d2 /\ length d1 = 16%nat).
    { exists (firstn 16 d), (skipn 16 d). split; [symmetry; apply firstn_skipn|].
      rewrite firstn_length. lia. }
    destruct E' as (d1 & d2 & -> & L1). rewrite app_length, L1 in *.
    rewrite chunks_app by lia. cbn [length]. rewrite <- (IH d2).
    + replace ((16 + length d2) mod 16)%nat with (length d2 mod 16)%nat by lia. lia.
    + replace ((16 + length d2) mod 16)%nat with (length d2 mod 16)%nat in E by lia. lia.
    + lia.
Qed.

Lemma ctr_stream_S E nonce c n : ctr_stream E nonce c (S n) = ctr_block E nonce c ++ ctr_stream E nonce (c + 1) n.
Proof. reflexivity. Qed.

Lemma ctr_stream_length b nonce rk n : forall c, nonce_ok nonce -> rk_ok rk ->
  length (ctr_stream (cipher_of b rk) nonce c n) = (16 * n)%nat.
Proof.
  induction n as [|n IH]; intros c Hn Hk; [reflexivity|].
  rewrite ctr_stream_S, app_length, IH by assumption.
  destruct (ctr_encrypt_ok b nonce c rk Hn Hk) as (_ & _ & S). rewrite (proj2 S). lia.
Qed.

(** Key stream of a tail of at most 15 bytes: its words, then the byte loop. *)
Section Keys.
Context (oor : N -> Z -> res N) (wild : res unit).

Lemma tail_words_key s n : st16 s -> (n < 16)%nat -> (n mod 4 = 0)%nat ->
  tail_keys oor (quad (vstore s)) n = Ret (firstn n s).
Proof.
  intros H Hn Hm. unfold tail_keys. rewrite Hm. cbn [tail_ks bind]. rewrite app_nil_r. f_equal.
  rewrite <- (le_bytes_vstore s H) at 2.
  assert (L4 : length (quad (vstore s)) = 4%nat) by apply quad_length.
  pose proof (Nat.div_mod_eq n 4) as E. rewrite Hm, Nat.add_0_r in E. rewrite E at 2.
  generalize dependent (quad (vstore s)). intros l L. rewrite <- (firstn_skipn (n / 4) l) at 2.
  rewrite le_bytes_app. rewrite firstn_app.
  assert (LB : length (le_bytes (firstn (n / 4) l)) = (4 * (n / 4))%nat).
  { rewrite le_bytes_length, firstn_length, L.
    assert (n / 4 < 4)%nat by (apply Nat.div_lt_upper_bound; lia). lia. }
  rewrite LB, Nat.sub_diag. cbn [firstn]. rewrite app_nil_r. symmetry. apply firstn_all2. lia.
Qed.

(** Whole words: the standard key stream. *)
Lemma ctr_keys_words b nonce rk q : forall c r, nonce_ok nonce -> rk_ok rk -> (r < 16)%nat -> (r mod 4 = 0)%nat ->
  (wild = Ret tt \/ r = 0%nat) ->
  ctr_keys oor wild b (ctr_st nonce c rk) q r =
  Ret (firstn (16 * q + r) (ctr_stream (cipher_of b rk) nonce c (q + (if Nat.eqb r 0 then 0 else 1)))).
Proof.
  induction q as [|q IH]; intros c r Hn Hk Hr Hm Hw; cbn [ctr_keys].
  - destruct (Nat.eqb_spec r 0) as [->|Hz]; [reflexivity|].
    destruct Hw as [->|]; [|contradiction]. cbn [bind].
    destruct (ctr_encrypt_ok b nonce c rk Hn Hk) as (-> & _ & S).
    rewrite tail_words_key by assumption. cbn [Nat.add Nat.mul]. rewrite ctr_stream_S. cbn [ctr_stream].
    rewrite app_nil_r. reflexivity.
  - rewrite state_update_ok by exact Hn. rewrite (IH (c + 1) r Hn Hk Hr Hm Hw). cbn [bind].
    destruct (ctr_encrypt_ok b nonce c rk Hn Hk) as (_ & -> & S). f_equal.
    cbn [Nat.add]. rewrite ctr_stream_S, firstn_app.
    rewrite (proj2 S). rewrite (firstn_all2 (ctr_block _ _ _)) by (rewrite (proj2 S); lia).
    f_equal. f_equal. lia.
Qed.

Lemma xor_firstn d ks : xor_bytes d (firstn (length d) ks) = xor_bytes d ks.
Proof. apply xor_bytes_trunc. Qed.

Lemma ctr_words_packet b nonce c rk m out inp d : nonce_ok nonce -> rk_ok rk -> io m out inp d ->
  (length d mod 4 = 0)%nat -> (wild = Ret tt \/ length d mod 16 = 0)%nat ->
  aes_ctr_process_packet oor wild b (ctr_st nonce c rk) m out inp (Z.of_nat (length d)) =
  Ret (ctr_st nonce (c + N.of_nat (length (chunks 16 d))) rk,
       write_at m out (ctr_crypt (cipher_of b rk) nonce c d)).
Proof.
  intros Hn Hk H Hm Hw. rewrite ctr_process_ok by exact H.
  pose proof (Nat.mod_upper_bound (length d) 16 ltac:(lia)) as B.
  rewrite ctr_keys_words by (try assumption; lia).
  cbn [bind]. rewrite iter_update_ok by exact Hn. rewrite <- Nat.div_mod_eq.
  change (length d / 16 + (if (length d mod 16 =? 0)%nat then 0 else 1))%nat with (blocks_of (length d)).
  rewrite blocks_of_chunks, xor_firstn. reflexivity.
Qed.
End Keys.
