(** Whole AEGIS-128 packets. *)
From Coq Require Import Arith NArith ZArith List Bool Lia.
From Verif Require Import Res Words Mem MemSpec ListLemmas MemLemmas SpecWords WordsLemmas Ints XorProofs IoProofs
  AesTables AesSpec AesModel AesProofs AesCtrLink AegisSpec AegisModel AegisProofs AegisIo.
Import ListNotations.
Local Open Scope N_scope.

(** ** Finalisation *)
Lemma le_str_split a b x : le_str (a + b) x = le_str a x ++ le_str b (x / 256 ^ N.of_nat a).
Proof.
  revert x. induction a as [|a IH]; intros x.
  - cbn [Nat.add le_str app]. rewrite N.div_1_r. reflexivity.
  - cbn [Nat.add le_str app]. rewrite IH. do 2 f_equal. rewrite N.div_div by (try apply N.pow_nonzero; discriminate).
    f_equal. rewrite Nat2N.inj_succ, N.pow_succ_r'. reflexivity.
Qed.


Lemma words_of_lengths x y :
  words_of (le_str 8 x ++ le_str 8 y) =
  [u32 (u64 x); u32 (N.shiftr (u64 x) 32); u32 (u64 y); u32 (N.shiftr (u64 y) 32)].
Proof.
  assert (E : forall x, le_str 8 x = le_str 4 x ++ le_str 4 (x / 2^32)) by (intros z; exact (le_str_split 4 4 z)).
  assert (V : forall a b c d, length a = 4%nat -> length b = 4%nat -> length c = 4%nat -> length d = 4%nat ->
    words_of ((a ++ b) ++ c ++ d) = [le_num a; le_num b; le_num c; le_num d]).
  { clear. intros a b c d La Lb Lc Ld.
    destruct a as [|a0 [|a1 [|a2 [|a3 [|]]]]]; try discriminate. destruct b as [|b0 [|b1 [|b2 [|b3 [|]]]]]; try discriminate.
    destruct c as [|c0 [|c1 [|c2 [|c3 [|]]]]]; try discriminate. destruct d as [|d0 [|d1 [|d2 [|d3 [|]]]]]; try discriminate.
    unfold words_of, vstore, vword, quad. cbn [app Nat.mul Nat.add nth]. rewrite !le32_of_bytes_num. reflexivity. }
  rewrite !E, V by apply le_str_length. rewrite !le_num_str.
  change (256 ^ N.of_nat 4) with (2^32).
  assert (A : forall z, u32 (u64 z) = z mod 2^32).
  { intros z. rewrite u32_mod, u64_mod. change (2^64) with (2^32 * 2^32).
    rewrite N.mod_mul_r by discriminate. rewrite N.mul_comm, N.mod_add by discriminate. apply N.mod_mod. discriminate. }
  assert (B : forall z, u32 (N.shiftr (u64 z) 32) = (z / 2^32) mod 2^32).
  { intros z. rewrite u32_mod, u64_mod, N.shiftr_div_pow2. change (2^64) with (2^32 * 2^32).
    rewrite N.mod_mul_r by discriminate. rewrite N.mul_comm, N.div_add by discriminate.
    rewrite (N.div_small (z mod 2^32)) by (apply N.mod_lt; discriminate). rewrite N.add_0_l. apply N.mod_mod. discriminate. }
  rewrite !A, !B. reflexivity.
Qed.

Lemma lengths_st16 a b : st16 (lengths a b).
Proof.
  unfold lengths. split.
  - apply Forall_app. split; apply le_str_ok.
  - rewrite app_length, !le_str_length. reflexivity.
Qed.

Lemma xor4_comm a b : xor4 a b = xor4 b a.
Proof. unfold xor4. rewrite (N.lxor_comm (nth 0 a 0)), (N.lxor_comm (nth 1 a 0)), (N.lxor_comm (nth 2 a 0)), (N.lxor_comm (nth 3 a 0)). reflexivity. Qed.

Definition last_state (S : state) (adlen msglen : N) : state :=
  repeat_update 7 (xor_bytes (S3 S) (lengths adlen msglen)) S.

Lemma last_state_ok S a n : st_ok S -> st_ok (last_state S a n).
Proof.
  intros H. assert (M : st16 (xor_bytes (S3 S) (lengths a n))) by (apply xor_st16; [apply H|apply lengths_st16]).
  unfold last_state, repeat_update. repeat (apply update_st_ok; [|exact M]). exact H.
Qed.

Lemma finalize_st16 S a n : st_ok S -> st16 (finalize S a n).
Proof.
  intros H. destruct (last_state_ok S a n H) as (H0 & H1 & H2 & H3 & H4). unfold finalize. fold (last_state S a n).
  repeat (apply xor_st16; [|assumption]). exact H0.
Qed.

Lemma finalize_ok b K S a n : st_ok S ->
  aegis_finalize b (enc K S) a n = (enc K (last_state S a n), words_of (finalize S a n)).
Proof.
  intros H. pose proof (last_state_ok S a n H) as HL.
  assert (M : st16 (xor_bytes (S3 S) (lengths a n))) by (apply xor_st16; [apply H|apply lengths_st16]).
  unfold aegis_finalize. rewrite <- words_of_lengths. rewrite (N.mul_comm a), (N.mul_comm n).
  change (le_str 8 (8 * a) ++ le_str 8 (8 * n)) with (lengths a n).
  change (s3 (enc K S)) with (words_of (S3 S)).
  rewrite xor4_comm, xor4_ok by (first [apply H|apply lengths_st16]).
  assert (E : iter_n 7 0 (fun (_ : nat) cs => aegis_state_update b cs (words_of (xor_bytes (S3 S) (lengths a n)))) (enc K S) =
              enc K (last_state S a n)).
  { unfold last_state. revert M. generalize (xor_bytes (S3 S) (lengths a n)). intros M HM. cbn [iter_n].
    unfold repeat_update. rewrite !update_ok by (repeat (first [assumption|apply update_st_ok])). reflexivity. }
  rewrite E. f_equal. unfold finalize. fold (last_state S a n). revert HL. generalize (last_state S a n).
  intros T (H0 & H1 & H2 & H3 & H4). unfold enc. cbn [s0 s1 s2 s3 s4].
  rewrite !xor4_ok by (repeat (first [assumption|apply xor_st16])). reflexivity.
Qed.

(** ** The tag *)
Lemma put_tag_ok m p t : writable m p 16 -> st16 t -> put_tag m p (words_of t) = Ret (write_at m p t).
Proof.
  intros Wr Ht. pose proof (words_of_le t Ht) as E. destruct (words_of_ok t Ht) as (_ & L & _).
  unfold put_tag. destruct (words_of t) as [|w0 [|w1 [|w2 [|w3 [|]]]]]; try discriminate. cbn [nth].
  rewrite <- E. unfold le_bytes. cbn [flat_map]. rewrite app_nil_r.
  assert (LL : forall w, length (bytes_of_le32 w) = 4%nat) by apply bytes_of_le32_length.
  rewrite st32_write by (apply (writable_le _ _ _ _ Wr); lia). cbn [bind].
  rewrite (write_at_app m p) by (rewrite !app_length, !LL; exact Wr). rewrite LL.
  assert (W1 : writable (write_at m p (bytes_of_le32 w0)) (padd p 4) 12).
  { apply writable_write_at; [rewrite LL; apply (writable_le _ _ _ _ Wr); lia|]. apply writable_padd. exact Wr. }
  rewrite st32_write by (apply (writable_le _ _ _ _ W1); lia). cbn [bind].
  rewrite (write_at_app _ (padd p 4)) by (rewrite !app_length, !LL; exact W1). rewrite LL, padd_padd.
  assert (W2 : writable (write_at (write_at m p (bytes_of_le32 w0)) (padd p 4) (bytes_of_le32 w1)) (padd p 8) 8).
  { apply writable_write_at; [rewrite LL; apply (writable_le _ _ _ _ W1); lia|].
    replace (padd p 8) with (padd (padd p 4) 4) by apply padd_padd. apply writable_padd. exact W1. }
  change (4 + 4)%nat with 8%nat.
  rewrite st32_write by (apply (writable_le _ _ _ _ W2); lia). cbn [bind].
  rewrite (write_at_app _ (padd p 8)) by (rewrite !app_length, !LL; exact W2). rewrite LL, padd_padd.
  change (8 + 4)%nat with 12%nat. apply st32_write.
  apply writable_write_at; [rewrite LL; apply (writable_le _ _ _ _ W2); lia|].
  replace (padd p 12) with (padd (padd p 8) 4) by apply padd_padd. apply writable_padd. exact W2.
Qed.

Lemma words_of_inj a b : st16 a -> st16 b -> words_of a = words_of b -> a = b.
Proof. intros Ha Hb E. rewrite <- (words_of_le a Ha), <- (words_of_le b Hb), E. reflexivity. Qed.

Lemma flag_ok a b : st16 a -> st16 b ->
  iter_n 4 0 (fun i flag => if negb (nth i (words_of a) 0 =? nth i (words_of b) 0) then true else flag) false =
  if list_eq_dec N.eq_dec a b then false else true.
Proof.
  intros Ha Hb. destruct (words_of_ok a Ha) as (_ & La & _). destruct (words_of_ok b Hb) as (_ & Lb & _).
  destruct (list_eq_dec N.eq_dec a b) as [E|E].
  - rewrite E. cbn [iter_n]. rewrite !N.eqb_refl. reflexivity.
  - assert (Hne : words_of a <> words_of b) by (intros X; apply E; apply words_of_inj; assumption).
    destruct (words_of a) as [|x0 [|x1 [|x2 [|x3 [|]]]]]; try discriminate.
    destruct (words_of b) as [|y0 [|y1 [|y2 [|y3 [|]]]]]; try discriminate.
    cbn [iter_n nth].
    destruct (N.eqb_spec x3 y3); [|reflexivity]. cbn [negb]. destruct (N.eqb_spec x2 y2); [|reflexivity]. cbn [negb].
    destruct (N.eqb_spec x1 y1); [|reflexivity]. cbn [negb]. destruct (N.eqb_spec x0 y0); [|reflexivity].
    subst. exfalso. apply Hne. reflexivity.
Qed.

(** ** Packets *)
Definition seal_with (fb fbt : bool) (K IV A d : list N) : list N * list N :=
  let '(ds, rest) := (firstn (length d / 16) (chunks 16 d), skipn (16 * (length d / 16)) d) in
  let '(c, T) := crypt fb fbt (absorb (initialize K IV) A) ds rest in
  (c, finalize T (len A) (len d)).

Lemma concat_length16 (ds : list (list N)) : Forall (fun d => length d = 16%nat) ds -> length (concat ds) = (16 * length ds)%nat.
Proof. intros F. induction F as [|d ds Ld F IH]; [reflexivity|]. cbn [concat length]. rewrite app_length, Ld, IH. lia. Qed.

Lemma seal_with_eq fb fbt K IV A ds rest : Forall (fun d => length d = 16%nat) ds -> (length rest < 16)%nat ->
  seal_with fb fbt K IV A (concat ds ++ rest) =
  let '(c, T) := crypt fb fbt (absorb (initialize K IV) A) ds rest in
  (c, finalize T (len A) (len (concat ds ++ rest))).
Proof.
  intros F Lr. pose proof (concat_length16 ds F) as LC. unfold seal_with.
  assert (Q : (length (concat ds ++ rest) / 16 = length ds)%nat).
  { rewrite app_length, LC. symmetry. apply Nat.div_unique with (length rest); lia. }
  rewrite Q.
  assert (E1 : skipn (16 * length ds) (concat ds ++ rest) = rest).
  { rewrite <- LC, skipn_app, skipn_all, Nat.sub_diag. reflexivity. }
  assert (E2 : firstn (length ds) (chunks 16 (concat ds ++ rest)) = ds).
  { clear -F. induction F as [|d ds Ld F IH]; [reflexivity|]. cbn [concat length]. rewrite <- app_assoc.
    rewrite chunks_app by lia. cbn [firstn]. rewrite IH. reflexivity. }
  rewrite E1, E2. reflexivity.
Qed.

Lemma seal_encrypt K IV A d : seal_with true true K IV A d = aegis128_encrypt K IV A d.
Proof.
  destruct (chunks_split d) as (ds & rest & -> & F & Lr & C). rewrite seal_with_eq by assumption.
  unfold aegis128_encrypt. rewrite C, crypt_run, run_encrypt. reflexivity.
Qed.
Lemma seal_open K IV A d : seal_with false false K IV A d = aegis128_open K IV A d.
Proof.
  destruct (chunks_split d) as (ds & rest & -> & F & Lr & C). rewrite seal_with_eq by assumption.
  unfold aegis128_open. rewrite C, crypt_run, run_decrypt. reflexivity.
Qed.

Lemma crypt_facts fb fbt S ds rest : st_ok S -> Forall bytes_ok ds -> bytes_ok rest ->
  Forall (fun d => length d = 16%nat) ds -> (length rest < 16)%nat ->
  length (fst (crypt fb fbt S ds rest)) = length (concat ds ++ rest) /\
  bytes_ok (fst (crypt fb fbt S ds rest)) /\ st_ok (snd (crypt fb fbt S ds rest)).
Proof.
  intros H B Br F Lr. destruct (run_length fb S ds H B ltac:(eapply Forall_impl; [|exact F]; cbn; intros; lia)) as (RL & RB & RS).
  unfold crypt. destruct (run fb S ds) as [c T]. cbn [fst snd] in *. rewrite app_length.
  destruct rest as [|x rest]; [cbn [fst snd length]; repeat split; try assumption; try lia; apply RS|].
  cbn [fst snd]. rewrite app_length, crypt_length by (first [assumption|lia]).
  split; [lia|]. split.
  - apply Forall_app. split; [exact RB|apply crypt_ok; assumption].
  - apply update_st_ok; [exact RS|]. apply feed_st16; [assumption..|lia].
Qed.

Lemma parts_ok (ds : list (list N)) rest : bytes_ok (concat ds ++ rest) -> Forall bytes_ok ds /\ bytes_ok rest.
Proof.
  intros B. apply Forall_app in B. destruct B as [B Br]. split; [|exact Br].
  clear -B. induction ds as [|x ds IH]; [constructor|]. cbn [concat] in B. apply Forall_app in B. destruct B.
  constructor; [assumption|apply IH; assumption].
Qed.

Lemma seal_facts fb fbt K IV A d : st16 K -> st16 IV -> bytes_ok A -> bytes_ok d ->
  length (fst (seal_with fb fbt K IV A d)) = length d /\ bytes_ok (fst (seal_with fb fbt K IV A d)) /\
  st16 (snd (seal_with fb fbt K IV A d)).
Proof.
  intros HK HI HA B. destruct (chunks_split d) as (ds & rest & -> & F & Lr & C). rewrite seal_with_eq by assumption.
  destruct (parts_ok ds rest B) as [Bds Br].
  pose proof (absorb_st_ok _ A HA (initialize_st_ok K IV HK HI)) as HS.
  destruct (crypt_facts fb fbt _ ds rest HS Bds Br F Lr) as (X1 & X2 & X3).
  destruct (crypt fb fbt (absorb (initialize K IV) A) ds rest) as [c T]. cbn [fst snd] in *.
  repeat split; try assumption; apply finalize_st16; exact X3.
Qed.

#[local] Opaque initialize absorb finalize aegis_initialize aegis_process_ad aegis_encrypt aegis_decrypt aegis_finalize put_tag crypt last_state.

Definition good_length (n : nat) : Prop := n = 0%nat \/ (15 <= n)%nat.

Lemma encrypt_packet_ok b K IV A d cs m ct tag pt ad iv (fb : bool) :
  st16 K -> AegisModel.key cs = words_of K -> has_bytes m iv IV -> length IV = 16%nat ->
  has_bytes m ad A -> len A <= 2^33 -> has_bytes m pt d -> len d < 2^64 -> good_length (length d) ->
  writable m ct (length d) -> writable m tag 16 ->
  (if fb then disjoint ct (length d) pt (length d) else ct = pt) ->
  exists cs', aegis_encrypt_packet b cs m ct tag pt ad iv (len A) (len d) =
    Ret (cs', write_at (write_at m ct (fst (seal_with fb true K IV A d))) tag (snd (seal_with fb true K IV A d))) /\
    AegisModel.key cs' = words_of K /\
    (forall b2 cs2, AegisModel.key cs2 = words_of K ->
       aegis_encrypt_packet b2 cs2 m ct tag pt ad iv (len A) (len d) =
       aegis_encrypt_packet b cs m ct tag pt ad iv (len A) (len d)).
Proof.
  intros HK Hk Hiv LI Had LA Hpt Ld GL Wc Wt Hfb.
  assert (HI : st16 IV) by (split; [exact (has_bytes_bytes _ _ _ Hiv)|exact LI]).
  pose proof (has_bytes_bytes _ _ _ Had) as BA. pose proof (has_bytes_bytes _ _ _ Hpt) as Bd.
  destruct (seal_facts fb true K IV A d HK HI BA Bd) as (X1 & X2 & X3).
  pose proof (absorb_st_ok _ A BA (initialize_st_ok K IV HK HI)) as HS.
  assert (G : exists T, forall b cs, AegisModel.key cs = words_of K ->
    aegis_encrypt_packet b cs m ct tag pt ad iv (len A) (len d) =
    Ret (enc K T, write_at (write_at m ct (fst (seal_with fb true K IV A d))) tag (snd (seal_with fb true K IV A d)))).
  { destruct (chunks_split d) as (ds & rest & -> & F & Lr & C). rewrite seal_with_eq in * by assumption.
    destruct (parts_ok ds rest Bd) as [Bds Br].
    destruct (crypt_facts fb true _ ds rest HS Bds Br F Lr) as (Y1 & Y2 & Y3).
    assert (Hio : io m ct pt (concat ds ++ rest)).
    { split; [exact Hpt|]. split; [exact Wc|]. destruct fb; [right; exact Hfb|left; exact Hfb]. }
    assert (Hfed : fed fb ct pt pt 0 (length (concat ds ++ rest))).
    { destruct fb; cbn [fed]; [split; [reflexivity|]; rewrite !padd_0; exact Hfb|symmetry; exact Hfb]. }
    pose proof (fun b => encrypt_ok b K fb ct pt _ m ds rest HS F Lr Hio Hfed GL Ld) as EE.
    destruct (crypt fb true (absorb (initialize K IV) A) ds rest) as [c T]. cbn [fst snd] in *.
    exists (last_state T (len A) (len (concat ds ++ rest))). intros b1 cs1 Hk1. unfold aegis_encrypt_packet.
    rewrite (initialize_ok b1 K cs1 m iv IV HK HI Hk1 Hiv). cbn [bind].
    rewrite (process_ad_ok b1 K _ m ad A Had (initialize_st_ok K IV HK HI) LA). cbn [bind].
    rewrite EE. cbn [bind]. rewrite finalize_ok by exact Y3.
    rewrite put_tag_ok; [reflexivity| |exact X3].
    apply writable_write_at; [|exact Wt]. rewrite X1. exact Wc. }
  destruct G as [T G]. exists (enc K T). rewrite (G b cs Hk). split; [reflexivity|]. split; [reflexivity|].
  intros b2 cs2 Hk2. rewrite (G b2 cs2 Hk2). reflexivity.
Qed.

Lemma decrypt_packet_ok b K IV A c t cs m pt ct ad iv tag :
  st16 K -> AegisModel.key cs = words_of K -> has_bytes m iv IV -> length IV = 16%nat ->
  has_bytes m ad A -> len A <= 2^33 -> has_bytes m ct c -> len c < 2^64 -> good_length (length c) ->
  has_bytes m tag t -> length t = 16%nat ->
  writable m pt (length c) -> same_or_disjoint pt ct (length c) ->
  exists cs', aegis_decrypt_packet b cs m pt ct ad iv tag (len A) (len c) =
    (if list_eq_dec N.eq_dec (snd (seal_with false false K IV A c)) t
     then Ret (1, cs', write_at m pt (fst (seal_with false false K IV A c)))
     else Ret (0, cs', write_at (write_at m pt (repeat 0 (length c))) tag (repeat 0 16))) /\
    AegisModel.key cs' = words_of K /\
    (forall b2 cs2, AegisModel.key cs2 = words_of K ->
       aegis_decrypt_packet b2 cs2 m pt ct ad iv tag (len A) (len c) =
       aegis_decrypt_packet b cs m pt ct ad iv tag (len A) (len c)).
Proof.
  intros HK Hk Hiv LI Had LA Hct Lc GL Ht Lt Wp SD.
  assert (HI : st16 IV) by (split; [exact (has_bytes_bytes _ _ _ Hiv)|exact LI]).
  assert (HT : st16 t) by (split; [exact (has_bytes_bytes _ _ _ Ht)|exact Lt]).
  pose proof (has_bytes_bytes _ _ _ Had) as BA. pose proof (has_bytes_bytes _ _ _ Hct) as Bc.
  destruct (seal_facts false false K IV A c HK HI BA Bc) as (X1 & X2 & X3).
  pose proof (absorb_st_ok _ A BA (initialize_st_ok K IV HK HI)) as HS.
  assert (G : exists T, forall b cs, AegisModel.key cs = words_of K ->
    aegis_decrypt_packet b cs m pt ct ad iv tag (len A) (len c) =
    (if list_eq_dec N.eq_dec (snd (seal_with false false K IV A c)) t
     then Ret (1, enc K T, write_at m pt (fst (seal_with false false K IV A c)))
     else Ret (0, enc K T, write_at (write_at m pt (repeat 0 (length c))) tag (repeat 0 16)))).
  { destruct (chunks_split c) as (ds & rest & -> & F & Lr & C). rewrite seal_with_eq in * by assumption.
    destruct (parts_ok ds rest Bc) as [Bds Br].
    destruct (crypt_facts false false _ ds rest HS Bds Br F Lr) as (Y1 & Y2 & Y3).
    assert (Hio : io m pt ct (concat ds ++ rest)) by (split; [exact Hct|split; assumption]).
    pose proof (fun b => decrypt_ok b K pt ct _ m ds rest HS F Lr Hio GL Lc) as EE.
    destruct (crypt false false (absorb (initialize K IV) A) ds rest) as [p T]. cbn [fst snd] in *.
    exists (last_state T (len A) (len (concat ds ++ rest))). intros b1 cs1 Hk1. unfold aegis_decrypt_packet.
    rewrite (ld_words4 _ _ _ Ht Lt). cbn [bind].
    rewrite (initialize_ok b1 K cs1 m iv IV HK HI Hk1 Hiv). cbn [bind].
    rewrite (process_ad_ok b1 K _ m ad A Had (initialize_st_ok K IV HK HI) LA). cbn [bind].
    rewrite EE. cbn [bind]. rewrite finalize_ok by exact Y3.
    rewrite flag_ok by assumption.
    destruct (list_eq_dec N.eq_dec (finalize T (len A) (len (concat ds ++ rest))) t) as [E|E]; [reflexivity|].
    assert (W1 : writable (write_at m pt p) pt (length (repeat 0 (N.to_nat (len (concat ds ++ rest)))))).
    { apply writable_write_at; [rewrite X1; exact Wp|]. rewrite repeat_length, Nat2N.id. exact Wp. }
    rewrite stn_write by exact W1. cbn [bind]. rewrite Nat2N.id.
    rewrite write_at_same by (rewrite ?repeat_length, ?X1; first [reflexivity|exact Wp]).
    rewrite stn_write; [reflexivity|].
    apply writable_write_at; [rewrite repeat_length; exact Wp|]. rewrite repeat_length.
    apply has_bytes_writable in Ht. rewrite Lt in Ht. exact Ht. }
  destruct G as [T G]. exists (enc K T). rewrite (G b cs Hk). split; [reflexivity|]. split; [reflexivity|].
  intros b2 cs2 Hk2. rewrite (G b2 cs2 Hk2). reflexivity.
Qed.

(** ** Encryption and decryption are inverse *)
Fixpoint outs (fb : bool) (S : state) (ds : list (list N)) : list (list N) :=
  match ds with
  | [] => []
  | d :: ds => crypt_block S d :: outs fb (update S (pad16 (feed fb S d))) ds
  end.
Lemma run_outs fb S ds : fst (run fb S ds) = concat (outs fb S ds).
Proof.
  revert S. induction ds as [|d ds IH]; intros S; [reflexivity|]. cbn [run outs concat]. rewrite <- IH.
  destruct (run fb _ ds) as [c T]. reflexivity.
Qed.
Lemma crypt_twice S d : st_ok S -> (length d <= 16)%nat -> crypt_block S (crypt_block S d) = d.
Proof. intros H L. apply xor_bytes_invol. rewrite (proj2 (key_block_st16 S H)). exact L. Qed.

Lemma run_inverse fb ds : forall S, st_ok S -> Forall bytes_ok ds -> Forall (fun d => length d <= 16)%nat ds ->
  run (negb fb) S (outs fb S ds) = (concat ds, snd (run fb S ds)).
Proof.
  induction ds as [|d ds IH]; intros S H B L; [reflexivity|].
  inversion B as [|? ? Bd B']; subst. inversion L as [|? ? Ld L']; subst.
  cbn [run outs concat].
  assert (E : feed (negb fb) S (crypt_block S d) = feed fb S d).
  { destruct fb; cbn [feed negb]; [apply crypt_twice; assumption|reflexivity]. }
  rewrite E, IH; [|apply update_st_ok; [exact H|apply feed_st16; assumption]|exact B'|exact L'].
  rewrite crypt_twice by assumption. destruct (run fb _ ds) as [c T]. reflexivity.
Qed.

Lemma chunks_shape (d : list N) : forall a, map (@length N) a = map (@length N) (chunks 16 d) -> chunks 16 (concat a) = a.
Proof.
  remember (length d) as n eqn:En. revert d En. induction n as [n IH] using lt_wf_ind. intros d En a Ha.
  destruct (list_eq_dec N.eq_dec d []) as [->|Hn].
  - destruct a; [reflexivity|discriminate].
  - rewrite chunks_cons in Ha by (first [lia|exact Hn]). destruct a as [|a0 a]; [discriminate|].
    rewrite !map_cons in Ha.
    assert (L0 : length a0 = length (firstn 16 d)) by (exact (f_equal (hd 0%nat) Ha)).
    assert (Ha' : map (@length N) a = map (@length N) (chunks 16 (skipn 16 d))) by (exact (f_equal (@tl nat) Ha)).
    cbn [concat]. assert (length d <> 0%nat) by (destruct d; [congruence|discriminate]).
    destruct (Nat.lt_ge_cases (length d) 16) as [Hd|Hd].
    + rewrite skipn_all2 in Ha' by lia. destruct a; [|discriminate]. cbn [concat]. rewrite app_nil_r.
      rewrite firstn_all2 in L0 by lia. rewrite chunks_cons; [|lia|destruct a0; [cbn in L0; lia|discriminate]].
      rewrite firstn_all2, skipn_all2 by lia. reflexivity.
    + rewrite firstn_length in L0. rewrite chunks_app by lia. f_equal.
      apply (IH (length (skipn 16 d))) with (skipn 16 d); [|reflexivity|exact Ha'].
      rewrite skipn_length, En. lia.
Qed.

Lemma outs_shape fb ds : forall S, st_ok S -> Forall bytes_ok ds -> Forall (fun d => length d <= 16)%nat ds ->
  map (@length N) (outs fb S ds) = map (@length N) ds.
Proof.
  induction ds as [|d ds IH]; intros S H B L; [reflexivity|].
  inversion B as [|? ? Bd B']; subst. inversion L as [|? ? Ld L']; subst. cbn [outs map].
  rewrite IH by (first [assumption|apply update_st_ok; [exact H|apply feed_st16; assumption]]).
  rewrite crypt_length by assumption. reflexivity.
Qed.

Lemma chunks_bounds (d : list N) : bytes_ok d -> Forall bytes_ok (chunks 16 d) /\ Forall (fun d => length d <= 16)%nat (chunks 16 d) /\
  concat (chunks 16 d) = d.
Proof.
  intros B. destruct (chunks_split d) as (ds & rest & -> & F & Lr & C). rewrite C.
  destruct (parts_ok ds rest B) as [Bds Br]. rewrite !Forall_app, concat_app.
  assert (F' : Forall (fun d => length d <= 16)%nat ds) by (eapply Forall_impl; [|exact F]; cbn; intros; lia).
  destruct rest as [|x rest].
  - repeat split; try assumption; constructor.
  - repeat split; try assumption; try (constructor; [|constructor]).
    + exact Br.
    + lia.
    + cbn [concat]. rewrite app_nil_r. reflexivity.
Qed.

Lemma seal_inverse fb K IV A d : st16 K -> st16 IV -> bytes_ok A -> bytes_ok d ->
  seal_with (negb fb) (negb fb) K IV A (fst (seal_with fb fb K IV A d)) = (d, snd (seal_with fb fb K IV A d)).
Proof.
  intros HK HI HA B. destruct (seal_facts fb fb K IV A d HK HI HA B) as (X1 & _ & _).
  assert (R : forall fb d, seal_with fb fb K IV A d =
     (fst (run fb (absorb (initialize K IV) A) (chunks 16 d)),
      finalize (snd (run fb (absorb (initialize K IV) A) (chunks 16 d))) (len A) (len d))).
  { clear. intros fb d. destruct (chunks_split d) as (ds & rest & -> & F & Lr & C). rewrite seal_with_eq by assumption.
    rewrite C, crypt_run. destruct (run fb _ _) as [c T]. reflexivity. }
  pose proof (absorb_st_ok _ A HA (initialize_st_ok K IV HK HI)) as HS.
  destruct (chunks_bounds d B) as (Bc & Lc & Cc).
  rewrite (R (negb fb)). rewrite X1. rewrite (R fb d). cbn [fst snd].
  rewrite (run_outs fb _ (chunks 16 d)).
  rewrite (chunks_shape d) by (apply outs_shape; assumption).
  rewrite run_inverse by assumption. cbn [fst snd]. rewrite Cc. reflexivity.
Qed.

Lemma encrypt_open K IV A d : st16 K -> st16 IV -> bytes_ok A -> bytes_ok d ->
  aegis128_open K IV A (fst (aegis128_encrypt K IV A d)) = (d, snd (aegis128_encrypt K IV A d)).
Proof. intros. rewrite <- seal_open, <- !seal_encrypt. exact (seal_inverse true K IV A d H H0 H1 H2). Qed.
Lemma open_encrypt K IV A c : st16 K -> st16 IV -> bytes_ok A -> bytes_ok c ->
  aegis128_encrypt K IV A (fst (aegis128_open K IV A c)) = (c, snd (aegis128_open K IV A c)).
Proof. intros. rewrite <- seal_encrypt, <- !seal_open. exact (seal_inverse false K IV A c H H0 H1 H2). Qed.

(** ** Messages of 1 to 14 bytes *)
Definition shape (m : mem) : list nat := map (@length (option N)) m.
Definition tame (m : mem) (r : res mem) : Prop := r = UB \/ exists m', r = Ret m' /\ shape m' = shape m.

Lemma map_upd {A B} (f : A -> B) i x l : map f (upd i x l) = upd i (f x) (map f l).
Proof. revert i. induction l as [|a l IH]; intros [|i]; cbn; congruence. Qed.
Lemma upd_same {A} i (x : A) l : nth_error l i = Some x -> upd i x l = l.
Proof.
  revert i. induction l as [|a l IH]; intros [|i] H; cbn in *; try congruence. rewrite IH by exact H. reflexivity.
Qed.
Lemma tame_st8 m p x : tame m (st8 m p x).
Proof.
  unfold st8. destruct (nth_error m (pblk p)) as [b|] eqn:E; [|left; reflexivity].
  destruct (_ <? _)%nat; [|left; reflexivity]. right. eexists. split; [reflexivity|].
  unfold shape. rewrite map_upd, upd_length. apply upd_same. rewrite nth_error_map, E. reflexivity.
Qed.
Lemma tame_bind m r f : tame m r -> (forall m', shape m' = shape m -> tame m' (f m')) -> tame m (bind r f).
Proof.
  intros [->|(m1 & -> & E)] H; [left; reflexivity|]. cbn [bind]. destruct (H m1 E) as [->|(m2 & -> & E2)]; [left; reflexivity|].
  right. exists m2. split; [reflexivity|congruence].
Qed.
Lemma tame_st32 m p x : tame m (st32 m p x).
Proof. unfold st32. repeat (apply tame_bind; [apply tame_st8|intros ? _]). apply tame_st8. Qed.

Definition calm {A} (r : res A) : Prop := r = UB \/ exists a, r = Ret a.
Lemma calm_bind {A B} (r : res A) (f : A -> res B) : calm r -> (forall a, calm (f a)) -> calm (bind r f).
Proof. intros [->|(a & ->)] H; [left; reflexivity|]. apply H. Qed.
Lemma calm_ld8 m p : calm (ld8 m p).
Proof. unfold ld8. destruct (nth_error m _); [|left; reflexivity]. destruct (nth_error _ _) as [[x|]|]; [right; eauto|left; reflexivity..]. Qed.
Lemma calm_ret {A} (a : A) : calm (Ret a). Proof. right. eauto. Qed.
Lemma calm_ld32 m p : calm (ld32 m p).
Proof. unfold ld32. repeat (apply calm_bind; [apply calm_ld8|intros ?]). apply calm_ret. Qed.
Lemma calm_for {A} (body : nat -> A -> res A) n : (forall i a, calm (body i a)) -> forall i a, calm (for_n n i body a).
Proof.
  intros H. induction n as [|n IH]; intros i a; cbn [for_n]; [apply calm_ret|]. apply calm_bind; [apply H|intros ?; apply IH].
Qed.
Lemma calm_words m p n : calm (ld_words m p n).
Proof. apply calm_for. intros i a. apply calm_bind; [apply calm_ld32|intros ?; apply calm_ret]. Qed.
Lemma calm_key_word cs i x : calm (key_word cs i x).
Proof.
  assert (K : forall l j, calm (ks_word l j)).
  { intros l j. unfold ks_word. destruct (nth_error l j); [apply calm_ret|left; reflexivity]. }
  unfold key_word. repeat (apply calm_bind; [apply K|intros ?]). apply calm_ret.
Qed.
Lemma tame_calm {A} m (r : res A) f : calm r -> (forall a, tame m (f a)) -> tame m (bind r f).
Proof. intros [->|(a & ->)] H; [left; reflexivity|]. apply H. Qed.
Lemma tame_word_step cs out inp o i m : tame m (word_step cs out inp o i m).
Proof.
  unfold word_step. apply tame_calm; [apply calm_ld32|intros ?]. apply tame_calm; [apply calm_key_word|intros ?].
  apply tame_st32.
Qed.

Lemma while_ub {A} (cond : A -> bool) (body : A -> res A) (inv : nat -> A -> Prop) :
  (forall k s, inv (S k) s -> cond s = true /\ (body s = UB \/ exists s', body s = Ret s' /\ inv k s')) ->
  (forall s, inv 0%nat s -> cond s = true /\ body s = UB) ->
  forall k fuel s, inv k s -> (k < fuel)%nat -> while fuel cond body s = UB.
Proof.
  intros HS H0 k. induction k as [|k IH]; intros [|fuel] s Hs Hf; try lia; cbn [while].
  - destruct (H0 s Hs) as [-> ->]. reflexivity.
  - destruct (HS k s Hs) as [-> [->|(s' & -> & Hs')]]; [reflexivity|]. cbn [bind]. apply IH; [exact Hs'|lia].
Qed.

Lemma shape_oob m0 m p b n : nth_error m0 (pblk p) = Some b -> shape m = shape m0 -> (length b <= poff p + n)%nat ->
  ld32 m (padd p n) = UB.
Proof.
  intros Hb E L. unfold ld32.
  assert (X : nth_error (shape m) (pblk p) = Some (length b)) by (rewrite E; unfold shape; rewrite nth_error_map, Hb; reflexivity).
  unfold shape in X. rewrite nth_error_map in X. destruct (nth_error m (pblk p)) as [b'|] eqn:E'; [|discriminate].
  cbn in X. injection X as X.
  rewrite (ld8_oob m (padd p n) b'); [reflexivity|rewrite pblk_padd; exact E'|rewrite poff_padd; lia].
Qed.

Lemma full_blocks_ub b cs m out inp msg n blk : 1 <= n <= 14 ->
  nth_error m (pblk inp) = Some blk -> N.of_nat (length blk) < 2^63 ->
  full_blocks b out inp msg n (cs, m, 0, O) = UB.
Proof.
  intros Hn Hb HL. change (2^63) with 9223372036854775808 in HL. unfold full_blocks.
  assert (B : sub64 n 15 = 18446744073709551601 + n).
  { unfold sub64. rewrite u64_mod. change (2^64) with 18446744073709551616.
    symmetry. apply N.mod_unique with 0; lia. }
  rewrite B.
  set (inv := fun k (s : aegis_state * mem * N * nat) => let '(_, m', tmp, o) := s in
     shape m' = shape m /\ tmp + 16 * N.of_nat k < 18446744073709551601 + n /\
     (length blk <= poff inp + o + 16 * k)%nat).
  apply (while_ub _ _ inv) with (k := ((length blk + 15) / 16)%nat).
  - intros k [[[cs' m'] tmp] o] (I1 & I2 & I3). split; [apply N.ltb_lt; lia|].
    destruct (tame_word_step cs' out inp o 0 m') as [->|(m1 & -> & E1)]; [left; reflexivity|]. cbn [bind].
    destruct (tame_word_step cs' out inp (o + 4) 1 m1) as [->|(m2 & -> & E2)]; [left; reflexivity|]. cbn [bind].
    destruct (tame_word_step cs' out inp (o + 8) 2 m2) as [->|(m3 & -> & E3)]; [left; reflexivity|]. cbn [bind].
    destruct (tame_word_step cs' out inp (o + 12) 3 m3) as [->|(m4 & -> & E4)]; [left; reflexivity|]. cbn [bind].
    destruct (calm_words m4 (padd msg o) 4) as [->|(v & ->)]; [left; reflexivity|]. cbn [bind].
    right. eexists. split; [reflexivity|]. cbn [inv].
    assert (A : add64 tmp 16 = tmp + 16).
    { unfold add64. rewrite u64_mod. apply N.mod_small. change (2^64) with 18446744073709551616. lia. }
    rewrite A. repeat split; [congruence|lia|lia].
  - intros [[[cs' m'] tmp] o] (I1 & I2 & I3). split; [apply N.ltb_lt; lia|].
    unfold word_step at 1. rewrite (shape_oob m m' inp blk o Hb I1) by lia. reflexivity.
  - cbn [inv]. pose proof (Nat.div_mod (length blk + 15) 16 ltac:(lia)).
    pose proof (Nat.mod_upper_bound (length blk + 15) 16 ltac:(lia)). repeat split; lia.
  - apply Nat.lt_succ_r, Nat.le_le_succ_r.
    assert (N.of_nat ((length blk + 15) / 16) <= (18446744073709551601 + n) / 16); [|lia].
    apply N.div_le_lower_bound; [lia|].
    pose proof (Nat.mul_div_le (length blk + 15) 16 ltac:(lia)). lia.
Qed.

#[local] Transparent aegis_initialize aegis_process_ad aegis_encrypt aegis_decrypt aegis_finalize put_tag.

Lemma calm_ldn m p n : calm (ldn m p n).
Proof.
  revert p. induction n as [|n IH]; intros p; cbn [ldn]; [apply calm_ret|].
  apply calm_bind; [apply calm_ld8|intros ?]. apply calm_bind; [apply IH|intros ?; apply calm_ret].
Qed.
Lemma calm_int z : calm (int_ret z).
Proof. unfold int_ret. destruct (_ && _); [apply calm_ret|left; reflexivity]. Qed.
Lemma calm_initialize b cs m iv : calm (aegis_initialize b cs m iv).
Proof. unfold aegis_initialize. apply calm_bind; [apply calm_words|intros ?; apply calm_ret]. Qed.
Lemma calm_process_ad b cs m ad n : calm (aegis_process_ad b cs m ad n).
Proof.
  unfold aegis_process_ad. destruct (n =? 0); [apply calm_ret|]. destruct (negb _).
  - apply calm_bind; [apply calm_ldn|intros l]. apply calm_for. intros i a.
    apply calm_bind; [apply calm_int|intros ?; apply calm_ret].
  - apply calm_for. intros i a. apply calm_bind; [apply calm_int|intros ?].
    apply calm_bind; [apply calm_words|intros ?; apply calm_ret].
Qed.

Lemma full_blocks_ub' b cs m out inp msg n : 1 <= n <= 14 ->
  (forall blk, nth_error m (pblk inp) = Some blk -> N.of_nat (length blk) < 2^63) ->
  full_blocks b out inp msg n (cs, m, 0, O) = UB.
Proof.
  intros Hn Hb. destruct (nth_error m (pblk inp)) as [blk|] eqn:E.
  - apply (full_blocks_ub _ _ _ _ _ _ _ blk); auto.
  - unfold full_blocks. cbn [while]. 
    assert (B : sub64 n 15 = 18446744073709551601 + n).
    { unfold sub64. rewrite u64_mod. change (2^64) with 18446744073709551616.
      symmetry. apply N.mod_unique with 0; lia. }
    rewrite B. replace (0 <? 18446744073709551601 + n) with true by (symmetry; apply N.ltb_lt; lia).
    unfold word_step at 1, ld32, ld8 at 1. rewrite pblk_padd, E. reflexivity.
Qed.

Lemma encrypt_packet_short b cs m ct tag pt ad iv adlen n : 1 <= n <= 14 ->
  (forall blk, nth_error m (pblk pt) = Some blk -> N.of_nat (length blk) < 2^63) ->
  aegis_encrypt_packet b cs m ct tag pt ad iv adlen n = UB.
Proof.
  intros Hn Hb. unfold aegis_encrypt_packet.
  destruct (calm_initialize b cs m iv) as [->|(c1 & ->)]; [reflexivity|]. cbn [bind].
  destruct (calm_process_ad b c1 m ad adlen) as [->|(c2 & ->)]; [reflexivity|]. cbn [bind].
  unfold aegis_encrypt. replace (n =? 0) with false by (symmetry; apply N.eqb_neq; lia).
  rewrite full_blocks_ub' by assumption. reflexivity.
Qed.
Lemma decrypt_packet_short b cs m pt ct ad iv tag adlen n : 1 <= n <= 14 ->
  (forall blk, nth_error m (pblk ct) = Some blk -> N.of_nat (length blk) < 2^63) ->
  aegis_decrypt_packet b cs m pt ct ad iv tag adlen n = UB.
Proof.
  intros Hn Hb. unfold aegis_decrypt_packet.
  destruct (calm_words m tag 4) as [->|(w & ->)]; [reflexivity|]. cbn [bind].
  destruct (calm_initialize b cs m iv) as [->|(c1 & ->)]; [reflexivity|]. cbn [bind].
  destruct (calm_process_ad b c1 m ad adlen) as [->|(c2 & ->)]; [reflexivity|]. cbn [bind].
  unfold aegis_decrypt. replace (n =? 0) with false by (symmetry; apply N.eqb_neq; lia).
  rewrite full_blocks_ub' by assumption. reflexivity.
Qed.

Lemma packet_long_ad b cs m iv ad A : has_bytes m ad A -> 2^33 < len A ->
  (forall ct tag pt n, aegis_encrypt_packet b cs m ct tag pt ad iv (len A) n = UB) /\
  (forall pt ct tag n, aegis_decrypt_packet b cs m pt ct ad iv tag (len A) n = UB).
Proof.
  intros HA L. split; intros.
  - unfold aegis_encrypt_packet.
    destruct (calm_initialize b cs m iv) as [->|(c1 & ->)]; [reflexivity|]. cbn [bind].
    rewrite process_ad_long by assumption. reflexivity.
  - unfold aegis_decrypt_packet.
    destruct (calm_words m tag 4) as [->|(w & ->)]; [reflexivity|]. cbn [bind].
    destruct (calm_initialize b cs m iv) as [->|(c1 & ->)]; [reflexivity|]. cbn [bind].
    rewrite process_ad_long by assumption. reflexivity.
Qed.

(** ** Histories *)
Lemma encrypt_packet_history b c1 c2 m ct tag pt ad iv adlen n : AegisModel.key c1 = AegisModel.key c2 ->
  aegis_encrypt_packet b c1 m ct tag pt ad iv adlen n = aegis_encrypt_packet b c2 m ct tag pt ad iv adlen n.
Proof. intros E. unfold aegis_encrypt_packet, aegis_initialize. rewrite E. reflexivity. Qed.
Lemma decrypt_packet_history b c1 c2 m pt ct ad iv tag adlen n : AegisModel.key c1 = AegisModel.key c2 ->
  aegis_decrypt_packet b c1 m pt ct ad iv tag adlen n = aegis_decrypt_packet b c2 m pt ct ad iv tag adlen n.
Proof. intros E. unfold aegis_decrypt_packet, aegis_initialize. rewrite E. reflexivity. Qed.

Lemma update_key b cs v : AegisModel.key (aegis_state_update b cs v) = AegisModel.key cs.
Proof. reflexivity. Qed.
Lemma iter_inv {A} (P : A -> Prop) (f : nat -> A -> A) n : (forall i a, P a -> P (f i a)) -> forall i a, P a -> P (iter_n n i f a).
Proof. intros H. induction n as [|n IH]; intros i a Ha; cbn [iter_n]; auto. Qed.
Lemma for_inv {A} (P : A -> Prop) (f : nat -> A -> res A) n : (forall i a a', P a -> f i a = Ret a' -> P a') ->
  forall i a a', P a -> for_n n i f a = Ret a' -> P a'.
Proof.
  intros H. induction n as [|n IH]; intros i a a' Ha E; cbn [for_n] in E.
  - apply Ret_inj in E. subst. exact Ha.
  - destruct (f i a) as [a1| |] eqn:E1; try discriminate E. cbn [bind] in E. eauto.
Qed.
Lemma while_inv {A} (P : A -> Prop) cond (f : A -> res A) n : (forall a a', P a -> f a = Ret a' -> P a') ->
  forall a a', P a -> while n cond f a = Ret a' -> P a'.
Proof.
  intros H. induction n as [|n IH]; intros a a' Ha E; cbn [while] in E; [discriminate E|].
  destruct (cond a).
  - destruct (f a) as [a1| |] eqn:E1; try discriminate E. cbn [bind] in E. eauto.
  - apply Ret_inj in E. subst. exact Ha.
Qed.
Lemma bind_ret {A B} (r : res A) (f : A -> res B) y : bind r f = Ret y -> exists a, r = Ret a /\ f a = Ret y.
Proof. destruct r as [a| |]; try discriminate. intros H. exists a. auto. Qed.

Lemma initialize_key b cs m iv cs' : aegis_initialize b cs m iv = Ret cs' -> AegisModel.key cs' = AegisModel.key cs.
Proof.
  unfold aegis_initialize. intros H. apply bind_ret in H. destruct H as (v & _ & H). apply Ret_inj in H. subst cs'.
  apply (iter_inv (fun c => AegisModel.key c = AegisModel.key cs)); [|reflexivity]. intros i a Ha. rewrite update_key. exact Ha.
Qed.
Lemma process_ad_key b cs m ad n cs' : aegis_process_ad b cs m ad n = Ret cs' -> AegisModel.key cs' = AegisModel.key cs.
Proof.
  unfold aegis_process_ad. destruct (n =? 0); [intros H; apply Ret_inj in H; subst; reflexivity|].
  destruct (negb _); intros H.
  - apply bind_ret in H. destruct H as (l & _ & H).
    revert H. apply (for_inv (fun c => AegisModel.key c = AegisModel.key cs)); [|reflexivity]. intros i a a' Ha E. apply bind_ret in E. destruct E as (w & _ & E).
    apply Ret_inj in E. subst a'. rewrite update_key. exact Ha.
  - revert H. apply (for_inv (fun c => AegisModel.key c = AegisModel.key cs)); [|reflexivity]. intros i a a' Ha E. apply bind_ret in E. destruct E as (w & _ & E).
    apply bind_ret in E. destruct E as (v & _ & E). apply Ret_inj in E. subst a'. rewrite update_key. exact Ha.
Qed.
Definition st_key (s : aegis_state * mem * N * nat) := AegisModel.key (fst (fst (fst s))).
Lemma full_blocks_key b out inp msg n s s' : full_blocks b out inp msg n s = Ret s' -> st_key s' = st_key s.
Proof.
  unfold full_blocks. apply (while_inv (fun x => st_key x = st_key s)); [|reflexivity].
  intros [[[c m] t] o] a' Ha E.
  do 5 (apply bind_ret in E; destruct E as (? & _ & E)). apply Ret_inj in E. subst a'.
  exact Ha.
Qed.
Lemma encrypt_key b cs m ct pt n cs' m' : aegis_encrypt b cs m ct pt n = Ret (cs', m') -> AegisModel.key cs' = AegisModel.key cs.
Proof.
  unfold aegis_encrypt. destruct (n =? 0); [intros H; apply Ret_pair in H; destruct H; subst; reflexivity|].
  intros H. apply bind_ret in H. destruct H as ([[[c1 m1] t1] o1] & E1 & H). apply full_blocks_key in E1. unfold st_key in E1. cbn [fst] in E1.
  destruct (t1 =? n); [apply Ret_pair in H; destruct H; subst; exact E1|].
  apply bind_ret in H. destruct H as (blk & _ & H). apply bind_ret in H. destruct H as ([[[m2 t2] o2] i2] & _ & H).
  apply bind_ret in H. destruct H as ([[[m3 t3] o3] i3] & _ & H). apply Ret_pair in H. destruct H as [H _]. subst cs'.
  rewrite update_key. exact E1.
Qed.
Lemma decrypt_key b cs m ct pt n cs' m' : aegis_decrypt b cs m ct pt n = Ret (cs', m') -> AegisModel.key cs' = AegisModel.key cs.
Proof.
  unfold aegis_decrypt. destruct (n =? 0); [intros H; apply Ret_pair in H; destruct H; subst; reflexivity|].
  intros H. apply bind_ret in H. destruct H as ([[[c1 m1] t1] o1] & E1 & H). apply full_blocks_key in E1. unfold st_key in E1. cbn [fst] in E1.
  destruct (t1 =? n); [apply Ret_pair in H; destruct H; subst; exact E1|].
  apply bind_ret in H. destruct H as ([[[m2 t2] o2] i2] & _ & H).
  apply bind_ret in H. destruct H as ([[[m3 t3] o3] i3] & _ & H). apply bind_ret in H. destruct H as (blk & _ & H).
  apply Ret_pair in H. destruct H as [H _]. subst cs'.
  rewrite update_key. exact E1.
Qed.
Lemma finalize_key b cs a n : AegisModel.key (fst (aegis_finalize b cs a n)) = AegisModel.key cs.
Proof.
  unfold aegis_finalize. cbv zeta. cbn [fst]. apply (iter_inv (fun c => AegisModel.key c = AegisModel.key cs)); [|reflexivity].
  intros i c Hc. rewrite update_key. exact Hc.
Qed.
Lemma encrypt_packet_key b cs m ct tag pt ad iv adlen n cs' m' :
  aegis_encrypt_packet b cs m ct tag pt ad iv adlen n = Ret (cs', m') -> AegisModel.key cs' = AegisModel.key cs.
Proof.
  unfold aegis_encrypt_packet. intros H.
  apply bind_ret in H. destruct H as (c1 & E1 & H). apply initialize_key in E1.
  apply bind_ret in H. destruct H as (c2 & E2 & H). apply process_ad_key in E2.
  apply bind_ret in H. destruct H as ([c3 m3] & E3 & H). apply encrypt_key in E3.
  pose proof (finalize_key b c3 adlen n) as E4. destruct (aegis_finalize b c3 adlen n) as [c4 w]. cbn [fst] in E4.
  apply bind_ret in H. destruct H as (m5 & _ & H). apply Ret_pair in H. destruct H as [H _]. congruence.
Qed.
Lemma decrypt_packet_key b cs m ct tag pt ad iv adlen n r cs' m' :
  aegis_decrypt_packet b cs m ct tag pt ad iv adlen n = Ret (r, cs', m') -> AegisModel.key cs' = AegisModel.key cs.
Proof.
  unfold aegis_decrypt_packet. intros H.
  apply bind_ret in H. destruct H as (w0 & _ & H).
  apply bind_ret in H. destruct H as (c1 & E1 & H). apply initialize_key in E1.
  apply bind_ret in H. destruct H as (c2 & E2 & H). apply process_ad_key in E2.
  apply bind_ret in H. destruct H as ([c3 m3] & E3 & H). apply decrypt_key in E3.
  match type of H with context [aegis_finalize b c3 ?x ?y] =>
    pose proof (finalize_key b c3 x y) as E4; destruct (aegis_finalize b c3 x y) as [c4 w] end. cbn [fst] in E4.
  cbv zeta in H. destruct (iter_n 4 0 _ _).
  - apply bind_ret in H. destruct H as (m5 & _ & H). apply bind_ret in H. destruct H as (m6 & _ & H).
    apply Ret_pair in H. destruct H as [H _]. injection H as _ H. congruence.
  - apply Ret_pair in H. destruct H as [H _]. injection H as _ H. congruence.
Qed.
