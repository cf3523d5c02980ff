(** AES-CFB in terms of SP 800-38A, and the three builds side by side. *)
From Coq Require Import Arith NArith ZArith List Bool Lia.
From Verif Require Import Res Words Mem MemSpec ListLemmas MemLemmas SpecWords WordsLemmas XorProofs IoProofs
  SyncSpec AesTables AesSpec AesModel AesProofs AesCtrProofs AesCtrLink AesCfbProofs.
Import ListNotations.
Local Open Scope nat_scope.

(** The state with the given register bytes. *)
Definition cfb_st (iv rk : list N) : aes_state := set_regs (Aes 0 0 0 0 rk) (vstore iv).

Lemma regs_cfb_st iv rk : regs (cfb_st iv rk) = vstore iv.
Proof. unfold cfb_st. destruct (vstore iv) as [[[x y] z] w]. reflexivity. Qed.
Lemma rk_cfb_st iv rk : AesModel.rk (cfb_st iv rk) = rk.
Proof. unfold cfb_st. destruct (vstore iv) as [[[x y] z] w]. reflexivity. Qed.

Lemma full_upd_st cs l : length l = 16 -> full_upd cs l = cfb_st l (rk cs).
Proof.
  intros L. destruct (list16 l L) as (a0&a1&a2&a3&a4&a5&a6&a7&a8&a9&a10&a11&a12&a13&a14&a15&->).
  unfold full_upd, word_at, cfb_st, vstore, vword. cbn [firstn skipn Nat.mul Nat.add nth].
  rewrite !le_num_W. reflexivity.
Qed.

Lemma words_st cs : words_ok (quad (regs cs)) -> exists s, st16 s /\ cs = cfb_st s (rk cs).
Proof.
  destruct cs as [a b c d k]. unfold regs. cbn [reg1 reg2 reg3 reg4 quad]. intros H.
  exists (vload [a; b; c; d]). unfold words_ok in H. rewrite !Forall_cons_iff in H.
  destruct H as (Ha & Hb & Hc & Hd & _). split.
  - edestruct (vload_ok [a; b; c; d]) as (?&?&?&?&?&?&?&?&?&?&?&?&?&?&?&?&_&S&_); [|cbn; lia|exact S].
    repeat constructor; assumption.
  - unfold cfb_st. rewrite vstore_vload by assumption. reflexivity.
Qed.

Definition aes_inv (cs : aes_state) : Prop := words_ok (quad (regs cs)) /\ rk_ok (rk cs).

Lemma nth_byte l i : bytes_ok l -> (nth i l 0 < 256)%N.
Proof.
  intros B. destruct (Nat.lt_ge_cases i (length l)) as [H|H].
  - unfold bytes_ok in B. rewrite Forall_forall in B. apply B. apply nth_In. exact H.
  - rewrite nth_overflow by exact H. lia.
Qed.

Lemma vword_lt s i : bytes_ok s -> (vword s i < 2^32)%N.
Proof. intros B. unfold vword. apply le32_of_bytes_lt; apply nth_byte; exact B. Qed.

Lemma vstore_words s : bytes_ok s -> words_ok (quad (vstore s)).
Proof. intros B. unfold vstore, quad. repeat constructor; apply vword_lt; exact B. Qed.

Lemma cfb_st_inv s rk : bytes_ok s -> rk_ok rk -> aes_inv (cfb_st s rk).
Proof. intros B H. split; [rewrite regs_cfb_st; apply vstore_words; exact B|rewrite rk_cfb_st; exact H]. Qed.

(** ** One block *)
Lemma enc_key_st b iv rk : st16 iv -> rk_ok rk ->
  enc_key b (cfb_st iv rk) = quad (vstore (cipher_of b rk iv)) /\
  le_bytes (enc_key b (cfb_st iv rk)) = cipher_of b rk iv.
Proof.
  intros S K.
  assert (E : enc_key b (cfb_st iv rk) = quad (vstore (cipher_of b rk iv))).
  { unfold enc_key, cfb_aes_encrypt. rewrite regs_cfb_st, rk_cfb_st, rounds_ok by assumption.
    destruct b; reflexivity. }
  split; [exact E|]. rewrite E. apply le_bytes_vstore. apply cipher_of_st16; assumption.
Qed.

Definition full (b : build) : Prop := b <> Table true.

Lemma cipher_full b rk s : full b -> cipher_of b rk s = cipher_of (Table false) rk s.
Proof. intros F. destruct b as [[|]| |]; [contradiction F; reflexivity|reflexivity..]. Qed.

Lemma enc_key_full b1 b2 cs : (b1 = b2 \/ full b1 /\ full b2) -> aes_inv cs -> enc_key b1 cs = enc_key b2 cs.
Proof.
  intros [->|[F1 F2]] [H K]; [reflexivity|].
  destruct (words_st cs H) as (s & S & E). rewrite E.
  rewrite (proj1 (enc_key_st b1 s _ S K)), (proj1 (enc_key_st b2 s _ S K)).
  rewrite (cipher_full b1), (cipher_full b2) by assumption. reflexivity.
Qed.

(** Builds whose block function leaves the same registers. *)
Definition alike (b1 b2 : build) : Prop := b1 = b2 \/ (full b1 /\ b1 <> X86 /\ full b2 /\ b2 <> X86).

Lemma enc_state_alike b1 b2 cs : alike b1 b2 -> aes_inv cs -> enc_state b1 cs = enc_state b2 cs.
Proof.
  intros [->|(F1 & X1 & F2 & X2)] I; [reflexivity|].
  pose proof (enc_key_full b1 b2 cs (or_intror (conj F1 F2)) I) as E.
  unfold enc_key, enc_state, cfb_aes_encrypt in *.
  destruct (rounds b1 (regs cs) (rk cs)) as [[[x y] z] w], (rounds b2 (regs cs) (rk cs)) as [[[x' y'] z'] w'].
  destruct b1 as [[|]| |], b2 as [[|]| |]; try contradiction; try (contradiction F1; reflexivity);
    try (contradiction F2; reflexivity); cbn [fst snd quad] in *; injection E as -> -> -> ->; reflexivity.
Qed.

Lemma enc_state_inv b cs : aes_inv cs -> aes_inv (enc_state b cs).
Proof.
  intros [H K]. split; [|rewrite enc_rk; exact K].
  destruct (words_st cs H) as (s & S & E).
  assert (R : regs cs = vstore s) by (rewrite E; apply regs_cfb_st).
  unfold enc_state, cfb_aes_encrypt. rewrite R, rounds_ok by assumption.
  pose proof (vstore_words (cipher_of b (rk cs) s) (proj1 (cipher_of_st16 b _ _ K S))) as V.
  destruct (vstore (cipher_of b (rk cs) s)) as [[[x y] z] w].
  destruct b; first [exact H|exact V].
Qed.

(** ** Partial updates keep the registers in range *)
Lemma word_at_lt l i : bytes_ok l -> (word_at l i < 2^32)%N.
Proof.
  intros B. unfold word_at.
  assert (B' : bytes_ok (firstn 4 (skipn i l))) by (apply Forall_firstn, Forall_skipn; exact B).
  pose proof (le_num_lt _ B') as H. eapply N.lt_le_trans; [exact H|].
  rewrite firstn_length. change (2^32)%N with (256^4)%N. apply N.pow_le_mono_r; lia.
Qed.
Lemma nth_lt32 l i : bytes_ok l -> (nth i l 0 < 2^32)%N.
Proof.
  intros B. eapply N.lt_trans; [apply nth_byte; exact B|reflexivity].
Qed.
Lemma shl_in_lt n a b : (b < 2^32)%N -> (shl_in n a b < 2^32)%N.
Proof. intros H. apply lxor_lt; [apply shl32_lt|apply shr32_lt; exact H]. Qed.

Lemma part_upd_inv cs l : aes_inv cs -> bytes_ok l -> 0 < length l < 16 -> aes_inv (part_upd cs l).
Proof.
  intros [W K] B L.
  assert (H : has_bytes [map Some l] (Ptr 0 0) l) by (apply (has_bytes_last []); exact B).
  destruct (part_ok cs _ _ _ H L) as [E Ek]. split; [|rewrite Ek; exact K]. revert E. generalize (part_upd cs l). clear Ek.
  intros cs' E. destruct (regs cs) as [[[a b] c] d] eqn:R. cbn [quad] in W. unfold words_ok in W.
  rewrite !Forall_cons_iff in W. destruct W as (Ha & Hb & Hc & Hd & _).
  assert (En : exists n, length l = n) by eauto. destruct En as [n En]. rewrite En in *.
  do 16 (destruct n as [|n]; [first [lia|
    unfold partial_state_update in E; rewrite R in E;
    match type of E with context [(Z.of_nat ?k mod 4)%Z] =>
      let v := eval vm_compute in (Z.of_nat k mod 4)%Z in change (Z.of_nat k mod 4)%Z with v in E;
      let w := eval vm_compute in (Z.of_nat k) in change (Z.of_nat k) with w in E end;
    cbn [Z.eqb Pos.eqb] in E;
    rewrite ?(ld32_at0 _ _ _ H), ?(ld8_at0 _ _ _ H), ?(ld32_at _ _ _ _ H), ?(ld8_at _ _ _ _ H) in E by lia;
    cbn [bind] in E; apply Ret_inj in E; subst cs'; unfold set_regs, regs; cbn [reg1 reg2 reg3 reg4 quad];
    repeat (apply Forall_cons; [first [assumption|apply word_at_lt; exact B|apply shl_in_lt; assumption|
      repeat (apply lxor_lt; [|first [apply shl32_lt|apply nth_lt32; exact B]]); apply shl32_lt]|]); constructor]|]).
  lia.
Qed.

(** ** Whole blocks: CFB-128 *)
Lemma chunks16 (d1 d2 : list N) : length d1 = 16 -> chunks 16 (d1 ++ d2) = d1 :: chunks 16 d2.
Proof. intros L. apply chunks_app; lia. Qed.

Section Blocks.
Context (oor : N -> Z -> res N).

Lemma last_cons {A} (x : A) l y : last (x :: l) y = last l x.
Proof. revert x y. induction l as [|z l IH]; intros x y; [reflexivity|]. change (last (x :: z :: l) y) with (last (z :: l) y). rewrite (IH z y), (IH z x). reflexivity. Qed.

Lemma enc_blocks b rk q : forall iv d, st16 iv -> rk_ok rk -> bytes_ok d -> length d = 16 * q ->
  let cs := cfb_enc_blocks (cipher_of b rk) iv (chunks 16 d) in
  cfb_run oor b feed_out (cfb_st iv rk) q d = Ret (cfb_st (last cs iv) rk, concat cs) /\ st16 (last cs iv).
Proof.
  induction q as [|q IH]; intros iv d S K B L cs; unfold cs; clear cs.
  - destruct d; [|discriminate]. split; [reflexivity|exact S].
  - assert (X : exists d1 d2, d = d1 ++ d2 /\ length d1 = 16).
    { exists (firstn 16 d), (skipn 16 d). split; [symmetry; apply firstn_skipn|]. rewrite firstn_length. lia. }
    destruct X as (d1 & d2 & -> & L1). rewrite app_length, L1 in L.
    apply Forall_app in B. destruct B as [B1 B2].
    rewrite chunks16 by exact L1. cbn [cfb_enc_blocks cfb_run concat]. rewrite last_cons.
    rewrite firstn_app, skipn_app, L1, Nat.sub_diag, (firstn_all2 d1), (skipn_all2 d1) by lia.
    cbn [firstn skipn app]. rewrite app_nil_r.
    rewrite (proj2 (enc_key_st b iv rk S K)). change (feed_out d1 (xor_bytes d1 (cipher_of b rk iv))) with (xor_bytes d1 (cipher_of b rk iv)).
    assert (So : st16 (xor_bytes d1 (cipher_of b rk iv))).
    { pose proof (cipher_of_st16 b rk iv K S) as [C1 C2]. split; [apply xor_bytes_ok; assumption|].
      rewrite xor_bytes_length_min. lia. }
    rewrite (full_upd_st _ _ (proj2 So)), enc_rk, rk_cfb_st.
    destruct (IH _ d2 So K B2 ltac:(lia)) as [E Sl]. rewrite E. cbn [bind]. split; [reflexivity|exact Sl].
Qed.

Lemma dec_blocks b rk q : forall iv d, st16 iv -> rk_ok rk -> bytes_ok d -> length d = 16 * q ->
  cfb_run oor b feed_in (cfb_st iv rk) q d =
    Ret (cfb_st (last (chunks 16 d) iv) rk, concat (cfb_dec_blocks (cipher_of b rk) iv (chunks 16 d))) /\
  st16 (last (chunks 16 d) iv).
Proof.
  induction q as [|q IH]; intros iv d S K B L.
  - destruct d; [|discriminate]. split; [reflexivity|exact S].
  - assert (X : exists d1 d2, d = d1 ++ d2 /\ length d1 = 16).
    { exists (firstn 16 d), (skipn 16 d). split; [symmetry; apply firstn_skipn|]. rewrite firstn_length. lia. }
    destruct X as (d1 & d2 & -> & L1). rewrite app_length, L1 in L.
    apply Forall_app in B. destruct B as [B1 B2].
    rewrite chunks16 by exact L1. cbn [cfb_dec_blocks cfb_run concat]. rewrite last_cons.
    rewrite firstn_app, skipn_app, L1, Nat.sub_diag, (firstn_all2 d1), (skipn_all2 d1) by lia.
    cbn [firstn skipn app]. rewrite app_nil_r.
    rewrite (proj2 (enc_key_st b iv rk S K)). change (feed_in d1 (xor_bytes d1 (cipher_of b rk iv))) with d1.
    rewrite (full_upd_st _ _ L1), enc_rk, rk_cfb_st.
    destruct (IH _ d2 (conj B1 L1) K B2 ltac:(lia)) as [E Sl]. rewrite E. cbn [bind]. split; [reflexivity|exact Sl].
Qed.

(** Resynchronisation: any state, any key schedule. *)
Lemma dec_resync b q : forall cs d, length d = 16 * S q ->
  exists o, cfb_run oor b feed_in cs (S q) d = Ret (cfb_st (skipn (16 * q) d) (rk cs), o) /\ length o = length d.
Proof.
  induction q as [|q IH]; intros cs d L.
  - cbn [cfb_run]. rewrite skipn_length, L, Nat.sub_diag. cbn [Nat.eqb bind]. cbv zeta.
    rewrite (full_upd_st _ (feed_in _ _)) by (unfold feed_in; rewrite firstn_length; lia).
    unfold feed_in. rewrite (firstn_all2 d) by lia. rewrite enc_rk. cbn [skipn Nat.mul].
    eexists. split; [reflexivity|]. rewrite app_nil_r, xor_bytes_length_min, le_bytes_length, enc_key_length. lia.
  - remember (S q) as q1 eqn:Q. cbn [cfb_run]. cbv zeta.
    destruct (IH (full_upd (enc_state b cs) (feed_in (firstn 16 d) (xor_bytes (firstn 16 d) (le_bytes (enc_key b cs)))))
      (skipn 16 d)) as (o & E & Lo); [rewrite skipn_length; lia|].
    rewrite E. cbn [bind]. rewrite skipn_skipn. rewrite skipn_length in Lo.
    replace (rk (full_upd _ _)) with (rk cs) by (unfold full_upd; cbn [rk]; symmetry; apply enc_rk).
    replace (16 * q1) with (16 + 16 * q) by lia. eexists. split; [reflexivity|].
    rewrite app_length, Lo, xor_bytes_length_min, le_bytes_length, enc_key_length, firstn_length. lia.
Qed.

(** ** Different builds at the two ends *)
Lemma cfb_inv_run b fb q : forall cs r d cs' o, r < 16 -> length d = 16 * q + r -> bytes_ok d ->
  (fb = feed_out \/ fb = feed_in) ->
  aes_inv cs -> cfb_run oor b fb cs q d = Ret (cs', o) -> aes_inv cs' /\ bytes_ok o.
Proof.
  induction q as [|q IH]; intros cs r d cs' o Hr L B F I H; cbn [cfb_run] in H.
  - destruct (Nat.eqb_spec (length d) 0) as [Z|Z]; [apply Ret_pair in H; destruct H as [<- <-]; split; [exact I|constructor]|].
    destruct (tail_keys _ _ _) as [t| |] eqn:T; try discriminate. cbn [bind] in H.
    apply Ret_pair in H. destruct H as [<- <-]. pose proof (rev_keys_ok _ _ _ _ T) as Bt.
    apply tail_keys_length in T; [|rewrite rev_length; apply enc_key_length|lia].
    assert (Bo : bytes_ok (xor_bytes d t)) by (apply xor_bytes_ok; assumption).
    split; [|exact Bo]. apply part_upd_inv; [apply enc_state_inv; exact I| |].
    + destruct F as [-> | ->]; assumption.
    + destruct F as [-> | ->]; unfold feed_out, feed_in; rewrite ?xor_bytes_length_min; lia.
  - cbv zeta in H.
    destruct (cfb_run oor b fb _ q (skipn 16 d)) as [[c o']| |] eqn:E; try discriminate. cbn [bind] in H.
    apply Ret_pair in H. destruct H as [<- <-].
    assert (L2 : length (skipn 16 d) = 16 * q + r) by (rewrite skipn_length; lia).
    assert (Bo : bytes_ok (xor_bytes (firstn 16 d) (le_bytes (enc_key b cs)))).
    { apply xor_bytes_ok; [apply Forall_firstn; exact B|apply le_bytes_ok]. }
    eapply IH in E; [|exact Hr|exact L2|apply Forall_skipn; exact B|exact F|].
    + destruct E as [E1 E2]. split; [exact E1|]. apply Forall_app. split; [exact Bo|exact E2].
    + assert (Lf : length (fb (firstn 16 d) (xor_bytes (firstn 16 d) (le_bytes (enc_key b cs)))) = 16).
      { destruct F as [-> | ->]; unfold feed_out, feed_in;
          rewrite ?xor_bytes_length_min, ?le_bytes_length, ?enc_key_length, firstn_length; lia. }
      rewrite full_upd_st by exact Lf. apply cfb_st_inv; [|rewrite enc_rk; apply I].
      destruct F as [-> | ->]; [exact Bo|apply Forall_firstn; exact B].
Qed.

Lemma cfb_invert2 b1 b2 q : (b1 = b2 \/ full b1 /\ full b2) ->
  forall cs r d cs' o, r < 16 -> length d = 16 * q + r -> bytes_ok d -> aes_inv cs ->
  cfb_run oor b1 feed_out cs q d = Ret (cs', o) ->
  exists r', cfb_run oor b2 feed_in cs q o = Ret (r', d) /\ (r = 0 \/ alike b1 b2 -> r' = cs').
Proof.
  intros Fl. induction q as [|q IH]; intros cs r d cs' o Hr L B I H; pose proof (cfb_run_length _ _ _ _ _ _ _ _ _ Hr L H) as LO;
    cbn [cfb_run] in *; rewrite ?LO in *.
  - destruct (Nat.eqb_spec (length d) 0) as [Z|Z].
    { apply Ret_pair in H. destruct H as [<- <-]. destruct d; [|discriminate]. exists cs. auto. }
    destruct (tail_keys oor (rev (enc_key b1 cs)) _) as [t| |] eqn:T; try discriminate. cbn [bind] in *.
    apply Ret_pair in H. destruct H as [<- <-].
    rewrite <- (enc_key_full b1 b2 cs Fl I), T.
    apply tail_keys_length in T; [|rewrite rev_length; apply enc_key_length|lia].
    cbn [bind]. rewrite xor_bytes_invol by lia. eexists. split; [reflexivity|].
    intros [R|A]; [lia|]. rewrite (enc_state_alike b1 b2 cs A I). reflexivity.
  - cbv zeta in *. set (d1 := firstn 16 d) in *. set (o1 := xor_bytes d1 (le_bytes (enc_key b1 cs))) in *.
    destruct (cfb_run oor b1 feed_out _ q (skipn 16 d)) as [[c o']| |] eqn:E; try discriminate. cbn [bind] in H.
    apply Ret_pair in H. destruct H as [<- <-].
    assert (L1 : length d1 = 16) by (unfold d1; rewrite firstn_length; lia).
    assert (LX : length o1 = 16).
    { unfold o1. rewrite xor_bytes_length_min, le_bytes_length, enc_key_length. lia. }
    assert (L2 : length (skipn 16 d) = 16 * q + r) by (rewrite skipn_length; lia).
    rewrite firstn_app, skipn_app, LX, Nat.sub_diag, (firstn_all2 o1), (skipn_all2 o1) by lia.
    cbn [firstn skipn app]. rewrite app_nil_r.
    assert (Bo1 : bytes_ok o1) by (apply xor_bytes_ok; [apply Forall_firstn; exact B|apply le_bytes_ok]).
    change (feed_in o1 (xor_bytes o1 (le_bytes (enc_key b2 cs)))) with o1.
    change (feed_out d1 o1) with o1 in E. rewrite (full_upd_st _ _ LX), enc_rk in E. rewrite (full_upd_st _ _ LX), enc_rk.
    destruct (IH _ _ _ _ _ Hr L2 (Forall_skipn _ _ _ B) (cfb_st_inv o1 _ Bo1 (proj2 I)) E) as (r' & E2 & R).
    rewrite E2. cbn [bind]. rewrite <- (enc_key_full b1 b2 cs Fl I). unfold o1.
    rewrite xor_bytes_invol by (rewrite le_bytes_length, enc_key_length; lia).
    unfold d1. rewrite firstn_skipn. exists r'. split; [reflexivity|exact R].
Qed.

(** ** Packet sequences *)
Definition cfb_packet (b : build) (mode : Z) : aes_state -> mem -> ptr -> ptr -> N -> res (aes_state * mem) :=
  fun s m out inp n => aes_cfb_process_packet oor b mode s m out inp (Z.of_N n).

Lemma cfb_packet_enc b cs m out inp d : io m out inp d ->
  cfb_packet b ENCRYPT cs m out inp (N.of_nat (length d)) =
  let* (cs, o) := cfb_run oor b feed_out cs (length d / 16) d in Ret (cs, write_at m out o).
Proof.
  intros H. unfold cfb_packet. rewrite nat_N_Z. apply cfb_process_ok; [exact H|]. left. split; [reflexivity|].
  left. reflexivity.
Qed.
Lemma cfb_packet_dec b cs m out inp d : has_bytes m inp d -> writable m out (length d) ->
  disjoint out (length d) inp (length d) ->
  cfb_packet b DECRYPT cs m out inp (N.of_nat (length d)) =
  let* (cs, o) := cfb_run oor b feed_in cs (length d / 16) d in Ret (cs, write_at m out o).
Proof.
  intros H Wr D. unfold cfb_packet. rewrite nat_N_Z. apply cfb_process_ok.
  - split; [exact H|]. split; [exact Wr|right; exact D].
  - right. split; [reflexivity|]. split; [discriminate|exact D].
Qed.

Lemma div16 (d : list N) : length d = 16 * (length d / 16) + length d mod 16 /\ length d mod 16 < 16.
Proof. split; [apply Nat.div_mod_eq|apply Nat.mod_upper_bound; lia]. Qed.

(** A sender of build [b1] and a receiver of build [b2]; the last packet is
    unrestricted, the others are whole blocks or the builds are alike. *)
Lemma cfb_talk b1 b2 pks : (b1 = b2 \/ full b1 /\ full b2) -> Forall packet_ok pks ->
  Forall (fun k => tail_defined oor (length (pk_data k))) pks ->
  alike b1 b2 \/ Forall (fun k => length (pk_data k) mod 16 = 0) (removelast pks) ->
  forall cs, (b1 = b2 \/ aes_inv cs) -> talk_apart (cfb_packet b1 ENCRYPT) (cfb_packet b2 DECRYPT) cs cs pks.
Proof.
  intros Fl H. induction H as [|k pks (Hin & Wr & Ov) H IH]; intros D A cs I; [exact Logic.I|].
  inversion D as [|? ? Dk D']; subst. cbn [talk_apart]. set (n := length (pk_data k)).
  destruct (div16 (pk_data k)) as [E Hr].
  assert (Dr : tail_defined oor (length (pk_data k) mod 16)).
  { destruct Dk as [Dk|Dk]; [left; rewrite mod16_4; exact Dk|right; exact Dk]. }
  destruct (cfb_run_defined oor b1 feed_out _ cs _ (pk_data k) Hr E Dr) as (s' & o & R).
  pose proof (cfb_run_length _ _ _ _ _ _ _ _ _ Hr E R) as Lo.
  assert (X : exists r', cfb_run oor b2 feed_in cs (length (pk_data k) / 16) o = Ret (r', pk_data k) /\
    (length (pk_data k) mod 16 = 0 \/ alike b1 b2 -> r' = s' /\ (b1 = b2 \/ aes_inv s'))).
  { destruct I as [->|I].
    - exists s'. split; [apply (cfb_invert _ _ _ _ _ _ _ _ Hr E R)|]. intros _. split; [reflexivity|left; reflexivity].
    - destruct (cfb_invert2 b1 b2 _ Fl cs _ _ _ _ Hr E (has_bytes_bytes _ _ _ Hin) I R) as (r' & R' & Q).
      exists r'. split; [exact R'|]. intros X. split; [apply Q; exact X|]. right.
      apply (cfb_inv_run _ _ _ _ _ _ _ _ Hr E (has_bytes_bytes _ _ _ Hin) (or_introl eq_refl) I R). }
  destruct X as (r' & R' & Q). exists s', r', o.
  split; [unfold n; rewrite cfb_packet_enc, R by (split; auto); reflexivity|].
  split; [exact Lo|]. split.
  - intros m out src H1 H2 H3. unfold n in *. rewrite <- Lo in H2, H3 |- * at 1.
    rewrite cfb_packet_dec; rewrite ?Lo in *; auto. rewrite R'. reflexivity.
  - destruct pks as [|k2 pks]; [exact Logic.I|].
    assert (Al : length (pk_data k) mod 16 = 0 \/ alike b1 b2).
    { destruct A as [A|A]; [right; exact A|left]. inversion A; assumption. }
    destruct (Q Al) as [-> I']. apply IH; auto.
    destruct A as [A|A]; [left; exact A|right]. inversion A; assumption.
Qed.
End Blocks.
