(** Property C135: what an AES-CFB packet of any length gives and leaves behind. *)
From Coq Require Import Arith NArith ZArith List Bool Lia.
From Verif Require Import Res Words Mem MemSpec ListLemmas MemLemmas SpecWords WordsLemmas SyncSpec XorProofs IoProofs Concrete
  AesSpec AesCarrySpec AesModel AesProofs AesCtrProofs AesCfbProofs AesCfbLink AesProps AesInjProps AesCfbReuseProps.
Import ListNotations.
Local Open Scope nat_scope.

(** ** Registers after a partial block *)
Lemma shl8_W a b c d : (a < 256 -> b < 256 -> c < 256 -> d < 256 -> shl32 (W a b c d) 8 = W 0 a b c)%N.
Proof.
  intros Ha Hb Hc Hd. unfold shl32. rewrite u32_mod, N.shiftl_mul_pow2. unfold W.
  change (2^8)%N with 256%N. change (2^32)%N with 4294967296%N.
  symmetry. apply (N.mod_unique _ _ d); lia.
Qed.
Lemma shr24_W a b c d : (a < 256 -> b < 256 -> c < 256 -> d < 256 -> shr32 (W a b c d) 24 = W d 0 0 0)%N.
Proof.
  intros Ha Hb Hc Hd. unfold shr32. rewrite N.shiftr_div_pow2. unfold W. change (2^24)%N with 16777216%N.
  symmetry. apply (N.div_unique _ _ _ (a + 256 * (b + 256 * c))%N); lia.
Qed.
Lemma shl_in_W a b c d a' b' c' d' : (a < 256 -> b < 256 -> c < 256 -> d < 256 -> a' < 256 -> b' < 256 -> c' < 256 -> d' < 256 ->
  shl_in 8 (W a b c d) (W a' b' c' d') = W d' a b c)%N.
Proof.
  intros. unfold shl_in. change (32 - 8)%N with 24%N. rewrite shl8_W, shr24_W by assumption.
  rewrite W_lxor by (assumption || reflexivity). rewrite !N.lxor_0_l, !N.lxor_0_r. reflexivity.
Qed.
Lemma shl_x_W a b c d x : (a < 256 -> b < 256 -> c < 256 -> d < 256 -> x < 256 ->
  N.lxor (shl32 (W a b c d) 8) x = W x a b c)%N.
Proof.
  intros. rewrite shl8_W by assumption. rewrite (proj1 (shl_W x ltac:(assumption))) at 1.
  rewrite W_lxor by (assumption || reflexivity). rewrite !N.lxor_0_l, !N.lxor_0_r. reflexivity.
Qed.

Lemma part_upd_carried r rk c : st16 r -> bytes_ok c -> 0 < length c < 16 -> length c mod 4 <= 1 ->
  part_upd (cfb_st r rk) c = cfb_st (carried r c) rk /\ st16 (carried r c).
Proof.
  intros [Br Lr] Bc Lc Mc.
  assert (H : has_bytes [map Some c] (Ptr 0 0) c) by (apply (has_bytes_last []); exact Bc).
  pose proof (proj1 (part_ok (cfb_st r rk) _ _ _ H Lc)) as E. symmetry in E.
  destruct (list16 r Lr) as (a0&a1&a2&a3&a4&a5&a6&a7&a8&a9&a10&a11&a12&a13&a14&a15&->).
  unfold bytes_ok in Br. repeat rewrite Forall_cons_iff in Br. decompose [and] Br. clear Br.
  assert (R : regs (cfb_st [a0;a1;a2;a3;a4;a5;a6;a7;a8;a9;a10;a11;a12;a13;a14;a15] rk) =
    (W a0 a1 a2 a3, W a4 a5 a6 a7, W a8 a9 a10 a11, W a12 a13 a14 a15)) by reflexivity.
  unfold partial_state_update in E. rewrite R in E.
  assert (K : AesModel.rk (cfb_st [a0;a1;a2;a3;a4;a5;a6;a7;a8;a9;a10;a11;a12;a13;a14;a15] rk) = rk) by reflexivity.
  remember (cfb_st [a0;a1;a2;a3;a4;a5;a6;a7;a8;a9;a10;a11;a12;a13;a14;a15] rk) as cs eqn:Q. clear Q R.
  do 16 (destruct c as [|? c]; [first [cbn in Lc; lia | cbn in Mc; lia |
    unfold bytes_ok in Bc; repeat rewrite Forall_cons_iff in Bc; decompose [and] Bc; clear Bc;
    match type of E with context [(Z.of_nat ?k mod 4)%Z] =>
      let v := eval vm_compute in (Z.of_nat k mod 4)%Z in change (Z.of_nat k mod 4)%Z with v in E;
      let w := eval vm_compute in (Z.of_nat k) in change (Z.of_nat k) with w in E end;
    cbn [Z.eqb Pos.eqb] in E;
    rewrite ?(ld32_at0 _ _ _ H), ?(ld8_at0 _ _ _ H), ?(ld32_at _ _ _ _ H), ?(ld8_at _ _ _ _ H) in E by (cbn [length]; lia);
    cbn [bind nth] in E; unfold word_at in E; cbn [firstn skipn] in E; rewrite ?le_num_W in E;
    rewrite ?shl_in_W, ?shl_x_W in E by assumption;
    apply Ret_inj in E; split;
    [rewrite E; unfold set_regs, cfb_st, carried, word; rewrite K; reflexivity|
     split; [|reflexivity]; repeat (apply Forall_cons; [assumption|]); apply Forall_nil]]|]).
  cbn [length] in Lc. lia.
Qed.

(** ** The bytes of a tail *)
Lemma tail_keys_stream oor e n : st16 e -> n < 16 -> n mod 4 <= 1 ->
  tail_keys oor (rev (quad (vstore e))) n = Ret (tail_stream e n).
Proof.
  intros [Be Le] Hn Hm.
  destruct (list16 e Le) as (a0&a1&a2&a3&a4&a5&a6&a7&a8&a9&a10&a11&a12&a13&a14&a15&->).
  unfold bytes_ok in Be. repeat rewrite Forall_cons_iff in Be. decompose [and] Be. clear Be.
  unfold tail_keys, tail_stream.
  change (rev (quad (vstore [a0;a1;a2;a3;a4;a5;a6;a7;a8;a9;a10;a11;a12;a13;a14;a15]))) with
    [W a12 a13 a14 a15; W a8 a9 a10 a11; W a4 a5 a6 a7; W a0 a1 a2 a3].
  change (rev (chunks 4 [a0;a1;a2;a3;a4;a5;a6;a7;a8;a9;a10;a11;a12;a13;a14;a15])) with
    [[a12;a13;a14;a15];[a8;a9;a10;a11];[a4;a5;a6;a7];[a0;a1;a2;a3]].
  assert (B : forall k, le_bytes (firstn k [W a12 a13 a14 a15; W a8 a9 a10 a11; W a4 a5 a6 a7; W a0 a1 a2 a3]) =
    concat (firstn k [[a12;a13;a14;a15];[a8;a9;a10;a11];[a4;a5;a6;a7];[a0;a1;a2;a3]])).
  { intros k. unfold le_bytes. rewrite flat_map_concat_map, <- firstn_map. cbn [map].
    rewrite !bytes_of_le32_of by assumption. reflexivity. }
  rewrite B. clear B.
  assert (U : forall a b c d, (a < 256 -> b < 256 -> c < 256 -> d < 256 -> u8 (shr32 (W a b c d) 24) = d)%N).
  { intros a b c d Ha Hb Hc Hd. apply (W_shift a b c d Ha Hb Hc Hd). }
  assert (Q : n / 4 < 4) by (apply Nat.div_lt_upper_bound; lia).
  destruct (n mod 4) as [|[|]]; [| |lia]; cbn [tail_ks bind Nat.eqb].
  - reflexivity.
  - change (shr_int oor ?w (24 - 8 * 0)) with (Ret (shr32 w 24)). cbn [bind].
    revert Q. generalize (n / 4). intros k Q. destruct k as [|[|[|[|k]]]]; [| | | |lia]; cbn [nth]; rewrite U by assumption; reflexivity.
Qed.

(** The register the state update of a tail starts from. *)
Definition tail_register (b : build) (E : list N -> list N) (r : list N) : list N :=
  match b with X86 => r | _ => E r end.

Lemma enc_state_st b r rk : st16 r -> rk_ok rk -> enc_state b (cfb_st r rk) = cfb_st (tail_register b (cipher_of b rk) r) rk.
Proof.
  intros S K. unfold enc_state, cfb_aes_encrypt. rewrite regs_cfb_st, rk_cfb_st, rounds_ok by assumption.
  unfold tail_register. destruct b; cbn [fst]; try reflexivity; unfold cfb_st; destruct (vstore r) as [[[x y] z] w];
    destruct (vstore (cipher_of _ _ _)) as [[[x' y'] z'] w']; reflexivity.
Qed.

Lemma cfb_run_split oor b fb q : forall cs d1 d2, length d1 = 16 * q ->
  cfb_run oor b fb cs q (d1 ++ d2) =
  let* (c1, o1) := cfb_run oor b fb cs q d1 in
  let* (c2, o2) := cfb_run oor b fb c1 0 d2 in Ret (c2, o1 ++ o2).
Proof.
  induction q as [|q IH]; intros cs d1 d2 L.
  - destruct d1; [|discriminate]. cbn [app]. change (cfb_run oor b fb cs 0 []) with (Ret (cs, @nil N)). cbn [bind].
    destruct (cfb_run oor b fb cs 0 d2) as [[c o]| |]; reflexivity.
  - assert (X : exists a e, d1 = a ++ e /\ length a = 16).
    { exists (firstn 16 d1), (skipn 16 d1). split; [symmetry; apply firstn_skipn|]. rewrite firstn_length. lia. }
    destruct X as (a & e & -> & La). rewrite app_length, La in L. cbn [cfb_run]. cbv zeta.
    rewrite <- app_assoc.
    assert (F : forall x, firstn 16 (a ++ x) = a) by (intros x; rewrite <- La, firstn_app, Nat.sub_diag, firstn_all; apply app_nil_r).
    assert (G : forall x, skipn 16 (a ++ x) = x) by (intros x; rewrite <- La, skipn_app, Nat.sub_diag, skipn_all; reflexivity).
    rewrite !F, !G. rewrite IH by lia.
    destruct (cfb_run oor b fb (full_upd _ _) q e) as [[c1 o1]| |]; cbn [bind]; try reflexivity.
    destruct (cfb_run oor b fb c1 0 d2) as [[c2 o2]| |] eqn:T; cbn [cfb_run] in T; rewrite T; cbn [bind]; try reflexivity.
    rewrite app_assoc. reflexivity.
Qed.

Lemma tail_stream_length e n : length e = 16 -> n < 16 -> n mod 4 <= 1 -> length (tail_stream e n) = n.
Proof.
  intros Le Hn Hm. destruct (list16 e Le) as (a0&a1&a2&a3&a4&a5&a6&a7&a8&a9&a10&a11&a12&a13&a14&a15&->).
  do 16 (destruct n as [|n]; [first [reflexivity|cbn in Hm; lia]|]). lia.
Qed.
Lemma tail_stream_ok e n : st16 e -> n < 16 -> n mod 4 <= 1 -> bytes_ok (tail_stream e n).
Proof.
  intros [Be Le] Hn Hm. destruct (list16 e Le) as (a0&a1&a2&a3&a4&a5&a6&a7&a8&a9&a10&a11&a12&a13&a14&a15&->).
  unfold bytes_ok in Be. repeat rewrite Forall_cons_iff in Be. decompose [and] Be. clear Be.
  do 16 (destruct n as [|n]; [first [cbn in Hm; lia|cbn; repeat (apply Forall_cons; [assumption|]); apply Forall_nil]|]). lia.
Qed.

Definition after_tail (b : build) (E : list N -> list N) (r c : list N) : list N :=
  if length c =? 0 then r else carried (tail_register b E r) c.

Lemma tail_register_st16 b rk r : rk_ok rk -> st16 r -> st16 (tail_register b (cipher_of b rk) r).
Proof. intros K S. unfold tail_register. destruct b; first [exact S|apply cipher_of_st16; assumption]. Qed.

Lemma cfb_run_tail oor b fb r rk d : fb = feed_out \/ fb = feed_in -> st16 r -> rk_ok rk -> bytes_ok d -> length d < 16 ->
  length d mod 4 <= 1 ->
  let o := xor_bytes d (tail_stream (cipher_of b rk r) (length d)) in
  cfb_run oor b fb (cfb_st r rk) 0 d = Ret (cfb_st (after_tail b (cipher_of b rk) r (fb d o)) rk, o) /\
  st16 (after_tail b (cipher_of b rk) r (fb d o)) /\ length o = length d /\ bytes_ok o.
Proof.
  intros F S K B L M o.
  pose proof (cipher_of_st16 b rk r K S) as Sc.
  assert (Lo : length o = length d).
  { unfold o. rewrite xor_bytes_length_min, tail_stream_length; [lia|apply Sc|exact L|exact M]. }
  assert (Bo : bytes_ok o) by (apply xor_bytes_ok; [exact B|apply tail_stream_ok; assumption]).
  assert (Lf : length (fb d o) = length d) by (destruct F as [-> | ->]; [exact Lo|reflexivity]).
  assert (Bf : bytes_ok (fb d o)) by (destruct F as [-> | ->]; assumption).
  cbn [cfb_run]. unfold after_tail. rewrite Lf. destruct (Nat.eqb_spec (length d) 0) as [Z|Z].
  - destruct d; [|discriminate]. split; [reflexivity|]. split; [exact S|]. split; [reflexivity|constructor].
  - rewrite (proj1 (enc_key_st b r rk S K)), tail_keys_stream by assumption. cbn [bind]. fold o.
    rewrite enc_state_st by assumption.
    destruct (part_upd_carried (tail_register b (cipher_of b rk) r) rk (fb d o)) as [-> S'];
      [apply tail_register_st16; assumption|exact Bf|lia|rewrite Lf; exact M|].
    split; [reflexivity|]. split; [exact S'|]. split; assumption.
Qed.

(** ** Whole packets *)
Lemma last16_app x l : 16 <= length l -> last16 (x ++ l) = last16 l.
Proof.
  intros H. unfold last16. rewrite app_length, skipn_app.
  rewrite (skipn_all2 x) by lia. cbn [app]. f_equal. lia.
Qed.
Lemma last16_self l : length l = 16 -> last16 l = l.
Proof. intros L. unfold last16. rewrite L. reflexivity. Qed.
Lemma last16_blocks bs : forall iv, length iv = 16 -> Forall (fun x => length x = 16) bs ->
  last16 (iv ++ concat bs) = last bs iv.
Proof.
  induction bs as [|x bs IH]; intros iv L F.
  - cbn [concat last]. rewrite app_nil_r. apply last16_self. exact L.
  - inversion F as [|? ? Lx F']; subst. rewrite last_cons. cbn [concat].
    rewrite last16_app by (rewrite app_length; lia). apply IH; assumption.
Qed.
Lemma chunks_16 q : forall (d : list N), length d = 16 * q -> Forall (fun x => length x = 16) (chunks 16 d) /\ concat (chunks 16 d) = d.
Proof.
  induction q as [|q IH]; intros d L.
  - destruct d; [|discriminate]. split; [constructor|reflexivity].
  - assert (X : exists a e, d = a ++ e /\ length a = 16).
    { exists (firstn 16 d), (skipn 16 d). split; [symmetry; apply firstn_skipn|]. rewrite firstn_length. lia. }
    destruct X as (a & e & -> & La). rewrite app_length, La in L. rewrite chunks16 by exact La.
    destruct (IH e ltac:(lia)) as [IH1 IH2]. split; [constructor; assumption|]. cbn [concat]. rewrite IH2. reflexivity.
Qed.
Lemma enc_blocks_16 (E : list N -> list N) ps : (forall s, st16 s -> st16 (E s)) -> forall iv, st16 iv ->
  Forall (fun x => length x = 16) ps -> Forall bytes_ok ps ->
  Forall (fun x => length x = 16) (cfb_enc_blocks E iv ps).
Proof.
  intros HE. induction ps as [|p ps IH]; intros iv S F B; cbn [cfb_enc_blocks]; [constructor|].
  inversion F; subst. inversion B; subst. destruct (HE iv S) as [E1 E2].
  assert (Sx : st16 (xor_bytes p (E iv))).
  { split; [apply xor_bytes_ok; assumption|]. rewrite xor_bytes_length_min. lia. }
  constructor; [apply Sx|]. apply IH; assumption.
Qed.
Lemma chunks_bytes (d : list N) q : length d = 16 * q -> bytes_ok d -> Forall bytes_ok (chunks 16 d).
Proof.
  intros L B. destruct (chunks_16 q d L) as [_ C]. rewrite <- C in B. revert B.
  generalize (chunks 16 d). intros l. induction l as [|x l IH]; intros B; [constructor|].
  cbn [concat] in B. apply Forall_app in B. destruct B. constructor; [assumption|apply IH; assumption].
Qed.

Lemma whole_parts (d : list N) : let n := whole d in
  length (firstn n d) = 16 * (length d / 16) /\ length (skipn n d) = length d mod 16 /\ firstn n d ++ skipn n d = d.
Proof.
  cbv zeta. unfold whole. pose proof (Nat.div_mod_eq (length d) 16). rewrite firstn_length, skipn_length.
  split; [lia|]. split; [lia|apply firstn_skipn].
Qed.

(** The register after a packet. *)
Definition after_packet (b : build) (E : list N -> list N) (iv c : list N) : list N :=
  after_tail b E (last16 (iv ++ firstn (whole c) c)) (skipn (whole c) c).

Lemma cfb_run_packet oor b fb iv rk d : (fb = feed_out \/ fb = feed_in) -> st16 iv -> rk_ok rk -> bytes_ok d -> length d mod 4 <= 1 ->
  let o := if length (fb [] [0%N]) =? 1 then packet_ct (cipher_of b rk) iv d else packet_pt (cipher_of b rk) iv d in
  cfb_run oor b fb (cfb_st iv rk) (length d / 16) d = Ret (cfb_st (after_packet b (cipher_of b rk) iv (fb d o)) rk, o) /\
  st16 (after_packet b (cipher_of b rk) iv (fb d o)) /\ length o = length d /\ bytes_ok o.
Proof.
  intros F S K B M.
  destruct (whole_parts d) as (L1 & L2 & E). pose proof (Nat.mod_upper_bound (length d) 16 ltac:(lia)) as U.
  set (d1 := firstn (whole d) d) in *. set (d2 := skipn (whole d) d) in *.
  assert (B1 : bytes_ok d1) by (apply Forall_firstn; exact B). assert (B2 : bytes_ok d2) by (apply Forall_skipn; exact B).
  assert (M2 : length d2 mod 4 <= 1) by (rewrite L2, mod16_4; exact M).
  assert (Wo : forall o1 o2 : list N, length o1 = length d1 -> length o2 = length d2 ->
    firstn (whole (o1 ++ o2)) (o1 ++ o2) = o1 /\ skipn (whole (o1 ++ o2)) (o1 ++ o2) = o2).
  { intros o1 o2 X1 X2. assert (W0 : whole (o1 ++ o2) = length o1).
    { unfold whole. rewrite app_length, X1, X2, L1, L2, <- Nat.div_mod_eq. reflexivity. }
    rewrite W0, firstn_app, skipn_app, Nat.sub_diag, firstn_all, skipn_all, app_nil_r. split; reflexivity. }
  destruct F as [-> | ->]; unfold feed_out, feed_in; cbn [length Nat.eqb]; cbv zeta.
  - fold feed_out. unfold packet_ct. fold d1 d2. set (c1 := cfb128_encrypt (cipher_of b rk) iv d1).
    destruct (enc_blocks oor b rk _ iv d1 S K B1 L1) as [R1 S1].
    change (concat (cfb_enc_blocks (cipher_of b rk) iv (chunks 16 d1))) with c1 in R1.
    assert (Q : last (cfb_enc_blocks (cipher_of b rk) iv (chunks 16 d1)) iv = last16 (iv ++ c1)).
    { symmetry. apply last16_blocks; [apply S|]. apply enc_blocks_16; [intros s; apply cipher_of_st16; exact K|exact S| |].
      - apply (chunks_16 _ d1 L1).
      - apply (chunks_bytes d1 _ L1 B1). }
    rewrite Q in R1, S1. rewrite <- L2.
    destruct (enc_block_at (cipher_of b rk) _ (fun s => cipher_of_st16 b rk s K) iv d1 S B1 L1) as (Bc & Lc & _). fold c1 in Bc, Lc.
    destruct (cfb_run_tail oor b feed_out (last16 (iv ++ c1)) rk d2 (or_introl eq_refl) S1 K B2 ltac:(lia) M2) as (R2 & S2 & L3 & B3).
    set (c2 := xor_bytes d2 (tail_stream (cipher_of b rk (last16 (iv ++ c1))) (length d2))) in *.
    change (feed_out d2 c2) with c2 in *.
    destruct (Wo c1 c2 ltac:(lia) ltac:(lia)) as [W1 W2]. unfold after_packet. rewrite W1, W2.
    split; [|split; [exact S2|]; split; [|apply Forall_app; split; assumption]].
    + rewrite <- E at 2. rewrite cfb_run_split by exact L1. rewrite R1. cbn [bind]. rewrite R2. reflexivity.
    + rewrite app_length, L3, Lc, <- L1, <- app_length, E. reflexivity.
  - fold feed_in. unfold packet_pt. fold d1 d2.
    destruct (dec_blocks oor b rk _ iv d1 S K B1 L1) as [R1 S1].
    destruct (chunks_16 _ d1 L1) as [C1 C2].
    rewrite <- (last16_blocks _ iv (proj2 S) C1), C2 in R1, S1. rewrite <- L2.
    change (concat (cfb_dec_blocks (cipher_of b rk) iv (chunks 16 d1))) with (cfb128_decrypt (cipher_of b rk) iv d1) in R1.
    destruct (cfb_run_tail oor b feed_in (last16 (iv ++ d1)) rk d2 (or_intror eq_refl) S1 K B2 ltac:(lia) M2) as (R2 & S2 & L3 & B3).
    set (c2 := xor_bytes d2 (tail_stream (cipher_of b rk (last16 (iv ++ d1))) (length d2))) in *.
    change (feed_in d2 c2) with d2 in *.
    unfold after_packet. fold d1 d2.
    pose proof (cfb_run_length _ _ _ _ _ 0 _ _ _ ltac:(lia) ltac:(rewrite Nat.add_0_r; exact L1) R1) as L4.
    destruct (cfb_inv_run oor b feed_in _ _ 0 _ _ _ ltac:(lia) ltac:(rewrite Nat.add_0_r; exact L1) B1 (or_intror eq_refl) (cfb_st_inv iv rk (proj1 S) K) R1) as [_ B4].
    split; [|split; [exact S2|]; split; [|apply Forall_app; split; assumption]].
    + rewrite <- E at 2. rewrite cfb_run_split by exact L1. rewrite R1. cbn [bind]. rewrite R2. reflexivity.
    + rewrite app_length, L3, L4, <- app_length, E. reflexivity.
Qed.

(** ** C135: an AES-CFB state carries the last 16 ciphertext bytes from one packet to the next. *)
(** What happens, for every list of packets of 4q or 4q + 1 bytes, on every
    build: the ciphertexts, and the register afterwards. *)
Fixpoint session (b : build) (E : list N -> list N) (r : list N) (ds : list (list N)) : list (list N) :=
  match ds with
  | [] => []
  | d :: ds => let c := packet_ct E r d in c :: session b E (after_packet b E r c) ds
  end.
Fixpoint session_back (b : build) (E : list N -> list N) (r : list N) (cs : list (list N)) : list (list N) :=
  match cs with
  | [] => []
  | c :: cs => packet_pt E r c :: session_back b E (after_packet b E r c) cs
  end.

Lemma session_sends oor b rk ds : rk_ok rk -> Forall (fun d => bytes_ok d /\ length d mod 4 <= 1) ds -> forall iv, st16 iv ->
  let es := session b (cipher_of b rk) iv ds in let r := fold_left (after_packet b (cipher_of b rk)) es iv in
  sends (cfb_packet oor b ENCRYPT) (cfb_st iv rk) ds (cfb_st r rk) es /\ st16 r.
Proof.
  intros K F. induction F as [|d ds [B W] F IH]; intros iv S; cbv zeta; cbn [session fold_left sends].
  - split; [reflexivity|exact S].
  - destruct (cfb_run_packet oor b feed_out iv rk d (or_introl eq_refl) S K B W) as (R & S' & L & _).
    change (length (feed_out [] [0%N]) =? 1) with true in *. cbv iota zeta in *.
    set (c := packet_ct (cipher_of b rk) iv d) in *. change (feed_out d c) with c in *.
    destruct (IH _ S') as [IH1 IH2]. split; [|exact IH2]. eexists. split; [|exact IH1]. split; [exact L|].
    intros m out inp H1 H2 H3. rewrite cfb_packet_enc by (split; auto). rewrite R. reflexivity.
Qed.
Lemma session_receives oor b rk ds : rk_ok rk -> Forall (fun d => bytes_ok d /\ length d mod 4 <= 1) ds -> forall iv, st16 iv ->
  let r := fold_left (after_packet b (cipher_of b rk)) ds iv in
  receives (cfb_packet oor b DECRYPT) (cfb_st iv rk) ds (cfb_st r rk) (session_back b (cipher_of b rk) iv ds) /\ st16 r.
Proof.
  intros K F. induction F as [|d ds [B W] F IH]; intros iv S; cbv zeta; cbn [session_back fold_left receives].
  - split; [reflexivity|exact S].
  - destruct (cfb_run_packet oor b feed_in iv rk d (or_intror eq_refl) S K B W) as (R & S' & L & _).
    change (length (feed_in [] [0%N]) =? 1) with false in *. cbv iota zeta in *.
    set (c := packet_pt (cipher_of b rk) iv d) in *. change (feed_in d c) with d in *.
    destruct (IH _ S') as [IH1 IH2]. split; [|exact IH2]. eexists. split; [|exact IH1]. split; [exact L|].
    intros m out inp H1 H2 H3. rewrite cfb_packet_dec by assumption. rewrite R. reflexivity.
Qed.

Lemma packet_ct_ext E E' iv d : (forall s, E s = E' s) -> packet_ct E iv d = packet_ct E' iv d.
Proof. intros H. unfold packet_ct, cfb128_encrypt. rewrite (enc_blocks_ext E E' _ H), (H (last16 _)). reflexivity. Qed.
Lemma packet_pt_ext E E' iv d : (forall s, E s = E' s) -> packet_pt E iv d = packet_pt E' iv d.
Proof. intros H. unfold packet_pt, cfb128_decrypt. rewrite (dec_blocks_ext E E' _ H), (H (last16 _)). reflexivity. Qed.
Lemma after_packet_ext b E E' iv c : (forall s, E s = E' s) -> after_packet b E iv c = after_packet b E' iv c.
Proof.
  intros H. unfold after_packet, after_tail. destruct (_ =? 0); [reflexivity|]. unfold tail_register.
  destruct b; rewrite ?(H (last16 _)); reflexivity.
Qed.
Lemma session_ext b E E' ds : (forall s, E s = E' s) -> forall iv, session b E iv ds = session b E' iv ds.
Proof.
  intros H. induction ds as [|d ds IH]; intros iv; [reflexivity|]. cbn [session]. cbv zeta.
  rewrite IH, (packet_ct_ext E E' iv d H), (after_packet_ext b E E' _ _ H). reflexivity.
Qed.
Lemma session_back_ext b E E' ds : (forall s, E s = E' s) -> forall iv, session_back b E iv ds = session_back b E' iv ds.
Proof.
  intros H. induction ds as [|d ds IH]; intros iv; [reflexivity|]. cbn [session_back].
  rewrite IH, (packet_pt_ext E E' iv d H), (after_packet_ext b E E' _ _ H). reflexivity.
Qed.
Lemma fold_after_ext b E E' cs : (forall s, E s = E' s) -> forall iv,
  fold_left (after_packet b E) cs iv = fold_left (after_packet b E') cs iv.
Proof.
  intros H. induction cs as [|c cs IH]; intros iv; [reflexivity|]. cbn [fold_left].
  rewrite IH, (after_packet_ext b E E' _ _ H). reflexivity.
Qed.

(** The packet functions with the cipher of the build. *)
Lemma cfb_run_ct oor b E iv rk d : (forall s, cipher_of b rk s = E s) -> st16 iv -> rk_ok rk -> bytes_ok d ->
  length d mod 4 <= 1 ->
  exists s, cfb_run oor b feed_out (cfb_st iv rk) (length d / 16) d = Ret (s, packet_ct E iv d).
Proof.
  intros H S K B M. destruct (cfb_run_packet oor b feed_out iv rk d (or_introl eq_refl) S K B M) as (R & _).
  change (length (feed_out [] [0%N]) =? 1) with true in R. cbv iota zeta in R.
  rewrite (packet_ct_ext _ _ iv d H) in R. eexists. exact R.
Qed.
Lemma cfb_run_pt oor b E iv rk d : (forall s, cipher_of b rk s = E s) -> st16 iv -> rk_ok rk -> bytes_ok d ->
  length d mod 4 <= 1 ->
  exists s, cfb_run oor b feed_in (cfb_st iv rk) (length d / 16) d = Ret (s, packet_pt E iv d).
Proof.
  intros H S K B M. destruct (cfb_run_packet oor b feed_in iv rk d (or_intror eq_refl) S K B M) as (R & _).
  change (length (feed_in [] [0%N]) =? 1) with false in R. cbv iota zeta in R.
  rewrite (packet_pt_ext _ _ iv d H) in R. eexists. exact R.
Qed.

(** For whole blocks this is CFB-128. *)
Lemma packet_whole E iv d : length d mod 16 = 0 ->
  packet_ct E iv d = cfb128_encrypt E iv d /\ packet_pt E iv d = cfb128_decrypt E iv d.
Proof.
  intros M. assert (W : whole d = length d) by (unfold whole; pose proof (Nat.div_mod_eq (length d) 16); lia).
  unfold packet_ct, packet_pt. rewrite W, firstn_all, skipn_all. cbn [xor_bytes]. rewrite !app_nil_r. split; reflexivity.
Qed.

Theorem C135_aes_cfb_session_exact : forall oor b m kp ivp key iv ds,
  has_bytes m kp key -> length key = 16 -> has_bytes m ivp iv -> length iv = 16 ->
  Forall (fun d => bytes_ok d /\ length d mod 4 <= 1) ds ->
  exists cs cs1 cs2, aes_cfb_initialize m kp ivp = Ret cs /\
    (let es := session b (build_cipher b key) iv ds in
     sends (cfb_packet oor b ENCRYPT) cs ds cs1 es /\
     reg_bytes cs1 = fold_left (after_packet b (build_cipher b key)) es iv) /\
    receives (cfb_packet oor b DECRYPT) cs ds cs2 (session_back b (build_cipher b key) iv ds) /\
    reg_bytes cs2 = fold_left (after_packet b (build_cipher b key)) ds iv.
Proof.
  intros oor b m kp ivp key iv ds H1 H2 H3 H4 F.
  destruct (cfb_init_ok m kp ivp key iv H1 H2 H3 H4) as (ks & E & K & S & C).
  destruct (session_sends oor b ks ds K F iv S) as [X1 X2]. destruct (session_receives oor b ks ds K F iv S) as [Y1 Y2].
  eexists. eexists. eexists. split; [exact E|]. cbv zeta.
  rewrite <- (session_ext b _ _ ds (C b) iv), <- (session_back_ext b _ _ ds (C b) iv), <- !(fold_after_ext b _ _ _ (C b)).
  split; [split; [exact X1|apply reg_bytes_st; exact X2]|].
  split; [exact Y1|apply reg_bytes_st; exact Y2].
Qed.
Print Assumptions C135_aes_cfb_session_exact.

(** On x86 the register is the right one as long as every packet has 16q or
    16q + 4 bytes. *)
Lemma last16_length l : 16 <= length l -> length (last16 l) = 16.
Proof. intros H. unfold last16. rewrite skipn_length. lia. Qed.
Lemma last16_last16 x y : 16 <= length x -> last16 (last16 x ++ y) = last16 (x ++ y).
Proof.
  intros H. unfold last16 at 1 3. rewrite !app_length, last16_length by exact H. unfold last16.
  rewrite !skipn_app, skipn_skipn, skipn_length. f_equal; f_equal; lia.
Qed.
Lemma after_packet_x86 E iv c : length iv = 16 -> length c mod 16 = 0 \/ length c mod 16 = 4 ->
  after_packet X86 E iv c = last16 (iv ++ c).
Proof.
  intros Li M. destruct (whole_parts c) as (L1 & L2 & Ec). unfold after_packet, after_tail, tail_register.
  set (c1 := firstn (whole c) c) in *. set (c2 := skipn (whole c) c) in *.
  assert (Lx : 16 <= length (iv ++ c1)) by (rewrite app_length; lia).
  destruct M as [M|M]; rewrite M in L2; rewrite L2.
  - destruct c2; [|discriminate]. rewrite app_nil_r in Ec. cbn [Nat.eqb]. rewrite Ec. reflexivity.
  - change (4 =? 0) with false. cbv iota. rewrite <- Ec, app_assoc, <- (last16_last16 (iv ++ c1) c2 Lx).
    pose proof (last16_length (iv ++ c1) Lx) as L3.
    unfold carried. rewrite L2. change (4 mod 4 =? 0) with true. change (4 / 4) with 1. cbv iota zeta.
    cbn [seq flat_map]. change (skipn 0 c2) with c2. rewrite app_nil_r, firstn_all2 by lia.
    unfold last16 at 2. rewrite app_length, L3, L2, skipn_app, L3. reflexivity.
Qed.
Theorem C135_aes_cfb_x86_carries : forall oor m kp ivp key iv ds,
  has_bytes m kp key -> length key = 16 -> has_bytes m ivp iv -> length iv = 16 ->
  Forall (fun d => bytes_ok d /\ (length d mod 16 = 0 \/ length d mod 16 = 4)) ds ->
  exists cs cs' es, aes_cfb_initialize m kp ivp = Ret cs /\
    sends (cfb_packet oor X86 ENCRYPT) cs ds cs' es /\ reg_bytes cs' = last16 (iv ++ concat es).
Proof.
  intros oor m kp ivp key iv ds H1 H2 H3 H4 F.
  assert (F' : Forall (fun d => bytes_ok d /\ length d mod 4 <= 1) ds).
  { apply (Forall_impl _ (P := fun d => bytes_ok d /\ (length d mod 16 = 0 \/ length d mod 16 = 4))); [|exact F].
    intros d [B M]. split; [exact B|]. rewrite <- mod16_4. destruct M as [-> | ->]; cbn; lia. }
  destruct (cfb_init_ok m kp ivp key iv H1 H2 H3 H4) as (ks & E & K & S & C).
  destruct (session_sends oor X86 ks ds K F' iv S) as [X1 X2].
  eexists. eexists. eexists. split; [exact E|]. split; [exact X1|].
  rewrite reg_bytes_st by exact X2. clear X1 X2 E C H1 H2 H3 F' m kp ivp key.
  revert iv H4 S. induction F as [|d ds [B M] F IH]; intros iv L S; cbn [session fold_left concat].
  - rewrite app_nil_r. symmetry. apply last16_self. exact L.
  - assert (M' : length d mod 4 <= 1) by (rewrite <- mod16_4; destruct M as [-> | ->]; cbn; lia).
    destruct (cfb_run_packet oor X86 feed_out iv ks d (or_introl eq_refl) S K B M') as (_ & S' & L' & _).
    change (length (feed_out [] [0%N]) =? 1) with true in *. cbv iota zeta in *.
    set (c := packet_ct (cipher_of X86 ks) iv d) in *. change (feed_out d c) with c in *.
    rewrite IH; [|apply S'|exact S']. rewrite after_packet_x86 by (rewrite ?L'; assumption).
    rewrite last16_last16, app_assoc by (rewrite app_length; lia). reflexivity.
Qed.
Print Assumptions C135_aes_cfb_x86_carries.

(** A second packet of one block, after a first packet of four bytes with the
    table build and after one of eight bytes on x86: not enciphered under the
    last 16 bytes of initialisation vector and ciphertext. *)
Lemma C135_two b (m : mem) d1 d2 n1 : n1 = length d1 ->
  m = [holding fips_key; holding nist_iv; holding d1; holding d2; fresh n1; fresh 16] ->
  match cfb_two b ENCRYPT m (Ptr 4 0) (Ptr 2 0) (Ptr 5 0) (Ptr 3 0) (Z.of_nat n1) 16 with
  | Ret m1 => match ldn m1 (Ptr 4 0) n1, ldn m1 (Ptr 5 0) 16 with
     | Ret c1, Ret c2 => negb (Finite.list_N_eqb c2 (xor_bytes d2 (build_cipher b fips_key (last16 (nist_iv ++ c1)))))
     | _, _ => false end
  | _ => false end = true ->
  exists m1 c1 c2, cfb_two b ENCRYPT m (Ptr 4 0) (Ptr 2 0) (Ptr 5 0) (Ptr 3 0) (Z.of_nat n1) 16 = Ret m1 /\
    ldn m1 (Ptr 4 0) n1 = Ret c1 /\ ldn m1 (Ptr 5 0) 16 = Ret c2 /\
    c2 <> xor_bytes d2 (build_cipher b fips_key (last16 (nist_iv ++ c1))).
Proof.
  intros _ _ V.
  destruct (cfb_two _ _ _ _ _ _ _ _ _) as [m1| |] eqn:E1; try discriminate V.
  destruct (ldn m1 (Ptr 4 0) n1) as [c1| |] eqn:E2; try discriminate V.
  destruct (ldn m1 (Ptr 5 0) 16) as [c2| |] eqn:E3; try discriminate V.
  exists m1, c1, c2. split; [reflexivity|]. split; [exact E2|]. split; [exact E3|].
  intros X. rewrite X, Finite.list_N_eqb_refl in V. discriminate V.
Qed.

Theorem C135_aes_cfb_carries_last_block_refuted : forall b n, (b = Table false /\ n = 4) \/ (b = X86 /\ n = 8) ->
  exists m key iv d1 d2 m1 c1 c2,
  has_bytes m (Ptr 0 0) key /\ length key = 16 /\ has_bytes m (Ptr 1 0) iv /\ length iv = 16 /\
  has_bytes m (Ptr 2 0) d1 /\ length d1 = n /\ has_bytes m (Ptr 3 0) d2 /\ length d2 = 16 /\
  cfb_two b ENCRYPT m (Ptr 4 0) (Ptr 2 0) (Ptr 5 0) (Ptr 3 0) (Z.of_nat n) 16 = Ret m1 /\
  ldn m1 (Ptr 4 0) n = Ret c1 /\ ldn m1 (Ptr 5 0) 16 = Ret c2 /\
  c2 <> xor_bytes d2 (build_cipher b key (last16 (iv ++ c1))).
Proof.
  intros b n [[-> ->]|[-> ->]].
  - destruct (C135_two (Table false) _ [1;2;3;4]%N fips_in 4 eq_refl eq_refl) as (m1 & c1 & c2 & P1 & P2 & P3 & P4);
      [vm_compute; reflexivity|].
    exists [holding fips_key; holding nist_iv; holding [1;2;3;4]%N; holding fips_in; fresh 4; fresh 16],
      fips_key, nist_iv, [1;2;3;4]%N, fips_in, m1, c1, c2.
    split; [conc_has_bytes|]. split; [reflexivity|]. split; [conc_has_bytes|]. split; [reflexivity|].
    split; [conc_has_bytes|]. split; [reflexivity|]. split; [conc_has_bytes|]. split; [reflexivity|].
    split; [exact P1|]. split; [exact P2|]. split; [exact P3|exact P4].
  - destruct (C135_two X86 _ [1;2;3;4;5;6;7;8]%N fips_in 8 eq_refl eq_refl) as (m1 & c1 & c2 & P1 & P2 & P3 & P4);
      [vm_compute; reflexivity|].
    exists [holding fips_key; holding nist_iv; holding [1;2;3;4;5;6;7;8]%N; holding fips_in; fresh 8; fresh 16],
      fips_key, nist_iv, [1;2;3;4;5;6;7;8]%N, fips_in, m1, c1, c2.
    split; [conc_has_bytes|]. split; [reflexivity|]. split; [conc_has_bytes|]. split; [reflexivity|].
    split; [conc_has_bytes|]. split; [reflexivity|]. split; [conc_has_bytes|]. split; [reflexivity|].
    split; [exact P1|]. split; [exact P2|]. split; [exact P3|exact P4].
Qed.
Print Assumptions C135_aes_cfb_carries_last_block_refuted.

Example C135_instance :
  let m := [holding fips_key; holding nist_iv] in
  has_bytes m (Ptr 0 0) fips_key /\ length fips_key = 16 /\ has_bytes m (Ptr 1 0) nist_iv /\ length nist_iv = 16 /\
  Forall (fun d => bytes_ok d /\ length d mod 4 <= 1) [nist_pt; [1;2;3;4]; [5]; fips_in ++ [6;7;8;9;10]]%N /\
  Forall (fun d => bytes_ok d /\ (length d mod 16 = 0 \/ length d mod 16 = 4)) [nist_pt; [1;2;3;4]; fips_in ++ [5;6;7;8]]%N.
Proof.
  split; [conc_has_bytes|]. split; [reflexivity|]. split; [conc_has_bytes|]. split; [reflexivity|].
  split; repeat (apply Forall_cons; [split; [repeat constructor|cbn; lia]|]); apply Forall_nil.
Qed.
