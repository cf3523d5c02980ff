From Coq Require Import NArith ZArith List Lia Arith Bool ZifyN ZifyNat.
From Verif Require Import Res Words Mem Ints MemSpec ListLemmas MemLemmas SpecWords WordsLemmas Finite
  ShaSpec ShaModel ShaProofs HmacModel.
Import ListNotations.
Local Open Scope nat_scope.

(** What is needed of the linked hash function: it computes SHA-256 for every
    message whose length satisfies [P]. *)
Definition hash_ok (P : nat -> Prop) (sha : mem -> ptr -> ptr -> N -> res mem) : Prop :=
  forall m digest message data,
    has_bytes m message data -> writable m digest 32 ->
    (Z.of_nat (length data) + 73 <= 2^31)%Z -> P (length data) ->
    sha m digest message (N.of_nat (length data)) = Ret (write_at m digest (SHA256 data)).

Lemma auth_hash_ok : hash_ok (fun _ => True) sha256_auth.
Proof. intros m d msg data H1 H2 H3 _. apply sha256_auth_ok; auto. Qed.
Lemma hash_hash_ok : hash_ok (fun n => n mod 64 <> 63) sha256_hash.
Proof. intros m d msg data H1 H2 H3 H4. apply sha256_hash_ok; auto. Qed.

Lemma SHA256_length d : length (SHA256 d) = 32.
Proof.
  unfold SHA256. set (f := fold_left _ _ _). clearbody f.
  destruct f as [[[[[[[? ?] ?] ?] ?] ?] ?] ?]. cbn [list8 flat_map].
  rewrite !app_length, !be_str_length. reflexivity.
Qed.

Lemma SHA256_ok d : bytes_ok (SHA256 d).
Proof.
  unfold SHA256. generalize (list8 (fold_left compress (chunks 64 (pad d)) (state_of sha_H0))).
  intros l. induction l as [|x l IH]; cbn [flat_map]; [constructor|].
  apply Forall_app. split; auto. apply be_str_ok.
Qed.

Lemma bytes_ok_repeat0 n : bytes_ok (repeat 0%N n).
Proof. apply Forall_forall. intros x H. apply repeat_spec in H. subst. reflexivity. Qed.

Lemma hmac_key_length k : length (hmac_key k) = 64.
Proof.
  unfold hmac_key. destruct (Nat.leb_spec (length k) 64).
  - rewrite app_length, repeat_length. lia.
  - rewrite app_length, repeat_length, SHA256_length. reflexivity.
Qed.

Lemma hmac_key_ok k : bytes_ok k -> bytes_ok (hmac_key k).
Proof.
  intros H. unfold hmac_key. apply Forall_app. split; [|apply bytes_ok_repeat0].
  destruct (length k <=? 64); auto. apply SHA256_ok.
Qed.

(** Stores of zero bytes up to the end of a range. *)
Lemma store_zeros m p l n :
  writable m p (length l + n) ->
  for_n n (length l) (fun i m => st8 m (padd p i) 0) (write_at m p l) =
  Ret (write_at m p (l ++ repeat 0%N n)).
Proof.
  intros W.
  pose (st := fun i => write_at m p (l ++ repeat 0%N i)).
  assert (E : write_at m p l = st 0) by (unfold st; cbn [repeat]; rewrite app_nil_r; reflexivity).
  rewrite E, (for_n_steps _ st); [reflexivity|].
  intros i Hi. unfold st. rewrite repeat_snoc, app_assoc.
  assert (L : length (l ++ repeat 0%N i) = length l + i) by (rewrite app_length, repeat_length; reflexivity).
  rewrite <- L. rewrite st8_write.
  - rewrite <- write_at_app; auto. apply (writable_le _ _ _ _ W). rewrite app_length, L. simpl. lia.
  - apply writable_write_at.
    + apply (writable_le _ _ _ _ W). lia.
    + apply writable_padd. apply (writable_le _ _ _ _ W). lia.
Qed.

(** The loop that xors the padded key into the two pads. *)
Lemma pad_loop m p k :
  length k = 64 -> has_bytes m p k ->
  for_n 64 0
    (fun i cs =>
       let* b := ld8 m (padd p i) in
       Ret (HmacState (upd i (N.lxor 0x36 b) (inner_key cs))
                      (upd i (N.lxor 0x5c b) (outer_key cs))))
    (HmacState (repeat 0%N 64) (repeat 0%N 64)) =
  Ret (HmacState (map (N.lxor 0x36) k) (map (N.lxor 0x5c) k)).
Proof.
  intros L H.
  pose (f := fun c i => firstn i (map (N.lxor c) k) ++ skipn i (repeat 0%N 64)).
  pose (st := fun i => HmacState (f 0x36%N i) (f 0x5c%N i)).
  change (HmacState (repeat 0%N 64) (repeat 0%N 64)) with (st 0).
  rewrite (for_n_steps _ st).
  - unfold st, f. rewrite !(firstn_all2 (n := 64)) by (rewrite map_length; lia).
    change (skipn 64 (repeat 0%N 64)) with (@nil N). rewrite !app_nil_r. reflexivity.
  - intros i Hi. rewrite Nat.add_0_l. rewrite (has_bytes_nth _ _ k) by (auto; lia). cbn [bind].
    f_equal. unfold st, f. cbn [inner_key outer_key].
    assert (N0 : forall c, N.lxor c (nth i k 0%N) = nth i (map (N.lxor c) k) (N.lxor c 0%N)).
    { intros c. rewrite map_nth. reflexivity. }
    rewrite !N0.
    rewrite (upd_firstn_skipn _ (repeat 0%N 64) i _ (N.lxor 0x36 0)); try (rewrite map_length; lia); auto.
    2: rewrite map_length, repeat_length; lia.
    rewrite (upd_firstn_skipn _ (repeat 0%N 64) i _ (N.lxor 0x5c 0)); try (rewrite map_length; lia); auto.
    rewrite map_length, repeat_length; lia.
Qed.

Lemma ptr_lt m p n : writable m p n -> pblk p < length m.
Proof. intros [b [H _]]. eapply nth_error_lt_some; eauto. Qed.

Section Hash.
Variable P : nat -> Prop.
Variable sha : mem -> ptr -> ptr -> N -> res mem.
Hypothesis Hsha : hash_ok P sha.

Lemma load_key_ok m key k :
  has_bytes m key k -> (Z.of_nat (length k) + 73 <= 2^31)%Z ->
  (64 < length k -> P (length k)) ->
  hmac_load_key sha m key (Z.of_nat (length k)) =
  Ret (HmacState (map (N.lxor 0x36) (hmac_key k)) (map (N.lxor 0x5c) (hmac_key k))).
Proof.
  intros Hk Hl HP. unfold hmac_load_key, alloc. cbv beta iota zeta.
  set (M := m ++ [repeat None 64]). set (lk := {| pblk := length m; poff := 0 |}).
  assert (Wl : writable M lk 64) by (apply writable_last; rewrite repeat_length; lia).
  assert (HkM : has_bytes M key k) by (apply has_bytes_alloc; auto).
  pose proof (ptr_lt _ _ _ (has_bytes_writable _ _ _ Hk)) as Hlt.
  assert (Main : forall l, length l <= 64 -> bytes_ok l ->
     hmac_key k = l ++ repeat 0%N (64 - length l) ->
     (let* m := for_n (64 - Z.to_nat (Z.of_nat (length l))) (Z.to_nat (Z.of_nat (length l)))
              (fun i m => st8 m (padd lk i) 0) (write_at M lk l) in
      for_n 64 0
       (fun i cs =>
         let* b := ld8 m (padd lk i) in
         Ret (HmacState (upd i (N.lxor 0x36 b) (inner_key cs))
                      (upd i (N.lxor 0x5c b) (outer_key cs))))
       (HmacState (repeat 0%N 64) (repeat 0%N 64))) =
     Ret (HmacState (map (N.lxor 0x36) (hmac_key k)) (map (N.lxor 0x5c) (hmac_key k)))).
  { intros l L1 L2 E. rewrite Nat2Z.id. rewrite store_zeros.
    2:{ apply (writable_le _ _ _ _ Wl). lia. }
    cbn [bind]. rewrite <- E. apply pad_loop; [apply hmac_key_length|].
    apply has_bytes_write_same.
    - rewrite hmac_key_length. auto.
    - apply hmac_key_ok. apply (has_bytes_bytes _ _ _ Hk). }
  destruct (Z.ltb_spec 64 (Z.of_nat (length k))) as [Hbig|Hsmall].
  - set (hk := {| pblk := length M; poff := 0 |}).
    replace (Z.to_N (Z.of_nat (length k))) with (N.of_nat (length k)) by lia.
    rewrite (Hsha (M ++ [repeat None 32]) hk key k); auto.
    2: apply has_bytes_alloc; auto.
    2: apply writable_last; rewrite repeat_length; lia.
    2: apply HP; lia.
    cbn [bind]. unfold hk.
    rewrite write_at_last, splice_full by (rewrite SHA256_length, repeat_length; reflexivity).
    replace (memcpy (M ++ [map Some (SHA256 k)]) lk {| pblk := length M; poff := 0 |} 32)
      with (memcpy (M ++ [map Some (SHA256 k)]) lk {| pblk := length M; poff := 0 |} (length (SHA256 k)))
      by (rewrite SHA256_length; reflexivity).
    rewrite (memcpy_write _ _ _ (SHA256 k)).
    2: apply has_bytes_last; apply SHA256_ok.
    2: rewrite SHA256_length; apply writable_alloc; apply (writable_le _ _ _ _ Wl); lia.
    2: left; simpl; unfold M; rewrite app_length; simpl; lia.
    cbn [bind]. rewrite (write_at_alloc _ _ _ 64) by auto. rewrite drop_last_app.
    assert (E32 : 32%Z = Z.of_nat (length (SHA256 k))) by (rewrite SHA256_length; reflexivity).
    rewrite E32.
    apply Main.
    + rewrite SHA256_length. lia.
    + apply SHA256_ok.
    + unfold hmac_key. destruct (Nat.leb_spec (length k) 64); [lia|]. reflexivity.
  - unfold memcpy_int. destruct (Z.ltb_spec (Z.of_nat (length k)) 0); [lia|].
    rewrite Nat2Z.id. rewrite (memcpy_write _ _ _ k); auto.
    2: apply (writable_le _ _ _ _ Wl); lia.
    2: left; simpl; lia.
    cbn [bind]. apply Main.
    + lia.
    + apply (has_bytes_bytes _ _ _ Hk).
    + unfold hmac_key. destruct (Nat.leb_spec (length k) 64); [|lia]. reflexivity.
Qed.

Lemma map_lxor_ok c k : (c < 256)%N -> bytes_ok k -> bytes_ok (map (N.lxor c) k).
Proof.
  intros Hc H. apply Forall_forall. intros x Hx. apply in_map_iff in Hx.
  destruct Hx as (y & <- & Hy). apply (lxor_lt c y 8); auto.
  exact (proj1 (Forall_forall _ _) H _ Hy).
Qed.

Definition keyed (k : list N) : hmac_state :=
  HmacState (map (N.lxor 0x36) (hmac_key k)) (map (N.lxor 0x5c) (hmac_key k)).

(** Everything before the tag is copied out. *)
Lemma generation_upto m k tag message data tl :
  bytes_ok k -> has_bytes m message data ->
  0 < length data -> (Z.of_nat (length data) + 137 <= 2^31)%Z ->
  P (64 + length data) -> P 96 ->
  exists a b c, hmac_tag_generation sha (keyed k) m tag message (N.of_nat (length data)) tl =
    (let* m := memcpy_int ((((m ++ [a]) ++ [b]) ++ [c]) ++ [map Some (HMAC k data)]) tag (Ptr (length (((m ++ [a]) ++ [b]) ++ [c])) 0) tl in
     Ret (drop_last (drop_last (drop_last (drop_last m))))).
Proof.
  intros Kok Hm H0 Hl P1 P2.
  assert (B : (Z.of_nat (length data) + 137 <= 2147483648)%Z) by exact Hl.
  unfold hmac_tag_generation.
  destruct (N.ltb_spec (N.of_nat (length data)) 1) as [|_]; [lia|].
  assert (EA : add64 (N.of_nat (length data)) 64 = N.of_nat (64 + length data)).
  { unfold add64. rewrite u64_id by (change (2^64)%N with 18446744073709551616%N; lia). lia. }
  rewrite !EA. rewrite !Nat2N.id. unfold alloc. cbv beta iota zeta.
  pose proof (hmac_key_length k) as KL. pose proof (hmac_key_ok k Kok) as KO.
  set (hk := hmac_key k) in *.
  set (ipad := map (N.lxor 0x36) hk). set (opad := map (N.lxor 0x5c) hk).
  assert (IL : length ipad = 64) by (unfold ipad; rewrite map_length; auto).
  assert (OL : length opad = 64) by (unfold opad; rewrite map_length; auto).
  assert (IO : bytes_ok ipad) by (apply map_lxor_ok; [reflexivity|auto]).
  assert (OO : bytes_ok opad) by (apply map_lxor_ok; [reflexivity|auto]).
  pose proof (has_bytes_bytes _ _ _ Hm) as DO.
  pose proof (ptr_lt _ _ _ (has_bytes_writable _ _ _ Hm)) as Mlt.
  unfold keyed at 1. cbn [inner_key outer_key]. fold hk. fold ipad.
  (* inner buffer *)
  rewrite stn_write.
  2:{ rewrite IL. apply writable_last. rewrite repeat_length. lia. }
  cbn [bind].
  rewrite (memcpy_write _ _ _ data).
  2:{ apply has_bytes_write_other.
      - rewrite IL. apply writable_last. rewrite repeat_length. lia.
      - left. simpl. lia.
      - apply has_bytes_alloc; auto. }
  2:{ apply writable_write_at.
      - rewrite IL. apply writable_last. rewrite repeat_length. lia.
      - apply writable_padd. apply writable_last. rewrite repeat_length. lia. }
  2:{ left. simpl. lia. }
  cbn [bind].
  rewrite write_at_app_n; [|auto|].
  2:{ apply writable_last. rewrite repeat_length. lia. }
  rewrite write_at_last, splice_full.
  2:{ rewrite app_length, IL, repeat_length. reflexivity. }
  set (M1 := m ++ [map Some (ipad ++ data)]).
  (* inner hash *)
  assert (LI : length (ipad ++ data) = 64 + length data) by (rewrite app_length, IL; reflexivity).
  rewrite <- LI.
  rewrite (Hsha (M1 ++ [repeat None 32]) {| pblk := length M1; poff := 0 |} {| pblk := length m; poff := 0 |} (ipad ++ data)).
  2:{ apply has_bytes_alloc. apply has_bytes_last. apply Forall_app; auto. }
  2:{ apply writable_last. rewrite repeat_length. lia. }
  2:{ rewrite LI. lia. }
  2:{ rewrite LI. auto. }
  cbn [bind]. rewrite write_at_last, splice_full by (rewrite SHA256_length, repeat_length; reflexivity).
  set (M2 := M1 ++ [map Some (SHA256 (ipad ++ data))]).
  (* outer buffer *)
  rewrite stn_write.
  2:{ rewrite repeat_length. apply writable_last. rewrite repeat_length. lia. }
  cbn [bind]. rewrite write_at_last, splice_full by (rewrite !repeat_length; reflexivity).
  set (B0 := map Some (repeat 0%N 96)).
  assert (B0L : length B0 = 96) by (unfold B0; rewrite map_length, repeat_length; reflexivity).
  unfold keyed. cbn [inner_key outer_key]. fold hk. fold opad.
  rewrite stn_write.
  2:{ apply writable_last. rewrite B0L, OL. lia. }
  cbn [bind].
  rewrite (memcpy_write_n _ _ _ (SHA256 (ipad ++ data)) 32).
  2:{ apply has_bytes_write_other.
      - apply writable_last. rewrite B0L, OL. lia.
      - left. simpl. unfold M2. rewrite app_length. simpl. lia.
      - apply has_bytes_alloc. apply has_bytes_last. apply SHA256_ok. }
  2:{ rewrite SHA256_length. reflexivity. }
  2:{ apply writable_write_at.
      - apply writable_last. rewrite B0L, OL. lia.
      - apply writable_padd. apply writable_last. rewrite B0L. lia. }
  2:{ left. simpl. unfold M2. rewrite app_length. simpl. lia. }
  cbn [bind].
  rewrite write_at_app_n; [|auto|].
  2:{ rewrite SHA256_length. apply writable_last. rewrite B0L. lia. }
  rewrite write_at_last, splice_full.
  2:{ rewrite app_length, SHA256_length, OL, B0L. reflexivity. }
  set (inner := SHA256 (ipad ++ data)).
  set (M3 := M2 ++ [map Some (opad ++ inner)]).
  (* outer hash *)
  assert (LO : length (opad ++ inner) = 96).
  { unfold inner. rewrite app_length, OL, SHA256_length. reflexivity. }
  change 96%N with (N.of_nat 96). rewrite <- LO.
  rewrite (Hsha (M3 ++ [repeat None 32]) {| pblk := length M3; poff := 0 |} {| pblk := length M2; poff := 0 |} (opad ++ inner)).
  2:{ apply has_bytes_alloc. apply has_bytes_last. apply Forall_app. split; auto. apply SHA256_ok. }
  2:{ apply writable_last. rewrite repeat_length. lia. }
  2:{ rewrite LO. discriminate. }
  2:{ rewrite LO. auto. }
  cbn [bind]. rewrite write_at_last, splice_full by (rewrite SHA256_length, repeat_length; reflexivity).
  change (SHA256 (opad ++ inner)) with (HMAC k data).
  exists (map Some (ipad ++ data)), (map Some (SHA256 (ipad ++ data))), (map Some (opad ++ inner)). reflexivity.
Qed.

Lemma generation_ok m k tag message data t :
  bytes_ok k -> has_bytes m message data -> writable m tag t -> t <= 32 ->
  0 < length data -> (Z.of_nat (length data) + 137 <= 2^31)%Z ->
  P (64 + length data) -> P 96 ->
  hmac_tag_generation sha (keyed k) m tag message (N.of_nat (length data)) (Z.of_nat t) =
  Ret (write_at m tag (firstn t (HMAC k data))).
Proof.
  intros Kok Hm Wt Ht H0 Hl P1 P2.
  destruct (generation_upto m k tag message data (Z.of_nat t) Kok Hm H0 Hl P1 P2) as (a & b & c & ->).
  pose proof (ptr_lt _ _ _ Wt) as Tlt. set (M1 := m ++ [a]). set (M2 := M1 ++ [b]). set (M3 := M2 ++ [c]).
  assert (HL : length (HMAC k data) = 32) by apply SHA256_length.
  assert (HO : bytes_ok (HMAC k data)) by apply SHA256_ok.
  set (T := HMAC k data) in *.
  (* copy out *)
  unfold memcpy_int. destruct (Z.ltb_spec (Z.of_nat t) 0); [lia|]. rewrite Nat2Z.id.
  assert (Lt : length (firstn t T) = t) by (rewrite firstn_length; lia).
  rewrite (memcpy_write_n _ _ _ (firstn t T) t).
  2:{ apply has_bytes_firstn. apply has_bytes_last. auto. }
  2: auto.
  2:{ unfold M3, M2, M1. repeat apply writable_alloc. auto. }
  2:{ left. simpl. unfold M3, M2, M1. rewrite !app_length. simpl. lia. }
  cbn [bind].
  unfold M3, M2, M1.
  rewrite (write_at_alloc _ tag _ t) by (repeat apply writable_alloc; auto). rewrite drop_last_app.
  rewrite (write_at_alloc _ tag _ t) by (repeat apply writable_alloc; auto). rewrite drop_last_app.
  rewrite (write_at_alloc _ tag _ t) by (repeat apply writable_alloc; auto). rewrite drop_last_app.
  rewrite (write_at_alloc _ tag _ t) by auto. rewrite drop_last_app. reflexivity.
Qed.

Lemma compare_tags_spec m p q a b :
  has_bytes m p a -> has_bytes m q b -> length a = length b ->
  compare_tags m p q (length a) = Ret (if list_N_eqb a b then 1%N else 0%N).
Proof.
  revert p q b. induction a as [|x a IH]; intros p q b Ha Hb L; destruct b as [|y b]; simpl in L; try lia.
  - reflexivity.
  - cbn [length compare_tags].
    rewrite (has_bytes_ld8 _ _ _ _ Ha), (has_bytes_ld8 _ _ _ _ Hb). cbn [bind].
    rewrite list_N_eqb_cons. destruct (N.eqb x y); cbn [negb andb]; auto.
    apply IH; auto.
    + apply (has_bytes_cons m p x a). auto.
    + apply (has_bytes_cons m q y b). auto.
Qed.

Lemma validation_ok m k tag message data t :
  bytes_ok k -> has_bytes m message data -> has_bytes m tag t -> length t <= 32 ->
  0 < length data -> (Z.of_nat (length data) + 137 <= 2^31)%Z ->
  P (64 + length data) -> P 96 ->
  hmac_tag_validation sha (keyed k) m tag message (N.of_nat (length data)) (Z.of_nat (length t)) =
  Ret (if list_N_eqb t (firstn (length t) (HMAC k data)) then 1%N else 0%N).
Proof.
  intros Kok Hm Ht Lt H0 Hl P1 P2. unfold hmac_tag_validation, alloc.
  destruct (Z.ltb_spec (Z.of_nat (length t)) 0); [lia|]. cbv beta iota zeta. rewrite Nat2Z.id.
  rewrite generation_ok; auto.
  2: apply has_bytes_alloc; auto.
  2: apply writable_last; rewrite repeat_length; lia.
  cbn [bind].
  assert (HL : length (firstn (length t) (HMAC k data)) = length t).
  { rewrite firstn_length. unfold HMAC. rewrite SHA256_length. lia. }
  rewrite write_at_last, splice_full by (rewrite repeat_length; auto).
  apply compare_tags_spec; auto.
  - apply has_bytes_alloc. auto.
  - apply has_bytes_last. apply Forall_firstn. apply SHA256_ok.
Qed.

End Hash.

(** Empty message: generation writes nothing, validation compares with an
    uninitialised buffer. *)
Lemma generation_empty sha cs m tag message tl :
  hmac_tag_generation sha cs m tag message 0 tl = Ret m.
Proof. reflexivity. Qed.

Lemma validation_empty_ub sha cs m tag message t x :
  has_bytes m tag (x :: t) ->
  hmac_tag_validation sha cs m tag message 0 (Z.of_nat (length (x :: t))) = UB.
Proof.
  intros H. unfold hmac_tag_validation, alloc.
  destruct (Z.ltb_spec (Z.of_nat (length (x :: t))) 0); [lia|].
  cbv beta iota zeta. rewrite Nat2Z.id, generation_empty. cbn [bind length compare_tags].
  rewrite (has_bytes_ld8 _ _ x t) by (apply has_bytes_alloc; auto). cbn [bind].
  unfold ld8 at 1. cbn [pblk poff]. rewrite nth_error_last. reflexivity.
Qed.
