(** Property C116: the time hmac_tag_validation takes gives the right tag away. *)
From Coq Require Import NArith ZArith Lia List Arith Bool.
From Verif Require Import Res Mem MemSpec ListLemmas MemLemmas Words SpecWords WordsLemmas Concrete Finite ShaSpec ShaModel ShaProofs HmacModel HmacProofs TimingSpec TimingModel HmacProps.
Import ListNotations.

(** The counted functions give the answers of the model's. *)
Lemma compare_timed_answer n : forall m p q s,
  compare_tags m p q n = (let* (a, _) := compare_tags_timed m p q n s in Ret a).
Proof.
  induction n as [|n IH]; intros m p q s; [reflexivity|]. cbn [compare_tags compare_tags_timed].
  destruct (ld8 m p) as [a| |]; cbn [bind]; try reflexivity. destruct (ld8 m q) as [b| |]; cbn [bind]; try reflexivity.
  destruct (N.eqb a b); cbn [negb]; [apply IH|reflexivity].
Qed.

Lemma timed_answer sha cs m tag message n tl :
  hmac_tag_validation sha cs m tag message n tl = (let* (a, _) := hmac_tag_validation_timed sha cs m tag message n tl in Ret a).
Proof.
  unfold hmac_tag_validation, hmac_tag_validation_timed. destruct (tl <? 0)%Z; [reflexivity|].
  destruct (alloc m (Z.to_nat tl)) as [m1 p]. destruct (hmac_tag_generation _ _ _ _ _ _ _); cbn [bind]; try reflexivity.
  apply compare_timed_answer.
Qed.

Lemma compare_timed_spec m a : forall p q b s,
  has_bytes m p a -> has_bytes m q b -> length a = length b ->
  compare_tags_timed m p q (length a) s =
  Ret (if list_N_eqb a b then (1%N, s + length a) else (0%N, s + S (matching a b))).
Proof.
  induction a as [|x a IH]; intros p q b s Ha Hb L; destruct b as [|y b]; simpl in L; try lia.
  - cbn. rewrite Nat.add_0_r. reflexivity.
  - cbn [length compare_tags_timed matching].
    rewrite (has_bytes_ld8 _ _ _ _ Ha), (has_bytes_ld8 _ _ _ _ Hb). cbn [bind].
    rewrite list_N_eqb_cons. destruct (N.eqb x y); cbn [negb andb].
    + rewrite (IH _ _ b) by ((apply (has_bytes_cons m p x a); exact Ha) || (apply (has_bytes_cons m q y b); exact Hb) || lia).
      destruct (list_N_eqb a b); do 2 f_equal; lia.
    + do 2 f_equal. lia.
Qed.

Lemma timed_ok m k tag message data t :
  bytes_ok k -> has_bytes m message data -> has_bytes m tag t -> length t <= 32 ->
  0 < length data -> (Z.of_nat (length data) + 137 <= 2^31)%Z ->
  hmac_tag_validation_timed sha256_auth (keyed k) m tag message (N.of_nat (length data)) (Z.of_nat (length t)) =
  Ret (if list_N_eqb t (firstn (length t) (HMAC k data)) then (1%N, length t)
       else (0%N, S (matching t (firstn (length t) (HMAC k data))))).
Proof.
  intros Kok Hm Ht Lt H0 Hl. unfold hmac_tag_validation_timed, alloc.
  destruct (Z.ltb_spec (Z.of_nat (length t)) 0); [lia|]. cbv beta iota zeta. rewrite Nat2Z.id.
  rewrite (generation_ok _ _ auth_hash_ok); auto.
  2: apply has_bytes_alloc; auto.
  2: apply writable_last; rewrite repeat_length; lia.
  cbn [bind].
  assert (HL : length (firstn (length t) (HMAC k data)) = length t).
  { rewrite firstn_length. unfold HMAC. rewrite SHA256_length. lia. }
  rewrite write_at_last, splice_full by (rewrite repeat_length; auto).
  rewrite (compare_timed_spec _ _ _ _ (firstn (length t) (HMAC k data))).
  - reflexivity.
  - apply has_bytes_alloc. auto.
  - apply has_bytes_last. apply Forall_firstn. apply SHA256_ok.
  - symmetry. exact HL.
Qed.

(** A wrong tag takes one comparison more than it has correct leading bytes; the
    right tag takes as many as it has bytes. *)
Theorem C116_hmac_validation_time : forall m key k tag message data t,
  has_bytes m key k -> (Z.of_nat (length k) + 73 <= 2^31)%Z ->
  has_bytes m message data -> 0 < length data -> (Z.of_nat (length data) + 137 <= 2^31)%Z ->
  has_bytes m tag t -> length t <= 32 ->
  exists cs, hmac_load_key sha256_auth m key (Z.of_nat (length k)) = Ret cs /\
    (t = firstn (length t) (HMAC k data) ->
     hmac_tag_validation_timed sha256_auth cs m tag message (N.of_nat (length data)) (Z.of_nat (length t)) = Ret (1%N, length t)) /\
    (t <> firstn (length t) (HMAC k data) ->
     hmac_tag_validation_timed sha256_auth cs m tag message (N.of_nat (length data)) (Z.of_nat (length t)) =
     Ret (0%N, S (matching t (firstn (length t) (HMAC k data))))) /\
    hmac_tag_validation sha256_auth cs m tag message (N.of_nat (length data)) (Z.of_nat (length t)) =
      (let* (a, _) := hmac_tag_validation_timed sha256_auth cs m tag message (N.of_nat (length data)) (Z.of_nat (length t)) in Ret a).
Proof.
  intros m key k tag message data t Hk Lk Hm H0 Lm Wt Ht. eexists. split; [apply (load_key_ok _ _ auth_hash_ok); auto|].
  fold (keyed k). split; [|split; [|apply timed_answer]]; rewrite timed_ok by (assumption || exact (has_bytes_bytes _ _ _ Hk));
    destruct (list_N_eqb t (firstn (length t) (HMAC k data))) eqn:E; intros Q; try reflexivity.
  - apply list_N_eqb_iff in Q. congruence.
  - apply list_N_eqb_eq in E. contradiction.
Qed.
Print Assumptions C116_hmac_validation_time.

(** ** The strategy: the bytes one after the other *)
Fixpoint try_byte (n : nat) (pre : list N) (found : list N -> strategy) (fuel : nat) (x : N) : strategy :=
  match fuel with
  | O => Name []
  | S fuel => Ask (pre ++ x :: repeat 0%N (n - length pre - 1))
      (fun ok time => if ok || (S (length pre) <? time) then found (pre ++ [x]) else try_byte n pre found fuel (x + 1)%N)
  end.
Fixpoint next_bytes (n k : nat) (pre : list N) : strategy :=
  match k with O => Name pre | S k => try_byte n pre (next_bytes n k) 256 0 end.
Definition by_time (n : nat) : strategy := next_bytes n n [].

Lemma matching_app p : forall a b, matching (p ++ a) (p ++ b) = length p + matching a b.
Proof. induction p as [|x p IH]; intros a b; [reflexivity|]. cbn [app matching length]. rewrite N.eqb_refl, IH. reflexivity. Qed.

(** The check for the right tag [T]. *)
Definition checks (n : nat) (T : list N) (o : list N -> bool * nat) : Prop :=
  forall t, length t = n -> bytes_ok t -> (t = T -> fst (o t) = true) /\ (t <> T -> fst (o t) = false /\ snd (o t) = S (matching t T)).

Lemma bytes_ok_probe pre x k : bytes_ok pre -> (x < 256)%N -> bytes_ok (pre ++ x :: repeat 0%N k).
Proof.
  intros B X. apply Forall_app. split; [exact B|]. constructor; [exact X|]. apply Forall_forall. intros z I. apply repeat_spec in I. subst z. lia.
Qed.

Lemma try_byte_ok n T o pre c rest found : checks n T o -> bytes_ok T -> length T = n -> T = pre ++ c :: rest ->
  forall fuel x, (x <= c)%N -> (c < x + N.of_nat fuel)%N ->
  exists q, q <= fuel /\ play o (try_byte n pre found fuel x) = (let (r, q') := play o (found (pre ++ [c])) in (r, q + q')).
Proof.
  intros O BT LT E. assert (Lr : length rest = n - length pre - 1) by (rewrite <- LT, E, app_length; cbn [length]; lia).
  assert (Bp : bytes_ok pre /\ (c < 256)%N).
  { unfold bytes_ok in BT. rewrite E in BT. apply Forall_app in BT as [B1 B2]. apply Forall_inv in B2. split; assumption. }
  destruct Bp as [Bp Bc]. induction fuel as [|fuel IH]; intros x X F; [lia|].
  cbn [try_byte play]. set (probe := pre ++ x :: repeat 0%N (n - length pre - 1)).
  assert (Lp : length probe = n) by (unfold probe; rewrite app_length; cbn [length]; rewrite repeat_length, <- Lr, <- LT, E, app_length; cbn [length]; lia).
  destruct (O probe Lp ltac:(apply bytes_ok_probe; [exact Bp|lia])) as [Ro Wo].
  destruct (N.eqb_spec x c) as [->|Nx].
  - assert (G : fst (o probe) || (S (length pre) <? snd (o probe)) = true).
    { destruct (list_eq_dec N.eq_dec probe T) as [Q|Q]; [rewrite (Ro Q); reflexivity|]. destruct (Wo Q) as [W1 W2]. rewrite W1, W2. cbn [orb].
      apply Nat.ltb_lt. unfold probe. rewrite E, matching_app. cbn [matching]. rewrite N.eqb_refl. lia. }
    rewrite G. exists 1. split; [lia|]. destruct (play o (found (pre ++ [c]))) as [r q']. reflexivity.
  - assert (Q : probe <> T).
    { unfold probe. rewrite E. intros Q. apply app_inv_head in Q. congruence. }
    destruct (Wo Q) as [W1 W2]. rewrite W1, W2. cbn [orb].
    replace (matching probe T) with (length pre).
    2:{ unfold probe. rewrite E, matching_app. cbn [matching]. destruct (N.eqb_spec x c); [contradiction|lia]. }
    rewrite Nat.ltb_irrefl. destruct (IH (x + 1)%N ltac:(lia) ltac:(lia)) as (q & Hq & P). rewrite P.
    exists (S q). split; [lia|]. destruct (play o (found (pre ++ [c]))) as [r q']. reflexivity.
Qed.

Lemma next_bytes_ok n T o : checks n T o -> bytes_ok T -> length T = n ->
  forall k pre rest, T = pre ++ rest -> length rest = k ->
  exists q, q <= 256 * k /\ play o (next_bytes n k pre) = (T, q).
Proof.
  intros O BT LT. induction k as [|k IH]; intros pre rest E L.
  - destruct rest; [|discriminate]. rewrite app_nil_r in E. subst pre. exists 0. split; [lia|reflexivity].
  - destruct rest as [|c rest]; [discriminate|]. cbn [next_bytes].
    assert (Bc : (c < 256)%N).
    { unfold bytes_ok in BT. rewrite E in BT. apply Forall_app in BT as [_ B2]. exact (Forall_inv B2). }
    destruct (try_byte_ok n T o pre c rest (next_bytes n k) O BT LT E 256 0 ltac:(lia) ltac:(lia)) as (q & Hq & P).
    destruct (IH (pre ++ [c]) rest) as (q2 & Hq2 & P2); [rewrite <- app_assoc; exact E|cbn [length] in L; lia|].
    rewrite P, P2. exists (q + q2). split; [lia|reflexivity].
Qed.

(** Refuted: a fixed strategy, which knows neither key nor message, finds the
    right tag of [n] bytes for any key and message with at most 256 n questions to
    a receiver whose time it sees.  [o] is the receiver: for every tag asked, some
    memory in which it validates that tag for the message. *)
Theorem C116_hmac_time_hides_tag_refuted : forall n, n <= 32 -> exists g : strategy,
  forall mk key k data cs (o : list N -> bool * nat),
  has_bytes mk key k -> (Z.of_nat (length k) + 73 <= 2^31)%Z -> 0 < length data -> (Z.of_nat (length data) + 137 <= 2^31)%Z ->
  hmac_load_key sha256_auth mk key (Z.of_nat (length k)) = Ret cs ->
  (forall t, length t = n -> bytes_ok t -> exists m tag message, has_bytes m tag t /\ has_bytes m message data /\
     hmac_tag_validation_timed sha256_auth cs m tag message (N.of_nat (length data)) (Z.of_nat n) =
       Ret (if fst (o t) then 1%N else 0%N, snd (o t))) ->
  snd (play o g) <= 256 * n /\ length (fst (play o g)) = n /\
  forall m tag message, has_bytes m tag (fst (play o g)) -> has_bytes m message data ->
    hmac_tag_validation sha256_auth cs m tag message (N.of_nat (length data)) (Z.of_nat n) = Ret 1%N.
Proof.
  intros n Hn. exists (by_time n). intros mk key k data cs o Hk Lk L0 Ld E O.
  pose proof (has_bytes_bytes _ _ _ Hk) as Bk. 
  assert (K : hmac_load_key sha256_auth mk key (Z.of_nat (length k)) = Ret (keyed k)) by (apply (load_key_ok _ _ auth_hash_ok); auto).
  rewrite K in E. apply Ret_inj in E. subst cs. set (T := firstn n (HMAC k data)).
  assert (LT : length T = n) by (unfold T; rewrite firstn_length; unfold HMAC; rewrite SHA256_length; lia).
  assert (BT : bytes_ok T) by (apply Forall_firstn, SHA256_ok).
  assert (C : checks n T o).
  { intros t L B. destruct (O t L B) as (m & tag & message & Ht & Hm & V). rewrite <- L in V.
    rewrite timed_ok in V by (assumption || lia). rewrite L in V. fold T in V.
    destruct (o t) as [ok time]. cbn [fst snd] in *. split; intros Q.
    - rewrite (proj2 (list_N_eqb_iff t T) Q) in V. destruct ok; [reflexivity|]. apply Ret_inj in V. discriminate V.
    - destruct (list_N_eqb t T) eqn:Z; [apply list_N_eqb_eq in Z; contradiction|]. apply Ret_inj in V. destruct ok; [discriminate V|].
      split; [reflexivity|congruence]. }
  destruct (next_bytes_ok n T o C BT LT n [] T eq_refl LT) as (q & Hq & P). unfold by_time. rewrite P. cbn [fst snd].
  split; [exact Hq|]. split; [exact LT|]. intros m tag message Ht Hm. rewrite <- LT.
  rewrite (validation_ok _ _ auth_hash_ok) by (assumption || lia || exact I).
  rewrite LT. fold T. rewrite (proj2 (list_N_eqb_iff T T) eq_refl). reflexivity.
Qed.
Print Assumptions C116_hmac_time_hides_tag_refuted.

(** A receiver with the key [1; 2; 3] for the message [5; 6] and tags of two
    bytes: each question is a validation in a memory of its own.  The strategy
    names the right tag. *)
Definition ex_tag : list N := Eval vm_compute in firstn 2 (HMAC [1; 2; 3] [5; 6])%N.
Lemma ex_tag_right : firstn 2 (HMAC [1; 2; 3] [5; 6])%N = ex_tag.
Proof. vm_compute. reflexivity. Qed.
Definition ex_receiver (t : list N) : bool * nat :=
  if list_N_eqb t ex_tag then (true, 2) else (false, S (matching t ex_tag)).
Example C116_instance :
  has_bytes [holding [1; 2; 3]%N] (Ptr 0 0) [1; 2; 3]%N /\
  hmac_load_key sha256_auth [holding [1; 2; 3]%N] (Ptr 0 0) 3 = Ret (keyed [1; 2; 3]%N) /\
  (forall t, length t = 2 -> bytes_ok t -> exists m tag message, has_bytes m tag t /\ has_bytes m message [5; 6]%N /\
     hmac_tag_validation_timed sha256_auth (keyed [1; 2; 3]%N) m tag message 2 2 =
       Ret (if fst (ex_receiver t) then 1%N else 0%N, snd (ex_receiver t))) /\
  fst (play ex_receiver (by_time 2)) = firstn 2 (HMAC [1; 2; 3] [5; 6])%N.
Proof.
  split; [conc_has_bytes|]. split; [vm_compute; reflexivity|]. split.
  - intros t L B. exists [holding [5; 6]%N; holding t], (Ptr 1 0), (Ptr 0 0).
    assert (Ht : has_bytes [holding [5; 6]%N; holding t] (Ptr 1 0) t) by (apply (has_bytes_last [holding [5; 6]%N] t B)).
    assert (Hm : has_bytes [holding [5; 6]%N; holding t] (Ptr 0 0) [5; 6]%N) by (apply (has_bytes_alloc [holding [5; 6]%N]); conc_has_bytes).
    split; [exact Ht|]. split; [exact Hm|].
    pose proof (timed_ok _ [1; 2; 3]%N _ _ _ _ ltac:(repeat constructor) Hm Ht ltac:(lia) ltac:(cbn; lia) ltac:(cbn; lia)) as V.
    rewrite L in V. change (N.of_nat (length [5; 6]%N)) with 2%N in V. change (Z.of_nat 2) with 2%Z in V. rewrite V.
    rewrite ex_tag_right. unfold ex_receiver. destruct (list_N_eqb t ex_tag); reflexivity.
  - rewrite ex_tag_right. vm_compute. reflexivity.
Qed.
