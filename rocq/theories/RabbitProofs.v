(** Rabbit: proofs. *)
From Coq Require Import NArith ZArith Arith List Lia Bool ZifyN ZifyNat.
From Verif Require Import Res Words Mem MemSpec ListLemmas MemLemmas SpecWords WordsLemmas
  XorProofs ShaProofs SyncSpec SyncProofs RabbitModel.
From Verif Require RabbitSpec.
Import ListNotations.
Local Open Scope nat_scope.

(** *** Packets, for an arbitrary square function *)

Section Packets.
Variable sq : N -> res N.

Lemma extract_words cs ks cs' : rabbit_extract_keystream sq cs = Ret (ks, cs') ->
  exists a b c d, ks = [a; b; c; d].
Proof.
  unfold rabbit_extract_keystream. destruct (rabbit_step sq cs) as [s| |]; cbn [bind]; try discriminate.
  intros E. apply Ret_pair in E. destruct E as [E _]. rewrite <- E. do 4 eexists. reflexivity.
Qed.

(** [n] blocks of key stream. *)
Fixpoint gen (n : nat) (cs : rabbit_state) : res (list N * rabbit_state) :=
  match n with
  | O => Ret ([], cs)
  | S n' => let* (ks, cs) := rabbit_extract_keystream sq cs in
            let* (r, cs) := gen n' cs in Ret (ks ++ r, cs)
  end.

Lemma gen_length n : forall cs ks cs', gen n cs = Ret (ks, cs') -> length ks = 4 * n.
Proof.
  induction n as [|n IH]; intros cs ks cs' E; cbn [gen] in E.
  - injection E as <- _. reflexivity.
  - destruct (rabbit_extract_keystream sq cs) as [[w cs1]| |] eqn:X; cbn [bind] in E; try discriminate.
    destruct (gen n cs1) as [[r cs2]| |] eqn:G; cbn [bind] in E; try discriminate.
    injection E as <- _. rewrite app_length, (IH _ _ _ G).
    destruct (extract_words _ _ _ X) as (a & b & c & d & ->). simpl. lia.
Qed.

Lemma gen_app n k : forall cs, gen (n + k) cs =
  let* (a, cs1) := gen n cs in let* (b, cs2) := gen k cs1 in Ret (a ++ b, cs2).
Proof.
  induction n as [|n IH]; intros cs.
  - cbn [gen Nat.add bind]. destruct (gen k cs) as [[b c]| |]; reflexivity.
  - cbn [gen Nat.add]. destruct (rabbit_extract_keystream sq cs) as [[w cs1]| |]; cbn [bind]; auto.
    rewrite IH. destruct (gen n cs1) as [[a cs2]| |]; cbn [bind]; auto.
    destruct (gen k cs2) as [[b cs3]| |]; cbn [bind]; auto. rewrite app_assoc. reflexivity.
Qed.

Lemma xor16 m out inp d a b c e :
  has_bytes m inp d -> length d = 16 -> writable m out 16 -> same_or_disjoint out inp 16 ->
  (let* m := xor_word m out inp a in
   let* m := xor_word m (padd out 4) (padd inp 4) b in
   let* m := xor_word m (padd out 8) (padd inp 8) c in
   xor_word m (padd out 12) (padd inp 12) e) =
  Ret (write_at m out (xor_bytes d (le_bytes [a; b; c; e]))).
Proof.
  intros Hd L Hout Hov. unfold xor_word.
  set (ks := le_bytes [a; b; c; e]).
  assert (Lk : length ks = 16) by (unfold ks; rewrite le_bytes_length; reflexivity).
  rewrite <- L in Hout, Hov.
  assert (Hks : length d <= length ks) by lia.
  assert (W : forall i w, nth_error [a; b; c; e] i = Some w -> firstn 4 (skipn (4 * i) ks) = bytes_of_le32 w).
  { intros i w Hw. apply le_bytes_word. exact Hw. }
  pose proof (xor32_step m out inp d ks Hd Hout Hov Hks 0 a ltac:(lia) (W 0 a eq_refl)) as S0.
  rewrite xst_0, !padd_0 in S0. rewrite S0. cbn [bind Nat.add].
  rewrite (xor32_step m out inp d ks Hd Hout Hov Hks 4 b ltac:(lia) (W 1 b eq_refl)). cbn [bind Nat.add].
  rewrite (xor32_step m out inp d ks Hd Hout Hov Hks 8 c ltac:(lia) (W 2 c eq_refl)). cbn [bind Nat.add].
  rewrite (xor32_step m out inp d ks Hd Hout Hov Hks 12 e ltac:(lia) (W 3 e eq_refl)).
  f_equal. apply xst_all. lia.
Qed.

Notation loop := (fun fuel s => while fuel
      (fun '(cs, m, output, input, size_left) => (15 <? size_left)%N)
      (fun '(cs, m, output, input, size_left) =>
         let* (ks, cs) := rabbit_extract_keystream sq cs in
         let* m := xor_word m output input (el ks 0) in
         let* m := xor_word m (padd output 4) (padd input 4) (el ks 1) in
         let* m := xor_word m (padd output 8) (padd input 8) (el ks 2) in
         let* m := xor_word m (padd output 12) (padd input 12) (el ks 3) in
         Ret (cs, m, padd output 16, padd input 16, (size_left - 16)%N)) s) (only parsing).

Lemma loop_ok nb r : r < 16 -> forall data cs m out inp fuel,
  length data = 16 * nb + r -> nb < fuel ->
  has_bytes m inp data -> writable m out (length data) -> same_or_disjoint out inp (length data) ->
  loop fuel (cs, m, out, inp, N.of_nat (length data)) =
  let* (ks, cs') := gen nb cs in
  Ret (cs', write_at m out (xor_bytes (firstn (16 * nb) data) (le_bytes ks)),
       padd out (16 * nb), padd inp (16 * nb), N.of_nat r).
Proof.
  intros Hr. induction nb as [|nb IH]; intros data cs m out inp fuel L Hf Hin Hout Hov.
  - destruct fuel as [|fuel]; [lia|]. cbn [while gen bind].
    destruct (N.ltb_spec 15 (N.of_nat (length data))); [lia|].
    cbn [Nat.mul firstn xor_bytes combine map]. rewrite write_at_nil, !padd_0.
    do 3 f_equal. lia.
  - destruct fuel as [|fuel]; [lia|]. cbn [while gen].
    destruct (N.ltb_spec 15 (N.of_nat (length data))); [|lia].
    destruct (rabbit_extract_keystream sq cs) as [[w cs1]| |] eqn:X; cbn [bind]; auto.
    destruct (extract_words _ _ _ X) as (a & b & c & e & ->). unfold el. cbn [nth].
    set (d := firstn 16 data). set (rest := skipn 16 data).
    assert (Ld : length d = 16) by (unfold d; rewrite firstn_length; lia).
    assert (Lr : length rest = 16 * nb + r) by (unfold rest; rewrite skipn_length; lia).
    assert (Ed : data = d ++ rest) by (symmetry; apply firstn_skipn).
    assert (Hd : has_bytes m inp d) by (apply has_bytes_firstn; exact Hin).
    assert (Hrest : has_bytes m (padd inp 16) rest) by (apply has_bytes_skipn; [lia|exact Hin]).
    assert (W16 : writable m out 16) by (apply (writable_le _ _ _ _ Hout); lia).
    assert (S16 : same_or_disjoint out inp 16).
    { destruct Hov as [->|D]; [left; reflexivity|right]. unfold disjoint in *. lia. }
    pose proof (xor16 m out inp d a b c e Hd Ld W16 S16) as E.
    set (x := xor_bytes d (le_bytes [a; b; c; e])) in *.
    assert (Lx : length x = 16) by (unfold x; rewrite xor_bytes_length_min, le_bytes_length; simpl; lia).
    destruct (xor_word m out inp a) as [m1| |]; cbn [bind] in *; try discriminate.
    destruct (xor_word m1 (padd out 4) (padd inp 4) b) as [m2| |]; cbn [bind] in *; try discriminate.
    destruct (xor_word m2 (padd out 8) (padd inp 8) c) as [m3| |]; cbn [bind] in *; try discriminate.
    rewrite E. cbn [bind].
    replace (N.of_nat (length data) - 16)%N with (N.of_nat (length rest)) by lia.
    rewrite (IH rest cs1).
    + destruct (gen nb cs1) as [[ks cs2]| |]; cbn [bind]; auto.
      rewrite !padd_padd. do 2 f_equal.
      replace (16 * S nb) with (16 + 16 * nb) by lia.
      f_equal. f_equal. f_equal.
      rewrite write_at_app_n.
      * assert (Ef : firstn (16 + 16 * nb) data = d ++ firstn (16 * nb) rest).
        { rewrite Ed, firstn_app, Ld. replace (16 + 16 * nb - 16) with (16 * nb) by lia.
          rewrite firstn_all2 by lia. reflexivity. }
        rewrite Ef. f_equal.
        change (a :: b :: c :: e :: ks) with ([a; b; c; e] ++ ks). rewrite le_bytes_app.
        rewrite xor_bytes_app; [reflexivity|]. rewrite le_bytes_length. simpl. lia.
      * lia.
      * apply (writable_le _ _ _ _ Hout). rewrite xor_bytes_length_min, firstn_length. lia.
    + exact Lr.
    + lia.
    + apply has_bytes_write_other; auto.
      * rewrite Lx. exact W16.
      * rewrite Lx. unfold disjoint. rewrite pblk_padd, poff_padd.
        destruct Hov as [->|D]; [lia|]. unfold disjoint in D. lia.
    + apply writable_write_at; [rewrite Lx; exact W16|]. apply writable_padd.
      apply (writable_le _ _ _ _ Hout). lia.
    + destruct Hov as [->|D]; [left; reflexivity|right]. unfold disjoint in *.
      rewrite !pblk_padd, !poff_padd. lia.
Qed.

Definition nblocks (n : nat) : nat := (n + 15) / 16.

Lemma tail_ok m out inp d a b c e : length d < 16 ->
  has_bytes m inp d -> writable m out (length d) -> same_or_disjoint out inp (length d) ->
  for_n (length d) 0
    (fun i m => let* w := ks_word [a; b; c; e] (i / 4) in
                let* x := ld8 m (padd inp i) in
                st8 m (padd out i) (N.lxor x (byte_of w (N.of_nat (i mod 4))))) m =
  Ret (write_at m out (xor_bytes d (le_bytes [a; b; c; e]))).
Proof.
  intros L Hin Hout Hov. set (ks := [a; b; c; e]).
  assert (Hks : length d <= length (le_bytes ks)) by (rewrite le_bytes_length; simpl; lia).
  rewrite <- (xst_0 m out d (le_bytes ks)) at 1.
  rewrite (for_n_steps _ (xst m out d (le_bytes ks))).
  - f_equal. apply xst_all. lia.
  - intros i Hi. cbn [Nat.add]. unfold ks_word.
    assert (Hq : i / 4 < 4) by lia.
    assert (En : nth_error ks (i / 4) = Some (nth (i / 4) ks 0%N)) by (apply nth_error_nth'; exact Hq).
    rewrite En. cbn [bind]. rewrite <- (Nat.add_1_r i) at 1.
    apply xor8_step; auto; [lia|].
    rewrite <- le_bytes_nth by (first [exact Hq | lia]). f_equal. lia.
Qed.

Lemma process_ok cs m out inp data :
  has_bytes m inp data -> writable m out (length data) -> same_or_disjoint out inp (length data) ->
  rabbit_process_packet sq cs m out inp (N.of_nat (length data)) =
  let* (ks, cs') := gen (nblocks (length data)) cs in
  Ret (cs', write_at m out (xor_bytes data (le_bytes ks))).
Proof.
  intros Hin Hout Hov. set (n := length data) in *. unfold rabbit_process_packet.
  set (nb := n / 16). set (r := n mod 16).
  assert (Hn : n = 16 * nb + r) by (unfold nb, r; lia).
  assert (Hr : r < 16) by (unfold r; lia).
  unfold n at 2. rewrite (loop_ok nb r); auto; [|lia]. clearbody nb r.
  destruct (Nat.eq_dec r 0) as [->|Hr0].
  - replace (nblocks n) with nb by (unfold nblocks; lia).
    destruct (gen nb cs) as [[ks cs1]| |]; cbn [bind]; auto.
    destruct (N.ltb_spec 0 (N.of_nat 0)); [lia|].
    rewrite firstn_all2 by (fold n; lia). reflexivity.
  - replace (nblocks n) with (nb + 1) by (unfold nblocks; lia).
    rewrite gen_app. destruct (gen nb cs) as [[ks cs1]| |] eqn:G; cbn [bind]; auto.
    destruct (N.ltb_spec 0 (N.of_nat r)); [|lia]. cbn [gen].
    destruct (rabbit_extract_keystream sq cs1) as [[w cs2]| |] eqn:X; cbn [bind]; auto.
    destruct (extract_words _ _ _ X) as (a & b & c & e & ->).
    assert (Lk : length ks = 4 * nb) by (eapply gen_length; exact G).
    set (d := firstn (16 * nb) data). set (rest := skipn (16 * nb) data).
    assert (Ed : data = d ++ rest) by (symmetry; apply firstn_skipn).
    assert (Ld : length d = 16 * nb) by (unfold d; rewrite firstn_length; fold n; lia).
    assert (Lr : length rest = r) by (unfold rest; rewrite skipn_length; fold n; lia).
    set (x := xor_bytes d (le_bytes ks)).
    assert (Lx : length x = 16 * nb) by (unfold x; rewrite xor_bytes_length_min, le_bytes_length; lia).
    assert (Wx : writable m out (length x)) by (apply (writable_le _ _ _ _ Hout); lia).
    rewrite Nat2N.id, <- Lr, (tail_ok (write_at m out x) (padd out (16 * nb)) (padd inp (16 * nb)) rest).
    + cbn [bind]. rewrite app_nil_r. do 2 f_equal. rewrite write_at_app_n.
      * f_equal. rewrite Ed, le_bytes_app, xor_bytes_app; [reflexivity|].
        rewrite le_bytes_length. lia.
      * lia.
      * apply (writable_le _ _ _ _ Hout). rewrite xor_bytes_length_min. lia.
    + lia.
    + apply has_bytes_write_other; auto.
      * rewrite Lx. unfold disjoint. rewrite pblk_padd, poff_padd.
        destruct Hov as [->|D]; [lia|]. unfold disjoint in D. lia.
      * apply has_bytes_skipn; [fold n; lia|exact Hin].
    + apply writable_write_at; auto. apply writable_padd. apply (writable_le _ _ _ _ Hout). lia.
    + destruct Hov as [->|D]; [left; reflexivity|right]. unfold disjoint in *.
      rewrite !pblk_padd, !poff_padd. lia.
Qed.

Definition pgen (cs : rabbit_state) (n : nat) : res (list N * rabbit_state) :=
  let* (ks, cs') := gen (nblocks n) cs in Ret (le_bytes ks, cs').

Lemma process_pgen cs m out inp data :
  has_bytes m inp data -> writable m out (length data) -> same_or_disjoint out inp (length data) ->
  rabbit_process_packet sq cs m out inp (N.of_nat (length data)) =
  let* (ks, cs') := pgen cs (length data) in Ret (cs', write_at m out (xor_bytes data ks)).
Proof.
  intros Hin Hout Hov. rewrite process_ok by auto. unfold pgen.
  destruct (gen (nblocks (length data)) cs) as [[ks cs1]| |]; reflexivity.
Qed.

Lemma pgen_length cs n ks cs' : pgen cs n = Ret (ks, cs') -> n <= length ks.
Proof.
  unfold pgen. destruct (gen (nblocks n) cs) as [[w cs1]| |] eqn:G; cbn [bind]; try discriminate.
  intros E. apply Ret_pair in E. destruct E as [<- _].
  rewrite le_bytes_length, (gen_length _ _ _ _ G). unfold nblocks. lia.
Qed.

Lemma pgen_app cs n k : n mod 16 = 0 -> pgen cs (n + k) =
  let* (a, cs1) := pgen cs n in let* (b, cs2) := pgen cs1 k in Ret (a ++ b, cs2).
Proof.
  intros H. unfold pgen. replace (nblocks (n + k)) with (nblocks n + nblocks k) by (unfold nblocks; lia).
  rewrite gen_app. destruct (gen (nblocks n) cs) as [[a cs1]| |]; cbn [bind]; auto.
  destruct (gen (nblocks k) cs1) as [[b cs2]| |]; cbn [bind]; auto. rewrite le_bytes_app. reflexivity.
Qed.

Lemma pgen_exact cs n ks cs' : n mod 16 = 0 -> pgen cs n = Ret (ks, cs') -> length ks = n.
Proof.
  unfold pgen. destruct (gen (nblocks n) cs) as [[w cs1]| |] eqn:G; cbn [bind]; try discriminate.
  intros H E. apply Ret_pair in E. destruct E as [<- _].
  rewrite le_bytes_length, (gen_length _ _ _ _ G). unfold nblocks. lia.
Qed.
End Packets.

(** *** Squares *)

Definition sq_ok (sq : N -> res N) : Prop :=
  forall s, (s < 2^32)%N -> sq s = UB \/ sq s = Ret (s * s)%N.

Lemma square_lt s : (s < 2^32)%N -> (s * s < 2^64)%N.
Proof. intros H. change (2^64)%N with (2^32 * 2^32)%N. apply N.mul_lt_mono; exact H. Qed.

Lemma strict_sq_ok : sq_ok strict_sq.
Proof. intros s _. unfold strict_sq. destruct (N.ltb _ _); auto. Qed.

Lemma wrap_sq_spec s : (s < 2^32)%N -> wrap_sq s = Ret (s * s)%N.
Proof. intros H. unfold wrap_sq. rewrite u64_id; auto. apply square_lt. exact H. Qed.

Lemma wrap_sq_ok : sq_ok wrap_sq.
Proof. intros s H. right. apply wrap_sq_spec. exact H. Qed.

Lemma word_mod x : N.modulo x WORDSIZE = (x mod 2^32)%N.
Proof. reflexivity. Qed.

Lemma g_arg u v : N.modulo (add32 u v) WORDSIZE = ((u + v) mod 2^32)%N.
Proof. rewrite word_mod, add32_spec. unfold add_w32. apply N.mod_mod. discriminate. Qed.

Lemma land_ones32 x : N.land x 0xffffffff = (x mod 2^32)%N.
Proof. change (N.land x 0xffffffff) with (u32 x). apply u32_mod. Qed.

Lemma halves32 x : N.lxor (u32 (N.land x 0xffffffff)) (u32 (N.land (N.shiftr x 32) 0xffffffff)) =
  N.lxor (RabbitSpec.bits x 0 32) (RabbitSpec.bits x 32 32).
Proof.
  unfold RabbitSpec.bits. rewrite !land_ones32, !u32_mod, N.shiftr_div_pow2, !N.mod_mod by discriminate.
  rewrite N.pow_0_r, N.div_1_r. reflexivity.
Qed.

Lemma g_ok sq u v : sq_ok sq -> g sq u v = UB \/ g sq u v = Ret (RabbitSpec.gfun u v).
Proof.
  intros H. unfold g. rewrite g_arg. unfold RabbitSpec.gfun, RabbitSpec.square.
  set (s := ((u + v) mod 2^32)%N).
  destruct (H s) as [E|E]; [apply N.mod_lt; discriminate|left|right]; rewrite E; cbn [bind]; auto.
  f_equal. apply halves32.
Qed.

Lemma g_wrap u v : g wrap_sq u v = Ret (RabbitSpec.gfun u v).
Proof.
  unfold g. rewrite g_arg, wrap_sq_spec by (apply N.mod_lt; discriminate). cbn [bind].
  f_equal. apply halves32.
Qed.

Lemma g_strict u v : g strict_sq u v =
  if (RabbitSpec.square u v <? 2^63)%N then Ret (RabbitSpec.gfun u v) else UB.
Proof.
  unfold g. rewrite g_arg. unfold strict_sq, RabbitSpec.gfun, RabbitSpec.square.
  set (s := ((u + v) mod 2^32)%N). change 0x8000000000000000%N with (2^63)%N.
  destruct (s * s <? 2^63)%N; cbn [bind]; auto. f_equal. apply halves32.
Qed.

Lemma gfun_lt u v : (RabbitSpec.gfun u v < 2^32)%N.
Proof. unfold RabbitSpec.gfun, RabbitSpec.bits. apply lxor_lt; apply N.mod_lt; discriminate. Qed.

(** *** One iteration *)

Definition view (cs : rabbit_state) : RabbitSpec.rstate := RabbitSpec.RState (X cs) (C cs) (carry cs).

Definition cs_ok (cs : rabbit_state) : Prop :=
  length (C cs) = 8 /\ words_ok (C cs) /\ (carry cs <= 1)%N.

Lemma collect {S} (f : nat -> res S) (h : nat -> S) n : forall i acc,
  (forall j, i <= j < i + n -> f j = UB \/ f j = Ret (h j)) ->
  for_n n i (fun j G => let* r := f j in Ret (G ++ [r])) acc = UB \/
  for_n n i (fun j G => let* r := f j in Ret (G ++ [r])) acc = Ret (acc ++ map h (seq i n)).
Proof.
  induction n as [|n IH]; intros i acc H.
  - right. cbn. rewrite app_nil_r. reflexivity.
  - cbn [for_n seq map]. destruct (H i ltac:(lia)) as [E|E]; rewrite E; cbn [bind]; [left; reflexivity|].
    destruct (IH (Datatypes.S i) (acc ++ [h i])) as [E'|E'].
    + intros j Hj. apply H. lia.
    + left. exact E'.
    + right. rewrite E', <- app_assoc. reflexivity.
Qed.

Lemma collect_ret {S} (f : nat -> res S) (h : nat -> S) n : forall i acc,
  (forall j, i <= j < i + n -> f j = Ret (h j)) ->
  for_n n i (fun j G => let* r := f j in Ret (G ++ [r])) acc = Ret (acc ++ map h (seq i n)).
Proof.
  induction n as [|n IH]; intros i acc H.
  - cbn. rewrite app_nil_r. reflexivity.
  - cbn [for_n seq map]. rewrite (H i) by lia. cbn [bind].
    rewrite (IH (Datatypes.S i) (acc ++ [h i])), <- app_assoc; [reflexivity|].
    intros j Hj. apply H. lia.
Qed.

Lemma collect_ub {S} (f : nat -> res S) (h : nat -> S) n : forall i acc,
  (forall j, i <= j < i + n -> f j = UB \/ f j = Ret (h j)) ->
  (exists j, i <= j < i + n /\ f j = UB) ->
  for_n n i (fun j G => let* r := f j in Ret (G ++ [r])) acc = UB.
Proof.
  induction n as [|n IH]; intros i acc H (j & Hj & E); [lia|].
  cbn [for_n]. destruct (H i ltac:(lia)) as [Ei|Ei]; rewrite Ei; cbn [bind]; [reflexivity|].
  apply IH.
  - intros k Hk. apply H. lia.
  - exists j. split; [|exact E]. destruct (Nat.eq_dec j i) as [->|]; [congruence|lia].
Qed.

Definition pnext (cs : rabbit_state) : rabbit_state :=
  Rabbit (MASTER_X cs) (MASTER_C cs) (RabbitSpec.sX (RabbitSpec.next_state (view cs))) (C cs) (carry cs).
Definition pstep (cs : rabbit_state) : rabbit_state := pnext (rabbit_counter cs).

Definition gvals (cs : rabbit_state) : list N :=
  map (fun j => RabbitSpec.gfun (el (X cs) j) (el (C cs) j)) (seq 0 8).

Lemma rotl_spec x n : (x < 2^32)%N -> (n < 32)%N -> ROTL_32 x n = rol_w32 n x.
Proof.
  intros H Hn. unfold ROTL_32. rewrite rotr32_spec by lia. unfold ror_w32. f_equal. lia.
Qed.

Lemma next_words cs :
  (let G j := el (gvals cs) j in
   [ N.modulo (add32 (add32 (G 0) (ROTL_32 (G 7) 16)) (ROTL_32 (G 6) 16)) WORDSIZE;
    N.modulo (add32 (add32 (G 1) (ROTL_32 (G 0) 8)) (G 7)) WORDSIZE;
    N.modulo (add32 (add32 (G 2) (ROTL_32 (G 1) 16)) (ROTL_32 (G 0) 16)) WORDSIZE;
    N.modulo (add32 (add32 (G 3) (ROTL_32 (G 2) 8)) (G 1)) WORDSIZE;
    N.modulo (add32 (add32 (G 4) (ROTL_32 (G 3) 16)) (ROTL_32 (G 2) 16)) WORDSIZE;
    N.modulo (add32 (add32 (G 5) (ROTL_32 (G 4) 8)) (G 3)) WORDSIZE;
    N.modulo (add32 (add32 (G 6) (ROTL_32 (G 5) 16)) (ROTL_32 (G 4) 16)) WORDSIZE;
    N.modulo (add32 (add32 (G 7) (ROTL_32 (G 6) 8)) (G 5)) WORDSIZE ]) =
  RabbitSpec.sX (RabbitSpec.next_state (view cs)).
Proof.
  assert (M : forall x y, N.modulo (add32 x y) WORDSIZE = add_w32 x y).
  { intros x y. rewrite add32_spec, word_mod. apply N.mod_small. apply add_w32_lt. }
  cbv zeta. rewrite !M, !add32_spec.
  assert (Gl : forall j, (el (gvals cs) j < 2^32)%N).
  { intros j. unfold el, gvals. destruct (Nat.lt_ge_cases j 8) as [Hj|Hj].
    - rewrite (nth_indep _ 0%N (RabbitSpec.gfun (el (X cs) 8) (el (C cs) 8))) by (rewrite map_length, seq_length; lia).
      rewrite (map_nth (fun j => RabbitSpec.gfun (el (X cs) j) (el (C cs) j))). apply gfun_lt.
    - rewrite nth_overflow by (rewrite map_length, seq_length; lia). reflexivity. }
  rewrite !rotl_spec by (first [apply Gl|reflexivity]).
  assert (Ge : forall j, j < 8 -> el (gvals cs) j = RabbitSpec.gfun (RabbitSpec.at8 (X cs) j) (RabbitSpec.at8 (C cs) j)).
  { intros j Hj. unfold RabbitSpec.at8. rewrite Nat.mod_small by exact Hj. unfold el at 1, gvals.
    do 8 (destruct j as [|j]; [reflexivity|]). lia. }
  rewrite !Ge by lia. reflexivity.
Qed.

Section Square.
Context (sq : N -> res N) (Hsq : sq_ok sq).

Lemma next_state_ok cs : rabbit_next_state sq cs = UB \/ rabbit_next_state sq cs = Ret (pnext cs).
Proof using Hsq.
  unfold rabbit_next_state.
  destruct (collect (fun j => g sq (el (X cs) j) (el (C cs) j))
     (fun j => RabbitSpec.gfun (el (X cs) j) (el (C cs) j)) 8 0 [])
    as [E|E]; try (rewrite E; cbn [bind]).
  - intros j _. apply g_ok. exact Hsq.
  - left. reflexivity.
  - right. f_equal. unfold pnext. f_equal. exact (next_words cs).
Qed.

Lemma step_ok cs : rabbit_step sq cs = UB \/ rabbit_step sq cs = Ret (pstep cs).
Proof using Hsq. apply next_state_ok. Qed.
End Square.

Lemma step_wrap cs : rabbit_step wrap_sq cs = Ret (pstep cs).
Proof.
  unfold rabbit_step, rabbit_next_state.
  rewrite (collect_ret (fun j => g wrap_sq (el (X (rabbit_counter cs)) j) (el (C (rabbit_counter cs)) j))
     (fun j => RabbitSpec.gfun (el (X (rabbit_counter cs)) j) (el (C (rabbit_counter cs)) j)) 8 0 []).
  - cbn [bind]. f_equal. unfold pstep, pnext. f_equal. exact (next_words (rabbit_counter cs)).
  - intros j _. apply g_wrap.
Qed.

Definition overflows (cs : rabbit_state) : Prop :=
  exists j, j < 8 /\ (2^63 <= RabbitSpec.square (el (X cs) j) (el (C (rabbit_counter cs)) j))%N.

Lemma counter_X cs : X (rabbit_counter cs) = X cs.
Proof. unfold rabbit_counter. destruct (iter_n 8 0 _ _). reflexivity. Qed.

Lemma step_strict cs : rabbit_step strict_sq cs = UB <-> overflows cs.
Proof.
  unfold overflows. rewrite <- counter_X. set (c := rabbit_counter cs).
  unfold rabbit_step. fold c. split.
  - intros E. unfold rabbit_next_state in E.
    destruct (existsb (fun j => (2^63 <=? RabbitSpec.square (el (X c) j) (el (C c) j))%N) (seq 0 8)) eqn:B.
    + apply existsb_exists in B. destruct B as (j & Hj & B). apply in_seq in Hj. exists j.
      apply N.leb_le in B. split; [lia|exact B].
    + exfalso. rewrite (collect_ret (fun j => g strict_sq (el (X c) j) (el (C c) j))
        (fun j => RabbitSpec.gfun (el (X c) j) (el (C c) j)) 8 0 []) in E; [discriminate|].
      intros j Hj. rewrite g_strict. destruct (N.ltb_spec (RabbitSpec.square (el (X c) j) (el (C c) j)) (2^63)) as [|Hge]; auto.
      exfalso. assert (T : existsb (fun j => (2^63 <=? RabbitSpec.square (el (X c) j) (el (C c) j))%N) (seq 0 8) = true).
      { apply existsb_exists. exists j. split; [apply in_seq; lia|apply N.leb_le; exact Hge]. }
      congruence.
  - intros (j & Hj & Hov). unfold rabbit_next_state.
    rewrite (collect_ub (fun j => g strict_sq (el (X c) j) (el (C c) j))
        (fun j => RabbitSpec.gfun (el (X c) j) (el (C c) j)) 8 0 []); [reflexivity| |].
    + intros k _. apply g_ok. apply strict_sq_ok.
    + exists j. split; [lia|]. rewrite g_strict. destruct (N.ltb_spec (RabbitSpec.square (el (X c) j) (el (C c) j)) (2^63)); [lia|reflexivity].
Qed.

(** *** The counter system *)

Fixpoint msums (C A : list N) (b : N) : list N :=
  match C, A with
  | c :: C, a :: A => let t := (c + a + b)%N in t :: msums C A (if (WORDSIZE <? t)%N then 1%N else 0%N)
  | _, _ => []
  end.
Fixpoint mfin (C A : list N) (b : N) : N :=
  match C, A with
  | c :: C, a :: A => mfin C A (if (WORDSIZE <? c + a + b)%N then 1%N else 0%N)
  | _, _ => b
  end.
Fixpoint sfin (C A : list N) (b : N) : N :=
  match C, A with
  | c :: C, a :: A => sfin C A ((c + a + b) / 2^32)%N
  | _, _ => b
  end.

Lemma counter_iter C2 : forall A2 C1 A1 b, length A1 = length C1 -> length A2 = length C2 ->
  iter_n (length C2) (length C1)
    (fun j '(c, b) =>
       let temp := (el c j + el (A1 ++ A2) j + b)%N in
       (upd j (N.modulo temp WORDSIZE) c, if (WORDSIZE <? temp)%N then 1%N else 0%N))
    (C1 ++ C2, b) =
  (C1 ++ map (fun x => N.modulo x WORDSIZE) (msums C2 A2 b), mfin C2 A2 b).
Proof.
  induction C2 as [|c C2 IH]; intros A2 C1 A1 b L1 L2.
  - cbn. reflexivity.
  - destruct A2 as [|a A2]; [discriminate|]. cbn [length]. rewrite iter_n_S. cbv beta.
    assert (Ec : el (C1 ++ c :: C2) (length C1) = c) by apply nth_middle.
    assert (Ea : el (A1 ++ a :: A2) (length C1) = a) by (rewrite <- L1; apply nth_middle).
    cbv zeta. rewrite Ec, Ea.
    assert (Eu : upd (length C1) (N.modulo (c + a + b) WORDSIZE) (C1 ++ c :: C2) =
                 (C1 ++ [N.modulo (c + a + b) WORDSIZE]) ++ C2).
    { rewrite <- app_assoc. clear. induction C1 as [|x C1 IH]; [reflexivity|]. cbn [length upd app]. f_equal. exact IH. }
    rewrite Eu. replace (Datatypes.S (length C1)) with (length (C1 ++ [N.modulo (c + a + b) WORDSIZE])) by (rewrite app_length; simpl; lia).
    replace (A1 ++ a :: A2) with ((A1 ++ [a]) ++ A2) by (rewrite <- app_assoc; reflexivity).
    rewrite IH.
    + cbn [msums mfin map]. rewrite <- app_assoc. reflexivity.
    + rewrite !app_length. simpl. lia.
    + simpl in L2. lia.
Qed.

Lemma A_eq : A = RabbitSpec.A_const.
Proof. reflexivity. Qed.

Lemma counter_msums cs : length (C cs) = 8 ->
  view (rabbit_counter cs) =
  RabbitSpec.RState (X cs) (map (fun x => x mod 2^32)%N (msums (C cs) A (carry cs))) (mfin (C cs) A (carry cs)).
Proof.
  intros L. unfold rabbit_counter, view.
  pose proof (counter_iter (C cs) A [] [] (carry cs) eq_refl ltac:(rewrite L; reflexivity)) as E.
  rewrite L in E. cbn [length app] in E. rewrite E. reflexivity.
Qed.

Lemma last_sfin C : forall A b d, C <> [] -> length A = length C ->
  (last (RabbitSpec.sums C A b) d / 2^32)%N = sfin C A b.
Proof.
  induction C as [|c C IH]; intros A b d Hn L; [congruence|].
  destruct A as [|a A]; [discriminate|]. cbn [RabbitSpec.sums sfin].
  destruct C as [|c' C].
  - destruct A; [|discriminate]. reflexivity.
  - destruct A as [|a' A]; [discriminate|].
    rewrite <- (IH (a' :: A) ((c + a + b) / 2^32)%N d); [|discriminate|simpl in *; lia].
    reflexivity.
Qed.

Lemma counter_sums cs : length (C cs) = 8 ->
  RabbitSpec.counter (view cs) =
  RabbitSpec.RState (X cs) (map (fun x => x mod 2^32)%N (RabbitSpec.sums (C cs) A (carry cs))) (sfin (C cs) A (carry cs)).
Proof.
  intros L. unfold RabbitSpec.counter, view. cbn [RabbitSpec.sX RabbitSpec.sC RabbitSpec.sb].
  rewrite last_sfin; [reflexivity| |rewrite L; reflexivity].
  intros E. rewrite E in L. discriminate.
Qed.

Lemma carry_cases c a b : (c < 2^32)%N -> (a < 2^32)%N -> (b <= 1)%N ->
  ((c + a + b) / 2^32)%N = if (2^32 <=? c + a + b)%N then 1%N else 0%N.
Proof.
  intros. destruct (N.leb_spec (2^32) (c + a + b)).
  - symmetry. apply (N.div_unique _ _ 1 (c + a + b - 2^32)); lia.
  - apply N.div_small. assumption.
Qed.

Lemma sums_agree C : forall A b, words_ok C -> words_ok A -> (b <= 1)%N -> length A = length C ->
  (map (fun x => x mod 2^32)%N (msums C A b) = map (fun x => x mod 2^32)%N (RabbitSpec.sums C A b) /\
   mfin C A b = sfin C A b) <-> ~ In (2^32)%N (RabbitSpec.sums C A b).
Proof.
  induction C as [|c C IH]; intros A b HC HA Hb L.
  - destruct A; [|discriminate]. cbn. tauto.
  - destruct A as [|a A]; [discriminate|]. inversion HC as [|? ? Hc HC']; subst.
    inversion HA as [|? ? Ha HA']; subst. cbn [msums RabbitSpec.sums mfin sfin map In].
    set (t := (c + a + b)%N). change WORDSIZE with (2^32)%N.
    assert (L' : length A = length C) by (simpl in L; lia).
    pose proof (carry_cases c a b Hc Ha Hb) as E. fold t in E. rewrite E.
    destruct (N.eq_dec t (2^32)) as [Ht|Ht].
    + rewrite Ht. change (2^32 <=? 2^32)%N with true. change (2^32 <? 2^32)%N with false.
      split; [|intros H; exfalso; apply H; left; reflexivity].
      intros [H1 H2]. exfalso.
      destruct C as [|c' C].
      * destruct A; [|discriminate]. cbn in H2. discriminate.
      * destruct A as [|a' A]; [discriminate|].
        injection H1 as H1 _.
        inversion HC' as [|? ? Hc' _]; subst. inversion HA' as [|? ? Ha' _]; subst.
        assert (Z : forall x, (x mod 2^32 <> (x + 1) mod 2^32)%N).
        { intros x K. pose proof (N.div_mod x (2^32) ltac:(discriminate)).
          pose proof (N.div_mod (x + 1) (2^32) ltac:(discriminate)).
          pose proof (N.mod_lt x (2^32) ltac:(discriminate)). lia. }
        apply (Z (c' + a' + 0)%N). etransitivity; [exact H1|]. f_equal. lia.
    + assert (Ec : (if (2^32 <? t)%N then 1%N else 0%N) = (if (2^32 <=? t)%N then 1%N else 0%N)).
      { destruct (N.ltb_spec (2^32) t), (N.leb_spec (2^32) t); auto; lia. }
      rewrite Ec. set (b' := if (2^32 <=? t)%N then 1%N else 0%N).
      assert (Hb' : (b' <= 1)%N) by (unfold b'; destruct (2^32 <=? t)%N; lia).
      specialize (IH A b' HC' HA' Hb' L').
      split.
      * intros [H1 H2] [K|K]; [congruence|]. injection H1 as H1. apply (proj1 IH); auto.
      * intros H. assert (K : ~ In (2^32)%N (RabbitSpec.sums C A b')) by tauto.
        apply IH in K. destruct K as [K1 K2]. split; [f_equal|]; assumption.
Qed.

Lemma A_ok : words_ok A.
Proof. apply words_ok_forallb. vm_compute. reflexivity. Qed.

(** No carry is lost if and only if no sum is exactly 2^32. *)
Lemma counter_exact cs : cs_ok cs ->
  view (rabbit_counter cs) = RabbitSpec.counter (view cs) <->
  ~ In (2^32)%N (RabbitSpec.sums (C cs) RabbitSpec.A_const (carry cs)).
Proof.
  intros (L & W & B). rewrite counter_msums, counter_sums by exact L.
  rewrite <- A_eq, <- (sums_agree (C cs) A (carry cs) W A_ok B ltac:(rewrite L; reflexivity)).
  split.
  - intros E. injection E as E1 E2. split; assumption.
  - intros [E1 E2]. rewrite E1, E2. reflexivity.
Qed.

Lemma view_pstep cs : view (pstep cs) = RabbitSpec.next_state (view (rabbit_counter cs)).
Proof. reflexivity. Qed.

Lemma step_exact cs : cs_ok cs ->
  view (pstep cs) = RabbitSpec.iterate (view cs) <->
  ~ In (2^32)%N (RabbitSpec.sums (C cs) RabbitSpec.A_const (carry cs)).
Proof.
  intros H. rewrite <- counter_exact by exact H. rewrite view_pstep. unfold RabbitSpec.iterate. split.
  - intros E. pose proof (f_equal RabbitSpec.sC E) as E1. pose proof (f_equal RabbitSpec.sb E) as E2.
    cbn [RabbitSpec.next_state RabbitSpec.sC RabbitSpec.sb] in E1, E2.
    rewrite (counter_sums cs (proj1 H)) in *. rewrite (counter_msums cs (proj1 H)) in *.
    cbn [RabbitSpec.sC RabbitSpec.sb] in *. rewrite E1, E2. reflexivity.
  - intros ->. reflexivity.
Qed.

Lemma msums_length C : forall A b, length A = length C -> length (msums C A b) = length C.
Proof.
  induction C as [|c C IH]; intros [|a A] b L; try discriminate; auto.
  cbn. f_equal. apply IH. simpl in L. lia.
Qed.
Lemma mfin_le C : forall A b, (b <= 1)%N -> (mfin C A b <= 1)%N.
Proof.
  induction C as [|c C IH]; intros [|a A] b L; auto.
  cbn [mfin]. apply IH. destruct (_ <? _)%N; lia.
Qed.

Lemma pstep_ok cs : cs_ok cs -> cs_ok (pstep cs).
Proof.
  intros (L & W & B).
  pose proof (counter_msums cs L) as E.
  pose proof (f_equal RabbitSpec.sC E) as E1. pose proof (f_equal RabbitSpec.sb E) as E2.
  cbn [view RabbitSpec.sC RabbitSpec.sb] in E1, E2.
  unfold cs_ok, pstep, pnext. cbn [C carry]. rewrite E1, E2. split; [|split].
  - rewrite map_length, msums_length; rewrite L; reflexivity.
  - apply Forall_forall. intros x Hx. apply in_map_iff in Hx. destruct Hx as (y & <- & _).
    apply N.mod_lt. discriminate.
  - apply mfin_le. exact B.
Qed.

Fixpoint psteps (n : nat) (cs : rabbit_state) : rabbit_state :=
  match n with O => cs | S n' => psteps n' (pstep cs) end.

Lemma psteps_ok n : forall cs, cs_ok cs -> cs_ok (psteps n cs).
Proof. induction n; intros; cbn [psteps]; auto. apply IHn, pstep_ok. assumption. Qed.

Lemma psteps_view n : forall cs, cs_ok cs -> RabbitSpec.clean n (view cs) ->
  view (psteps n cs) = RabbitSpec.iterates n (view cs).
Proof.
  induction n as [|n IH]; intros cs H Hc; [reflexivity|].
  cbn [psteps RabbitSpec.iterates RabbitSpec.clean] in *. destruct Hc as [H1 H2].
  apply step_exact in H1; [|exact H]. rewrite <- H1 in *. apply IH; auto. apply pstep_ok. exact H.
Qed.

Lemma psteps_master n : forall cs,
  MASTER_X (psteps n cs) = MASTER_X cs /\ MASTER_C (psteps n cs) = MASTER_C cs.
Proof.
  induction n as [|n IH]; intros cs; [split; reflexivity|]. cbn [psteps]. destruct (IH (pstep cs)) as [-> ->].
  unfold pstep, pnext, rabbit_counter. destruct (iter_n 8 0 _ _). split; reflexivity.
Qed.

(** *** Key stream blocks *)

Lemma lor_cat16 hi lo : (hi < 2^16)%N -> (lo < 2^16)%N ->
  N.lor (shl32 hi 16) lo = RabbitSpec.cat16 hi lo.
Proof.
  intros Hh Hl. unfold shl32, RabbitSpec.cat16. rewrite u32_id.
  2:{ rewrite N.shiftl_mul_pow2. change (2^32)%N with (2^16 * 2^16)%N. apply N.mul_lt_mono_pos_r; [reflexivity|exact Hh]. }
  rewrite lor_add, N.shiftl_mul_pow2; [reflexivity|].
  apply N.bits_inj. intros i. rewrite N.land_spec, N.bits_0.
  destruct (N.lt_ge_cases i 16) as [Hi|Hi].
  - rewrite N.shiftl_spec_low by exact Hi. reflexivity.
  - assert (N.testbit lo i = false) as ->; [|apply andb_false_r].
    revert i Hi. apply lt_pow2_testbit. exact Hl.
Qed.

Definition kwords (cs : rabbit_state) : list N :=
  let lo j := N.land (el (X cs) j) 0xffff in
  let hi j := N.land (shr32 (el (X cs) j) 16) 0xffff in
  let word h0 h1 := (h0 + 65536 * h1)%N in
  [ word (N.lxor (lo 0) (hi 5)) (N.lxor (hi 0) (lo 3));
    word (N.lxor (lo 2) (hi 7)) (N.lxor (hi 2) (lo 5));
    word (N.lxor (lo 4) (hi 1)) (N.lxor (hi 4) (lo 7));
    word (N.lxor (lo 6) (hi 3)) (N.lxor (hi 6) (lo 1)) ].

Lemma extract_step sq cs : rabbit_extract_keystream sq cs =
  let* cs := rabbit_step sq cs in Ret (kwords cs, cs).
Proof. reflexivity. Qed.

Lemma lo16 x : N.land x 0xffff = RabbitSpec.bits x 0 16.
Proof.
  unfold RabbitSpec.bits. rewrite N.pow_0_r, N.div_1_r. change 0xffff%N with (N.ones 16). apply N.land_ones.
Qed.
Lemma hi16 x : N.land (shr32 x 16) 0xffff = RabbitSpec.bits x 16 16.
Proof.
  unfold RabbitSpec.bits. rewrite shr32_spec. change 0xffff%N with (N.ones 16). apply N.land_ones.
Qed.

Lemma bits_lt x i n : (RabbitSpec.bits x i n < 2^n)%N.
Proof. apply N.mod_lt. apply N.pow_nonzero. discriminate. Qed.

Lemma kwords_bytes cs : le_bytes (kwords cs) = le_str 16 (RabbitSpec.extract (view cs)).
Proof.
  unfold kwords. cbv zeta. rewrite !hi16, !lo16, le_bytes_spec.
  change 65536%N with (256 ^ N.of_nat 2)%N. change (2^16)%N with (256 ^ N.of_nat 2)%N.
  cbn [flat_map]. rewrite app_nil_r.
  assert (Lx : forall a b i j, (N.lxor (RabbitSpec.bits a i 16) (RabbitSpec.bits b j 16) < 256 ^ N.of_nat 2)%N).
  { intros. change (256 ^ N.of_nat 2)%N with (2^16)%N. apply lxor_lt; apply bits_lt. }
  change 4 with (2 + 2). rewrite !le_str_app by apply Lx.
  unfold RabbitSpec.extract. cbv zeta. cbn [seq fold_right Nat.even Nat.add Nat.sub].
  change (2^16)%N with (256 ^ N.of_nat 2)%N.
  change 16 with (2 + (2 + (2 + (2 + (2 + (2 + (2 + (2 + 0)))))))).
  rewrite !le_str_app by apply Lx.
  cbn [view RabbitSpec.sX]. unfold RabbitSpec.at8, el.
  rewrite <- !app_assoc. cbn [le_str app]. reflexivity.
Qed.

Lemma gen_ok sq n : sq_ok sq -> forall cs,
  gen sq n cs = UB \/ exists ks, gen sq n cs = Ret (ks, psteps n cs) /\ 
    (cs_ok cs -> RabbitSpec.clean n (view cs) -> le_bytes ks = RabbitSpec.stream n (view cs)).
Proof.
  intros Hsq. induction n as [|n IH]; intros cs.
  - right. exists []. split; [reflexivity|]. intros. reflexivity.
  - cbn [gen psteps RabbitSpec.clean RabbitSpec.stream]. rewrite extract_step.
    destruct (step_ok sq Hsq cs) as [E|E]; rewrite E; cbn [bind]; [left; reflexivity|].
    destruct (IH (pstep cs)) as [E'|(ks & E' & S)]; rewrite E'; cbn [bind]; [left; reflexivity|right].
    exists (kwords (pstep cs) ++ ks). split; [reflexivity|]. intros Hc [C1 C2].
    apply step_exact in C1; [|exact Hc]. rewrite <- C1 in *.
    rewrite le_bytes_app, kwords_bytes, S; auto. apply pstep_ok. exact Hc.
Qed.

Lemma gen_wrap n : forall cs, exists ks, gen wrap_sq n cs = Ret (ks, psteps n cs).
Proof.
  induction n as [|n IH]; intros cs.
  - eexists. reflexivity.
  - cbn [gen psteps]. rewrite extract_step, step_wrap. cbn [bind].
    destruct (IH (pstep cs)) as (ks & E). rewrite E. eexists. reflexivity.
Qed.

Lemma pgen_wrap cs n : exists ks, pgen wrap_sq cs n = Ret (ks, psteps (nblocks n) cs) /\ n <= length ks.
Proof.
  destruct (gen_wrap (nblocks n) cs) as (ks & E). exists (le_bytes ks).
  assert (P : pgen wrap_sq cs n = Ret (le_bytes ks, psteps (nblocks n) cs)) by (unfold pgen; rewrite E; reflexivity).
  split; [exact P|]. eapply pgen_length. exact P.
Qed.

Definition wrap_ks (cs : rabbit_state) (n : nat) : list N :=
  match pgen wrap_sq cs n with Ret (ks, _) => ks | _ => [] end.

Lemma pgen_wrap_eq cs n : pgen wrap_sq cs n = Ret (wrap_ks cs n, psteps (nblocks n) cs) /\ n <= length (wrap_ks cs n).
Proof.
  unfold wrap_ks. destruct (pgen_wrap cs n) as (ks & E & L). rewrite E. auto.
Qed.

(** *** Key and IV set-up *)

Lemma four_steps sq cs : sq_ok sq ->
  for_n 4 0 (fun _ cs => rabbit_step sq cs) cs = UB \/
  for_n 4 0 (fun _ cs => rabbit_step sq cs) cs = Ret (psteps 4 cs).
Proof.
  intros Hsq. cbn [for_n psteps].
  destruct (step_ok sq Hsq cs) as [E|E]; rewrite E; cbn [bind]; auto.
  destruct (step_ok sq Hsq (pstep cs)) as [E1|E1]; rewrite E1; cbn [bind]; auto.
  destruct (step_ok sq Hsq (pstep (pstep cs))) as [E2|E2]; rewrite E2; cbn [bind]; auto.
  destruct (step_ok sq Hsq (pstep (pstep (pstep cs)))) as [E3|E3]; rewrite E3; cbn [bind]; auto.
Qed.

Lemma four_wrap cs : for_n 4 0 (fun _ cs => rabbit_step wrap_sq cs) cs = Ret (psteps 4 cs).
Proof. cbn [for_n psteps]. rewrite !step_wrap. cbn [bind]. rewrite !step_wrap. cbn [bind]. rewrite !step_wrap. cbn [bind]. rewrite step_wrap. reflexivity. Qed.

Definition pstart (k : list N) : rabbit_state :=
  let k j := RabbitSpec.subkey (le_num k) (Nat.land j 7) in
  let word := RabbitSpec.cat16 in
  let x := map (fun j => if Nat.odd j then word (k (j + 5)) (k (j + 4)) else word (k (j + 1)) (k j)) (seq 0 8) in
  let c := map (fun j => if Nat.odd j then word (k j) (k (j + 1)) else word (k (j + 4)) (k (j + 5))) (seq 0 8) in
  Rabbit [] [] x c 0.

Definition premix (cs : rabbit_state) : rabbit_state :=
  let c := map (fun j => N.lxor (el (C cs) j) (el (X cs) (Nat.land (j + 4) 7))) (seq 0 8) in
  Rabbit (X cs) c (X cs) c (carry cs).

Definition pkey (k : list N) : rabbit_state := premix (psteps 4 (pstart k)).

Lemma ld_halves_ok m p l n : has_bytes m p l -> length l = 2 * n ->
  ld_halves m p n = Ret (map (fun j => le_num (firstn 2 (skipn (2 * j) l))) (seq 0 n)).
Proof.
  intros H L. unfold ld_halves.
  rewrite (collect_ret (fun i => ld16 m (padd p (2 * i))) (fun j => le_num (firstn 2 (skipn (2 * j) l)))); [reflexivity|].
  intros j Hj.
  assert (Hs : has_bytes m (padd p (2 * j)) (skipn (2 * j) l)) by (apply has_bytes_skipn; [lia|exact H]).
  assert (Ls : 2 <= length (skipn (2 * j) l)) by (rewrite skipn_length; lia).
  destruct (skipn (2 * j) l) as [|x [|y t]]; simpl in Ls; try lia.
  unfold ld16. rewrite (has_bytes_ld8 _ _ _ _ Hs). cbn [bind].
  apply has_bytes_cons in Hs. destruct Hs as [_ Hs].
  rewrite (has_bytes_ld8 _ _ _ _ Hs). cbn [bind firstn le_num]. do 2 f_equal. lia.
Qed.

Lemma subkey_half k j : bytes_ok k -> j < 8 ->
  RabbitSpec.subkey (le_num k) j = le_num (firstn 2 (skipn (2 * j) k)).
Proof.
  intros H Hj. unfold RabbitSpec.subkey. rewrite Nat.mod_small by exact Hj.
  rewrite <- le_num_digits by exact H. unfold RabbitSpec.bits.
  change (256 ^ N.of_nat 2)%N with (2^16)%N. do 2 f_equal.
  change 256%N with (2^8)%N. rewrite <- N.pow_mul_r. f_equal. lia.
Qed.

Lemma subkey_lt K j : (RabbitSpec.subkey K j < 2^16)%N.
Proof. apply bits_lt. Qed.

Lemma load_key_start sq m key k : has_bytes m key k -> length k = 16 ->
  rabbit_load_key sq m key =
  let* cs := for_n 4 0 (fun _ cs => rabbit_step sq cs) (pstart k) in Ret (premix cs).
Proof.
  intros H L. unfold rabbit_load_key. rewrite (ld_halves_ok m key k 8 H L). cbn [bind].
  assert (E : forall j, el (map (fun j => le_num (firstn 2 (skipn (2 * j) k))) (seq 0 8)) (Nat.land j 7) =
                        RabbitSpec.subkey (le_num k) (Nat.land j 7)).
  { intros j. assert (Hj : Nat.land j 7 < 8).
    { change 7 with (Nat.ones 3). rewrite Nat.land_ones. apply Nat.mod_upper_bound. discriminate. }
    rewrite subkey_half; [|eapply has_bytes_bytes; exact H|exact Hj].
    generalize (Nat.land j 7) Hj. clear j Hj. intros j Hj.
    do 8 (destruct j as [|j]; [reflexivity|]). lia. }
  assert (S : map (fun j => if Nat.odd j
       then N.lor (shl32 (RabbitSpec.subkey (le_num k) (Nat.land (j + 5) 7)) 16) (RabbitSpec.subkey (le_num k) (Nat.land (j + 4) 7))
       else N.lor (shl32 (RabbitSpec.subkey (le_num k) (Nat.land (j + 1) 7)) 16) (RabbitSpec.subkey (le_num k) (Nat.land j 7)))
       (seq 0 8) = X (pstart k)).
  { unfold pstart. cbn [X]. apply map_ext. intros j. rewrite !lor_cat16 by apply subkey_lt. reflexivity. }
  assert (T : map (fun j => if Nat.odd j
       then N.lor (shl32 (RabbitSpec.subkey (le_num k) (Nat.land j 7)) 16) (RabbitSpec.subkey (le_num k) (Nat.land (j + 1) 7))
       else N.lor (shl32 (RabbitSpec.subkey (le_num k) (Nat.land (j + 4) 7)) 16) (RabbitSpec.subkey (le_num k) (Nat.land (j + 5) 7)))
       (seq 0 8) = C (pstart k)).
  { unfold pstart. cbn [C]. apply map_ext. intros j. rewrite !lor_cat16 by apply subkey_lt. reflexivity. }
  cbv zeta.
  match goal with |- (let* cs := for_n 4 0 ?f (Rabbit [] [] ?x ?c 0) in _) = _ =>
    replace x with (X (pstart k)); [replace c with (C (pstart k)); [reflexivity|]|] end.
  - rewrite <- T. apply map_ext. intros j. rewrite !E. reflexivity.
  - rewrite <- S. apply map_ext. intros j. rewrite !E. reflexivity.
Qed.

Lemma load_key_ok sq m key k : sq_ok sq -> has_bytes m key k -> length k = 16 ->
  rabbit_load_key sq m key = UB \/ rabbit_load_key sq m key = Ret (pkey k).
Proof.
  intros Hsq H L. rewrite (load_key_start sq m key k H L).
  destruct (four_steps sq (pstart k) Hsq) as [E|E]; rewrite E; cbn [bind]; [left|right; unfold pkey]; reflexivity.
Qed.

Lemma load_key_wrap m key k : has_bytes m key k -> length k = 16 ->
  rabbit_load_key wrap_sq m key = Ret (pkey k).
Proof. intros H L. rewrite (load_key_start wrap_sq m key k H L), four_wrap. reflexivity. Qed.

Lemma cat16_lt a b : (a < 2^16)%N -> (b < 2^16)%N -> (RabbitSpec.cat16 a b < 2^32)%N.
Proof. unfold RabbitSpec.cat16. intros. change (2^32)%N with (2^16 * 2^16)%N. nia. Qed.

Lemma pstart_ok k : cs_ok (pstart k).
Proof.
  split; [reflexivity|]. split; [|discriminate].
  unfold pstart. cbn [C]. apply Forall_forall. intros x Hx. apply in_map_iff in Hx.
  destruct Hx as (j & <- & _). destruct (Nat.odd j); apply cat16_lt; apply subkey_lt.
Qed.

Lemma pstart_view k : view (pstart k) = RabbitSpec.key_words (le_num k).
Proof. reflexivity. Qed.

Lemma el_words_ok l j : words_ok l -> (el l j < 2^32)%N.
Proof. intros H. unfold el. apply words_ok_nth. exact H. Qed.

Lemma pstep_X cs : words_ok (X (pstep cs)).
Proof.
  unfold pstep, pnext. cbn [X RabbitSpec.next_state RabbitSpec.sX].
  apply Forall_forall. intros x Hx. apply in_map_iff in Hx. destruct Hx as (j & <- & _).
  destruct (Nat.even j); apply add_w32_lt.
Qed.

Lemma psteps_X n : forall cs, words_ok (X (psteps (S n) cs)).
Proof.
  induction n as [|n IH]; intros cs; [apply pstep_X|]. change (psteps (S (S n)) cs) with (psteps (S n) (pstep cs)). apply IH.
Qed.

Lemma premix_ok cs : cs_ok cs -> words_ok (X cs) -> cs_ok (premix cs).
Proof.
  intros (L & W & B) HX. split; [reflexivity|]. split; [|exact B].
  unfold premix. cbn [C]. apply Forall_forall. intros x Hx. apply in_map_iff in Hx.
  destruct Hx as (j & <- & _). apply (lxor_lt _ _ 32); apply el_words_ok; assumption.
Qed.

Lemma pkey_ok k : cs_ok (pkey k).
Proof. apply premix_ok; [apply psteps_ok, pstart_ok|apply psteps_X]. Qed.

Lemma premix_view cs : view (premix cs) = RabbitSpec.reinit (view cs).
Proof. reflexivity. Qed.

Lemma pkey_view k : RabbitSpec.clean 4 (RabbitSpec.key_words (le_num k)) ->
  view (pkey k) = RabbitSpec.key_setup (le_num k).
Proof.
  intros H. unfold pkey, RabbitSpec.key_setup. rewrite premix_view, psteps_view, pstart_view; auto using pstart_ok.
Qed.

(** IV set-up *)

Definition piv (cs : rabbit_state) (iv : list N) : rabbit_state :=
  Rabbit (MASTER_X cs) (MASTER_C cs) (MASTER_X cs)
    (map (fun j => N.lxor (RabbitSpec.at8 (MASTER_C cs) j) (RabbitSpec.at8 (RabbitSpec.iv_words (le_num iv)) j)) (seq 0 8))
    (carry cs).

Lemma load_iv_start sq cs m p iv : has_bytes m p iv -> length iv = 8 ->
  rabbit_load_iv sq cs m p = for_n 4 0 (fun _ cs => rabbit_step sq cs) (piv cs iv).
Proof.
  intros H L. unfold rabbit_load_iv. rewrite (ld_halves_ok m p iv 4 H L). cbn [bind].
  pose proof (has_bytes_bytes _ _ _ H) as B.
  assert (Ew : forall j, j < 2 -> ld32 m (padd p (4 * j)) = Ret (RabbitSpec.bits (le_num iv) (32 * N.of_nat j) 32)).
  { intros j Hj. assert (Hs : has_bytes m (padd p (4 * j)) (skipn (4 * j) iv)) by (apply has_bytes_skipn; [lia|exact H]).
    assert (Eb : RabbitSpec.bits (le_num iv) (32 * N.of_nat j) 32 = le_num (firstn 4 (skipn (4 * j) iv))).
    { rewrite <- le_num_digits by exact B. unfold RabbitSpec.bits. change (256 ^ N.of_nat 4)%N with (2^32)%N. do 2 f_equal.
      change 256%N with (2^8)%N. rewrite <- N.pow_mul_r. f_equal. lia. }
    rewrite Eb. assert (Ls : 4 <= length (skipn (4 * j) iv)) by (rewrite skipn_length; lia).
    destruct (skipn (4 * j) iv) as [|b0 [|b1 [|b2 [|b3 t]]]]; simpl in Ls; try lia.
    rewrite (has_bytes_ld32 _ _ _ _ _ _ _ Hs), le32_of_bytes_num. reflexivity. }
  pose proof (Ew 0 ltac:(lia)) as W0. rewrite Nat.mul_0_r, padd_0 in W0. rewrite W0. cbn [bind].
  pose proof (Ew 1 ltac:(lia)) as W1. cbn [Nat.mul Nat.add] in W1. rewrite W1. cbn [bind].
  assert (Eh : forall j, j < 4 -> el (map (fun j => le_num (firstn 2 (skipn (2 * j) iv))) (seq 0 4)) j =
     RabbitSpec.bits (le_num iv) (16 * N.of_nat j) 16).
  { intros j Hj.
    assert (Eb : RabbitSpec.bits (le_num iv) (16 * N.of_nat j) 16 = le_num (firstn 2 (skipn (2 * j) iv))).
    { rewrite <- le_num_digits by exact B. unfold RabbitSpec.bits. change (256 ^ N.of_nat 2)%N with (2^16)%N. do 2 f_equal.
      change 256%N with (2^8)%N. rewrite <- N.pow_mul_r. f_equal. lia. }
    rewrite Eb. do 4 (destruct j as [|j]; [reflexivity|]). lia. }
  rewrite !Eh by lia. rewrite !lor_cat16 by apply bits_lt.
  reflexivity.
Qed.

Lemma load_iv_ok sq cs m p iv : sq_ok sq -> has_bytes m p iv -> length iv = 8 ->
  rabbit_load_iv sq cs m p = UB \/ rabbit_load_iv sq cs m p = Ret (psteps 4 (piv cs iv)).
Proof. intros Hsq H L. rewrite (load_iv_start sq cs m p iv H L). apply four_steps. exact Hsq. Qed.

Lemma load_iv_wrap cs m p iv : has_bytes m p iv -> length iv = 8 ->
  rabbit_load_iv wrap_sq cs m p = Ret (psteps 4 (piv cs iv)).
Proof. intros H L. rewrite (load_iv_start wrap_sq cs m p iv H L). apply four_wrap. Qed.

Lemma iv_words_ok IV : words_ok (RabbitSpec.iv_words IV).
Proof.
  unfold RabbitSpec.iv_words. cbv zeta. cbn [app].
  repeat first [apply Forall_cons | apply Forall_nil];
    first [apply (bits_lt _ _ 32) | apply cat16_lt; apply bits_lt].
Qed.

Lemma piv_ok_gen cs iv : words_ok (MASTER_C cs) -> (carry cs <= 1)%N -> cs_ok (piv cs iv).
Proof.
  intros W B. split; [reflexivity|]. split; [|exact B].
  unfold piv. cbn [C]. apply Forall_forall. intros x Hx. apply in_map_iff in Hx.
  destruct Hx as (j & <- & _). apply (lxor_lt _ _ 32); apply el_words_ok; [exact W|apply iv_words_ok].
Qed.

Lemma premix_master cs : MASTER_C (premix cs) = C (premix cs) /\ MASTER_X (premix cs) = X (premix cs).
Proof. split; reflexivity. Qed.

Lemma piv_ok k iv : cs_ok (piv (pkey k) iv).
Proof.
  pose proof (pkey_ok k) as (L & W & B). apply piv_ok_gen; [|exact B].
  unfold pkey in *. rewrite (proj1 (premix_master _)). exact W.
Qed.

Lemma piv_premix cs iv : view (piv (premix cs) iv) = RabbitSpec.iv_mix (le_num iv) (view (premix cs)).
Proof. reflexivity. Qed.
Lemma piv_view k iv : view (piv (pkey k) iv) = RabbitSpec.iv_mix (le_num iv) (view (pkey k)).
Proof. apply piv_premix. Qed.

Lemma clean_le n : forall k s, k <= n -> RabbitSpec.clean n s -> RabbitSpec.clean k s.
Proof.
  induction n as [|n IH]; intros [|k] s Hk H; try lia; cbn [RabbitSpec.clean] in *; auto.
  destruct H as [H1 H2]. split; [exact H1|]. apply IH; auto. lia.
Qed.

Lemma stream_prefix n : forall k s, exists t, RabbitSpec.stream (n + k) s = RabbitSpec.stream n s ++ t.
Proof.
  induction n as [|n IH]; intros k s; [eexists; reflexivity|].
  cbn [Nat.add RabbitSpec.stream]. destruct (IH k (RabbitSpec.iterate s)) as (t & E). exists t.
  rewrite E, <- app_assoc. reflexivity.
Qed.
Lemma stream_length n : forall s, length (RabbitSpec.stream n s) = 16 * n.
Proof.
  induction n as [|n IH]; intros s; [reflexivity|].
  cbn [RabbitSpec.stream]. rewrite app_length, le_str_length, IH. lia.
Qed.

(** A packet from a clean state. *)
Lemma process_clean sq cs m out inp data : sq_ok sq -> cs_ok cs ->
  RabbitSpec.clean (nblocks (length data)) (view cs) ->
  has_bytes m inp data -> writable m out (length data) -> same_or_disjoint out inp (length data) ->
  rabbit_process_packet sq cs m out inp (N.of_nat (length data)) = UB \/
  rabbit_process_packet sq cs m out inp (N.of_nat (length data)) =
    Ret (psteps (nblocks (length data)) cs,
         write_at m out (xor_bytes data (RabbitSpec.stream (length data / 16 + 1) (view cs)))).
Proof.
  intros Hsq Hcs Hcl H1 H2 H3. rewrite process_ok by auto.
  destruct (gen_ok sq (nblocks (length data)) Hsq cs) as [E|(ks & E & S)]; rewrite E; cbn [bind]; [left; reflexivity|right].
  rewrite (S Hcs Hcl). do 3 f_equal.
  assert (Hb : length data / 16 + 1 = nblocks (length data) + (length data / 16 + 1 - nblocks (length data)))
    by (unfold nblocks; lia).
  destruct (stream_prefix (nblocks (length data)) (length data / 16 + 1 - nblocks (length data)) (view cs)) as (t & Et).
  rewrite <- Hb in Et. rewrite Et.
  rewrite <- (xor_bytes_trunc data (_ ++ t)), <- (xor_bytes_trunc data (RabbitSpec.stream _ _)).
  f_equal. rewrite firstn_app.
  assert (Z : length data - length (RabbitSpec.stream (nblocks (length data)) (view cs)) = 0).
  { rewrite stream_length. unfold nblocks. lia. }
  rewrite Z. cbn [firstn]. rewrite app_nil_r. reflexivity.
Qed.

Lemma process_wrap_ret cs m out inp data :
  has_bytes m inp data -> writable m out (length data) -> same_or_disjoint out inp (length data) ->
  exists ct, length ct = length data /\
  rabbit_process_packet wrap_sq cs m out inp (N.of_nat (length data)) =
    Ret (psteps (nblocks (length data)) cs, write_at m out ct).
Proof.
  intros H1 H2 H3. rewrite process_pgen by auto.
  destruct (pgen_wrap_eq cs (length data)) as [E L]. rewrite E. cbn [bind].
  eexists. split; [|reflexivity]. rewrite xor_bytes_length_min. lia.
Qed.

(** *** The standard-conforming program refines the wrapping one *)

Lemma step_refines sq cs s : sq_ok sq -> rabbit_step sq cs = Ret s -> rabbit_step wrap_sq cs = Ret s.
Proof. intros H E. rewrite step_wrap. destruct (step_ok sq H cs) as [F|F]; congruence. Qed.

Lemma load_key_refines sq m key k cs : sq_ok sq -> has_bytes m key k -> length k = 16 ->
  rabbit_load_key sq m key = Ret cs -> rabbit_load_key wrap_sq m key = Ret cs.
Proof.
  intros H H1 H2 E. rewrite (load_key_wrap m key k H1 H2).
  destruct (load_key_ok sq m key k H H1 H2) as [F|F]; congruence.
Qed.

Lemma load_iv_refines sq cs m p iv s : sq_ok sq -> has_bytes m p iv -> length iv = 8 ->
  rabbit_load_iv sq cs m p = Ret s -> rabbit_load_iv wrap_sq cs m p = Ret s.
Proof.
  intros H H1 H2 E. rewrite (load_iv_wrap cs m p iv H1 H2).
  destruct (load_iv_ok sq cs m p iv H H1 H2) as [F|F]; congruence.
Qed.

Lemma gen_refines sq n : sq_ok sq -> forall cs r, gen sq n cs = Ret r -> gen wrap_sq n cs = Ret r.
Proof.
  intros H. induction n as [|n IH]; intros cs r E; [exact E|].
  cbn [gen] in *. rewrite extract_step in *.
  destruct (rabbit_step sq cs) as [s| |] eqn:S; cbn [bind] in E; try discriminate.
  rewrite (step_refines sq cs s H S). cbn [bind].
  destruct (gen sq n s) as [[a b]| |] eqn:G; cbn [bind] in E; try discriminate.
  rewrite (IH s (a, b) G). exact E.
Qed.

Lemma process_refines sq cs m out inp data r : sq_ok sq ->
  has_bytes m inp data -> writable m out (length data) -> same_or_disjoint out inp (length data) ->
  rabbit_process_packet sq cs m out inp (N.of_nat (length data)) = Ret r ->
  rabbit_process_packet wrap_sq cs m out inp (N.of_nat (length data)) = Ret r.
Proof.
  intros H H1 H2 H3. rewrite !process_ok by auto.
  destruct (gen sq (nblocks (length data)) cs) as [[a b]| |] eqn:G; cbn [bind]; try discriminate.
  rewrite (gen_refines sq _ H cs _ G). auto.
Qed.
