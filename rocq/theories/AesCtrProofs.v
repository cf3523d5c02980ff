(** What the packet loops of AES-CTR do, for every length and every behaviour
    of out-of-range shifts. *)
From Coq Require Import Arith NArith ZArith List Bool Lia.
From Verif Require Import Res Words Mem MemSpec ListLemmas MemLemmas SpecWords WordsLemmas XorProofs IoProofs
  AesTables AesSpec AesModel AesProofs.
Import ListNotations.

Lemma iter_shift {A} (f : A -> A) n x : Nat.iter n f (f x) = Nat.iter (S n) f x.
Proof.
  induction n as [|n IH]; [reflexivity|].
  change (Nat.iter (S n) f (f x)) with (f (Nat.iter n f (f x))). rewrite IH. reflexivity.
Qed.

(** ** Whole words at the end of a packet *)
Fixpoint kws_at (nxt : nat -> nat) (ks : list N) (k n : nat) (kws : list N) : Prop :=
  match n with
  | O => kws = []
  | S n' => exists w ws, kws = w :: ws /\ nth_error ks k = Some w /\ kws_at nxt ks (nxt k) n' ws
  end.

Lemma kws_at_length nxt ks n : forall k kws, kws_at nxt ks k n kws -> length kws = n.
Proof.
  induction n as [|n IH]; intros k kws H; cbn [kws_at] in H.
  - subst. reflexivity.
  - destruct H as (w & ws & -> & _ & H). cbn [length]. rewrite (IH _ _ H). reflexivity.
Qed.

Lemma words_loop (nxt : nat -> nat) ks n : forall k kws m out inp d r fuel,
  kws_at nxt ks k n kws -> length d = 4 * n -> io m out inp d -> r < 4 -> n < fuel ->
  while fuel (fun '(size, _, _, _, _) => (4 <=? size)%Z)
      (fun '(size, k, out, inp, m) =>
         let* x := ld32 m inp in
         let* w := ks_word ks k in
         let* m := st32 m out (N.lxor x w) in
         Ret ((size - 4)%Z, nxt k, padd out 4, padd inp 4, m))
      (Z.of_nat (4 * n + r), k, out, inp, m) =
  Ret (Z.of_nat r, Nat.iter n nxt k, padd out (4 * n), padd inp (4 * n),
       write_at m out (xor_bytes d (le_bytes kws))).
Proof.
  induction n as [|n IH]; intros k kws m out inp d r fuel K L H Hr Hf; (destruct fuel as [|fuel]; [lia|]);
    cbn [while].
  - replace (4 <=? Z.of_nat (4 * 0 + r))%Z with false by (symmetry; apply Z.leb_gt; lia).
    cbn [kws_at] in K. subst kws. destruct d; [|simpl in L; lia].
    rewrite Nat.mul_0_r, !padd_0. cbn [Nat.iter nat_rect xor_bytes]. rewrite write_at_nil. reflexivity.
  - replace (4 <=? Z.of_nat (4 * S n + r))%Z with true by (symmetry; apply Z.leb_le; lia).
    destruct K as (w & ws & -> & E & K).
    destruct (length_split4 d n L) as (d1 & d2 & -> & L1 & L2).
    pose proof (io_xor32 _ _ _ _ w (io_prefix _ _ _ _ _ H) L1) as X.
    rewrite (io_ld32 _ _ _ _ (io_prefix _ _ _ _ _ H) L1) in *. cbn [bind] in *.
    unfold ks_word at 1. rewrite E. cbn [bind]. rewrite X. cbn [bind].
    replace (Z.of_nat (4 * S n + r) - 4)%Z with (Z.of_nat (4 * n + r)) by lia.
    assert (LX : length (xor_bytes d1 (bytes_of_le32 w)) = length d1).
    { rewrite xor_bytes_length_min, L1. reflexivity. }
    pose proof (io_rest _ _ _ _ _ _ H LX) as R. rewrite L1 in R.
    rewrite (IH (nxt k) ws _ _ _ d2 r fuel K L2 R Hr ltac:(lia)).
    rewrite !padd_padd. replace (4 + 4 * n) with (4 * S n) by lia.
    rewrite xor_words_app by exact L1.
    rewrite <- (io_write _ _ _ _ _ _ (xor_bytes d2 (le_bytes ws)) H LX).
    2:{ rewrite xor_bytes_length_min, le_bytes_length, (kws_at_length _ _ _ _ _ K), L2. lia. }
    rewrite L1, iter_shift. reflexivity.
Qed.

Section Proofs.
Context (oor : N -> Z -> res N) (wild : res unit).

(** Key stream bytes of the byte loop, from counter value [l]. *)
Fixpoint tail_ks (kw : N) (l : Z) (n : nat) : res (list N) :=
  match n with
  | O => Ret []
  | S n' => let* t := shr_int oor kw (24 - 8 * l) in
            let* r := tail_ks kw (l - 1) n' in
            Ret (u8 t :: r)
  end.

Lemma tail_ks_length kw n : forall l ks, tail_ks kw l n = Ret ks -> length ks = n /\ bytes_ok ks.
Proof.
  induction n as [|n IH]; intros l ks H; cbn [tail_ks] in H.
  - injection H as <-. split; [reflexivity|constructor].
  - destruct (shr_int oor kw (24 - 8 * l)) as [t| |]; try discriminate. cbn [bind] in H.
    destruct (tail_ks kw (l - 1) n) as [r| |] eqn:E; try discriminate. cbn [bind] in H.
    injection H as <-. destruct (IH _ _ E) as [L B]. split; [cbn [length]; rewrite L; reflexivity|].
    constructor; [apply u8_lt|exact B].
Qed.

Lemma bytes_loop kw n : forall l m out inp d fuel, length d = n -> io m out inp d -> n < fuel ->
  (let* (_, _, _, _, m) :=
   while fuel (fun '(size, _, _, _, _) => (0 <? size)%Z)
      (fun '(size, l, out, inp, m) =>
         let* x := ld8 m inp in
         let* t := shr_int oor kw (24 - 8 * l) in
         let* m := st8 m out (N.lxor x (u8 t)) in
         Ret (size - 1, l - 1, padd out 1, padd inp 1, m)%Z)
      (Z.of_nat n, l, out, inp, m) in
   Ret m) =
  let* ks := tail_ks kw l n in Ret (write_at m out (xor_bytes d ks)).
Proof.
  induction n as [|n IH]; intros l m out inp d fuel L H Hf; (destruct fuel as [|fuel]; [lia|]); cbn [while].
  - destruct d; [|discriminate]. cbn. rewrite write_at_nil. reflexivity.
  - replace (0 <? Z.of_nat (S n))%Z with true by (symmetry; apply Z.ltb_lt; lia).
    destruct d as [|x d]; [discriminate|]. injection L as L. cbn [tail_ks].
    change (x :: d) with ([x] ++ d) in H.
    pose proof (io_prefix _ _ _ _ _ H) as H1.
    destruct (shr_int oor kw (24 - 8 * l)) as [t| |] eqn:E;
      rewrite (has_bytes_ld8 _ _ _ _ (proj1 H1)); cbn [bind]; try reflexivity.
    pose proof (io_xor8 _ _ _ _ (u8 t) H1) as X.
    rewrite (has_bytes_ld8 _ _ _ _ (proj1 H1)) in X. cbn [bind] in X. rewrite X. cbn [bind].
    replace (Z.of_nat (S n) - 1)%Z with (Z.of_nat n) by lia.
    pose proof (io_rest _ _ _ _ _ [N.lxor x (u8 t)] H eq_refl) as R. cbn [length] in R.
    rewrite (IH _ _ _ _ d fuel L R ltac:(lia)).
    destruct (tail_ks kw (l - 1) n) as [r| |] eqn:T; cbn [bind]; try reflexivity.
    f_equal. change (xor_bytes (x :: d) (u8 t :: r)) with ([N.lxor x (u8 t)] ++ xor_bytes d r).
    rewrite <- (io_write _ _ _ [x] d [N.lxor x (u8 t)] (xor_bytes d r) H eq_refl); [reflexivity|].
    rewrite xor_bytes_length_min, (proj1 (tail_ks_length _ _ _ _ T)). lia.
Qed.

(** Key stream of a tail of [n] bytes when the words are taken in the order [kws]. *)
Definition tail_keys (kws : list N) (n : nat) : res (list N) :=
  let* t := tail_ks (nth (n / 4) kws 0%N) 0 (n mod 4) in
  Ret (le_bytes (firstn (n / 4) kws) ++ t).

Lemma split_tail {A} (d : list A) : exists d1 d2,
  d = d1 ++ d2 /\ length d1 = 4 * (length d / 4) /\ length d2 = length d mod 4.
Proof.
  pose proof (Nat.div_mod_eq (length d) 4) as E.
  exists (firstn (4 * (length d / 4)) d), (skipn (4 * (length d / 4)) d).
  split; [symmetry; apply firstn_skipn|]. rewrite firstn_length, skipn_length. split; lia.
Qed.

Lemma tail_ok (nxt : nat -> nat) ks k0 kws m out inp d :
  (forall i, i < 4 -> nth_error ks (Nat.iter i nxt k0) = nth_error kws i) -> length kws = 4 ->
  length d < 16 -> io m out inp d ->
  (let* (size, k, out, inp, m) :=
    while (S (length d)) (fun '(size, _, _, _, _) => (4 <=? size)%Z)
      (fun '(size, k, out, inp, m) =>
         let* x := ld32 m inp in
         let* w := ks_word ks k in
         let* m := st32 m out (N.lxor x w) in
         Ret ((size - 4)%Z, nxt k, padd out 4, padd inp 4, m))
      (Z.of_nat (length d), k0, out, inp, m) in
   if (0 <? size)%Z then
     let* kw := ks_word ks k in
     tail_bytes oor m out inp size kw
   else Ret m) =
  let* t := tail_keys kws (length d) in Ret (write_at m out (xor_bytes d t)).
Proof.
  intros K Lk Hd H.
  pose proof (Nat.div_mod_eq (length d) 4) as DM. pose proof (Nat.mod_upper_bound (length d) 4 ltac:(lia)) as MB.
  assert (Q : length d / 4 < 4) by (apply Nat.div_lt_upper_bound; lia).
  destruct (split_tail d) as (d1 & d2 & E & L1 & L2).
  unfold tail_keys. remember (length d / 4) as q. remember (length d mod 4) as r.
  assert (KW : kws_at nxt ks k0 q (firstn q kws)).
  { clear - K Lk Q. revert k0 kws K Lk. 
    assert (G : forall q k0 kws, q <= length kws -> (forall i, i < q -> nth_error ks (Nat.iter i nxt k0) = nth_error kws i) ->
      kws_at nxt ks k0 q (firstn q kws)).
    { clear. induction q as [|q IH]; intros k0 kws L K; [reflexivity|].
      destruct kws as [|w kws]; [simpl in L; lia|]. cbn [firstn kws_at]. exists w, (firstn q kws).
      split; [reflexivity|]. split; [exact (K 0 ltac:(lia))|]. apply IH; [simpl in L; lia|].
      intros i Hi. rewrite iter_shift. exact (K (S i) ltac:(lia)). }
    intros k0 kws K Lk. apply G; [lia|]. intros i Hi. apply K. lia. }
  rewrite E in H. pose proof (io_prefix _ _ _ _ _ H) as H1.
  replace (Z.of_nat (length d)) with (Z.of_nat (4 * q + r)) by (rewrite <- DM; reflexivity).
  rewrite (words_loop nxt ks q k0 (firstn q kws) m out inp d1 r _ KW L1 H1 MB) by lia.
  cbn [bind].
  assert (LX : length (xor_bytes d1 (le_bytes (firstn q kws))) = length d1).
  { rewrite xor_bytes_length_min, le_bytes_length, firstn_length. lia. }
  pose proof (io_rest _ _ _ _ _ _ H LX) as R. rewrite L1 in R.
  destruct (Z.ltb_spec 0 (Z.of_nat r)) as [P|P].
  - unfold ks_word. rewrite (K q Q). rewrite (nth_error_nth' kws 0%N) by lia. cbn [bind].
    unfold tail_bytes. rewrite Nat2Z.id.
    rewrite (bytes_loop _ r 0%Z _ _ _ d2 (S r) L2 R ltac:(lia)).
    destruct (tail_ks (nth q kws 0%N) 0 r) as [t| |] eqn:T; cbn [bind]; try reflexivity.
    f_equal. rewrite E, xor_bytes_app.
    2:{ rewrite L1, le_bytes_length, firstn_length. lia. }
    rewrite <- (io_write _ _ _ _ _ _ (xor_bytes d2 t) H LX); [rewrite L1; reflexivity|].
    rewrite xor_bytes_length_min, (proj1 (tail_ks_length _ _ _ _ T)). lia.
  - replace r with 0 in * by lia. destruct d2; [|simpl in L2; lia].
    cbn [tail_ks bind]. rewrite E, !app_nil_r. reflexivity.
Qed.

Lemma iter_S n k : Nat.iter n S k = n + k.
Proof. induction n as [|n IH]; [reflexivity|]. change (Nat.iter (S n) S k) with (S (Nat.iter n S k)). rewrite IH. reflexivity. Qed.

Lemma ctr_tail_ok m out inp d ks : length ks = 4 -> length d < 16 -> io m out inp d ->
  ctr_tail oor wild m out inp (Z.of_nat (length d)) ks =
  let* _ := wild in let* t := tail_keys ks (length d) in Ret (write_at m out (xor_bytes d t)).
Proof.
  intros L Hd H. unfold ctr_tail. destruct wild; cbn [bind]; try reflexivity.
  rewrite Nat2Z.id. apply (tail_ok S ks 0 ks); try assumption.
  intros i Hi. rewrite iter_S, Nat.add_0_r. reflexivity.
Qed.

(** ** Whole blocks *)
Lemma xor_block_ok m out inp d ks : length ks = 4 -> length d = 16 -> io m out inp d ->
  xor_block m out inp ks = Ret (write_at m out (xor_bytes d (le_bytes ks))).
Proof.
  intros L Hd (Hin & Wr & D).
  assert (LK : length (le_bytes ks) = 16) by (rewrite le_bytes_length, L; reflexivity).
  unfold xor_block. rewrite <- (xst_0 m out d (le_bytes ks)) at 1.
  rewrite (for_n_steps _ (fun i => xst m out d (le_bytes ks) (4 * i)) 4 0).
  - rewrite xst_all by lia. reflexivity.
  - intros i Hi. cbn beta. rewrite Nat.add_0_l.
    destruct (nth_error ks i) as [w|] eqn:E; [|apply nth_error_None in E; lia].
    unfold ks_word. rewrite E.
    replace (4 * S i) with (4 * i + 4) by lia.
    rewrite <- (xor32_step m out inp d (le_bytes ks) Hin Wr D ltac:(lia) (4 * i) w).
    + reflexivity.
    + lia.
    + apply le_bytes_word. exact E.
Qed.

(** ** The packet function *)
Fixpoint ctr_keys (b : build) (cs : aes_state) (q r : nat) : res (list N) :=
  match q with
  | O => if r =? 0 then Ret [] else let* _ := wild in tail_keys (ctr_aes_encrypt b cs) r
  | S q => let* rest := ctr_keys b (state_update cs) q r in
           Ret (le_bytes (ctr_aes_encrypt b cs) ++ rest)
  end.

Lemma quad_length s : length (quad s) = 4.
Proof. destruct s as [[[a b] c] d]. reflexivity. Qed.

Lemma tail_keys_length ks n t : length ks = 4 -> n < 16 -> tail_keys ks n = Ret t -> length t = n.
Proof.
  intros L Hn H. unfold tail_keys in H.
  destruct (tail_ks _ _ _) as [r| |] eqn:E; try discriminate. cbn [bind] in H. apply Ret_inj in H. subst t.
  rewrite app_length, le_bytes_length, firstn_length, (proj1 (tail_ks_length _ _ _ _ E)).
  pose proof (Nat.div_mod_eq n 4). assert (n / 4 < 4) by (apply Nat.div_lt_upper_bound; lia). lia.
Qed.

Lemma ctr_keys_length b q : forall cs r ks, r < 16 -> ctr_keys b cs q r = Ret ks -> length ks = 16 * q + r.
Proof.
  induction q as [|q IH]; intros cs r ks Hr H; cbn [ctr_keys] in H.
  - destruct (Nat.eqb_spec r 0) as [->|Hz]; [injection H as <-; reflexivity|].
    destruct wild; try discriminate. cbn [bind] in H.
    rewrite (tail_keys_length _ r ks (quad_length _) Hr H). lia.
  - destruct (ctr_keys b (state_update cs) q r) as [rest| |] eqn:E; try discriminate. cbn [bind] in H.
    injection H as <-. rewrite app_length, le_bytes_length, (IH _ _ _ Hr E).
    unfold ctr_aes_encrypt. rewrite quad_length. lia.
Qed.

Definition blocks_of (n : nat) : nat := n / 16 + (if n mod 16 =? 0 then 0 else 1).

Lemma ctr_loop b q : forall r cs m out inp d fuel, r < 16 -> length d = 16 * q + r -> io m out inp d ->
  q + (if r =? 0 then 0 else 1) < fuel ->
  (let* (_, cs, _, _, m) :=
    while fuel (fun '(size, _, _, _, _) => (0 <? size)%Z)
      (fun '(size, cs, out, inp, m) =>
         let keystream := ctr_aes_encrypt b cs in
         if (16 <=? size)%Z then
           let* m := xor_block m out inp keystream in
           Ret ((size - 16)%Z, state_update cs, padd out 16, padd inp 16, m)
         else
           let* m := ctr_tail oor wild m out inp size keystream in
           Ret (0%Z, state_update cs, out, inp, m))
      (Z.of_nat (16 * q + r), cs, out, inp, m) in
   Ret (cs, m)) =
  let* ks := ctr_keys b cs q r in
  Ret (Nat.iter (q + (if r =? 0 then 0 else 1)) state_update cs, write_at m out (xor_bytes d ks)).
Proof.
  induction q as [|q IH]; intros r cs m out inp d fuel Hr L H Hf; (destruct fuel as [|fuel]; [lia|]);
    cbn [while ctr_keys].
  - change (16 * 0 + r) with r in *. destruct (Nat.eqb_spec r 0) as [->|Hz].
    + cbn. destruct d; [|discriminate]. cbn [xor_bytes]. rewrite write_at_nil. reflexivity.
    + replace (0 <? Z.of_nat r)%Z with true by (symmetry; apply Z.ltb_lt; lia).
      replace (16 <=? Z.of_nat r)%Z with false by (symmetry; apply Z.leb_gt; lia).
      cbv zeta. rewrite <- L in *. rewrite (ctr_tail_ok _ _ _ d (ctr_aes_encrypt b cs) (quad_length _) Hr H).
      destruct wild; cbn [bind]; try reflexivity.
      destruct (tail_keys _ _) as [t| |]; cbn [bind]; try reflexivity.
      destruct fuel; [lia|]. reflexivity.
  - replace (0 <? Z.of_nat (16 * S q + r))%Z with true by (symmetry; apply Z.ltb_lt; lia).
    replace (16 <=? Z.of_nat (16 * S q + r))%Z with true by (symmetry; apply Z.leb_le; lia).
    cbv zeta.
    assert (E : exists d1 d2, d = d1 ++ d2 /\ length d1 = 16 /\ length d2 = 16 * q + r).
    { exists (firstn 16 d), (skipn 16 d). split; [symmetry; apply firstn_skipn|].
      rewrite firstn_length, skipn_length. lia. }
    destruct E as (d1 & d2 & -> & L1 & L2).
    rewrite (xor_block_ok _ _ _ d1 (ctr_aes_encrypt b cs) (quad_length _) L1 (io_prefix _ _ _ _ _ H)). cbn [bind].
    replace (Z.of_nat (16 * S q + r) - 16)%Z with (Z.of_nat (16 * q + r)) by lia.
    assert (LX : length (xor_bytes d1 (le_bytes (ctr_aes_encrypt b cs))) = length d1).
    { rewrite xor_bytes_length_min, le_bytes_length. unfold ctr_aes_encrypt. rewrite quad_length. lia. }
    pose proof (io_rest _ _ _ _ _ _ H LX) as R. rewrite L1 in R.
    rewrite (IH r _ _ _ _ d2 fuel Hr L2 R ltac:(lia)).
    destruct (ctr_keys b (state_update cs) q r) as [rest| |] eqn:K; cbn [bind]; try reflexivity.
    rewrite xor_bytes_app.
    2:{ rewrite le_bytes_length. unfold ctr_aes_encrypt. rewrite quad_length. lia. }
    rewrite <- (io_write _ _ _ _ _ _ (xor_bytes d2 rest) H LX).
    2:{ rewrite xor_bytes_length_min, (ctr_keys_length _ _ _ _ _ Hr K). lia. }
    rewrite L1, iter_shift. reflexivity.
Qed.

Lemma ctr_process_ok b cs m out inp d : io m out inp d ->
  aes_ctr_process_packet oor wild b cs m out inp (Z.of_nat (length d)) =
  let* ks := ctr_keys b cs (length d / 16) (length d mod 16) in
  Ret (Nat.iter (blocks_of (length d)) state_update cs, write_at m out (xor_bytes d ks)).
Proof.
  intros H. unfold aes_ctr_process_packet, blocks_of. rewrite Nat2Z.id.
  pose proof (Nat.div_mod_eq (length d) 16) as E. pose proof (Nat.mod_upper_bound (length d) 16 ltac:(lia)) as B.
  rewrite <- (ctr_loop b (length d / 16) (length d mod 16) cs m out inp d (S (length d)) B E H).
  - rewrite <- E. reflexivity.
  - destruct (Nat.eqb_spec (length d mod 16) 0); lia.
Qed.
End Proofs.
