(** AES-CFB packets: the exact effect of the packet function in terms of the
    bytes, and how decryption undoes encryption. *)
From Coq Require Import Arith NArith ZArith List Bool Lia.
From Verif Require Import Res Words Mem MemSpec ListLemmas MemLemmas SpecWords WordsLemmas XorProofs IoProofs
  SyncSpec AesTables AesSpec AesModel AesProofs AesCtrProofs AesCtrLink.
Import ListNotations.
Local Open Scope nat_scope.

(** ** Loads from a byte range *)
Definition word_at (l : list N) (i : nat) : N := le_num (firstn 4 (skipn i l)).

Lemma ld32_at m p l i : has_bytes m p l -> i + 4 <= length l -> ld32 m (padd p i) = Ret (word_at l i).
Proof.
  intros H Hi. unfold word_at.
  apply (has_bytes_skipn _ _ _ i) in H; [|lia]. apply (has_bytes_firstn _ _ _ 4) in H.
  assert (L : length (firstn 4 (skipn i l)) = 4) by (rewrite firstn_length, skipn_length; lia).
  destruct (firstn 4 (skipn i l)) as [|a [|b [|c [|d [|]]]]]; try discriminate.
  rewrite (has_bytes_ld32 _ _ _ _ _ _ _ H). f_equal. apply le32_of_bytes_num.
Qed.
Lemma ld32_at0 m p l : has_bytes m p l -> 4 <= length l -> ld32 m p = Ret (word_at l 0).
Proof. intros H L. rewrite <- (padd_0 p). apply ld32_at; [exact H|lia]. Qed.
Lemma ld8_at m p l i : has_bytes m p l -> i < length l -> ld8 m (padd p i) = Ret (nth i l 0%N).
Proof. intros H L. apply (has_bytes_nth _ _ _ _ L H). Qed.
Lemma ld8_at0 m p l : has_bytes m p l -> 0 < length l -> ld8 m p = Ret (nth 0 l 0%N).
Proof. intros H L. rewrite <- (padd_0 p). apply ld8_at; assumption. Qed.

(** ** State updates *)
Definition full_upd (cs : aes_state) (l : list N) : aes_state :=
  Aes (word_at l 0) (word_at l 4) (word_at l 8) (word_at l 12) (rk cs).

Lemma full_ok cs m p l : has_bytes m p l -> length l = 16 -> full_state_update cs m p = Ret (full_upd cs l).
Proof.
  intros H L. unfold full_state_update.
  rewrite (ld32_at0 _ _ _ H), !(ld32_at _ _ _ _ H) by lia. reflexivity.
Qed.

(** The state after a partial block with ciphertext [l]. *)
Definition part_upd (cs : aes_state) (l : list N) : aes_state :=
  match partial_state_update cs [map Some l] (Ptr 0 0) (Z.of_nat (length l)) with
  | Ret c => c | _ => cs
  end.

Lemma psu_indep cs m1 p1 m2 p2 l : has_bytes m1 p1 l -> has_bytes m2 p2 l -> 0 < length l < 16 ->
  partial_state_update cs m1 p1 (Z.of_nat (length l)) = partial_state_update cs m2 p2 (Z.of_nat (length l)) /\
  exists c, partial_state_update cs m2 p2 (Z.of_nat (length l)) = Ret c /\ rk c = rk cs.
Proof.
  intros H1 H2 L. destruct (regs cs) as [[[a b] c] d] eqn:R.
  assert (E : exists n, length l = n) by eauto. destruct E as [n E]. rewrite E in *.
  do 16 (destruct n as [|n]; [first [lia|
    unfold partial_state_update; rewrite R;
    match goal with |- context [(Z.of_nat ?k mod 4)%Z] =>
      let v := eval vm_compute in (Z.of_nat k mod 4)%Z in change (Z.of_nat k mod 4)%Z with v;
      let w := eval vm_compute in (Z.of_nat k) in change (Z.of_nat k) with w end;
    cbn [Z.eqb Pos.eqb];
    rewrite ?(ld32_at0 _ _ _ H1), ?(ld8_at0 _ _ _ H1), ?(ld32_at _ _ _ _ H1), ?(ld8_at _ _ _ _ H1) by lia;
    rewrite ?(ld32_at0 _ _ _ H2), ?(ld8_at0 _ _ _ H2), ?(ld32_at _ _ _ _ H2), ?(ld8_at _ _ _ _ H2) by lia;
    cbn [bind]; split; [reflexivity|]; eexists; split; reflexivity]|]).
  lia.
Qed.

Lemma part_ok cs m p l : has_bytes m p l -> 0 < length l < 16 ->
  partial_state_update cs m p (Z.of_nat (length l)) = Ret (part_upd cs l) /\ rk (part_upd cs l) = rk cs.
Proof.
  intros H L.
  assert (H2 : has_bytes [map Some l] (Ptr 0 0) l) by (apply (has_bytes_last []); exact (has_bytes_bytes _ _ _ H)).
  destruct (psu_indep cs m p _ _ l H H2 L) as (-> & c & E & K). unfold part_upd. rewrite E. auto.
Qed.

(** ** The packet function *)
Section Cfb.
Context (oor : N -> Z -> res N) (b : build).

Definition enc_state (cs : aes_state) : aes_state := fst (cfb_aes_encrypt b cs).
Definition enc_key (cs : aes_state) : list N := snd (cfb_aes_encrypt b cs).

Lemma enc_key_length cs : length (enc_key cs) = 4.
Proof. unfold enc_key, cfb_aes_encrypt. destruct b; apply quad_length. Qed.
Lemma enc_rk cs : rk (enc_state cs) = rk cs.
Proof.
  unfold enc_state, cfb_aes_encrypt. destruct b; cbn [fst]; auto;
    destruct (rounds _ _ _) as [[[x y] z] w]; reflexivity.
Qed.

(** [fb d o] is the text fed back for input [d] and output [o]. *)
Fixpoint cfb_run (fb : list N -> list N -> list N) (cs : aes_state) (q : nat) (d : list N)
    : res (aes_state * list N) :=
  match q with
  | O => if length d =? 0 then Ret (cs, []) else
         let* t := tail_keys oor (rev (enc_key cs)) (length d) in
         let o := xor_bytes d t in
         Ret (part_upd (enc_state cs) (fb d o), o)
  | S q => let d1 := firstn 16 d in
           let o1 := xor_bytes d1 (le_bytes (enc_key cs)) in
           let* (cs, o) := cfb_run fb (full_upd (enc_state cs) (fb d1 o1)) q (skipn 16 d) in
           Ret (cs, o1 ++ o)
  end.

Lemma cfb_run_length fb q : forall cs r d cs' o, r < 16 -> length d = 16 * q + r ->
  cfb_run fb cs q d = Ret (cs', o) -> length o = length d.
Proof.
  induction q as [|q IH]; intros cs r d cs' o Hr L H; cbn [cfb_run] in H.
  - destruct (Nat.eqb_spec (length d) 0) as [Z|Z]; [apply Ret_pair in H; destruct H as [_ <-]; auto|].
    destruct (tail_keys _ _ _) as [t| |] eqn:T; try discriminate. cbn [bind] in H.
    apply Ret_pair in H. destruct H as [_ <-].
    apply tail_keys_length in T; [|rewrite rev_length; apply enc_key_length|lia].
    rewrite xor_bytes_length_min. lia.
  - cbv zeta in H. destruct (cfb_run fb _ q (skipn 16 d)) as [[c o']| |] eqn:E; try discriminate. cbn [bind] in H.
    apply Ret_pair in H. destruct H as [_ <-].
    assert (L2 : length (skipn 16 d) = 16 * q + r) by (rewrite skipn_length; lia).
    rewrite app_length, (IH _ _ _ _ _ Hr L2 E), L2, xor_bytes_length_min, le_bytes_length, enc_key_length, firstn_length.
    lia.
Qed.

(** Where the fed back text is read from. *)
Definition fed (mode : Z) (fb : list N -> list N -> list N) (out inp : ptr) (n : nat) : Prop :=
  (fb = (fun d o => o) /\ (mode = 0%Z \/ out = inp)) \/
  (fb = (fun d o => d) /\ mode <> 0%Z /\ disjoint out n inp n).

Lemma fed_le mode fb out inp n k : fed mode fb out inp n -> k <= n -> fed mode fb out inp k.
Proof.
  intros [[-> H]|(-> & M & D)] K; [left; auto|right]. repeat split; auto. unfold disjoint in *. lia.
Qed.
Lemma fed_padd mode fb out inp n k : fed mode fb out inp (k + n) -> fed mode fb (padd out k) (padd inp k) n.
Proof.
  intros [[-> [H| ->]]|(-> & M & D)]; [left; auto|left; auto|right]. repeat split; auto.
  unfold disjoint in *. rewrite !pblk_padd, !poff_padd. lia.
Qed.

Lemma fed_has mode fb out inp m d o : io m out inp d -> length o = length d -> bytes_ok o ->
  fed mode fb out inp (length d) ->
  has_bytes (write_at m out o) (if (mode =? 0)%Z then out else inp) (fb d o) /\ length (fb d o) = length d.
Proof.
  intros (H & Wr & _) L B [[-> C]|(-> & M & D)].
  - split; [|exact L].
    assert (E : (if (mode =? 0)%Z then out else inp) = out).
    { destruct (Z.eqb_spec mode 0); [reflexivity|]. destruct C as [C| ->]; [contradiction|reflexivity]. }
    rewrite E. apply has_bytes_write_same; first [exact B|rewrite L; exact Wr].
  - split; [|reflexivity]. destruct (Z.eqb_spec mode 0); [contradiction|].
    apply has_bytes_write_other; first [exact H|rewrite L; exact Wr|rewrite L; exact D].
Qed.

Lemma le_bytes_ok ws : bytes_ok (le_bytes ws).
Proof.
  unfold le_bytes. induction ws as [|w ws IH]; [constructor|]. cbn [flat_map]. apply Forall_app. split; [|exact IH].
  repeat constructor; apply u8_lt.
Qed.

Lemma xor_ok d k : bytes_ok d -> bytes_ok k -> bytes_ok (xor_bytes d k).
Proof. apply xor_bytes_ok. Qed.

Lemma rev_keys_ok ks n t : tail_keys oor (rev ks) n = Ret t -> bytes_ok t.
Proof.
  unfold tail_keys. intros H. destruct (tail_ks _ _ _ _) as [r| |] eqn:E; try discriminate. cbn [bind] in H.
  apply Ret_inj in H. subst t. apply Forall_app. split; [apply le_bytes_ok|apply (tail_ks_length _ _ _ _ _ E)].
Qed.

Lemma cfb_tail_ok m out inp d ks : length ks = 4 -> length d < 16 -> io m out inp d ->
  cfb_tail oor m out inp (Z.of_nat (length d)) ks =
  let* t := tail_keys oor (rev ks) (length d) in Ret (write_at m out (xor_bytes d t)).
Proof.
  intros L Hd H. unfold cfb_tail. rewrite Nat2Z.id.
  apply (tail_ok oor Nat.pred ks 3 (rev ks)); try assumption; [|rewrite rev_length; exact L].
  destruct ks as [|x [|y [|z [|w [|]]]]]; try discriminate.
  intros i Hi. do 4 (destruct i as [|i]; [reflexivity|]). lia.
Qed.

Lemma cfb_loop mode fb q : forall r cs m out inp d fuel, r < 16 -> length d = 16 * q + r -> io m out inp d ->
  fed mode fb out inp (length d) ->
  q + (if r =? 0 then 0 else 1) < fuel ->
  (let* (_, cs, _, _, m) :=
    while fuel (fun '(size, _, _, _, _) => (0 <? size)%Z)
      (fun '(size, cs, out, inp, m) =>
         let w_state_ptr := if (mode =? 0)%Z then out else inp in
         let '(cs, keystream) := cfb_aes_encrypt b cs in
         if (16 <=? size)%Z then
           let* m := xor_block m out inp keystream in
           let* cs := full_state_update cs m w_state_ptr in
           Ret ((size - 16)%Z, cs, padd out 16, padd inp 16, m)
         else
           let* m := cfb_tail oor m out inp size keystream in
           let* cs := partial_state_update cs m w_state_ptr size in
           Ret (0%Z, cs, out, inp, m))
      (Z.of_nat (16 * q + r), cs, out, inp, m) in
   Ret (cs, m)) =
  let* (cs, o) := cfb_run fb cs q d in Ret (cs, write_at m out o).
Proof.
  induction q as [|q IH]; intros r cs m out inp d fuel Hr L H F Hf; (destruct fuel as [|fuel]; [lia|]);
    cbn [while cfb_run].
  - change (16 * 0 + r) with r in *. rewrite L. destruct (Nat.eqb_spec r 0) as [->|Hz].
    + cbn. destruct d; [|discriminate]. rewrite write_at_nil. reflexivity.
    + replace (0 <? Z.of_nat r)%Z with true by (symmetry; apply Z.ltb_lt; lia).
      replace (16 <=? Z.of_nat r)%Z with false by (symmetry; apply Z.leb_gt; lia).
      cbv zeta. rewrite (surjective_pairing (cfb_aes_encrypt b cs)).
      fold (enc_key cs). fold (enc_state cs). rewrite <- L in *.
      rewrite (cfb_tail_ok _ _ _ d (enc_key cs) (enc_key_length _) Hr H).
      destruct (tail_keys _ _ _) as [t| |] eqn:T; cbn [bind]; try reflexivity.
      pose proof (rev_keys_ok _ _ _ T) as Bt.
      apply tail_keys_length in T; [|rewrite rev_length; apply enc_key_length|lia].
      assert (LX : length (xor_bytes d t) = length d) by (rewrite xor_bytes_length_min; lia).
      destruct (fed_has mode fb out inp m d (xor_bytes d t) H LX (xor_ok _ _ (io_bytes _ _ _ _ H) Bt) F) as [Hb Lb].
      rewrite <- Lb. rewrite (proj1 (part_ok (enc_state cs) _ _ _ Hb ltac:(lia))). cbn [bind].
      destruct fuel; [lia|]. reflexivity.
  - replace (0 <? Z.of_nat (16 * S q + r))%Z with true by (symmetry; apply Z.ltb_lt; lia).
    replace (16 <=? Z.of_nat (16 * S q + r))%Z with true by (symmetry; apply Z.leb_le; lia).
    cbv zeta. rewrite (surjective_pairing (cfb_aes_encrypt b cs)).
    fold (enc_key cs). fold (enc_state cs).
    assert (E : exists d1 d2, d = d1 ++ d2 /\ length d1 = 16 /\ length d2 = 16 * q + r).
    { exists (firstn 16 d), (skipn 16 d). split; [symmetry; apply firstn_skipn|].
      rewrite firstn_length, skipn_length. lia. }
    destruct E as (d1 & d2 & -> & L1 & L2).
    rewrite firstn_app, skipn_app, L1, Nat.sub_diag, (firstn_all2 d1), (skipn_all2 d1) by lia.
    cbn [firstn skipn app]. rewrite app_nil_r.
    pose proof (io_prefix _ _ _ _ _ H) as H1.
    rewrite (xor_block_ok oor _ _ _ d1 (enc_key cs) (enc_key_length _) L1 H1). cbn [bind].
    assert (LX : length (xor_bytes d1 (le_bytes (enc_key cs))) = length d1).
    { rewrite xor_bytes_length_min, le_bytes_length, enc_key_length. lia. }
    rewrite app_length in F.
    destruct (fed_has mode fb out inp m d1 _ H1 LX
      (xor_ok _ _ (io_bytes _ _ _ _ H1) (le_bytes_ok _)) (fed_le _ _ _ _ _ (length d1) F ltac:(lia))) as [Hb Lb].
    rewrite (full_ok (enc_state cs) _ _ _ Hb) by lia. cbn [bind].
    replace (Z.of_nat (16 * S q + r) - 16)%Z with (Z.of_nat (16 * q + r)) by lia.
    pose proof (io_rest _ _ _ _ _ _ H LX) as R. apply fed_padd in F. rewrite L1 in R, F.
    rewrite (IH r _ _ _ _ d2 fuel Hr L2 R F ltac:(lia)).
    destruct (cfb_run fb _ q d2) as [[c o2]| |] eqn:K; cbn [bind]; try reflexivity.
    rewrite <- (io_write _ _ _ _ _ _ o2 H LX).
    2:{ exact (cfb_run_length _ _ _ _ _ _ _ Hr L2 K). }
    rewrite L1. reflexivity.
Qed.

Lemma cfb_process_ok mode fb cs m out inp d : io m out inp d -> fed mode fb out inp (length d) ->
  aes_cfb_process_packet oor b mode cs m out inp (Z.of_nat (length d)) =
  let* (cs, o) := cfb_run fb cs (length d / 16) d in Ret (cs, write_at m out o).
Proof.
  intros H F. unfold aes_cfb_process_packet. rewrite Nat2Z.id.
  pose proof (Nat.div_mod_eq (length d) 16) as E. pose proof (Nat.mod_upper_bound (length d) 16 ltac:(lia)) as B.
  rewrite <- (cfb_loop mode fb (length d / 16) (length d mod 16) cs m out inp d (S (length d)) B E H F).
  - rewrite <- E. reflexivity.
  - destruct (Nat.eqb_spec (length d mod 16) 0); lia.
Qed.

Definition feed_out : list N -> list N -> list N := fun d o => o.
Definition feed_in : list N -> list N -> list N := fun d o => d.

(** Decryption undoes encryption. *)
Lemma cfb_invert q : forall cs r d cs' o, r < 16 -> length d = 16 * q + r ->
  cfb_run feed_out cs q d = Ret (cs', o) -> cfb_run feed_in cs q o = Ret (cs', d).
Proof.
  induction q as [|q IH]; intros cs r d cs' o Hr L H; pose proof (cfb_run_length _ _ _ _ _ _ _ Hr L H) as LO;
    cbn [cfb_run] in *; rewrite ?LO in *.
  - destruct (Nat.eqb_spec (length d) 0) as [Z|Z].
    { apply Ret_pair in H. destruct H as [<- <-]. destruct d; [reflexivity|discriminate]. }
    destruct (tail_keys _ _ _) as [t| |] eqn:T; try discriminate. cbn [bind] in *.
    apply Ret_pair in H. destruct H as [<- <-].
    apply tail_keys_length in T; [|rewrite rev_length; apply enc_key_length|lia].
    rewrite xor_bytes_invol by lia. reflexivity.
  - cbv zeta in *. set (d1 := firstn 16 d) in *. set (o1 := xor_bytes d1 (le_bytes (enc_key cs))) in *.
    destruct (cfb_run feed_out _ q (skipn 16 d)) as [[c o']| |] eqn:E; try discriminate. cbn [bind] in H.
    apply Ret_pair in H. destruct H as [<- <-].
    assert (L1 : length d1 = 16) by (unfold d1; rewrite firstn_length; lia).
    assert (LX : length o1 = 16).
    { unfold o1. rewrite xor_bytes_length_min, le_bytes_length, enc_key_length. lia. }
    assert (L2 : length (skipn 16 d) = 16 * q + r) by (rewrite skipn_length; lia).
    rewrite firstn_app, skipn_app, LX, Nat.sub_diag, (firstn_all2 o1), (skipn_all2 o1) by lia.
    cbn [firstn skipn app]. rewrite app_nil_r.
    change (feed_in o1 (xor_bytes o1 (le_bytes (enc_key cs)))) with (feed_out d1 o1).
    rewrite (IH _ _ _ _ _ Hr L2 E). cbn [bind]. unfold o1.
    rewrite xor_bytes_invol by (rewrite le_bytes_length, enc_key_length; lia).
    unfold d1. rewrite firstn_skipn. reflexivity.
Qed.

(** When the packet function succeeds. *)
Definition tail_defined (n : nat) : Prop := n mod 4 <= 1 \/ forall w k, exists v, oor w k = Ret v.

Lemma tail_ks_total kw n : (forall w k, exists v, oor w k = Ret v) -> forall l, exists t, tail_ks oor kw l n = Ret t.
Proof.
  intros T. induction n as [|n IH]; intros l; cbn [tail_ks]; [eauto|].
  assert (E : exists v, shr_int oor kw (24 - 8 * l) = Ret v).
  { unfold shr_int. destruct (_ && _); eauto. }
  destruct E as [v ->]. cbn [bind]. destruct (IH (l - 1)%Z) as [t ->]. cbn [bind]. eauto.
Qed.

Lemma tail_keys_defined kws n : tail_defined n -> exists t, tail_keys oor kws n = Ret t.
Proof.
  intros D. unfold tail_keys. destruct D as [D|T].
  - destruct (n mod 4) as [|[|k]]; [| |lia]; cbn [tail_ks bind].
    + eauto.
    + change (shr_int oor (nth (n / 4) kws 0%N) (24 - 8 * 0)) with (Ret (shr32 (nth (n / 4) kws 0%N) 24)).
      cbn [bind]. eauto.
  - destruct (tail_ks_total (nth (n / 4) kws 0%N) (n mod 4) T 0%Z) as [t ->]. cbn [bind]. eauto.
Qed.

Lemma mod16_4 n : (n mod 16) mod 4 = n mod 4.
Proof. replace 16 with (4 * 4) by lia. rewrite Nat.mod_mul_r by lia. rewrite (Nat.mul_comm 4 (_ mod _)), Nat.mod_add by lia. apply Nat.mod_mod. lia. Qed.

Lemma cfb_run_defined fb q : forall cs r d, r < 16 -> length d = 16 * q + r -> tail_defined r ->
  exists cs' o, cfb_run fb cs q d = Ret (cs', o).
Proof.
  induction q as [|q IH]; intros cs r d Hr L D; cbn [cfb_run].
  - destruct (Nat.eqb_spec (length d) 0); [eauto|].
    destruct (tail_keys_defined (rev (enc_key cs)) r D) as [t E].
    replace (length d) with r by lia. rewrite E. cbn [bind]. eauto.
  - cbv zeta. assert (L2 : length (skipn 16 d) = 16 * q + r) by (rewrite skipn_length; lia).
    edestruct (IH (full_upd (enc_state cs) (fb (firstn 16 d) (xor_bytes (firstn 16 d) (le_bytes (enc_key cs))))) r
      (skipn 16 d) Hr L2 D) as (c & o & ->). cbn [bind]. eauto.
Qed.
End Cfb.

(** In standard C++ a tail of two or three bytes is undefined. *)
Lemma tail_keys_ub kws n : 2 <= n mod 4 -> tail_keys ub_shift kws n = UB.
Proof.
  intros D. unfold tail_keys. pose proof (Nat.mod_upper_bound n 4 ltac:(lia)).
  destruct (n mod 4) as [|[|[|[|]]]]; try lia; reflexivity.
Qed.

Lemma cfb_run_ub b fb q : forall cs r d, r < 16 -> length d = 16 * q + r -> 2 <= r mod 4 ->
  cfb_run ub_shift b fb cs q d = UB.
Proof.
  induction q as [|q IH]; intros cs r d Hr L D; cbn [cfb_run].
  - destruct (Nat.eqb_spec (length d) 0) as [Z|Z].
    { replace r with 0 in D by lia. cbn in D. lia. }
    rewrite tail_keys_ub; [reflexivity|]. replace (length d) with r by lia. exact D.
  - cbv zeta. rewrite (IH _ r); auto. rewrite skipn_length. lia.
Qed.
