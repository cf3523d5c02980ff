(** Property C102: how much room the hexadecimal encoder needs. *)
From Coq Require Import Arith NArith ZArith List Bool Lia.
From Verif Require Import Res Words Mem MemSpec ListLemmas MemLemmas Ints Concrete HexSpec HexModel HexProofs.
Import ListNotations.
Local Open Scope nat_scope.

(** Stores do not change the sizes of the blocks. *)
Definition same_sizes (m m' : mem) : Prop := map (@length _) m = map (@length _) m'.

Lemma upd_length_map (m : mem) i b c : nth_error m i = Some b -> length c = length b -> same_sizes m (upd i c m).
Proof.
  unfold same_sizes. revert i. induction m as [|x m IH]; intros [|i] H L; cbn in *; try discriminate; auto.
  - injection H as ->. congruence.
  - f_equal. eapply IH; eauto.
Qed.

Lemma st8_sizes m p x : st8 m p x = UB \/ exists m', st8 m p x = Ret m' /\ same_sizes m m'.
Proof.
  unfold st8. destruct (nth_error m (pblk p)) as [b|] eqn:E; [|left; reflexivity].
  destruct (poff p <? length b); [|left; reflexivity].
  right. eexists. split; [reflexivity|]. eapply upd_length_map; [exact E|]. apply upd_length.
Qed.

Lemma stn_sizes l : forall m p, stn m p l = UB \/ exists m', stn m p l = Ret m' /\ same_sizes m m'.
Proof.
  induction l as [|x l IH]; intros m p; cbn [stn].
  - right. exists m. split; reflexivity.
  - destruct (st8_sizes m p x) as [E|(m1 & E & S)]; rewrite E; cbn [bind]; [left; reflexivity|].
    destruct (IH m1 (padd p 1)) as [E2|(m2 & E2 & S2)]; rewrite E2; [left; reflexivity|right].
    exists m2. split; [reflexivity|]. unfold same_sizes in *. congruence.
Qed.

Lemma sizes_writable m m' p n : same_sizes m m' -> writable m' p n -> writable m p n.
Proof.
  unfold same_sizes. intros E (b & H & L). apply (map_nth_error (@length _)) in H. rewrite <- E in H.
  rewrite nth_error_map in H. destruct (nth_error m (pblk p)) as [c|] eqn:N; [|discriminate].
  cbn in H. injection H as H. exists c. split; [exact N|lia].
Qed.

Lemma st8_ret_writable m p x m' : st8 m p x = Ret m' -> writable m p 1.
Proof.
  unfold st8. destruct (nth_error m (pblk p)) as [b|] eqn:E; [|discriminate].
  destruct (Nat.ltb_spec (poff p) (length b)); [|discriminate]. intros _. exists b. split; [exact E|lia].
Qed.

Lemma hex_encode_needs fuel m out inp n : n < fuel -> (Z.of_nat n < 2^30)%Z -> ~ writable m out (2 * n + 1) ->
  hex_encode fuel m out inp (Z.of_nat n) = UB.
Proof.
  intros Hf Hn NW. change (2^30)%Z with 1073741824%Z in Hn. unfold hex_encode.
  match goal with |- bind (while _ ?c ?b _) _ = _ => set (cond := c); set (body := b) end.
  assert (W : forall k j m1 fuel, k + j = n -> k < fuel -> same_sizes m m1 ->
    while fuel cond body (m1, Z.of_nat j, Z.of_nat (2 * j)) = UB \/
    exists m2, while fuel cond body (m1, Z.of_nat j, Z.of_nat (2 * j)) = Ret (m2, Z.of_nat n, Z.of_nat (2 * n)) /\ same_sizes m m2).
  { clear Hf. induction k as [|k IH]; intros j m1 f Hk Hf S; (destruct f as [|f]; [lia|]); cbn [while]; unfold cond at 1 3.
    - cbn [Nat.add] in Hk. subst j. rewrite Z.eqb_refl. cbn [negb]. right. exists m1. split; [reflexivity|exact S].
    - destruct (Z.eqb_spec (Z.of_nat j) (Z.of_nat n)); [lia|]. cbn [negb].
      unfold body at 1 3. rewrite !Nat2Z.id.
      destruct (ld8 m1 (padd inp j)) as [c| |] eqn:LD; cbn [bind]; [|left; reflexivity|].
      2:{ unfold ld8 in LD. repeat match type of LD with context [match ?x with _ => _ end] => destruct x; try discriminate LD end. }
      unfold sprintf_02X. destruct (stn_sizes [hex_char (N.shiftr c 4); hex_char (N.land c 15); 0%N] m1 (padd out (2 * j)))
        as [E|(m2 & E & S2)]; rewrite E; cbn [bind]; [left; reflexivity|].
      rewrite !int_ret_ok by (unfold int_min, int_max; lia). cbn [bind].
      replace (Z.of_nat j + 1)%Z with (Z.of_nat (Datatypes.S j)) by lia.
      replace (Z.of_nat (2 * j) + 2)%Z with (Z.of_nat (2 * Datatypes.S j)) by lia.
      apply IH; [lia|lia|]. unfold same_sizes in *. congruence. }
  destruct (W n 0 m fuel ltac:(lia) Hf eq_refl) as [E|(m2 & E & S)]; cbn in E; rewrite E; cbn [bind]; [reflexivity|].
  rewrite int_ret_ok by (unfold int_min, int_max; lia). cbn [bind]. rewrite Nat2Z.id.
  destruct (st8_sizes m2 (padd out (n + (n + 0))) 0%N) as [E2|(m3 & E2 & _)]; rewrite E2; [reflexivity|].
  exfalso. apply NW. apply (sizes_writable _ _ _ _ S). apply st8_ret_writable in E2. destruct E2 as (b & H1 & H2).
  exists b. rewrite pblk_padd in H1. rewrite poff_padd in H2. split; [exact H1|lia].
Qed.

(** C102: encoding [n] bytes is defined exactly if the 2n+1 bytes at the output
    are inside their array, and then writes exactly those. *)
Theorem C102_hex_encode_footprint : forall fuel m out inp data,
  has_bytes m inp data -> disjoint out (2 * length data + 1) inp (length data) ->
  (Z.of_nat (length data) < 2^30)%Z -> length data < fuel ->
  (writable m out (2 * length data + 1) ->
   exists l, length l = 2 * length data + 1 /\ hex_encode fuel m out inp (Z.of_nat (length data)) = Ret (write_at m out l)) /\
  (~ writable m out (2 * length data + 1) -> hex_encode fuel m out inp (Z.of_nat (length data)) = UB).
Proof.
  intros fuel m out inp data H D L F. split.
  - intros W. exists (hex_text data ++ [0%N]). split; [rewrite app_length, hex_text_length; reflexivity|].
    apply hex_encode_writes; assumption.
  - intros NW. apply hex_encode_needs; assumption.
Qed.
Print Assumptions C102_hex_encode_footprint.
Example C102_instance : let m := [holding [1;2;3]%N; fresh 7; fresh 6] in
  has_bytes m (Ptr 0 0) [1;2;3]%N /\ disjoint (Ptr 1 0) 7 (Ptr 0 0) 3 /\ writable m (Ptr 1 0) 7 /\ ~ writable m (Ptr 2 0) 7.
Proof.
  split; [conc_has_bytes|]. split; [conc_disjoint|]. split; [conc_writable|].
  intros (b & H & L). cbn in H. injection H as <-. cbn in L. lia.
Qed.
