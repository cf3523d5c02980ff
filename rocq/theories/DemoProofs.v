(** The demonstration programs. *)
From Coq Require Import String.
From Coq Require Import Arith NArith ZArith List Bool Lia.
From Verif Require Import Res Words Mem MemSpec ListLemmas MemLemmas SpecWords WordsLemmas Ints Finite IoProofs
  HexSpec HexModel HexProofs HmacProofs AeModel AeProofs DemoModel.
Import ListNotations.
Local Open Scope nat_scope.

(** ** Memories of whole blocks *)
Lemma block_has m i l : nth_error m i = Some (map Some l) -> bytes_ok l -> has_bytes m (Ptr i 0) l.
Proof.
  intros H B. split; [exact B|]. exists (map Some l). cbn [pblk poff skipn]. rewrite map_length.
  split; [exact H|]. split; [lia|]. rewrite <- (map_length Some l). apply firstn_all.
Qed.

Lemma block_free m i b n : nth_error m i = Some b -> n <= length b -> writable m (Ptr i 0) n.
Proof. intros H L. exists b. cbn [pblk poff]. auto. Qed.

Lemma block_write m i b l : nth_error m i = Some b -> length b = length l ->
  write_at m (Ptr i 0) l = upd i (map Some l) m.
Proof.
  intros H L. rewrite (write_at_splice _ _ _ b) by exact H. cbn [pblk poff].
  rewrite splice_full by auto. reflexivity.
Qed.

Lemma blocks_apart i j a b : i <> j -> disjoint (Ptr i 0) a (Ptr j 0) b.
Proof. left. exact H. Qed.

Lemma bytes_zero n : bytes_ok (repeat 0%N n).
Proof. apply Forall_forall. intros x H. apply repeat_spec in H. subst. reflexivity. Qed.

(** ** Hexadecimal strings *)
Lemma upper_hex_char c : is_upper_hex c -> (c < 256)%N /\ c <> 0%N.
Proof.
  intros H. assert (E : forallb (fun c => N.ltb c 256 && negb (N.eqb c 0)) upper_digits = true) by reflexivity.
  rewrite forallb_forall in E. apply E in H. apply andb_true_iff in H. destruct H as [A B].
  split; [apply N.ltb_lt; exact A|apply N.eqb_neq, negb_true_iff; exact B].
Qed.

Lemma hex_text_bytes l : bytes_ok l -> bytes_ok (hex_text l).
Proof.
  intros H. apply hex_text_upper in H. revert H. apply Forall_impl. intros c H. apply upper_hex_char. exact H.
Qed.

Lemma hex_text_nonzero l : bytes_ok l -> Forall (fun c => c <> 0%N) (hex_text l).
Proof.
  intros H. apply hex_text_upper in H. revert H. apply Forall_impl. intros c H. apply upper_hex_char. exact H.
Qed.

Lemma int_small n : (Z.of_nat n < 2^31)%Z -> to_int (Z.of_nat n) = Z.of_nat n.
Proof. intros H. apply to_int_id; unfold int_max, int_min; change (2^31)%Z with 2147483648%Z in *; lia. Qed.

Lemma half_hex k : length (hex_text k) / 2 = length k.
Proof. rewrite hex_text_length, Nat.mul_comm. apply Nat.div_mul. discriminate. Qed.

Lemma from_hex_ok m n k : bytes_ok k -> length k = n -> (Z.of_nat n < 2^30)%Z ->
  from_hex m n (hex_text k) = Ret ((m ++ [map Some (hex_text k)]) ++ [map Some k], Ptr (S (length m)) 0).
Proof.
  intros B L H. change (2^30)%Z with 1073741824%Z in H. unfold from_hex.
  rewrite new_bytes_ok by (apply hex_text_bytes; exact B). cbn [bind]. unfold alloc.
  set (m' := m ++ [map Some (hex_text k)]).
  assert (Lm : length m' = S (length m)) by (unfold m'; rewrite app_length; cbn; lia).
  rewrite Lm, int_small by (rewrite hex_text_length; change (2^31)%Z with 2147483648%Z; lia).
  rewrite <- Lm. rewrite hex_decode_writes.
  - cbn [bind]. rewrite pair_bytes_hex_text by exact B.
    rewrite write_at_last, splice_full by (rewrite repeat_length; exact L). rewrite Lm. reflexivity.
  - apply has_bytes_alloc. apply has_bytes_last. apply hex_text_bytes. exact B.
  - apply writable_last. rewrite repeat_length, half_hex. lia.
  - right. left. cbn [pblk]. lia.
Qed.

Lemma c_string_ok l : Forall (fun c => c <> 0%N) l -> forall m p fuel, has_bytes m p (l ++ [0%N]) -> length l < fuel ->
  c_string fuel m p = Ret l.
Proof.
  intros F. induction F as [|c l Hc F IH]; intros m p fuel H L; (destruct fuel as [|fuel]; [cbn in L; lia|]); cbn [c_string].
  - rewrite (has_bytes_ld8 _ _ _ _ H). reflexivity.
  - rewrite (has_bytes_ld8 _ _ _ _ H). cbn [bind]. apply N.eqb_neq in Hc. rewrite Hc.
    rewrite (IH m (padd p 1) fuel); [reflexivity| |cbn [length] in L; lia].
    exact (proj2 (has_bytes_cons _ _ _ _ H)).
Qed.

Lemma hex_c_string_ok m p l : has_bytes m p l -> (Z.of_nat (length l) < 2^30)%Z ->
  hex_c_string m p (length l) = Ret (hex_text l).
Proof.
  intros H L. unfold hex_c_string, alloc. rewrite int_small by (change (2^30)%Z with 1073741824%Z in L; change (2^31)%Z with 2147483648%Z; lia).
  pose proof (ptr_lt _ _ _ (has_bytes_writable _ _ _ H)) as Lt. pose proof (has_bytes_bytes _ _ _ H) as B.
  rewrite hex_encode_writes; auto.
  2: apply has_bytes_alloc; auto.
  2: apply writable_last; rewrite repeat_length; lia.
  2: left; cbn; lia.
  cbn [bind]. rewrite write_at_last, splice_full.
  2:{ rewrite app_length, hex_text_length, repeat_length. cbn. lia. }
  apply c_string_ok; [apply hex_text_nonzero; exact B| |rewrite hex_text_length; lia].
  apply has_bytes_last. apply Forall_app. split; [apply hex_text_bytes; exact B|]. repeat constructor.
Qed.

(** ** Tactics: the memory is a list of blocks, each an array that the program
    has made. *)
Ltac blocks := unfold alloc; cbn [bind app length upd].
Ltac here := apply block_has; [reflexivity|auto using hex_text_bytes, bytes_zero].
Ltac room := eapply block_free; [reflexivity|rewrite ?map_length, ?repeat_length; auto; lia].
Ltac apart := apply blocks_apart; lia.
Ltac store L := erewrite block_write; [|reflexivity|rewrite ?map_length, ?repeat_length, ?L; auto; lia].
