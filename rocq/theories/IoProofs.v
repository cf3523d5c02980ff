(** Processing an input range into an output range piece by piece. *)
From Coq Require Import NArith List Lia.
From Verif Require Import Res Words Mem MemSpec ListLemmas MemLemmas SpecWords WordsLemmas XorProofs.
Import ListNotations.

Definition io (m : mem) (out inp : ptr) (data : list N) : Prop :=
  has_bytes m inp data /\ writable m out (length data) /\ same_or_disjoint out inp (length data).

Lemma io_bytes m out inp d : io m out inp d -> bytes_ok d.
Proof. intros [H _]. exact (has_bytes_bytes _ _ _ H). Qed.

Lemma sod_le out inp n k : same_or_disjoint out inp n -> k <= n -> same_or_disjoint out inp k.
Proof. intros [->|D] H; [left; reflexivity|right]. unfold disjoint in *. lia. Qed.

Lemma sod_padd out inp n k : same_or_disjoint out inp (k + n) -> same_or_disjoint (padd out k) (padd inp k) n.
Proof.
  intros [->|D]; [left; reflexivity|right]. unfold disjoint in *. rewrite !pblk_padd, !poff_padd. lia.
Qed.

Lemma io_prefix m out inp d1 d2 : io m out inp (d1 ++ d2) -> io m out inp d1.
Proof.
  intros (H & Wr & D). rewrite app_length in *. apply has_bytes_app in H. split; [apply H|]. split.
  - apply (writable_le _ _ _ _ Wr). lia.
  - apply (sod_le _ _ _ _ D). lia.
Qed.

(** After the first part has been processed to [o1], the rest can be. *)
Lemma io_rest m out inp d1 d2 o1 : io m out inp (d1 ++ d2) -> length o1 = length d1 ->
  io (write_at m out o1) (padd out (length d1)) (padd inp (length d1)) d2.
Proof.
  intros (H & Wr & D) L. rewrite app_length in *. apply has_bytes_app in H. destruct H as [H1 H2].
  assert (W1 : writable m out (length o1)) by (apply (writable_le _ _ _ _ Wr); lia).
  split; [|split].
  - apply has_bytes_write_other; [exact W1| |exact H2].
    destruct D as [->|D]; unfold disjoint in *; rewrite ?pblk_padd, ?poff_padd; lia.
  - apply writable_write_at; [exact W1|]. apply writable_padd. exact Wr.
  - apply sod_padd. exact D.
Qed.

Lemma io_write m out inp d1 d2 o1 o2 : io m out inp (d1 ++ d2) -> length o1 = length d1 -> length o2 = length d2 ->
  write_at (write_at m out o1) (padd out (length d1)) o2 = write_at m out (o1 ++ o2).
Proof.
  intros (_ & Wr & _) L1 L2. rewrite write_at_app.
  - rewrite L1. reflexivity.
  - rewrite app_length in *. rewrite L1, L2. exact Wr.
Qed.

(** One word, one byte. *)
Lemma io_ld32 m out inp d : io m out inp d -> length d = 4 -> ld32 m inp = Ret (le_num d).
Proof.
  intros (H & _) L. destruct d as [|a [|b [|c [|e [|]]]]]; simpl in L; try discriminate.
  rewrite (has_bytes_ld32 _ _ _ _ _ _ _ H). rewrite le32_of_bytes_num. reflexivity.
Qed.

Lemma io_xor32 m out inp d w : io m out inp d -> length d = 4 ->
  (let* x := ld32 m inp in st32 m out (N.lxor x w)) = Ret (write_at m out (xor_bytes d (bytes_of_le32 w))).
Proof.
  intros H L. pose proof (io_bytes _ _ _ _ H) as B. rewrite (io_ld32 _ _ _ _ H L). cbn [bind].
  destruct H as (_ & Wr & _). rewrite L in Wr. rewrite st32_write by exact Wr.
  destruct d as [|a [|b [|c [|e [|]]]]]; simpl in L; try discriminate.
  unfold bytes_ok in B. repeat rewrite Forall_cons_iff in B. destruct B as (?&?&?&?&_).
  rewrite <- le32_of_bytes_num, le32_lxor_bytes by assumption. reflexivity.
Qed.

Lemma io_xor8 m out inp x b : io m out inp [x] ->
  (let* y := ld8 m inp in st8 m out (N.lxor y b)) = Ret (write_at m out [N.lxor x b]).
Proof.
  intros (H & Wr & _). rewrite (has_bytes_ld8 _ _ _ _ H). cbn [bind]. apply st8_write. exact Wr.
Qed.

Lemma length_split4 {A} (d : list A) n : length d = 4 * S n ->
  exists d1 d2, d = d1 ++ d2 /\ length d1 = 4 /\ length d2 = 4 * n.
Proof.
  intros H. exists (firstn 4 d), (skipn 4 d). split; [symmetry; apply firstn_skipn|].
  rewrite firstn_length, skipn_length. lia.
Qed.

Lemma xor_words_app d1 d2 w ws : length d1 = 4 ->
  xor_bytes (d1 ++ d2) (le_bytes (w :: ws)) = xor_bytes d1 (bytes_of_le32 w) ++ xor_bytes d2 (le_bytes ws).
Proof.
  intros H. change (le_bytes (w :: ws)) with (bytes_of_le32 w ++ le_bytes ws).
  apply xor_bytes_app. rewrite H. reflexivity.
Qed.
