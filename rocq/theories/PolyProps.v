(** Property theorem C68 (Poly1305 clamping). *)
From Coq Require Import NArith List Lia Arith.
From Verif Require Import Res Words Mem MemSpec ListLemmas MemLemmas SpecWords WordsLemmas Concrete PolyModel PolySpec.
Import ListNotations.

Lemma land_byte b x c y : (b < 256)%N -> (c < 256)%N ->
  N.land (b + 256 * x) (c + 256 * y) = (N.land b c + 256 * N.land x y)%N.
Proof.
  intros Hb Hc. change 256%N with (2^8)%N. rewrite !(N.mul_comm (2^8)), <- !N.shiftl_mul_pow2.
  assert (D : forall u v, (u < 256)%N -> (u + N.shiftl v 8)%N = N.lor u (N.shiftl v 8)).
  { intros u v Hu. symmetry. apply lor_add. apply N.bits_inj_0. intros i. rewrite N.land_spec.
    destruct (N.ltb_spec i 8) as [Hi|Hi].
    - rewrite N.shiftl_spec_low by assumption. apply Bool.andb_false_r.
    - rewrite (proj1 (lt_pow2_testbit u 8) Hu i Hi). reflexivity. }
  rewrite !D; auto.
  2: apply (land_lt_l b c 8); assumption.
  apply N.bits_inj. intros i. rewrite N.land_spec, !N.lor_spec, N.land_spec.
  destruct (N.ltb_spec i 8) as [Hi|Hi].
  - rewrite !N.shiftl_spec_low by assumption. rewrite !Bool.orb_false_r. reflexivity.
  - rewrite (proj1 (lt_pow2_testbit b 8) Hb i Hi), (proj1 (lt_pow2_testbit c 8) Hc i Hi).
    rewrite !N.shiftl_spec_high', N.land_spec by assumption. reflexivity.
Qed.

Lemma upd_split {A} i (x d : A) l : i < length l ->
  l = firstn i l ++ nth i l d :: skipn (S i) l /\ upd i x l = firstn i l ++ x :: skipn (S i) l.
Proof.
  revert i. induction l as [|y l IH]; intros [|i] H; cbn [length] in H; try lia; auto.
  destruct (IH i ltac:(lia)) as [E1 E2]. split; [exact (f_equal (cons y) E1)|exact (f_equal (cons y) E2)].
Qed.

Lemma write_one m r a y c x : has_bytes m r (a ++ y :: c) ->
  write_at m (padd r (length a)) [x] = write_at m r (a ++ x :: c).
Proof.
  intros H. pose proof (has_bytes_writable _ _ _ H) as W. rewrite app_length in W. cbn [length] in W.
  apply has_bytes_app in H as [Ha Hc]. apply has_bytes_cons in Hc as [_ Hc].
  rewrite (write_at_app m r a (x :: c)) by (rewrite app_length; exact W).
  rewrite (write_at_id _ _ _ Ha). change (x :: c) with ([x] ++ c).
  rewrite write_at_app by (apply writable_padd; exact W).
  assert (W1 : writable m (padd r (length a)) 1) by (apply writable_padd; apply (writable_le _ _ _ _ W); lia).
  rewrite (write_at_id _ _ c); [reflexivity|].
  apply has_bytes_write_other; auto. right. left. cbn. lia.
Qed.

Lemma and_byte_ok m r l i c : has_bytes m r l -> i < length l ->
  and_byte m r i c = Ret (write_at m r (upd i (N.land (nth i l 0%N) c) l)).
Proof.
  intros H Hi. unfold and_byte. rewrite (has_bytes_nth _ _ _ _ Hi H). cbn [bind].
  pose proof (has_bytes_writable _ _ _ H) as W.
  rewrite st8_write.
  2:{ apply writable_padd. apply (writable_le _ _ _ _ W). lia. }
  f_equal. destruct (upd_split i (N.land (nth i l 0%N) c) 0%N l Hi) as [E1 E2]. rewrite E2.
  rewrite E1 in H. rewrite <- (write_one _ _ _ _ _ _ H). rewrite firstn_length, Nat.min_l by lia. reflexivity.
Qed.

Lemma upd_bytes i x l : bytes_ok l -> (x < 256)%N -> bytes_ok (upd i x l).
Proof.
  intros H Hx. revert i. induction H as [|y l Hy H IH]; intros [|i]; cbn [upd]; constructor; auto. apply IH.
Qed.

Lemma and_byte_next m r l i c : writable m r (length l) -> bytes_ok l -> i < length l ->
  and_byte (write_at m r l) r i c = Ret (write_at m r (upd i (N.land (nth i l 0%N) c) l)).
Proof.
  intros W B Hi. rewrite (and_byte_ok _ _ l) by (auto using has_bytes_write_same).
  rewrite write_at_same by (rewrite ?upd_length; auto). reflexivity.
Qed.

Lemma land_num l k : length l = length k -> bytes_ok l -> bytes_ok k ->
  N.land (le_num l) (le_num k) = le_num (map (fun p => N.land (fst p) (snd p)) (combine l k)).
Proof.
  intros L B. revert k L. induction B as [|x l Hx B IH]; intros [|y k] L K; cbn [length] in L; try discriminate; auto.
  inversion K; subst. cbn [le_num combine map fst snd]. rewrite land_byte by assumption. rewrite IH by auto. reflexivity.
Qed.

(** C68: for every 16-byte r the function stores exactly the clamped value, and
    changes nothing else. *)
Theorem C68_clamp_is_rfc7539 : forall m r l,
  has_bytes m r l -> length l = 16 -> clamp m r = Ret (write_at m r (clamped l)).
Proof.
  intros m r l H L. pose proof (has_bytes_writable _ _ _ H) as W. pose proof (has_bytes_bytes _ _ _ H) as B.
  do 16 (destruct l as [|? l]; [discriminate L|]). destruct l; [|discriminate L]. clear L.
  unfold clamp. rewrite (and_byte_ok _ _ _ _ _ H) by (cbn; lia). cbn [bind nth upd].
  assert (Bl : forall b c, (b < 256)%N -> (N.land b c < 256)%N) by (intros b c Hb; apply (land_lt_l b c 8 Hb)).
  repeat match goal with X : Forall _ (_ :: _) |- _ => inversion X; clear X; subst end.
  do 6 (rewrite and_byte_next;
    [cbn [bind nth upd]|exact W|repeat constructor; auto|cbn; lia]).
  do 2 f_equal. unfold clamped.
  change r_mask with (le_num [255;255;255;15;252;255;255;15;252;255;255;15;252;255;255;15]%N).
  rewrite land_num; [|reflexivity|repeat constructor; auto|repeat constructor].
  cbn [combine map fst snd].
  assert (E : forall b, (b < 256)%N -> N.land b 255 = b).
  { intros b Hb. change 255%N with (N.ones 8). rewrite N.land_ones. apply N.mod_small. exact Hb. }
  rewrite !E by assumption.
  match goal with |- ?x = le_str _ (le_num ?y) => change 16 with (length y); rewrite (le_str_num y); [reflexivity|] end.
  repeat constructor; auto.
Qed.
Print Assumptions C68_clamp_is_rfc7539.

(** The r of RFC 7539 section 2.5.2, inside a 32-byte key. *)
Example C68_instance :
  let l := [0x85;0xd6;0xbe;0x78;0x57;0x55;0x6d;0x33;0x7f;0x44;0x52;0xfe;0x42;0xd5;0x06;0xa8]%N in
  let s := repeat 1%N 16 in
  has_bytes [holding (l ++ s)] (Ptr 0 0) l /\ length l = 16 /\
  clamp [holding (l ++ s)] (Ptr 0 0) = Ret [holding (le_str 16 0x0806d5400e52447c036d555408bed685 ++ s)].
Proof. split; [conc_has_bytes|]. split; [reflexivity|vm_compute; reflexivity]. Qed.
