From Coq Require Import NArith ZArith List Lia Arith Bool.
From Verif Require Import Res Words Mem Ints MemSpec ListLemmas MemLemmas WordsLemmas Finite
  SpecWords HexModel HexSpec.
Import ListNotations.
Local Arguments N.add : simpl never.
Local Arguments N.mul : simpl never.

Lemma int_ret_ok z : (int_min <= z <= int_max)%Z -> int_ret z = Ret z.
Proof.
  intros [H1 H2]. unfold int_ret. apply Z.leb_le in H1, H2. rewrite H1, H2. reflexivity.
Qed.

Lemma hex_chars_byte c : (c < 256)%N ->
  [hex_char (N.shiftr c 4); hex_char (N.land c 15)] = hex_of_byte c.
Proof.
  intros H. apply list_N_eqb_eq.
  apply (forall_byte (fun c => list_N_eqb [hex_char (N.shiftr c 4); hex_char (N.land c 15)] (hex_of_byte c)));
    [vm_compute; reflexivity|exact H].
Qed.

Lemma hex_text_length l : length (hex_text l) = 2 * length l.
Proof.
  induction l as [|x l IH]; auto. unfold hex_text in *. cbn [flat_map].
  rewrite app_length, IH. cbn [length hex_of_byte]. lia.
Qed.

Lemma hex_text_app a b : hex_text (a ++ b) = hex_text a ++ hex_text b.
Proof. unfold hex_text. rewrite !flat_map_concat_map, map_app, concat_app. reflexivity. Qed.

Lemma hex_encode_writes fuel m out inp data :
  has_bytes m inp data ->
  writable m out (2 * length data + 1) ->
  disjoint out (2 * length data + 1) inp (length data) ->
  (Z.of_nat (length data) < 2^30)%Z ->
  length data < fuel ->
  hex_encode fuel m out inp (Z.of_nat (length data)) =
  Ret (write_at m out (hex_text data ++ [0%N])).
Proof.
  intros Hin W D Hn Hf. unfold hex_encode.
  set (n := length data) in *.
  set (mm := fun i => match i with O => m | S _ => write_at m out (hex_text (firstn i data) ++ [0%N]) end).
  set (st := fun i : nat => (mm i, Z.of_nat i, Z.of_nat (2 * i))).
  assert (L : forall i, i <= n -> length (hex_text (firstn i data)) = 2 * i).
  { intros i Hi. rewrite hex_text_length, firstn_length. unfold n in Hi. lia. }
  assert (Hwr : forall i, i <= n -> writable (mm i) out (2 * n + 1)).
  { intros [|i] Hi; unfold mm; auto. apply writable_write_at; auto.
    rewrite app_length, L by lia. eapply writable_le; eauto. simpl. lia. }
  assert (Hrd : forall i, i <= n -> has_bytes (mm i) inp data).
  { intros [|i] Hi; unfold mm; auto. apply has_bytes_write_other; auto.
    - rewrite app_length, L by lia. eapply writable_le; eauto. simpl. lia.
    - rewrite app_length, L by lia. fold n. unfold disjoint in *. simpl length. lia. }
  assert (Hover : forall i c, i <= n -> 1 <= length c -> 2 * i + length c <= 2 * n + 1 ->
             write_at (mm i) (padd out (2 * i)) c = write_at m out (hex_text (firstn i data) ++ c)).
  { intros [|i] c Hi Hc Hb; unfold mm.
    - rewrite padd_0. reflexivity.
    - rewrite <- (L (S i)) by lia. apply write_at_overwrite; auto.
      rewrite L by lia. apply (writable_le _ _ _ _ W); lia. }
  rewrite (while_steps _ _ st n).
  - cbn [bind]. unfold st. rewrite int_ret_ok by (unfold int_min, int_max; lia). cbn [bind].
    rewrite Nat2Z.id. rewrite st8_write.
    + rewrite Hover by (simpl; lia). unfold n. rewrite firstn_all. reflexivity.
    + apply writable_padd. eapply writable_le; [apply Hwr; lia|]. lia.
  - intros i Hi. split.
    + unfold st. apply negb_true_iff. apply Z.eqb_neq. lia.
    + unfold st at 1. rewrite Nat2Z.id.
      rewrite (has_bytes_nth _ _ data) by (try apply Hrd; fold n; lia). cbn [bind].
      rewrite Nat2Z.id. unfold sprintf_02X. rewrite stn_write.
      2:{ apply writable_padd. eapply writable_le; [apply Hwr; lia|]. simpl. lia. }
      cbn [bind]. rewrite !int_ret_ok by (unfold int_min, int_max; lia). cbn [bind].
      unfold st. f_equal. f_equal; [f_equal|]; try lia.
      set (c := nth i data 0%N).
      assert (Hc : (c < 256)%N).
      { apply (proj1 (Forall_forall _ _) (has_bytes_bytes _ _ _ Hin)). apply nth_In. auto. }
      rewrite Hover by (simpl; lia). unfold mm.
      rewrite (firstn_S_nth data i 0%N) by auto. fold c. rewrite hex_text_app.
      unfold hex_text at 3. cbn [flat_map]. rewrite <- (hex_chars_byte c Hc).
      rewrite <- app_assoc. reflexivity.
  - unfold st. rewrite Z.eqb_refl. reflexivity.
  - exact Hf.
Qed.

(** *** Decoding *)

(** What the code computes from a pair of characters. *)
Definition pair_byte (a b : N) : N := Z.to_N (hex_to_ascii a b mod 256).
Fixpoint pair_bytes (l : list N) : list N :=
  match l with
  | a :: b :: t => pair_byte a b :: pair_bytes t
  | _ => []
  end.

Lemma pair_byte_lt a b : (pair_byte a b < 256)%N.
Proof. unfold pair_byte. pose proof (Z.mod_pos_bound (hex_to_ascii a b) 256). lia. Qed.

Lemma pair_bytes_length l : length (pair_bytes l) = length l / 2.
Proof.
  assert (H : forall k l, length l <= k -> length (pair_bytes l) = length l / 2).
  { clear l. induction k as [|k IH]; intros l H.
    - destruct l; [reflexivity|simpl in H; lia].
    - destruct l as [|a [|b t]]; try reflexivity. cbn [pair_bytes length] in *.
      rewrite IH by lia. replace (S (S (length t))) with (length t + 1 * 2) by lia.
      rewrite Nat.div_add by lia. lia. }
  eapply H; eauto.
Qed.

Lemma pair_bytes_ok l : bytes_ok (pair_bytes l).
Proof.
  assert (H : forall k l, length l <= k -> bytes_ok (pair_bytes l)).
  { clear l. induction k as [|k IH]; intros l H.
    - destruct l; [constructor|simpl in H; lia].
    - destruct l as [|a [|b t]]; try constructor.
      + apply pair_byte_lt.
      + apply IH. simpl in H. lia. }
  eapply H; eauto.
Qed.

Definition decode_step (inp : ptr) (i : nat) (s : mem * ptr * N) : res (mem * ptr * N) :=
  let '(m, output, buf) := s in
  let* c := ld8 m (padd inp i) in
  if negb (Nat.eqb (i mod 2) 0)
  then
    let tmp := Z.to_N (hex_to_ascii buf c mod 256) in
    let* m := st8 m output tmp in
    Ret (m, padd output 1, buf)
  else Ret (m, output, c).

Lemma pair_bytes_app a b :
  Nat.even (length a) = true -> pair_bytes (a ++ b) = pair_bytes a ++ pair_bytes b.
Proof.
  assert (H : forall k a, length a <= k -> Nat.even (length a) = true ->
             pair_bytes (a ++ b) = pair_bytes a ++ pair_bytes b).
  { clear a. induction k as [|k IH]; intros a Hk He.
    - destruct a; [reflexivity|simpl in Hk; lia].
    - destruct a as [|x [|y t]]; try reflexivity; [discriminate|].
      cbn [pair_bytes app]. f_equal. apply IH; [simpl in Hk; lia|exact He]. }
  eapply H; eauto.
Qed.

Lemma even_mod2 n : Nat.even n = true -> n mod 2 = 0 /\ S n mod 2 = 1 /\ S (S n) / 2 = S (n / 2)
   /\ S n / 2 = n / 2.
Proof.
  intros H. apply Nat.even_spec in H. destruct H as [k ->].
  replace (S (2 * k)) with (1 + k * 2) by lia.
  replace (S (1 + k * 2)) with ((1 + k) * 2) by lia.
  replace (2 * k) with (k * 2) by lia.
  rewrite Nat.mod_mul, Nat.mod_add, !Nat.div_mul, Nat.div_add by lia. auto.
Qed.

Lemma hex_decode_loop m out inp txt :
  has_bytes m inp txt ->
  writable m out (length txt / 2) ->
  (out = inp \/ disjoint out (length txt / 2) inp (length txt)) ->
  forall k pre rest buf, length rest <= k ->
  txt = pre ++ rest -> Nat.even (length pre) = true ->
  exists buf', for_n (length rest) (length pre) (decode_step inp)
    (write_at m out (pair_bytes pre), padd out (length pre / 2), buf)
  = Ret (write_at m out (pair_bytes txt), padd out (length txt / 2), buf').
Proof.
  intros Hin W D. induction k as [|k IH]; intros pre rest buf Hk E He.
  - destruct rest; [|simpl in Hk; lia]. rewrite app_nil_r in E. subst pre. exists buf. reflexivity.
  - assert (Lp : length pre <= length txt) by (rewrite E, app_length; lia).
    assert (Lp2 : length (pair_bytes pre) = length pre / 2) by apply pair_bytes_length.
    assert (Lp3 : length pre / 2 <= length pre) by (apply Nat.div_le_upper_bound; lia).
    assert (Wp : writable m out (length (pair_bytes pre))).
    { eapply writable_le; eauto. rewrite Lp2. apply Nat.div_le_mono; lia. }
    assert (Hrest : has_bytes (write_at m out (pair_bytes pre)) (padd inp (length pre)) rest).
    { apply has_bytes_write_other; auto.
      - unfold disjoint in *. rewrite pblk_padd, poff_padd, Lp2.
        assert (length pre / 2 <= length txt / 2) by (apply Nat.div_le_mono; lia).
        rewrite E, app_length in D.
        destruct D as [->|D]; [right; left; lia|]. rewrite E, app_length in H.
        destruct D as [D|[D|D]]; auto; right; [left|right]; lia.
      - rewrite E in Hin. apply has_bytes_app in Hin. apply Hin. }
    destruct (even_mod2 _ He) as [M0 [M1 [M2 M3]]].
    destruct rest as [|a [|b t]].
    + rewrite app_nil_r in E. subst pre. exists buf. reflexivity.
    + exists a. cbn [length for_n]. unfold decode_step.
      rewrite (has_bytes_ld8 _ _ _ _ Hrest). cbn [bind]. rewrite M0. cbn [Nat.eqb negb bind].
      rewrite E, app_length. simpl length. rewrite Nat.add_1_r, M3.
      rewrite pair_bytes_app by auto. simpl pair_bytes. rewrite app_nil_r. reflexivity.
    + destruct (IH (pre ++ [a; b]) t a) as [buf' IH'].
      { simpl in Hk. lia. }
      { rewrite <- app_assoc. exact E. }
      { rewrite app_length. simpl length. rewrite Nat.add_comm. exact He. }
      exists buf'. rewrite <- IH'. clear IH'.
      assert (Lt : length txt / 2 = length pre / 2 + S (length t / 2)).
      { rewrite E, app_length. cbn [length].
        apply Nat.even_spec in He. destruct He as [q ->].
        replace (2 * q + S (S (length t))) with (length t + (q + 1) * 2) by lia.
        replace (2 * q) with (q * 2) by lia.
        rewrite Nat.div_add, Nat.div_mul by lia. lia. }
      assert (S1 : decode_step inp (length pre)
                     (write_at m out (pair_bytes pre), padd out (length pre / 2), buf) =
                   Ret (write_at m out (pair_bytes pre), padd out (length pre / 2), a)).
      { unfold decode_step. rewrite (has_bytes_ld8 _ _ _ _ Hrest). cbn [bind].
        rewrite M0. reflexivity. }
      assert (S2 : decode_step inp (S (length pre))
                     (write_at m out (pair_bytes pre), padd out (length pre / 2), a) =
                   Ret (write_at m out (pair_bytes (pre ++ [a; b])), padd out (S (length pre / 2)), a)).
      { unfold decode_step.
        pose proof (proj2 (has_bytes_cons _ _ _ _ Hrest)) as Hr2.
        rewrite padd_padd, Nat.add_1_r in Hr2.
        rewrite (has_bytes_ld8 _ _ _ _ Hr2). cbn [bind]. rewrite M1. cbn [Nat.eqb negb].
        rewrite st8_write.
        2:{ apply writable_write_at; auto. apply writable_padd.
            apply (writable_le _ _ _ _ W). lia. }
        cbn [bind]. rewrite padd_padd, Nat.add_1_r.
        rewrite pair_bytes_app by auto. cbn [pair_bytes].
        rewrite (write_at_app m out (pair_bytes pre)).
        2:{ rewrite app_length. apply (writable_le _ _ _ _ W). rewrite Lp2. simpl length. lia. }
        rewrite Lp2. reflexivity. }
      cbn [length for_n]. rewrite S1. cbn [bind]. rewrite S2. cbn [bind].
      rewrite app_length. cbn [length]. rewrite (Nat.add_comm (length pre) 2). cbn [Nat.add].
      rewrite M2. reflexivity.
Qed.

Lemma hex_decode_writes m out inp txt :
  has_bytes m inp txt ->
  writable m out (length txt / 2) ->
  (out = inp \/ disjoint out (length txt / 2) inp (length txt)) ->
  hex_decode m out inp (Z.of_nat (length txt)) = Ret (write_at m out (pair_bytes txt)).
Proof.
  intros Hin W D. unfold hex_decode. rewrite Nat2Z.id.
  destruct (hex_decode_loop m out inp txt Hin W D (length txt) [] txt 0%N) as [buf' H]; auto.
  simpl length in H at 2. cbn [pair_bytes] in H. rewrite write_at_nil in H.
  change (0 / 2) with 0 in H. rewrite padd_0 in H.
  change (fun i '(m, output, buf) => _) with (decode_step inp).
  rewrite H. reflexivity.
Qed.

Lemma pair_byte_upper a b : In a upper_digits -> In b upper_digits ->
  exists x y, digit_value a = Some x /\ digit_value b = Some y /\ pair_byte a b = (16 * x + y)%N.
Proof.
  intros Ha Hb.
  assert (C : forallb (fun a => forallb (fun b =>
     match digit_value a, digit_value b with
     | Some x, Some y => N.eqb (pair_byte a b) (16 * x + y)
     | _, _ => false end) upper_digits) upper_digits = true) by (vm_compute; reflexivity).
  rewrite forallb_forall in C. specialize (C a Ha). rewrite forallb_forall in C.
  specialize (C b Hb). cbv beta in C.
  destruct (digit_value a) as [x|]; [|discriminate].
  destruct (digit_value b) as [y|]; [|discriminate].
  apply N.eqb_eq in C. eauto.
Qed.

Lemma pair_bytes_upper txt : Forall is_upper_hex txt -> hex_bytes txt = Some (pair_bytes txt).
Proof.
  assert (H : forall k txt, length txt <= k -> Forall is_upper_hex txt ->
             hex_bytes txt = Some (pair_bytes txt)).
  { clear txt. induction k as [|k IH]; intros txt Hk F.
    - destruct txt; [reflexivity|simpl in Hk; lia].
    - destruct txt as [|a [|b t]]; try reflexivity.
      inversion F as [|? ? Fa F']; subst. inversion F' as [|? ? Fb Ft]; subst.
      destruct (pair_byte_upper a b Fa Fb) as [x [y [Ex [Ey Ep]]]].
      cbn [hex_bytes pair_bytes]. rewrite Ex, Ey, IH by (simpl in Hk; auto; lia).
      rewrite Ep. reflexivity. }
  eapply H; eauto.
Qed.

Lemma hex_of_byte_upper c : (c < 256)%N -> Forall is_upper_hex (hex_of_byte c).
Proof.
  intros H. unfold hex_of_byte, is_upper_hex. constructor; [|constructor; [|constructor]].
  - apply nth_In. assert (c / 16 < 16)%N by (apply N.div_lt_upper_bound; lia).
    change (length upper_digits) with 16. lia.
  - apply nth_In. assert (c mod 16 < 16)%N by (apply N.mod_lt; lia).
    change (length upper_digits) with 16. lia.
Qed.

Lemma hex_text_upper l : bytes_ok l -> Forall is_upper_hex (hex_text l).
Proof.
  induction 1 as [|x l Hx H IH]; [constructor|].
  unfold hex_text. cbn [flat_map]. apply Forall_app. split; [apply hex_of_byte_upper; auto|exact IH].
Qed.

Lemma pair_byte_hex c : (c < 256)%N -> pair_bytes (hex_of_byte c) = [c].
Proof.
  intros H. apply list_N_eqb_eq.
  apply (forall_byte (fun c => list_N_eqb (pair_bytes (hex_of_byte c)) [c]));
    [vm_compute; reflexivity|exact H].
Qed.

Lemma pair_bytes_hex_text l : bytes_ok l -> pair_bytes (hex_text l) = l.
Proof.
  induction 1 as [|x l Hx H IH]; auto.
  unfold hex_text. cbn [flat_map]. rewrite pair_bytes_app by reflexivity.
  fold (hex_text l). rewrite IH, pair_byte_hex; auto.
Qed.

Lemma hex_of_pair a b : In a upper_digits -> In b upper_digits ->
  hex_of_byte (pair_byte a b) = [a; b].
Proof.
  intros Ha Hb.
  assert (C : forallb (fun a => forallb (fun b => list_N_eqb (hex_of_byte (pair_byte a b)) [a; b])
     upper_digits) upper_digits = true) by (vm_compute; reflexivity).
  rewrite forallb_forall in C. specialize (C a Ha). rewrite forallb_forall in C.
  specialize (C b Hb). apply list_N_eqb_eq. exact C.
Qed.

Lemma hex_text_pair_bytes txt :
  Forall is_upper_hex txt -> Nat.even (length txt) = true -> hex_text (pair_bytes txt) = txt.
Proof.
  assert (H : forall k txt, length txt <= k -> Forall is_upper_hex txt ->
             Nat.even (length txt) = true -> hex_text (pair_bytes txt) = txt).
  { clear txt. induction k as [|k IH]; intros txt Hk F He.
    - destruct txt; [reflexivity|simpl in Hk; lia].
    - destruct txt as [|a [|b t]]; try reflexivity; [discriminate|].
      inversion F as [|? ? Fa F']; subst. inversion F' as [|? ? Fb Ft]; subst.
      unfold hex_text. cbn [pair_bytes flat_map]. rewrite hex_of_pair by auto.
      cbn [app]. do 2 f_equal. apply IH; auto. simpl in Hk. lia. }
  eapply H; eauto.
Qed.

(** Characters outside A-F: lower-case letters always give a wrong byte. *)
Lemma pair_byte_lower a b x y :
  digit_value a = Some x -> digit_value b = Some y ->
  In a (upper_digits ++ lower_digits) -> In b (upper_digits ++ lower_digits) ->
  (pair_byte a b = (16 * x + y)%N <-> In a upper_digits /\ In b upper_digits).
Proof.
  intros Ex Ey Ha Hb.
  assert (C : forallb (fun a => forallb (fun b =>
     match digit_value a, digit_value b with
     | Some x, Some y => Bool.eqb (N.eqb (pair_byte a b) (16 * x + y))
          (existsb (N.eqb a) upper_digits && existsb (N.eqb b) upper_digits)
     | _, _ => false end) (upper_digits ++ lower_digits)) (upper_digits ++ lower_digits) = true)
    by (vm_compute; reflexivity).
  rewrite forallb_forall in C. specialize (C a Ha). rewrite forallb_forall in C.
  specialize (C b Hb). cbv beta in C. rewrite Ex, Ey in C.
  apply eqb_prop in C.
  assert (In1 : forall z, existsb (N.eqb z) upper_digits = true <-> In z upper_digits).
  { intros z. rewrite existsb_exists. split.
    - intros [w [Hw Hz]]. apply N.eqb_eq in Hz. subst. auto.
    - intros Hz. exists z. split; auto. apply N.eqb_refl. }
  rewrite <- N.eqb_eq, C, andb_true_iff, !In1. reflexivity.
Qed.

Lemma digit_value_in c x : digit_value c = Some x -> In c (upper_digits ++ lower_digits).
Proof.
  assert (G : forall l i v, (fix go (l : list N) (i : N) :=
     match l with
     | [] => None
     | x :: t => if (x =? c)%N then Some i else go t (i + 1)%N
     end) l i = Some v -> In c l).
  { induction l as [|a l IH]; intros i v H; [discriminate|].
    destruct (N.eqb_spec a c); [left; auto|right; eapply IH; eauto]. }
  unfold digit_value, index_of. intros H. apply in_or_app.
  destruct ((fix go (l : list N) (i : N) {struct l} := _) upper_digits 0%N) eqn:E.
  - left. eapply G; eauto.
  - right. eapply G; eauto.
Qed.

Lemma hex_bytes_exact txt :
  Nat.even (length txt) = true -> (exists v, hex_bytes txt = Some v) ->
  (hex_bytes txt = Some (pair_bytes txt) <-> Forall is_upper_hex txt).
Proof.
  intros He Hv. split; [|apply pair_bytes_upper].
  assert (H : forall k txt, length txt <= k -> Nat.even (length txt) = true ->
             hex_bytes txt = Some (pair_bytes txt) -> Forall is_upper_hex txt).
  { clear. induction k as [|k IH]; intros txt Hk He H.
    - destruct txt; [constructor|simpl in Hk; lia].
    - destruct txt as [|a [|b t]]; [constructor|discriminate|].
      cbn [hex_bytes pair_bytes] in H.
      destruct (digit_value a) as [x|] eqn:Ea; [|discriminate].
      destruct (digit_value b) as [y|] eqn:Eb; [|discriminate].
      destruct (hex_bytes t) as [r|] eqn:Et; [|discriminate].
      injection H as H1 H2. symmetry in H1.
      apply (pair_byte_lower a b x y) in H1; eauto using digit_value_in.
      destruct H1. constructor; [assumption|constructor; [assumption|]]. apply IH; auto; [simpl in Hk; lia|congruence]. }
  intros. eapply H; eauto.
Qed.

Lemma hex_encode_then_decode fuel m out inp data :
  has_bytes m inp data ->
  writable m out (2 * length data + 1) ->
  disjoint out (2 * length data + 1) inp (length data) ->
  (Z.of_nat (length data) < 2^30)%Z ->
  length data < fuel ->
  exists m1,
    hex_encode fuel m out inp (Z.of_nat (length data)) = Ret m1 /\
    m1 = write_at m out (hex_text data ++ [0%N]) /\
    forall back,
      writable m back (length data) ->
      back = out \/ disjoint back (length data) out (2 * length data) ->
      hex_decode m1 back out (Z.of_nat (2 * length data)) = Ret (write_at m1 back data).
Proof.
  intros Hin W D Hn Hf. exists (write_at m out (hex_text data ++ [0%N])).
  split; [apply hex_encode_writes; auto|]. split; [reflexivity|].
  intros back Wb Db.
  assert (Hok := has_bytes_bytes _ _ _ Hin).
  assert (Wt : writable m out (length (hex_text data ++ [0%N]))).
  { rewrite app_length, hex_text_length. exact W. }
  assert (Ht : has_bytes (write_at m out (hex_text data ++ [0%N])) out (hex_text data)).
  { assert (H : has_bytes (write_at m out (hex_text data ++ [0%N])) out (hex_text data ++ [0%N])).
    { apply has_bytes_write_same; auto. apply Forall_app. split.
      - eapply Forall_impl; [|apply hex_text_upper; exact Hok].
        intros a Ha. cbv beta in Ha. unfold is_upper_hex in Ha.
        assert (C : forallb (fun a => (a <? 256)%N) upper_digits = true) by reflexivity.
        rewrite forallb_forall in C. apply N.ltb_lt. apply C. exact Ha.
      - repeat constructor. }
    apply has_bytes_app in H. apply H. }
  assert (L2 : 2 * length data / 2 = length data).
  { rewrite Nat.mul_comm. apply Nat.div_mul. lia. }
  rewrite <- (hex_text_length data).
  rewrite hex_decode_writes; auto.
  - rewrite pair_bytes_hex_text; auto.
  - rewrite hex_text_length, L2. apply writable_write_at; auto.
  - rewrite hex_text_length, L2. auto.
Qed.

Lemma hex_decode_then_encode fuel m out inp txt back :
  has_bytes m inp txt -> Forall is_upper_hex txt -> Nat.even (length txt) = true ->
  writable m out (length txt / 2) ->
  disjoint out (length txt / 2) inp (length txt) ->
  writable m back (length txt + 1) ->
  disjoint back (length txt + 1) out (length txt / 2) ->
  (Z.of_nat (length txt) < 2^31)%Z -> length txt < fuel ->
  exists m1 m2 v,
    hex_decode m out inp (Z.of_nat (length txt)) = Ret m1 /\
    hex_bytes txt = Some v /\ m1 = write_at m out v /\
    hex_encode fuel m1 back out (Z.of_nat (length txt / 2)) = Ret m2 /\
    m2 = write_at m1 back (txt ++ [0%N]).
Proof.
  intros Hin F He W D Wb Db Hn Hf.
  assert (L2 : 2 * (length txt / 2) = length txt).
  { apply Nat.even_spec in He. destruct He as [k ->]. rewrite (Nat.mul_comm 2 k), Nat.div_mul by lia. lia. }
  assert (Lp := pair_bytes_length txt).
  exists (write_at m out (pair_bytes txt)), (write_at (write_at m out (pair_bytes txt)) back (txt ++ [0%N])),
    (pair_bytes txt).
  split; [apply hex_decode_writes; auto|]. split; [apply pair_bytes_upper; auto|]. split; [reflexivity|].
  split; [|reflexivity].
  rewrite <- Lp. rewrite hex_encode_writes.
  - rewrite hex_text_pair_bytes by auto. reflexivity.
  - apply has_bytes_write_same; [rewrite Lp; auto|apply pair_bytes_ok].
  - rewrite Lp, L2. apply writable_write_at; [rewrite Lp; auto|auto].
  - rewrite Lp, L2. auto.
  - rewrite Lp. lia.
  - rewrite Lp. lia.
Qed.

Lemma hex_decode_odd m out inp txt c :
  has_bytes m inp (txt ++ [c]) -> Nat.even (length txt) = true ->
  writable m out (length txt / 2) ->
  disjoint out (length txt / 2) inp (length txt + 1) ->
  hex_decode m out inp (Z.of_nat (length txt + 1)) = hex_decode m out inp (Z.of_nat (length txt)).
Proof.
  intros Hin He W D.
  destruct (even_mod2 _ He) as [_ [_ [_ L]]].
  replace (length txt + 1) with (length (txt ++ [c])) in * by (rewrite app_length; reflexivity).
  assert (L' : length (txt ++ [c]) / 2 = length txt / 2).
  { rewrite app_length. simpl length. rewrite Nat.add_1_r. exact L. }
  rewrite hex_decode_writes; auto.
  2:{ rewrite L'. auto. }
  2:{ right. rewrite L'. auto. }
  rewrite hex_decode_writes; auto.
  - rewrite pair_bytes_app by auto. simpl pair_bytes. rewrite app_nil_r. reflexivity.
  - apply has_bytes_app in Hin. apply Hin.
  - right. unfold disjoint in *. rewrite app_length in D. simpl length in D. lia.
Qed.

Lemma hex_decode_case_exact m out inp txt :
  has_bytes m inp txt -> Nat.even (length txt) = true -> (exists v, hex_bytes txt = Some v) ->
  writable m out (length txt / 2) ->
  disjoint out (length txt / 2) inp (length txt) ->
  exists r, hex_decode m out inp (Z.of_nat (length txt)) = Ret (write_at m out r) /\
    length r = length txt / 2 /\
    (hex_bytes txt = Some r <-> Forall is_upper_hex txt).
Proof.
  intros Hin He Hv W D. exists (pair_bytes txt).
  split; [apply hex_decode_writes; auto|]. split; [apply pair_bytes_length|].
  apply hex_bytes_exact; auto.
Qed.
