(** The word operations of Legacy/DES in terms of FIPS 46-3. *)
From Coq Require Import Arith NArith List Bool Lia.
From Verif Require Import Res Words Mem MemSpec ListLemmas WordsLemmas Finite BitSel DesTables DesSpec DesModel.
Import ListNotations.
Local Open Scope N_scope.

(** The bits of a word, most significant first. *)
Definition wbits_n (n : nat) (w : N) : list bool := map (fun i => N.testbit w (N.of_nat (n - 1 - i))) (seq 0 n).
Notation wbits := (wbits_n 32).
Notation b28 := (wbits_n 28).

Lemma wbits_nth n w : wbits_n n w = map (fun k => N.testbit w (N.of_nat k)) (rev (seq 0 n)).
Proof.
  unfold wbits_n. induction n as [|n IH]; [reflexivity|].
  assert (R : rev (seq 0 (S n)) = n :: rev (seq 0 n)) by (rewrite seq_S, rev_app_distr; reflexivity).
  rewrite R. cbn [seq map]. rewrite <- IH, <- seq_shift, map_map. f_equal; [f_equal; f_equal; lia|].
  apply map_ext_in. intros i Hi. f_equal. f_equal. apply in_seq in Hi. lia.
Qed.

(** [selects e ms]: the bits of [e] are single input bits or zero, given by the
    masks [ms], least significant bit first. *)
Definition selects (e : bexp) : bool :=
  match seval e with Some ms => forallb single ms | None => false end.
Definition masks (e : bexp) : list N := match seval e with Some ms => ms | None => [] end.

Lemma selects_ok X Y e : X < 2^32 -> Y < 2^32 -> selects e = true ->
  deval [X; Y] e < 2^32 /\ wbits (deval [X; Y] e) = map (bit_of [X; Y]) (rev (masks e)).
Proof.
  intros HX HY H. unfold selects, masks in *. destruct (seval e) as [ms|] eqn:S; [|discriminate].
  assert (HE : forall v, (v < 2)%nat -> nth v [X; Y] 0 < 2^32).
  { intros [|[|v]] Hv; [exact HX|exact HY|lia]. }
  pose proof (seval_ok _ _ _ HE S) as HS. split; [exact (sym_lt _ _ _ HS)|]. destruct HS as [L HS].
  rewrite wbits_nth, !map_rev. f_equal.
  apply nth_ext with false false; [rewrite !map_length, seq_length; congruence|].
  rewrite map_length, seq_length. intros k Hk.
  rewrite (nth_indep _ false (N.testbit (deval [X; Y] e) (N.of_nat 0))) by (rewrite map_length, seq_length; exact Hk).
  rewrite (map_nth (fun k => N.testbit (deval [X; Y] e) (N.of_nat k))), seq_nth by exact Hk. cbn [Nat.add].
  rewrite HS.
  rewrite (nth_indep (map (bit_of [X; Y]) ms) false (bit_of [X; Y] 0)) by (rewrite map_length; lia). rewrite map_nth.
  apply par_single. rewrite forallb_forall in H. apply H. apply nth_In. lia.
Qed.

(** The 32-bit words as expressions. *)
Definition e_exchange (A B : bexp) (s mask : N) : bexp * bexp :=
  let T := BAnd (BXor (BShr A s) B) mask in (BXor A (BShl T s), BXor B T).
Definition e_ip (X Y : bexp) : bexp * bexp :=
  let '(X, Y) := e_exchange X Y 4 0x0f0f0f0f in
  let '(X, Y) := e_exchange X Y 16 0x0000ffff in
  let '(Y, X) := e_exchange Y X 2 0x33333333 in
  let '(Y, X) := e_exchange Y X 8 0x00ff00ff in
  let Y := BAnd (BOr (BShl Y 1) (BShr Y 31)) 0xffffffff in
  let T := BAnd (BXor X Y) 0xaaaaaaaa in
  let Y := BXor Y T in
  let X := BXor X T in
  let X := BAnd (BOr (BShl X 1) (BShr X 31)) 0xffffffff in
  (X, Y).
Definition e_fp (X Y : bexp) : bexp * bexp :=
  let X := BAnd (BOr (BShl X 31) (BShr X 1)) 0xffffffff in
  let T := BAnd (BXor X Y) 0xaaaaaaaa in
  let X := BXor X T in
  let Y := BXor Y T in
  let Y := BAnd (BOr (BShl Y 31) (BShr Y 1)) 0xffffffff in
  let '(Y, X) := e_exchange Y X 8 0x00ff00ff in
  let '(Y, X) := e_exchange Y X 2 0x33333333 in
  let '(X, Y) := e_exchange X Y 16 0x0000ffff in
  let '(X, Y) := e_exchange X Y 4 0x0f0f0f0f in
  (X, Y).
Definition e_key_halves (X Y : bexp) : bexp * bexp :=
  let '(Y, X) := e_exchange Y X 4 0x0f0f0f0f in
  let '(Y, X) := e_exchange Y X 0 0x10101010 in
  let l X s := BTab LHs (BAnd (BShr X s) 0xf) in
  let r X s := BTab RHs (BAnd (BShr X s) 0xf) in
  let X := BOr (BOr (BOr (BOr (BOr (BOr (BOr
      (BShl (l X 0) 3) (BShl (l X 8) 2)) (BShl (l X 16) 1)) (l X 24))
      (BShl (l X 5) 7)) (BShl (l X 13) 6)) (BShl (l X 21) 5)) (BShl (l X 29) 4) in
  let Y := BOr (BOr (BOr (BOr (BOr (BOr (BOr
      (BShl (r Y 1) 3) (BShl (r Y 9) 2)) (BShl (r Y 17) 1)) (r Y 25))
      (BShl (r Y 4) 7)) (BShl (r Y 12) 6)) (BShl (r Y 20) 5)) (BShl (r Y 28) 4) in
  (BAnd X 0x0fffffff, BAnd Y 0x0fffffff).

Lemma e_ip_ok X Y : des_ip X Y = (deval [X; Y] (fst (e_ip (BIn 0) (BIn 1))), deval [X; Y] (snd (e_ip (BIn 0) (BIn 1)))).
Proof. reflexivity. Qed.
Lemma e_fp_ok X Y : des_fp X Y = (deval [X; Y] (fst (e_fp (BIn 0) (BIn 1))), deval [X; Y] (snd (e_fp (BIn 0) (BIn 1)))).
Proof. reflexivity. Qed.
Lemma e_key_halves_ok X Y : key_halves X Y =
  (deval [X; Y] (fst (e_key_halves (BIn 0) (BIn 1))), deval [X; Y] (snd (e_key_halves (BIn 0) (BIn 1)))).
Proof. reflexivity. Qed.


#[local] Opaque N.testbit.
Ltac by_masks := 
  match goal with |- _ = map _ (rev ?ms) => let v := eval vm_compute in ms in change ms with v end.

Lemma ip_bits X Y : X < 2^32 -> Y < 2^32 ->
  let x := select IP (wbits X ++ wbits Y) in
  fst (des_ip X Y) < 2^32 /\ snd (des_ip X Y) < 2^32 /\
  wbits (fst (des_ip X Y)) = rotate 1 (firstn 32 x) /\ wbits (snd (des_ip X Y)) = rotate 1 (skipn 32 x).
Proof.
  intros HX HY x. rewrite e_ip_ok. cbn [fst snd].
  destruct (selects_ok X Y (fst (e_ip (BIn 0) (BIn 1))) HX HY ltac:(vm_compute; reflexivity)) as [A1 B1].
  destruct (selects_ok X Y (snd (e_ip (BIn 0) (BIn 1))) HX HY ltac:(vm_compute; reflexivity)) as [A2 B2].
  split; [exact A1|]. split; [exact A2|]. rewrite B1, B2. clear A1 B1 A2 B2.
  split; symmetry; by_masks; subst x; reflexivity.
Qed.

Lemma fp_bits X Y : X < 2^32 -> Y < 2^32 ->
  fst (des_fp X Y) < 2^32 /\ snd (des_fp X Y) < 2^32 /\
  wbits (fst (des_fp X Y)) ++ wbits (snd (des_fp X Y)) =
    select IP_inverse (rotate 31 (wbits X) ++ rotate 31 (wbits Y)).
Proof.
  intros HX HY. rewrite e_fp_ok. cbn [fst snd].
  destruct (selects_ok X Y (fst (e_fp (BIn 0) (BIn 1))) HX HY ltac:(vm_compute; reflexivity)) as [A1 B1].
  destruct (selects_ok X Y (snd (e_fp (BIn 0) (BIn 1))) HX HY ltac:(vm_compute; reflexivity)) as [A2 B2].
  split; [exact A1|]. split; [exact A2|]. rewrite B1, B2. clear A1 B1 A2 B2.
  rewrite <- map_app. 
  match goal with |- map _ ?ms = _ => let v := eval vm_compute in ms in change ms with v end. reflexivity.
Qed.

(** ** The key schedule *)
Lemma b28_of w : wbits w = firstn 4 (wbits w) ++ b28 w.
Proof. reflexivity. Qed.
Lemma lt28 w : w < 2^32 -> firstn 4 (wbits w) = [false; false; false; false] -> w < 2^28.
Proof.
  intros H E. apply lt_pow2_testbit. intros i Hi. destruct (N.lt_ge_cases i 32) as [L|L].
  - injection E as E0 E1 E2 E3.
    assert (C : i = 28 \/ i = 29 \/ i = 30 \/ i = 31) by lia. destruct C as [->|[->|[->| ->]]]; assumption.
  - apply (proj1 (lt_pow2_testbit w 32) H). exact L.
Qed.

Lemma halves_bits X Y : X < 2^32 -> Y < 2^32 ->
  let x := select PC1 (wbits X ++ wbits Y) in
  fst (key_halves X Y) < 2^28 /\ snd (key_halves X Y) < 2^28 /\
  b28 (fst (key_halves X Y)) = firstn 28 x /\ b28 (snd (key_halves X Y)) = skipn 28 x.
Proof.
  intros HX HY x. rewrite e_key_halves_ok. cbn [fst snd].
  destruct (selects_ok X Y (fst (e_key_halves (BIn 0) (BIn 1))) HX HY ltac:(vm_compute; reflexivity)) as [A1 B1].
  destruct (selects_ok X Y (snd (e_key_halves (BIn 0) (BIn 1))) HX HY ltac:(vm_compute; reflexivity)) as [A2 B2].
  remember (deval [X; Y] (fst (e_key_halves (BIn 0) (BIn 1)))) as u eqn:Qu. clear Qu.
  remember (deval [X; Y] (snd (e_key_halves (BIn 0) (BIn 1)))) as v eqn:Qv. clear Qv.
  assert (U : wbits u = repeat false 4%nat ++ firstn 28 x).
  { rewrite B1. symmetry; by_masks; subst x; reflexivity. }
  assert (V : wbits v = repeat false 4%nat ++ skipn 28 x).
  { rewrite B2. symmetry; by_masks; subst x; reflexivity. }
  clear B1 B2 HX HY. clearbody x.
  assert (G : forall w y, w < 2^32 -> wbits w = repeat false 4%nat ++ y -> w < 2^28 /\ b28 w = y).
  { clear. intros w y H E. rewrite b28_of in E.
    pose proof (f_equal (firstn 4) E) as E1. pose proof (f_equal (skipn 4) E) as E2. split; [apply lt28; [exact H|exact E1]|exact E2]. }
  destruct (G u _ A1 U). destruct (G v _ A2 V). repeat split; assumption.
Qed.

Definition grp (w : N) (s : N) : list bool :=
  [N.testbit w (s + 5); N.testbit w (s + 4); N.testbit w (s + 3); N.testbit w (s + 2); N.testbit w (s + 1); N.testbit w s].
(** The 48 subkey bits held in two words of the schedule. *)
Definition subkey_bits (k0 k1 : N) : list bool :=
  grp k1 24 ++ grp k0 24 ++ grp k1 16 ++ grp k0 16 ++ grp k1 8 ++ grp k0 8 ++ grp k1 0 ++ grp k0 0.

Definition e_or (l : list bexp) (a : bexp) : bexp := fold_left BOr l a.
Definition x28 := BAnd (BIn 0) 0x0fffffff.
Definition y28 := BAnd (BIn 1) 0x0fffffff.
Definition e_rot (s : N) : bexp := BAnd (BOr (BShl x28 s) (BShr x28 (28 - s))) 0x0fffffff.
Definition e_up (V : bexp) (s mask : N) : bexp := BAnd (BShl V s) mask.
Definition e_dn (V : bexp) (s mask : N) : bexp := BAnd (BShr V s) mask.
Definition e_subkey0 : bexp := let X := x28 in let Y := y28 in
  e_or
    [e_up X 28 0x10000000; e_up X 14 0x08000000; e_up X 18 0x02080000; e_up X 6 0x01000000; e_up X 9 0x00200000;
     e_dn X 1 0x00100000; e_up X 10 0x00040000; e_up X 2 0x00020000; e_dn X 10 0x00010000;
     e_dn Y 13 0x00002000; e_dn Y 4 0x00001000; e_up Y 6 0x00000800; e_dn Y 1 0x00000400;
     e_dn Y 14 0x00000200; e_dn Y 0 0x00000100; e_dn Y 5 0x00000020; e_dn Y 10 0x00000010;
     e_dn Y 3 0x00000008; e_dn Y 18 0x00000004; e_dn Y 26 0x00000002; e_dn Y 24 0x00000001]
    (e_up X 4 0x24000000).
Definition e_subkey1 : bexp := let X := x28 in let Y := y28 in
  e_or
    [e_up X 17 0x10000000; e_up X 10 0x08000000; e_up X 22 0x04000000; e_dn X 2 0x02000000; e_up X 1 0x01000000;
     e_up X 16 0x00200000; e_up X 11 0x00100000; e_up X 3 0x00080000; e_dn X 6 0x00040000; e_up X 15 0x00020000;
     e_dn X 4 0x00010000; e_dn Y 2 0x00002000; e_up Y 8 0x00001000; e_dn Y 14 0x00000808; e_dn Y 9 0x00000400;
     e_dn Y 0 0x00000200; e_up Y 7 0x00000100; e_dn Y 7 0x00000020; e_dn Y 3 0x00000011; e_up Y 2 0x00000004;
     e_dn Y 21 0x00000002]
    (e_up X 15 0x20000000).
Lemma e_subkey_ok X Y :
  deval [X; Y] e_subkey0 = subkey0 (N.land X 0x0fffffff) (N.land Y 0x0fffffff) /\
  deval [X; Y] e_subkey1 = subkey1 (N.land X 0x0fffffff) (N.land Y 0x0fffffff).
Proof.
  unfold e_subkey0, e_subkey1, e_or, e_up, e_dn, x28, y28, subkey0, subkey1, up, dn.
  cbn [fold_left deval nth]. split; reflexivity.
Qed.
Lemma land28 X : X < 2^28 -> N.land X 0x0fffffff = X.
Proof. intros H. change 0x0fffffff with (N.ones 28). rewrite N.land_ones. apply N.mod_small. exact H. Qed.

Lemma wbits_grp w s : (s <= 26)%nat ->
  grp w (N.of_nat s) = firstn 6 (skipn (26 - s) (wbits w)).
Proof. intros H. do 27 (destruct s as [|s]; [reflexivity|]). lia. Qed.

Lemma subkey_bits_wbits k0 k1 : subkey_bits k0 k1 =
  let g w n := firstn 6 (skipn n (wbits w)) in
  g k1 2%nat ++ g k0 2%nat ++ g k1 10%nat ++ g k0 10%nat ++ g k1 18%nat ++ g k0 18%nat ++ g k1 26%nat ++ g k0 26%nat.
Proof. reflexivity. Qed.

Lemma subkey_ok X Y : X < 2^28 -> Y < 2^28 ->
  subkey0 X Y < 2^32 /\ subkey1 X Y < 2^32 /\
  subkey_bits (subkey0 X Y) (subkey1 X Y) = select PC2 (b28 X ++ b28 Y).
Proof.
  intros HX HY. assert (H32 : forall x, x < 2^28 -> x < 2^32) by (intros x H; apply N.lt_trans with (2^28); [exact H|reflexivity]).
  destruct (e_subkey_ok X Y) as [E0 E1]. rewrite !land28 in E0, E1 by assumption.
  destruct (selects_ok X Y e_subkey0 (H32 X HX) (H32 Y HY) ltac:(vm_compute; reflexivity)) as [A1 B1].
  destruct (selects_ok X Y e_subkey1 (H32 X HX) (H32 Y HY) ltac:(vm_compute; reflexivity)) as [A2 B2].
  rewrite E0 in *. rewrite E1 in *. split; [exact A1|]. split; [exact A2|].
  rewrite subkey_bits_wbits. cbv beta zeta. rewrite B1, B2. clear.
  match goal with |- context [rev (masks e_subkey0)] => let v := eval vm_compute in (rev (masks e_subkey0)) in change (rev (masks e_subkey0)) with v end.
  match goal with |- context [rev (masks e_subkey1)] => let v := eval vm_compute in (rev (masks e_subkey1)) in change (rev (masks e_subkey1)) with v end.
  reflexivity.
Qed.

Lemma rot_ok X s : X < 2^28 -> s = 1 \/ s = 2 -> rot28 X s < 2^28 /\ b28 (rot28 X s) = rotate (N.to_nat s) (b28 X).
Proof.
  intros HX Hs. assert (H32 : X < 2^32) by (apply N.lt_trans with (2^28); [exact HX|reflexivity]).
  assert (E : deval [X; 0] (e_rot s) = rot28 X s) by (rewrite <- (land28 X HX) at 2; destruct Hs as [-> | ->]; reflexivity).
  assert (W : rot28 X s < 2^32 /\ wbits (rot28 X s) = repeat false 4%nat ++ rotate (N.to_nat s) (b28 X)).
  { rewrite <- E. destruct Hs as [-> | ->].
    - destruct (selects_ok X 0 (e_rot 1) H32 ltac:(reflexivity) ltac:(vm_compute; reflexivity)) as [A B].
      split; [exact A|]. rewrite B. symmetry. by_masks. reflexivity.
    - destruct (selects_ok X 0 (e_rot 2) H32 ltac:(reflexivity) ltac:(vm_compute; reflexivity)) as [A B].
      split; [exact A|]. rewrite B. symmetry. by_masks. reflexivity. }
  destruct W as [A W]. rewrite b28_of in W.
  split; [apply lt28; [exact A|exact (f_equal (firstn 4) W)]|exact (f_equal (skipn 4) W)].
Qed.
