(** Property C133: which sizes the hexadecimal functions accept. *)
From Coq Require Import String Arith NArith ZArith List Bool Lia.
From Verif Require Import Res Words Mem MemSpec MemLemmas Ints Concrete HexSpec HexModel HexProofs HexBoundProps.
Import ListNotations.
Local Open Scope string_scope.
Local Open Scope nat_scope.

Lemma ld8_defined m p : ld8 m p = UB \/ exists c, ld8 m p = Ret c.
Proof.
  unfold ld8. repeat match goal with |- context [match ?x with _ => _ end] => destruct x end; eauto.
Qed.

Lemma int_ret_cases z : (int_ret z = UB /\ ~ (int_min <= z <= int_max)%Z) \/ (int_ret z = Ret z /\ (int_min <= z <= int_max)%Z).
Proof.
  unfold int_ret. destruct (Z.leb_spec int_min z), (Z.leb_spec z int_max); cbn [andb]; [right|left|left|left];
    (split; [reflexivity|lia]).
Qed.

(** The loop ends only with [loop] = [size] and [i] = 2 [size], both without
    overflow; with fuel for 2^30 rounds it cannot run out. *)
Lemma encode_loop fuel m out inp size :
  (hex_encode fuel m out inp size = UB \/ exists m', hex_encode fuel m out inp size = Ret m' /\ (0 <= size < 2^30)%Z) \/
  (hex_encode fuel m out inp size = NoFuel /\ (Z.of_nat fuel < 2^30 + 1)%Z).
Proof.
  change (2^30)%Z with 1073741824%Z. unfold hex_encode.
  match goal with |- context [while _ ?c ?b _] => set (cond := c); set (body := b) end.
  assert (W : forall f j m1, (Z.of_nat j <= 1073741823)%Z ->
    while f cond body (m1, Z.of_nat j, Z.of_nat (2 * j)) = UB \/
    (exists m2 k, while f cond body (m1, Z.of_nat j, Z.of_nat (2 * j)) = Ret (m2, Z.of_nat k, Z.of_nat (2 * k)) /\
       Z.of_nat k = size /\ (Z.of_nat k <= 1073741823)%Z) \/
    (while f cond body (m1, Z.of_nat j, Z.of_nat (2 * j)) = NoFuel /\ (Z.of_nat j + Z.of_nat f < 1073741825)%Z)).
  { induction f as [|f IH]; intros j m1 Hj; cbn [while]; [right; right; split; [reflexivity|lia]|].
    unfold cond at 1 3 5. destruct (Z.eqb_spec (Z.of_nat j) size) as [E|NE]; cbn [negb].
    - right; left. exists m1, j. auto.
    - unfold body at 1 3 5. rewrite !Nat2Z.id.
      destruct (ld8_defined m1 (padd inp j)) as [LD|[c LD]]; rewrite LD; cbn [bind]; [left; reflexivity|].
      unfold sprintf_02X.
      destruct (stn_sizes [hex_char (N.shiftr c 4); hex_char (N.land c 15); 0%N] m1 (padd out (2 * j)))
        as [E|(m2 & E & S2)]; rewrite E; cbn [bind]; [left; reflexivity|].
      destruct (int_ret_cases (Z.of_nat j + 1)) as [[E1 R1]|[E1 R1]]; rewrite E1; cbn [bind]; [left; reflexivity|].
      destruct (int_ret_cases (Z.of_nat (2 * j) + 2)) as [[E2 R2]|[E2 R2]]; rewrite E2; cbn [bind]; [left; reflexivity|].
      unfold int_min, int_max in R2.
      replace (Z.of_nat j + 1)%Z with (Z.of_nat (S j)) by lia.
      replace (Z.of_nat (2 * j) + 2)%Z with (Z.of_nat (2 * S j)) by lia.
      destruct (IH (S j) m2 ltac:(lia)) as [G|[G|[G1 G2]]]; [left; exact G|right; left; exact G|right; right].
      split; [exact G1|lia]. }
  specialize (W fuel 0 m ltac:(lia)). change (Z.of_nat (2 * 0)) with 0%Z in W. change (Z.of_nat 0) with 0%Z in W.
  destruct W as [W|[(m2 & k & W & K1 & K2)|[W K]]]; rewrite W; cbn [bind].
  - left; left; reflexivity.
  - left. rewrite int_ret_ok by (unfold int_min, int_max; lia). cbn [bind].
    destruct (st8_sizes m2 (padd out (Z.to_nat (Z.of_nat (2 * k)))) 0%N) as [E|(m3 & E & _)]; rewrite E;
      [left; reflexivity|right]. exists m3. split; [reflexivity|lia].
  - right. split; [reflexivity|lia].
Qed.

Lemma zeros_held n r : has_bytes (holding (repeat 0%N n) :: r) (Ptr 0 0) (repeat 0%N n).
Proof.
  split; [apply Forall_forall; intros x H; apply repeat_spec in H; subst; reflexivity|].
  exists (holding (repeat 0%N n)). split; [reflexivity|]. unfold holding. cbn [poff pblk skipn].
  rewrite map_length, repeat_length. split; [lia|]. apply firstn_all2. rewrite map_length, repeat_length. lia.
Qed.

(** C133, false: some values of the int [size] are undefined behaviour whatever
    the buffers are, e.g. -1 and 2^30. *)
Theorem C133_hex_encode_every_size_refuted : exists size : Z, (int_min <= size <= int_max)%Z /\
  forall fuel m out inp, (2^30 < Z.of_nat fuel)%Z -> hex_encode fuel m out inp size = UB.
Proof.
  exists (2^30)%Z. change (2^30)%Z with 1073741824%Z. split; [unfold int_min, int_max; lia|].
  intros fuel m out inp F. destruct (encode_loop fuel m out inp 1073741824) as [[E|(m' & E & R)]|[E R]];
    [exact E|change (2^30)%Z with 1073741824%Z in R; lia|change (2^30)%Z with 1073741824%Z in R; lia].
Qed.
Print Assumptions C133_hex_encode_every_size_refuted.

(** The exact extent for the encoder: sizes from 0 to 2^30 - 1 need only the
    buffers; no other size ever returns. *)
Theorem C133_hex_encode_sizes : forall size : Z,
  (0 <= size < 2^30)%Z <->
  exists fuel m out inp m', hex_encode fuel m out inp size = Ret m'.
Proof.
  intros size. split.
  - intros R. set (n := Z.to_nat size). exists (S n), [holding (repeat 0%N n); fresh (2 * n + 1)], (Ptr 1 0), (Ptr 0 0).
    eexists. replace size with (Z.of_nat (length (repeat 0%N n))) by (rewrite repeat_length; unfold n; lia).
    apply hex_encode_writes.
    + apply zeros_held.
    + rewrite repeat_length. exists (fresh (2 * n + 1)). split; [reflexivity|]. unfold fresh. rewrite repeat_length. cbn [poff]. lia.
    + left. cbn. discriminate.
    + rewrite repeat_length. unfold n. lia.
    + rewrite repeat_length. lia.
  - intros (fuel & m & out & inp & m' & E).
    destruct (encode_loop fuel m out inp size) as [[E2|(m2 & E2 & R)]|[E2 R]]; [congruence|exact R|congruence].
Qed.
Print Assumptions C133_hex_encode_sizes.

Theorem C133_hex_encode_other_sizes : forall fuel m out inp size,
  ~ (0 <= size < 2^30)%Z -> (2^30 < Z.of_nat fuel)%Z -> hex_encode fuel m out inp size = UB.
Proof.
  intros fuel m out inp size N F. destruct (encode_loop fuel m out inp size) as [[E|(m' & E & R)]|[E R]];
    [exact E|contradiction|]. change (2^30)%Z with 1073741824%Z in *. lia.
Qed.
Print Assumptions C133_hex_encode_other_sizes.

(** The decoder takes every size: a negative one is taken as 0, and an odd one
    drops the last character. *)
Theorem C133_hex_decode_every_size : forall m out inp txt size,
  has_bytes m inp txt -> length txt = Z.to_nat size ->
  writable m out (length txt / 2) -> disjoint out (length txt / 2) inp (length txt) ->
  exists r, length r = length txt / 2 /\ hex_decode m out inp size = Ret (write_at m out r).
Proof.
  intros m out inp txt size H L W D. exists (pair_bytes txt). split; [apply pair_bytes_length|].
  rewrite <- (hex_decode_writes m out inp txt H W (or_intror D)). rewrite L. unfold hex_decode.
  rewrite Nat2Z.id. reflexivity.
Qed.
Print Assumptions C133_hex_decode_every_size.

(** A negative size and an odd one; a fuel as the theorems above ask for. *)
Example C133_instance :
  (let m := [holding (text "7F1"); fresh 1] in
   has_bytes m (Ptr 0 0) (text "7F1") /\ length (text "7F1") = Z.to_nat 3 /\ writable m (Ptr 1 0) (3 / 2) /\
   disjoint (Ptr 1 0) (3 / 2) (Ptr 0 0) 3 /\
   hex_decode m (Ptr 1 0) (Ptr 0 0) 3 = Ret [holding (text "7F1"); holding [127%N]] /\
   hex_decode m (Ptr 1 0) (Ptr 0 0) (-5) = Ret m) /\
  (exists fuel, (2^30 < Z.of_nat fuel)%Z) /\ ~ (0 <= -1 < 2^30)%Z.
Proof.
  split; [|split; [exists (Z.to_nat (2^30 + 1)); rewrite Z2Nat.id; lia|lia]].
  split; [conc_has_bytes|]. split; [reflexivity|]. split; [conc_writable|]. split; [conc_disjoint|].
  split; vm_compute; reflexivity.
Qed.
