(** Properties C103 and C104: the demonstrations of SHA-256 and HMAC. *)
From Coq Require Import String.
From Coq Require Import Arith NArith ZArith List Bool Lia.
From Verif Require Import Res Words Mem MemSpec ListLemmas MemLemmas SpecWords WordsLemmas Ints Finite IoProofs Concrete
  ShaSpec ShaModel ShaProofs HmacModel HmacProofs HexSpec HexModel HexProofs HexBoundProps AeModel AeProofs
  DemoModel DemoProofs DemoProps.
Import ListNotations.
Local Open Scope nat_scope.

Lemma HMAC_length k msg : length (HMAC k msg) = 32.
Proof. apply SHA256_length. Qed.
Lemma HMAC_ok k msg : bytes_ok (HMAC k msg).
Proof. apply SHA256_ok. Qed.

#[local] Opaque SHA256 HMAC.

Lemma ldn_is m p l n : has_bytes m p l -> length l = n -> ldn m p n = Ret l.
Proof. intros H <-. apply has_bytes_ldn. exact H. Qed.

(** ** C103: the SHA-256 demonstration *)
(** What the program is to print. *)
Definition sha256_lines (msg : list N) : list said :=
  [Said "Digest: " (SHA256 msg); Said "Digest in Hex: " (hex_text (SHA256 msg))].

(** The digits of a digest and their NUL are 65 bytes, the array has 64: the
    program is undefined whatever the message. *)
Theorem C103_sha256_demo_undefined : forall msg, demo_text msg -> sha256_main 64 msg = UB.
Proof.
  intros msg (B & P & L). change (2^29)%Z with 536870912%Z in L. unfold sha256_main.
  rewrite new_bytes_ok by exact B. blocks. rewrite new_bytes_ok by apply bytes_zero. blocks.
  destruct (Nat.eq_dec (length msg mod 64) 63) as [E|E].
  - rewrite sha256_hash_ub; [reflexivity|here|change (2^31)%Z with 2147483648%Z; lia|exact E].
  - rewrite sha256_hash_ok; [|here|room|change (2^31)%Z with 2147483648%Z; lia|exact E]. blocks.
    store (SHA256_length msg). blocks.
    rewrite (ldn_is _ _ (SHA256 msg)) by (apply SHA256_length || (apply block_has; [reflexivity|apply SHA256_ok])). blocks.
    rewrite (hex_encode_needs 33 _ _ _ 32); [reflexivity|lia|reflexivity|].
    intros (b & H & Lb). cbn in H. injection H as <-. cbn in Lb. lia.
Qed.
Print Assumptions C103_sha256_demo_undefined.

Theorem C103_sha256_demo_refuted : exists msg, demo_text msg /\ sha256_main 64 msg <> Ret (sha256_lines msg).
Proof.
  exists [97%N].
  assert (D : demo_text [97%N]) by (split; [repeat constructor|split; [cbn; lia|reflexivity]]).
  split; [exact D|]. rewrite C103_sha256_demo_undefined by exact D. discriminate.
Qed.
Print Assumptions C103_sha256_demo_refuted.

(** With any larger array it prints the digest, except for lengths 63 mod 64. *)
Theorem C103_sha256_demo_with_room : forall size msg, demo_text msg -> 65 <= size ->
  (length msg mod 64 <> 63 -> sha256_main size msg = Ret (sha256_lines msg)) /\
  (length msg mod 64 = 63 -> sha256_main size msg = UB).
Proof.
  intros size msg (B & P & L) S. change (2^29)%Z with 536870912%Z in L. unfold sha256_main.
  rewrite new_bytes_ok by exact B. blocks. rewrite new_bytes_ok by apply bytes_zero. blocks. split; intros E.
  - rewrite sha256_hash_ok; [|here|room|change (2^31)%Z with 2147483648%Z; lia|exact E]. blocks.
    pose proof (SHA256_length msg) as Ls. pose proof (SHA256_ok msg) as Bs.
    store (SHA256_length msg). blocks.
    unfold sha256_lines. set (d := SHA256 msg) in *. clearbody d.
    rewrite (ldn_is _ _ d) by (exact Ls || here). blocks.
    change 32%Z with (Z.of_nat 32). rewrite <- Ls.
    rewrite hex_encode_writes; [|here|room|left; cbn; lia|rewrite Ls; reflexivity|lia]. cbn [bind].
    rewrite (ldn_is _ _ (hex_text d)); [reflexivity| |rewrite hex_text_length, Ls; reflexivity].
    eapply has_bytes_app. apply has_bytes_write_same.
    + rewrite app_length, hex_text_length, Ls. eapply block_free; [reflexivity|rewrite repeat_length; cbn; lia].
    + apply Forall_app. split; [apply hex_text_bytes; exact Bs|repeat constructor].
  - rewrite sha256_hash_ub; [reflexivity|here|change (2^31)%Z with 2147483648%Z; lia|exact E].
Qed.
Print Assumptions C103_sha256_demo_with_room.
Example C103_instance : demo_text (repeat 97%N 1000) /\ length (repeat 97%N 1000) mod 64 <> 63 /\
  length (repeat 97%N 127) mod 64 = 63.
Proof.
  split; [split; [apply SosemanukProps.bytes_ok_forallb; vm_compute; reflexivity|split; [rewrite repeat_length; lia|vm_compute; reflexivity]]|].
  split; vm_compute; [discriminate|reflexivity].
Qed.

(** ** C104: the HMAC demonstration *)
Lemma differ_ok m tag expected l e i s : has_bytes m (padd tag i) l -> has_bytes m (padd expected i) e -> length l = length e ->
  differ m tag expected (length l) i s = Ret (if list_N_eqb l e then s else 1%Z).
Proof.
  revert e i s. induction l as [|x l IH]; intros [|y e] i s H1 H2 L; try discriminate; [reflexivity|].
  cbn [length differ]. rewrite (has_bytes_ld8 _ _ _ _ H1), (has_bytes_ld8 _ _ _ _ H2). cbn [bind].
  apply has_bytes_cons in H1, H2. destruct H1 as [_ H1]. destruct H2 as [_ H2]. rewrite padd_padd, Nat.add_1_r in H1, H2.
  rewrite (IH e) by (auto; cbn in L; lia). rewrite list_N_eqb_cons.
  destruct (N.eqb x y); cbn [andb]; [reflexivity|]. destruct (list_N_eqb l e); reflexivity.
Qed.

(** The first 16 bytes of the HMAC are printed, the tag that was just generated is
    confirmed, and SUCCESS is printed if the tag is the expected one, FAILURE if
    it is not. *)
Theorem C104_hmac_demo : forall expected k msg,
  bytes_ok expected -> length expected = 16 -> demo_text k -> demo_text msg ->
  let t := firstn 16 (HMAC k msg) in
  exists verdict,
  hmac_main (hex_text expected) (hex_text k) (hex_text msg) =
  Ret [Said "Expected tag: " (hex_text expected); Said "Hex tag: " (hex_text t); Said "Validation Tag confirmed" []; Said verdict []] /\
  (expected = t -> verdict = "SUCCESS!"%string) /\ (expected <> t -> verdict = "FAILURE"%string).
Proof.
  intros e k msg Be Le (Bk & _ & Lk) (B & P & L) t. change (2^29)%Z with 536870912%Z in *.
  assert (Lt : length t = 16) by (unfold t; rewrite firstn_length; rewrite HMAC_length; reflexivity).
  assert (Bt : bytes_ok t) by (apply Forall_firstn; apply HMAC_ok).
  exists (if Z.eqb (if list_N_eqb t e then 0%Z else 1%Z) 0 then "SUCCESS!" else "FAILURE")%string. split.
  - unfold hmac_main. rewrite !half_hex.
    rewrite from_hex_ok by (auto; change (2^30)%Z with 1073741824%Z; lia). blocks.
    rewrite from_hex_ok by (auto; change (2^30)%Z with 1073741824%Z; lia). blocks.
    rewrite (load_key_ok _ _ auth_hash_ok); [|here|change (2^31)%Z with 2147483648%Z; lia|auto]. blocks.
    change (HmacState _ _) with (keyed k).
    change 16%Z with (Z.of_nat 16).
    rewrite (generation_ok _ _ auth_hash_ok); [|auto|here|room|lia|exact P|change (2^31)%Z with 2147483648%Z; lia|auto|auto].
    fold t. blocks. store Lt. blocks.
    assert (Et : t = firstn 16 (HMAC k msg)) by reflexivity. clearbody t. rewrite <- Lt at 1. rewrite hex_string_ok by (try here; rewrite Lt; reflexivity). blocks.
    rewrite new_bytes_ok by (apply hex_text_bytes; exact Be). blocks.
    replace 32%Z with (Z.of_nat (length (hex_text e))) by (rewrite hex_text_length, Le; reflexivity).
    rewrite hex_decode_writes; [|here|rewrite half_hex; room|right; apart].
    rewrite pair_bytes_hex_text by exact Be. cbn [bind]. store Le. blocks.
    replace (Z.of_nat 16) with (Z.of_nat (length t)) by (rewrite Lt; reflexivity).
    rewrite (validation_ok _ _ auth_hash_ok); [|auto|here|here|lia|exact P|change (2^31)%Z with 2147483648%Z; lia|auto|auto].
    rewrite Lt. rewrite <- Et. rewrite list_N_eqb_refl. cbn [bind].
    match goal with |- bind (differ ?m ?a ?b _ _ _) _ = _ => pose proof (differ_ok m a b t e 0 0%Z) as D end.
    rewrite Lt in D. rewrite D by (here || lia). reflexivity.
  - destruct (list_N_eqb t e) eqn:E; cbn [Z.eqb]; split; intros H; auto.
    + apply list_N_eqb_eq in E. congruence.
    + subst. rewrite list_N_eqb_refl in E. discriminate.
Qed.
Print Assumptions C104_hmac_demo.

(** The shipped key, message and tag: success. *)
Definition hmac_demo_key : list N := map N.of_nat (seq 0 100).
Definition hmac_demo_message : list N := HexSpec.text "Sample message for keylen=blocklen".
Definition hmac_demo_tag : list N :=
  [0xBD;0xCC;0xB6;0xC7;0x2D;0xDE;0xAD;0xB5;0x00;0xAE;0x76;0x83;0x86;0xCB;0x38;0xCC]%N.
#[local] Transparent SHA256 HMAC.
Example C104_instance : bytes_ok hmac_demo_tag /\ length hmac_demo_tag = 16 /\ demo_text hmac_demo_key /\ demo_text hmac_demo_message /\
  hex_text hmac_demo_message = HexSpec.text "53616D706C65206D65737361676520666F72206B65796C656E3D626C6F636B6C656E" /\
  hmac_demo_tag = firstn 16 (HMAC hmac_demo_key hmac_demo_message).
Proof.
  split; [apply SosemanukProps.bytes_ok_forallb; reflexivity|]. split; [reflexivity|].
  split; [split; [apply SosemanukProps.bytes_ok_forallb; vm_compute; reflexivity|split; [cbn; lia|reflexivity]]|].
  split; [split; [apply SosemanukProps.bytes_ok_forallb; vm_compute; reflexivity|split; [cbn; lia|reflexivity]]|].
  split; vm_compute; reflexivity.
Qed.
