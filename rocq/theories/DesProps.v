(** Properties C49-C54 and C77-C82: Legacy/DES. *)
From Coq Require Import Arith NArith List Bool Lia.
From Verif Require Import Res Words Mem MemSpec ListLemmas MemLemmas SpecWords WordsLemmas XorProofs IoProofs Concrete Finite
  BitSel DesTables DesSpec DesModel DesProofs DesRounds DesLink.
Import ListNotations.
Local Open Scope nat_scope.

(** The first and the last subkey of a key, in the library's reading of the key. *)
Definition first_subkey (key : list N) : list bool := hd [] (key_subkeys key).
Definition last_subkey (key : list N) : list bool := last (key_subkeys key) [].

Lemma hd_rev {A} (l : list A) d : hd d (rev l) = last l d.
Proof.
  induction l as [|x l IH]; [reflexivity|]. cbn [rev]. destruct l as [|y l]; [reflexivity|].
  change (last (x :: y :: l) d) with (last (y :: l) d). rewrite <- IH. cbn [rev]. destruct (rev l ++ [y]) eqn:E; [|reflexivity].
  destruct (rev l); discriminate.
Qed.

Lemma enc_schedule m p key : has_bytes m p key -> length key = 8 ->
  exists ks, des_key_schedule_encrypt m p = Ret ks /\ sub1 ks = first_subkey key.
Proof.
  intros H L. destruct (des_schedule_ok m p key H L) as (ks & E & E1 & _ & E2). exists ks. split; [exact E|].
  rewrite sub1_pairs, E2 by exact E1. reflexivity.
Qed.
Lemma dec_schedule m p key : has_bytes m p key -> length key = 8 ->
  exists ks, des_key_schedule_decrypt m p = Ret ks /\ sub1 ks = last_subkey key.
Proof.
  intros H L. destruct (des_schedule_dec_ok m p key H L) as (ks & E & E1 & E2). exists ks. split; [exact E|].
  rewrite sub1_pairs, E2 by exact E1. apply hd_rev.
Qed.

(** Encrypting a block and decrypting the result in place. *)
Definition enc_dec (m : mem) (key out inp : ptr) : res mem :=
  let* ek := des_key_schedule_encrypt m key in
  let* dk := des_key_schedule_decrypt m key in
  let* m := des_ecb_block ek m out inp in
  des_ecb_block dk m out out.

(** ** C49: decryption applies the one-subkey network with the last subkey to
    what encryption produced with the first one. *)
Theorem C49_des_decrypt_after_encrypt : forall m kp key out inp block,
  has_bytes m kp key -> length key = 8 -> has_bytes m inp block -> length block = 8 -> writable m out 8 ->
  enc_dec m kp out inp = Ret (write_at m out (one_subkey_des (last_subkey key) (one_subkey_des (first_subkey key) block))).
Proof.
  intros m kp key out inp block Hk Lk Hb Lb W.
  destruct (enc_schedule m kp key Hk Lk) as (ek & E1 & S1). destruct (dec_schedule m kp key Hk Lk) as (dk & E2 & S2).
  unfold enc_dec. rewrite E1, E2. cbn [bind]. rewrite (des_ecb_block_ok ek m out inp block Hb Lb W). cbn [bind].
  rewrite (des_ecb_block_ok dk _ out out (one_subkey_des (sub1 ek) block)).
  - rewrite write_at_same by (rewrite ?one_subkey_length; auto). rewrite S1, S2. reflexivity.
  - apply has_bytes_write_same; [rewrite one_subkey_length; exact W|apply one_subkey_ok].
  - apply one_subkey_length.
  - apply writable_write_at; [rewrite one_subkey_length; exact W|exact W].
Qed.
Print Assumptions C49_des_decrypt_after_encrypt.

(** It restores every block if the first and the last subkey agree. *)
Theorem C49_des_decrypt_inverts_if_subkeys_agree : forall m kp key out inp block,
  has_bytes m kp key -> length key = 8 -> first_subkey key = last_subkey key ->
  has_bytes m inp block -> length block = 8 -> writable m out 8 ->
  enc_dec m kp out inp = Ret (write_at m out block).
Proof.
  intros m kp key out inp block Hk Lk E Hb Lb W. rewrite (C49_des_decrypt_after_encrypt _ _ key _ _ block) by assumption.
  rewrite E, one_subkey_twice; [reflexivity|exact (has_bytes_bytes _ _ _ Hb)|exact Lb].
Qed.
Print Assumptions C49_des_decrypt_inverts_if_subkeys_agree.

Definition key_ex : list N := [0x13;0x34;0x57;0x79;0x9B;0xBC;0xDF;0xF1]%N.
Definition block_ex : list N := [0x01;0x23;0x45;0x67;0x89;0xAB;0xCD;0xEF]%N.
Definition weak_key : list N := [0x1f;0x1f;0x1f;0x1f;0x0e;0x0e;0x0e;0x0e]%N.

Example C49_instance :
  let m := [holding weak_key; holding block_ex; fresh 8] in
  has_bytes m (Ptr 0 0) weak_key /\ has_bytes m (Ptr 1 0) block_ex /\ writable m (Ptr 2 0) 8 /\
  first_subkey weak_key = last_subkey weak_key.
Proof.
  split; [conc_has_bytes|]. split; [conc_has_bytes|]. split; [conc_writable|]. vm_compute. reflexivity.
Qed.

Theorem C49_des_decrypt_inverts_refuted : exists m kp key out inp block m',
  has_bytes m kp key /\ length key = 8 /\ has_bytes m inp block /\ length block = 8 /\ writable m out 8 /\
  enc_dec m kp out inp = Ret m' /\ m' <> write_at m out block.
Proof.
  exists [holding key_ex; holding block_ex; fresh 8], (Ptr 0 0), key_ex, (Ptr 2 0), (Ptr 1 0), block_ex.
  assert (V : match enc_dec [holding key_ex; holding block_ex; fresh 8] (Ptr 0 0) (Ptr 2 0) (Ptr 1 0) with
              | Ret m' => match ld8 m' (Ptr 2 0) with Ret x => negb (x =? 1)%N | _ => false end | _ => false end = true)
    by (vm_compute; reflexivity).
  destruct (enc_dec _ _ _ _) as [m'| |] eqn:E; [|discriminate V|discriminate V]. exists m'.
  split; [conc_has_bytes|]. split; [reflexivity|]. split; [conc_has_bytes|]. split; [reflexivity|]. split; [conc_writable|].
  split; [reflexivity|]. intros ->. vm_compute in V. discriminate V.
Qed.
Print Assumptions C49_des_decrypt_inverts_refuted.

(** ** C50: the block function undoes itself, whatever the schedule holds. *)
Theorem C50_des_block_involution : forall cs m out inp block,
  has_bytes m inp block -> length block = 8 -> writable m out 8 ->
  (let* m := des_ecb_block cs m out inp in des_ecb_block cs m out out) = Ret (write_at m out block).
Proof.
  intros cs m out inp block Hb Lb W. rewrite (des_ecb_block_ok cs m out inp block Hb Lb W). cbn [bind].
  rewrite (des_ecb_block_ok cs _ out out (one_subkey_des (sub1 cs) block)).
  - rewrite write_at_same by (rewrite ?one_subkey_length; auto). rewrite one_subkey_twice; [reflexivity|exact (has_bytes_bytes _ _ _ Hb)|exact Lb].
  - apply has_bytes_write_same; [rewrite one_subkey_length; exact W|apply one_subkey_ok].
  - apply one_subkey_length.
  - apply writable_write_at; [rewrite one_subkey_length; exact W|exact W].
Qed.
Print Assumptions C50_des_block_involution.
Example C50_instance :
  let m := [holding block_ex; fresh 8] in
  has_bytes m (Ptr 0 0) block_ex /\ writable m (Ptr 1 0) 8 /\
  (let* m := des_ecb_block [5; 7]%N m (Ptr 1 0) (Ptr 0 0) in ldn m (Ptr 1 0) 8) <> Ret block_ex.
Proof. split; [conc_has_bytes|]. split; [conc_writable|]. vm_compute. discriminate. Qed.

(** ** C51: the initial and final permutations.  The code keeps both halves
    rotated by one place between them; [bits32] lists a word's bits, most
    significant first. *)
Definition bits32 (w : N) : list bool := map (fun i => N.testbit w (31 - N.of_nat i)) (seq 0 32).
Definition unrotated (w : N) : list bool := rotate 31 (bits32 w).

Lemma bits32_wbits w : bits32 w = wbits w.
Proof. reflexivity. Qed.

Theorem C51_des_initial_permutation : forall X Y, (X < 2^32)%N -> (Y < 2^32)%N ->
  let '(A, B) := des_ip X Y in
  (A < 2^32)%N /\ (B < 2^32)%N /\ unrotated A ++ unrotated B = select IP (bits32 X ++ bits32 Y).
Proof.
  intros X Y HX HY. destruct (ip_bits X Y HX HY) as (A & B & C & D). destruct (des_ip X Y) as [P Q]. cbn [fst snd] in *.
  split; [exact A|]. split; [exact B|]. unfold unrotated. rewrite (bits32_wbits P), (bits32_wbits Q), (bits32_wbits X), (bits32_wbits Y), C, D.
  rewrite !rotate_back; [apply firstn_skipn|reflexivity|reflexivity].
Qed.
Print Assumptions C51_des_initial_permutation.

Theorem C51_des_final_permutation : forall X Y, (X < 2^32)%N -> (Y < 2^32)%N ->
  let '(A, B) := des_fp X Y in
  (A < 2^32)%N /\ (B < 2^32)%N /\ bits32 A ++ bits32 B = select IP_inverse (unrotated X ++ unrotated Y).
Proof.
  intros X Y HX HY. destruct (fp_bits X Y HX HY) as (A & B & C). destruct (des_fp X Y) as [P Q]. cbn [fst snd] in *.
  split; [exact A|]. split; [exact B|]. exact C.
Qed.
Print Assumptions C51_des_final_permutation.

Lemma rotate_fwd L : length L = 32 -> rotate 1 (rotate 31 L) = L.
Proof. intros H. do 32 (destruct L as [|? L]; [discriminate|]). destruct L; [|discriminate]. reflexivity. Qed.

Theorem C51_des_permutations_undo : forall X Y, (X < 2^32)%N -> (Y < 2^32)%N ->
  (let '(A, B) := des_ip X Y in des_fp A B) = (X, Y) /\ (let '(A, B) := des_fp X Y in des_ip A B) = (X, Y).
Proof.
  intros X Y HX HY. split.
  - pose proof (C51_des_initial_permutation X Y HX HY) as H. destruct (des_ip X Y) as [A B]. destruct H as (HA & HB & E).
    pose proof (C51_des_final_permutation A B HA HB) as H. destruct (des_fp A B) as [C D]. destruct H as (HC & HD & E2).
    rewrite E, ip_inverse_ip in E2 by reflexivity. change (wbits C ++ wbits D = wbits X ++ wbits Y) in E2.
    destruct (wbits2_inj C D X Y HC HD HX HY E2) as [-> ->]. reflexivity.
  - destruct (fp_bits X Y HX HY) as (HA & HB & E). destruct (des_fp X Y) as [A B]. cbn [fst snd] in *.
    destruct (ip_bits A B HA HB) as (HC & HD & E1 & E2). destruct (des_ip A B) as [C D]. cbn [fst snd] in *.
    rewrite E, ip_ip_inverse in E1, E2 by reflexivity.
    destruct (firstn_skipn_app 32 (rotate 31 (wbits X)) (rotate 31 (wbits Y)) eq_refl) as [F1 F2]. rewrite F1 in E1. rewrite F2 in E2.
    rewrite rotate_fwd in E1, E2 by reflexivity.
    rewrite (wbits_inj C X HC HX E1), (wbits_inj D Y HD HY E2). reflexivity.
Qed.
Print Assumptions C51_des_permutations_undo.
Example C51_instance : (0x01234567 < 2^32)%N /\ (0x89abcdef < 2^32)%N /\
  (let '(A, B) := des_ip 0x01234567 0x89abcdef in unrotated A ++ unrotated B) =
    bytes_bits [0xCC;0x00;0xCC;0xFF;0xF0;0xAA;0xF0;0xAA]%N.
Proof. split; [reflexivity|]. split; [reflexivity|]. vm_compute. reflexivity. Qed.

(** ** C52: what the counter mode computes: every eight bytes of the packet are
    combined with the same eight key stream bytes, which depend on the first
    eight bytes of the nonce only. *)
Theorem C52_des_ctr_keystream_constant : forall m kp key np nonce out inp data ks,
  has_bytes m kp key -> length key = 8 -> des_key_schedule_encrypt m kp = Ret ks ->
  has_bytes m np nonce -> length nonce = 12 -> has_bytes m inp data -> writable m out (length data) ->
  same_or_disjoint out inp (length data) -> length data mod 8 = 0 -> (N.of_nat (length data) < 2^64)%N ->
  des_process_packet_ctr ks m out inp np (N.of_nat (length data)) =
    Ret (write_at m out (flat_map (fun d => xor_bytes d (one_subkey_des (first_subkey key) (firstn 8 nonce))) (chunks 8 data))).
Proof.
  intros m kp key np nonce out inp data ks Hk Lk E Hn Ln Hd W S M Sz.
  destruct (enc_schedule m kp key Hk Lk) as (ks' & E' & S1). rewrite E in E'. apply Ret_inj in E'. subst ks'.
  assert (X : exists n, length data = 8 * n) by (exists (length data / 8); apply Nat.div_exact; [discriminate|exact M]).
  destruct X as (n & L). rewrite L in *.
  rewrite (des_ctr_packet_ok ks m out inp np nonce data n Hn Ln L Sz); [rewrite S1; reflexivity|].
  split; [exact Hd|]. rewrite L. split; assumption.
Qed.
Print Assumptions C52_des_ctr_keystream_constant.

(** The counter and the last four nonce bytes have no effect at all. *)
Theorem C52_des_ctr_ignores_nonce_tail : forall m kp key np1 np2 nonce1 nonce2 out inp data ks,
  has_bytes m kp key -> length key = 8 -> des_key_schedule_encrypt m kp = Ret ks ->
  has_bytes m np1 nonce1 -> length nonce1 = 12 -> has_bytes m np2 nonce2 -> length nonce2 = 12 ->
  firstn 8 nonce1 = firstn 8 nonce2 -> has_bytes m inp data -> writable m out (length data) ->
  same_or_disjoint out inp (length data) -> length data mod 8 = 0 -> (N.of_nat (length data) < 2^64)%N ->
  des_process_packet_ctr ks m out inp np1 (N.of_nat (length data)) =
  des_process_packet_ctr ks m out inp np2 (N.of_nat (length data)).
Proof.
  intros m kp key np1 np2 nonce1 nonce2 out inp data ks Hk Lk E H1 L1 H2 L2 En Hd W S M Sz.
  rewrite (C52_des_ctr_keystream_constant m kp key np1 nonce1 out inp data ks) by assumption.
  rewrite (C52_des_ctr_keystream_constant m kp key np2 nonce2 out inp data ks) by assumption.
  rewrite En. reflexivity.
Qed.
Print Assumptions C52_des_ctr_ignores_nonce_tail.

Definition nonce_ex : list N := [1;2;3;4;5;6;7;8;9;10;11;12]%N.
Definition ctr_mem : mem := [holding key_ex; holding nonce_ex; holding (block_ex ++ key_ex ++ block_ex); fresh 24].
Example C52_instance : exists ks,
  has_bytes ctr_mem (Ptr 0 0) key_ex /\ has_bytes ctr_mem (Ptr 1 0) nonce_ex /\
  has_bytes ctr_mem (Ptr 2 0) (block_ex ++ key_ex ++ block_ex) /\ writable ctr_mem (Ptr 3 0) 24 /\
  same_or_disjoint (Ptr 3 0) (Ptr 2 0) 24 /\ des_key_schedule_encrypt ctr_mem (Ptr 0 0) = Ret ks.
Proof.
  destruct (enc_schedule ctr_mem (Ptr 0 0) key_ex ltac:(conc_has_bytes) eq_refl) as (ks & E & _). exists ks.
  split; [conc_has_bytes|]. split; [conc_has_bytes|]. split; [conc_has_bytes|]. split; [conc_writable|].
  split; [right; conc_disjoint|exact E].
Qed.

(** A packet whose first and third key stream blocks agree, though the cipher is
    a permutation and its counter values differ: with successive counters this
    cannot happen. *)
Theorem C52_des_ctr_fresh_keystream_refuted : exists m kp np out inp data ks m' c,
  has_bytes m inp data /\ length data = 24 /\ writable m out 24 /\ same_or_disjoint out inp 24 /\
  has_bytes m kp key_ex /\ has_bytes m np nonce_ex /\
  des_key_schedule_encrypt m kp = Ret ks /\ des_process_packet_ctr ks m out inp np 24 = Ret m' /\
  ldn m' out 24 = Ret c /\
  firstn 8 data = skipn 16 data /\ firstn 8 c = skipn 16 c.
Proof.
  destruct C52_instance as (ks & H1 & H2 & H3 & H4 & H5 & E).
  pose proof (C52_des_ctr_keystream_constant ctr_mem _ _ _ _ _ _ _ ks H1 eq_refl E H2 eq_refl H3 H4 H5 eq_refl eq_refl) as R.
  set (c := flat_map _ _) in R.
  exists ctr_mem, (Ptr 0 0), (Ptr 1 0), (Ptr 3 0), (Ptr 2 0), (block_ex ++ key_ex ++ block_ex), ks, (write_at ctr_mem (Ptr 3 0) c), c.
  split; [exact H3|]. split; [reflexivity|]. split; [exact H4|]. split; [exact H5|]. split; [exact H1|]. split; [exact H2|].
  split; [exact E|]. split; [exact R|].
  assert (Lc : length c = 24) by reflexivity.
  split.
  - rewrite <- Lc. apply has_bytes_ldn. apply has_bytes_write_same; [rewrite Lc; exact H4|].
    apply (ctr_data_ok _ 3); [apply one_subkey_ok|reflexivity|reflexivity|exact (has_bytes_bytes _ _ _ H3)].
  - split; reflexivity.
Qed.
Print Assumptions C52_des_ctr_fresh_keystream_refuted.

(** ** C53: processing a packet of whole blocks twice restores it, for every
    schedule contents; in place or into other buffers. *)
Theorem C53_des_ctr_round_trip : forall cs m np nonce inp data mid out,
  has_bytes m np nonce -> length nonce = 12 -> has_bytes m inp data ->
  length data mod 8 = 0 -> (N.of_nat (length data) < 2^64)%N ->
  writable m mid (length data) -> same_or_disjoint mid inp (length data) ->
  disjoint mid (length data) np 12 ->
  writable m out (length data) -> same_or_disjoint out mid (length data) ->
  exists m1, des_process_packet_ctr cs m mid inp np (N.of_nat (length data)) = Ret m1 /\
    des_process_packet_ctr cs m1 out mid np (N.of_nat (length data)) = Ret (write_at m1 out data).
Proof.
  intros cs m np nonce inp data mid out Hn Ln Hd M Sz W1 S1 D W2 S2.
  assert (X : exists n, length data = 8 * n) by (exists (length data / 8); apply Nat.div_exact; [discriminate|exact M]).
  destruct X as (n & L). rewrite L in *.
  pose proof (one_subkey_length (sub1 cs) (firstn 8 nonce)) as LK. pose proof (one_subkey_ok (sub1 cs) (firstn 8 nonce)) as BK.
  rewrite (des_ctr_packet_ok cs m mid inp np nonce data n Hn Ln L Sz) by (split; [exact Hd|rewrite L; split; assumption]).
  set (K := one_subkey_des (sub1 cs) (firstn 8 nonce)) in *. pose proof (ctr_data_length K n LK data L) as Lc.
  pose proof (ctr_data_ok K n BK LK data L (has_bytes_bytes _ _ _ Hd)) as Bc.
  eexists. split; [reflexivity|].
  assert (Wm : writable m mid (length (ctr_data K data))) by (rewrite Lc; exact W1).
  rewrite (des_ctr_packet_ok cs _ out mid np nonce (ctr_data K data) n).
  - fold K. rewrite (ctr_data_twice K n BK LK data L). reflexivity.
  - apply has_bytes_write_other; [exact Wm|rewrite Lc, Ln; exact D|exact Hn].
  - exact Ln.
  - exact Lc.
  - exact Sz.
  - split; [apply has_bytes_write_same; assumption|]. rewrite Lc. split; [apply writable_write_at; assumption|exact S2].
Qed.
Print Assumptions C53_des_ctr_round_trip.
Example C53_instance :
  has_bytes ctr_mem (Ptr 1 0) nonce_ex /\ has_bytes ctr_mem (Ptr 2 0) (block_ex ++ key_ex ++ block_ex) /\
  writable ctr_mem (Ptr 2 0) 24 /\ same_or_disjoint (Ptr 2 0) (Ptr 2 0) 24 /\ disjoint (Ptr 2 0) 24 (Ptr 1 0) 12 /\
  (let* m := des_process_packet_ctr [5; 7]%N ctr_mem (Ptr 2 0) (Ptr 2 0) (Ptr 1 0) 24 in
   ldn m (Ptr 2 0) 24) <> Ret (block_ex ++ key_ex ++ block_ex).
Proof.
  split; [conc_has_bytes|]. split; [conc_has_bytes|]. split; [conc_writable|]. split; [left; reflexivity|].
  split; [conc_disjoint|]. vm_compute. discriminate.
Qed.

(** ** C54: a size that is not a multiple of eight always leads outside the
    buffers, whatever they are; other sizes are handled (C52). *)
Theorem C54_des_ctr_partial_block_undefined : forall cs m out inp np size,
  (size < 2^64)%N -> (size mod 8 <> 0)%N -> des_process_packet_ctr cs m out inp np size = UB.
Proof. intros. apply des_ctr_odd; assumption. Qed.
Print Assumptions C54_des_ctr_partial_block_undefined.
Theorem C54_des_ctr_whole_blocks_inside : forall cs m np nonce out inp data,
  has_bytes m np nonce -> length nonce = 12 -> has_bytes m inp data -> writable m out (length data) ->
  same_or_disjoint out inp (length data) -> length data mod 8 = 0 -> (N.of_nat (length data) < 2^64)%N ->
  exists c, length c = length data /\
    des_process_packet_ctr cs m out inp np (N.of_nat (length data)) = Ret (write_at m out c).
Proof.
  intros cs m np nonce out inp data Hn Ln Hd W S M Sz.
  assert (X : exists n, length data = 8 * n) by (exists (length data / 8); apply Nat.div_exact; [discriminate|exact M]).
  destruct X as (n & L). rewrite L in *. eexists. split; [|apply (des_ctr_packet_ok cs m out inp np nonce data n Hn Ln L Sz)].
  - apply ctr_data_length; [apply one_subkey_length|exact L].
  - split; [exact Hd|]. rewrite L. split; assumption.
Qed.
Print Assumptions C54_des_ctr_whole_blocks_inside.
Theorem C54_des_ctr_every_length_refuted : exists cs m np nonce out inp data,
  has_bytes m np nonce /\ length nonce = 12 /\ has_bytes m inp data /\ writable m out (length data) /\
  disjoint out (length data) inp (length data) /\ length data = 9 /\
  des_process_packet_ctr cs m out inp np (N.of_nat (length data)) = UB.
Proof.
  exists [], [holding nonce_ex; holding (block_ex ++ [1%N]); fresh 9], (Ptr 0 0), nonce_ex, (Ptr 2 0), (Ptr 1 0), (block_ex ++ [1%N]).
  split; [conc_has_bytes|]. split; [reflexivity|]. split; [conc_has_bytes|]. split; [conc_writable|]. split; [conc_disjoint|].
  split; [reflexivity|]. apply C54_des_ctr_partial_block_undefined; [reflexivity|vm_compute; discriminate].
Qed.
Print Assumptions C54_des_ctr_every_length_refuted.
Example C54_instance :
  has_bytes ctr_mem (Ptr 1 0) nonce_ex /\ has_bytes ctr_mem (Ptr 2 0) (block_ex ++ key_ex ++ block_ex) /\
  writable ctr_mem (Ptr 2 0) 24 /\ same_or_disjoint (Ptr 2 0) (Ptr 2 0) 24 /\ 24 mod 8 = 0 /\ (23 mod 8 <> 0)%N.
Proof.
  split; [conc_has_bytes|]. split; [conc_has_bytes|]. split; [conc_writable|]. split; [left; reflexivity|]. split; [reflexivity|discriminate].
Qed.

(** ** C77: the key schedule.  A schedule is 32 words, two for every round; the
    four bytes of the first word end in the six key bits of the S-boxes 2, 4, 6
    and 8, those of the second in those of 1, 3, 5 and 7. *)
Definition six_bits (w : N) (byte : N) : list bool :=
  map (fun i => N.testbit w (8 * byte + 5 - N.of_nat i)) (seq 0 6).
Definition round_subkey (ks : list N) (i : nat) : list bool :=
  let w0 := nth (2 * i) ks 0%N in let w1 := nth (2 * i + 1) ks 0%N in
  six_bits w1 3 ++ six_bits w0 3 ++ six_bits w1 2 ++ six_bits w0 2 ++ six_bits w1 1 ++ six_bits w0 1 ++ six_bits w1 0 ++ six_bits w0 0.

Lemma six_bits_grp w b : (b < 4)%N -> six_bits w b = grp w (8 * b).
Proof. intros H. assert (C : b = 0%N \/ b = 1%N \/ b = 2%N \/ b = 3%N) by lia. destruct C as [->|[->|[->| ->]]]; reflexivity. Qed.
Lemma round_subkey_pairs ks : length ks = 32 -> map (round_subkey ks) (seq 0 16) = pairs ks.
Proof.
  intros H. destruct (list32 ks H) as (?&?&?&?&?&?&?&?&?&?&?&?&?&?&?&?&?&?&?&?&?&?&?&?&?&?&?&?&?&?&?&?&->). reflexivity.
Qed.

Theorem C77_des_key_schedule : forall m kp key, has_bytes m kp key -> length key = 8 ->
  exists ek dk, des_key_schedule_encrypt m kp = Ret ek /\ des_key_schedule_decrypt m kp = Ret dk /\
    length ek = 32 /\ length dk = 32 /\
    map (round_subkey ek) (seq 0 16) = subkeys (bytes_bits (halves_reversed key)) /\
    map (round_subkey dk) (seq 0 16) = rev (subkeys (bytes_bits (halves_reversed key))).
Proof.
  intros m kp key H L. destruct (des_schedule_ok m kp key H L) as (ek & E1 & L1 & _ & P1).
  destruct (des_schedule_dec_ok m kp key H L) as (dk & E2 & L2 & P2). exists ek, dk.
  rewrite !round_subkey_pairs by assumption. auto 6.
Qed.
Print Assumptions C77_des_key_schedule.
(** So it is the standard's for keys whose halves read the same backwards. *)
Theorem C77_des_key_schedule_palindromes : forall m kp key, has_bytes m kp key -> length key = 8 ->
  halves_reversed key = key ->
  exists ek, des_key_schedule_encrypt m kp = Ret ek /\ map (round_subkey ek) (seq 0 16) = subkeys (bytes_bits key).
Proof.
  intros m kp key H L E. destruct (C77_des_key_schedule m kp key H L) as (ek & _ & E1 & _ & _ & _ & P & _).
  exists ek. split; [exact E1|]. rewrite P, E. reflexivity.
Qed.
Print Assumptions C77_des_key_schedule_palindromes.
Example C77_instance : let key := [0x13;0x34;0x34;0x13;0x9B;0xBC;0xBC;0x9B]%N in
  has_bytes [holding key] (Ptr 0 0) key /\ halves_reversed key = key.
Proof. split; [conc_has_bytes|reflexivity]. Qed.
Theorem C77_des_key_schedule_fips_refuted : exists m kp key ek,
  has_bytes m kp key /\ length key = 8 /\ des_key_schedule_encrypt m kp = Ret ek /\
  map (round_subkey ek) (seq 0 16) <> subkeys (bytes_bits key).
Proof.
  destruct (C77_des_key_schedule [holding key_ex] (Ptr 0 0) key_ex ltac:(conc_has_bytes) eq_refl) as (ek & _ & E & _ & _ & _ & P & _).
  exists [holding key_ex], (Ptr 0 0), key_ex, ek. split; [conc_has_bytes|]. split; [reflexivity|]. split; [exact E|].
  rewrite P. vm_compute. discriminate.
Qed.
Print Assumptions C77_des_key_schedule_fips_refuted.

(** ** C78: the block function.  It is not DES: all rounds use the first subkey
    of the schedule, and the bytes of both halves of the block (and of the key)
    are taken in reverse order. *)
Theorem C78_des_block_exact : forall m kp key ek inp block out,
  has_bytes m kp key -> length key = 8 -> des_key_schedule_encrypt m kp = Ret ek ->
  has_bytes m inp block -> length block = 8 -> writable m out 8 ->
  des_ecb_block ek m out inp = Ret (write_at m out (halves_reversed (bits_bytes
    (des_with (repeat (hd [] (subkeys (bytes_bits (halves_reversed key)))) 16) (bytes_bits (halves_reversed block)))))).
Proof.
  intros m kp key ek inp block out Hk Lk E Hb Lb W. destruct (enc_schedule m kp key Hk Lk) as (ek' & E' & S).
  rewrite E in E'. apply Ret_inj in E'. subst ek'. rewrite (des_ecb_block_ok ek m out inp block Hb Lb W), S. reflexivity.
Qed.
Print Assumptions C78_des_block_exact.
(** It is DES, but for the byte order, for the keys whose sixteen subkeys are
    all the same. *)
Theorem C78_des_block_weak_keys : forall m kp key ek inp block out K,
  has_bytes m kp key -> length key = 8 -> des_key_schedule_encrypt m kp = Ret ek ->
  subkeys (bytes_bits (halves_reversed key)) = repeat K 16 ->
  has_bytes m inp block -> length block = 8 -> writable m out 8 ->
  des_ecb_block ek m out inp = Ret (write_at m out (halves_reversed (bits_bytes
    (des_encrypt (bytes_bits (halves_reversed key)) (bytes_bits (halves_reversed block)))))).
Proof.
  intros m kp key ek inp block out K Hk Lk E EK Hb Lb W. rewrite (C78_des_block_exact m kp key ek inp block out) by assumption.
  unfold des_encrypt. rewrite EK. reflexivity.
Qed.
Print Assumptions C78_des_block_weak_keys.
Example C78_instance : let m := [holding weak_key; holding block_ex; fresh 8] in
  has_bytes m (Ptr 0 0) weak_key /\ has_bytes m (Ptr 1 0) block_ex /\ writable m (Ptr 2 0) 8 /\
  subkeys (bytes_bits (halves_reversed weak_key)) = repeat (hd [] (subkeys (bytes_bits weak_key))) 16.
Proof. split; [conc_has_bytes|]. split; [conc_has_bytes|]. split; [conc_writable|]. vm_compute. reflexivity. Qed.

(** Neither the standard's ciphertext nor that of the byte-reversed reading. *)
Theorem C78_des_block_fips_refuted : exists m kp key ek inp block out m' c,
  has_bytes m kp key /\ length key = 8 /\ des_key_schedule_encrypt m kp = Ret ek /\
  has_bytes m inp block /\ length block = 8 /\ writable m out 8 /\
  des_ecb_block ek m out inp = Ret m' /\ ldn m' out 8 = Ret c /\
  c <> bits_bytes (des_encrypt (bytes_bits key) (bytes_bits block)) /\
  c <> halves_reversed (bits_bytes (des_encrypt (bytes_bits (halves_reversed key)) (bytes_bits (halves_reversed block)))).
Proof.
  set (m := [holding key_ex; holding block_ex; fresh 8]).
  assert (Hk : has_bytes m (Ptr 0 0) key_ex) by conc_has_bytes.
  assert (Hb : has_bytes m (Ptr 1 0) block_ex) by conc_has_bytes.
  assert (W : writable m (Ptr 2 0) 8) by conc_writable.
  destruct (enc_schedule m (Ptr 0 0) key_ex Hk eq_refl) as (ek & E & S).
  pose proof (des_ecb_block_ok ek m (Ptr 2 0) (Ptr 1 0) block_ex Hb eq_refl W) as R. rewrite S in R.
  exists m, (Ptr 0 0), key_ex, ek, (Ptr 1 0), block_ex, (Ptr 2 0), (write_at m (Ptr 2 0) (one_subkey_des (first_subkey key_ex) block_ex)),
    (one_subkey_des (first_subkey key_ex) block_ex).
  split; [exact Hk|]. split; [reflexivity|]. split; [exact E|]. split; [exact Hb|]. split; [reflexivity|]. split; [exact W|].
  split; [exact R|]. split; [|split; vm_compute; discriminate].
  apply (has_bytes_ldn _ _ (one_subkey_des (first_subkey key_ex) block_ex)). apply has_bytes_write_same; [exact W|apply one_subkey_ok].
Qed.
Print Assumptions C78_des_block_fips_refuted.

(** ** C79: the parity bits (the low bit of every key byte) have no influence. *)
Lemma wbits_n_inj n a b : (a < 2^N.of_nat n)%N -> (b < 2^N.of_nat n)%N -> wbits_n n a = wbits_n n b -> a = b.
Proof.
  intros Ha Hb E. apply N.bits_inj. intros i. destruct (N.lt_ge_cases i (N.of_nat n)) as [H|H].
  - rewrite !wbits_nth in E.
    assert (G : forall l k, In k l -> map (fun k => N.testbit a (N.of_nat k)) l = map (fun k => N.testbit b (N.of_nat k)) l ->
      N.testbit a (N.of_nat k) = N.testbit b (N.of_nat k)).
    { clear. intros l k. induction l as [|x l IH]; intros I M; [contradiction I|]. cbn [map] in M. injection M as M1 M2.
      destruct I as [<-|I]; [exact M1|exact (IH I M2)]. }
    rewrite <- (N2Nat.id i). apply (G (rev (seq 0 n))); [|exact E]. apply -> in_rev. apply in_seq. lia.
  - rewrite (proj1 (lt_pow2_testbit a _) Ha i H), (proj1 (lt_pow2_testbit b _) Hb i H). reflexivity.
Qed.

Lemma half_bit a b i : (a / 2 = b / 2)%N -> (0 < i)%N -> N.testbit a i = N.testbit b i.
Proof.
  intros H Hi. replace i with (N.succ (N.pred i)) by lia. rewrite !N.testbit_succ_r_div2 by lia.
  rewrite !N.div2_div, H. reflexivity.
Qed.
Lemma half_bits a b : (a / 2 = b / 2)%N -> exists t u v w x y z p q,
  byte_bits a = [t; u; v; w; x; y; z; p] /\ byte_bits b = [t; u; v; w; x; y; z; q].
Proof.
  intros H. do 9 eexists. split; [reflexivity|]. unfold byte_bits. cbn [seq map].
  rewrite <- !(half_bit a b) by (first [exact H|reflexivity]). reflexivity.
Qed.

Lemma key_words m p key : has_bytes m p key -> length key = 8 ->
  exists X Y, (X < 2^32)%N /\ (Y < 2^32)%N /\ wbits X ++ wbits Y = bytes_bits (halves_reversed key) /\
    des_key_schedule_encrypt m p = let '(C, D) := key_halves X Y in Ret (schedule_words C D).
Proof.
  intros H L. destruct (block_words m p key H L) as (X & Y & E1 & E2 & HX & HY & ->). exists X, Y.
  split; [exact HX|]. split; [exact HY|]. split; [apply words_halves|].
  unfold des_key_schedule_encrypt. rewrite E1, E2. reflexivity.
Qed.

Theorem C79_des_parity_bits_ignored : forall m kp1 key1 kp2 key2,
  has_bytes m kp1 key1 -> length key1 = 8 -> has_bytes m kp2 key2 -> length key2 = 8 ->
  map (fun x => x / 2)%N key1 = map (fun x => x / 2)%N key2 ->
  des_key_schedule_encrypt m kp1 = des_key_schedule_encrypt m kp2 /\
  des_key_schedule_decrypt m kp1 = des_key_schedule_decrypt m kp2.
Proof.
  intros m kp1 key1 kp2 key2 H1 L1 H2 L2 E.
  assert (G : des_key_schedule_encrypt m kp1 = des_key_schedule_encrypt m kp2).
  { destruct (key_words m kp1 key1 H1 L1) as (X1 & Y1 & HX1 & HY1 & B1 & ->).
    destruct (key_words m kp2 key2 H2 L2) as (X2 & Y2 & HX2 & HY2 & B2 & ->).
    destruct (halves_bits X1 Y1 HX1 HY1) as (A1 & A2 & A3 & A4). destruct (halves_bits X2 Y2 HX2 HY2) as (C1 & C2 & C3 & C4).
    assert (S : select PC1 (wbits X1 ++ wbits Y1) = select PC1 (wbits X2 ++ wbits Y2)).
    { rewrite B1, B2. destruct (list8 key1 L1) as (a1&b1&c1&d1&e1&f1&g1&h1&->). destruct (list8 key2 L2) as (a2&b2&c2&d2&e2&f2&g2&h2&->).
      cbn [map] in E. injection E as Ea Eb Ec Ed Ee Ef Eg Eh.
      change (select PC1 (flat_map byte_bits [d1;c1;b1;a1;h1;g1;f1;e1]) = select PC1 (flat_map byte_bits [d2;c2;b2;a2;h2;g2;f2;e2])).
      cbn [flat_map].
      destruct (half_bits _ _ Ea) as (?&?&?&?&?&?&?&?&?&->&->). destruct (half_bits _ _ Eb) as (?&?&?&?&?&?&?&?&?&->&->).
      destruct (half_bits _ _ Ec) as (?&?&?&?&?&?&?&?&?&->&->). destruct (half_bits _ _ Ed) as (?&?&?&?&?&?&?&?&?&->&->).
      destruct (half_bits _ _ Ee) as (?&?&?&?&?&?&?&?&?&->&->). destruct (half_bits _ _ Ef) as (?&?&?&?&?&?&?&?&?&->&->).
      destruct (half_bits _ _ Eg) as (?&?&?&?&?&?&?&?&?&->&->). destruct (half_bits _ _ Eh) as (?&?&?&?&?&?&?&?&?&->&->).
      reflexivity. }
    rewrite <- S in C3, C4. rewrite <- A3 in C3. rewrite <- A4 in C4.
    destruct (key_halves X1 Y1) as [P1 Q1]. destruct (key_halves X2 Y2) as [P2 Q2]. cbn [fst snd] in *.
    rewrite (wbits_n_inj 28 P2 P1 C1 A1 C3), (wbits_n_inj 28 Q2 Q1 C2 A2 C4). reflexivity. }
  split; [exact G|]. unfold des_key_schedule_decrypt. rewrite G. reflexivity.
Qed.
Print Assumptions C79_des_parity_bits_ignored.
Example C79_instance : let key2 := [0x12;0x35;0x57;0x78;0x9A;0xBC;0xDE;0xF0]%N in
  let m := [holding key_ex; holding key2] in
  has_bytes m (Ptr 0 0) key_ex /\ has_bytes m (Ptr 1 0) key2 /\ map (fun x => x / 2)%N key_ex = map (fun x => x / 2)%N key2.
Proof. split; [conc_has_bytes|]. split; [conc_has_bytes|]. reflexivity. Qed.

(** ** C80: the other 56 key bits.  Encryption depends on the first subkey only. *)
Theorem C80_des_encryption_uses_first_subkey_only : forall m kp1 key1 ek1 kp2 key2 ek2 inp block out,
  has_bytes m kp1 key1 -> length key1 = 8 -> has_bytes m kp2 key2 -> length key2 = 8 ->
  des_key_schedule_encrypt m kp1 = Ret ek1 -> des_key_schedule_encrypt m kp2 = Ret ek2 ->
  first_subkey key1 = first_subkey key2 ->
  has_bytes m inp block -> length block = 8 -> writable m out 8 ->
  des_ecb_block ek1 m out inp = des_ecb_block ek2 m out inp.
Proof.
  intros m kp1 key1 ek1 kp2 key2 ek2 inp block out H1 L1 H2 L2 E1 E2 S Hb Lb W.
  rewrite (C78_des_block_exact m kp1 key1 ek1 inp block out) by assumption.
  rewrite (C78_des_block_exact m kp2 key2 ek2 inp block out) by assumption.
  unfold first_subkey, key_subkeys in S. rewrite S. reflexivity.
Qed.
Print Assumptions C80_des_encryption_uses_first_subkey_only.

Definition key_flip : list N := [0x13;0x34;0x47;0x79;0x9B;0xBC;0xDF;0xF1]%N.
(** Two keys for which the standard's ciphertexts differ, the library's never do. *)
Theorem C80_des_every_key_bit_matters_refuted : exists key1 key2,
  length key1 = 8 /\ length key2 = 8 /\ map (fun x => x / 2)%N key1 <> map (fun x => x / 2)%N key2 /\
  (exists block, des_encrypt (bytes_bits key1) block <> des_encrypt (bytes_bits key2) block) /\
  forall m kp1 kp2 ek1 ek2 inp block out,
    has_bytes m kp1 key1 -> has_bytes m kp2 key2 ->
    des_key_schedule_encrypt m kp1 = Ret ek1 -> des_key_schedule_encrypt m kp2 = Ret ek2 ->
    has_bytes m inp block -> length block = 8 -> writable m out 8 ->
    des_ecb_block ek1 m out inp = des_ecb_block ek2 m out inp.
Proof.
  exists key_ex, key_flip. split; [reflexivity|]. split; [reflexivity|]. split; [vm_compute; discriminate|].
  split; [exists (bytes_bits block_ex); vm_compute; discriminate|].
  intros m kp1 kp2 ek1 ek2 inp block out H1 H2 E1 E2 Hb Lb W.
  apply (C80_des_encryption_uses_first_subkey_only m kp1 key_ex ek1 kp2 key_flip ek2 inp block out); auto.

Qed.
Print Assumptions C80_des_every_key_bit_matters_refuted.
Example C80_instance : let m := [holding key_ex; holding key_flip; holding block_ex; fresh 8] in
  has_bytes m (Ptr 0 0) key_ex /\ has_bytes m (Ptr 1 0) key_flip /\ has_bytes m (Ptr 2 0) block_ex /\ writable m (Ptr 3 0) 8 /\
  first_subkey key_ex = first_subkey key_flip.
Proof.
  split; [conc_has_bytes|]. split; [conc_has_bytes|]. split; [conc_has_bytes|]. split; [conc_writable|]. vm_compute. reflexivity.
Qed.

(** ** C81: packets in electronic code book mode: block by block, and processing
    them twice with the same schedule restores them. *)
Theorem C81_des_ecb_blockwise : forall cs m out inp data,
  has_bytes m inp data -> writable m out (length data) -> same_or_disjoint out inp (length data) ->
  length data mod 8 = 0 -> (N.of_nat (length data) < 2^64)%N ->
  exists e, (forall block m' p q, has_bytes m' p block -> length block = 8 -> writable m' q 8 ->
               length (e block) = 8 /\ des_ecb_block cs m' q p = Ret (write_at m' q (e block))) /\
    des_process_packet_ecb cs m out inp (N.of_nat (length data)) = Ret (write_at m out (flat_map e (chunks 8 data))).
Proof.
  intros cs m out inp data Hd W S M Sz.
  assert (X : exists n, length data = 8 * n) by (exists (length data / 8); apply Nat.div_exact; [discriminate|exact M]).
  destruct X as (n & L). exists (one_subkey_des (sub1 cs)). split.
  - intros block m' p q Hb Lb Wb. split; [apply one_subkey_length|apply des_ecb_block_ok; assumption].
  - rewrite L in *. apply des_ecb_packet_ok; [exact L|exact Sz|]. split; [exact Hd|]. rewrite L. split; assumption.
Qed.
Print Assumptions C81_des_ecb_blockwise.

Theorem C81_des_ecb_round_trip : forall cs m inp data mid out,
  has_bytes m inp data -> length data mod 8 = 0 -> (N.of_nat (length data) < 2^64)%N ->
  writable m mid (length data) -> same_or_disjoint mid inp (length data) ->
  writable m out (length data) -> same_or_disjoint out mid (length data) ->
  exists m1, des_process_packet_ecb cs m mid inp (N.of_nat (length data)) = Ret m1 /\
    des_process_packet_ecb cs m1 out mid (N.of_nat (length data)) = Ret (write_at m1 out data).
Proof.
  intros cs m inp data mid out Hd M Sz W1 S1 W2 S2.
  assert (X : exists n, length data = 8 * n) by (exists (length data / 8); apply Nat.div_exact; [discriminate|exact M]).
  destruct X as (n & L). rewrite L in *.
  rewrite (des_ecb_packet_ok cs m mid inp data n L Sz) by (split; [exact Hd|rewrite L; split; assumption]).
  set (K := sub1 cs). pose proof (ecb_data_length K n data L) as Lc. pose proof (ecb_data_ok K n data L) as Bc.
  eexists. split; [reflexivity|].
  assert (Wm : writable m mid (length (ecb_data K data))) by (rewrite Lc; exact W1).
  rewrite (des_ecb_packet_ok cs _ out mid (ecb_data K data) n).
  - fold K. rewrite (ecb_data_twice K n data L (has_bytes_bytes _ _ _ Hd)). reflexivity.
  - exact Lc.
  - exact Sz.
  - split; [apply has_bytes_write_same; assumption|]. rewrite Lc. split; [apply writable_write_at; assumption|exact S2].
Qed.
Print Assumptions C81_des_ecb_round_trip.
Example C81_instance : let data := block_ex ++ key_ex in let m := [holding data; fresh 16] in
  has_bytes m (Ptr 0 0) data /\ writable m (Ptr 1 0) 16 /\ same_or_disjoint (Ptr 1 0) (Ptr 0 0) 16 /\
  (let* m := des_process_packet_ecb [5; 7]%N m (Ptr 1 0) (Ptr 0 0) 16 in ldn m (Ptr 1 0) 16) <> Ret data.
Proof.
  split; [conc_has_bytes|]. split; [conc_writable|]. split; [right; conc_disjoint|]. vm_compute. discriminate.
Qed.

(** ** C82: sizes in electronic code book mode. *)
Theorem C82_des_ecb_partial_block_undefined : forall cs m out inp size,
  (size < 2^64)%N -> (size mod 8 <> 0)%N -> des_process_packet_ecb cs m out inp size = UB.
Proof. intros. apply des_ecb_odd; assumption. Qed.
Print Assumptions C82_des_ecb_partial_block_undefined.
Theorem C82_des_ecb_every_length_refuted : exists cs m out inp data,
  has_bytes m inp data /\ writable m out (length data) /\ disjoint out (length data) inp (length data) /\ length data = 9 /\
  des_process_packet_ecb cs m out inp (N.of_nat (length data)) = UB.
Proof.
  exists [], [holding (block_ex ++ [1%N]); fresh 9], (Ptr 1 0), (Ptr 0 0), (block_ex ++ [1%N]).
  split; [conc_has_bytes|]. split; [conc_writable|]. split; [conc_disjoint|].
  split; [reflexivity|]. apply C82_des_ecb_partial_block_undefined; [reflexivity|vm_compute; discriminate].
Qed.
Print Assumptions C82_des_ecb_every_length_refuted.
Example C82_instance : (23 < 2^64 /\ 23 mod 8 <> 0)%N /\
  has_bytes ctr_mem (Ptr 2 0) (firstn 23 (block_ex ++ key_ex ++ block_ex)) /\ writable ctr_mem (Ptr 2 0) 23 /\
  des_process_packet_ecb [5; 7]%N ctr_mem (Ptr 2 0) (Ptr 2 0) 23 = UB.
Proof.
  split; [split; [reflexivity|discriminate]|]. split; [conc_has_bytes|]. split; [conc_writable|].
  apply C82_des_ecb_partial_block_undefined; [reflexivity|discriminate].
Qed.

(** The specification used above: with the subkeys in reverse order the
    standard's DES undoes itself, so decryption with all sixteen subkeys would
    be correct. *)
Lemma fips_des_decrypts : forall key block, length block = 64 -> des_decrypt key (des_encrypt key block) = block.
Proof. intros key block H. apply des_with_back. exact H. Qed.
