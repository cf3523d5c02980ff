(** C55 to C58: MD5. *)
From Coq Require Import Arith ZArith NArith List Bool Lia.
From Verif Require Import Res Words Mem MemSpec ListLemmas MemLemmas SpecWords WordsLemmas Concrete AegisProofs Md5Model Md5Proofs Md5Link.
From Verif Require Md5Spec.
Import ListNotations.
Local Open Scope N_scope.

(** A context object of 88 bytes; MD5Init does not need its contents. *)
Definition context (c : ctx) : Prop := length (state c) = 4%nat /\ length (buffer c) = 64%nat.

(** A sequence of Update calls; the memory may change between them. *)
Definition piece : Type := mem * ptr * list N.
Definition data_of (p : piece) : list N := snd p.
Definition held (p : piece) : Prop := let '(m, q, d) := p in has_bytes m q d /\ N.of_nat (length d) < 2^32.
Fixpoint updates (c : ctx) (ps : list piece) : res ctx :=
  match ps with
  | [] => Ret c
  | (m, q, d) :: r => let* c := md5_update c (mem_rd m q) (N.of_nat (length d)) in updates c r
  end.
Definition message (ps : list piece) : list N := concat (map data_of ps).

(** No call starts inside a 64-byte block and passes 2^32 counted from the start of that block. *)
Definition allowed (before : list N) (n : nat) : Prop :=
  (length before mod 64 = 0)%nat \/ N.of_nat (length before mod 64) + N.of_nat n < 2^32.
Fixpoint all_allowed (before : list N) (ps : list piece) : Prop :=
  match ps with
  | [] => True
  | p :: r => allowed before (length (data_of p)) /\ all_allowed (before ++ data_of p) r
  end.

Lemma reads_mem m q d : has_bytes m q d -> reads (mem_rd m q) 0 d.
Proof.
  intros H j Hj. unfold mem_rd. rewrite N.add_0_l, Nat2N.id. apply has_bytes_nth; assumption.
Qed.

Lemma updates_ok : forall ps c msg, holds c msg -> Forall held ps -> all_allowed msg ps ->
  exists c', updates c ps = Ret c' /\ holds c' (msg ++ message ps).
Proof.
  induction ps as [|[[m q] d] ps IH]; intros c msg H F A; cbn [updates].
  - exists c. split; [reflexivity|]. unfold message. cbn [map concat]. rewrite app_nil_r. exact H.
  - inversion F as [|? ? HP F2]; subst. destruct HP as [Hd Ld]. destruct A as [A1 A2]. unfold data_of in A1, A2. cbn [snd] in A1, A2.
    destruct (update_ok c msg (mem_rd m q) d H (reads_mem m q d Hd) (has_bytes_bytes _ _ _ Hd) Ld A1) as (c' & E & H').
    unfold nlen in E. rewrite E. cbn [bind]. destruct (IH c' _ H' F2 A2) as (c2 & E2 & H2).
    exists c2. split; [exact E2|]. unfold message. cbn [map concat]. unfold data_of at 1. cbn [snd]. rewrite app_assoc. exact H2.
Qed.

Definition cleared : ctx := Ctx [0; 0; 0; 0] 0 0 (repeat (Some 0) 64).

(** ** C55 *)
Theorem C55_md5_packet_is_rfc1321 c m digest input msg :
  context c -> has_bytes m input msg -> writable m digest 16 -> N.of_nat (length msg) < 2^32 ->
  md5_process_packet c m digest input (N.of_nat (length msg)) = Ret (write_at m digest (Md5Spec.md5 msg), cleared).
Proof.
  intros [_ Lb] Hm W L. unfold md5_process_packet. cbn zeta.
  destruct (update_ok (md5_init c) [] (mem_rd m input) msg (init_ok c Lb) (reads_mem _ _ _ Hm) (has_bytes_bytes _ _ _ Hm) L) as (c' & E & H').
  { left. reflexivity. }
  unfold nlen in E. rewrite E. cbn [bind]. apply final_ok; assumption.
Qed.
Print Assumptions C55_md5_packet_is_rfc1321.

(** Messages of any total length, given in pieces. *)
Theorem C55_md5_is_rfc1321 c m digest ps :
  context c -> Forall held ps -> all_allowed [] ps -> writable m digest 16 ->
  (let* c := updates (md5_init c) ps in md5_final m digest c) =
    Ret (write_at m digest (Md5Spec.md5 (message ps)), cleared).
Proof.
  intros [_ Lb] F A W. destruct (updates_ok ps (md5_init c) [] (init_ok c Lb) F A) as (c' & E & H').
  rewrite E. cbn [bind]. apply final_ok; assumption.
Qed.
Print Assumptions C55_md5_is_rfc1321.

(** Concrete case: an uninitialised context and the message "abc"; the digest is that of RFC 1321, A.5. *)
Example C55_instance :
  let m := [holding [0x61; 0x62; 0x63]; fresh 16] in
  let c := Ctx [7; 7; 7; 7] 7 7 (fresh 64) in
  context c /\ has_bytes m (Ptr 0 0) [0x61; 0x62; 0x63] /\ writable m (Ptr 1 0) 16 /\
  md5_process_packet c m (Ptr 1 0) (Ptr 0 0) 3 =
    Ret ([holding [0x61; 0x62; 0x63];
          holding [0x90; 0x01; 0x50; 0x98; 0x3c; 0xd2; 0x4f; 0xb0; 0xd6; 0x96; 0x3f; 0x7d; 0x28; 0xe1; 0x7f; 0x72]], cleared).
Proof.
  cbn zeta. split; [split; reflexivity|]. split; [conc_has_bytes|]. split; [conc_writable|]. vm_compute. reflexivity.
Qed.

(** ** C56 *)
(** Two ways of cutting the same message give the same digest. *)
Theorem C56_md5_pieces c1 c2 m digest ps qs :
  context c1 -> context c2 -> Forall held ps -> Forall held qs -> all_allowed [] ps -> all_allowed [] qs -> message ps = message qs ->
  writable m digest 16 ->
  (let* c := updates (md5_init c1) ps in md5_final m digest c) = (let* c := updates (md5_init c2) qs in md5_final m digest c) /\
  exists m' c', (let* c := updates (md5_init c1) ps in md5_final m digest c) = Ret (m', c').
Proof.
  intros H1 H2 F1 F2 A1 A2 E W. rewrite (C55_md5_is_rfc1321 c1), (C55_md5_is_rfc1321 c2), E by assumption.
  split; [reflexivity|]. do 2 eexists. reflexivity.
Qed.
Print Assumptions C56_md5_pieces.

(** Pieces shorter than 2^32 - 63 bytes are always allowed. *)
Theorem C56_md5_ordinary_pieces ps before :
  Forall (fun p => N.of_nat (length (data_of p)) < 2^32 - 63) ps -> all_allowed before ps.
Proof.
  intros F. revert before. induction F as [|p ps H _ IH]; intros before; cbn [all_allowed]; [exact I|]. split; [|apply IH].
  right. pose proof (Nat.mod_upper_bound (length before) 64 ltac:(discriminate)). change (2^32 - 63) with 4294967233 in H.
  change (2^32) with 4294967296. lia.
Qed.
Print Assumptions C56_md5_ordinary_pieces.

(** Concrete case: 70 bytes cut as 60 + 10, and as 1 + 64 + 5. *)
Example C56_instance :
  let l := map N.of_nat (seq 0 70) in
  let m := [holding l; fresh 16] in
  let at_ i n := (m, Ptr 0 i, firstn n (skipn i l)) in
  let ps := [at_ 0 60; at_ 60 10]%nat in let qs := [at_ 0 1; at_ 1 64; at_ 65 5]%nat in
  let c := Ctx [7; 7; 7; 7] 7 7 (fresh 64) in
  Forall held ps /\ Forall held qs /\ all_allowed [] ps /\ all_allowed [] qs /\ message ps = message qs /\ writable m (Ptr 1 0) 16 /\
  (let* c := updates (md5_init c) ps in md5_final m (Ptr 1 0) c) = Ret (write_at m (Ptr 1 0) (Md5Spec.md5 l), cleared).
Proof.
  cbn zeta. split; [|split; [|split; [|split; [|split; [reflexivity|split]]]]].
  - repeat constructor; cbn; try (eexists; split; [reflexivity|split; [cbn; lia|reflexivity]]).
  - repeat constructor; cbn; try (eexists; split; [reflexivity|split; [cbn; lia|reflexivity]]).
  - apply C56_md5_ordinary_pieces. repeat constructor.
  - apply C56_md5_ordinary_pieces. repeat constructor.
  - conc_writable.
  - vm_compute. reflexivity.
Qed.

(** ** C57 *)
(** A buffer of exactly [n] bytes at [q]. *)
Definition ends_at (m : mem) (q : ptr) (n : nat) : Prop :=
  exists b, nth_error m (pblk q) = Some b /\ (length b = poff q + n)%nat.

Lemma mem_rd_oob m q n : ends_at m q n -> forall x, N.of_nat n <= x -> mem_rd m q x = UB.
Proof.
  intros (b & E & L) x Hx. unfold mem_rd. apply ld8_oob with b; [exact E|]. cbn [padd poff]. unfold padd. cbn [poff]. lia.
Qed.
Lemma mem_rd_calm m q x : mem_rd m q x <> NoFuel.
Proof. unfold mem_rd, ld8. destruct (nth_error _ _); [|discriminate]. destruct (nth_error _ _) as [[|]|]; discriminate. Qed.

(** Exactly the allowed calls return; the others loop for ever, and with a
    buffer of the given length they read past its end. *)
Theorem C57_md5_update_exact c ps :
  context c -> Forall held ps -> all_allowed [] ps ->
  exists c', updates (md5_init c) ps = Ret c' /\
  forall m q n, N.of_nat n < 2^32 ->
    (forall d, has_bytes m q d -> length d = n -> allowed (message ps) n ->
       exists c'', md5_update c' (mem_rd m q) (N.of_nat n) = Ret c'') /\
    (~ allowed (message ps) n -> forall rd c'', md5_update c' rd (N.of_nat n) <> Ret c'') /\
    (~ allowed (message ps) n -> forall rd fuel st i s', i < 2^32 -> (i + N.of_nat (length (message ps))) mod 64 = 0 ->
       update_loop rd (N.of_nat n) fuel (st, i) <> Ret s') /\
    (~ allowed (message ps) n -> ends_at m q n -> md5_update c' (mem_rd m q) (N.of_nat n) = UB).
Proof.
  intros [_ Lb] F A. destruct (updates_ok ps (md5_init c) [] (init_ok c Lb) F A) as (c' & E & H). cbn [app] in H.
  exists c'. split; [exact E|]. intros m q n Hn.
  pose proof (Nat.mod_upper_bound (length (message ps)) 64 ltac:(discriminate)) as MB.
  assert (NA : ~ allowed (message ps) n -> (length (message ps) mod 64 <> 0)%nat /\ 2^32 <= N.of_nat (length (message ps) mod 64) + N.of_nat n).
  { intros X. split; [intros Y; apply X; left; exact Y|]. apply N.le_ngt. intros Y. apply X. right. exact Y. }
  split; [|split; [|split]].
  - intros d Hd <- Al. destruct (update_ok c' _ (mem_rd m q) d H (reads_mem _ _ _ Hd) (has_bytes_bytes _ _ _ Hd) Hn Al) as (c'' & E2 & _).
    exists c''. exact E2.
  - intros X rd c''. destruct (NA X). apply (update_never_returns c' (message ps)); assumption.
  - intros X rd fuel st i s' Hi M. destruct (NA X) as [X1 X2].
    apply (loop_never_returns rd (N.of_nat (length (message ps) mod 64)%nat)); try assumption; try lia.
  - intros X Ea. destruct (NA X) as [X1 X2].
    apply (update_runs_off c' (message ps)); try assumption; [apply mem_rd_calm|apply mem_rd_oob; exact Ea].
Qed.
Print Assumptions C57_md5_update_exact.

(** The full claim is false: one byte, then an input of 2^32 - 1 bytes. *)
Theorem C57_md5_update_every_length_refuted : exists c msg1 msg2 m1 m2 q,
  context c /\ length msg1 = 1%nat /\ N.of_nat (length msg2) = 2^32 - 1 /\
  has_bytes m1 q msg1 /\ has_bytes m2 q msg2 /\ ends_at m2 q (length msg2) /\
  updates (md5_init c) [(m1, q, msg1); (m2, q, msg2)] = UB.
Proof.
  destruct (nat_of 4294967295%Z ltac:(lia)) as [k Hk].
  exists (Ctx [0; 0; 0; 0] 0 0 (repeat None 64)), [0], (repeat 0 k), [holding [0]], [holding (repeat 0 k)], (Ptr 0 0).
  assert (H2 : has_bytes [holding (repeat 0 k)] (Ptr 0 0) (repeat 0 k)).
  { split; [apply Forall_forall; intros x Hx; apply repeat_spec in Hx; subst x; reflexivity|].
    exists (holding (repeat 0 k)). split; [reflexivity|]. cbn [poff]. unfold holding. rewrite map_length. split; [lia|].
    rewrite skipn_O. rewrite <- (map_length (@Some N) (repeat 0 k)) at 1. apply firstn_all. }
  assert (H1 : has_bytes [holding [0]] (Ptr 0 0) [0]) by conc_has_bytes.
  assert (EA : ends_at [holding (repeat 0 k)] (Ptr 0 0) k).
  { exists (holding (repeat 0 k)). split; [reflexivity|]. unfold holding. rewrite map_length, repeat_length. reflexivity. }
  split; [split; reflexivity|]. split; [reflexivity|]. rewrite repeat_length.
  split; [change (2^32 - 1) with 4294967295; lia|].
  split; [exact H1|]. split; [exact H2|]. split; [exact EA|].
  destruct (C57_md5_update_exact (Ctx [0; 0; 0; 0] 0 0 (repeat None 64)) [([holding [0]], Ptr 0 0, [0])]) as (c' & E & X).
  { split; reflexivity. }
  { constructor; [split; [exact H1|reflexivity]|constructor]. }
  { split; [left; reflexivity|exact I]. }
  cbn [updates] in E |- *. 
  destruct (md5_update _ _ (N.of_nat (length [0]))) as [c1| |]; cbn [bind] in E |- *; [|discriminate E|discriminate E].
  apply Ret_inj in E. subst c1. rewrite repeat_length.
  destruct (X [holding (repeat 0 k)] (Ptr 0 0) k) as (_ & _ & _ & U); [change (2^32) with 4294967296; lia|].
  rewrite U; [reflexivity| |exact EA].
  intros [Y|Y]; [discriminate Y|]. change (N.of_nat (Nat.modulo (length (message [([holding [0]], Ptr 0 0, [0])])) 64)) with 1 in Y.
  change (2^32) with 4294967296 in Y. lia.
Qed.
Print Assumptions C57_md5_update_every_length_refuted.
(** Pieces of 60 and 10 bytes, after which the next piece may have up to
    2^32 - 7 bytes. *)
Example C57_instance :
  let m := [holding (repeat 97 60%nat); holding (repeat 98 10%nat)] in
  let ps := [(m, Ptr 0 0, repeat 97 60%nat); (m, Ptr 1 0, repeat 98 10%nat)] in
  context (Ctx [7; 7; 7; 7] 7 7 (fresh 64)) /\ Forall held ps /\ all_allowed [] ps /\
  forall n, allowed (message ps) n <-> N.of_nat n < 2^32 - 6.
Proof.
  intros m ps. split; [split; reflexivity|]. split.
  { apply Forall_cons; [split; [conc_has_bytes|reflexivity]|]. apply Forall_cons; [split; [conc_has_bytes|reflexivity]|apply Forall_nil]. }
  split; [split; [left; reflexivity|]; split; [right; reflexivity|exact I]|].
  intros n. unfold allowed. change (length (message ps) mod 64)%nat with 6%nat. change (2^32) with 4294967296. lia.
Qed.

(** ** C58 *)
(** Whatever the context holds, if MD5Final returns then its 88 bytes are zero. *)
Theorem C58_md5_final_wipes m digest c m' c' :
  context c -> md5_final m digest c = Ret (m', c') -> ctx_bytes c' = repeat (Some 0) 88.
Proof. intros [Ls Lb] E. rewrite (final_wipes m digest c m' c' Ls Lb E). reflexivity. Qed.
Print Assumptions C58_md5_final_wipes.

(** After any Init and Update calls MD5Final does return. *)
Theorem C58_md5_final_returns c ps m digest :
  context c -> Forall held ps -> all_allowed [] ps -> writable m digest 16 ->
  exists c1 m' c', updates (md5_init c) ps = Ret c1 /\ context c1 /\ md5_final m digest c1 = Ret (m', c').
Proof.
  intros [_ Lb] F A W. destruct (updates_ok ps (md5_init c) [] (init_ok c Lb) F A) as (c1 & E & H).
  exists c1. do 2 eexists. split; [exact E|]. split; [|apply (final_ok _ _ _ _ H W)].
  destruct H as (bs & t & _ & (Hs & _) & _ & L & _). split; [rewrite Hs; apply list4_length|exact L].
Qed.
Print Assumptions C58_md5_final_returns.

(** Concrete case: the context holds the message before the call and not after it. *)
Example C58_instance :
  let m := [holding [0x61; 0x62; 0x63]; fresh 16] in
  let c := Ctx [7; 7; 7; 7] 7 7 (fresh 64) in
  match updates (md5_init c) [(m, Ptr 0 0, [0x61; 0x62; 0x63])] with
  | Ret c1 => firstn 3 (skipn 24 (ctx_bytes c1)) = holding [0x61; 0x62; 0x63] /\
      match md5_final m (Ptr 1 0) c1 with Ret (_, c2) => ctx_bytes c2 = repeat (Some 0) 88 | _ => False end
  | _ => False
  end.
Proof. vm_compute. split; reflexivity. Qed.
