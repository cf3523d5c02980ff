(** AEGIS-128 with an IV used twice: what an eavesdropper learns.  The code
    modelled is [aegis_encrypt_packet] of AegisModel, all three builds. *)
From Coq Require Import Arith NArith List Bool Lia.
From Verif Require Import Res Mem MemSpec MemLemmas Words SpecWords WordsLemmas Concrete AesSpec AesProofs AesProps AegisSpec AegisModel AegisProofs AegisIo AegisLink AegisProps.
Import ListNotations.
Local Open Scope N_scope.

Lemma encrypt_blocks_app ps qs : forall S,
  fst (encrypt_blocks S (ps ++ qs)) = fst (encrypt_blocks S ps) ++ fst (encrypt_blocks (snd (encrypt_blocks S ps)) qs).
Proof.
  induction ps as [|p ps IH]; intros S; [reflexivity|]. cbn [app encrypt_blocks]. pose proof (IH (update S (pad16 p))) as E.
  destruct (encrypt_blocks (update S (pad16 p)) (ps ++ qs)) as [c T]. destruct (encrypt_blocks (update S (pad16 p)) ps) as [c' T'].
  cbn [fst snd] in *. rewrite E, app_assoc. reflexivity.
Qed.

Lemma encrypt_fst K IV A msg : fst (aegis128_encrypt K IV A msg) = fst (encrypt_blocks (absorb (initialize K IV) A) (chunks 16 msg)).
Proof. unfold aegis128_encrypt. destruct (encrypt_blocks _ _). reflexivity. Qed.

Lemma xor_prefix x r k : xor_bytes x k = firstn (length x) (xor_bytes (x ++ r) k).
Proof. rewrite xor_bytes_firstn, firstn_app, Nat.sub_diag, firstn_O, app_nil_r, firstn_all. symmetry. apply xor_bytes_trunc. Qed.

(** The first bytes of the message that remains are masked by the key block. *)
Lemma next_block S x r : (length x <= 16)%nat ->
  exists t, fst (encrypt_blocks S (chunks 16 (x ++ r))) = xor_bytes x (key_block S) ++ t.
Proof.
  intros L. destruct (list_eq_dec N.eq_dec (x ++ r) []) as [E|E].
  - apply app_eq_nil in E as [-> ->]. exists []. reflexivity.
  - rewrite chunks_cons by (lia || exact E). cbn [encrypt_blocks]. destruct (encrypt_blocks _ _) as [c T]. cbn [fst].
    unfold crypt_block. rewrite firstn_app. rewrite (firstn_all2 x) by exact L.
    rewrite (xor_prefix x (firstn (16 - length x) r) (key_block S)).
    exists (skipn (length x) (xor_bytes (x ++ firstn (16 - length x) r) (key_block S)) ++ c).
    rewrite app_assoc, firstn_skipn. reflexivity.
Qed.

Lemma xor_cancel x : forall y k, length x = length y -> (length x <= length k)%nat ->
  xor_bytes (xor_bytes x k) (xor_bytes y k) = xor_bytes x y.
Proof.
  induction x as [|a x IH]; intros [|b y] [|c k] L1 L2; cbn in L1, L2; try discriminate; try lia; [reflexivity|reflexivity|].
  unfold xor_bytes in *. cbn [combine map fst snd]. f_equal.
  - rewrite (N.lxor_comm b c), N.lxor_assoc, <- (N.lxor_assoc c c b), N.lxor_nilpotent, N.lxor_0_l. reflexivity.
  - apply IH; lia.
Qed.

Lemma blocks_facts S d : st_ok S -> bytes_ok d ->
  length (fst (encrypt_blocks S (chunks 16 d))) = length d /\ st_ok (snd (encrypt_blocks S (chunks 16 d))).
Proof.
  intros O B. destruct (chunks_bounds d B) as (B1 & B2 & B3). destruct (run_length true S (chunks 16 d) O B1 B2) as (X & _ & Y).
  rewrite run_encrypt, B3 in X. rewrite run_encrypt in Y. split; assumption.
Qed.

(** Ciphertexts of two messages that agree on [pre], whole blocks. *)
Lemma reuse_spec K IV A pre x r y s : st16 K -> st16 IV -> bytes_ok A -> bytes_ok pre ->
  (length pre mod 16 = 0)%nat -> length x = length y -> (length x <= 16)%nat ->
  exists cp cx cr cy cs, fst (aegis128_encrypt K IV A (pre ++ x ++ r)) = cp ++ cx ++ cr /\
    fst (aegis128_encrypt K IV A (pre ++ y ++ s)) = cp ++ cy ++ cs /\
    length cp = length pre /\ length cx = length x /\ length cy = length y /\ xor_bytes cx cy = xor_bytes x y.
Proof.
  intros HK HI BA Bp M L L16. pose proof (absorb_st_ok _ A BA (initialize_st_ok K IV HK HI)) as HS.
  destruct (blocks_facts _ pre HS Bp) as [P1 P2]. rewrite !encrypt_fst, (chunks_app16 pre (x ++ r)), (chunks_app16 pre (y ++ s)), !encrypt_blocks_app by exact M.
  set (T := snd (encrypt_blocks (absorb (initialize K IV) A) (chunks 16 pre))) in *.
  destruct (next_block T x r L16) as (t & E). destruct (next_block T y s ltac:(lia)) as (t' & E'). rewrite E, E'.
  pose proof (proj2 (key_block_st16 T P2)) as LK.
  do 5 eexists. split; [reflexivity|]. split; [reflexivity|]. split; [exact P1|].
  rewrite !xor_bytes_length_min, LK. split; [lia|]. split; [lia|]. apply xor_cancel; [exact L|lia].
Qed.

(** C115: two packets under the same key, IV and associated data, in any
    sessions and builds.  Where the messages agree on whole blocks, so do the
    ciphertexts; the next up to 16 bytes of the ciphertexts differ by exactly
    the difference of the messages. *)
Theorem C115_aegis_iv_reuse : forall b b' K cs cs' m m' ct ct' tag tag' pt pt' ad ad' iv iv' A IV pre x r y s,
  session K cs -> session K cs' -> header m ad iv A IV -> header m' ad' iv' A IV ->
  has_bytes m pt (pre ++ x ++ r) -> has_bytes m' pt' (pre ++ y ++ s) ->
  supported (length (pre ++ x ++ r)) -> supported (length (pre ++ y ++ s)) ->
  writable m ct (length (pre ++ x ++ r)) -> writable m tag 16 -> disjoint ct (length (pre ++ x ++ r)) pt (length (pre ++ x ++ r)) ->
  writable m' ct' (length (pre ++ y ++ s)) -> writable m' tag' 16 -> disjoint ct' (length (pre ++ y ++ s)) pt' (length (pre ++ y ++ s)) ->
  (length pre mod 16 = 0)%nat -> length x = length y -> (length x <= 16)%nat ->
  exists cs1 cs1' cp cx cr cy cr' t t',
    aegis_encrypt_packet b cs m ct tag pt ad iv (len A) (len (pre ++ x ++ r)) =
      Ret (cs1, write_at (write_at m ct (cp ++ cx ++ cr)) tag t) /\
    aegis_encrypt_packet b' cs' m' ct' tag' pt' ad' iv' (len A) (len (pre ++ y ++ s)) =
      Ret (cs1', write_at (write_at m' ct' (cp ++ cy ++ cr')) tag' t') /\
    length cp = length pre /\ length cx = length x /\ length cy = length y /\ xor_bytes cx cy = xor_bytes x y.
Proof.
  intros b b' K cs cs' m m' ct ct' tag tag' pt pt' ad ad' iv iv' A IV pre x r y s S1 S2 H1 H2 P1 P2 U1 U2 W1 T1 D1 W2 T2 D2 M L L16.
  destruct (C42_aegis_encrypt_is_aegis128 b K cs m ct tag pt ad iv A IV _ S1 H1 P1 U1 W1 T1 D1) as (cs1 & E1).
  destruct (C42_aegis_encrypt_is_aegis128 b' K cs' m' ct' tag' pt' ad' iv' A IV _ S2 H2 P2 U2 W2 T2 D2) as (cs1' & E2).
  destruct (session_key K cs S1) as [HK _]. destruct H1 as (Hiv & LI & Had & _).
  pose proof (has_bytes_bytes _ _ _ P1) as Bp. unfold bytes_ok in Bp. apply Forall_app in Bp as [Bp _].
  destruct (reuse_spec K IV A pre x r y s HK (conj (has_bytes_bytes _ _ _ Hiv) LI) (has_bytes_bytes _ _ _ Had) Bp M L L16)
    as (cp & cx & cr & cy & cr' & F1 & F2 & R).
  rewrite F1 in E1. rewrite F2 in E2. exists cs1, cs1', cp, cx, cr, cy, cr'. do 2 eexists. split; [exact E1|]. split; [exact E2|exact R].
Qed.
Print Assumptions C115_aegis_iv_reuse.

(** The ciphertext shows when a message is sent again under the same key, IV
    and associated data, and only then. *)
Theorem C115_aegis_repeats_show : forall b b' K cs cs' m m' ct ct' tag tag' pt pt' ad ad' iv iv' A IV msg msg',
  session K cs -> session K cs' -> header m ad iv A IV -> header m' ad' iv' A IV ->
  has_bytes m pt msg -> has_bytes m' pt' msg' -> supported (length msg) -> supported (length msg') ->
  writable m ct (length msg) -> writable m tag 16 -> disjoint ct (length msg) pt (length msg) ->
  writable m' ct' (length msg') -> writable m' tag' 16 -> disjoint ct' (length msg') pt' (length msg') ->
  exists cs1 cs1' c c' t t',
    aegis_encrypt_packet b cs m ct tag pt ad iv (len A) (len msg) = Ret (cs1, write_at (write_at m ct c) tag t) /\
    aegis_encrypt_packet b' cs' m' ct' tag' pt' ad' iv' (len A) (len msg') = Ret (cs1', write_at (write_at m' ct' c') tag' t') /\
    length c = length msg /\ length c' = length msg' /\ (c = c' <-> msg = msg') /\ (msg = msg' -> t = t').
Proof.
  intros b b' K cs cs' m m' ct ct' tag tag' pt pt' ad ad' iv iv' A IV msg msg' S1 S2 H1 H2 P1 P2 U1 U2 W1 T1 D1 W2 T2 D2.
  destruct (C42_aegis_encrypt_is_aegis128 b K cs m ct tag pt ad iv A IV _ S1 H1 P1 U1 W1 T1 D1) as (cs1 & E1).
  destruct (C42_aegis_encrypt_is_aegis128 b' K cs' m' ct' tag' pt' ad' iv' A IV _ S2 H2 P2 U2 W2 T2 D2) as (cs1' & E2).
  destruct (session_key K cs S1) as [HK _]. destruct H1 as (Hiv & LI & Had & _).
  assert (HI : st16 IV) by (split; [exact (has_bytes_bytes _ _ _ Hiv)|exact LI]). pose proof (has_bytes_bytes _ _ _ Had) as BA.
  pose proof (has_bytes_bytes _ _ _ P1) as B1. pose proof (has_bytes_bytes _ _ _ P2) as B2.
  destruct (seal_facts true true K IV A msg HK HI BA B1) as (L1 & _). destruct (seal_facts true true K IV A msg' HK HI BA B2) as (L2 & _).
  rewrite seal_encrypt in L1, L2.
  do 6 eexists. split; [exact E1|]. split; [exact E2|]. split; [exact L1|]. split; [exact L2|].
  split; [|intros ->; reflexivity]. split; [|intros ->; reflexivity]. intros E.
  pose proof (encrypt_open K IV A msg HK HI BA B1) as O1. pose proof (encrypt_open K IV A msg' HK HI BA B2) as O2.
  rewrite E, O2 in O1. congruence.
Qed.
Print Assumptions C115_aegis_repeats_show.

(** Two 37-byte messages that agree on the first 16 bytes, sealed with the table
    build and the x86 build: the hypotheses hold and the second blocks leak. *)
Example C115_instance :
  let pre := map N.of_nat (seq 100 16) in let x := map N.of_nat (seq 30 16) in let y := repeat 200 16%nat in
  let msg := pre ++ x ++ repeat 1 5%nat in let msg' := pre ++ y ++ repeat 9 5%nat in
  (exists cs, session (map N.of_nat (seq 1 16)) cs) /\
  header (ex_mem msg) (Ptr 2 0) (Ptr 1 0) [7;8;9] (map N.of_nat (seq 50 16)) /\
  header (ex_mem msg') (Ptr 2 0) (Ptr 1 0) [7;8;9] (map N.of_nat (seq 50 16)) /\
  has_bytes (ex_mem msg) (Ptr 3 0) msg /\ has_bytes (ex_mem msg') (Ptr 3 0) msg' /\ supported (length msg) /\
  supported (length msg') /\ writable (ex_mem msg) (Ptr 4 0) (length msg) /\ writable (ex_mem msg) (Ptr 5 0) 16 /\
  disjoint (Ptr 4 0) (length msg) (Ptr 3 0) (length msg) /\ writable (ex_mem msg') (Ptr 4 0) (length msg') /\
  writable (ex_mem msg') (Ptr 5 0) 16 /\ disjoint (Ptr 4 0) (length msg') (Ptr 3 0) (length msg') /\
  (length pre mod 16 = 0)%nat /\ length x = length y /\ (length x <= 16)%nat /\
  match aegis_load_key (Aegis [] [] [] [] [] []) (ex_mem msg) (Ptr 0 0) with
  | Ret cs => match aegis_encrypt_packet ATable cs (ex_mem msg) (Ptr 4 0) (Ptr 5 0) (Ptr 3 0) (Ptr 2 0) (Ptr 1 0) 3 37,
                    aegis_encrypt_packet AX86 cs (ex_mem msg') (Ptr 4 0) (Ptr 5 0) (Ptr 3 0) (Ptr 2 0) (Ptr 1 0) 3 37 with
              | Ret (_, m1), Ret (_, m2) => match ldn m1 (Ptr 4 0) 37, ldn m2 (Ptr 4 0) 37 with
                  | Ret c, Ret c' => firstn 16 c = firstn 16 c' /\
                      xor_bytes (firstn 16 (skipn 16 c)) (firstn 16 (skipn 16 c')) = xor_bytes x y
                  | _, _ => False
                  end
              | _, _ => False
              end
  | _ => False
  end.
Proof.
  cbv zeta. split; [destruct (ex_session []) as (cs & _ & H); exists cs; exact H|]. split; [apply ex_header|]. split; [apply ex_header|].
  split; [conc_has_bytes|]. split; [conc_has_bytes|]. split; [split; [right; cbn; lia|reflexivity]|].
  split; [split; [right; cbn; lia|reflexivity]|]. split; [conc_writable|]. split; [conc_writable|]. split; [conc_disjoint|].
  split; [conc_writable|]. split; [conc_writable|]. split; [conc_disjoint|]. split; [reflexivity|]. split; [reflexivity|].
  split; [cbn; lia|]. vm_compute. split; reflexivity.
Qed.
