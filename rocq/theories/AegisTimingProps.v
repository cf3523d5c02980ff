(** Property C132: what the tag check of AEGIS-128 does for a wrong tag. *)
From Coq Require Import Arith NArith ZArith List Bool Lia.
From Verif Require Import Res Words Mem MemSpec ListLemmas MemLemmas SpecWords WordsLemmas IoProofs XorProofs Concrete
  AesProofs AegisSpec AegisModel AegisProofs AegisIo AegisLink AegisProps TimingSpec AegisTimingModel.
Import ListNotations.
Local Open Scope N_scope.

(** The number of 32-bit words in which two tags differ. *)
Definition differs (p : list N * list N) : bool := if list_eq_dec N.eq_dec (fst p) (snd p) then false else true.
Definition wrong_words (a b : list N) : nat := length (filter differs (combine (chunks 4 a) (chunks 4 b))).

(** The counted function gives the results of the model's. *)
Lemma compare_words_flag a b :
  fst (fst (compare_words_timed a b)) = iter_n 4 0 (fun i flag => if negb (nth i a 0 =? nth i b 0) then true else flag) false.
Proof.
  unfold compare_words_timed. cbn [iter_n]. set (x0 := negb _). set (x1 := negb _). set (x2 := negb _). set (x3 := negb _).
  clearbody x0 x1 x2 x3. destruct x0, x1, x2, x3; reflexivity.
Qed.
Lemma compare_words_count a b : snd (fst (compare_words_timed a b)) = 4%nat.
Proof.
  unfold compare_words_timed. cbn [iter_n]. set (x0 := negb _). set (x1 := negb _). set (x2 := negb _). set (x3 := negb _).
  clearbody x0 x1 x2 x3. destruct x0, x1, x2, x3; reflexivity.
Qed.
Lemma timed_result b cs m pt ct ad iv tag adlen n :
  aegis_decrypt_packet b cs m pt ct ad iv tag adlen n =
  (let* (r, _) := aegis_decrypt_packet_timed b cs m pt ct ad iv tag adlen n in Ret r).
Proof.
  unfold aegis_decrypt_packet, aegis_decrypt_packet_timed.
  destruct (ld_words m tag 4) as [u| |]; cbn [bind]; try reflexivity.
  destruct (aegis_initialize b cs m iv) as [cs1| |]; cbn [bind]; try reflexivity.
  destruct (aegis_process_ad b cs1 m ad adlen) as [cs2| |]; cbn [bind]; try reflexivity.
  destruct (aegis_decrypt b cs2 m pt ct n) as [[cs3 m1]| |]; cbn [bind]; try reflexivity.
  destruct (aegis_finalize b cs3 adlen n) as [cs4 w]. rewrite <- (compare_words_flag w u).
  destruct (compare_words_timed w u) as [[flag k] a]. cbn [fst]. destruct flag; [|reflexivity].
  destruct (stn m1 pt _) as [m2| |]; cbn [bind]; try reflexivity. destruct (stn m2 tag _) as [m3| |]; reflexivity.
Qed.

Lemma flag_timed a b : st16 a -> st16 b -> fst (fst (compare_words_timed (words_of a) (words_of b))) = if list_eq_dec N.eq_dec a b then false else true.
Proof. intros Ha Hb. rewrite <- (flag_ok a b Ha Hb). generalize (words_of a) (words_of b). apply compare_words_flag. Qed.
Lemma words_assigned a b : st16 a -> st16 b ->
  snd (compare_words_timed (words_of a) (words_of b)) = wrong_words b a.
Proof.
  intros Ha Hb. unfold wrong_words.
  destruct (words_of_ok a Ha) as (Wa & La & _). destruct (words_of_ok b Hb) as (Wb & Lb & _).
  rewrite <- (words_of_le a Ha) at 2. rewrite <- (words_of_le b Hb) at 2.
  destruct (words_of a) as [|x0 [|x1 [|x2 [|x3 [|]]]]]; try discriminate.
  destruct (words_of b) as [|y0 [|y1 [|y2 [|y3 [|]]]]]; try discriminate.
  assert (D : forall x y, x < 2^32 -> y < 2^32 -> differs (bytes_of_le32 y, bytes_of_le32 x) = negb (x =? y)).
  { intros x y Hx Hy. unfold differs. cbn [fst snd]. destruct (list_eq_dec N.eq_dec (bytes_of_le32 y) (bytes_of_le32 x)) as [E|E].
    - apply (f_equal le_num) in E. rewrite !bytes_of_le32_str, !le_num_str in E.
      change (256 ^ N.of_nat 4) with (2^32) in E. rewrite !N.mod_small in E by assumption. subst y. rewrite N.eqb_refl. reflexivity.
    - destruct (N.eqb_spec x y) as [->|]; [contradiction|reflexivity]. }
  unfold words_ok in Wa, Wb. repeat rewrite Forall_cons_iff in Wa, Wb. destruct Wa as (A0 & A1 & A2 & A3 & _). destruct Wb as (B0 & B1 & B2 & B3 & _).
  change (chunks 4 (le_bytes [y0; y1; y2; y3])) with [bytes_of_le32 y0; bytes_of_le32 y1; bytes_of_le32 y2; bytes_of_le32 y3].
  change (chunks 4 (le_bytes [x0; x1; x2; x3])) with [bytes_of_le32 x0; bytes_of_le32 x1; bytes_of_le32 x2; bytes_of_le32 x3].
  cbn [combine filter]. rewrite !D by assumption. unfold compare_words_timed. cbn [iter_n nth].
  destruct (x0 =? y0), (x1 =? y1), (x2 =? y2), (x3 =? y3); reflexivity.
Qed.

Lemma compare_all a b : st16 a -> st16 b ->
  compare_words_timed (words_of a) (words_of b) = (if list_eq_dec N.eq_dec a b then false else true, 4%nat, wrong_words b a).
Proof.
  intros Ha Hb. rewrite <- (flag_timed a b Ha Hb), <- (words_assigned a b Ha Hb), <- (compare_words_count (words_of a) (words_of b)).
  destruct (compare_words_timed (words_of a) (words_of b)) as [[x y] z]. reflexivity.
Qed.
Lemma timed_back b cs m pt ct ad iv tag adlen n u cs1 cs2 cs3 m1 cs4 w flag k a :
  ld_words m tag 4 = Ret u -> aegis_initialize b cs m iv = Ret cs1 -> aegis_process_ad b cs1 m ad adlen = Ret cs2 ->
  aegis_decrypt b cs2 m pt ct n = Ret (cs3, m1) -> aegis_finalize b cs3 adlen n = (cs4, w) -> compare_words_timed w u = (flag, k, a) ->
  aegis_decrypt_packet_timed b cs m pt ct ad iv tag adlen n =
  (if flag then
     let* m := stn m1 pt (repeat 0 (N.to_nat n)) in let* m := stn m tag (repeat 0 16%nat) in Ret (0, cs4, m, (k, a, (N.to_nat n + 16)%nat))
   else Ret (1, cs4, m1, (k, a, 0%nat))).
Proof. intros E1 E2 E3 E4 E5 E6. unfold aegis_decrypt_packet_timed. rewrite E1. cbn [bind]. rewrite E2. cbn [bind]. rewrite E3. cbn [bind]. rewrite E4. cbn [bind]. rewrite E5, E6. reflexivity. Qed.

Lemma timed_packet b K IV A c t cs m pt ct ad iv tag :
  st16 K -> AegisModel.key cs = words_of K -> has_bytes m iv IV -> length IV = 16%nat ->
  has_bytes m ad A -> len A <= 2^33 -> has_bytes m ct c -> supported (length c) ->
  has_bytes m tag t -> length t = 16%nat -> writable m pt (length c) -> same_or_disjoint pt ct (length c) ->
  exists cs', aegis_decrypt_packet_timed b cs m pt ct ad iv tag (len A) (len c) =
    (if list_eq_dec N.eq_dec t (snd (seal_with false false K IV A c))
     then Ret (1, cs', write_at m pt (fst (seal_with false false K IV A c)), (4, 0, 0)%nat)
     else Ret (0, cs', write_at (write_at m pt (repeat 0 (length c))) tag (repeat 0 16%nat),
               (4, wrong_words t (snd (seal_with false false K IV A c)), length c + 16)%nat)).
Proof.
  intros HK Hk Hiv LI Had LA Hct Sup Ht Lt Wp SD.
  assert (HI : st16 IV) by (split; [exact (has_bytes_bytes _ _ _ Hiv)|exact LI]).
  assert (HT : st16 t) by (split; [exact (has_bytes_bytes _ _ _ Ht)|exact Lt]).
  pose proof (has_bytes_bytes _ _ _ Had) as BA. pose proof (has_bytes_bytes _ _ _ Hct) as Bc.
  destruct (seal_facts false false K IV A c HK HI BA Bc) as (X1 & X2 & X3).
  pose proof (absorb_st_ok _ A BA (initialize_st_ok K IV HK HI)) as HA.
  destruct Sup as [GL Lc].
    destruct (chunks_split c) as (ds & rest & -> & F & Lr & C). rewrite seal_with_eq in * by assumption.
    destruct (parts_ok ds rest Bc) as [Bds Br].
    destruct (crypt_facts false false _ ds rest HA Bds Br F Lr) as (Y1 & Y2 & Y3).
    assert (Hio : io m pt ct (concat ds ++ rest)) by (split; [exact Hct|split; assumption]).
    pose proof (decrypt_ok b K pt ct _ m ds rest HA F Lr Hio GL Lc) as EE.
    destruct (crypt false false (absorb (initialize K IV) A) ds rest) as [p T]. cbn [fst snd] in *.
    exists (enc K (last_state T (len A) (len (concat ds ++ rest)))).
    pose proof (finalize_ok b K T (len A) (len (concat ds ++ rest)) Y3) as FE.
    rewrite (timed_back b cs m pt ct ad iv tag (len A) (len (concat ds ++ rest)) _ _ _ _ _ _ _ _ _ _ (ld_words4 _ _ _ Ht Lt)
      (initialize_ok b K cs m iv IV HK HI Hk Hiv) (process_ad_ok b K _ m ad A Had (initialize_st_ok K IV HK HI) LA) EE FE (compare_all _ t (finalize_st16 T (len A) (len (concat ds ++ rest)) Y3) HT)).
    clear EE FE X3. generalize dependent (finalize T (len A) (len (concat ds ++ rest))). intros T'.
    destruct (list_eq_dec N.eq_dec T' t) as [E|E].
    - destruct (list_eq_dec N.eq_dec t T') as [_|E']; [|congruence]. rewrite E.
      assert (W0 : forall l, filter differs (combine l l) = []).
      { induction l as [|x l IH]; [reflexivity|]. cbn [combine filter]. unfold differs at 1. cbn [fst snd].
        destruct (list_eq_dec N.eq_dec x x); [exact IH|congruence]. }
      unfold wrong_words. rewrite W0. reflexivity.
    - destruct (list_eq_dec N.eq_dec t T') as [E'|_]; [congruence|].
      assert (W1 : writable (write_at m pt p) pt (length (repeat 0 (N.to_nat (len (concat ds ++ rest)))))).
      { apply writable_write_at; [rewrite X1; exact Wp|]. rewrite repeat_length, Nat2N.id. exact Wp. }
      rewrite stn_write by exact W1. cbn [bind]. rewrite Nat2N.id.
      rewrite write_at_same by (rewrite ?repeat_length, ?X1; first [reflexivity|exact Wp]).
      rewrite stn_write; [reflexivity|].
      apply writable_write_at; [rewrite repeat_length; exact Wp|]. rewrite repeat_length.
      apply has_bytes_writable in Ht. rewrite Lt in Ht. exact Ht.
Qed.

(** C132: what decryption does for a tag [t]: always four comparisons; beyond
    the result itself only the number of assignments to a flag, one for each
    wrong word, depends on the tag. *)
Theorem C132_aegis_check_exact : forall b K cs m pt ct ad iv tag A IV c t,
  session K cs -> header m ad iv A IV -> has_bytes m ct c -> supported (length c) ->
  has_bytes m tag t -> length t = 16%nat -> writable m pt (length c) -> same_or_disjoint pt ct (length c) ->
  exists cs' p, length p = length c /\ fst (aegis128_encrypt K IV A p) = c /\
    let T := snd (aegis128_encrypt K IV A p) in
    aegis_decrypt_packet_timed b cs m pt ct ad iv tag (len A) (len c) =
      (if list_eq_dec N.eq_dec t T then Ret (1, cs', write_at m pt p, (4, 0, 0)%nat)
       else Ret (0, cs', write_at (write_at m pt (repeat 0 (length c))) tag (repeat 0 16%nat), (4, wrong_words t T, length c + 16)%nat)) /\
    aegis_decrypt_packet b cs m pt ct ad iv tag (len A) (len c) =
      (let* (r, _) := aegis_decrypt_packet_timed b cs m pt ct ad iv tag (len A) (len c) in Ret r).
Proof.
  intros b K cs m pt ct ad iv tag A IV c t HS Hh Hct Sup Ht Lt Wp SD.
  destruct (session_key K cs HS) as [HK Hk]. destruct Hh as (Hiv & LI & Had & LA).
  assert (HI : st16 IV) by (split; [exact (has_bytes_bytes _ _ _ Hiv)|exact LI]).
  assert (HT : st16 t) by (split; [exact (has_bytes_bytes _ _ _ Ht)|exact Lt]).
  pose proof (has_bytes_bytes _ _ _ Had) as BA. pose proof (has_bytes_bytes _ _ _ Hct) as Bc.
  pose proof (open_encrypt K IV A c HK HI BA Bc) as OE. rewrite <- seal_open in OE.
  destruct (seal_facts false false K IV A c HK HI BA Bc) as (X1 & _).
  destruct (timed_packet b K IV A c t cs m pt ct ad iv tag HK Hk Hiv LI Had LA Hct Sup Ht Lt Wp SD) as [cs' G].
  exists cs', (fst (seal_with false false K IV A c)). cbv zeta.
  destruct (seal_with false false K IV A c) as [p T]. cbn [fst snd] in *. rewrite OE. cbn [fst snd].
  split; [exact X1|]. split; [reflexivity|]. split; [exact G|apply timed_result].
Qed.
Print Assumptions C132_aegis_check_exact.

(** Strategies that ask for tags of [n] bytes only, and those that do not look
    at the time. *)
Fixpoint asks (n : nat) (g : strategy) : Prop :=
  match g with Name _ => True | Ask t next => length t = n /\ bytes_ok t /\ forall ok time, asks n (next ok time) end.
Fixpoint timeless (g : strategy) : Prop :=
  match g with Name _ => True | Ask t next => forall ok, (forall x y, next ok x = next ok y) /\ forall x, timeless (next ok x) end.

Fixpoint mute (f : bool -> nat) (g : strategy) : strategy :=
  match g with Name t => Name t | Ask t next => Ask t (fun ok _ => mute f (next ok (f ok))) end.
Lemma mute_timeless f g : timeless (mute f g).
Proof. induction g as [t|t next IH]; [exact I|]. intros ok. split; [reflexivity|]. intros x. apply IH. Qed.
Lemma mute_play n f o g : asks n g -> (forall t, length t = n -> bytes_ok t -> snd (o t) = f (fst (o t))) -> play o (mute f g) = play o g.
Proof.
  intros A H. induction g as [t|t next IH]; [reflexivity|]. destruct A as (L & B & A). cbn [mute play].
  rewrite (IH (fst (o t)) (f (fst (o t)))) by apply A. rewrite <- (H t L B). reflexivity.
Qed.

(** A sender who sees the answers and how many comparisons and clearing steps
    each took finds out no more, with no more questions, than one who sees the
    answers: whatever they do, a strategy that ignores the time, the same for all
    keys, IVs, data and messages of one length, does as well.  [o] is the
    receiver: for every tag asked, some memory in which it checks that tag. *)
Theorem C132_aegis_time_hides_tag : forall n g, asks 16 g -> exists g', timeless g' /\
  forall b K cs A IV c (o : list N -> bool * nat), length c = n -> supported n -> session K cs ->
  (forall t, length t = 16%nat -> bytes_ok t -> exists m pt ct ad iv tag r cs' m' compared assigned cleared,
     header m ad iv A IV /\ has_bytes m ct c /\ has_bytes m tag t /\ writable m pt (length c) /\ same_or_disjoint pt ct (length c) /\
     aegis_decrypt_packet_timed b cs m pt ct ad iv tag (len A) (len c) = Ret (r, cs', m', (compared, assigned, cleared)) /\
     o t = (r =? 1, (compared + cleared)%nat)) ->
  play o g' = play o g.
Proof.
  intros n g Ag. exists (mute (fun ok : bool => (4 + if ok then 0 else n + 16)%nat) g). split; [apply mute_timeless|].
  intros b K cs A IV c o Lc Sup HS O. apply (mute_play 16); [exact Ag|]. intros t Lt Bt.
  destruct (O t Lt Bt) as (m & pt & ct & ad & iv & tag & r & cs' & m' & compared & assigned & cleared & Hh & Hc & Ht & W & D & E & Eo).
  rewrite <- Lc in Sup.
  destruct (C132_aegis_check_exact b K cs m pt ct ad iv tag A IV c t HS Hh Hc Sup Ht Lt W D) as (cs2 & p & _ & _ & X & _).
  rewrite E in X. rewrite Eo. cbn [fst snd]. rewrite <- Lc.
  destruct (list_eq_dec N.eq_dec t _); injection X as -> _ _ -> _ ->; reflexivity.
Qed.
Print Assumptions C132_aegis_time_hides_tag.

(** A packet of 37 bytes: the right tag, and one with a wrong byte in each of two
    words; a strategy of two questions. *)
Example C132_instance :
  (let K := map N.of_nat (seq 1 16) in let IV := map N.of_nat (seq 50 16) in
   let '(c, t) := aegis128_encrypt K IV [7;8;9] ex_msg in
   let m t := [holding K; holding IV; holding [7;8;9]; holding c; holding t; fresh 37] in
   let wrong := match t with x :: t => N.lxor x 1 :: removelast t ++ [N.lxor (last t 0) 1] | [] => [] end in
   let run t := match aegis_load_key (Aegis [] [] [] [] [] []) (m t) (Ptr 0 0) with
     | Ret cs => match aegis_decrypt_packet_timed ATable cs (m t) (Ptr 5 0) (Ptr 3 0) (Ptr 2 0) (Ptr 1 0) (Ptr 4 0) 3 37 with
                 | Ret (r, _, _, w) => Some (r, w) | _ => None end
     | _ => None end in
   run t = Some (1, (4, 0, 0)%nat) /\ run wrong = Some (0, (4, 2, 53)%nat) /\ wrong_words wrong t = 2%nat /\ supported (length c)) /\
  asks 16 (Ask (repeat 0 16%nat) (fun ok time => if ok then Name [] else Ask (repeat (N.of_nat time mod 256) 16%nat) (fun _ _ => Name []))).
Proof.
  split; [vm_compute; repeat split; try (right; repeat constructor)|].
  split; [reflexivity|]. split; [repeat constructor|]. intros [|] time; [exact I|]. split; [reflexivity|].
  split; [|intros; exact I]. unfold bytes_ok. apply Forall_forall. intros x X. apply repeat_spec in X. subst x. apply N.mod_upper_bound. discriminate.
Qed.

(** A receiver as the theorem asks for: key, IV and associated data as above, any
    ciphertext of 20 bytes. *)
Example C132_receiver : exists (o : list N -> bool * nat) cs, session (map N.of_nat (seq 1 16)) cs /\ supported 20 /\
  forall t, length t = 16%nat -> bytes_ok t -> exists m pt ct ad iv tag r cs' m' compared assigned cleared,
     header m ad iv [7;8;9] (map N.of_nat (seq 50 16)) /\ has_bytes m ct (repeat 3 20%nat) /\ has_bytes m tag t /\ writable m pt 20 /\ same_or_disjoint pt ct 20 /\
     aegis_decrypt_packet_timed AX86 cs m pt ct ad iv tag 3 20 = Ret (r, cs', m', (compared, assigned, cleared)) /\
     o t = (r =? 1, (compared + cleared)%nat).
Proof.
  set (K := map N.of_nat (seq 1 16)). set (IV := map N.of_nat (seq 50 16)). set (c := repeat 3 20%nat).
  set (m0 := [holding K; holding IV; holding [7;8;9]; holding c; fresh 20]).
  assert (S : exists cs, aegis_load_key (Aegis [] [] [] [] [] []) m0 (Ptr 0 0) = Ret cs) by (vm_compute; eauto).
  destruct S as [cs S].
  assert (HS : session K cs) by (apply (session_load K (Aegis [] [] [] [] [] []) cs m0 (Ptr 0 0)); [unfold m0; conc_has_bytes|reflexivity|exact S]).
  set (T := snd (seal_with false false K IV [7;8;9] c)).
  exists (fun t => if list_eq_dec N.eq_dec t T then (true, 4%nat) else (false, 40%nat)), cs.
  split; [exact HS|]. split; [split; [lia|reflexivity]|]. intros t Lt Bt.
  assert (Ht : has_bytes (m0 ++ [holding t]) (Ptr 5 0) t) by (apply (has_bytes_last m0 t Bt)).
  assert (Hh : header (m0 ++ [holding t]) (Ptr 2 0) (Ptr 1 0) [7;8;9] IV).
  { split; [apply has_bytes_alloc; unfold m0; conc_has_bytes|]. split; [reflexivity|]. split; [apply has_bytes_alloc; unfold m0; conc_has_bytes|]. vm_compute. discriminate. }
  assert (Hc : has_bytes (m0 ++ [holding t]) (Ptr 3 0) c) by (apply has_bytes_alloc; unfold m0; conc_has_bytes).
  assert (W : writable (m0 ++ [holding t]) (Ptr 4 0) 20) by (apply writable_alloc; unfold m0; conc_writable).
  assert (D : same_or_disjoint (Ptr 4 0) (Ptr 3 0) 20) by (right; left; discriminate).
  destruct (session_key K cs HS) as [HK Hk]. destruct Hh as (H1 & H2 & H3 & H4).
  destruct (timed_packet AX86 K IV [7;8;9] c t cs (m0 ++ [holding t]) (Ptr 4 0) (Ptr 3 0) (Ptr 2 0) (Ptr 1 0) (Ptr 5 0)
    HK Hk H1 H2 H3 H4 Hc ltac:(split; [right; unfold c; rewrite repeat_length; lia|reflexivity]) Ht Lt W D) as [cs' E].
  fold T in E. change (len [7;8;9]) with 3 in E. change (len c) with 20 in E. change (length c) with 20%nat in E.
  assert (Hh : header (m0 ++ [holding t]) (Ptr 2 0) (Ptr 1 0) [7;8;9] IV) by (split; [exact H1|]; split; [exact H2|]; split; [exact H3|exact H4]).
  destruct (list_eq_dec N.eq_dec t T) as [Q|Q]; do 12 eexists;
    (split; [exact Hh|]; split; [exact Hc|]; split; [exact Ht|]; split; [exact W|]; split; [exact D|]; split; [exact E|]; reflexivity).
Qed.
