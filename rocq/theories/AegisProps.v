(** Properties C41-C48 and C76: AEGIS-128. *)
From Coq Require Import Arith NArith ZArith List Bool Lia.
From Verif Require Import Res Words Mem MemSpec ListLemmas MemLemmas SpecWords WordsLemmas IoProofs Concrete
  AesProofs AegisSpec AegisModel AegisProofs AegisIo AegisLink.
Import ListNotations.
Local Open Scope N_scope.

(** The states reachable with key [K]: the key is loaded into any state, then
    packets are encrypted and decrypted in any order, by any of the builds, with
    any arguments for which the calls return. *)
Inductive session (K : list N) : aegis_state -> Prop :=
| session_load cs0 cs m k : has_bytes m k K -> length K = 16%nat -> aegis_load_key cs0 m k = Ret cs -> session K cs
| session_encrypt b cs cs' m ct tag pt ad iv adlen n m' : session K cs ->
    aegis_encrypt_packet b cs m ct tag pt ad iv adlen n = Ret (cs', m') -> session K cs'
| session_decrypt b cs cs' m pt ct ad iv tag adlen n r m' : session K cs ->
    aegis_decrypt_packet b cs m pt ct ad iv tag adlen n = Ret (r, cs', m') -> session K cs'.

Lemma session_key K cs : session K cs -> st16 K /\ AegisModel.key cs = words_of K.
Proof.
  intros H. induction H as [cs0 cs m k Hk L E|b cs cs' m ct tag pt ad iv adlen n m' H IH E|b cs cs' m pt ct ad iv tag adlen n r m' H IH E].
  - split; [split; [exact (has_bytes_bytes _ _ _ Hk)|exact L]|].
    unfold aegis_load_key in E. rewrite (ld_words4 _ _ _ Hk L) in E. apply Ret_inj in E. subst cs. reflexivity.
  - apply encrypt_packet_key in E. rewrite E. exact IH.
  - apply decrypt_packet_key in E. rewrite E. exact IH.
Qed.

(** Associated data and IV for a packet. *)
Definition header (m : mem) (ad iv : ptr) (A IV : list N) : Prop :=
  has_bytes m iv IV /\ length IV = 16%nat /\ has_bytes m ad A /\ len A <= 2^33.
(** The message lengths the code supports. *)
Definition supported (n : nat) : Prop := (n = 0 \/ 15 <= n)%nat /\ N.of_nat n < 2^64.

(** A concrete packet: key, IV, associated data and 37 bytes of message. *)
Definition ex_mem (msg : list N) : mem :=
  [holding (map N.of_nat (seq 1 16)); holding (map N.of_nat (seq 50 16)); holding [7;8;9]; holding msg;
   fresh (length msg); fresh 16].
Definition ex_msg : list N := map N.of_nat (seq 100 37).

(** ** C42 *)
Theorem C42_aegis_encrypt_is_aegis128 : forall b K cs m ct tag pt ad iv A IV msg,
  session K cs -> header m ad iv A IV -> has_bytes m pt msg -> supported (length msg) ->
  writable m ct (length msg) -> writable m tag 16 -> disjoint ct (length msg) pt (length msg) ->
  exists cs', aegis_encrypt_packet b cs m ct tag pt ad iv (len A) (len msg) =
    Ret (cs', write_at (write_at m ct (fst (aegis128_encrypt K IV A msg)))
                tag (snd (aegis128_encrypt K IV A msg))).
Proof.
  intros b K cs m ct tag pt ad iv A IV msg HS (Hiv & LI & Had & LA) Hpt [GL L64] Wc Wt D.
  destruct (session_key K cs HS) as [HK Hk].
  destruct (encrypt_packet_ok b K IV A msg cs m ct tag pt ad iv true HK Hk Hiv LI Had LA Hpt L64 GL Wc Wt D) as (cs' & E & _ & _).
  rewrite seal_encrypt in E. exists cs'. exact E.
Qed.
Print Assumptions C42_aegis_encrypt_is_aegis128.

Theorem C42_aegis_decrypt_is_aegis128 : forall b K cs m pt ct ad iv tag A IV c t,
  session K cs -> header m ad iv A IV -> has_bytes m ct c -> supported (length c) ->
  has_bytes m tag t -> length t = 16%nat -> writable m pt (length c) -> same_or_disjoint pt ct (length c) ->
  exists cs', aegis_decrypt_packet b cs m pt ct ad iv tag (len A) (len c) =
    match aegis128_decrypt K IV A c t with
    | Some p => Ret (1, cs', write_at m pt p)
    | None => Ret (0, cs', write_at (write_at m pt (repeat 0 (length c))) tag (repeat 0 16%nat))
    end.
Proof.
  intros b K cs m pt ct ad iv tag A IV c t HS (Hiv & LI & Had & LA) Hct [GL L64] Ht Lt Wp SD.
  destruct (session_key K cs HS) as [HK Hk].
  destruct (decrypt_packet_ok b K IV A c t cs m pt ct ad iv tag HK Hk Hiv LI Had LA Hct L64 GL Ht Lt Wp SD) as (cs' & E & _ & _).
  exists cs'. rewrite E, seal_open. unfold aegis128_decrypt.
  destruct (aegis128_open K IV A c) as [p t']. cbn [fst snd].
  destruct (list_eq_dec N.eq_dec t' t); reflexivity.
Qed.
Print Assumptions C42_aegis_decrypt_is_aegis128.

Lemma ex_header msg : header (ex_mem msg) (Ptr 2 0) (Ptr 1 0) [7;8;9] (map N.of_nat (seq 50 16)).
Proof.
  split; [conc_has_bytes|]. split; [reflexivity|]. split; [conc_has_bytes|]. cbn. discriminate.
Qed.
Lemma ex_session msg : exists cs, aegis_load_key (Aegis [] [] [] [] [] []) (ex_mem msg) (Ptr 0 0) = Ret cs /\
  session (map N.of_nat (seq 1 16)) cs.
Proof.
  assert (H : has_bytes (ex_mem msg) (Ptr 0 0) (map N.of_nat (seq 1 16))) by conc_has_bytes.
  eexists. split; [unfold aegis_load_key; rewrite (ld_words4 _ _ _ H eq_refl); reflexivity|].
  apply (session_load _ (Aegis [] [] [] [] [] []) _ (ex_mem msg) (Ptr 0 0)); [exact H|reflexivity|].
  unfold aegis_load_key. rewrite (ld_words4 _ _ _ H eq_refl). reflexivity.
Qed.
Example C42_instance : (exists cs, session (map N.of_nat (seq 1 16)) cs) /\
  header (ex_mem ex_msg) (Ptr 2 0) (Ptr 1 0) [7;8;9] (map N.of_nat (seq 50 16)) /\
  has_bytes (ex_mem ex_msg) (Ptr 3 0) ex_msg /\ supported (length ex_msg) /\
  writable (ex_mem ex_msg) (Ptr 4 0) (length ex_msg) /\ writable (ex_mem ex_msg) (Ptr 5 0) 16 /\
  disjoint (Ptr 4 0) (length ex_msg) (Ptr 3 0) (length ex_msg).
Proof.
  split; [destruct (ex_session ex_msg) as (cs & _ & H); exists cs; exact H|]. split; [apply ex_header|].
  split; [conc_has_bytes|]. split; [split; [right; cbn; lia|reflexivity]|].
  split; [conc_writable|]. split; [conc_writable|conc_disjoint].
Qed.

(** ** C41: the receiver, whatever packets each party processed before, accepts
    and obtains the message; each party may use any of the builds. *)
Theorem C41_aegis_round_trip : forall b K cs m ct tag pt ad iv A IV msg,
  session K cs -> header m ad iv A IV -> has_bytes m pt msg -> supported (length msg) ->
  writable m ct (length msg) -> writable m tag 16 -> disjoint ct (length msg) pt (length msg) ->
  exists cs' c t,
    aegis_encrypt_packet b cs m ct tag pt ad iv (len A) (len msg) = Ret (cs', write_at (write_at m ct c) tag t) /\
    length c = length msg /\ length t = 16%nat /\
    forall b2 cs2 m2 pt2 ct2 ad2 iv2 tag2,
      session K cs2 -> header m2 ad2 iv2 A IV -> has_bytes m2 ct2 c -> has_bytes m2 tag2 t ->
      writable m2 pt2 (length msg) -> same_or_disjoint pt2 ct2 (length msg) ->
      exists cs2', aegis_decrypt_packet b2 cs2 m2 pt2 ct2 ad2 iv2 tag2 (len A) (len msg) =
        Ret (1, cs2', write_at m2 pt2 msg).
Proof.
  intros b K cs m ct tag pt ad iv A IV msg HS Hh Hpt Sup Wc Wt D.
  destruct (C42_aegis_encrypt_is_aegis128 b K cs m ct tag pt ad iv A IV msg HS Hh Hpt Sup Wc Wt D) as (cs' & E).
  destruct (session_key K cs HS) as [HK Hk]. destruct Hh as (Hiv & LI & Had & LA).
  assert (HI : st16 IV) by (split; [exact (has_bytes_bytes _ _ _ Hiv)|exact LI]).
  pose proof (has_bytes_bytes _ _ _ Had) as BA. pose proof (has_bytes_bytes _ _ _ Hpt) as Bd.
  destruct (seal_facts true true K IV A msg HK HI BA Bd) as (X1 & X2 & X3). rewrite seal_encrypt in *.
  pose proof (encrypt_open K IV A msg HK HI BA Bd) as EO.
  destruct (aegis128_encrypt K IV A msg) as [c t]. cbn [fst snd] in *.
  exists cs', c, t. split; [exact E|]. split; [exact X1|]. split; [apply X3|].
  intros b2 cs2 m2 pt2 ct2 ad2 iv2 tag2 HS2 Hh2 Hct Ht Wp SD.
  rewrite <- X1 in Wp, SD, Sup. rewrite <- X1.
  destruct (C42_aegis_decrypt_is_aegis128 b2 K cs2 m2 pt2 ct2 ad2 iv2 tag2 A IV c t HS2 Hh2 Hct Sup Ht (proj2 X3) Wp SD) as (cs2' & E2).
  exists cs2'. rewrite E2. unfold aegis128_decrypt. rewrite EO. cbn [fst snd].
  destruct (list_eq_dec N.eq_dec t t); [reflexivity|congruence].
Qed.
Print Assumptions C41_aegis_round_trip.
(** The receiver's hypotheses hold too: a concrete exchange, decrypted in place. *)
Example C41_instance :
  let K := map N.of_nat (seq 1 16) in let IV := map N.of_nat (seq 50 16) in
  let '(c, t) := aegis128_encrypt K IV [7;8;9] ex_msg in
  let m2 := [holding K; holding IV; holding [7;8;9]; holding c; holding t] in
  (match aegis_load_key (Aegis [] [] [] [] [] []) m2 (Ptr 0 0) with
   | Ret cs => match aegis_decrypt_packet AX86 cs m2 (Ptr 3 0) (Ptr 3 0) (Ptr 2 0) (Ptr 1 0) (Ptr 4 0) 3 37 with
               | Ret (r, _, m3) => (r =? 1) && match ldn m3 (Ptr 3 0) 37 with
                                               | Ret p => Finite.list_N_eqb p ex_msg
                                               | _ => false
                                               end
               | _ => false
               end
   | _ => false
   end) = true.
Proof. vm_compute. reflexivity. Qed.

(** ** C44 *)
Theorem C44_aegis_accepts_only_the_tag : forall b K cs m pt ct ad iv tag A IV c t,
  session K cs -> header m ad iv A IV -> has_bytes m ct c -> supported (length c) ->
  has_bytes m tag t -> length t = 16%nat -> writable m pt (length c) -> same_or_disjoint pt ct (length c) ->
  exists cs' p, length p = length c /\ fst (aegis128_encrypt K IV A p) = c /\
    (t = snd (aegis128_encrypt K IV A p) ->
       aegis_decrypt_packet b cs m pt ct ad iv tag (len A) (len c) = Ret (1, cs', write_at m pt p)) /\
    (t <> snd (aegis128_encrypt K IV A p) ->
       aegis_decrypt_packet b cs m pt ct ad iv tag (len A) (len c) =
         Ret (0, cs', write_at (write_at m pt (repeat 0 (length c))) tag (repeat 0 16%nat))).
Proof.
  intros b K cs m pt ct ad iv tag A IV c t HS Hh Hct Sup Ht Lt Wp SD.
  destruct (C42_aegis_decrypt_is_aegis128 b K cs m pt ct ad iv tag A IV c t HS Hh Hct Sup Ht Lt Wp SD) as (cs' & E).
  destruct (session_key K cs HS) as [HK Hk]. destruct Hh as (Hiv & LI & Had & LA).
  assert (HI : st16 IV) by (split; [exact (has_bytes_bytes _ _ _ Hiv)|exact LI]).
  pose proof (has_bytes_bytes _ _ _ Had) as BA. pose proof (has_bytes_bytes _ _ _ Hct) as Bc.
  destruct (seal_facts false false K IV A c HK HI BA Bc) as (X1 & X2 & X3). rewrite seal_open in *.
  pose proof (open_encrypt K IV A c HK HI BA Bc) as OE.
  unfold aegis128_decrypt in E. destruct (aegis128_open K IV A c) as [p t']. cbn [fst snd] in *.
  exists cs', p. rewrite OE. cbn [fst snd]. split; [exact X1|]. split; [reflexivity|]. rewrite E.
  split; intros Q; destruct (list_eq_dec N.eq_dec t' t); [reflexivity|congruence|congruence|reflexivity].
Qed.
Print Assumptions C44_aegis_accepts_only_the_tag.
(** Both outcomes occur: the right tag, and the tag with one bit changed. *)
Example C44_instance :
  let K := map N.of_nat (seq 1 16) in let IV := map N.of_nat (seq 50 16) in
  let '(c, t) := aegis128_encrypt K IV [7;8;9] ex_msg in
  let m t := [holding K; holding IV; holding [7;8;9]; holding c; holding t; fresh 37] in
  let run t := match aegis_load_key (Aegis [] [] [] [] [] []) (m t) (Ptr 0 0) with
    | Ret cs => match aegis_decrypt_packet ATable cs (m t) (Ptr 5 0) (Ptr 3 0) (Ptr 2 0) (Ptr 1 0) (Ptr 4 0) 3 37 with
                | Ret (r, _, m3) => match ldn m3 (Ptr 5 0) 37 with
                                    | Ret p => Some (r, p)
                                    | _ => None
                                    end
                | _ => None
                end
    | _ => None
    end in
  run t = Some (1, ex_msg) /\ run (match t with x :: t => N.lxor x 1 :: t | [] => [] end) = Some (0, repeat 0 37%nat).
Proof. vm_compute. split; reflexivity. Qed.

(** ** C45 *)
Theorem C45_aegis_accepted_was_encrypted : forall b K cs m pt ct ad iv tag A IV c t cs' m',
  session K cs -> header m ad iv A IV -> has_bytes m ct c -> supported (length c) ->
  has_bytes m tag t -> length t = 16%nat -> writable m pt (length c) -> same_or_disjoint pt ct (length c) ->
  aegis_decrypt_packet b cs m pt ct ad iv tag (len A) (len c) = Ret (1, cs', m') ->
  exists p, length p = length c /\ m' = write_at m pt p /\
    forall b2 cs2 m2 ct2 tag2 pt2 ad2 iv2,
      session K cs2 -> header m2 ad2 iv2 A IV -> has_bytes m2 pt2 p ->
      writable m2 ct2 (length c) -> writable m2 tag2 16 -> disjoint ct2 (length c) pt2 (length c) ->
      exists cs2', aegis_encrypt_packet b2 cs2 m2 ct2 tag2 pt2 ad2 iv2 (len A) (len c) =
        Ret (cs2', write_at (write_at m2 ct2 c) tag2 t).
Proof.
  intros b K cs m pt ct ad iv tag A IV c t cs' m' HS Hh Hct Sup Ht Lt Wp SD E.
  destruct (C44_aegis_accepts_only_the_tag b K cs m pt ct ad iv tag A IV c t HS Hh Hct Sup Ht Lt Wp SD)
    as (cs1 & p & Lp & Ec & Y & N0).
  destruct (list_eq_dec N.eq_dec t (snd (aegis128_encrypt K IV A p))) as [Et|Et].
  - rewrite (Y Et) in E. apply Ret_pair in E. destruct E as [_ Em]. exists p. split; [exact Lp|]. split; [congruence|].
    intros b2 cs2 m2 ct2 tag2 pt2 ad2 iv2 HS2 Hh2 Hp Wc Wt D. rewrite <- Lp in Wc, D, Sup. rewrite <- Lp.
    destruct (C42_aegis_encrypt_is_aegis128 b2 K cs2 m2 ct2 tag2 pt2 ad2 iv2 A IV p HS2 Hh2 Hp Sup Wc Wt D) as (cs2' & E2).
    exists cs2'. rewrite E2, Ec, <- Et. reflexivity.
  - rewrite (N0 Et) in E. apply Ret_pair in E. destruct E as [E _]. discriminate E.
Qed.
Print Assumptions C45_aegis_accepted_was_encrypted.
(** A packet that is accepted, though nobody has encrypted it before. *)
Example C45_instance :
  let K := map N.of_nat (seq 1 16) in let IV := map N.of_nat (seq 50 16) in
  let c := repeat 77 16%nat in
  let t := snd (aegis128_open K IV [7;8;9] c) in
  let m := [holding K; holding IV; holding [7;8;9]; holding c; holding t; fresh 16] in
  (exists cs, session K cs) /\ header m (Ptr 2 0) (Ptr 1 0) [7;8;9] IV /\ has_bytes m (Ptr 3 0) c /\ supported (length c) /\
  length t = 16%nat /\ writable m (Ptr 5 0) (length c) /\ same_or_disjoint (Ptr 5 0) (Ptr 3 0) (length c) /\
  match aegis_load_key (Aegis [] [] [] [] [] []) m (Ptr 0 0) with
  | Ret cs => match aegis_decrypt_packet ATable cs m (Ptr 5 0) (Ptr 3 0) (Ptr 2 0) (Ptr 1 0) (Ptr 4 0) 3 16 with
              | Ret (r, _, _) => r = 1
              | _ => False
              end
  | _ => False
  end.
Proof.
  intros K IV c t m. split; [destruct (ex_session ex_msg) as (cs & _ & H); exists cs; exact H|].
  split; [split; [conc_has_bytes|]; split; [reflexivity|]; split; [conc_has_bytes|]; cbn; discriminate|].
  split; [conc_has_bytes|]. split; [split; [right; cbn; lia|reflexivity]|]. split; [vm_compute; reflexivity|].
  split; [conc_writable|]. split; [right; conc_disjoint|]. vm_compute. reflexivity.
Qed.
(** An accepted packet exists for every message: see [C41_aegis_round_trip] and [C41_instance]. *)

(** ** C43 *)
Theorem C43_aegis_short_messages_refuted : exists K cs m ct tag pt ad iv A IV msg,
  session K cs /\ header m ad iv A IV /\ has_bytes m pt msg /\ length msg = 14%nat /\
  writable m ct (length msg) /\ writable m tag 16 /\ disjoint ct (length msg) pt (length msg) /\
  aegis_encrypt_packet ATable cs m ct tag pt ad iv (len A) (len msg) = UB.
Proof.
  pose (msg := repeat 5 14%nat). destruct (ex_session msg) as (cs & _ & HS).
  exists (map N.of_nat (seq 1 16)), cs, (ex_mem msg), (Ptr 4 0), (Ptr 5 0), (Ptr 3 0), (Ptr 2 0), (Ptr 1 0), [7;8;9], (map N.of_nat (seq 50 16)), msg.
  split; [exact HS|]. split; [apply ex_header|]. split; [conc_has_bytes|]. split; [reflexivity|].
  split; [conc_writable|]. split; [conc_writable|]. split; [conc_disjoint|].
  apply encrypt_packet_short; [cbn; lia|]. intros blk E. cbn [ex_mem nth_error pblk] in E. injection E as <-. reflexivity.
Qed.
Print Assumptions C43_aegis_short_messages_refuted.

(** Exactly: for 1 to 14 bytes both functions leave their buffers, whatever the
    arguments and however large the buffers (up to 2^63 bytes, more than
    an object can have). *)
Theorem C43_aegis_1_to_14_always_undefined : forall b cs m out tag inp ad iv adlen n,
  1 <= n <= 14 -> (forall blk, nth_error m (pblk inp) = Some blk -> N.of_nat (length blk) < 2^63) ->
  aegis_encrypt_packet b cs m out tag inp ad iv adlen n = UB /\
  aegis_decrypt_packet b cs m out inp ad iv tag adlen n = UB.
Proof. intros. split; [apply encrypt_packet_short|apply decrypt_packet_short]; assumption. Qed.
Print Assumptions C43_aegis_1_to_14_always_undefined.
Example C43_instance : (1 <= 3 <= 14) /\
  (forall blk, nth_error (ex_mem [1;2;3]) 3 = Some blk -> N.of_nat (length blk) < 2^63).
Proof. split; [lia|]. intros blk E. cbn in E. injection E as <-. reflexivity. Qed.

(** For every other length both are defined; see also [C42_aegis_encrypt_is_aegis128]
    and [C42_aegis_decrypt_is_aegis128], which give the bytes written. *)
Theorem C43_aegis_other_lengths_safe : forall b K cs m out tag inp ad iv A IV data,
  session K cs -> header m ad iv A IV -> has_bytes m inp data -> supported (length data) ->
  writable m out (length data) -> same_or_disjoint out inp (length data) ->
  (writable m tag 16 ->
     exists cs' c t, length c = length data /\ length t = 16%nat /\
       aegis_encrypt_packet b cs m out tag inp ad iv (len A) (len data) = Ret (cs', write_at (write_at m out c) tag t)) /\
  (forall t, has_bytes m tag t -> length t = 16%nat ->
     exists r cs' m', aegis_decrypt_packet b cs m out inp ad iv tag (len A) (len data) = Ret (r, cs', m')).
Proof.
  intros b K cs m out tag inp ad iv A IV data HS Hh Hd [GL L64] W SD.
  destruct (session_key K cs HS) as [HK Hk]. pose proof Hh as (Hiv & LI & Had & LA).
  assert (HI : st16 IV) by (split; [exact (has_bytes_bytes _ _ _ Hiv)|exact LI]).
  pose proof (has_bytes_bytes _ _ _ Had) as BA. pose proof (has_bytes_bytes _ _ _ Hd) as Bd.
  split.
  - intros Wt. destruct SD as [Eq|D].
    + destruct (seal_facts false true K IV A data HK HI BA Bd) as (X1 & _ & X3).
      destruct (encrypt_packet_ok b K IV A data cs m out tag inp ad iv false HK Hk Hiv LI Had LA Hd L64 GL W Wt Eq) as (cs' & E & _).
      do 3 eexists. split; [exact X1|]. split; [apply X3|exact E].
    + destruct (seal_facts true true K IV A data HK HI BA Bd) as (X1 & _ & X3).
      destruct (encrypt_packet_ok b K IV A data cs m out tag inp ad iv true HK Hk Hiv LI Had LA Hd L64 GL W Wt D) as (cs' & E & _).
      do 3 eexists. split; [exact X1|]. split; [apply X3|exact E].
  - intros t Ht Lt.
    destruct (decrypt_packet_ok b K IV A data t cs m out inp ad iv tag HK Hk Hiv LI Had LA Hd L64 GL Ht Lt W SD) as (cs' & E & _).
    rewrite E. destruct (list_eq_dec _ _ _); do 3 eexists; reflexivity.
Qed.
Print Assumptions C43_aegis_other_lengths_safe.

(** ** C46 *)
Theorem C46_aegis_decrypt_in_place : forall b K cs m buf ad iv tag A IV c t,
  session K cs -> header m ad iv A IV -> has_bytes m buf c -> supported (length c) ->
  has_bytes m tag t -> length t = 16%nat ->
  exists cs', aegis_decrypt_packet b cs m buf buf ad iv tag (len A) (len c) =
    match aegis128_decrypt K IV A c t with
    | Some p => Ret (1, cs', write_at m buf p)
    | None => Ret (0, cs', write_at (write_at m buf (repeat 0 (length c))) tag (repeat 0 16%nat))
    end.
Proof.
  intros b K cs m buf ad iv tag A IV c t HS Hh Hc Sup Ht Lt.
  apply C42_aegis_decrypt_is_aegis128; try assumption; [apply has_bytes_writable; exact Hc|left; reflexivity].
Qed.
Print Assumptions C46_aegis_decrypt_in_place.

(** Encryption in place of an empty or 15-byte message is right. *)
Lemma seal_short K IV A msg : (length msg < 16)%nat -> seal_with false true K IV A msg = aegis128_encrypt K IV A msg.
Proof.
  intros L. rewrite <- seal_encrypt.
  pose proof (seal_with_eq false true K IV A [] msg (Forall_nil _) L) as E1.
  pose proof (seal_with_eq true true K IV A [] msg (Forall_nil _) L) as E2.
  cbn [concat app] in E1, E2. rewrite E1, E2. reflexivity.
Qed.
Theorem C46_aegis_encrypt_in_place_one_block : forall b K cs m buf tag ad iv A IV msg,
  session K cs -> header m ad iv A IV -> has_bytes m buf msg -> length msg = 0%nat \/ length msg = 15%nat ->
  writable m tag 16 ->
  exists cs', aegis_encrypt_packet b cs m buf tag buf ad iv (len A) (len msg) =
    Ret (cs', write_at (write_at m buf (fst (aegis128_encrypt K IV A msg)))
                tag (snd (aegis128_encrypt K IV A msg))).
Proof.
  intros b K cs m buf tag ad iv A IV msg HS (Hiv & LI & Had & LA) Hd L Wt.
  destruct (session_key K cs HS) as [HK Hk].
  assert (L64 : len msg < 2^64) by (destruct L as [-> | ->]; reflexivity).
  assert (GL : good_length (length msg)) by (destruct L as [-> | ->]; [left; reflexivity|right; lia]).
  destruct (encrypt_packet_ok b K IV A msg cs m buf tag buf ad iv false HK Hk Hiv LI Had LA Hd L64 GL
    (has_bytes_writable _ _ _ Hd) Wt eq_refl) as (cs' & E & _).
  exists cs'. rewrite E, seal_short by lia. reflexivity.
Qed.
Print Assumptions C46_aegis_encrypt_in_place_one_block.

(** In general encryption in place absorbs the ciphertext: the buffer receives
    what the decryption of AEGIS-128 would make of the message, and the tag is
    the one AEGIS-128 gives to another message, whose whole blocks are those of
    the ciphertext and whose incomplete last block is that of the plaintext. *)
#[local] Opaque initialize absorb finalize update crypt_block feed.
Lemma seal_in_place K IV A msg : st16 K -> st16 IV -> bytes_ok A -> bytes_ok msg ->
  let w := (16 * (length msg / 16))%nat in
  seal_with false true K IV A msg =
  (fst (aegis128_open K IV A msg),
   snd (aegis128_encrypt K IV A (firstn w (fst (aegis128_open K IV A msg)) ++ skipn w msg))).
Proof.
  intros HK HI HA HB w. pose proof (absorb_st_ok _ A HA (initialize_st_ok K IV HK HI)) as HS.
  rewrite <- seal_encrypt, <- seal_open. subst w. revert HB.
  destruct (chunks_split msg) as (ds & rest & -> & F & Lr & _). intros HB.
  destruct (parts_ok ds rest HB) as [Bds _].
  assert (LE : Forall (fun d => length d <= 16)%nat ds) by (eapply Forall_impl; [|exact F]; cbn; intros; lia).
  assert (Q : (length (concat ds ++ rest) / 16 = length ds)%nat).
  { rewrite app_length, (concat_length16 ds F). symmetry. apply Nat.div_unique with (length rest); lia. }
  rewrite Q. rewrite !(seal_with_eq _ _ K IV A ds rest F Lr).
  set (S := absorb (initialize K IV) A) in *.
  pose proof (outs_shape false ds S HS Bds LE) as Sh.
  assert (Fo : Forall (fun d => length d = 16%nat) (outs false S ds)).
  { clear - F Sh. revert F Sh. generalize (outs false S ds). induction ds as [|d ds IH]; intros [|o os] F Sh; try discriminate Sh; constructor;
      inversion F; subst; cbn [map] in Sh; injection Sh; intros; [congruence|apply IH; assumption]. }
  assert (Lo : length (outs false S ds) = length ds) by (rewrite <- (map_length (@length N)), Sh; apply map_length).
  assert (Lc : length (concat (outs false S ds)) = (16 * length ds)%nat) by (rewrite (concat_length16 _ Fo), Lo; reflexivity).
  rewrite <- (concat_length16 ds F) at 2. rewrite skipn_app, skipn_all, Nat.sub_diag. cbn [app skipn].
  assert (P : firstn (16 * length ds) (fst (crypt false false S ds rest)) = concat (outs false S ds)).
  { unfold crypt. pose proof (run_outs false S ds) as R. destruct (run false S ds) as [c T]. cbn [fst] in R. subst c.
    rewrite <- Lc. destruct rest; cbn [fst]; [apply firstn_all|rewrite firstn_app, firstn_all, Nat.sub_diag, firstn_O, app_nil_r; reflexivity]. }
  assert (O : fst (let '(c, T) := crypt false false S ds rest in (c, finalize T (len A) (len (concat ds ++ rest)))) =
              fst (crypt false false S ds rest)) by (destruct (crypt false false S ds rest); reflexivity).
  rewrite O, P, (seal_with_eq _ _ K IV A _ rest Fo Lr). fold S.
  pose proof (run_inverse false ds S HS Bds LE) as RI. cbn [negb] in RI.
  assert (LL : len (concat (outs false S ds) ++ rest) = len (concat ds ++ rest)).
  { rewrite !app_length, Lc, (concat_length16 ds F). reflexivity. }
  rewrite LL. unfold crypt. rewrite RI. destruct (run false S ds) as [c T]. cbn [snd].
  destruct rest; reflexivity.
Qed.
Theorem C46_aegis_encrypt_in_place_absorbs_ciphertext : forall b K cs m buf tag ad iv A IV msg,
  session K cs -> header m ad iv A IV -> has_bytes m buf msg -> supported (length msg) -> writable m tag 16 ->
  let c := fst (aegis128_open K IV A msg) in
  let w := (16 * (length msg / 16))%nat in
  exists cs', aegis_encrypt_packet b cs m buf tag buf ad iv (len A) (len msg) =
    Ret (cs', write_at (write_at m buf c) tag (snd (aegis128_encrypt K IV A (firstn w c ++ skipn w msg)))).
Proof.
  intros b K cs m buf tag ad iv A IV msg HS (Hiv & LI & Had & LA) Hd [GL L64] Wt.
  destruct (session_key K cs HS) as [HK Hk].
  destruct (encrypt_packet_ok b K IV A msg cs m buf tag buf ad iv false HK Hk Hiv LI Had LA Hd L64 GL
    (has_bytes_writable _ _ _ Hd) Wt eq_refl) as (cs' & E & _).
  exists cs'. rewrite E, seal_in_place; [reflexivity|exact HK|split; [exact (has_bytes_bytes _ _ _ Hiv)|exact LI]| |].
  - exact (has_bytes_bytes _ _ _ Had).
  - exact (has_bytes_bytes _ _ _ Hd).
Qed.
#[local] Transparent initialize absorb finalize update crypt_block feed.
Print Assumptions C46_aegis_encrypt_in_place_absorbs_ciphertext.
Example C46_instance : (exists cs, session (map N.of_nat (seq 1 16)) cs) /\
  header (ex_mem ex_msg) (Ptr 2 0) (Ptr 1 0) [7;8;9] (map N.of_nat (seq 50 16)) /\
  has_bytes (ex_mem ex_msg) (Ptr 3 0) ex_msg /\ supported (length ex_msg) /\ writable (ex_mem ex_msg) (Ptr 5 0) 16.
Proof. destruct C42_instance as (H1 & H2 & H3 & H4 & _ & H5 & _). repeat (split; [assumption|]). assumption. Qed.

(** So a message of 48 bytes encrypted in place is not its AEGIS-128 encryption,
    and the receiver rejects it. *)
Theorem C46_aegis_encrypt_in_place_refuted : exists K IV msg m cs m1,
  length msg = 48%nat /\ has_bytes m (Ptr 0 0) K /\ length K = 16%nat /\ has_bytes m (Ptr 1 0) IV /\ length IV = 16%nat /\
  has_bytes m (Ptr 3 0) msg /\ writable m (Ptr 5 0) 16 /\
  aegis_load_key (Aegis [] [] [] [] [] []) m (Ptr 0 0) = Ret cs /\
  (exists cs', aegis_encrypt_packet ATable cs m (Ptr 3 0) (Ptr 5 0) (Ptr 3 0) (Ptr 2 0) (Ptr 1 0) 0 48 = Ret (cs', m1)) /\
  ldn m1 (Ptr 3 0) 48 <> Ret (fst (aegis128_encrypt K IV [] msg)) /\
  (exists cs2 m2, aegis_decrypt_packet ATable cs m1 (Ptr 4 0) (Ptr 3 0) (Ptr 2 0) (Ptr 1 0) (Ptr 5 0) 0 48 = Ret (0, cs2, m2)).
Proof.
  pose (K := map N.of_nat (seq 1 16)). pose (IV := map N.of_nat (seq 50 16)). pose (msg := repeat 65 48%nat). pose (m := ex_mem msg).
  assert (V : match aegis_load_key (Aegis [] [] [] [] [] []) m (Ptr 0 0) with
    | Ret cs => match aegis_encrypt_packet ATable cs m (Ptr 3 0) (Ptr 5 0) (Ptr 3 0) (Ptr 2 0) (Ptr 1 0) 0 48 with
      | Ret (_, m1) => match ldn m1 (Ptr 3 0) 48, aegis_decrypt_packet ATable cs m1 (Ptr 4 0) (Ptr 3 0) (Ptr 2 0) (Ptr 1 0) (Ptr 5 0) 0 48 with
        | Ret c, Ret (r, _, _) => negb (Finite.list_N_eqb c (fst (aegis128_encrypt K IV [] msg))) && (r =? 0)
        | _, _ => false end
      | _ => false end
    | _ => false end = true) by (vm_compute; reflexivity).
  destruct (aegis_load_key _ m (Ptr 0 0)) as [cs| |] eqn:E1; [|discriminate V|discriminate V].
  destruct (aegis_encrypt_packet ATable cs m _ _ _ _ _ 0 48) as [[cs' m1]| |] eqn:E2; [|discriminate V|discriminate V].
  destruct (ldn m1 (Ptr 3 0) 48) as [c| |] eqn:E3; [|discriminate V|discriminate V].
  destruct (aegis_decrypt_packet ATable cs m1 _ _ _ _ _ 0 48) as [[[r cs2] m2]| |] eqn:E4; [|discriminate V|discriminate V].
  apply andb_true_iff in V. destruct V as [V Vr]. apply N.eqb_eq in Vr. subst r.
  exists K, IV, msg, m, cs, m1.
  split; [reflexivity|]. split; [conc_has_bytes|]. split; [reflexivity|]. split; [conc_has_bytes|]. split; [reflexivity|].
  split; [conc_has_bytes|]. split; [conc_writable|]. split; [exact E1|]. split; [exists cs'; exact E2|].
  split; [|exists cs2, m2; exact E4].
  rewrite E3. intros X. apply Ret_inj in X. rewrite X, Finite.list_N_eqb_refl in V. discriminate V.
Qed.
Print Assumptions C46_aegis_encrypt_in_place_refuted.

(** Already for one block the tag is wrong: the receiver rejects it. *)
Theorem C46_aegis_encrypt_one_block_in_place_rejected : exists K IV msg m cs cs' m1 cs2 m2,
  length msg = 16%nat /\ has_bytes m (Ptr 0 0) K /\ length K = 16%nat /\ has_bytes m (Ptr 1 0) IV /\ length IV = 16%nat /\
  has_bytes m (Ptr 3 0) msg /\ writable m (Ptr 5 0) 16 /\
  aegis_load_key (Aegis [] [] [] [] [] []) m (Ptr 0 0) = Ret cs /\
  aegis_encrypt_packet ATable cs m (Ptr 3 0) (Ptr 5 0) (Ptr 3 0) (Ptr 2 0) (Ptr 1 0) 0 16 = Ret (cs', m1) /\
  aegis_decrypt_packet ATable cs m1 (Ptr 4 0) (Ptr 3 0) (Ptr 2 0) (Ptr 1 0) (Ptr 5 0) 0 16 = Ret (0, cs2, m2).
Proof.
  pose (K := map N.of_nat (seq 1 16)). pose (IV := map N.of_nat (seq 50 16)). pose (msg := repeat 65 16%nat). pose (m := ex_mem msg).
  assert (V : match aegis_load_key (Aegis [] [] [] [] [] []) m (Ptr 0 0) with
    | Ret cs => match aegis_encrypt_packet ATable cs m (Ptr 3 0) (Ptr 5 0) (Ptr 3 0) (Ptr 2 0) (Ptr 1 0) 0 16 with
      | Ret (_, m1) => match aegis_decrypt_packet ATable cs m1 (Ptr 4 0) (Ptr 3 0) (Ptr 2 0) (Ptr 1 0) (Ptr 5 0) 0 16 with
        | Ret (r, _, _) => r =? 0
        | _ => false end
      | _ => false end
    | _ => false end = true) by (vm_compute; reflexivity).
  destruct (aegis_load_key _ m (Ptr 0 0)) as [cs| |] eqn:E1; [|discriminate V|discriminate V].
  destruct (aegis_encrypt_packet ATable cs m _ _ _ _ _ 0 16) as [[cs' m1]| |] eqn:E2; [|discriminate V|discriminate V].
  destruct (aegis_decrypt_packet ATable cs m1 _ _ _ _ _ 0 16) as [[[r cs2] m2]| |] eqn:E4; [|discriminate V|discriminate V].
  apply N.eqb_eq in V. subst r.
  exists K, IV, msg, m, cs, cs', m1, cs2, m2.
  split; [reflexivity|]. split; [conc_has_bytes|]. split; [reflexivity|]. split; [conc_has_bytes|]. split; [reflexivity|].
  split; [conc_has_bytes|]. split; [conc_writable|]. split; [exact E1|]. split; [exact E2|exact E4].
Qed.
Print Assumptions C46_aegis_encrypt_one_block_in_place_rejected.

(** ** C47 *)
Theorem C47_aegis_builds_agree : forall b1 b2 K cs m out tag inp ad iv A IV data,
  session K cs -> header m ad iv A IV -> has_bytes m inp data -> supported (length data) ->
  writable m out (length data) -> same_or_disjoint out inp (length data) ->
  (writable m tag 16 ->
     aegis_encrypt_packet b1 cs m out tag inp ad iv (len A) (len data) =
     aegis_encrypt_packet b2 cs m out tag inp ad iv (len A) (len data)) /\
  (forall t, has_bytes m tag t -> length t = 16%nat ->
     aegis_decrypt_packet b1 cs m out inp ad iv tag (len A) (len data) =
     aegis_decrypt_packet b2 cs m out inp ad iv tag (len A) (len data)).
Proof.
  intros b1 b2 K cs m out tag inp ad iv A IV data HS (Hiv & LI & Had & LA) Hd [GL L64] W SD.
  destruct (session_key K cs HS) as [HK Hk].
  split.
  - intros Wt. destruct SD as [Eq|D].
    + destruct (encrypt_packet_ok b2 K IV A data cs m out tag inp ad iv false HK Hk Hiv LI Had LA Hd L64 GL W Wt Eq) as (_ & _ & _ & E).
      apply E. exact Hk.
    + destruct (encrypt_packet_ok b2 K IV A data cs m out tag inp ad iv true HK Hk Hiv LI Had LA Hd L64 GL W Wt D) as (_ & _ & _ & E).
      apply E. exact Hk.
  - intros t Ht Lt.
    destruct (decrypt_packet_ok b2 K IV A data t cs m out inp ad iv tag HK Hk Hiv LI Had LA Hd L64 GL Ht Lt W SD) as (_ & _ & _ & E).
    apply E. exact Hk.
Qed.
Print Assumptions C47_aegis_builds_agree.
Example C47_instance : (exists cs, session (map N.of_nat (seq 1 16)) cs) /\
  header (ex_mem ex_msg) (Ptr 2 0) (Ptr 1 0) [7;8;9] (map N.of_nat (seq 50 16)) /\
  has_bytes (ex_mem ex_msg) (Ptr 3 0) ex_msg /\ supported (length ex_msg) /\
  writable (ex_mem ex_msg) (Ptr 4 0) (length ex_msg) /\ same_or_disjoint (Ptr 4 0) (Ptr 3 0) (length ex_msg) /\
  writable (ex_mem ex_msg) (Ptr 5 0) 16.
Proof. destruct C42_instance as (H1 & H2 & H3 & H4 & H5 & H6 & H7). repeat (split; [assumption|]). split; [right; exact H7|exact H6]. Qed.
(** Hypotheses met: [C42_instance]; for 1 to 14 bytes all builds are undefined, by
    [C43_aegis_1_to_14_always_undefined]. *)

(** ** C48: for all arguments, valid or not. *)
Theorem C48_aegis_independent_of_history : forall b K cs1 cs2 m out tag inp ad iv adlen n,
  session K cs1 -> session K cs2 ->
  aegis_encrypt_packet b cs1 m out tag inp ad iv adlen n = aegis_encrypt_packet b cs2 m out tag inp ad iv adlen n /\
  aegis_decrypt_packet b cs1 m out inp ad iv tag adlen n = aegis_decrypt_packet b cs2 m out inp ad iv tag adlen n.
Proof.
  intros b K cs1 cs2 m out tag inp ad iv adlen n H1 H2.
  destruct (session_key K cs1 H1) as [_ E1]. destruct (session_key K cs2 H2) as [_ E2].
  split; [apply encrypt_packet_history|apply decrypt_packet_history]; congruence.
Qed.
Print Assumptions C48_aegis_independent_of_history.
(** Two sessions with different histories and states: one fresh, one after a packet. *)
Example C48_instance : exists cs1 cs2, session (map N.of_nat (seq 1 16)) cs1 /\ session (map N.of_nat (seq 1 16)) cs2 /\ cs1 <> cs2.
Proof.
  destruct (ex_session ex_msg) as (cs1 & E1 & S1).
  destruct C42_instance as (_ & H2 & H3 & H4 & H5 & H6 & H7).
  destruct (C42_aegis_encrypt_is_aegis128 AArm _ cs1 _ _ _ _ _ _ _ _ _ S1 H2 H3 H4 H5 H6 H7) as (cs2 & E2).
  exists cs1, cs2. split; [exact S1|]. split; [exact (session_encrypt _ _ _ _ _ _ _ _ _ _ _ _ _ S1 E2)|].
  intros ->. clear - E1 E2. assert (s0 cs2 = []).
  { unfold aegis_load_key in E1. apply bind_ret in E1. destruct E1 as (w & _ & E1). apply Ret_inj in E1. subst cs2. reflexivity. }
  assert (V : match aegis_load_key (Aegis [] [] [] [] [] []) (ex_mem ex_msg) (Ptr 0 0) with
    | Ret cs => match aegis_encrypt_packet AArm cs (ex_mem ex_msg) (Ptr 4 0) (Ptr 5 0) (Ptr 3 0) (Ptr 2 0) (Ptr 1 0) 3 37 with
       | Ret (c, _) => match s0 c with [] => false | _ => true end | _ => false end | _ => false end = true) by (vm_compute; reflexivity).
  rewrite E1 in V. change (len [7; 8; 9]) with 3 in E2. change (len ex_msg) with 37 in E2.
  rewrite E2, H in V. discriminate V.
Qed.

(** ** C76 *)
Theorem C76_aegis_long_associated_data : forall b cs m iv ad A,
  has_bytes m ad A -> 2^33 < len A ->
  (forall ct tag pt n, aegis_encrypt_packet b cs m ct tag pt ad iv (len A) n = UB) /\
  (forall pt ct tag n, aegis_decrypt_packet b cs m pt ct ad iv tag (len A) n = UB).
Proof. intros b cs m iv ad A. apply packet_long_ad. Qed.
Print Assumptions C76_aegis_long_associated_data.

Theorem C76_aegis_any_associated_data_refuted : exists m ad A, has_bytes m ad A /\ len A < 2^64 /\
  forall b cs iv ct tag pt n, aegis_encrypt_packet b cs m ct tag pt ad iv (len A) n = UB.
Proof.
  destruct (nat_of (2^33 + 1) ltac:(lia)) as [k Hk].
  assert (L : len (repeat 0 k) = 2^33 + 1) by (rewrite repeat_length; lia).
  exists [holding (repeat 0 k)], (Ptr 0 0), (repeat 0 k).
  assert (HB : has_bytes [holding (repeat 0 k)] (Ptr 0 0) (repeat 0 k)).
  { split; [apply Forall_forall; intros x Hx; apply repeat_spec in Hx; subst x; reflexivity|]. exists (holding (repeat 0 k)). split; [reflexivity|].
    unfold holding. cbn [poff]. rewrite map_length. split; [apply Nat.le_refl|].
    rewrite skipn_O, firstn_all2 by (rewrite map_length; apply Nat.le_refl). reflexivity. }
  split; [exact HB|]. rewrite L. split; [reflexivity|]. intros b cs iv ct tag pt n. rewrite <- L.
  apply (proj1 (packet_long_ad b cs _ iv (Ptr 0 0) (repeat 0 k) HB ltac:(rewrite L; reflexivity))).
Qed.
Print Assumptions C76_aegis_any_associated_data_refuted.
Example C76_instance : exists m A, has_bytes m (Ptr 0 0) A /\ len A = 2^33 + 1.
Proof.
  destruct (nat_of (2^33 + 1) ltac:(lia)) as [k Hk].
  assert (L : len (repeat 0 k) = 2^33 + 1) by (rewrite repeat_length; lia).
  exists [holding (repeat 0 k)], (repeat 0 k). split; [|exact L].
  split; [apply Forall_forall; intros x Hx; apply repeat_spec in Hx; subst x; reflexivity|]. exists (holding (repeat 0 k)). split; [reflexivity|].
  unfold holding. cbn [poff]. rewrite map_length. split; [apply Nat.le_refl|].
  rewrite skipn_O, firstn_all2 by (rewrite map_length; apply Nat.le_refl). reflexivity.
Qed.
