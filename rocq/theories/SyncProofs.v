(** Synchronisation follows when a packet function XORs a key stream that
    depends on the state and the length only. *)
From Coq Require Import NArith List Lia.
From Verif Require Import Res Mem MemSpec MemLemmas SpecWords WordsLemmas SyncSpec.
Import ListNotations.

Section Sync.
Context {S : Type} (proc : S -> mem -> ptr -> ptr -> N -> res (S * mem)).
Context (inv : S -> Prop) (len_ok : nat -> Prop) (ks : S -> nat -> list N) (next : S -> nat -> S).
Hypothesis Hproc : forall s m out inp data,
  inv s -> len_ok (length data) -> has_bytes m inp data -> writable m out (length data) ->
  same_or_disjoint out inp (length data) ->
  proc s m out inp (N.of_nat (length data)) =
    Ret (next s (length data), write_at m out (xor_bytes data (ks s (length data)))).
Hypothesis Hnext : forall s n, inv s -> len_ok n -> inv (next s n).
Hypothesis Hlen : forall s n, inv s -> len_ok n -> n <= length (ks s n).

Lemma sync_talk pks : Forall packet_ok pks -> Forall (fun k => len_ok (length (pk_data k))) pks ->
  forall s, inv s -> talk proc s s pks.
Proof.
  induction 1 as [|k pks [Hin [Hout Hov]] H IH]; intros L s Hs; [exact I|].
  inversion L as [|? ? Lk L']; subst. cbn [talk].
  set (n := length (pk_data k)).
  assert (Lc : length (xor_bytes (pk_data k) (ks s n)) = n).
  { rewrite xor_bytes_length_min. pose proof (Hlen s n Hs Lk). fold n. lia. }
  exists (next s n), (next s n), (xor_bytes (pk_data k) (ks s n)).
  split; [apply Hproc; auto|]. split; [exact Lc|]. split.
  - intros m out src H1 H2 H3. rewrite <- Lc at 1. rewrite Hproc; auto; rewrite ?Lc; auto.
    rewrite xor_bytes_invol; auto.
  - apply IH; auto.
Qed.
End Sync.

(** The same with two packet functions. *)
Section Sync2.
Context {S : Type} (ps pr : S -> mem -> ptr -> ptr -> N -> res (S * mem)).
Context (inv : S -> Prop) (len_ok : nat -> Prop) (ks : S -> nat -> list N) (next : S -> nat -> S).
Hypothesis Hps : forall s m out inp data,
  inv s -> len_ok (length data) -> has_bytes m inp data -> writable m out (length data) ->
  same_or_disjoint out inp (length data) ->
  ps s m out inp (N.of_nat (length data)) =
    Ret (next s (length data), write_at m out (xor_bytes data (ks s (length data)))).
Hypothesis Hpr : forall s m out inp data,
  inv s -> len_ok (length data) -> has_bytes m inp data -> writable m out (length data) ->
  same_or_disjoint out inp (length data) ->
  pr s m out inp (N.of_nat (length data)) =
    Ret (next s (length data), write_at m out (xor_bytes data (ks s (length data)))).
Hypothesis Hnext2 : forall s n, inv s -> len_ok n -> inv (next s n).
Hypothesis Hlen2 : forall s n, inv s -> len_ok n -> n <= length (ks s n).

Lemma sync_talk2 pks : Forall packet_ok pks -> Forall (fun k => len_ok (length (pk_data k))) pks ->
  forall s, inv s -> talk2 ps pr s s pks.
Proof.
  induction 1 as [|k pks [Hin [Hout Hov]] H IH]; intros L s Hs; [exact I|].
  inversion L as [|? ? Lk L']; subst. cbn [talk2].
  set (n := length (pk_data k)).
  assert (Lc : length (xor_bytes (pk_data k) (ks s n)) = n).
  { rewrite xor_bytes_length_min. pose proof (Hlen2 s n Hs Lk). fold n. lia. }
  exists (next s n), (next s n), (xor_bytes (pk_data k) (ks s n)).
  split; [apply Hps; auto|]. split; [exact Lc|]. split.
  - intros m out src H1 H2 H3. rewrite <- Lc at 1. rewrite Hpr; auto; rewrite ?Lc; auto.
    rewrite xor_bytes_invol; auto.
  - apply IH; auto.
Qed.
End Sync2.

(** The same with a key stream generator that may fail. *)
Section Sync_if.
Context {S : Type} (proc : S -> mem -> ptr -> ptr -> N -> res (S * mem)).
Context (gen : S -> nat -> res (list N * S)).
Hypothesis Hproc : forall s m out inp data,
  has_bytes m inp data -> writable m out (length data) -> same_or_disjoint out inp (length data) ->
  proc s m out inp (N.of_nat (length data)) =
    let* (ks, s') := gen s (length data) in Ret (s', write_at m out (xor_bytes data ks)).
Hypothesis Hlen : forall s n ks s', gen s n = Ret (ks, s') -> n <= length ks.

Lemma sync_talk_if pks : Forall packet_ok pks -> forall s, talk_if proc s s pks.
Proof.
  induction 1 as [|k pks [Hin [Hout Hov]] H IH]; intros s; [exact I|].
  cbn [talk_if]. set (n := length (pk_data k)). intros s' m' E.
  unfold n in E. rewrite Hproc in E by auto. fold n in E.
  destruct (gen s n) as [[ks s1]| |] eqn:G; cbn [bind] in E; try discriminate. injection E as <- <-.
  pose proof (Hlen _ _ _ _ G) as L.
  assert (Lc : length (xor_bytes (pk_data k) ks) = n).
  { rewrite xor_bytes_length_min. fold n. lia. }
  exists s1, (xor_bytes (pk_data k) ks).
  split; [reflexivity|]. split; [exact Lc|]. split; [|apply IH].
  intros m out src H1 H2 H3. rewrite <- Lc at 1. rewrite Hproc; rewrite ?Lc; auto.
  rewrite G. cbn [bind]. rewrite xor_bytes_invol; auto.
Qed.

Lemma encrypts_gen s data s' e : bytes_ok data ->
  encrypts proc s data s' e <->
  exists ks, gen s (length data) = Ret (ks, s') /\ e = xor_bytes data ks.
Proof.
  intros Hd. split.
  - intros [Le H].
    pose (m := [map Some data]).
    assert (Hm : has_bytes m (Ptr 0 0) data) by (apply (has_bytes_last []); exact Hd).
    pose proof (has_bytes_writable _ _ _ Hm) as Wm.
    pose proof (H m (Ptr 0 0) (Ptr 0 0) Hm Wm (or_introl eq_refl)) as E.
    rewrite Hproc in E by (auto; left; auto).
    destruct (gen s (length data)) as [[ks s1]| |] eqn:G; cbn [bind] in E; try discriminate.
    pose proof (Hlen _ _ _ _ G) as L.
    injection E as -> E. exists ks. split; [reflexivity|].
    unfold write_at, m in E. cbn [nth_error pblk poff upd firstn app] in E.
    rewrite !skipn_all2 in E by (rewrite map_length; rewrite ?xor_bytes_length_min; lia).
    rewrite !app_nil_r in E.
    assert (Inj : forall a b : list N, map Some a = map Some b -> a = b).
    { induction a as [|x a IH]; intros [|y b] X; try discriminate; auto. cbn in X. injection X as -> X.
      f_equal. apply IH. exact X. }
    symmetry. apply Inj. exact E.
  - intros (ks & G & ->). pose proof (Hlen _ _ _ _ G) as L. split; [rewrite xor_bytes_length_min; lia|].
    intros m out inp H1 H2 H3. rewrite Hproc, G by auto. reflexivity.
Qed.
End Sync_if.

Lemma encrypts_det {S} (proc : S -> mem -> ptr -> ptr -> N -> res (S * mem)) c d x x' e e' : bytes_ok d ->
  encrypts proc c d x e -> encrypts proc c d x' e' -> x = x' /\ e = e'.
Proof.
  intros Bd [Le E] [Le' E'].
  assert (Hm0 : has_bytes [map Some d] (Ptr 0 0) d) by (apply (has_bytes_last []); exact Bd).
  pose proof (has_bytes_writable _ _ _ Hm0) as Wm.
  specialize (E _ _ _ Hm0 Wm (or_introl eq_refl)). specialize (E' _ _ _ Hm0 Wm (or_introl eq_refl)).
  rewrite E in E'. apply Ret_pair in E'. destruct E' as [-> Ew]. split; [reflexivity|].
  unfold write_at in Ew. cbn [nth_error pblk poff upd firstn app] in Ew.
  rewrite !skipn_all2 in Ew by (rewrite map_length; lia). rewrite !app_nil_r in Ew.
  assert (Ew' := f_equal (hd []) Ew). cbn [hd] in Ew'.
  assert (Inj : forall u v : list N, map Some u = map Some v -> u = v).
  { clear. induction u as [|x u IH]; intros [|y v] X; try discriminate; auto. cbn in X. injection X as -> X.
    f_equal. apply IH. exact X. }
  apply Inj. exact Ew'.
Qed.
