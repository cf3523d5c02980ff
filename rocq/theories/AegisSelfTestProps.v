(** Property C112: the program that checks AEGIS-128 against published vectors. *)
From Coq Require Import String.
From Coq Require Import Arith NArith ZArith List Bool Lia.
From Verif Require Import Res Words Mem MemSpec ListLemmas MemLemmas SpecWords WordsLemmas Ints Finite IoProofs Concrete
  HexSpec HexModel HexProofs HmacProofs AeModel AeProofs DemoModel DemoProofs DemoProps SelfTestModel SelfTestProps.
From Verif Require AesProofs AegisSpec AegisModel AegisProofs AegisProps AegisLink.
Import ListNotations.
Local Open Scope nat_scope.

Definition same (a b : list N) : bool := if list_eq_dec N.eq_dec a b then true else false.
Lemma same_spec a b : same a b = true <-> a = b.
Proof. unfold same. destruct (list_eq_dec _ a b); split; intros; congruence. Qed.

Lemma char_in s i : i < length s -> char_at s i = Ret (nth i s 0%N).
Proof. intros H. unfold char_at. apply Nat.ltb_lt in H. rewrite H. reflexivity. Qed.
Lemma compare_ok a b : length a = length b -> forall n i t, n + i = length a ->
  compare_from a (b ++ [0%N]) n i t = Ret (if same (skipn i a) (skipn i b) then t else 0%Z).
Proof.
  intros L. induction n as [|n IH]; intros i t Hi; cbn [compare_from].
  - rewrite !skipn_all2 by lia. reflexivity.
  - rewrite !char_in by (rewrite ?app_length; cbn; lia). cbn [bind]. rewrite app_nth1 by lia.
    rewrite IH by lia. rewrite (skipn_cons_nth a i 0%N), (skipn_cons_nth b i 0%N) by lia. f_equal.
    destruct (same (skipn (S i) a) (skipn (S i) b)) eqn:E1; destruct (same (_ :: _) _) eqn:E2; try reflexivity.
    + apply same_spec, (f_equal (hd 0%N)) in E2. cbn [hd] in E2. rewrite E2, N.eqb_refl. reflexivity.
    + destruct (N.eqb_spec (nth i a 0%N) (nth i b 0%N)) as [E|E]; [|reflexivity]. exfalso.
      apply same_spec in E1. enough (same (nth i a 0%N :: skipn (S i) a) (nth i b 0%N :: skipn (S i) b) = true) by congruence.
      apply same_spec. rewrite E, E1. reflexivity.
    + exfalso. apply same_spec, (f_equal (@tl N)) in E2. cbn [tl] in E2. apply same_spec in E2. congruence.
Qed.

(** What AEGIS-128 gives for a vector. *)
Definition sealed (v : aegis_vector) : list N * list N := AegisSpec.aegis128_encrypt (av_key v) (av_iv v) (av_ad v) (av_plain v).
Definition aegis_right (v : aegis_vector) : bool :=
  same (expected_ct v) (hex_text (fst (sealed v))) && same (expected_tag v) (hex_text (snd (sealed v))).
Definition aegis_vector_ok (v : aegis_vector) : Prop :=
  bytes_ok (av_key v) /\ length (av_key v) = 16 /\ bytes_ok (av_iv v) /\ length (av_iv v) = 16 /\
  bytes_ok (av_ad v) /\ (N.of_nat (length (av_ad v)) <= 2^33)%N /\ demo_text (av_plain v) /\
  length (expected_ct v) = 2 * length (av_plain v) /\ length (expected_tag v) = 32.
Definition aegis_report (v : aegis_vector) : list said :=
  [Said "Valid tag" []; Said "PT: " (hex_text (av_plain v) ++ [0%N]);
   Said "Expected CT: " (expected_ct v); Said "Computed CT: " (hex_text (fst (sealed v)) ++ [0%N]);
   Said "Expected TAG: " (expected_tag v); Said "Computed TAG: " (hex_text (snd (sealed v)) ++ [0%N]);
   Said "RECOVERED PT: " (hex_text (av_plain v))].

Lemma aegis_test_ok b cs v : aegis_vector_ok v -> 15 <= length (av_plain v) ->
  aegis_test b cs v = Ret (Some (aegis_report v, if aegis_right v then 1 else 0)%Z).
Proof.
  intros (Bk & Lk & Bv & Lv & Ba & La & (B & P & L) & Xc & Xt) L15. change (2^29)%Z with 536870912%Z in L. unfold aegis_test.
  rewrite new_bytes_ok by exact Bk. blocks. rewrite new_bytes_ok by exact Bv. blocks.
  rewrite new_bytes_ok by exact B. blocks. rewrite new_bytes_ok by exact Ba. blocks.
  rewrite new_bytes_ok by apply bytes_zero. blocks.
  match goal with |- context [AegisModel.aegis_load_key ?c ?m ?a] =>
    assert (H : has_bytes m a (av_key v)) by here;
    destruct (AegisModel.aegis_load_key c m a) as [cs1| |] eqn:E;
    [|unfold AegisModel.aegis_load_key in E; rewrite (AegisProofs.ld_words4 _ _ _ H Lk) in E; discriminate E..];
    pose proof (AegisProps.session_load _ _ _ _ _ H Lk E) as S1 end.
  cbn [bind].
  assert (HI : AesProofs.st16 (av_iv v)) by (split; assumption). assert (HK : AesProofs.st16 (av_key v)) by (split; assumption).
  destruct (AegisLink.seal_facts true true (av_key v) (av_iv v) (av_ad v) (av_plain v) HK HI Ba B) as (Lc & Bc & Bt & Lt). rewrite AegisLink.seal_encrypt in *.
  pose proof (AegisLink.encrypt_open (av_key v) (av_iv v) (av_ad v) (av_plain v) HK HI Ba B) as EO.
  assert (Sup : AegisProps.supported (length (av_plain v))) by (split; [right; exact L15|change (2^64)%N with 18446744073709551616%N; lia]).
  match goal with |- bind (AegisModel.aegis_encrypt_packet ?b ?c ?m ?ct ?tag ?p ?ad ?iv _ _) _ = _ =>
    destruct (AegisProps.C42_aegis_encrypt_is_aegis128 b (av_key v) c m ct tag p ad iv (av_ad v) (av_iv v) (av_plain v) S1) as (cs2 & E2) end;
    [split; [here|split; [exact Lv|split; [here|exact La]]]|here|exact Sup|room|room|apart|].
  change (AegisSpec.len (av_plain v)) with (N.of_nat (length (av_plain v))) in E2.
  pose proof (AegisProps.session_encrypt _ _ _ _ _ _ _ _ _ _ _ _ _ S1 E2) as S2.
  rewrite E2. clear E2. unfold aegis_report, aegis_right. change (AegisSpec.aegis128_encrypt (av_key v) (av_iv v) (av_ad v) (av_plain v)) with (sealed v) in *.
  destruct (sealed v) as [c t] eqn:EE. cbn [fst snd bind] in *.
  store Lc. blocks. store Lt. blocks.
  match goal with |- bind (AegisModel.aegis_decrypt_packet ?b ?c1 ?m ?p ?ct ?ad ?iv ?tag _ _) _ = _ =>
    destruct (AegisProps.C42_aegis_decrypt_is_aegis128 b (av_key v) c1 m p ct ad iv tag (av_ad v) (av_iv v) c t S2) as (cs3 & E3) end;
    [split; [here|split; [exact Lv|split; [here|exact La]]]|here|rewrite Lc; exact Sup|here|exact Lt|rewrite Lc; room|right; apart|].
  rewrite Lc in E3. rewrite E3. unfold AegisSpec.aegis128_decrypt. rewrite EO. cbn [fst snd].
  destruct (list_eq_dec N.eq_dec t t) as [_|N]; [|congruence]. cbn [bind N.eqb].
  store Lc. blocks.
  erewrite hex_nul_string_ok by (try here; change (2^30)%Z with 1073741824%Z; lia). cbn [bind].
  rewrite <- Lc at 1. erewrite hex_nul_string_ok by (try here; rewrite Lc; change (2^30)%Z with 1073741824%Z; lia). cbn [bind].
  replace 16 with (length t) at 1 by exact Lt. erewrite hex_nul_string_ok by (try here; rewrite Lt; reflexivity). cbn [bind].
  erewrite hex_c_string_ok by (try here; change (2^30)%Z with 1073741824%Z; lia). cbn [bind].
  assert (Lhc : length (expected_ct v) = length (hex_text c)) by (rewrite hex_text_length; lia).
  assert (Lht : length (expected_tag v) = length (hex_text t)) by (rewrite hex_text_length; lia).
  rewrite compare_ok by (exact Lhc || lia). cbn [bind]. rewrite compare_ok by (exact Lht || lia). cbn [bind skipn].
  destruct (same (expected_ct v) _); destruct (same (expected_tag v) _); reflexivity.
Qed.

Lemma aegis_tests_ok b cs vs : Forall (fun v => aegis_vector_ok v /\ 15 <= length (av_plain v)) vs -> forall i,
  aegis_tests b cs i vs = Ret (Some (flat_map aegis_report vs, Z.of_nat (length (filter aegis_right vs)))).
Proof.
  intros F. induction F as [|v vs [Hv L] F IH]; intros i; cbn [aegis_tests]; [reflexivity|].
  rewrite (aegis_test_ok b (cs i) v Hv L). cbn [bind]. rewrite IH. cbn [bind flat_map filter].
  destruct (aegis_right v); cbn [length]; f_equal; f_equal; f_equal; cbn [Z.eqb]; lia.
Qed.

(** For all vectors of at least 15 bytes: the program reports AEGIS-128's own
    ciphertexts and tags and the plaintexts, counts exactly the vectors that
    expect them, and says SUCCESS exactly if that is all of them.  It never
    rejects a tag. *)
Theorem C112_aegis_self_test : forall b cs vs,
  Forall (fun v => aegis_vector_ok v /\ 15 <= length (av_plain v)) vs ->
  aegis_test_main b cs vs =
  Ret (Some (flat_map aegis_report vs, Z.of_nat (length (filter aegis_right vs)), Z.of_nat (length vs),
    if forallb aegis_right vs then "SUCCESS!" else "FAILURE!")%string).
Proof.
  intros b cs vs F. unfold aegis_test_main. rewrite aegis_tests_ok by exact F. cbn [bind]. do 3 f_equal. clear F.
  assert (X : length (filter aegis_right vs) <= length vs /\ (length (filter aegis_right vs) = length vs <-> forallb aegis_right vs = true)).
  { induction vs as [|v vs [IH1 IH2]]; [cbn; split; [lia|tauto]|]. cbn [filter forallb length]. destruct (aegis_right v); cbn [length andb].
    - split; [lia|]. rewrite <- IH2. lia.
    - split; [lia|]. split; [lia|discriminate]. }
  destruct X as [_ X]. destruct (Z.eqb_spec (Z.of_nat (length (filter aegis_right vs))) (Z.of_nat (length vs))) as [E|E];
    destruct (forallb aegis_right vs); try reflexivity; exfalso; [|apply E; f_equal; apply X; reflexivity].
  apply Nat2Z.inj in E. apply X in E. discriminate E.
Qed.
Print Assumptions C112_aegis_self_test.

(** A shorter vector makes the run undefined. *)
Theorem C112_aegis_self_test_short_undefined : forall b cs vs,
  Forall aegis_vector_ok vs -> Exists (fun v => length (av_plain v) <= 14) vs -> aegis_test_main b cs vs = UB.
Proof.
  intros b cs vs F X. unfold aegis_test_main.
  enough (E : forall i, aegis_tests b cs i vs = UB) by (rewrite E; reflexivity).
  induction F as [|v vs Hv F IH]; intros i; [inversion X|]. cbn [aegis_tests].
  destruct (Nat.le_gt_cases (length (av_plain v)) 14) as [Sh|Lo].
  - enough (E : aegis_test b (cs i) v = UB) by (rewrite E; reflexivity). clear IH X F.
    destruct Hv as (Bk & Lk & Bv & Lv & Ba & La & (B & P & L) & Xc & Xt). unfold aegis_test.
    rewrite new_bytes_ok by exact Bk. blocks. rewrite new_bytes_ok by exact Bv. blocks.
    rewrite new_bytes_ok by exact B. blocks. rewrite new_bytes_ok by exact Ba. blocks.
    rewrite new_bytes_ok by apply bytes_zero. blocks.
    match goal with |- context [AegisModel.aegis_load_key ?c ?m ?a] =>
      assert (H : has_bytes m a (av_key v)) by here;
      destruct (AegisModel.aegis_load_key c m a) as [cs1| |] eqn:E;
      [|unfold AegisModel.aegis_load_key in E; rewrite (AegisProofs.ld_words4 _ _ _ H Lk) in E; discriminate E..] end.
    cbn [bind].
    match goal with |- bind (AegisModel.aegis_encrypt_packet ?b ?c ?m ?ct ?tag ?p ?ad ?iv ?al ?n) _ = _ =>
      destruct (AegisProps.C43_aegis_1_to_14_always_undefined b c m ct tag p ad iv al n) as [E2 _] end.
    + lia.
    + intros blk Hb. cbn in Hb. injection Hb as <-. rewrite map_length. change (2^63)%N with 9223372036854775808%N. lia.
    + rewrite E2. reflexivity.
  - rewrite (aegis_test_ok b (cs i) v Hv Lo). cbn [bind]. rewrite IH; [reflexivity|]. inversion X; subst; [lia|assumption].
Qed.
Print Assumptions C112_aegis_self_test_short_undefined.

(** The vectors of the program: AEGIS-128 agrees with all four. *)
Definition aegis_vectors : list aegis_vector :=
  [AegisVector (repeat 0%N 16) (repeat 0%N 16) [] (repeat 0%N 16)
     (HexSpec.text "951B050FA72B1A2FC16D2E1F01B07D7E") (HexSpec.text "A7D2A99773249542F422217EE888D5F1");
   AegisVector (repeat 0%N 16) (repeat 0%N 16) (repeat 0%N 16) (repeat 0%N 16)
     (HexSpec.text "10B0DEE65A97D751205C128A992473A1") (HexSpec.text "46DCB9EE93C46CF13731D41B9646C131");
   AegisVector (0 :: 1 :: repeat 0 14)%N (0 :: 0 :: 2 :: repeat 0 13)%N [0; 1; 2; 3]%N (repeat 0%N 16)
     (HexSpec.text "2B78F5C1618DA39AFBB2920F5DAE02B0") (HexSpec.text "74759CD0E19314650D6C635B563D80FD");
   AegisVector (0x10 :: 1 :: repeat 0 14)%N (0x10 :: 0 :: 2 :: repeat 0 13)%N [0; 1; 2; 3; 4; 5; 6; 7]%N (map N.of_nat (seq 0 32))
     (HexSpec.text "E08EC10685D63C7364ECA78FF6E1A1DDFDFC15D5311A7F2988A0471A13973FD7")
     (HexSpec.text "27E84B6C4CC46CB6ECE8F1F3E4AA0E78")].
Lemma aegis_vectors_ok : Forall (fun v => aegis_vector_ok v /\ 15 <= length (av_plain v)) aegis_vectors.
Proof.
  repeat (apply Forall_cons || apply Forall_nil);
    (split; [|cbn; lia]; split; [apply SosemanukProps.bytes_ok_forallb; vm_compute; reflexivity|]; split; [reflexivity|];
     split; [apply SosemanukProps.bytes_ok_forallb; vm_compute; reflexivity|]; split; [reflexivity|];
     split; [apply SosemanukProps.bytes_ok_forallb; vm_compute; reflexivity|]; split; [vm_compute; discriminate|];
     split; [split; [apply SosemanukProps.bytes_ok_forallb; vm_compute; reflexivity|split; [cbn; lia|reflexivity]]|];
     split; reflexivity).
Qed.
Lemma all_filter {A} (f : A -> bool) l : forallb f l = true -> filter f l = l.
Proof.
  induction l as [|x l IH]; [reflexivity|]. cbn [forallb filter]. intros H. apply andb_prop in H as [H1 H2].
  rewrite H1, IH by exact H2. reflexivity.
Qed.
Lemma all_pass b cs vs n : Forall (fun v => aegis_vector_ok v /\ 15 <= length (av_plain v)) vs ->
  forallb aegis_right vs = true -> Z.of_nat (length vs) = n ->
  exists out, aegis_test_main b cs vs = Ret (Some (out, n, n, "SUCCESS!"%string)).
Proof. intros V E L. rewrite C112_aegis_self_test by exact V. rewrite (all_filter _ _ E), E, L. eexists. reflexivity. Qed.
Lemma one_fails b cs v vs n : Forall (fun v => aegis_vector_ok v /\ 15 <= length (av_plain v)) (v :: vs) ->
  aegis_right v = false -> forallb aegis_right vs = true -> Z.of_nat (length vs) = n ->
  exists out, aegis_test_main b cs (v :: vs) = Ret (Some (out, n, (1 + n)%Z, "FAILURE!"%string)).
Proof.
  intros V Ev E L. rewrite C112_aegis_self_test by exact V. cbn [filter forallb length]. rewrite Ev, (all_filter _ _ E). cbn [andb].
  rewrite Nat2Z.inj_succ, L. replace (1 + n)%Z with (Z.succ n) by lia. eexists. reflexivity.
Qed.
Definition bad_vector : aegis_vector :=
  AegisVector (repeat 0%N 16) (repeat 0%N 16) [] (repeat 0%N 16) (repeat 48%N 32) (HexSpec.text "A7D2A99773249542F422217EE888D5F1").
Lemma aegis_vectors_right : forallb aegis_right aegis_vectors = true.
Proof. vm_compute. reflexivity. Qed.
Lemma bad_vector_wrong : aegis_right bad_vector = false.
Proof. vm_compute. reflexivity. Qed.
Lemma bad_vector_ok : aegis_vector_ok bad_vector /\ 15 <= length (av_plain bad_vector).
Proof.
  pose proof (Forall_inv aegis_vectors_ok) as [(V1 & V2 & V3 & V4 & V5 & V6 & V7 & V8 & V9) W]. split; [|exact W].
  exact (conj V1 (conj V2 (conj V3 (conj V4 (conj V5 (conj V6 (conj V7 (conj eq_refl V9)))))))).
Qed.
Example C112_instance :
  (forall b cs, exists out, aegis_test_main b cs aegis_vectors = Ret (Some (out, 4%Z, 4%Z, "SUCCESS!"%string))) /\
  (forall b cs, exists out, aegis_test_main b cs (bad_vector :: aegis_vectors) = Ret (Some (out, 4%Z, (1 + 4)%Z, "FAILURE!"%string))).
Proof.
  split; intros b cs.
  - exact (all_pass b cs _ 4%Z aegis_vectors_ok aegis_vectors_right eq_refl).
  - exact (one_fails b cs _ _ 4%Z (Forall_cons _ bad_vector_ok aegis_vectors_ok) bad_vector_wrong aegis_vectors_right eq_refl).
Qed.
