(** Properties C100 and C101: the demonstrations of the stream ciphers. *)
From Coq Require Import String.
From Coq Require Import Arith NArith ZArith List Bool Lia.
From Verif Require Import Res Words Mem MemSpec ListLemmas MemLemmas SpecWords WordsLemmas Ints Finite IoProofs Concrete
  HexSpec HexModel HexProofs AeModel AeProofs DemoModel DemoProofs.
From Verif Require ChachaSpec ChachaProofs ChachaProps HcSpec SosemanukSpec SosemanukProofs SosemanukProps
  RabbitModel RabbitSpec RabbitProofs RabbitProps AesCfbProofs.
Import ListNotations.
Local Open Scope nat_scope.

(** A text of at least one and less than 2^29 characters (the arrays are of the
    text's size, and an array of size 0 is not C++). *)
Definition demo_text (l : list N) : Prop := bytes_ok l /\ 0 < length l /\ (Z.of_nat (length l) < 2^29)%Z.

(** ** C100: the stream-cipher demonstrations *)
Theorem C100_chacha_demo : forall nr msg k n,
  demo_text msg -> bytes_ok k -> length k = 32 -> bytes_ok n -> length n = 12 ->
  chacha_main nr msg (hex_text k) (hex_text n) =
  Ret [Said "Plaintext: " msg; Said "Ciphertext: " (hex_text (ChachaSpec.chacha_encrypt nr k n msg)); Said "Recovered: " msg].
Proof.
  intros nr msg k n (B & P & L) Bk Lk Bn Ln. change (2^29)%Z with 536870912%Z in L. unfold chacha_main.
  rewrite new_bytes_ok by exact B. blocks.
  rewrite from_hex_ok by (auto; rewrite ?Lk; reflexivity). blocks.
  rewrite from_hex_ok by (auto; rewrite ?Ln; reflexivity). blocks.
  set (c := ChachaSpec.chacha_encrypt nr k n msg).
  assert (Lc : length c = length msg) by (apply ChachaProofs.chacha_encrypt_length; auto).
  assert (Bc : bytes_ok c) by (apply ChachaProofs.chacha_encrypt_ok; exact B).
  rewrite (ChachaProofs.initialize_spec k n) by (auto; here). blocks.
  match goal with |- bind (ChachaModel.chacha_process_packet _ _ ?m ?o ?i _) _ = _ =>
    destruct (ChachaProofs.process_ok k n Bk Bn Lk Ln nr 1 m o i msg) as (c1 & E1); [here|room|right; apart|lia|] end.
  rewrite E1. fold c. cbn [bind]. store Lc. blocks.
  rewrite <- Lc at 1. rewrite hex_c_string_ok by (try here; rewrite Lc; change (2^30)%Z with 1073741824%Z; lia). blocks.
  rewrite (ChachaProofs.initialize_spec k n) by (auto; here). blocks.
  match goal with |- bind (ChachaModel.chacha_process_packet _ _ ?m ?o ?i _) _ = _ =>
    destruct (ChachaProofs.process_ok k n Bk Bn Lk Ln nr 1 m o i c) as (c2 & E2); [here|room|right; apart|lia|] end.
  rewrite Lc in E2. rewrite E2. cbn [bind].
  assert (Ec : ChachaSpec.chacha_encrypt nr k n c = msg) by (apply ChachaProofs.chacha_encrypt_invol; auto).
  rewrite Ec. store Lc. blocks. erewrite has_bytes_ldn by here. reflexivity.
Qed.
Print Assumptions C100_chacha_demo.

Theorem C100_hc128_demo : forall pt k v,
  demo_text pt -> bytes_ok k -> length k = 16 -> bytes_ok v -> length v = 16 ->
  hc128_main pt (hex_text k) (hex_text v) = Ret [Said "Plaintext: " pt; Said "Recovered: " pt].
Proof.
  intros pt k v (B & P & L) Bk Lk Bv Lv. change (2^29)%Z with 536870912%Z in L. unfold hc128_main.
  rewrite new_bytes_ok by exact B. blocks.
  rewrite from_hex_ok by (auto; rewrite ?Lk; reflexivity). blocks.
  rewrite from_hex_ok by (auto; rewrite ?Lv; reflexivity). blocks.
  set (c := HcSpec.hc_encrypt k v pt).
  assert (Lc : length c = length pt) by apply hc_encrypt_length.
  assert (Bc : bytes_ok c) by (apply hc_encrypt_ok; exact B).
  assert (L31 : (Z.of_nat (length pt) + 137 <= 2^31)%Z) by (change (2^31)%Z with 2147483648%Z; lia).
  match goal with |- bind (HcModel.hc128_initialize ?m ?a ?b) _ = _ =>
    destruct (hc_packet m a k b v m (Ptr 1 0) (Ptr 0 0) pt) as (cs & cs1 & E0 & E1); [here|exact Lk|here|exact Lv|here|room|apart|exact L31|] end.
  rewrite E0. cbn [bind]. rewrite E1. fold c. cbn [bind]. store Lc. blocks.
  match goal with |- bind (HcModel.hc128_initialize ?m ?a ?b) _ = _ =>
    destruct (hc_packet m a k b v m (Ptr 2 0) (Ptr 1 0) c) as (ds & ds1 & F0 & F1); [here|exact Lk|here|exact Lv|here|room|apart|rewrite Lc; exact L31|] end.
  rewrite F0. cbn [bind]. rewrite Lc in F1. rewrite F1. cbn [bind].
  assert (Ec : HcSpec.hc_encrypt k v c = pt) by apply hc_encrypt_twice. rewrite Ec. store Lc. blocks. erewrite has_bytes_ldn by here. reflexivity.
Qed.
Print Assumptions C100_hc128_demo.

Theorem C100_sosemanuk_demo : forall scratch e_cs d_cs k v pt,
  demo_text pt -> bytes_ok k -> length k <= 32 -> bytes_ok v -> length v = 16 ->
  let c := xor_bytes pt (flat_map (le_str 4) (fst (SosemanukSpec.quads false (length pt / 16 + 1)
    (SosemanukSpec.init (SerpentSpec.subkeys_of (SerpentSpec.pad_with 0x80 k)) v)))) in
  sosemanuk_main scratch e_cs d_cs (hex_text k) (hex_text v) pt =
  Ret [Said "Plaintext: " pt; Said "Ciphertext: " (hex_text c); Said "Recovered: " pt].
Proof.
  intros scratch e_cs d_cs k v pt (B & P & L) Bk Lk Bv Lv. change (2^29)%Z with 536870912%Z in L. unfold sosemanuk_main.
  rewrite !half_hex.
  rewrite from_hex_ok by (auto; change (2^30)%Z with 1073741824%Z; lia). blocks.
  rewrite from_hex_ok by (auto; rewrite ?Lv; reflexivity). blocks.
  rewrite new_bytes_ok by exact B. blocks.
  match goal with |- context [SosemanukModel.sosemanuk_load_key _ _ ?m ?a _] =>
    destruct (SosemanukProps.loading scratch scratch e_cs m a k m (Ptr 3 0) v) as (cs & E0 & E1); [here|exact Lk|here|exact Lv|] end.
  set (ks := SosemanukProofs.gen_ks (SosemanukSpec.init (SosemanukProps.code_subkeys k) v) (length pt)) in *.
  cbv zeta. change (xor_bytes pt _) with (xor_bytes pt ks). set (c := xor_bytes pt ks).
  assert (Lk' : length pt <= length ks) by apply SosemanukProofs.gen_ks_length.
  assert (Lc : length c = length pt) by (unfold c; rewrite xor_bytes_length_min; lia).
  assert (Bks : bytes_ok ks) by (unfold ks, SosemanukProofs.gen_ks; rewrite <- XorProofs.le_bytes_spec; apply AesCfbProofs.le_bytes_ok).
  assert (Bc : bytes_ok c) by (apply xor_bytes_ok; assumption).
  rewrite E0. cbn [bind]. rewrite E1. cbn [bind].
  pose proof (SosemanukProps.loaded_ok k v Bv Lv) as St.
  rewrite SosemanukProofs.process_loaded; [|exact St|here|room|right; apart]. fold ks c.
  cbn [bind]. store Lc. blocks.
  rewrite <- Lc at 1. rewrite hex_string_ok by (try here; rewrite Lc; change (2^30)%Z with 1073741824%Z; lia). blocks.
  match goal with |- context [SosemanukModel.sosemanuk_load_key _ _ ?m ?a _] =>
    destruct (SosemanukProps.loading scratch scratch d_cs m a k m (Ptr 3 0) v) as (ds & F0 & F1); [here|exact Lk|here|exact Lv|] end.
  rewrite F0. cbn [bind]. rewrite F1. blocks.
  rewrite <- Lc at 2. rewrite SosemanukProofs.process_loaded; [|exact St|here|room|right; apart]. rewrite Lc. fold ks.
  assert (Ec : xor_bytes c ks = pt) by (apply xor_bytes_invol; exact Lk'). rewrite Ec.
  cbn [bind]. store Lc. blocks. erewrite has_bytes_ldn by here. reflexivity.
Qed.
Print Assumptions C100_sosemanuk_demo.

(** The shipped texts. *)
Definition chacha_text : list N := HexSpec.text ("Hello World! This illustrates the use of the ChaCha20 stream cipher designed by Dr. Daniel Bernstein. This stream cipher accepts a 256-bit key and a 96-bit nonce." ++ String (Ascii.ascii_of_N 10) "")%string.
Example C100_instance : demo_text chacha_text /\
  hex_text (map N.of_nat (seq 0 32)) = HexSpec.text "000102030405060708090A0B0C0D0E0F101112131415161718191A1B1C1D1E1F" /\
  hex_text [0;0;0;0;0;0;0;0x4a;0;0;0;0]%N = HexSpec.text "000000000000004A00000000" /\
  demo_text (HexSpec.text "Sosemanuk stream cipher test") /\
  hex_text [0x0D;0xA4;0x16;0xFE;0x03;0xE3;0x65;0x29;0xFB;0x9B;0xEA;0x70;0x87;0x2F;0x0B;0x5D]%N =
    HexSpec.text "0DA416FE03E36529FB9BEA70872F0B5D".
Proof.
  split; [split; [apply SosemanukProps.bytes_ok_forallb; vm_compute; reflexivity|split; [cbn; lia|reflexivity]]|].
  split; [vm_compute; reflexivity|]. split; [vm_compute; reflexivity|].
  split; [split; [apply SosemanukProps.bytes_ok_forallb; vm_compute; reflexivity|split; [cbn; lia|reflexivity]]|].
  vm_compute. reflexivity.
Qed.

(** ** C101: the Rabbit demonstration *)
Import RabbitModel RabbitProofs.

Lemma wrap_packet cs m out inp data :
  has_bytes m inp data -> writable m out (length data) -> same_or_disjoint out inp (length data) ->
  rabbit_process_packet wrap_sq cs m out inp (N.of_nat (length data)) =
  Ret (psteps (nblocks (length data)) cs, write_at m out (xor_bytes data (wrap_ks cs (length data)))).
Proof.
  intros H1 H2 H3. rewrite process_pgen by auto. destruct (pgen_wrap_eq cs (length data)) as [E _]. rewrite E. reflexivity.
Qed.

Lemma wrap_ks_ok cs n : bytes_ok (wrap_ks cs n).
Proof.
  unfold wrap_ks, pgen. destruct (gen wrap_sq (nblocks n) cs) as [[ks c]| |]; cbn [bind]; try constructor.
  apply AesCfbProofs.le_bytes_ok.
Qed.

Lemma xor_wrap cs d : bytes_ok d -> let c := xor_bytes d (wrap_ks cs (length d)) in
  bytes_ok c /\ length c = length d /\ xor_bytes c (wrap_ks cs (length d)) = d.
Proof.
  intros B c. destruct (pgen_wrap_eq cs (length d)) as [_ L].
  split; [apply xor_bytes_ok; [exact B|apply wrap_ks_ok]|]. split; [unfold c; rewrite xor_bytes_length_min; lia|].
  apply xor_bytes_invol. exact L.
Qed.

Lemma encrypts_psteps cs d cs' e : bytes_ok d ->
  SyncSpec.encrypts (rabbit_process_packet wrap_sq) cs d cs' e -> cs' = psteps (nblocks (length d)) cs.
Proof.
  intros B [L H]. specialize (H [map Some d; repeat None (length d)] (Ptr 1 0) (Ptr 0 0)).
  assert (H1 : has_bytes [map Some d; repeat None (length d)] (Ptr 0 0) d) by here.
  assert (H2 : writable [map Some d; repeat None (length d)] (Ptr 1 0) (length d)) by room.
  assert (H3 : same_or_disjoint (Ptr 1 0) (Ptr 0 0) (length d)) by (right; apart).
  specialize (H H1 H2 H3). rewrite wrap_packet in H by assumption. apply Ret_pair in H. symmetry. apply H.
Qed.

Lemma steps_master n : forall cs, MASTER_X (psteps n cs) = MASTER_X cs /\ MASTER_C (psteps n cs) = MASTER_C cs.
Proof. intros cs. apply psteps_master. Qed.

(** The ciphertext where no counter sum is 2^32 (C20). *)
Lemma clean_packet k v p : bytes_ok k -> length k = 16 -> bytes_ok v -> length v = 8 -> bytes_ok p ->
  RabbitSpec.clean 4 (RabbitSpec.key_words (le_num k)) ->
  RabbitSpec.clean 4 (RabbitSpec.iv_mix (le_num v) (RabbitSpec.key_setup (le_num k))) ->
  RabbitSpec.clean ((length p + 15) / 16) (RabbitSpec.iv_setup (le_num v) (RabbitSpec.key_setup (le_num k))) ->
  xor_bytes p (wrap_ks (psteps 4 (piv (pkey k) v)) (length p)) = RabbitSpec.rabbit_encrypt k v p.
Proof.
  intros Bk Lk Bv Lv Bp C1 C2 C3. set (cs0 := psteps 4 (piv (pkey k) v)).
  set (m := [map Some k; map Some v]). set (m' := [map Some p; repeat (@None N) (length p)]).
  assert (Hk : has_bytes m (Ptr 0 0) k) by here. assert (Hv : has_bytes m (Ptr 1 0) v) by here.
  assert (H1 : has_bytes m' (Ptr 0 0) p) by here. assert (H2 : writable m' (Ptr 1 0) (length p)) by room.
  assert (H3 : same_or_disjoint (Ptr 1 0) (Ptr 0 0) (length p)) by (right; apart).
  pose proof (RabbitProps.C20_rabbit_is_rfc4503_when_clean wrap_sq m (Ptr 0 0) k (Ptr 1 0) v m' (Ptr 1 0) (Ptr 0 0) p _ _ _ _
    (or_intror eq_refl) Hk Lk Hv Lv H1 H2 H3 C1 C2 C3 (load_key_wrap _ _ k Hk Lk) (load_iv_wrap _ _ _ v Hv Lv)
    (wrap_packet cs0 m' (Ptr 1 0) (Ptr 0 0) p H1 H2 H3)) as E.
  destruct (xor_wrap cs0 p Bp) as (Bc & Lc & _). set (c := xor_bytes p (wrap_ks cs0 (length p))) in *.
  assert (Lr : length (RabbitSpec.rabbit_encrypt k v p) = length p).
  { unfold RabbitSpec.rabbit_encrypt. rewrite xor_bytes_length_min, stream_length.
    pose proof (Nat.div_mod_eq (length p) 16). pose proof (Nat.mod_upper_bound (length p) 16). lia. }
  assert (W : forall r, length r = length p -> write_at m' (Ptr 1 0) r = [map Some p; map Some r]).
  { intros r L. unfold m'. store L. reflexivity. }
  rewrite (W _ Lc), (W _ Lr) in E. injection E as E. revert E.
  generalize (RabbitSpec.rabbit_encrypt k v p). clearbody c. clear. revert c.
  induction c as [|a c IH]; intros [|b r] E; try discriminate E; [reflexivity|].
  cbn [map] in E. injection E as -> E. f_equal. apply IH. exact E.
Qed.

(** The first text always comes back.  The second comes back if the text in
    between leaves the carry bit as it was. *)
Theorem C101_rabbit_demo : forall k v p q s,
  bytes_ok k -> length k = 16 -> bytes_ok v -> length v = 8 -> demo_text p -> demo_text q -> demo_text s ->
  exists c x, length c = length p /\ length x = length s /\
    rabbit_main wrap_sq (hex_text k) (hex_text v) p q s =
      Ret [Said "Plaintext: " p; Said "Ciphertext: " (hex_text c); Said "Recovered: " p; Said "Recovered 2: " x] /\
    (RabbitSpec.clean 4 (RabbitSpec.key_words (le_num k)) ->
     RabbitSpec.clean 4 (RabbitSpec.iv_mix (le_num v) (RabbitSpec.key_setup (le_num k))) ->
     RabbitSpec.clean ((length p + 15) / 16) (RabbitSpec.iv_setup (le_num v) (RabbitSpec.key_setup (le_num k))) ->
     c = RabbitSpec.rabbit_encrypt k v p) /\
    forall m key iv cs cs0 cs1 e1 cs2 e2, has_bytes m key k -> has_bytes m iv v ->
      rabbit_load_key wrap_sq m key = Ret cs -> rabbit_load_iv wrap_sq cs m iv = Ret cs0 ->
      SyncSpec.encrypts (rabbit_process_packet wrap_sq) cs0 p cs1 e1 ->
      SyncSpec.encrypts (rabbit_process_packet wrap_sq) cs1 q cs2 e2 ->
      carry cs2 = carry cs1 -> x = s.
Proof.
  intros k v p q s Bk Lk Bv Lv (Bp & Pp & Lp) (Bq & Pq & Lq) (Bs & Ps & Ls).
  change (2^29)%Z with 536870912%Z in *.
  set (cs0 := psteps 4 (piv (pkey k) v)).
  destruct (xor_wrap cs0 p Bp) as (Bc & Lc & Ec). set (c := xor_bytes p (wrap_ks cs0 (length p))) in *.
  set (cs1 := psteps (nblocks (length p)) cs0).
  destruct (xor_wrap cs1 q Bq) as (Bt & Lt & _).
  set (cs2 := psteps (nblocks (length q)) cs1).
  set (cs3 := psteps 4 (piv cs2 v)).
  destruct (xor_wrap cs3 s Bs) as (Bd & Ld & Ed). set (d := xor_bytes s (wrap_ks cs3 (length s))) in *.
  set (cs4 := psteps 4 (piv cs1 v)).
  destruct (xor_wrap cs4 d Bd) as (Bx & Lx & _). set (x := xor_bytes d (wrap_ks cs4 (length d))) in *.
  exists c, x. split; [exact Lc|]. split; [congruence|]. split.
  { unfold rabbit_main. rewrite !half_hex.
    rewrite from_hex_ok by (auto; rewrite ?Lk; reflexivity). blocks.
    rewrite from_hex_ok by (auto; rewrite ?Lv; reflexivity). blocks.
    rewrite (load_key_wrap _ _ k) by (try here; exact Lk). blocks.
    rewrite (load_iv_wrap _ _ _ v) by (try here; exact Lv). blocks. fold cs0.
    rewrite new_bytes_ok by exact Bp. blocks.
    rewrite wrap_packet; [|here|room|right; apart]. fold c cs1. cbn [bind]. store Lc. blocks.
    rewrite new_bytes_ok by exact Bq. blocks.
    rewrite wrap_packet; [|here|room|right; apart]. cbn [bind]. store Lt. blocks. fold cs2.
    rewrite (load_iv_wrap _ _ _ v) by (try here; exact Lv). blocks. fold cs3.
    rewrite new_bytes_ok by exact Bs. blocks.
    rewrite wrap_packet; [|here|room|right; apart]. fold d. cbn [bind]. store Ld. blocks.
    rewrite <- Lc at 1. rewrite hex_c_string_ok by (try here; rewrite Lc; change (2^30)%Z with 1073741824%Z; lia). blocks.
    rewrite (load_key_wrap _ _ k) by (try here; exact Lk). blocks.
    rewrite (load_iv_wrap _ _ _ v) by (try here; exact Lv). blocks. fold cs0.
    rewrite <- Lc at 2. rewrite wrap_packet; [|here|room|right; apart]. rewrite Lc, Ec. fold cs1. cbn [bind]. store Lc. blocks.
    erewrite has_bytes_ldn by here. cbn [bind].
    rewrite (load_iv_wrap _ _ _ v) by (try here; exact Lv). blocks. fold cs4.
    rewrite <- Ld at 2. rewrite wrap_packet; [|here|room|right; apart]. cbn [bind]. fold x.
    store Lx. blocks. rewrite <- Ld, <- Lx. erewrite has_bytes_ldn by here. reflexivity. }
  split; [intros C1 C2 C3; exact (clean_packet k v p Bk Lk Bv Lv Bp C1 C2 C3)|].
  intros m key iv a0 a1 a2 e1 a3 e2 Hk Hv A0 A1 A2 A3 C.
  rewrite (load_key_wrap _ _ k Hk Lk) in A0. apply Ret_inj in A0. subst a0.
  rewrite (load_iv_wrap _ _ _ v Hv Lv) in A1. apply Ret_inj in A1. fold cs0 in A1. subst a1.
  apply encrypts_psteps in A2; [|exact Bp]. fold cs1 in A2. subst a2.
  apply encrypts_psteps in A3; [|exact Bq]. fold cs2 in A3. subst a3.
  assert (Eq : cs4 = cs3).
  { unfold cs3, cs4. f_equal. unfold piv. destruct (steps_master (nblocks (length q)) cs1) as [M1 M2]. fold cs2 in M1, M2.
    rewrite M1, M2, C. reflexivity. }
  unfold x. rewrite Eq, Ld. exact Ed.
Qed.
Print Assumptions C101_rabbit_demo.

(** The shipped key, IV and texts. *)
Definition rabbit_text : list N := HexSpec.text "Hello World! This is the Rabbit cipher designed by Cryptico A/S. It was submitted to the eSTREAM portfolio, and was a successful entrant. This implementation was written by Petter Solnoer and has been verified by official test vectors....".
Definition rabbit_mumbo : list N := HexSpec.text "..2.2.2.2.2.2.2.2.222..2.2.2.2.2.2.2.2.2..2.2.2.2.222222222222222222222222222222222222222222222222222222222222222222222222222222222222222222".
Definition rabbit_second : list N := HexSpec.text "Does this decrypt successfully?".
Definition rabbit_iv : list N := [0x59;0x7E;0x26;0xC1;0x75;0xF5;0x73;0xC3]%N.

(** The text of the fourth line is not [s]. *)
Definition fourth_is_not (s : list N) (r : res (list said)) : bool :=
  match r with Ret [_; _; _; Said _ x] => negb (list_N_eqb x s) | _ => false end.
Lemma fourth_differs r a b c l x s : r = Ret [a; b; c; Said l x] -> fourth_is_not s r = true -> x <> s.
Proof. intros -> H ->. unfold fourth_is_not in H. rewrite list_N_eqb_refl in H. discriminate. Qed.

Lemma short_text l : forallb (fun x => N.ltb x 256) l = true -> Nat.ltb 0 (length l) && Nat.ltb (length l) 1000 = true -> demo_text l.
Proof.
  intros H1 H2. apply andb_true_iff in H2. destruct H2 as [H2 H3]. apply Nat.ltb_lt in H2, H3.
  split; [apply SosemanukProps.bytes_ok_forallb; exact H1|]. split; [exact H2|]. change (2^29)%Z with 536870912%Z. lia.
Qed.

(** Shortening the text that is thrown away to 80 characters is enough for the
    second text not to come back. *)
Theorem C101_rabbit_demo_recovers_refuted : exists k v p q s c x,
  bytes_ok k /\ length k = 16 /\ bytes_ok v /\ length v = 8 /\ demo_text p /\ demo_text q /\ demo_text s /\
  rabbit_main wrap_sq (hex_text k) (hex_text v) p q s =
    Ret [Said "Plaintext: " p; Said "Ciphertext: " c; Said "Recovered: " p; Said "Recovered 2: " x] /\ x <> s.
Proof.
  exists (repeat 0%N 16), rabbit_iv, rabbit_text, (firstn 80 rabbit_mumbo), rabbit_second.
  assert (E : fourth_is_not rabbit_second (rabbit_main wrap_sq (hex_text (repeat 0%N 16)) (hex_text rabbit_iv)
    rabbit_text (firstn 80 rabbit_mumbo) rabbit_second) = true) by (vm_compute; reflexivity).
  assert (D1 : demo_text rabbit_text) by (apply short_text; vm_compute; reflexivity).
  assert (D2 : demo_text (firstn 80 rabbit_mumbo)) by (apply short_text; vm_compute; reflexivity).
  assert (D3 : demo_text rabbit_second) by (apply short_text; vm_compute; reflexivity).
  assert (B : bytes_ok rabbit_iv) by (apply SosemanukProps.bytes_ok_forallb; vm_compute; reflexivity).
  assert (Lk : length (repeat 0%N 16) = 16) by reflexivity. assert (Lv : length rabbit_iv = 8) by reflexivity.
  revert E D1 D2 D3 B Lk Lv. generalize (bytes_zero 16).
  generalize (repeat 0%N 16) rabbit_iv rabbit_text (firstn 80 rabbit_mumbo) rabbit_second.
  intros k v p q s Bk E D1 D2 D3 B Lk Lv.
  destruct (C101_rabbit_demo k v p q s Bk Lk B Lv D1 D2 D3) as (c & x & _ & _ & R & _ & _).
  exists (hex_text c), x. split; [exact Bk|]. split; [exact Lk|]. split; [exact B|]. split; [exact Lv|].
  split; [exact D1|]. split; [exact D2|]. split; [exact D3|]. split; [exact R|]. eapply fourth_differs; [exact R|exact E].
Qed.
Print Assumptions C101_rabbit_demo_recovers_refuted.

(** As shipped it recovers both, if signed overflow wraps around; in standard
    C++ it has no meaning. *)
Theorem C101_rabbit_demo_shipped :
  let c := hex_text (RabbitSpec.rabbit_encrypt (repeat 0%N 16) rabbit_iv rabbit_text) in
  rabbit_main wrap_sq (hex_text (repeat 0%N 16)) (hex_text rabbit_iv) rabbit_text rabbit_mumbo rabbit_second =
    Ret [Said "Plaintext: " rabbit_text; Said "Ciphertext: " c; Said "Recovered: " rabbit_text; Said "Recovered 2: " rabbit_second] /\
  rabbit_main strict_sq (hex_text (repeat 0%N 16)) (hex_text rabbit_iv) rabbit_text rabbit_mumbo rabbit_second = UB.
Proof. cbv zeta. split; vm_compute; reflexivity. Qed.
Print Assumptions C101_rabbit_demo_shipped.
Example C101_instance : demo_text rabbit_text /\ demo_text rabbit_mumbo /\ demo_text rabbit_second /\
  bytes_ok (repeat 0%N 16) /\ bytes_ok rabbit_iv /\ hex_text rabbit_iv = HexSpec.text "597E26C175F573C3".
Proof.
  split; [apply short_text; vm_compute; reflexivity|]. split; [apply short_text; vm_compute; reflexivity|].
  split; [apply short_text; vm_compute; reflexivity|]. split; [apply bytes_zero|].
  split; [apply SosemanukProps.bytes_ok_forallb; reflexivity|reflexivity].
Qed.
