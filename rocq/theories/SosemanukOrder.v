(** The order of the Sosemanuk shift register: every state but zero comes back
    after exactly 2^320 - 1 steps.  The powers of the variable modulo M whose
    exponents are (2^320 - 1) / p, for the primes p, are computed along a tree:
    the base at a node is the power whose exponent is 2^320 - 1 divided by the
    product of the primes below it. *)
From Coq Require Import NArith ZArith Znumtheory List Lia Bool.
From Verif Require Import WordsLemmas NumTheory LinearCycle Pocklington SosemanukLfsr.
Import ListNotations.
Local Open Scope N_scope.

Notation is_pow := (is_power L 320).
Lemma M_lt : 2^320 <= M < 2 * 2^320.
Proof. split; [discriminate|reflexivity]. Qed.
(** A power of b, computed modulo M. *)
Definition pow_of (b : N) (e : positive) : N := power (evens 320 M 320 1) (shifts 320 M 320 b) b e.
Lemma is_pow_step k b e q : is_pow k b -> (pow_of b e =? q) = true -> is_pow (k * Npos e) q.
Proof.
  intros P E. apply N.eqb_eq in E. rewrite <- E. unfold pow_of.
  exact (power_ok L L_add 320%nat 320 eq_refl L_lt M M_lt M_zero k b e eq_refl P).
Qed.
(** The same for the variable. *)
Fixpoint powx_from (E : list N) (e : positive) : N :=
  match e with
  | xH => 2
  | xO e => comb (powx_from E e) E
  | xI e => mulx 320 M (comb (powx_from E e) E)
  end.
Definition powx (e : positive) : N := powx_from (evens 320 M 320 1) e.
Lemma powx_ok E (HE : forall k p, is_pow k p -> is_pow (2 * k) (comb p E)) e : is_pow (Npos e) (powx_from E e).
Proof.
  induction e as [e IH|e IH|]; cbn [powx_from].
  - replace (N.pos e~1) with (N.succ (2 * N.pos e)) by lia. destruct (HE _ _ IH) as [P1 P2]. split.
    + exact (mulx_lt 320%nat 320 eq_refl M M_lt _ P1).
    + intros v Hv. rewrite N.iter_succ, (P2 v Hv). symmetry. exact (mulx_ok L L_add 320 M M_zero _ v Hv).
  - replace (N.pos e~0) with (2 * N.pos e) by lia. apply HE, IH.
  - apply (power_var L 320). reflexivity.
Qed.
Lemma is_pow_x e q : (powx e =? q) = true -> is_pow (Npos e) q.
Proof.
  intros H. apply N.eqb_eq in H. rewrite <- H. unfold powx. apply powx_ok. intros k p P.
  exact (power_square L L_add 320%nat 320 eq_refl L_lt M M_lt M_zero k p eq_refl P).
Qed.
Lemma never k p u v : is_pow k p -> (times 320 320 M (N.lxor p 1) u =? 1) && (u <? 2^320) = true ->
  v < 2^320 -> N.iter k L v = v -> v = 0.
Proof.
  intros P E H R. apply andb_prop in E. destruct E as [E U]. apply N.eqb_eq in E. apply N.ltb_lt in U.
  exact (no_return L L_add 320%nat 320 eq_refl M M_zero k p u v eq_refl P U E H R).
Qed.

Definition z1 : N := 0xf3033aec2535be99417c8d87772637a92dcb05c63385fe27b98a79cf31da860e9250bf4c9ad21e0.
Lemma z1_eq : (powx 0x34479b295d866bd943799426bc866bd943799426f0ce0702a1 =? z1) = true.
Proof. vm_cast_no_check (eq_refl true). Qed.
Lemma pow_z1 : is_pow 0x34479b295d866bd943799426bc866bd943799426f0ce0702a1 z1.
Proof. exact (is_pow_x 0x34479b295d866bd943799426bc866bd943799426f0ce0702a1 _ z1_eq). Qed.
Definition z2 : N := 0x209d3b5b4979939dce20bb5fb3f6c73f0e4b02293b5ce7f69f87df5dc352b84d875a6121d868dff6.
Lemma z2_eq : (pow_of z1 0xd06ee0f000d06ee0f =? z2) = true.
Proof. vm_cast_no_check (eq_refl true). Qed.
Lemma pow_z2 : is_pow 0x2a90d2c5f2d3a0d2f083a666c59993a691566c59993a666c842a0d2c5f2d3a0d56f z2.
Proof. exact (is_pow_step _ _ 0xd06ee0f000d06ee0f _ pow_z1 z2_eq). Qed.
Definition q6700417 : N := 0x7fe16b69459137c1e499a36d17437a1d61b40d06be07545c0ed1aa317d2e31b93002fa9287086af4.
Lemma q6700417_eq : (pow_of z2 0xf0f1f0f1 =? q6700417) = true.
Proof. vm_cast_no_check (eq_refl true). Qed.
Lemma pow_q6700417 : is_pow 0x280fffffd7f00000280fffffd7f00000280fffffd7f00000280fffffd7f00000280fffffd7f q6700417.
Proof. exact (is_pow_step _ _ 0xf0f1f0f1 _ pow_z2 q6700417_eq). Qed.
Definition z3 : N := 0x5ffe004d232e1faedb9a3a892f647f2eefcec8bf29cc9d17a17db4bd65f25fbd78260c4b461a9d63.
Lemma z3_eq : (pow_of z2 0x663d81 =? z3) = true.
Proof. vm_cast_no_check (eq_refl true). Qed.
Lemma pow_z3 : is_pow 0x10ffedf01220edde02220eddf0120ffef000000010ffedf01220edde02220eddf0120ffef z3.
Proof. exact (is_pow_step _ _ 0x663d81 _ pow_z2 z3_eq). Qed.
Definition q61681 : N := 0x9cf44e2d47235c11cce304e50bd6b1af19a733fde4afe132d72ea91097695659cabf5eaf851870d.
Lemma q61681_eq : (pow_of z3 0x10001 =? q61681) = true.
Proof. vm_cast_no_check (eq_refl true). Qed.
Lemma pow_q61681 : is_pow 0x10fffef00010fffef00010fffef00010fffef00010fffef00010fffef00010fffef00010fffef q61681.
Proof. exact (is_pow_step _ _ 0x10001 _ pow_z3 q61681_eq). Qed.
Definition q65537 : N := 0x6670adc9f10020691986501346908263fbb614f5594f4cb2e84f833ce5fe0855b224e188f3430396.
Lemma q65537_eq : (pow_of z3 0xf0f1 =? q65537) = true.
Proof. vm_cast_no_check (eq_refl true). Qed.
Lemma pow_q65537 : is_pow 0xffff0000ffff0000ffff0000ffff0000ffff0000ffff0000ffff0000ffff0000ffff0000ffff q65537.
Proof. exact (is_pow_step _ _ 0xf0f1 _ pow_z3 q65537_eq). Qed.
Definition z4 : N := 0x3f2935d39790cb1f25723747edd16510eddb0078a9e5270ce7c193151f6ee8dd43e2f33aca54ea66.
Lemma z4_eq : (pow_of z1 0x603a491059d671 =? z4) = true.
Proof. vm_cast_no_check (eq_refl true). Qed.
Lemma pow_z4 : is_pow 0x13a6c1546c82c707c743bf11000000000000000013a6c1546c82c707c743bf11 z4.
Proof. exact (is_pow_step _ _ 0x603a491059d671 _ pow_z1 z4_eq). Qed.
Definition q4278255361 : N := 0x976d08e27b35d197f6135d6aacacb450a48fdbb9367db527799b862ee1fd7e57a99ab0a065472e0a.
Lemma q4278255361_eq : (pow_of z4 0xd13f4fd0f =? q4278255361) = true.
Proof. vm_cast_no_check (eq_refl true). Qed.
Lemma pow_q4278255361 : is_pow 0x100fffffffeff0000000100fffffffeff0000000100fffffffeff0000000100fffffffeff q4278255361.
Proof. exact (is_pow_step _ _ 0xd13f4fd0f _ pow_z4 q4278255361_eq). Qed.
Definition z5 : N := 0x21b9ad376c8904f232c428f751a3174a72f1a1fd87f959ec94cfd6d8cf863ada705b4326c7bcf2dd.
Lemma z5_eq : (pow_of z4 0xff00ff01 =? z5) = true.
Proof. vm_cast_no_check (eq_refl true). Qed.
Lemma pow_z5 : is_pow 0x13932e2646501dab704001d63195ae110000000013932e2646501dab704001d63195ae11 z5.
Proof. exact (is_pow_step _ _ 0xff00ff01 _ pow_z4 z5_eq). Qed.
Definition z6 : N := 0x8f8402def65de7a2da0aae76272bc5094f66f22c3c78bb9ca177801709246c578023125f267cea86.
Lemma z6_eq : (pow_of z5 0x65401 =? z6) = true.
Proof. vm_cast_no_check (eq_refl true). Qed.
Lemma pow_z6 : is_pow 0x7bdf739d6319421100007bdf739d6319421100007bdf739d6319421100007bdf739d63194211 z6.
Proof. exact (is_pow_step _ _ 0x65401 _ pow_z5 z6_eq). Qed.
Definition q257 : N := 0x9171cfe1318def31c721bbea4c2c375cb1eb36e860b12f42061d57228d82f23707bbb3ab5cb7876c.
Lemma q257_eq : (pow_of z6 0x20f =? q257) = true.
Proof. vm_cast_no_check (eq_refl true). Qed.
Lemma pow_q257 : is_pow 0xff00ff00ff00ff00ff00ff00ff00ff00ff00ff00ff00ff00ff00ff00ff00ff00ff00ff00ff00ff q257.
Proof. exact (is_pow_step _ _ 0x20f _ pow_z6 q257_eq). Qed.
Definition z7 : N := 0x86b974f7e54cf34fe4c2da584f687c7e35abf5110112c9a7b3f95e8ea56399f584e266a2d7be1c4c.
Lemma z7_eq : (pow_of z6 0x101 =? z7) = true.
Proof. vm_cast_no_check (eq_refl true). Qed.
Lemma pow_z7 : is_pow 0x7c5b5311007c5b5311007c5b5311007c5b5311007c5b5311007c5b5311007c5b5311007c5b5311 z7.
Proof. exact (is_pow_step _ _ 0x101 _ pow_z6 z7_eq). Qed.
Definition q17 : N := 0xb1b29279bd636f4dbc5b7083862540f0c25542b535904af75c1476b078a2004fa523fe5fd4a41f10.
Lemma q17_eq : (pow_of z7 0x1f =? q17) = true.
Proof. vm_cast_no_check (eq_refl true). Qed.
Lemma pow_q17 : is_pow 0xf0f0f0f0f0f0f0f0f0f0f0f0f0f0f0f0f0f0f0f0f0f0f0f0f0f0f0f0f0f0f0f0f0f0f0f0f0f0f0f q17.
Proof. exact (is_pow_step _ _ 0x1f _ pow_z7 q17_eq). Qed.
Definition q31 : N := 0xcb64038e1c4aa634d17435aea55a156cbb0c9e46ec18702e0436a85910a0a57241d1c1ceaac75feb.
Lemma q31_eq : (pow_of z7 0x11 =? q31) = true.
Proof. vm_cast_no_check (eq_refl true). Qed.
Lemma pow_q31 : is_pow 0x8421084210842108421084210842108421084210842108421084210842108421084210842108421 q31.
Proof. exact (is_pow_step _ _ 0x11 _ pow_z7 q31_eq). Qed.
Definition q414721 : N := 0x1191cd9a23186f06368be2300a6dbe218fd07eb4daec66bf9fc87dbb2c2b0897712d6812e73aad3b.
Lemma q414721_eq : (pow_of z5 0x2110f =? q414721) = true.
Proof. vm_cast_no_check (eq_refl true). Qed.
Lemma pow_q414721 : is_pow 0x287447fccb89ac00ffffd78bb803347653ff0000287447fccb89ac00ffffd78bb803347653ff q414721.
Proof. exact (is_pow_step _ _ 0x2110f _ pow_z5 q414721_eq). Qed.
Definition z8 : N := 0x19c20a8b814e210be10b8f46a931103cf4b03ce3ca0d25f1b8cf06d9176b97f8b53ad710462f99e7.
Lemma z8_eq : (powx 0x187bd2ccd787df0a2df08a633761191b =? z8) = true.
Proof. vm_cast_no_check (eq_refl true). Qed.
Lemma pow_z8 : is_pow 0x187bd2ccd787df0a2df08a633761191b z8.
Proof. exact (is_pow_x 0x187bd2ccd787df0a2df08a633761191b _ z8_eq). Qed.
Definition z9 : N := 0xbbd6c2eca1aad83c162ab4ed8433432fc2d608afa26286bb7d90f8c9ac2b66a9d2987def6506cebe.
Lemma z9_eq : (pow_of z8 0x4a832c756c4b78084e13ce14781 =? z9) = true.
Proof. vm_cast_no_check (eq_refl true). Qed.
Lemma pow_z9 : is_pow 0x720568c984d9259f2026b198d50a78b43009c425a4568eab4f3a9f239b z9.
Proof. exact (is_pow_step _ _ 0x4a832c756c4b78084e13ce14781 _ pow_z8 z9_eq). Qed.
Definition z10 : N := 0x747de2ffe843b1af491731da7032731c52a0c9f7f3d25b4762c0bf146df866ac8b9de5cfe51376e2.
Lemma z10_eq : (pow_of z9 0x28741f88ac01 =? z10) = true.
Proof. vm_cast_no_check (eq_refl true). Qed.
Lemma pow_z10 : is_pow 0x120490de7f3e46d7961648d62dd32611ac111ac0ffa7803c41d3653984aac8d5e3479b z10.
Proof. exact (is_pow_step _ _ 0x28741f88ac01 _ pow_z9 z10_eq). Qed.
Definition q3602561 : N := 0x33eeeed0fdc3b05fed4dc586c72946a5a0e8faf82e33218c6392fa147521064ed3a9961f41ab2a80.
Lemma q3602561_eq : (pow_of z10 0x422aed =? q3602561) = true.
Proof. vm_cast_no_check (eq_refl true). Qed.
Lemma pow_q3602561 : is_pow 0x4a832c75b6cea47dba5f461cc623ce14780fffffb57cd38a49315b8245a0b9e339dc31eb87f q3602561.
Proof. exact (is_pow_step _ _ 0x422aed _ pow_z10 q3602561_eq). Qed.
Definition z11 : N := 0x8abffbee168558aeaa83a532622e10a76af9d1876cea1351b0df28c950c727ed1d5428dd0e21ffa4.
Lemma z11_eq : (pow_of z10 0x36f881 =? z11) = true.
Proof. vm_cast_no_check (eq_refl true). Qed.
Lemma pow_z11 : is_pow 0x3de740f936285647c34bb94f7dadbac019933eb3f60402457e0b94fb7b687a9bc590f973d1b z11.
Proof. exact (is_pow_step _ _ 0x36f881 _ pow_z10 z11_eq). Qed.
Definition q641 : N := 0xc99b59d5f8535444bb02dc29dad581a4d753f20016bb5f361f8281771a085ce2a0c6eb284497d134.
Lemma q641_eq : (pow_of z11 0x1a6d =? q641) = true.
Proof. vm_cast_no_check (eq_refl true). Qed.
Lemma pow_q641 : is_pow 0x663d80ff99c27f00663d80ff99c27f00663d80ff99c27f00663d80ff99c27f00663d80ff99c27f q641.
Proof. exact (is_pow_step _ _ 0x1a6d _ pow_z11 q641_eq). Qed.
Definition z12 : N := 0x2d99e3ff28f7be818d3900d79bcac5786a63987807653d58b90206fd2c382a62ef865ad9a3009212.
Lemma z12_eq : (pow_of z11 0x281 =? z12) = true.
Proof. vm_cast_no_check (eq_refl true). Qed.
Lemma pow_z12 : is_pow 0x9b0009b0009b0009b0009b0009b0009b0009b0009b0009b0009b0009b0009b0009b0009b0009b z12.
Proof. exact (is_pow_step _ _ 0x281 _ pow_z11 z12_eq). Qed.
Definition q41 : N := 0x9760ceb4a07555b3c57fea0ec0bfcfcd5b05770d71b2d558c3f32cc081e09aae7d93ded30a235125.
Lemma q41_eq : (pow_of z12 0xa5 =? q41) = true.
Proof. vm_cast_no_check (eq_refl true). Qed.
Lemma pow_q41 : is_pow 0x63e7063e7063e7063e7063e7063e7063e7063e7063e7063e7063e7063e7063e7063e7063e7063e7 q41.
Proof. exact (is_pow_step _ _ 0xa5 _ pow_z12 q41_eq). Qed.
Definition z13 : N := 0xa8e8247654ead5f586956bca06857d1b1496a0f0426f7c6923b2b1cb37eb6929a3d8caa7cb88db77.
Lemma z13_eq : (pow_of z12 0x29 =? z13) = true.
Proof. vm_cast_no_check (eq_refl true). Qed.
Lemma pow_z13 : is_pow 0x18d3018d3018d3018d3018d3018d3018d3018d3018d3018d3018d3018d3018d3018d3018d3018d3 z13.
Proof. exact (is_pow_step _ _ 0x29 _ pow_z12 z13_eq). Qed.
Definition q11 : N := 0x5dfb5357651bcc8f991b35595d407269d00b63c3e38e75911d86f6d45f4b828f41923502afc1d898.
Lemma q11_eq : (pow_of z13 0xf =? q11) = true.
Proof. vm_cast_no_check (eq_refl true). Qed.
Lemma pow_q11 : is_pow 0x1745d1745d1745d1745d1745d1745d1745d1745d1745d1745d1745d1745d1745d1745d1745d1745d q11.
Proof. exact (is_pow_step _ _ 0xf _ pow_z13 q11_eq). Qed.
Definition z14 : N := 0xaec4c6cdbcbcfcf5e4339b9f014ed3da775da9a4c5f6bd67bff504d2f06c6052b4476e07ac74f7bd.
Lemma z14_eq : (pow_of z13 0xb =? z14) = true.
Proof. vm_cast_no_check (eq_refl true). Qed.
Lemma pow_z14 : is_pow 0x11111111111111111111111111111111111111111111111111111111111111111111111111111111 z14.
Proof. exact (is_pow_step _ _ 0xb _ pow_z13 z14_eq). Qed.
Definition q3 : N := 0x6dd76501afdade3e09cf75a3d16e877c15b4844162526576273e707c49a033259844fc7a851a9387.
Lemma q3_eq : (pow_of z14 0x5 =? q3) = true.
Proof. vm_cast_no_check (eq_refl true). Qed.
Lemma pow_q3 : is_pow 0x55555555555555555555555555555555555555555555555555555555555555555555555555555555 q3.
Proof. exact (is_pow_step _ _ 0x5 _ pow_z14 q3_eq). Qed.
Definition q5 : N := 0xc313a3cc136622cbedfcee3cd02054a662e92de5a7a4d81198cb74aeb9cc53772c03927d296e643b.
Lemma q5_eq : (pow_of z14 0x3 =? q5) = true.
Proof. vm_cast_no_check (eq_refl true). Qed.
Lemma pow_q5 : is_pow 0x33333333333333333333333333333333333333333333333333333333333333333333333333333333 q5.
Proof. exact (is_pow_step _ _ 0x3 _ pow_z14 q5_eq). Qed.
Definition q44479210368001 : N := 0x2e18e5b3d684831b457ce0e4378768539abe77344ecf50e8c875d1ac77440f5475beed3dcdf70041.
Lemma q44479210368001_eq : (pow_of z9 0xe3548eb396d =? q44479210368001) = true.
Proof. vm_cast_no_check (eq_refl true). Qed.
Lemma pow_q44479210368001 : is_pow 0x654075400fffffffffff9abf8abff00000000000654075400fffffffffff9abf8abff q44479210368001.
Proof. exact (is_pow_step _ _ 0xe3548eb396d _ pow_z9 q44479210368001_eq). Qed.
Definition q94455684953484563055991838558081 : N := 0x6f7833fbb06d12c50535aaef576e5544f336b5f104c7b53db0e6a22f43657febd78fd614727712d.
Lemma q94455684953484563055991838558081_eq : (pow_of z8 0x23ec549d53e21820868756d =? q94455684953484563055991838558081) = true.
Proof. vm_cast_no_check (eq_refl true). Qed.
Lemma pow_q94455684953484563055991838558081 : is_pow 0x36f8810036f880ffffffffffffffffffffffffffc9077effc9077f q94455684953484563055991838558081.
Proof. exact (is_pow_step _ _ 0x23ec549d53e21820868756d _ pow_z8 q94455684953484563055991838558081_eq). Qed.
Definition u3 : N := 0x6dd76501afdade3e09cf75a3d16e877c15b4844162526576273e707c49a033259844fc7a851a9387.
Lemma u3_eq : (times 320 320 M (N.lxor q3 1) u3 =? 1) && (u3 <? 2^320) = true.
Proof. vm_cast_no_check (eq_refl true). Qed.
Definition u5 : N := 0x6ed223117f819c27d60a060da24913fdbaab4536410853d59f18bc2fae1e546a9135d7f88333d231.
Lemma u5_eq : (times 320 320 M (N.lxor q5 1) u5 =? 1) && (u5 <? 2^320) = true.
Proof. vm_cast_no_check (eq_refl true). Qed.
Definition u11 : N := 0x9e4ec91f980751f272b31c29c3b4b37da164e310cf4d9d1a0db8135e1c8959e424d8bf4745af4e60.
Lemma u11_eq : (times 320 320 M (N.lxor q11 1) u11 =? 1) && (u11 <? 2^320) = true.
Proof. vm_cast_no_check (eq_refl true). Qed.
Definition u17 : N := 0x44038b4be922d3a031ab8fcf3a2b4f680a1a469a78cfd397a547739aeba83118706b4be2a85d4336.
Lemma u17_eq : (times 320 320 M (N.lxor q17 1) u17 =? 1) && (u17 <? 2^320) = true.
Proof. vm_cast_no_check (eq_refl true). Qed.
Definition u31 : N := 0x756c3bcfaf5776267c241f79f7c66c9f62ed65c45dd965d85e8b203b479382278acf04199f004e54.
Lemma u31_eq : (times 320 320 M (N.lxor q31 1) u31 =? 1) && (u31 <? 2^320) = true.
Proof. vm_cast_no_check (eq_refl true). Qed.
Definition u41 : N := 0xabaf98f6b5a1d14e208bf343139e68d781c6c3fc6621096f3fa4b549f670bf0157e72f43ce4e3492.
Lemma u41_eq : (times 320 320 M (N.lxor q41 1) u41 =? 1) && (u41 <? 2^320) = true.
Proof. vm_cast_no_check (eq_refl true). Qed.
Definition u257 : N := 0x599c8136b6fc862b62bbd59dbd32ab5f98dcf4d9b392946707088f84b0b357824a8443b0f1945600.
Lemma u257_eq : (times 320 320 M (N.lxor q257 1) u257 =? 1) && (u257 <? 2^320) = true.
Proof. vm_cast_no_check (eq_refl true). Qed.
Definition u641 : N := 0x74182d6f6d037ca430d711545a3f7b3c788ec1243d21917fe47ca150da12a8e644392105415ea0f4.
Lemma u641_eq : (times 320 320 M (N.lxor q641 1) u641 =? 1) && (u641 <? 2^320) = true.
Proof. vm_cast_no_check (eq_refl true). Qed.
Definition u61681 : N := 0xb2d0d68c339f80a2fcaa969c08e287fcf9edaf77cffb0ce5bea6ec9640ac067d21d21acec8e236d9.
Lemma u61681_eq : (times 320 320 M (N.lxor q61681 1) u61681 =? 1) && (u61681 <? 2^320) = true.
Proof. vm_cast_no_check (eq_refl true). Qed.
Definition u65537 : N := 0x5768624f3fde097183c6b0b7bce473267f11a859415faf800e88563d310aa51f05b8e30bc6d125a0.
Lemma u65537_eq : (times 320 320 M (N.lxor q65537 1) u65537 =? 1) && (u65537 <? 2^320) = true.
Proof. vm_cast_no_check (eq_refl true). Qed.
Definition u414721 : N := 0x631aac878f43a3446efe76244c1258601f55dfb01fc33d4ab0433727cfed54a249727c2eef086022.
Lemma u414721_eq : (times 320 320 M (N.lxor q414721 1) u414721 =? 1) && (u414721 <? 2^320) = true.
Proof. vm_cast_no_check (eq_refl true). Qed.
Definition u3602561 : N := 0x3f76fee750ce04c4f30cd60e42704f752c42b716316f6b687bf39ebcf61f0819ca50710ec409736a.
Lemma u3602561_eq : (times 320 320 M (N.lxor q3602561 1) u3602561 =? 1) && (u3602561 <? 2^320) = true.
Proof. vm_cast_no_check (eq_refl true). Qed.
Definition u6700417 : N := 0xf8d030aa3fb778e16ccc9aef2db093c3d5ca30e59d336074dc08c4a50f7d8caec2867c8f6f7f4193.
Lemma u6700417_eq : (times 320 320 M (N.lxor q6700417 1) u6700417 =? 1) && (u6700417 <? 2^320) = true.
Proof. vm_cast_no_check (eq_refl true). Qed.
Definition u4278255361 : N := 0x85f93a87013fb47185a615c5720bc4b98e954c326debff7967b07f100588757d4890b0f0d231aaa8.
Lemma u4278255361_eq : (times 320 320 M (N.lxor q4278255361 1) u4278255361 =? 1) && (u4278255361 <? 2^320) = true.
Proof. vm_cast_no_check (eq_refl true). Qed.
Definition u44479210368001 : N := 0x6fa7b280fb5808b369d466f1e40470e3472a062f1a5a03ee9b8cac495c5fd9bb1d2347d931d0b56b.
Lemma u44479210368001_eq : (times 320 320 M (N.lxor q44479210368001 1) u44479210368001 =? 1) && (u44479210368001 <? 2^320) = true.
Proof. vm_cast_no_check (eq_refl true). Qed.
Definition u94455684953484563055991838558081 : N := 0x3d11da52192e43a8076778bc801ed5e82cc8f4825c2619ef909977e53e876c620dd169526fca2d5c.
Lemma u94455684953484563055991838558081_eq : (times 320 320 M (N.lxor q94455684953484563055991838558081 1) u94455684953484563055991838558081 =? 1) && (u94455684953484563055991838558081 <? 2^320) = true.
Proof. vm_cast_no_check (eq_refl true). Qed.
Definition order : N := 2135987035920910082395021706169552114602704522356652769947041607822219725780640550022962086936575.
Lemma order_back : (pow_of q3 3 =? 1) = true.
Proof. vm_cast_no_check (eq_refl true). Qed.
Lemma comes_back v : v < 2^320 -> N.iter order L v = v.
Proof. intros H. pose proof (is_pow_step _ _ 3 1 pow_q3 order_back) as [_ P]. exact (P v H). Qed.

Lemma prime_returns v p : v < 2^320 -> v <> 0 -> In (Z.of_N p) divisors -> ~ returns N L v (order / p).
Proof.
  intros H V I R. apply V. unfold returns in R. unfold divisors in I. cbn [In] in I.
  destruct I as [I|I]; [assert (p = 3) as -> by (apply N2Z.inj; exact (eq_sym I)); exact (never _ _ _ v pow_q3 u3_eq H R)|].
  destruct I as [I|I]; [assert (p = 5) as -> by (apply N2Z.inj; exact (eq_sym I)); exact (never _ _ _ v pow_q5 u5_eq H R)|].
  destruct I as [I|I]; [assert (p = 11) as -> by (apply N2Z.inj; exact (eq_sym I)); exact (never _ _ _ v pow_q11 u11_eq H R)|].
  destruct I as [I|I]; [assert (p = 17) as -> by (apply N2Z.inj; exact (eq_sym I)); exact (never _ _ _ v pow_q17 u17_eq H R)|].
  destruct I as [I|I]; [assert (p = 31) as -> by (apply N2Z.inj; exact (eq_sym I)); exact (never _ _ _ v pow_q31 u31_eq H R)|].
  destruct I as [I|I]; [assert (p = 41) as -> by (apply N2Z.inj; exact (eq_sym I)); exact (never _ _ _ v pow_q41 u41_eq H R)|].
  destruct I as [I|I]; [assert (p = 257) as -> by (apply N2Z.inj; exact (eq_sym I)); exact (never _ _ _ v pow_q257 u257_eq H R)|].
  destruct I as [I|I]; [assert (p = 641) as -> by (apply N2Z.inj; exact (eq_sym I)); exact (never _ _ _ v pow_q641 u641_eq H R)|].
  destruct I as [I|I]; [assert (p = 61681) as -> by (apply N2Z.inj; exact (eq_sym I)); exact (never _ _ _ v pow_q61681 u61681_eq H R)|].
  destruct I as [I|I]; [assert (p = 65537) as -> by (apply N2Z.inj; exact (eq_sym I)); exact (never _ _ _ v pow_q65537 u65537_eq H R)|].
  destruct I as [I|I]; [assert (p = 414721) as -> by (apply N2Z.inj; exact (eq_sym I)); exact (never _ _ _ v pow_q414721 u414721_eq H R)|].
  destruct I as [I|I]; [assert (p = 3602561) as -> by (apply N2Z.inj; exact (eq_sym I)); exact (never _ _ _ v pow_q3602561 u3602561_eq H R)|].
  destruct I as [I|I]; [assert (p = 6700417) as -> by (apply N2Z.inj; exact (eq_sym I)); exact (never _ _ _ v pow_q6700417 u6700417_eq H R)|].
  destruct I as [I|I]; [assert (p = 4278255361) as -> by (apply N2Z.inj; exact (eq_sym I)); exact (never _ _ _ v pow_q4278255361 u4278255361_eq H R)|].
  destruct I as [I|I]; [assert (p = 44479210368001) as -> by (apply N2Z.inj; exact (eq_sym I)); exact (never _ _ _ v pow_q44479210368001 u44479210368001_eq H R)|].
  destruct I as [I|I]; [assert (p = 94455684953484563055991838558081) as -> by (apply N2Z.inj; exact (eq_sym I)); exact (never _ _ _ v pow_q94455684953484563055991838558081 u94455684953484563055991838558081_eq H R)|].
  destruct I.
Qed.

(** A state that is not zero is back exactly after the multiples of 2^320 - 1
    steps. *)
Theorem return_times v k : v < 2^320 -> v <> 0 -> (N.iter k L v = v <-> N.divide order k).
Proof.
  intros H V. split.
  - apply (return_time N L v order k); [discriminate|apply comes_back, H|].
    intros p Pp (c & D). apply prime_returns; [exact H|exact V|]. apply divisors_all; [exact Pp|].
    exists (Z.of_N c). rewrite <- N2Z.inj_mul, <- D. reflexivity.
  - intros (c & ->). rewrite N.mul_comm. apply (returns_mul N L v), comes_back, H.
Qed.
Print Assumptions return_times.
