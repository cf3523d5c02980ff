(** Known-answer tests of the SHA-256 and HMAC specifications. *)
From Coq Require Import NArith String List.
From Verif Require Import SpecWords HexSpec ShaSpec.
Import ListNotations.
Local Open Scope N_scope.

Example sha_K_64 : length sha_K = 64%nat /\ nth 0 sha_K 0 = 0x428a2f98 /\ nth 63 sha_K 0 = 0xc67178f2.
Proof. vm_compute. auto. Qed.
Example sha256_abc :
  hex_text (SHA256 (text "abc")) =
  text "BA7816BF8F01CFEA414140DE5DAE2223B00361A396177A9CB410FF61F20015AD".
Proof. vm_compute. reflexivity. Qed.
Example sha256_empty :
  hex_text (SHA256 []) = text "E3B0C44298FC1C149AFBF4C8996FB92427AE41E4649B934CA495991B7852B855".
Proof. vm_compute. reflexivity. Qed.
Example sha256_two_blocks :
  hex_text (SHA256 (text "abcdbcdecdefdefgefghfghighijhijkijkljklmklmnlmnomnopnopq")) =
  text "248D6A61D20638B8E5C026930C3E6039A33CE45964FF2167F6ECEDD419DB06C1".
Proof. vm_compute. reflexivity. Qed.
(** RFC 4231, test case 2. *)
Example hmac_rfc4231_2 :
  hex_text (HMAC (text "Jefe") (text "what do ya want for nothing?")) =
  text "5BDCC146BF60754E6A042426089575C75A003F089D2739839DEC58B964EC3843".
Proof. vm_compute. reflexivity. Qed.
