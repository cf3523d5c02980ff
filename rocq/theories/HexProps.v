(** Property theorems C01-C03 (Encoders/Hex). *)
From Coq Require Import NArith ZArith Lia String List.
From Verif Require Import Res Mem MemSpec Concrete HexModel HexSpec HexProofs.
Import ListNotations.

(** C01: encoding writes the hexadecimal text and a NUL, nothing else, and
    decoding that text gives the bytes back. *)
Theorem C01_hex_encode_then_decode : forall fuel m out inp data,
  has_bytes m inp data ->
  writable m out (2 * length data + 1) ->
  disjoint out (2 * length data + 1) inp (length data) ->
  (Z.of_nat (length data) < 2^30)%Z ->
  length data < fuel ->
  exists m1,
    hex_encode fuel m out inp (Z.of_nat (length data)) = Ret m1 /\
    m1 = write_at m out (hex_text data ++ [0%N]) /\
    forall back,
      writable m back (length data) ->
      back = out \/ disjoint back (length data) out (2 * length data) ->
      hex_decode m1 back out (Z.of_nat (2 * length data)) = Ret (write_at m1 back data).
Proof. exact hex_encode_then_decode. Qed.
Print Assumptions C01_hex_encode_then_decode.

(** Concrete case: bytes 00 7F AB FF into a fresh 9-byte buffer. *)
Example C01_instance :
  let m := [holding [0; 127; 171; 255]%N; fresh 9] in
  has_bytes m (Ptr 0 0) [0; 127; 171; 255]%N /\
  writable m (Ptr 1 0) (2 * 4 + 1) /\
  disjoint (Ptr 1 0) (2 * 4 + 1) (Ptr 0 0) 4 /\
  hex_encode 5 m (Ptr 1 0) (Ptr 0 0) 4 =
    Ret [holding [0; 127; 171; 255]%N; holding (text "007FABFF" ++ [0%N])].
Proof. split; [conc_has_bytes|split; [conc_writable|split; [conc_disjoint|vm_compute; reflexivity]]]. Qed.

(** C02: on canonical text decoding followed by encoding is the identity, and
    an odd last character is ignored. *)
Theorem C02_hex_decode_then_encode : forall fuel m out inp txt back,
  has_bytes m inp txt -> Forall is_upper_hex txt -> Nat.even (length txt) = true ->
  writable m out (length txt / 2) ->
  disjoint out (length txt / 2) inp (length txt) ->
  writable m back (length txt + 1) ->
  disjoint back (length txt + 1) out (length txt / 2) ->
  (Z.of_nat (length txt) < 2^31)%Z -> length txt < fuel ->
  exists m1 m2 v,
    hex_decode m out inp (Z.of_nat (length txt)) = Ret m1 /\
    hex_bytes txt = Some v /\ m1 = write_at m out v /\
    hex_encode fuel m1 back out (Z.of_nat (length txt / 2)) = Ret m2 /\
    m2 = write_at m1 back (txt ++ [0%N]).
Proof. exact hex_decode_then_encode. Qed.
Print Assumptions C02_hex_decode_then_encode.

Theorem C02_hex_decode_odd : forall m out inp txt c,
  has_bytes m inp (txt ++ [c]) -> Nat.even (length txt) = true ->
  writable m out (length txt / 2) ->
  disjoint out (length txt / 2) inp (length txt + 1) ->
  hex_decode m out inp (Z.of_nat (length txt + 1)) = hex_decode m out inp (Z.of_nat (length txt)).
Proof. exact hex_decode_odd. Qed.
Print Assumptions C02_hex_decode_odd.

Example C02_instance :
  let m := [holding (text "C0FFEE0"); fresh 3; fresh 7] in
  has_bytes m (Ptr 0 0) (text "C0FFEE") /\ has_bytes m (Ptr 0 0) (text "C0FFEE" ++ text "0") /\
  writable m (Ptr 1 0) 3 /\ writable m (Ptr 2 0) 7 /\
  hex_decode m (Ptr 1 0) (Ptr 0 0) 7 =
    Ret [holding (text "C0FFEE0"); holding [192; 255; 238]%N; fresh 7].
Proof.
  split; [conc_has_bytes|split; [conc_has_bytes|split; [conc_writable|split; [conc_writable|]]]].
  vm_compute. reflexivity.
Qed.

(** C03 is false: lower-case text is not decoded to the bytes it denotes. *)
Theorem C03_hex_lowercase_refuted : exists m out inp txt v r,
  has_bytes m inp txt /\ hex_bytes txt = Some v /\
  hex_decode m out inp (Z.of_nat (length txt)) = Ret (write_at m out r) /\
  length r = length v /\ r <> v.
Proof.
  exists [holding (text "ab"); fresh 1], (Ptr 1 0), (Ptr 0 0), (text "ab"), [171%N], [255%N].
  split; [conc_has_bytes|]. split; [vm_compute; reflexivity|].
  split; [vm_compute; reflexivity|]. split; [reflexivity|discriminate].
Qed.
Print Assumptions C03_hex_lowercase_refuted.

(** The exact extent: a text of digits in either case is decoded to the bytes
    it denotes if and only if every digit is upper-case (or decimal). *)
Theorem C03_hex_case_exact : forall m out inp txt,
  has_bytes m inp txt -> Nat.even (length txt) = true -> (exists v, hex_bytes txt = Some v) ->
  writable m out (length txt / 2) ->
  disjoint out (length txt / 2) inp (length txt) ->
  exists r, hex_decode m out inp (Z.of_nat (length txt)) = Ret (write_at m out r) /\
    length r = length txt / 2 /\
    (hex_bytes txt = Some r <-> Forall is_upper_hex txt).
Proof. exact hex_decode_case_exact. Qed.
Print Assumptions C03_hex_case_exact.

(** Nothing is ever rejected, whatever the bytes of the text ... *)
Theorem C03_hex_never_rejects : forall m out inp txt,
  has_bytes m inp txt -> Nat.even (length txt) = true ->
  writable m out (length txt / 2) ->
  disjoint out (length txt / 2) inp (length txt) ->
  exists r, hex_decode m out inp (Z.of_nat (length txt)) = Ret (write_at m out r) /\ length r = length txt / 2.
Proof.
  intros m out inp txt H1 H2 H3 H4. exists (pair_bytes txt).
  split; [apply hex_decode_writes; auto|apply pair_bytes_length].
Qed.
Print Assumptions C03_hex_never_rejects.

(** ... and text that denotes nothing is read as if it did: colons and at signs
    are nines. *)
Theorem C03_hex_accepts_non_digits_refuted : exists m out inp txt r,
  has_bytes m inp txt /\ hex_bytes txt = None /\
  hex_decode m out inp (Z.of_nat (length txt)) = Ret (write_at m out r) /\ hex_bytes (text "99") = Some r.
Proof.
  exists [holding (text ":@"); fresh 1], (Ptr 1 0), (Ptr 0 0), (text ":@"), [0x99%N].
  split; [conc_has_bytes|]. split; [vm_compute; reflexivity|]. split; vm_compute; reflexivity.
Qed.
Print Assumptions C03_hex_accepts_non_digits_refuted.

Example C03_instance :
  let m := [holding (text "9a"); fresh 1] in
  has_bytes m (Ptr 0 0) (text "9a") /\ (exists v, hex_bytes (text "9a") = Some v) /\
  writable m (Ptr 1 0) 1 /\ disjoint (Ptr 1 0) 1 (Ptr 0 0) 2.
Proof.
  split; [conc_has_bytes|split; [eexists; vm_compute; reflexivity|split; [conc_writable|conc_disjoint]]].
Qed.
