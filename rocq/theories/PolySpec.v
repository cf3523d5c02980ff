(** The clamping of r in RFC 7539, section 2.5: "r[3], r[7], r[11] and r[15]
    are required to have their top four bits clear; r[4], r[8] and r[12] are
    required to have their bottom two bits clear"; in the pseudo code of
    section 2.5.1 this is one mask on the little-endian number. *)
From Coq Require Import NArith List.
From Verif Require Import SpecWords.
Import ListNotations.
Local Open Scope N_scope.

Definition r_mask : N := 0x0ffffffc0ffffffc0ffffffc0fffffff.
Definition clamped (l : list N) : list N := le_str 16 (N.land (le_num l) r_mask).

(** The example of section 2.5.2. *)
Example clamp_rfc7539 :
  clamped [0x85;0xd6;0xbe;0x78;0x57;0x55;0x6d;0x33;0x7f;0x44;0x52;0xfe;0x42;0xd5;0x06;0xa8] =
  le_str 16 0x0806d5400e52447c036d555408bed685.
Proof. vm_compute. reflexivity. Qed.
