(** aegis_decrypt_packet of StreamCiphers/AEGIS/*/aegis_128.cpp (the three builds
    agree in these lines) with the work its tag check does: the function of
    AegisModel, which also counts the comparisons, the assignments to the flag
    and the bytes cleared.  The rest of the function does the same for every tag
    and is not counted. *)
From Coq Require Import NArith List.
From Verif Require Import Res Words Mem AegisModel.
Import ListNotations.
Local Open Scope N_scope.

(** The loop, aegis_128.cpp:279-282: the flag, comparisons, assignments. *)
Definition compare_words_timed (re_tag u32_tag : list N) : bool * nat * nat :=
  iter_n 4 0 (fun i '(flag, compared, assigned) =>
    if negb (nth i re_tag 0 =? nth i u32_tag 0) then (true, S compared, S assigned) else (flag, S compared, assigned))
    (false, 0%nat, 0%nat).

(** aegis_decrypt_packet, aegis_128.cpp:260-291. *)
Definition aegis_decrypt_packet_timed (b : aegis_build) (cs : aegis_state) (m : mem) (pt ct ad iv tag : ptr)
    (adlen msglen : N) : res (N * aegis_state * mem * (nat * nat * nat)) :=
  let* u32_tag := ld_words m tag 4 in
  let* cs := aegis_initialize b cs m iv in
  let* cs := aegis_process_ad b cs m ad adlen in
  let* (cs, m) := aegis_decrypt b cs m pt ct msglen in
  let '(cs, re_tag) := aegis_finalize b cs adlen msglen in
  let '(flag, compared, assigned) := compare_words_timed re_tag u32_tag in
  if flag then
    let* m := stn m pt (repeat 0 (N.to_nat msglen)) in
    let* m := stn m tag (repeat 0 16) in
    Ret (0, cs, m, (compared, assigned, (N.to_nat msglen + 16)%nat))
  else Ret (1, cs, m, (compared, assigned, 0%nat)).
