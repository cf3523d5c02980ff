(** What happens to packets altered on their way. *)
From Coq Require Import NArith List.
From Verif Require Import Res Mem MemSpec SpecWords SyncSpec.
Import ListNotations.

(** The packets [es] with [deltas] XORed in, packet by packet. *)
Definition altered (es deltas : list (list N)) : list (list N) :=
  map (fun p => xor_bytes (fst p) (snd p)) (combine es deltas).

(** [s] and [r] are the sender's and the receiver's states, [ps] and [pr] their
    packet functions.  The packets [ds]
    can be sent, and whatever is XORed into them on the way, the receiver gets
    [ds] with exactly that XORed in, and ends in the same state as if nothing
    had happened. *)
Definition damage_stays {S} (ps pr : S -> mem -> ptr -> ptr -> N -> res (S * mem)) (s r : S) (ds : list (list N)) : Prop :=
  exists t es, sends ps s ds t es /\ sends pr r es t ds /\
    forall deltas, map (@length N) deltas = map (@length N) ds ->
      sends pr r (altered es deltas) t (altered ds deltas).
