(** What it means that two parties with synchronised stream-cipher states can
    exchange any sequence of packets. *)
From Coq Require Import NArith List.
From Verif Require Import Res Mem MemSpec.
Import ListNotations.

(** A packet to be sent: the sender's memory, output and input pointers, and
    the bytes at the input. *)
Record packet := Packet { pk_mem : mem; pk_out : ptr; pk_in : ptr; pk_data : list N }.

Definition packet_ok (k : packet) : Prop :=
  has_bytes (pk_mem k) (pk_in k) (pk_data k) /\
  writable (pk_mem k) (pk_out k) (length (pk_data k)) /\
  same_or_disjoint (pk_out k) (pk_in k) (length (pk_data k)).

(** [proc] is the packet function: state, memory, output, input, size.  Sender
    [s] and receiver [r] process the packets in order; each call succeeds, the
    sender's writes only the ciphertext, and the receiver's turns that
    ciphertext, wherever it was received, back into the data. *)
Fixpoint talk {S} (proc : S -> mem -> ptr -> ptr -> N -> res (S * mem))
    (s r : S) (pks : list packet) : Prop :=
  match pks with
  | [] => True
  | k :: pks =>
      let n := length (pk_data k) in
      exists s' r' ct,
        proc s (pk_mem k) (pk_out k) (pk_in k) (N.of_nat n) =
          Ret (s', write_at (pk_mem k) (pk_out k) ct) /\
        length ct = n /\
        (forall m out src, has_bytes m src ct -> writable m out n -> same_or_disjoint out src n ->
           proc r m out src (N.of_nat n) = Ret (r', write_at m out (pk_data k))) /\
        talk proc s' r' pks
  end.

(** The same when the two parties' packet functions differ. *)
Fixpoint talk2 {S} (ps pr : S -> mem -> ptr -> ptr -> N -> res (S * mem))
    (s r : S) (pks : list packet) : Prop :=
  match pks with
  | [] => True
  | k :: pks =>
      let n := length (pk_data k) in
      exists s' r' ct,
        ps s (pk_mem k) (pk_out k) (pk_in k) (N.of_nat n) =
          Ret (s', write_at (pk_mem k) (pk_out k) ct) /\
        length ct = n /\
        (forall m out src, has_bytes m src ct -> writable m out n -> same_or_disjoint out src n ->
           pr r m out src (N.of_nat n) = Ret (r', write_at m out (pk_data k))) /\
        talk2 ps pr s' r' pks
  end.

(** The same for a packet function that may be undefined for some states:
    whenever the sender's call succeeds, so does the receiver's. *)
Fixpoint talk_if {S} (proc : S -> mem -> ptr -> ptr -> N -> res (S * mem))
    (s r : S) (pks : list packet) : Prop :=
  match pks with
  | [] => True
  | k :: pks =>
      let n := length (pk_data k) in
      forall s' m',
        proc s (pk_mem k) (pk_out k) (pk_in k) (N.of_nat n) = Ret (s', m') ->
        exists r' ct,
        m' = write_at (pk_mem k) (pk_out k) ct /\ length ct = n /\
        (forall m out src, has_bytes m src ct -> writable m out n -> same_or_disjoint out src n ->
           proc r m out src (N.of_nat n) = Ret (r', write_at m out (pk_data k))) /\
        talk_if proc s' r' pks
  end.

(** In state [s] the data are turned into [e], leaving state [s'], wherever
    the buffers are. *)
Definition encrypts {S} (proc : S -> mem -> ptr -> ptr -> N -> res (S * mem))
    (s : S) (data : list N) (s' : S) (e : list N) : Prop :=
  length e = length data /\
  forall m out inp, has_bytes m inp data -> writable m out (length data) ->
    same_or_disjoint out inp (length data) ->
    proc s m out inp (N.of_nat (length data)) = Ret (s', write_at m out e).

(** The packets [ds], processed one after the other from state [s], give [es]
    and end in [s']. *)
Fixpoint sends {S} (proc : S -> mem -> ptr -> ptr -> N -> res (S * mem))
    (s : S) (ds : list (list N)) (s' : S) (es : list (list N)) : Prop :=
  match ds, es with
  | [], [] => s' = s
  | d :: ds, e :: es => exists t, encrypts proc s d t e /\ sends proc t ds s' es
  | _, _ => False
  end.

(** The same for functions that need separate buffers. *)
Definition decrypts {S} (proc : S -> mem -> ptr -> ptr -> N -> res (S * mem))
    (s : S) (data : list N) (s' : S) (e : list N) : Prop :=
  length e = length data /\
  forall m out inp, has_bytes m inp data -> writable m out (length data) ->
    disjoint out (length data) inp (length data) ->
    proc s m out inp (N.of_nat (length data)) = Ret (s', write_at m out e).
Fixpoint receives {S} (proc : S -> mem -> ptr -> ptr -> N -> res (S * mem))
    (s : S) (ds : list (list N)) (s' : S) (es : list (list N)) : Prop :=
  match ds, es with
  | [], [] => s' = s
  | d :: ds, e :: es => exists t, decrypts proc s d t e /\ receives proc t ds s' es
  | _, _ => False
  end.

(** Sender and receiver with different packet functions, the receiver's output
    buffer being separate from its input. *)
Fixpoint talk_apart {S R} (ps : S -> mem -> ptr -> ptr -> N -> res (S * mem))
    (pr : R -> mem -> ptr -> ptr -> N -> res (R * mem))
    (s : S) (r : R) (pks : list packet) : Prop :=
  match pks with
  | [] => True
  | k :: pks =>
      let n := length (pk_data k) in
      exists s' r' ct,
        ps s (pk_mem k) (pk_out k) (pk_in k) (N.of_nat n) =
          Ret (s', write_at (pk_mem k) (pk_out k) ct) /\
        length ct = n /\
        (forall m out src, has_bytes m src ct -> writable m out n -> disjoint out n src n ->
           pr r m out src (N.of_nat n) = Ret (r', write_at m out (pk_data k))) /\
        talk_apart ps pr s' r' pks
  end.
