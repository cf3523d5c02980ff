(** A user of the labeled encryption: programs (HeSpec.v) carried out with the functions of HeModel.v.
    The user keeps the blinding values, on which the same program is evaluated. *)
From Coq Require Import NArith ZArith List Bool.
From Verif Require Import Res Mem Gmp JoyeModel HeModel HeSpec.
From Verif Require HcModel.
Import ListNotations.
Local Open Scope Z_scope.

(** The user's variables; [loc] puts them into the store. *)
Inductive var :=
| VN | Vy | Vp | Vb | Vm | Vlabel | Vconst | Vbeta12 | Vbeta13 | Vbeta23
| Va (i : nat) | Vbeta (i : nat) | Valpha (i : nat).

Definition value (f : nat -> option Z) (i : nat) : Z := match f i with Some z => z | None => 0 end.

Section Run.
  Variables (loc : var -> ref) (fuel k : nat).
  Definition ct (i : nat) : he_ct := Ct (loc (Va i)) (loc (Vbeta i)).

  (** main.cpp:125-136: the product of two blinding values, encrypted in place. *)
  Definition encrypt_pair (s : store) (g : rng) (v : var) (b1 b2 : Z) : res (store * rng) :=
    let s := zset s (loc v) ((b1 * b2) mod 2 ^ Z.of_nat k) in
    joye_libert_encrypt fuel s (loc v) g (loc v) (loc Vy) (loc VN) k.

  Definition exec (stack : nat -> option N) (x : instr) (s : store) (g : rng) (cs : HcModel.hc128_state) (b : env)
      : res (store * rng * HcModel.hc128_state) :=
    match x with
    | Enc d m label =>
        let s := zset (zset s (loc Vm) m) (loc Vlabel) label in
        he_encrypt fuel stack s (ct d) g cs (loc Vb) (loc Vm) (loc Vy) (loc VN) (loc Vlabel) k
    | Add d i j => let* s := he_eval_add s (ct d) (ct i) (ct j) (loc VN) k in Ret (s, g, cs)
    | Sub d i j => let* s := he_eval_sub s (ct d) (ct i) (ct j) (loc VN) k in Ret (s, g, cs)
    | Cmul d c i => let* s := he_eval_cmult (zset s (loc Vconst) c) (ct d) (ct i) (loc Vconst) (loc VN) k in Ret (s, g, cs)
    | Mul d i j =>
        let* (s, g) := he_eval_mult fuel s (loc (Valpha d)) g (ct i) (ct j) (loc Vy) (loc VN) k in Ret (s, g, cs)
    | Mul3 d i j l =>
        let* (s, g) := encrypt_pair s g Vbeta12 (value (pairs b) i) (value (pairs b) j) in
        let* (s, g) := encrypt_pair s g Vbeta13 (value (pairs b) i) (value (pairs b) l) in
        let* (s, g) := encrypt_pair s g Vbeta23 (value (pairs b) j) (value (pairs b) l) in
        let* (s, g) := he_eval_mult_3 fuel s (loc (Valpha d)) g (ct i) (ct j) (ct l)
                         (loc Vbeta12) (loc Vbeta13) (loc Vbeta23) (loc Vy) (loc VN) k in
        Ret (s, g, cs)
    | Add2 d i j => let* s := he_eval_add_2 s (loc (Valpha d)) (loc (Valpha i)) (loc (Valpha j)) (loc VN) in Ret (s, g, cs)
    | Sub2 d i j => let* s := he_eval_sub_2 s (loc (Valpha d)) (loc (Valpha i)) (loc (Valpha j)) (loc VN) in Ret (s, g, cs)
    | Cmul2 d c i =>
        let* s := he_eval_cmult_2 (zset s (loc Vconst) c) (loc (Valpha d)) (loc (Valpha i)) (loc Vconst) (loc VN) in Ret (s, g, cs)
    end.

  (** The whole program; the blinding values of [Enc] come from the variable b.  [stack j] is what
      the stack holds before instruction j. *)
  Fixpoint run (stack : nat -> nat -> option N) (prog : list instr) (s : store) (g : rng) (cs : HcModel.hc128_state) (b : env)
      : res (store * rng * HcModel.hc128_state * env) :=
    match prog with
    | [] => Ret (s, g, cs, b)
    | x :: prog =>
        let* (s, g, cs) := exec (stack 0%nat) x s g cs b in
        match eval_instr x (zget s (loc Vb)) b with
        | Some b => run (fun j => stack (S j)) prog s g cs b
        | None => UB
        end
    end.
End Run.
