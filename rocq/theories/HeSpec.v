(** What the labeled homomorphic encryption should compute. *)
From Coq Require Import NArith ZArith List.
From Verif Require Import SpecWords.
Import ListNotations.
Local Open Scope Z_scope.

(** Programs.  There are registers for pairs, numbered 0, 1, ..., and registers for products.
    [Enc d m label] encrypts; sums, differences and constant multiples may be taken of either
    kind; [Mul] and [Mul3] multiply pairs and put the result into a register for products. *)
Inductive instr :=
| Enc (d : nat) (m label : Z)
| Add (d i j : nat) | Sub (d i j : nat) | Cmul (d : nat) (c : Z) (i : nat)
| Mul (d i j : nat) | Mul3 (d i j l : nat)
| Add2 (d i j : nat) | Sub2 (d i j : nat) | Cmul2 (d : nat) (c : Z) (i : nat).

(** The values in the registers, where there are any. *)
Record env := Env { pairs : nat -> option Z; prods : nat -> option Z }.
Definition empty : env := Env (fun _ => None) (fun _ => None).
Definition set (f : nat -> option Z) (d : nat) (v : Z) : nat -> option Z := fun i => if Nat.eqb i d then Some v else f i.

Definition lift2 (f : Z -> Z -> Z) (x y : option Z) : option Z :=
  match x, y with Some x, Some y => Some (f x y) | _, _ => None end.
Definition set_pair (e : env) (d : nat) (v : option Z) : option env :=
  match v with Some v => Some (Env (set (pairs e) d v) (prods e)) | None => None end.
Definition set_prod (e : env) (d : nat) (v : option Z) : option env :=
  match v with Some v => Some (Env (pairs e) (set (prods e) d v)) | None => None end.

(** One instruction on plain integers; [v] is what [Enc] puts into its register. *)
Definition eval_instr (x : instr) (v : Z) (e : env) : option env :=
  match x with
  | Enc d _ _ => set_pair e d (Some v)
  | Add d i j => set_pair e d (lift2 Z.add (pairs e i) (pairs e j))
  | Sub d i j => set_pair e d (lift2 Z.sub (pairs e i) (pairs e j))
  | Cmul d c i => set_pair e d (lift2 Z.mul (Some c) (pairs e i))
  | Mul d i j => set_prod e d (lift2 Z.mul (pairs e i) (pairs e j))
  | Mul3 d i j l => set_prod e d (lift2 Z.mul (lift2 Z.mul (pairs e i) (pairs e j)) (pairs e l))
  | Add2 d i j => set_prod e d (lift2 Z.add (prods e i) (prods e j))
  | Sub2 d i j => set_prod e d (lift2 Z.sub (prods e i) (prods e j))
  | Cmul2 d c i => set_prod e d (lift2 Z.mul (Some c) (prods e i))
  end.
Definition message (x : instr) : Z := match x with Enc _ m _ => m | _ => 0 end.
(** The program on the messages; None if it uses a register before it is set. *)
Fixpoint eval (prog : list instr) (e : env) : option env :=
  match prog with
  | [] => Some e
  | x :: prog => match eval_instr x (message x) e with Some e => eval prog e | None => None end
  end.

(** The blinding value of a label: the bytes of the array (the label's own, most significant first,
    then whatever follows) are encrypted with the key stream; the result is read as a number whose
    digits are little-endian 32-bit words, the most significant first. *)
Definition word_number (l : list N) : Z := fold_left (fun z w => z * 2 ^ 32 + Z.of_N (le_num w)) (chunks 4 l) 0.
Definition blinding (k : nat) (encrypted : list N) : Z := word_number (firstn (4 * (k / 32)) encrypted).

(** A label fits into n bytes, and its bytes. *)
Definition fits (label : Z) (n : nat) : Prop := Z.abs label < 256 ^ Z.of_nat n.
Definition label_bytes (label : Z) (n : nat) : list N := be_str n (Z.to_N (Z.abs label)).

Example eval_ex : match eval [Enc 0 3 1; Enc 1 4 2; Sub 0 0 1; Mul 5 0 1; Cmul2 5 (-2) 5] empty with
  | Some e => pairs e 0%nat = Some (-1) /\ prods e 5%nat = Some 8 | None => False end.
Proof. split; reflexivity. Qed.
Example eval_unset : eval [Enc 0 3 1; Add 0 0 1] empty = None.
Proof. reflexivity. Qed.
Example word_number_ex : word_number [1; 2; 3; 4; 5; 6; 7; 8]%N = 0x0403020108070605.
Proof. reflexivity. Qed.
