(** Hexadecimal text, independently of the code. *)
From Coq Require Import NArith List Ascii String.
Import ListNotations.
Local Open Scope N_scope.

Definition text (s : string) : list N := map N_of_ascii (list_ascii_of_string s).

Definition upper_digits : list N := text "0123456789ABCDEF".
Definition lower_digits : list N := text "0123456789abcdef".

(** The two upper-case digits of a byte, and of a byte string. *)
Definition hex_of_byte (b : N) : list N :=
  [nth (N.to_nat (b / 16)) upper_digits 0; nth (N.to_nat (b mod 16)) upper_digits 0].
Definition hex_text (l : list N) : list N := flat_map hex_of_byte l.

Definition is_upper_hex (c : N) : Prop := In c upper_digits.

(** Value of a digit in either case. *)
Definition index_of (c : N) (l : list N) : option N :=
  (fix go (l : list N) (i : N) :=
     match l with
     | [] => None
     | x :: t => if x =? c then Some i else go t (i + 1)
     end) l 0.
Definition digit_value (c : N) : option N :=
  match index_of c upper_digits with
  | Some v => Some v
  | None => index_of c lower_digits
  end.

(** Bytes denoted by a text of hexadecimal digits (either case); an odd last
    digit is dropped. *)
Fixpoint hex_bytes (l : list N) : option (list N) :=
  match l with
  | a :: b :: t =>
      match digit_value a, digit_value b, hex_bytes t with
      | Some x, Some y, Some r => Some (16 * x + y :: r)
      | _, _, _ => None
      end
  | _ => Some []
  end.
