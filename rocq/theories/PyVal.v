(** Dynamic Python values handled by the protocol layer, and Python's
    [int(text, base)], [str(int)], ['%x' % int], [str.split].  No project code. *)
From Coq Require Import String ZArith List Lia Bool.
From Verif Require Import PyBase.
Import ListNotations.
Open Scope Z_scope.

(** A float is a dyadic rational [m * 2^e], an infinity or a NaN. *)
Inductive pyfloat : Type :=
| FFin (m e : Z)
| FInf (negative : bool)
| FNan.

Inductive pyval : Type :=
| VNone
| VInt (z : Z)
| VBool (b : bool)
| VFloat (f : pyfloat)
| VStr (s : text)
| VBytes (s : bytes)
| VList (l : list pyval)
| VTuple (l : list pyval)
| VObj (cls : string) (fields : list (string * pyval))  (* instance with _properties *)
| VOther (tag : Z).                                     (* anything else *)

(** [a <= f] and [f < b] for integers [a], [b] (exact, as in CPython). *)
Definition z_le_float (a : Z) (f : pyfloat) : bool :=
  match f with
  | FFin m e => if 0 <=? e then a <=? m * 2 ^ e else a * 2 ^ (- e) <=? m
  | FInf neg => negb neg
  | FNan => false
  end.
Definition float_lt_z (f : pyfloat) (b : Z) : bool :=
  match f with
  | FFin m e => if 0 <=? e then m * 2 ^ e <? b else m <? b * 2 ^ (- e)
  | FInf neg => neg
  | FNan => false
  end.
(** [int(f)]: truncation toward zero; OverflowError / ValueError otherwise. *)
Definition float_trunc (f : pyfloat) : res Z :=
  match f with
  | FFin m e => Ok (if 0 <=? e then m * 2 ^ e else Z.quot m (2 ^ (- e)))
  | FInf _ => Raise OverflowError
  | FNan => Raise ValueError
  end.

(** Keyed access to a dictionary represented as an association list. *)
Fixpoint assoc {A} (k : string) (l : list (string * A)) : option A :=
  match l with
  | [] => None
  | (k', v) :: r => if String.eqb k k' then Some v else assoc k r
  end.

(** ** Text *)

(** [s.split(c)] for a one-character separator. *)
Fixpoint split_on (c : Z) (s : text) : list text :=
  match s with
  | [] => [[]]
  | x :: r =>
      if x =? c then [] :: split_on c r
      else match split_on c r with
           | [] => [[x]]            (* impossible *)
           | h :: t => (x :: h) :: t
           end
  end.

(** [c.join(parts)] for a one-character separator. *)
Fixpoint join_with (c : Z) (parts : list text) : text :=
  match parts with
  | [] => []
  | [p] => p
  | p :: r => p ++ c :: join_with c r
  end.

(** C's isspace, as used by CPython's integer parser on ASCII text. *)
Definition is_space (c : Z) : bool := ((9 <=? c) && (c <=? 13)) || (c =? 32).

(** Value of an ASCII digit or letter; 37 when it is neither. *)
Definition digit_value (c : Z) : Z :=
  if (48 <=? c) && (c <=? 57) then c - 48
  else if (97 <=? c) && (c <=? 122) then c - 87
  else if (65 <=? c) && (c <=? 90) then c - 55
  else 37.

Fixpoint drop_spaces (s : text) : text :=
  match s with
  | [] => []
  | c :: r => if is_space c then drop_spaces r else s
  end.

(** Digits with single underscores between them, followed by spaces only.
    [acc] is the value so far; [last] says whether the previous character was a
    digit (an underscore is allowed and the number may end only then). *)
Fixpoint int_digits (base : Z) (s : text) (acc : Z) (last : bool) : option Z :=
  match s with
  | [] => if last then Some acc else None
  | c :: r =>
      if digit_value c <? base then int_digits base r (acc * base + digit_value c) true
      else if (c =? 95) && last then int_digits base r acc false
      else if last && forallb is_space s then Some acc else None
  end.

(** Optional sign. *)
Definition take_sign (s : text) : bool * text :=
  match s with
  | c :: r => if c =? 43 then (false, r) else if c =? 45 then (true, r) else (false, s)
  | [] => (false, s)
  end.

(** Optional ["0x"] prefix, possibly followed by one underscore. *)
Definition drop_0x (s : text) : text :=
  match s with
  | a :: b :: r =>
      if (a =? 48) && ((b =? 120) || (b =? 88))
      then match r with c :: r' => if c =? 95 then r' else r | [] => r end
      else s
  | _ => s
  end.

(** [int(s, base)] for base 10 or 16 on ASCII text; [None] = ValueError.
    Simplification: non-ASCII decimal digits and spaces, which CPython would
    translate first, are treated as invalid characters, and CPython's limit on
    the number of decimal digits is not modelled. *)
Definition int_of_text (base : Z) (s : text) : option Z :=
  let (neg, s2) := take_sign (drop_spaces s) in
  let s3 := if base =? 16 then drop_0x s2 else s2 in
  match int_digits base s3 0 false with
  | Some z => Some (if neg then - z else z)
  | None => None
  end.

(** Digit character of [str(int)] and ['%x' % int]. *)
Definition digit_char (d : Z) : Z := if d <? 10 then 48 + d else 87 + d.

(** Text of a non-negative integer, most significant digit first. *)
Fixpoint digits_aux (fuel : nat) (base x : Z) (acc : text) : text :=
  match fuel with
  | O => acc
  | S k => if x <? base then digit_char x :: acc
           else digits_aux k base (x / base) (digit_char (x mod base) :: acc)
  end.
(** [str(x)] (base 10) and ['%x' % x] (base 16) for [x >= 0]. *)
Definition text_of_int (base x : Z) : text :=
  digits_aux (S (Z.to_nat (Z.log2 x))) base x [].
