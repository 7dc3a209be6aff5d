(** Model of [get_difficulty] (nbc/util/__init__.py:79-81), which divides
    double-precision numbers. *)
From Coq Require Import ZArith.
From Verif Require Import PyBase.
Open Scope Z_scope.

(** A finite double of value [fl_m * 2 ^ fl_e]. *)
Record float : Type := Fl { fl_m : Z; fl_e : Z }.

(** The integer nearest to [n / d], the even one of two ([d > 0]). *)
Definition div_half_even (n d : Z) : Z :=
  let q := n / d in
  match 2 * (n mod d) ?= d with
  | Lt => q
  | Gt => q + 1
  | Eq => if Z.even q then q else q + 1
  end.

(** [x / y] for [x > 0] and [y >= 0]: the quotient of the significands, scaled
    so that it has 53 bits before the point, rounded to the nearest integer
    (IEEE 754, round half to even).  Simplification: results too large or too
    small for a double do not occur here (C110_nearest bounds the exponent). *)
Definition float_div (x y : float) : res float :=
  if fl_m y =? 0 then Raise ZeroDivisionError
  else
    let a := fl_m x in
    let b := fl_m y in
    let s0 := 53 + Z.log2 b - Z.log2 a in
    let num s := a * 2 ^ Z.max s 0 in
    let den s := b * 2 ^ Z.max (- s) 0 in
    let s := if num s0 <? 2 ^ 53 * den s0 then s0 else s0 - 1 in
    Ok (Fl (div_half_even (num s) (den s)) (fl_e x - fl_e y - s)).

(** __init__.py:79 [DifficultyOneTarget], a literal that a double represents
    exactly (PropsDiff.difficulty_one_literal). *)
Definition DifficultyOneTarget : float := Fl 65535 208.

(** __init__.py:80-81 [get_difficulty(bits)] for [bits >= 0].  For an exponent
    byte below 3 the power of two and the product are doubles, both exact;
    otherwise they are integers, and the division converts the product - exactly,
    because its significand has 23 bits - or raises OverflowError from 2^1024 on. *)
Definition get_difficulty (bits : Z) : res float :=
  let m := Z.land bits 0x7fffff in
  let e := 8 * (Z.shiftr bits 24 - 3) in
  if e <? 0 then float_div DifficultyOneTarget (Fl m e)
  else if 2 ^ 1024 <=? m * 2 ^ e then Raise OverflowError
  else float_div DifficultyOneTarget (Fl m e).
