(** What the properties C59 and C60 mean: the points of y^2 = x^3 + a x + b
    over the integers modulo p, and their sum by chords and tangents, in plain
    integer arithmetic.  Nothing here models /repo. *)
From Coq Require Import ZArith.
Open Scope Z_scope.

Section Spec.
  Variables p a b : Z.
  (** The point at infinity, or two coordinates. *)
  Definition spt : Type := option (Z * Z).
  Definition on_curve (P : spt) : Prop :=
    match P with
    | None => True
    | Some (x, y) => 0 <= x < p /\ 0 <= y < p /\ (p | y * y - (x * x * x + a * x + b))
    end.
  (** (x3,y3) is the reflection of the third point of the line of slope l that
      goes through (x1,y1) and the point of abscissa x2. *)
  Definition third_point (l x1 y1 x2 x3 y3 : Z) : Prop :=
    0 <= x3 < p /\ 0 <= y3 < p /\ (p | x3 - (l * l - x1 - x2)) /\ (p | y3 - (l * (x1 - x3) - y1)).
  Inductive line_sum : spt -> spt -> spt -> Prop :=
  | sum_l Q : line_sum None Q Q
  | sum_r P : line_sum P None P
  | sum_opposite x y y' : (p | y + y') -> line_sum (Some (x, y)) (Some (x, y')) None
  | sum_chord x1 y1 x2 y2 l x3 y3 : x1 <> x2 -> (p | l * (x2 - x1) - (y2 - y1)) ->
      third_point l x1 y1 x2 x3 y3 -> line_sum (Some (x1, y1)) (Some (x2, y2)) (Some (x3, y3))
  | sum_tangent x y l x3 y3 : ~ (p | 2 * y) -> (p | l * (2 * y) - (3 * x * x + a)) ->
      third_point l x y x x3 y3 -> line_sum (Some (x, y)) (Some (x, y)) (Some (x3, y3)).
  Definition opposite (P : spt) : spt := match P with None => None | Some (x, y) => Some (x, (- y) mod p) end.
  (** [multiple P k R]: R is the sum of k copies of P. *)
  Inductive multiple (P : spt) : nat -> spt -> Prop :=
  | multiple_0 : multiple P 0 None
  | multiple_S k Q R : multiple P k Q -> line_sum P Q R -> multiple P (S k) R.
  Definition multiple_z (P : spt) (e : Z) (R : spt) : Prop :=
    if e <? 0 then multiple (opposite P) (Z.to_nat (- e)) R else multiple P (Z.to_nat e) R.
End Spec.
