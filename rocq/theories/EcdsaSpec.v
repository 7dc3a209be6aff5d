(** ECDSA verification (X9.62, SEC 1 4.1.4) over the specification of the
    curve in EcSpec.v.  Nothing here models /repo. *)
From Coq Require Import ZArith.
From Verif Require Import EcSpec.
Open Scope Z_scope.

Section Ecdsa.
  (** Field prime, coefficient a, order and base point. *)
  Variables p a n : Z.
  Variable G : spt.
  (** [R] is the point (h G + r Q) / s of the verification equation. *)
  Definition verification_point (Q : spt) (h r s : Z) (R : spt) : Prop :=
    exists w A B, (s * w) mod n = 1 /\ multiple_z p a G ((h * w) mod n) A /\ multiple_z p a Q ((r * w) mod n) B /\ line_sum p a A B R.
  Definition ecdsa_valid (Q : spt) (h r s : Z) : Prop :=
    1 <= r < n /\ 1 <= s < n /\ exists x y, verification_point Q h r s (Some (x, y)) /\ x mod n = r.
End Ecdsa.
