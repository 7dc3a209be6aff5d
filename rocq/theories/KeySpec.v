(** The texts of public keys (SEC 1 2.3.3) and what a private key denotes.
    Nothing here models /repo. *)
From Coq Require Import ZArith List.
From Verif Require Import PyBase EcSpec.
Import ListNotations.
Open Scope list_scope.
Open Scope Z_scope.

(** 04 X Y and (02 or 03, by the parity of y) X, with 32 octets each. *)
Definition sec1_uncompressed (k : bytes) (x y : Z) : Prop :=
  exists X Y, k = 4 :: X ++ Y /\ wf_bytes X /\ wf_bytes Y /\ zlen X = 32 /\ zlen Y = 32 /\ be_val X = x /\ be_val Y = y.
Definition sec1_compressed (k : bytes) (x y : Z) : Prop :=
  exists X, k = 2 + y mod 2 :: X /\ wf_bytes X /\ zlen X = 32 /\ be_val X = x.
(** 32 octets of a number: a private key. *)
Definition octets32 (s : bytes) (d : Z) : Prop := wf_bytes s /\ zlen s = 32 /\ be_val s = d.
