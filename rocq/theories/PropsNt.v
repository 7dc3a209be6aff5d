(** Number theory (C56-C58). *)
From Coq Require Import ZArith Znumtheory List Lia.
From Verif Require Import PyBase NtModel NtProofs ZpTheory NtJacobi NtSqrt.
Import ListNotations.
Open Scope Z_scope.

(** C56: inverse_mod(a, m) for every integer a and every m > 1. *)
Theorem C56_inverse_mod : forall a m, 1 < m ->
  (rel_prime a m ->
     exists b, inverse_mod a m = Ok b /\ 1 <= b < m /\ (a * b) mod m = 1 /\
       (forall b', 1 <= b' < m -> (a * b') mod m = 1 -> b' = b)) /\
  (~ rel_prime a m -> inverse_mod a m = Raise AssertionError).
Proof.
  intros a m Hm. split; intro H.
  - destruct (inverse_mod_ok a m) as (b & E & R & M); [lia|apply Zgcd_1_rel_prime; exact H|].
    exists b. repeat split; [exact E|apply R|apply R|exact M|]. intros b' R' M'. apply (inverse_unique a m); [lia|exact R'|exact R|exact M'|exact M].
  - apply inverse_mod_fails; [lia|]. intro G. apply H. apply Zgcd_1_rel_prime. exact G.
Qed.
Example C56_case : rel_prime (-1234567) 1000003 /\ inverse_mod (-1234567) 1000003 = Ok 321717 /\
  ~ rel_prime 21 14 /\ inverse_mod 21 14 = Raise AssertionError.
Proof.
  split; [apply Zgcd_1_rel_prime; vm_compute; reflexivity|]. split; [vm_compute; reflexivity|]. split; [|vm_compute; reflexivity].
  intro H. apply Zgcd_1_rel_prime in H. discriminate H.
Qed.

(** C57: square_root_mod_prime(a, p) for every prime p and 0 <= a < p. *)
Theorem C57_square_root : forall p a, prime p -> 0 <= a < p ->
  ((exists y, (y * y) mod p = a) ->
     exists r, square_root_mod_prime a p = Ok r /\ 0 <= r < p /\ (r * r) mod p = a) /\
  ((forall y, (y * y) mod p <> a) -> square_root_mod_prime a p = Raise SquareRootError).
Proof.
  intros p a Hp Ha. pose proof (prime_ge_2 p Hp) as P2.
  assert (forall y, (y * y) mod p = a <-> (p | y * y - a)) as E.
  { intro y. rewrite <- (Z.mod_small a p Ha) at 1. apply mod_eq_divide. lia. }
  split; intro H.
  - apply square_root_ok; [exact Hp|exact Ha|]. destruct H as (y & H). exists y. now apply E.
  - apply square_root_none; [exact Hp|exact Ha|]. intros (y & D). apply (H y). now apply E.
Qed.
(** One case for each branch: p = 2, p = 3 mod 4, p = 5 mod 8 (both signs), p = 1 mod 8. *)
Example C57_case : prime 73 /\ (54 * 54) mod 73 = 69 /\ square_root_mod_prime 69 73 = Ok 54 /\ square_root_mod_prime 1 2 = Ok 1 /\
  square_root_mod_prime 2 23 = Ok 18 /\ square_root_mod_prime 9 13 = Ok 3 /\ square_root_mod_prime 4 13 = Ok 11 /\
  square_root_mod_prime 5 73 = Raise SquareRootError.
Proof. split; [apply prime_alt; split; [lia|intros n Hn (q & E)]|vm_compute; auto 10]. assert (2 <= q) by nia.
  assert (n <= 8 \/ q <= 8) as [L|L] by nia; [assert (n = 2 \/ n = 3 \/ n = 4 \/ n = 5 \/ n = 6 \/ n = 7 \/ n = 8) as C by lia|assert (q = 2 \/ q = 3 \/ q = 4 \/ q = 5 \/ q = 6 \/ q = 7 \/ q = 8) as C by lia];
    destruct C as [->|[->|[->|[->|[->|[->| ->]]]]]]; lia.
Qed.

(** C58: jacobi(a, n) for every integer a.  The Legendre symbol of a modulo an
    odd prime p, as a relation: *)
Inductive legendre_symbol (a p : Z) : Z -> Prop :=
| legendre_0 : a mod p = 0 -> legendre_symbol a p 0
| legendre_1 y : a mod p <> 0 -> (y * y) mod p = a mod p -> legendre_symbol a p 1
| legendre_m1 : (forall y, (y * y) mod p <> a mod p) -> legendre_symbol a p (-1).
(** and the Jacobi symbol: the product of the Legendre symbols of the prime
    factors, given as a list with repetitions. *)
Inductive jacobi_symbol (a : Z) : list Z -> Z -> Prop :=
| jacobi_1 : jacobi_symbol a [] 1
| jacobi_prime p l v w : prime p -> 2 < p -> legendre_symbol a p v -> jacobi_symbol a l w -> jacobi_symbol a (p :: l) (v * w).
Definition product (l : list Z) : Z := fold_right Z.mul 1 l.

Theorem C58_legendre : forall a p, prime p -> 2 < p -> exists v, jacobi a p = Ok v /\ legendre_symbol a p v.
Proof.
  intros a p Hp H2. exists (symbol a p). split; [apply jacobi_ok; [lia|now apply Recip.odd_p]|].
  assert (forall y, (y * y) mod p = a mod p <-> (p | y * y - a)) as E by (intro y; apply mod_eq_divide; lia).
  assert (a mod p = 0 <-> (p | a)) as E0 by (split; [apply Z.mod_divide; lia|apply Z.mod_divide; lia]).
  destruct (symbol_legendre a p Hp H2) as [D|y N D|N D].
  - apply legendre_0. tauto.
  - apply legendre_1 with y; [tauto|now apply E].
  - apply legendre_m1. intros y Y. apply (D y). now apply E.
Qed.
Lemma legendre_value a p v : prime p -> 2 < p -> legendre_symbol a p v -> v = symbol a p.
Proof.
  intros Hp H2 L. apply (legendre_fun a p); [|now apply symbol_legendre].
  assert (forall y, (y * y) mod p = a mod p <-> (p | y * y - a)) as E by (intro y; apply mod_eq_divide; lia).
  assert (a mod p = 0 <-> (p | a)) as E0 by (split; [apply Z.mod_divide; lia|apply Z.mod_divide; lia]).
  destruct L as [D|y N D|D].
  - apply leg_zero. tauto.
  - apply leg_square with y; [tauto|now apply E].
  - apply leg_none; [|intros y Y; apply (D y); now apply E]. intro X. apply (D 0). apply E. replace (0 * 0 - a) with (- a) by ring. now apply Z.divide_opp_r.
Qed.
(** Every odd n >= 3, whatever its factorization l. *)
Theorem C58_jacobi : forall a l v, l <> [] -> jacobi_symbol a l v -> jacobi a (product l) = Ok v.
Proof.
  intros a l v Hl S. assert (v = symbol a (product l) /\ 0 < product l /\ product l mod 2 = 1 /\ (l <> [] -> 3 <= product l)) as (-> & _ & O & B).
  { clear Hl. induction S as [|p l v w Hp H2 L S IH]; cbn [product fold_right].
    - split; [|repeat split; try lia; congruence]. unfold symbol. rewrite Z.gcd_1_r. reflexivity.
    - destruct IH as (-> & P & O & _). fold (product l). pose proof (Recip.odd_p p Hp H2) as Op. rewrite (legendre_value a p v Hp H2 L).
      split; [symmetry; apply symbol_mul_r; assumption || lia|]. split; [nia|]. split; [rewrite Zmult_mod, Op, O; reflexivity|]. intros _. nia. }
  apply jacobi_ok; [now apply B|exact O].
Qed.
Theorem C58_total : forall a n, (3 <= n /\ n mod 2 = 1 -> exists v, jacobi a n = Ok v /\ (v = 0 \/ v = 1 \/ v = -1) /\ (v = 0 <-> ~ rel_prime a n)) /\
  (n < 3 \/ n mod 2 = 0 -> jacobi a n = Raise AssertionError).
Proof.
  intros a n. split; [intros (H & O)|apply jacobi_fails]. exists (symbol a n). split; [now apply jacobi_ok|].
  rewrite <- Zgcd_1_rel_prime. unfold symbol. destruct (Z.eqb_spec (Z.gcd a n) 1) as [G|G]; [|tauto]. destruct (Recip.J_cases n a) as [->| ->]; (split; [tauto|split; [discriminate|tauto]]).
Qed.
Example C58_case : jacobi_symbol 7 [3; 3; 5] (-1) /\ jacobi 7 45 = Ok (-1) /\ jacobi (-1) 45 = Ok 1 /\ jacobi 6 45 = Ok 0.
Proof.
  split; [|vm_compute; auto]. change (-1) with (1 * (1 * (-1 * 1))).
  assert (legendre_symbol 7 3 1) as L3 by (apply legendre_1 with 1; [discriminate|reflexivity]).
  apply jacobi_prime; [exact prime_3|lia|exact L3|]. apply jacobi_prime; [exact prime_3|lia|exact L3|].
  apply jacobi_prime; [|lia| |constructor].
  - apply prime_alt. split; [lia|]. intros n Hn (q & E). assert (q <= 4) by nia. assert (2 <= q) by nia. assert (q = 2 \/ q = 3 \/ q = 4) as [-> |[->| ->]] by lia; lia.
  - apply legendre_m1. intro y. rewrite Zmult_mod. pose proof (Z.mod_pos_bound y 5 ltac:(lia)) as B.
    assert (y mod 5 = 0 \/ y mod 5 = 1 \/ y mod 5 = 2 \/ y mod 5 = 3 \/ y mod 5 = 4) as [->|[->|[->|[->| ->]]]] by lia; discriminate.
Qed.

(** ** Assumptions *)

Print Assumptions C56_inverse_mod.
Print Assumptions C57_square_root.
Print Assumptions C58_legendre.
Print Assumptions C58_jacobi.
Print Assumptions C58_total.
