(** A composite number that the primality test takes for a prime: a product of
    three primes p with p - 1 dividing n - 1, whose Legendre symbols agree on
    the bases of the test.  Nothing here models /repo. *)
From Coq Require Import ZArith Znumtheory List Lia Bool.
From Verif Require Import PyBase NtModel ZpTheory Recip NtJacobi PrimeModel PrimeProofs.
Import ListNotations.
Open Scope Z_scope.

Lemma pp_0 : prime 88129.
Proof. apply trial_prime. vm_compute. reflexivity. Qed.

Lemma pp_1 : prime 7755353.
Proof.
  apply (pocklington 7755353 [(88129, 2)]).
  - cbn. repeat (apply NoDup_cons; [cbn; lia|]). apply NoDup_nil.
  - cbn [map fst]. apply Forall_cons; [exact pp_0|]. apply Forall_nil.
  - vm_compute. reflexivity.
Qed.

Lemma pp_2 : prime 17.
Proof. apply trial_prime. vm_compute. reflexivity. Qed.

Lemma pp_3 : prime 7.
Proof. apply trial_prime. vm_compute. reflexivity. Qed.

Lemma pp_4 : prime 5.
Proof. apply trial_prime. vm_compute. reflexivity. Qed.

Lemma pp_5 : prime 3.
Proof. apply trial_prime. vm_compute. reflexivity. Qed.

Lemma pp_6 : prime 674731.
Proof.
  apply (pocklington 674731 [(17, 2); (7, 2); (5, 3); (3, 2)]).
  - cbn. repeat (apply NoDup_cons; [cbn; lia|]). apply NoDup_nil.
  - cbn [map fst]. apply Forall_cons; [exact pp_2|]. apply Forall_cons; [exact pp_3|]. apply Forall_cons; [exact pp_4|]. apply Forall_cons; [exact pp_5|]. apply Forall_nil.
  - vm_compute. reflexivity.
Qed.

Lemma pp_7 : prime 24997007938447372994990671.
Proof.
  apply (pocklington 24997007938447372994990671 [(7755353, 2); (674731, 2)]).
  - cbn. repeat (apply NoDup_cons; [cbn; lia|]). apply NoDup_nil.
  - cbn [map fst]. apply Forall_cons; [exact pp_1|]. apply Forall_cons; [exact pp_6|]. apply Forall_nil.
  - vm_compute. reflexivity.
Qed.

Lemma pp_8 : prime 67.
Proof. apply trial_prime. vm_compute. reflexivity. Qed.

Lemma pp_9 : prime 47.
Proof. apply trial_prime. vm_compute. reflexivity. Qed.

Lemma pp_10 : prime 6299.
Proof.
  apply (pocklington 6299 [(67, 2); (47, 2)]).
  - cbn. repeat (apply NoDup_cons; [cbn; lia|]). apply NoDup_nil.
  - cbn [map fst]. apply Forall_cons; [exact pp_8|]. apply Forall_cons; [exact pp_9|]. apply Forall_nil.
  - vm_compute. reflexivity.
Qed.

Lemma pp_11 : prime 324961103199815848934878711.
Proof.
  apply (pocklington 324961103199815848934878711 [(7755353, 2); (674731, 2); (6299, 2)]).
  - cbn. repeat (apply NoDup_cons; [cbn; lia|]). apply NoDup_nil.
  - cbn [map fst]. apply Forall_cons; [exact pp_1|]. apply Forall_cons; [exact pp_6|]. apply Forall_cons; [exact pp_10|]. apply Forall_nil.
  - vm_compute. reflexivity.
Qed.

Lemma pp_12 : prime 424949134953605340914841391.
Proof.
  apply (pocklington 424949134953605340914841391 [(7755353, 2); (674731, 2); (6299, 2)]).
  - cbn. repeat (apply NoDup_cons; [cbn; lia|]). apply NoDup_nil.
  - cbn [map fst]. apply Forall_cons; [exact pp_1|]. apply Forall_cons; [exact pp_6|]. apply Forall_cons; [exact pp_10|]. apply Forall_nil.
  - vm_compute. reflexivity.
Qed.

Definition pp_a : Z := 24997007938447372994990671.
Definition pp_b : Z := 324961103199815848934878711.
Definition pp_c : Z := 424949134953605340914841391.
Definition pseudo : Z := pp_a * (pp_b * pp_c).

Lemma half_symbol p a k n e : prime p -> 2 < p -> n - 1 = (p - 1) * k -> 1 <= k -> k mod 2 = 1 -> jacobi a p = Ok e -> e = 1 \/ e = -1 -> (p | a ^ ((n - 1) / 2) - e).
Proof.
  intros P G E K O Je He. assert (p mod 2 = 1) as Ho by (apply odd_p; assumption). pose proof (half_eq p Ho) as Hh. rewrite jacobi_ok in Je by (lia || exact Ho). injection Je as Js. unfold symbol in Js. destruct (Z.eqb_spec (Z.gcd a p) 1) as [Ga|Ga]; [|lia].
  assert (~ (p | a)) as N. { intro D. assert ((p | 1)) as W; [|apply Z.divide_1_r in W; lia]. rewrite <- Ga. apply Z.gcd_greatest; [exact D|apply Z.divide_refl]. }
  pose proof (gauss_lemma p P G a N) as L. rewrite Js in L.
  assert ((n - 1) / 2 = half p * k) as -> by (rewrite E; replace ((p - 1) * k) with (half p * k * 2) by (replace (p - 1) with (2 * half p) by lia; ring); apply Z.div_mul; lia).
  rewrite Z.pow_mul_r by lia. apply mod_eq_divide in L; [|lia]. apply mod_eq_divide; [lia|]. rewrite <- pow_mod_l, L, pow_mod_l. f_equal. destruct He as [-> | ->]; [apply Z.pow_1_l; lia|]. rewrite pow_sign by lia. rewrite O. reflexivity.
Qed.
Lemma strong_product p q r n a e kp kq kr : prime p -> prime q -> prime r -> 2 < p -> p < q -> q < r -> n = p * (q * r) -> n mod 4 = 3 ->
  n - 1 = (p - 1) * kp -> n - 1 = (q - 1) * kq -> n - 1 = (r - 1) * kr -> kp mod 2 = 1 -> kq mod 2 = 1 -> kr mod 2 = 1 ->
  jacobi a p = Ok e -> jacobi a q = Ok e -> jacobi a r = Ok e -> e = 1 \/ e = -1 -> strong_pp n a.
Proof.
  intros P Q R G1 G2 G3 En M Ep Eq Er Op Oq Or Jp Jq Jr He.
  assert (1 <= kp /\ 1 <= kq /\ 1 <= kr) as (K1 & K2 & K3) by (assert (0 < n - 1) as N0 by (rewrite En; assert (1 < q * r) by (clear - G1 G2 G3; nia); clear - H G1; nia); repeat split; [clear - Ep N0 G1|clear - Eq N0 G1 G2|clear - Er N0 G1 G2 G3]; nia).
  assert ((n | a ^ ((n - 1) / 2) - e)) as D.
  { rewrite En at 1. replace (p * (q * r)) with (zprod [p; q; r]) by (cbn; lia). apply coprime_prod_divides.
    - repeat (apply NoDup_cons; [cbn; lia|]). apply NoDup_nil.
    - repeat (apply Forall_cons; [assumption|]). apply Forall_nil.
    - intros z [<-|[<-|[<-|[]]]]; [apply (half_symbol p a kp n e)|apply (half_symbol q a kq n e)|apply (half_symbol r a kr n e)]; (assumption || lia). }
  pose proof (Z.div_mod n 4 ltac:(lia)) as D4. assert ((n - 1) / 2 = 2 * (n / 4) + 1) as Hr by (symmetry; apply Z.div_unique with 0; lia).
  assert (1 < n) as N1 by nia. exists 1, ((n - 1) / 2). split; [lia|]. split; [rewrite Hr; lia|]. split; [rewrite Hr, Z.add_comm, Z.mul_comm, Z_mod_plus_full; reflexivity|].
  destruct D as [c C]. destruct He as [-> | ->].
  - left. symmetry. apply Z.mod_unique with c; lia.
  - right. exists 0. split; [lia|]. rewrite Z.pow_0_r, Z.mul_1_l. symmetry. apply Z.mod_unique with (c - 1); lia.
Qed.
Lemma pseudo_strong a : In a [2; 3; 5; 7; 11; 13; 17; 19; 23; 29; 31; 37] -> strong_pp pseudo a.
Proof.
  intro I.
  assert (exists e, jacobi a pp_a = Ok e /\ jacobi a pp_b = Ok e /\ jacobi a pp_c = Ok e /\ (e = 1 \/ e = -1)) as (e & E1 & E2 & E3 & E4).
  { assert (forallb (fun a => match jacobi a pp_a, jacobi a pp_b, jacobi a pp_c with Ok e, Ok f, Ok g => (e =? f) && (f =? g) && ((e =? 1) || (e =? -1)) | _, _, _ => false end) [2; 3; 5; 7; 11; 13; 17; 19; 23; 29; 31; 37] = true) as H by (vm_compute; reflexivity).
    rewrite forallb_forall in H. specialize (H a I). destruct (jacobi a pp_a) as [e|]; [|discriminate]. destruct (jacobi a pp_b) as [f|]; [|discriminate]. destruct (jacobi a pp_c) as [g|]; [|discriminate].
    exists e. assert (f = e) as -> by lia. assert (g = e) as -> by lia. repeat split; lia. }
  apply (strong_product pp_a pp_b pp_c pseudo a e ((pseudo - 1) / (pp_a - 1)) ((pseudo - 1) / (pp_b - 1)) ((pseudo - 1) / (pp_c - 1)));
    [exact pp_7|exact pp_11|exact pp_12|unfold pp_a; lia|unfold pp_a, pp_b; lia|unfold pp_b, pp_c; lia|reflexivity|vm_compute; reflexivity|vm_compute; reflexivity|vm_compute; reflexivity|vm_compute; reflexivity|vm_compute; reflexivity|vm_compute; reflexivity|vm_compute; reflexivity|exact E1|exact E2|exact E3|exact E4].
Qed.
Lemma pseudo_composite : ~ prime pseudo.
Proof.
  intro P. assert ((pp_a | pseudo)) as D by (unfold pseudo; apply Z.divide_factor_l). apply prime_divisors in D; [|exact P]. revert D. unfold pseudo, pp_a, pp_b, pp_c. lia.
Qed.
Lemma pseudo_gcd : Z.gcd pseudo 2310 = 1.
Proof. vm_compute. reflexivity. Qed.
Lemma pseudo_big : 1229 < pseudo.
Proof. vm_compute. reflexivity. Qed.
Lemma pseudo_bits : Z.log2 pseudo = 260.
Proof. vm_compute. reflexivity. Qed.
