(** numbertheory.jacobi computes the symbol of Recip.v, and
    square_root_mod_prime square roots. *)
From Coq Require Import ZArith Znumtheory Zpow_facts List Lia Bool.
From Verif Require Import PyBase PyLoop NtModel NtProofs ZpTheory Recip.
Import ListNotations.
Open Scope Z_scope.

Definition symbol (a n : Z) : Z := if Z.gcd a n =? 1 then J a n else 0.
Lemma odd_loop a : 0 < a -> exists a1 e, ploop odd_step (Z.to_pos (a + 1)) (a, 0) = inr (a1, e) /\ a = 2 ^ e * a1 /\ a1 mod 2 = 1 /\ 1 <= a1 <= a /\ 0 <= e.
Proof.
  intro Ha. destruct (ploop_rule odd_step (fun s => a = 2 ^ snd s * fst s /\ 1 <= fst s <= a /\ 0 <= snd s) (fun s => a = 2 ^ snd s * fst s /\ fst s mod 2 = 1 /\ 1 <= fst s <= a /\ 0 <= snd s) fst) with (n := Z.to_pos (a + 1)) (a := (a, 0)) as ([a1 e] & E & H).
  - intros [b e] (H1 & H2 & H3). cbn [fst snd] in *. unfold odd_step. destruct (Z.eqb_spec (b mod 2) 0) as [E|E].
    + pose proof (Z_div_mod_eq_full b 2) as D. rewrite E in D. cbn [fst snd]. split; [|lia]. split; [rewrite Z.pow_add_r by lia; change (2 ^ 1) with 2; rewrite H1 at 1; rewrite D at 1; ring|]. lia.
    + cbn [fst snd]. pose proof (Z.mod_pos_bound b 2 ltac:(lia)). repeat split; try assumption; lia.
  - cbn [fst snd]. rewrite Z.pow_0_r. lia.
  - cbn [fst]. rewrite Z2Pos.id by lia. lia.
  - exists a1, e. split; [exact E|]. cbn [fst snd] in H. tauto.
Qed.
Lemma gcd_pow2 e n : 0 <= e -> n mod 2 = 1 -> Z.gcd (2 ^ e) n = 1.
Proof.
  intros He Hn. apply Zgcd_1_rel_prime. apply rel_prime_sym. apply rel_prime_Zpower_r; [exact He|]. apply rel_prime_sym. apply prime_rel_prime; [exact prime_2|]. intro D. apply Zdivide_mod in D. lia.
Qed.
Lemma gcd_odd e a n : 0 <= e -> n mod 2 = 1 -> Z.gcd (2 ^ e * a) n = Z.gcd a n.
Proof.
  intros He Hn. pose proof (gcd_pow2 e n He Hn) as G. rewrite Z.gcd_comm, (Z.gcd_comm a). apply Z.gcd_unique.
  - apply Z.gcd_nonneg.
  - apply Z.gcd_divide_l.
  - apply Z.divide_mul_r. apply Z.gcd_divide_r.
  - intros q Q1 Q2. apply Z.gcd_greatest; [exact Q1|]. apply Gauss with (2 ^ e); [exact Q2|]. apply Zgcd_1_rel_prime. apply Zgcd_1_rel_prime. apply rel_prime_div with n; [|exact Q1].
    apply rel_prime_sym. now apply Zgcd_1_rel_prime.
Qed.
Lemma symbol_mod a n : 0 < n -> symbol (a mod n) n = symbol a n.
Proof.
  intro Hn. unfold symbol. rewrite Z.gcd_mod by lia. rewrite Z.gcd_comm. destruct (Z.gcd a n =? 1); [|reflexivity]. apply J_mod. apply Zmod_mod.
Qed.
Lemma symbol_cases a n : symbol a n = 0 \/ symbol a n = 1 \/ symbol a n = -1.
Proof. unfold symbol. destruct (Z.gcd a n =? 1); [|now left]. right. apply J_cases. Qed.
Lemma sgn_quarter m n : m mod 2 = 1 -> n mod 2 = 1 -> sgn (half m * half n) = if (n mod 4 =? 3) && (m mod 4 =? 3) then -1 else 1.
Proof.
  intros Mo No. pose proof (half_eq m Mo) as Em. pose proof (half_eq n No) as En. unfold sgn. rewrite Z.even_mul.
  assert (forall k, k mod 2 = 1 -> k = 2 * half k + 1 -> (k mod 4 =? 3) = negb (Z.even (half k))) as Q.
  { intros k _ Ek. rewrite Zeven_mod. pose proof (Z_div_mod_eq_full (half k) 2) as D. pose proof (Z.mod_pos_bound (half k) 2 ltac:(lia)) as B.
    assert (k mod 4 = 2 * (half k mod 2) + 1) as -> by (symmetry; apply (Z.mod_unique _ _ (half k / 2)); lia).
    assert (half k mod 2 = 0 \/ half k mod 2 = 1) as [->| ->] by lia; reflexivity. }
  rewrite (Q m Mo Em), (Q n No En). now destruct (Z.even (half m)), (Z.even (half n)).
Qed.
Lemma pow_sign e : 0 <= e -> (-1) ^ e = if e mod 2 =? 0 then 1 else -1.
Proof.
  intro He. pose proof (Z_div_mod_eq_full e 2) as D. pose proof (Z.mod_pos_bound e 2 ltac:(lia)). pose proof (Z.div_pos e 2 He ltac:(lia)). rewrite D at 1. rewrite Z.pow_add_r, Z.pow_mul_r by lia. change ((-1) ^ 2) with 1. rewrite Z.pow_1_l by lia.
  assert (e mod 2 = 0 \/ e mod 2 = 1) as [->| ->] by lia; reflexivity.
Qed.
(** One call of jacobi either answers or recurs. *)
Lemma jacobi_step k a n : 3 <= n -> n mod 2 = 1 ->
  jacobi_rec (S k) a n = Ok (symbol a n) \/
  exists a1 s, 3 <= a1 /\ a1 mod 2 = 1 /\ a1 <= a mod n /\ symbol a n = s * symbol (n mod a1) a1 /\
    jacobi_rec (S k) a n = (let! j := jacobi_rec k (n mod a1) a1 in Ok (s * j)).
Proof.
  intros Hn Ho. rewrite <- (symbol_mod a n) by lia. cbn [jacobi_rec]. destruct (Z.leb_spec 3 n) as [_|]; [|lia]. cbn [negb]. rewrite Ho. cbn [Z.eqb negb Pos.eqb]. cbv zeta.
  pose proof (Z.mod_pos_bound a n ltac:(lia)) as Ha. set (b := a mod n) in *. clearbody b. destruct (Z.eqb_spec b 0) as [->|N0].
  { left. unfold symbol. rewrite Z.gcd_0_l, Z.abs_eq by lia. destruct (Z.eqb_spec n 1); [lia|reflexivity]. }
  destruct (Z.eqb_spec b 1) as [->|N1].
  { left. unfold symbol. rewrite Z.gcd_1_l. cbn. f_equal. symmetry. apply J_1; [lia|exact Ho]. }
  destruct (odd_loop b ltac:(lia)) as (a1 & e & -> & Eb & Ao & Ra & He). assert (0 < n) as Hn0 by lia.
  assert (J (2 ^ e) n = if (e mod 2 =? 0) || (n mod 8 =? 1) || (n mod 8 =? 7) then 1 else -1) as J2.
  { rewrite (J_pow n Hn0 Ho) by (first [exact He|exact (gcd_pow2 1 n ltac:(lia) Ho)]). rewrite (J_2 n Hn0 Ho). destruct ((n mod 8 =? 1) || (n mod 8 =? 7)) eqn:E8.
    - rewrite Z.pow_1_l by exact He. rewrite <- orb_assoc, E8. now rewrite orb_true_r.
    - rewrite pow_sign by exact He. rewrite <- orb_assoc, E8. now rewrite orb_false_r. }
  set (s := if (e mod 2 =? 0) || (n mod 8 =? 1) || (n mod 8 =? 7) then 1 else -1) in *. destruct (Z.eqb_spec a1 1) as [->|N].
  - left. unfold symbol. rewrite Eb, gcd_odd, Z.gcd_1_l by assumption. rewrite Z.eqb_refl, Z.mul_1_r, J2. reflexivity.
  - right. assert (3 <= a1) as H3. { destruct (Z.eq_dec a1 2) as [->|]; [discriminate|lia]. }
    exists a1, (if (n mod 4 =? 3) && (a1 mod 4 =? 3) then - s else s). split; [exact H3|]. split; [exact Ao|]. split; [lia|]. split; [|reflexivity].
    rewrite symbol_mod by lia. unfold symbol. rewrite Eb, gcd_odd by assumption. rewrite (Z.gcd_comm n a1). destruct (Z.eqb_spec (Z.gcd a1 n) 1) as [G|G]; [|lia].
    rewrite (J_mul n Hn0 Ho) by (first [exact G|exact (gcd_pow2 e n He Ho)]). rewrite J2.
    pose proof (reciprocity a1 n ltac:(lia) Hn0 Ao Ho G) as R. rewrite sgn_quarter in R by assumption.
    destruct (J_cases a1 n) as [X|X], (J_cases n a1) as [Y|Y]; rewrite X, Y in *; destruct ((n mod 4 =? 3) && (a1 mod 4 =? 3)); try discriminate; lia.
Qed.
Lemma jacobi_rec_ok k : forall fuel a n, (2 * k <= fuel)%nat -> 3 <= n -> n mod 2 = 1 -> n < 2 ^ Z.of_nat k -> jacobi_rec fuel a n = Ok (symbol a n).
Proof.
  induction k as [|k IH]; intros fuel a n Hf Hn Ho Hk; [change (2 ^ Z.of_nat 0) with 1 in Hk; lia|].
  destruct fuel as [|[|fuel]]; [lia|lia|].
  destruct (jacobi_step (S fuel) a n Hn Ho) as [E|(a1 & s & H1 & O1 & L1 & S1 & E)]; [exact E|]. rewrite E, S1.
  pose proof (Z.mod_pos_bound a n ltac:(lia)) as Ba.
  destruct (jacobi_step fuel (n mod a1) a1 H1 O1) as [E'|(a2 & s' & H2 & O2 & L2 & S2 & E')]; [now rewrite E'|]. rewrite E', S2.
  rewrite IH; [reflexivity|lia|exact H2|exact O2|]. rewrite Nat2Z.inj_succ, Z.pow_succ_r in Hk by lia. rewrite Zmod_mod in L2.
  pose proof (Z_div_mod_eq_full n a1) as D. pose proof (Z.mod_pos_bound n a1 ltac:(lia)). assert (1 <= n / a1) by (apply Z.div_le_lower_bound; lia). nia.
Qed.
Theorem jacobi_ok a n : 3 <= n -> n mod 2 = 1 -> jacobi a n = Ok (symbol a n).
Proof.
  intros Hn Ho. unfold jacobi. pose proof (Z.log2_nonneg n). apply (jacobi_rec_ok (Z.to_nat (Z.log2 n + 1))); [lia|exact Hn|exact Ho|].
  rewrite Z2Nat.id by lia. apply Z.log2_spec. lia.
Qed.
Theorem jacobi_fails a n : n < 3 \/ n mod 2 = 0 -> jacobi a n = Raise AssertionError.
Proof.
  intro H. unfold jacobi. destruct (Z.to_nat (2 * Z.log2 n + 4)) as [|k] eqn:E; [pose proof (Z.log2_nonneg n); lia|]. cbn [jacobi_rec]. destruct (Z.leb_spec 3 n); [|reflexivity]. destruct H as [H|H]; [lia|]. now rewrite H.
Qed.

(** ** The meaning of the symbol *)
Lemma symbol_mul_r a m n : 0 < m -> 0 < n -> m mod 2 = 1 -> n mod 2 = 1 -> symbol a (m * n) = symbol a m * symbol a n.
Proof.
  intros Hm Hn Mo No. unfold symbol.
  assert (Z.gcd a (m * n) = 1 <-> Z.gcd a m = 1 /\ Z.gcd a n = 1) as E.
  { split; [|intros []; now apply gcd_mul_1]. intro G. split; apply Zgcd_1_rel_prime; apply Zgcd_1_rel_prime in G; apply rel_prime_sym; apply rel_prime_div with (m * n); try (apply rel_prime_sym; exact G); [apply Z.divide_factor_l|apply Z.divide_factor_r]. }
  destruct (Z.eqb_spec (Z.gcd a m) 1) as [G1|G1], (Z.eqb_spec (Z.gcd a n) 1) as [G2|G2], (Z.eqb_spec (Z.gcd a (m * n)) 1) as [G3|G3]; try tauto; try lia.
  now apply J_mul_r.
Qed.
(** The Legendre symbol as a relation. *)
Inductive legendre (a p : Z) : Z -> Prop :=
| leg_zero : (p | a) -> legendre a p 0
| leg_square x : ~ (p | a) -> (p | x * x - a) -> legendre a p 1
| leg_none : ~ (p | a) -> (forall x, ~ (p | x * x - a)) -> legendre a p (-1).
Theorem symbol_legendre a p : prime p -> 2 < p -> legendre a p (symbol a p).
Proof.
  intros Hp H2. unfold symbol. destruct (Z.eqb_spec (Z.gcd a p) 1) as [G|G].
  - assert (~ (p | a)) as N. { intro D. rewrite Z.gcd_comm in G. apply Z.divide_gcd_iff in D; [|lia]. lia. }
    pose proof (J_legendre p Hp H2 a N) as L. destruct (J_cases p a) as [E|E]; rewrite E in *.
    + destruct (proj1 L eq_refl) as (x & D). now apply leg_square with x.
    + apply leg_none; [exact N|]. intros x D. assert (-1 = 1) as X by (apply L; now exists x). discriminate.
  - apply leg_zero. destruct (Zdivide_dec p a) as [D|D]; [exact D|]. elim G. now apply gcd_p.
Qed.
Lemma legendre_fun a p v w : legendre a p v -> legendre a p w -> v = w.
Proof. intros [D|x N D|N D] [D'|y N' D'|N' D']; try reflexivity; try tauto; exfalso; first [exact (D' _ D)|exact (D _ D')]. Qed.
