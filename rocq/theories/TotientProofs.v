(** Euler's totient and Carmichael's function. *)
From Coq Require Import ZArith Znumtheory Zpow_facts List Lia Bool Sorted.
From Verif Require Import PyBase PyLoop NtModel NtProofs ZpTheory Recip NtSqrt PrimeModel PrimeProofs FactorProofs OrderProofs.
Import ListNotations.
Open Scope list_scope.
Open Scope Z_scope.

(** How many of the numbers 1..n are coprime to n. *)
Definition totient (n : Z) : Z := Z.of_nat (List.length (filter (fun k => Z.gcd k n =? 1) (zrange n))).

(** ** Counting *)
Fixpoint cnt (f : Z -> bool) (n : nat) : Z := match n with O => 0 | S k => cnt f k + if f (Z.of_nat n) then 1 else 0 end.
Lemma cnt_filter f n : Z.of_nat (List.length (filter f (map Z.of_nat (seq 1 n)))) = cnt f n.
Proof.
  induction n as [|n IH]; [reflexivity|]. rewrite seq_S, map_app, filter_app, app_length, Nat2Z.inj_add, IH. cbn [cnt map filter Nat.add]. destruct (f (Z.of_nat (S n))); reflexivity.
Qed.
Lemma cnt_ext f g n : (forall k, 1 <= k <= Z.of_nat n -> f k = g k) -> cnt f n = cnt g n.
Proof. induction n as [|n IH]; intro H; [reflexivity|]. cbn [cnt]. rewrite IH by (intros; apply H; lia). rewrite H by lia. reflexivity. Qed.
Lemma cnt_add f n m : cnt f (n + m) = cnt f n + cnt (fun k => f (Z.of_nat n + k)) m.
Proof.
  induction m as [|m IH]; [rewrite Nat.add_0_r; cbn; lia|]. rewrite Nat.add_succ_r. cbn [cnt]. rewrite IH. replace (Z.of_nat (S (n + m))) with (Z.of_nat n + Z.of_nat (S m)) by lia. lia.
Qed.
Lemma cnt_split f g n : cnt f n = cnt (fun k => f k && g k) n + cnt (fun k => f k && negb (g k)) n.
Proof. induction n as [|n IH]; [reflexivity|]. cbn [cnt]. rewrite IH. destruct (f (Z.of_nat (S n))), (g (Z.of_nat (S n))); cbn; lia. Qed.
Lemma cnt_periodic f m a : (forall k, f (k + Z.of_nat m) = f k) -> cnt f (a * m) = Z.of_nat a * cnt f m.
Proof.
  intro H. assert (forall a k, f (Z.of_nat (a * m) + k) = f k) as A.
  { clear a. induction a as [|a IH]; intro k; [reflexivity|]. transitivity (f (Z.of_nat (a * m) + k + Z.of_nat m)); [f_equal; lia|]. rewrite H. apply IH. }
  induction a as [|a IH]; [reflexivity|]. cbn [Nat.mul]. rewrite Nat.add_comm, cnt_add, IH. rewrite (cnt_ext (fun k => f (Z.of_nat (a * m) + k)) f) by (intros; apply A). lia.
Qed.
Lemma cnt_none f n : (forall k, 1 <= k <= Z.of_nat n -> f k = false) -> cnt f n = 0.
Proof. induction n as [|n IH]; intro H; [reflexivity|]. cbn [cnt]. rewrite IH by (intros; apply H; lia). rewrite H by lia. reflexivity. Qed.
Lemma cnt_multiples f p m : (0 < p)%nat -> cnt (fun k => f k && (k mod Z.of_nat p =? 0)) (m * p) = cnt (fun j => f (Z.of_nat p * j)) m.
Proof.
  intro Hp. induction m as [|m IH]; [reflexivity|]. cbn [Nat.mul]. rewrite Nat.add_comm, cnt_add, IH. cbn [cnt]. f_equal.
  destruct p as [|p]; [lia|]. cbn [cnt]. rewrite cnt_none.
  - replace (Z.of_nat (m * S p) + Z.of_nat (S p)) with (Z.of_nat (S p) * Z.of_nat (S m)) by lia. rewrite Z.mul_comm, Z_mod_mult, andb_true_r. rewrite Z.mul_comm. reflexivity.
  - intros k Hk. replace (Z.of_nat (m * S p) + k) with (k + Z.of_nat m * Z.of_nat (S p)) by lia. rewrite Z_mod_plus_full, Z.mod_small by lia. replace (k =? 0) with false by lia. apply andb_false_r.
Qed.
Lemma totient_cnt n : 0 <= n -> totient n = cnt (fun k => Z.gcd k n =? 1) (Z.to_nat n).
Proof. intro H. unfold totient, zrange. apply cnt_filter. Qed.

(** ** The totient of a product *)
Lemma coprime_mul a b c : rel_prime a c -> rel_prime b c -> rel_prime (a * b) c.
Proof. intros A B. apply rel_prime_sym. apply rel_prime_mult; now apply rel_prime_sym. Qed.
Lemma gcd_mul_1 k p m : prime p -> (Z.gcd k (p * m) =? 1) = (Z.gcd k m =? 1) && negb (k mod p =? 0).
Proof.
  intro P. pose proof (prime_ge_2 _ P) as P2. apply eq_true_iff_eq. rewrite andb_true_iff, negb_true_iff, !Z.eqb_eq, Z.eqb_neq, !Zgcd_1_rel_prime. split.
  - intro R. split; [apply rel_prime_sym; apply rel_prime_div with (p * m); [now apply rel_prime_sym|apply Z.divide_factor_r]|]. intro M. apply Z.mod_divide in M; [|lia].
    destruct R as [_ _ R]. specialize (R p M ltac:(apply Z.divide_factor_l)). apply Z.divide_1_r in R. lia.
  - intros [R M]. apply rel_prime_sym. apply coprime_mul; [|now apply rel_prime_sym]. apply prime_rel_prime; [exact P|]. intro D. apply M. apply Z.mod_divide; [lia|exact D].
Qed.
Lemma gcd_periodic k m : (Z.gcd (k + m) m =? 1) = (Z.gcd k m =? 1).
Proof. rewrite (Z.gcd_comm (k + m)), Z.add_comm. replace (m + k) with (k + 1 * m) by lia. rewrite Z.gcd_add_mult_diag_r. now rewrite Z.gcd_comm. Qed.
Lemma totient_mul p m : prime p -> 1 <= m -> totient (p * m) = if m mod p =? 0 then p * totient m else (p - 1) * totient m.
Proof.
  intros P Hm. pose proof (prime_ge_2 _ P) as P2. rewrite !totient_cnt by nia. rewrite (cnt_ext _ (fun k => (Z.gcd k m =? 1) && negb (k mod p =? 0))) by (intros; now apply gcd_mul_1).
  set (f := fun k => Z.gcd k m =? 1). set (P' := Z.to_nat p). set (M' := Z.to_nat m). replace (Z.to_nat (p * m)) with (P' * M')%nat by (subst P' M'; rewrite Z2Nat.inj_mul; lia).
  assert (cnt f (P' * M') = p * cnt f M') as T by (rewrite cnt_periodic by (intro k; subst f M'; cbv beta; rewrite Z2Nat.id by lia; apply gcd_periodic); subst P'; rewrite Z2Nat.id; lia).
  assert (cnt (fun k => f k && (k mod p =? 0)) (P' * M') = cnt (fun j => f (p * j)) M') as Mu.
  { pose proof (cnt_multiples f P' M' ltac:(subst P'; lia)) as W. rewrite Nat.mul_comm in W. subst P'. rewrite Z2Nat.id in W by lia. exact W. }
  pose proof (cnt_split f (fun k => k mod p =? 0) (P' * M')) as Sp. rewrite T, Mu in Sp. match goal with |- cnt ?g _ = _ => change g with (fun k => f k && negb (k mod p =? 0)) end. destruct (Z.eqb_spec (m mod p) 0) as [D|D].
  - apply Z.mod_divide in D; [|lia]. assert (cnt (fun j => f (p * j)) M' = 0) as Z0; [|lia]. apply cnt_none. intros k Hk. subst f. cbv beta. apply Z.eqb_neq. intro G.
    assert ((p | 1)) as W; [|apply Z.divide_1_r in W; lia]. rewrite <- G. apply Z.gcd_greatest; [apply Z.divide_factor_l|exact D].
  - assert (cnt (fun j => f (p * j)) M' = cnt f M') as Z0; [|lia]. apply cnt_ext. intros k Hk. subst f. cbv beta. apply eq_true_iff_eq. rewrite !Z.eqb_eq, !Zgcd_1_rel_prime. split; intro R.
    + apply rel_prime_div with (p * k); [exact R|apply Z.divide_factor_r].
    + apply coprime_mul; [|exact R]. apply prime_rel_prime; [exact P|]. intro W. apply D. apply Z.mod_divide; [lia|exact W].
Qed.
Lemma totient_ppow p e m : prime p -> 1 <= e -> 1 <= m -> ~ (p | m) -> totient (p ^ e * m) = p ^ (e - 1) * (p - 1) * totient m.
Proof.
  intros P He Hm D. pose proof (prime_ge_2 _ P) as P2. replace e with (Z.succ (e - 1)) at 1 by lia. assert (0 <= e - 1) as H0 by lia. revert H0. generalize (e - 1) as k. clear e He. intros k H0. pattern k. apply natlike_ind; [|clear k H0|exact H0].
  - change (Z.succ 0) with 1. rewrite Z.pow_1_r, Z.pow_0_r, totient_mul by assumption. destruct (Z.eqb_spec (m mod p) 0) as [W|_]; [apply Z.mod_divide in W; [contradiction|lia]|ring].
  - intros k Hk IH. rewrite (Z.pow_succ_r p (Z.succ k)) by lia. rewrite <- Z.mul_assoc, totient_mul; [|exact P|assert (0 < p ^ Z.succ k) by (apply Z.pow_pos_nonneg; lia); nia].
    rewrite IH. rewrite (Z.pow_succ_r p k) by lia. replace (p * p ^ k * m) with (p ^ k * m * p) by ring. rewrite Z_mod_mult. cbn [Z.eqb]. ring.
Qed.
(** ** Lists of prime powers *)
Definition factorised (l : list (Z * Z)) : Prop := StronglySorted Z.lt (map fst l) /\ Forall (fun f => 1 <= snd f) l /\ Forall (fun f => prime (fst f)) l.
Lemma fprod_pos l : Forall (fun f => prime (fst f)) l -> Forall (fun f => 1 <= snd f) l -> 1 <= fprod l.
Proof.
  induction l as [|[p e] l IH]; intros P E; [cbn; lia|]. inversion_clear P as [|? ? P1 P2]. inversion_clear E as [|? ? E1 E2]. cbn [fprod fold_right fst snd] in *. fold (fprod l). specialize (IH P2 E2).
  apply prime_ge_2 in P1. assert (0 < p ^ e) by (apply Z.pow_pos_nonneg; lia). nia.
Qed.
Lemma prime_fprod q l : prime q -> Forall (fun f => prime (fst f)) l -> Forall (fun f => 1 <= snd f) l -> (q | fprod l) -> In q (map fst l).
Proof.
  intro Q. induction l as [|[p e] l IH]; intros P E D.
  - cbn in D. apply Z.divide_1_r in D. apply prime_ge_2 in Q. lia.
  - inversion_clear P as [|? ? P1 P2]. inversion_clear E as [|? ? E1 E2]. cbn [fprod fold_right fst snd map] in *. fold (fprod l) in D. apply prime_mult in D; [|exact Q]. destruct D as [D|D]; [left|right; now apply IH].
    apply prime_power_prime in D; [now symmetry|lia|exact Q|exact P1].
Qed.
Lemma factorised_cons p e l : factorised ((p, e) :: l) -> factorised l /\ prime p /\ 1 <= e /\ 1 <= fprod l /\ ~ (p | fprod l).
Proof.
  intros (S & E & P). cbn [map fst] in S. inversion_clear S as [|? ? S1 S2]. inversion_clear P as [|? ? P1 P2]. inversion_clear E as [|? ? E1 E2]. cbn [fst snd] in *. split; [repeat split; assumption|].
  split; [exact P1|]. split; [exact E1|]. split; [now apply fprod_pos|]. intro D. apply prime_fprod in D; [|assumption..]. rewrite Forall_forall in S2. specialize (S2 p D). lia.
Qed.
Definition phi_list (l : list (Z * Z)) : Z := fold_right (fun f acc => fst f ^ (snd f - 1) * (fst f - 1) * acc) 1 l.
Lemma totient_list l : factorised l -> totient (fprod l) = phi_list l.
Proof.
  induction l as [|[p e] l IH]; intro F; [reflexivity|]. destruct (factorised_cons p e l F) as (F' & P & E & Po & D). cbn [fprod phi_list fold_right fst snd]. fold (fprod l) (phi_list l). rewrite totient_ppow by assumption. now rewrite IH.
Qed.
Lemma phi_fold l : Forall (fun f => 1 <= snd f) l -> forall r, fold_left (fun (result : Z) (f : Z * Z) => let (p, e) := f in if 1 <? e then result * p ^ (e - 1) * (p - 1) else result * (p - 1)) l r = r * phi_list l.
Proof.
  induction l as [|[p e] l IH]; intros E r; [cbn; lia|]. inversion_clear E as [|? ? E1 E2]. cbn [fold_left phi_list fold_right fst snd] in *. fold (phi_list l). rewrite IH by exact E2. destruct (Z.ltb_spec 1 e) as [L|L]; [ring|].
  replace (e - 1) with 0 by lia. rewrite Z.pow_0_r. ring.
Qed.
