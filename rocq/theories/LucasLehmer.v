(** The test of Lucas and Lehmer for the primality of 2^e - 1, with the proof
    that the numbers that pass are prime.  Nothing here models /repo. *)
From Coq Require Import ZArith Znumtheory List Lia Bool.
From Verif Require Import ZpTheory DigArith.
Import ListNotations.
Open Scope Z_scope.

(** ** a + b sqrt 3, as pairs *)
Definition pr : Type := Z * Z.
Definition prm (x y : pr) : pr := (fst x * fst y + 3 * snd x * snd y, fst x * snd y + snd x * fst y).
Fixpoint prw (x : pr) (n : nat) : pr := match n with O => (1, 0) | S n => prm x (prw x n) end.
Lemma prm_assoc x y z : prm x (prm y z) = prm (prm x y) z.
Proof. destruct x, y, z. unfold prm. cbn [fst snd]. f_equal; ring. Qed.
Lemma prm_1 x : prm (1, 0) x = x.
Proof. destruct x as [a b]. unfold prm. cbn [fst snd]. f_equal; ring. Qed.
Lemma prw_add x m n : prw x (m + n) = prm (prw x m) (prw x n).
Proof. induction m as [|m IH]; cbn [prw Nat.add]; [now rewrite prm_1|]. now rewrite IH, prm_assoc. Qed.
Lemma prw_mul x m n : prw x (m * n) = prw (prw x m) n.
Proof. induction n as [|n IH]; [now rewrite Nat.mul_0_r|]. rewrite Nat.mul_succ_r, Nat.add_comm, prw_add, IH. reflexivity. Qed.

(** ** The same modulo q *)
Section Mod.
  Variable q : Z.
  Hypothesis Hq : 2 < q.
  Definition cong (x y : pr) : Prop := (q | fst x - fst y) /\ (q | snd x - snd y).
  Lemma cong_refl x : cong x x.
  Proof. split; rewrite Z.sub_diag; apply Z.divide_0_r. Qed.
  Lemma cong_sym x y : cong x y -> cong y x.
  Proof. intros [[u H] [v K]]. split; [exists (- u)|exists (- v)]; lia. Qed.
  Lemma cong_trans x y z : cong x y -> cong y z -> cong x z.
  Proof. intros [[u H] [v K]] [[s M] [t N]]. split; [exists (u + s)|exists (v + t)]; lia. Qed.
  Lemma cong_mul x x' y y' : cong x x' -> cong y y' -> cong (prm x y) (prm x' y').
  Proof.
    destruct x as [a b], x' as [a' b'], y as [c d], y' as [c' d']. unfold cong, prm. cbn [fst snd]. intros [[u H] [v K]] [[s M] [t N]].
    assert (a = a' + u * q) as -> by lia. assert (b = b' + v * q) as -> by lia. assert (c = c' + s * q) as -> by lia. assert (d = d' + t * q) as -> by lia.
    split; [exists (a' * s + u * c' + u * s * q + 3 * (b' * t + v * d' + v * t * q))|exists (a' * t + u * d' + u * t * q + b' * s + v * c' + v * s * q)]; ring.
  Qed.
  Lemma cong_pow x y n : cong x y -> cong (prw x n) (prw y n).
  Proof. intro H. induction n as [|n IH]; cbn [prw]; [apply cong_refl|now apply cong_mul]. Qed.
  Lemma pow_1 n : prw (1, 0) n = (1, 0).
  Proof. induction n as [|n IH]; [reflexivity|]. cbn [prw]. now rewrite IH. Qed.
  Lemma pow_m1 n : Nat.odd n = true -> prw (-1, 0) n = (-1, 0).
  Proof.
    intro O. apply Nat.odd_spec in O. destruct O as [m ->]. rewrite prw_add, prw_mul. change (prw (-1, 0) 2) with (1, 0). now rewrite pow_1.
  Qed.
  Definition w : pr := (2, 1).
  Definition w' : pr := (2, -1).
  Lemma w_inv n : prm (prw w' n) (prw w n) = (1, 0).
  Proof.
    induction n as [|n IH]; [reflexivity|]. assert (prw w (S n) = prm (prw w n) w) as -> by (rewrite <- (Nat.add_1_r n), prw_add; reflexivity). cbn [prw].
    rewrite <- prm_assoc, (prm_assoc (prw w' n)), IH, prm_1. reflexivity.
  Qed.
  (** Numbers as a power of two times an odd number. *)
  Lemma odd_part n : (0 < n)%nat -> exists t o, n = (2 ^ t * o)%nat /\ Nat.odd o = true.
  Proof.
    induction n as [n IH] using lt_wf_ind. intro H. destruct (Nat.odd n) eqn:O; [exists 0%nat, n; split; [cbn; lia|exact O]|].
    rewrite <- Nat.negb_even, negb_false_iff in O. apply Nat.even_spec in O. destruct O as [m E]. destruct (IH m) as (t & o & Em & Ho); [lia|lia|].
    exists (S t), o. split; [|exact Ho]. rewrite Nat.pow_succ_r'. lia.
  Qed.
  Section Order.
    Variable e : nat.
    Hypothesis He : cong (prw w (2 ^ e)) (-1, 0).
    Lemma no_period d : (0 < d < 2 ^ S e)%nat -> ~ cong (prw w d) (1, 0).
    Proof.
      intros H K. destruct (odd_part d) as (t & o & E & O); [lia|]. assert (t <= e)%nat as T.
      { destruct (Nat.le_gt_cases t e) as [L|L]; [exact L|]. exfalso. assert (2 ^ S e <= 2 ^ t)%nat by (apply Nat.pow_le_mono_r; lia). assert (1 <= o)%nat by (destruct o; [discriminate|lia]). nia. }
      assert (cong (prw w (d * 2 ^ (e - t))) (1, 0)) as K1. { rewrite prw_mul, <- (pow_1 (2 ^ (e - t))). now apply cong_pow. }
      assert (d * 2 ^ (e - t) = 2 ^ e * o)%nat as E1. { rewrite E. replace e with (t + (e - t))%nat at 2 by lia. rewrite Nat.pow_add_r. lia. }
      rewrite E1, prw_mul in K1. assert (cong (prw (prw w (2 ^ e)) o) (-1, 0)) as K2. { apply cong_trans with (prw (-1, 0) o); [now apply cong_pow|]. rewrite (pow_m1 o O). apply cong_refl. }
      destruct (cong_trans _ _ _ (cong_sym _ _ K1) K2) as [[u U] _]. cbn [fst] in U. assert ((q | 2)) as D by (exists u; lia). apply Z.divide_pos_le in D; lia.
    Qed.
    Definition res (i : nat) : pr := (fst (prw w i) mod q, snd (prw w i) mod q).
    Lemma res_cong i j : res i = res j -> cong (prw w i) (prw w j).
    Proof. unfold res. intro H. split; apply mod_eq_divide; try lia; congruence. Qed.
    Lemma res_inj i j : (i < j < 2 ^ S e)%nat -> res i <> res j.
    Proof.
      intros H E. apply res_cong in E. apply (no_period (j - i)); [lia|]. replace j with (i + (j - i))%nat in E by lia. rewrite prw_add in E.
      apply (cong_mul (prw w' i) (prw w' i)) in E; [|apply cong_refl]. rewrite prm_assoc, !w_inv, prm_1 in E. now apply cong_sym.
    Qed.
    Lemma res_nodup n : forall a, (a + n <= 2 ^ S e)%nat -> NoDup (map res (seq a n)).
    Proof.
      induction n as [|n IH]; intros a H; cbn [seq map]; constructor; [|apply IH; lia]. intro I. apply in_map_iff in I. destruct I as (j & E & I). apply in_seq in I. apply (res_inj a j); [lia|now symmetry].
    Qed.
    Lemma order_bound : 2 ^ Z.of_nat (S e) <= q * q.
    Proof.
      set (r := map Z.of_nat (seq 0 (Z.to_nat q))). assert (length (map res (seq 0 (2 ^ S e))) <= length (list_prod r r))%nat as L.
      { apply NoDup_incl_length; [apply res_nodup; lia|]. intros x I. apply in_map_iff in I. destruct I as (i & <- & _). unfold res.
        assert (forall z, In (z mod q) r) as K. { intro z. unfold r. apply in_map_iff. exists (Z.to_nat (z mod q)). pose proof (Z.mod_pos_bound z q ltac:(lia)). split; [lia|]. apply in_seq. lia. }
        apply in_prod; apply K. }
      rewrite prod_length in L. unfold r in L. rewrite !map_length, !seq_length in L. apply Nat2Z.inj_le in L. rewrite Nat2Z.inj_pow, Nat2Z.inj_mul, Z2Nat.id in L by lia. exact L.
    Qed.
  End Order.
End Mod.

(** ** The sequence 4, 14, 194, ... *)
Definition tw (i : nat) : Z := 2 * fst (prw w (2 ^ i)).
Lemma norm n : fst (prw w n) * fst (prw w n) - 3 * (snd (prw w n) * snd (prw w n)) = 1.
Proof.
  induction n as [|n IH]; [reflexivity|]. cbn [prw]. destruct (prw w n) as [a b]. unfold prm, w. cbn [fst snd] in *. lia.
Qed.
Lemma tw_S i : tw (S i) = tw i * tw i - 2.
Proof.
  unfold tw. rewrite Nat.pow_succ_r'. replace (2 * 2 ^ i)%nat with (2 ^ i + 2 ^ i)%nat by lia. rewrite prw_add. pose proof (norm (2 ^ i)) as N. destruct (prw w (2 ^ i)) as [a b]. unfold prm. cbn [fst snd] in *. lia.
Qed.
Lemma half_turn q i : 2 < q -> prime q -> (q | tw i) -> cong q (prw w (2 ^ S i)) (-1, 0).
Proof.
  intros H P D. assert ((q | fst (prw w (2 ^ i)))) as F.
  { unfold tw in D. apply prime_mult in D; [|exact P]. destruct D as [D|D]; [apply Z.divide_pos_le in D; lia|exact D]. }
  rewrite Nat.pow_succ_r'. replace (2 * 2 ^ i)%nat with (2 ^ i + 2 ^ i)%nat by lia. rewrite prw_add. pose proof (norm (2 ^ i)) as N. destruct (prw w (2 ^ i)) as [a b]. unfold prm, cong in *. cbn [fst snd] in *.
  destruct F as [k ->]. split; [exists (2 * k * k * q)|exists (2 * k * b)]; lia.
Qed.
Lemma small_factor n : 2 <= n -> ~ prime n -> exists q, prime q /\ (q | n) /\ q * q <= n.
Proof.
  intros H. pattern n. apply Zlt_lower_bound_ind with (z := 2); [|exact H]. clear. intros n IH H N.
  destruct (not_prime_divide n) as (d & D1 & D2); [lia|exact N|].
  assert (exists d, 1 < d < n /\ (d | n) /\ d * d <= n) as (m & M1 & M2 & M3).
  { destruct (Z_le_gt_dec (d * d) n) as [L|L]; [now exists d|]. destruct D2 as [k K]. exists k. split; [nia|]. split; [exists d; lia|nia]. }
  destruct (prime_dec m) as [P|P]; [now exists m|]. destruct (IH m) as (q & Q1 & Q2 & Q3); [lia|exact P|]. exists q. split; [exact Q1|]. split; [now apply Z.divide_trans with m|]. nia.
Qed.
(** M = 2^e - 1 is prime if it divides term e - 2. *)
Theorem lucas_lehmer e : (2 ^ Z.of_nat (S (S e)) - 1 | tw e) -> prime (2 ^ Z.of_nat (S (S e)) - 1).
Proof.
  intro D. set (M := 2 ^ Z.of_nat (S (S e)) - 1) in *. assert (2 <= M) as HM. { unfold M. rewrite !Nat2Z.inj_succ, !Z.pow_succ_r by lia. pose proof (Z.pow_pos_nonneg 2 (Z.of_nat e) ltac:(lia) ltac:(lia)). lia. }
  destruct (prime_dec M) as [P|P]; [exact P|]. exfalso. destruct (small_factor M HM P) as (q & Q1 & Q2 & Q3). assert (2 < q) as H2.
  { pose proof (prime_ge_2 q Q1). assert (q <> 2); [|lia]. intros ->. destruct Q2 as [k K]. unfold M in K. rewrite Nat2Z.inj_succ, Z.pow_succ_r in K by lia. lia. }
  pose proof (half_turn q e H2 Q1 (Z.divide_trans _ _ _ Q2 D)) as T. pose proof (order_bound q H2 (S e) T) as B. unfold M in Q3. lia.
Qed.

(** ** The computation, on digits *)
Fixpoint ll (mul : num -> num -> num) (m2 : num) (k : nat) (x : num) : num :=
  match k with O => x | S k => ll mul m2 k (addl (mul x x) m2) end.
Lemma ll_ok n mul m2 : mul_ok n 1 mul -> (n | ev m2 + 2) -> forall k i x, (n | ev x - tw i) -> (n | ev (ll mul m2 k x) - tw (i + k)).
Proof.
  intros [_ M] [t T]. induction k as [|k IH]; intros i x H; [now rewrite Nat.add_0_r|]. cbn [ll]. rewrite Nat.add_succ_r, <- Nat.add_succ_l. apply IH. rewrite addl_ok.
  destruct (M x x) as [u U]. destruct H as [v V]. rewrite tw_S. exists (u + t + v * (ev x + tw i)). assert (tw i = ev x - v * n) as E by lia. rewrite E. nia.
Qed.
Theorem ll_prime mul m2 e : mul_ok (2 ^ Z.of_nat (S (S e)) - 1) 1 mul -> (ev m2 + 2) mod (2 ^ Z.of_nat (S (S e)) - 1) = 0 -> ev (ll mul m2 e (NC x4 NE)) mod (2 ^ Z.of_nat (S (S e)) - 1) = 0 ->
  prime (2 ^ Z.of_nat (S (S e)) - 1).
Proof.
  intros M H K. apply lucas_lehmer. set (n := 2 ^ Z.of_nat (S (S e)) - 1) in *. assert (n <> 0) as N. { unfold n. rewrite !Nat2Z.inj_succ, !Z.pow_succ_r by lia. pose proof (Z.pow_pos_nonneg 2 (Z.of_nat e) ltac:(lia) ltac:(lia)). lia. }
  apply Zmod_divide in H, K; try exact N. pose proof (ll_ok n mul m2 M H e 0 (NC x4 NE)) as L. destruct L as [u U]; [exists 0; reflexivity|]. destruct K as [v V]. exists (v - u). cbn [Nat.add] in U. lia.
Qed.
