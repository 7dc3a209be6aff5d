(** Carmichael's function. *)
From Coq Require Import ZArith Znumtheory Zpow_facts List Lia Bool Sorted.
From Verif Require Import PyBase PyLoop NtModel NtProofs ZpTheory Recip NtSqrt PrimeModel PrimeProofs FactorProofs OrderProofs TotientProofs.
Import ListNotations.
Open Scope list_scope.
Open Scope Z_scope.

(** ** Geometric sums *)
Fixpoint gsum (x : Z) (n : nat) : Z := match n with O => 0 | S k => gsum x k + x ^ Z.of_nat k end.
Lemma geo x n : x ^ Z.of_nat n - 1 = (x - 1) * gsum x n.
Proof. induction n as [|n IH]; [cbn; lia|]. rewrite Nat2Z.inj_succ, Z.pow_succ_r by lia. cbn [gsum]. nia. Qed.
Lemma gsum_mod d x n : (d | x - 1) -> (d | gsum x n - Z.of_nat n).
Proof.
  intro D. induction n as [|n IH]; [apply Z.divide_0_r|]. cbn [gsum]. replace (gsum x n + x ^ Z.of_nat n - Z.of_nat (S n)) with (gsum x n - Z.of_nat n + (x ^ Z.of_nat n - 1)) by lia.
  apply Z.divide_add_r; [exact IH|]. rewrite geo. now apply Z.divide_mul_l.
Qed.
Fixpoint ggsum (x : Z) (n : nat) : Z := match n with O => 0 | S k => ggsum x k + gsum x k end.
Lemma gsum_2 x n : gsum x n = Z.of_nat n + (x - 1) * ggsum x n.
Proof. induction n as [|n IH]; [cbn; lia|]. cbn [gsum ggsum]. pose proof (geo x n). lia. Qed.
Lemma ggsum_mod d x n : (d | x - 1) -> (d | 2 * ggsum x n - Z.of_nat n * (Z.of_nat n - 1)).
Proof.
  intro D. induction n as [|n IH]; [apply Z.divide_0_r|]. cbn [ggsum].
  replace (2 * (ggsum x n + gsum x n) - Z.of_nat (S n) * (Z.of_nat (S n) - 1)) with (2 * ggsum x n - Z.of_nat n * (Z.of_nat n - 1) + 2 * (gsum x n - Z.of_nat n)) by lia.
  apply Z.divide_add_r; [exact IH|]. apply Z.divide_mul_r. now apply gsum_mod.
Qed.

Lemma divide_mul2 a b c d : (a | b) -> (c | d) -> (a * c | b * d).
Proof. intros [u ->] [v ->]. exists (u * v). ring. Qed.

(** ** Exact powers *)
Definition exact_pow (p k z : Z) : Prop := (p ^ k | z) /\ ~ (p ^ (k + 1) | z).
Section P.
  Variable p : Z.
  Hypothesis Hp : prime p.
  Let p2 : 2 <= p := prime_ge_2 _ Hp.
  Lemma pp_pos k : 0 <= k -> 0 < p ^ k.
  Proof. intro. apply Z.pow_pos_nonneg; lia. Qed.
  Lemma ndiv_coprime w : ~ (p | w) <-> rel_prime p w.
  Proof. split; [now apply prime_rel_prime|]. intros [_ _ R] D. specialize (R p (Z.divide_refl p) D). apply Z.divide_1_r in R. lia. Qed.
  Lemma ppow_gauss k z w : 0 <= k -> ~ (p | w) -> (p ^ k | z * w) -> (p ^ k | z).
  Proof.
    intros Hk N D. apply Z.gauss with w; [now rewrite Z.mul_comm|]. apply Zgcd_1_rel_prime. apply rel_prime_sym. apply rel_prime_Zpower_r; [exact Hk|]. apply rel_prime_sym. now apply ndiv_coprime.
  Qed.
  Lemma exact_mul k z w : 0 <= k -> exact_pow p k z -> ~ (p | w) -> exact_pow p k (z * w).
  Proof. intros Hk [A B] N. split; [now apply Z.divide_mul_l|]. intro D. apply B. apply ppow_gauss with w; [lia|exact N|exact D]. Qed.
  Lemma exact_mul_p k z : 0 <= k -> exact_pow p k z -> exact_pow p (k + 1) (z * p).
  Proof.
    intros Hk [A B]. unfold exact_pow. rewrite !Z.pow_add_r, Z.pow_1_r by lia. rewrite Z.pow_add_r, Z.pow_1_r in B by lia. split; [now apply Z.mul_divide_mono_r|]. intro D. apply B. apply Z.mul_divide_cancel_r in D; [exact D|lia].
  Qed.
  (** Below, k is at least 1, and at least 2 when p is 2. *)
  Definition deep (k : Z) : Prop := 1 <= k /\ (p = 2 -> 2 <= k).
  Lemma gsum_p x k : deep k -> (p ^ k | x - 1) -> exists w, gsum x (Z.to_nat p) = p * w /\ ~ (p | w).
  Proof.
    intros [K1 K2] D. assert ((p | x - 1)) as Dp. { apply Z.divide_trans with (p ^ k); [|exact D]. exists (p ^ (k - 1)). rewrite Z.mul_comm, <- Z.pow_succ_r by lia. f_equal. lia. }
    rewrite gsum_2, Z2Nat.id by lia. destruct (Z.eq_dec p 2) as [E|N].
    - assert ((4 | x - 1)) as [c C]. { apply Z.divide_trans with (p ^ k); [|exact D]. exists (2 ^ (k - 2)). rewrite E. replace k with (k - 2 + 2) at 1 by lia. rewrite Z.pow_add_r by lia. reflexivity. }
      rewrite E. change (Z.to_nat 2) with 2%nat. cbn [ggsum gsum]. rewrite C. exists (1 + 2 * c). split; [change (x ^ Z.of_nat 0) with 1; lia|]. intros [w W]. lia.
    - pose proof (ggsum_mod p x (Z.to_nat p) Dp) as G. rewrite Z2Nat.id in G by lia. assert ((p | 2 * ggsum x (Z.to_nat p))) as G2.
      { replace (2 * ggsum x (Z.to_nat p)) with (2 * ggsum x (Z.to_nat p) - p * (p - 1) + p * (p - 1)) by lia. apply Z.divide_add_r; [exact G|apply Z.divide_factor_l]. }
      apply prime_mult in G2; [|exact Hp]. destruct G2 as [G2|[c C]]; [apply Z.divide_pos_le in G2; lia|]. destruct Dp as [b B]. exists (1 + p * (b * c)). split; [rewrite B, C; ring|].
      intro W. assert ((p | 1)) as W1; [|apply Z.divide_1_r in W1; lia]. replace 1 with (1 + p * (b * c) - p * (b * c)) by ring. apply Z.divide_sub_r; [exact W|apply Z.divide_factor_l].
  Qed.
  Lemma exact_lift x k : deep k -> exact_pow p k (x - 1) -> exact_pow p (k + 1) (x ^ p - 1).
  Proof.
    intros K E. pose proof (geo x (Z.to_nat p)) as G. rewrite Z2Nat.id in G by lia. rewrite G. destruct (gsum_p x k K (proj1 E)) as (w & -> & N). rewrite Z.mul_assoc. destruct K. apply exact_mul; [lia| |exact N]. now apply exact_mul_p; [lia|].
  Qed.
  Lemma exact_unit x k u : 1 <= k -> exact_pow p k (x - 1) -> 0 <= u -> ~ (p | u) -> exact_pow p k (x ^ u - 1).
  Proof.
    intros K E Hu N. pose proof (geo x (Z.to_nat u)) as G. rewrite Z2Nat.id in G by lia. rewrite G. apply exact_mul; [lia|exact E|]. intro D.
    assert ((p | x - 1)) as Dp. { apply Z.divide_trans with (p ^ k); [|exact (proj1 E)]. exists (p ^ (k - 1)). rewrite Z.mul_comm, <- Z.pow_succ_r by lia. f_equal. lia. }
    pose proof (gsum_mod p x (Z.to_nat u) Dp) as G2. rewrite Z2Nat.id in G2 by lia. apply N. replace u with (gsum x (Z.to_nat u) - (gsum x (Z.to_nat u) - u)) by lia. now apply Z.divide_sub_r.
  Qed.
  (** If x is 1 modulo p^k exactly, the exponents with x^t = 1 modulo p^a are multiples of p^(a-k). *)
  Lemma exact_order : forall n x k a t, (Z.to_nat t < n)%nat -> deep k -> exact_pow p k (x - 1) -> k <= a -> 1 <= t -> (p ^ a | x ^ t - 1) -> (p ^ (a - k) | t).
  Proof.
    induction n as [|n IH]; intros x k a t L K E A T D; [lia|]. pose proof K as [K1 K2]. destruct (Z.eq_dec a k) as [->|N]; [rewrite Z.sub_diag, Z.pow_0_r; apply Z.divide_1_l|].
    destruct (Zdivide_dec p t) as [[u U]|P].
    - assert (1 <= u) as U1 by nia. rewrite U in D. rewrite Z.mul_comm, Z.pow_mul_r in D by lia.
      assert ((p ^ (a - (k + 1)) | u)) as W by (apply (IH (x ^ p) (k + 1) a u); [nia|split; [lia|intro; lia]|now apply exact_lift|lia|exact U1|exact D]).
      replace (a - k) with (Z.succ (a - (k + 1))) by lia. rewrite Z.pow_succ_r by lia. rewrite U, Z.mul_comm. now apply Z.mul_divide_mono_r.
    - exfalso. destruct (exact_unit x k t K1 E ltac:(lia) P) as [_ B]. apply B. apply Z.divide_trans with (p ^ a); [|exact D]. exists (p ^ (a - (k + 1))). rewrite <- Z.pow_add_r by lia. f_equal. lia.
  Qed.
  (** Raising to the p lifts from p^k to p^(k+1). *)
  Lemma lift x k : 1 <= k -> (p ^ k | x - 1) -> (p ^ (k + 1) | x ^ p - 1).
  Proof.
    intros K D. pose proof (geo x (Z.to_nat p)) as G. rewrite Z2Nat.id in G by lia. rewrite G. rewrite Z.pow_add_r, Z.pow_1_r by lia. apply divide_mul2; [exact D|].
    assert ((p | x - 1)) as Dp. { apply Z.divide_trans with (p ^ k); [|exact D]. exists (p ^ (k - 1)). rewrite Z.mul_comm, <- Z.pow_succ_r by lia. f_equal. lia. }
    pose proof (gsum_mod p x (Z.to_nat p) Dp) as G2. rewrite Z2Nat.id in G2 by lia. replace (gsum x (Z.to_nat p)) with (gsum x (Z.to_nat p) - p + p) by lia. apply Z.divide_add_r; [exact G2|apply Z.divide_refl].
  Qed.
  Lemma lift_pow x k j : 1 <= k -> (p ^ k | x - 1) -> 0 <= j -> (p ^ (k + j) | x ^ (p ^ j) - 1).
  Proof.
    intros K D Hj. pattern j. apply natlike_ind; [|clear j Hj|exact Hj].
    - now rewrite Z.add_0_r, Z.pow_0_r, Z.pow_1_r.
    - intros j Hj IH. rewrite (Z.pow_succ_r p j) by lia. rewrite Z.mul_comm, Z.pow_mul_r by (try apply Z.pow_nonneg; lia). replace (k + Z.succ j) with (k + j + 1) by lia. apply lift; [lia|exact IH].
  Qed.
  Lemma euler_ppow x e : 1 <= e -> ~ (p | x) -> (p ^ e | x ^ ((p - 1) * p ^ (e - 1)) - 1).
  Proof.
    intros He N. rewrite Z.pow_mul_r by (try apply Z.pow_nonneg; lia). replace e with (1 + (e - 1)) at 1 by lia. apply lift_pow; [lia| |lia]. rewrite Z.pow_1_r. apply mod_eq_divide; [lia|]. rewrite (fermat p Hp x N). symmetry. apply Z.mod_1_l. lia.
  Qed.
  Lemma unit_exponent t : 1 <= t -> (forall x, ~ (p | x) -> (p | x ^ t - 1)) -> (p - 1 | t).
  Proof.
    intros T H. destruct (Z.eq_dec p 2) as [->|N2]; [apply Z.divide_1_l|]. set (d := Z.gcd t (p - 1)). assert (1 <= d) as D1. { pose proof (Z.gcd_nonneg t (p - 1)). assert (d <> 0) by (intro W; apply Z.gcd_eq_0_l in W; lia). subst d. lia. }
    assert (forall x, ~ (p | x) -> (p | x ^ d - 1)) as Hd.
    { intros x Nx. destruct (Z.gcd_bezout t (p - 1) d eq_refl) as (u & v & B).
      assert (exists U V, 0 <= U /\ 0 <= V /\ t * U = d + (p - 1) * V) as (U & V & HU & HV & HB).
      { pose (c := Z.abs u + Z.abs v). exists (u + c * (p - 1)), (c * t - v). split; [subst c; nia|]. split; [subst c; nia|]. rewrite <- B. ring. }
      apply mod_eq_divide; [lia|]. rewrite (Z.mod_1_l p) by lia.
      assert (x ^ (t * U) mod p = 1) as E1. { rewrite Z.pow_mul_r by lia. rewrite <- pow_mod_l. specialize (H x Nx). apply mod_eq_divide in H; [|lia]. rewrite H, (Z.mod_1_l p), Z.pow_1_l by lia. apply Z.mod_1_l. lia. }
      rewrite HB, Z.pow_add_r in E1 by nia. rewrite Zmult_mod, (Z.pow_mul_r x (p - 1)) in E1 by lia. rewrite <- (pow_mod_l (x ^ (p - 1))), (fermat p Hp x Nx), Z.pow_1_l, (Z.mod_1_l p), Z.mul_1_r, Zmod_mod in E1 by lia. exact E1. }
    assert (Z.to_nat (p - 1) < Z.to_nat d + 1)%nat as B.
    { pose proof (root_bound p Hp (zrange (p - 1)) (-1 :: repeat 0 (Z.to_nat d - 1) ++ [1])) as B. rewrite last_pow, zrange_length in B. cbn [List.length] in B. rewrite app_length, repeat_length in B. cbn [List.length] in B.
      replace (Z.to_nat d + 1)%nat with (S (Z.to_nat d - 1 + 1)) by lia. apply B; [intro D; apply Z.divide_pos_le in D; lia|apply zrange_nodup|].
      intros x I. apply in_zrange in I. split; [lia|]. cbn [peval]. rewrite peval_pow. replace (-1 + x * x ^ Z.of_nat (Z.to_nat d - 1)) with (x ^ d - 1).
      - apply Hd. intro D. apply Z.divide_pos_le in D; lia.
      - replace d with (Z.succ (Z.of_nat (Z.to_nat d - 1))) at 1 by lia. rewrite Z.pow_succ_r by lia. lia. }
    pose proof (Z.gcd_divide_r t (p - 1)) as R. fold d in R. apply Z.divide_pos_le in R; [|lia]. replace (p - 1) with d by lia. apply Z.gcd_divide_l.
  Qed.
  (** ** A prime power *)
  Lemma two_ppow x e : p = 2 -> 3 <= e -> ~ (p | x) -> (p ^ e | x ^ (2 ^ (e - 2)) - 1).
  Proof.
    intros E He N. assert (2 ^ (e - 2) = 2 * p ^ (e - 3)) as -> by (rewrite E, <- Z.pow_succ_r by lia; f_equal; lia). rewrite Z.pow_mul_r by (try apply Z.pow_nonneg; lia). replace e with (3 + (e - 3)) at 1 by lia. apply lift_pow; [lia| |lia].
    rewrite E in *. change (2 ^ 3) with 8. assert (exists k, x = 2 * k + 1) as [k ->]. { destruct (Z.Even_or_Odd x) as [[k ->]|[k ->]]; [elim N; apply Z.divide_factor_l|now exists k]. }
    replace ((2 * k + 1) ^ 2 - 1) with (4 * (k * (k + 1))) by ring. destruct (Z.Even_or_Odd k) as [[j ->]|[j ->]]; [exists (j * (2 * j + 1)); ring|exists ((2 * j + 1) * (j + 1)); ring].
  Qed.
  Lemma ppower_pos e : 1 <= e -> 0 < carmichael_of_ppower (p, e).
  Proof.
    intro He. unfold carmichael_of_ppower. destruct ((p =? 2) && (2 <? e)) eqn:C; [apply Z.pow_pos_nonneg; lia|]. assert (0 < p ^ (e - 1)) by (apply Z.pow_pos_nonneg; lia). nia.
  Qed.
  Lemma ppower_universal e x : 1 <= e -> ~ (p | x) -> (p ^ e | x ^ carmichael_of_ppower (p, e) - 1).
  Proof.
    intros He N. unfold carmichael_of_ppower. destruct ((p =? 2) && (2 <? e)) eqn:C; [apply two_ppow; (lia || exact N)|now apply euler_ppow].
  Qed.
  Lemma ppower_minimal e t : 1 <= e -> 1 <= t -> (forall x, ~ (p | x) -> (p ^ e | x ^ t - 1)) -> (carmichael_of_ppower (p, e) | t).
  Proof.
    intros He T H. assert (forall z, (p ^ e | z) -> (p | z)) as Dp. { intros z D. apply Z.divide_trans with (p ^ e); [|exact D]. exists (p ^ (e - 1)). rewrite Z.mul_comm, <- Z.pow_succ_r by lia. f_equal. lia. }
    unfold carmichael_of_ppower. destruct (Z.eqb_spec p 2) as [E|N]; cbn [andb].
    - destruct (Z.ltb_spec 2 e) as [L|L].
      + replace (2 ^ (e - 2)) with (p ^ (e - 2)) by (now rewrite E). apply (exact_order (S (Z.to_nat t)) 5 2 e t); [lia|split; lia| |lia|exact T|apply H; rewrite E; intros [w W]; lia].
        rewrite E. split; [exists 1; reflexivity|]. intros [w W]. change (2 ^ (2 + 1)) with 8 in W. lia.
      + rewrite E. replace (2 - 1) with 1 by lia. rewrite Z.mul_1_l. assert (e = 1 \/ e = 2) as [->| ->] by lia; [apply Z.divide_1_l|]. change (2 ^ (2 - 1)) with 2.
        destruct (Z.Even_or_Odd t) as [[k ->]|[k K]]; [apply Z.divide_factor_l|exfalso]. specialize (H 3 ltac:(rewrite E; intros [w W]; lia)). rewrite E in H. change (2 ^ 2) with 4 in H.
        rewrite K, Z.pow_add_r, Z.pow_mul_r, Z.pow_1_r in H by lia. change (3 ^ 2) with 9 in H.
        assert ((4 | 9 ^ k - 1)) as H9. { pose proof (geo 9 (Z.to_nat k)) as G. rewrite Z2Nat.id in G by lia. rewrite G. apply Z.divide_mul_l. now exists 2. }
        destruct H as [a A]. destruct H9 as [b B]. lia.
    - assert ((p - 1 | t)) as D1 by (apply unit_exponent; [exact T|]; intros x Nx; apply Dp; now apply H).
      assert ((p ^ (e - 1) | t)) as D2.
      { apply (exact_order (S (Z.to_nat t)) (1 + p) 1 e t); [lia|split; lia| |lia|exact T|apply H].
        - replace (1 + p - 1) with p by lia. split; [rewrite Z.pow_1_r; apply Z.divide_refl|]. intro D. change (1 + 1) with 2 in D. rewrite Z.pow_2_r in D. apply Z.divide_pos_le in D; nia.
        - intro D. assert ((p | 1)) as W; [|apply Z.divide_1_r in W; lia]. replace 1 with (1 + p - p) by lia. apply Z.divide_sub_r; [exact D|apply Z.divide_refl]. }
      destruct D2 as [c C]. rewrite C in D1. rewrite C. apply Z.mul_divide_mono_r. apply Z.gauss with (p ^ (e - 1)); [now rewrite Z.mul_comm|]. apply Zgcd_1_rel_prime. apply rel_prime_Zpower_r; [lia|]. apply rel_prime_sym. apply ndiv_coprime. intro D. apply Z.divide_pos_le in D; lia.
  Qed.
End P.

(** ** A product of prime powers *)
Lemma carmichael_loop_ok l : Forall (fun f => 0 < carmichael_of_ppower f) l -> forall r, 0 < r ->
  exists v, carmichael_loop r l = Ok v /\ 0 < v /\ (r | v) /\ (forall f, In f l -> (carmichael_of_ppower f | v)) /\ (forall t, (r | t) -> (forall f, In f l -> (carmichael_of_ppower f | t)) -> (v | t)).
Proof.
  induction 1 as [|f l F Fl IH]; intros r R.
  - exists r. split; [reflexivity|]. split; [exact R|]. split; [apply Z.divide_refl|]. split; [intros f []|tauto].
  - cbn [carmichael_loop lcm reduce]. destruct (lcm2_is_lcm r (carmichael_of_ppower f) ltac:(lia) ltac:(lia)) as (v0 & -> & _ & A & B & C & P). cbn [bind]. destruct (IH v0 (P R F)) as (v & E & V & D1 & D2 & D3). exists v. split; [exact E|]. split; [exact V|].
    split; [now apply Z.divide_trans with v0|]. split; [intros g [<-|I]; [now apply Z.divide_trans with v0|now apply D2]|]. intros t Rt Ft. apply D3; [apply C; [exact Rt|apply Ft; now left]|]. intros g I. apply Ft. now right.
Qed.
Lemma carmichael_factorized_ok l : Forall (fun f => 0 < carmichael_of_ppower f) l ->
  exists v, carmichael_of_factorized l = Ok v /\ 0 < v /\ (forall f, In f l -> (carmichael_of_ppower f | v)) /\ (forall t, (forall f, In f l -> (carmichael_of_ppower f | t)) -> (v | t)).
Proof.
  intro F. destruct F as [|f l F Fl].
  - exists 1. split; [reflexivity|]. split; [lia|]. split; [intros f []|]. intros t _. apply Z.divide_1_l.
  - cbn [carmichael_of_factorized]. destruct (carmichael_loop_ok l Fl _ F) as (v & E & V & D1 & D2 & D3). exists v. split; [exact E|]. split; [exact V|]. split; [intros g [<-|I]; [exact D1|now apply D2]|].
    intros t H. apply D3; [apply H; now left|]. intros g I. apply H. now right.
Qed.
Lemma ppow_ndiv p e m : prime p -> 0 <= e -> ~ (p | m) -> rel_prime (p ^ e) m.
Proof. intros P He N. apply rel_prime_sym. apply rel_prime_Zpower_r; [exact He|]. apply rel_prime_sym. now apply prime_rel_prime. Qed.
Lemma fprod_divides l z : factorised l -> (forall p e, In (p, e) l -> (p ^ e | z)) -> (fprod l | z).
Proof.
  revert z. induction l as [|[p e] l IH]; intros z F H; [apply Z.divide_1_l|]. destruct (factorised_cons p e l F) as (F' & P & E & Po & D). cbn [fprod fold_right fst snd]. fold (fprod l).
  destruct (IH z F' (fun q k I => H q k (or_intror I))) as [c C]. rewrite C. apply Z.mul_divide_mono_r. apply Z.gauss with (fprod l); [rewrite Z.mul_comm, <- C; apply H; now left|]. apply Zgcd_1_rel_prime. apply ppow_ndiv; [exact P|lia|exact D].
Qed.
Lemma fprod_split l p e : factorised l -> In (p, e) l -> exists m, fprod l = p ^ e * m /\ 1 <= m /\ ~ (p | m).
Proof.
  intros F I. apply in_split in I. destruct I as (l1 & l2 & ->). exists (fprod (l1 ++ l2)). split; [rewrite !fprod_app; cbn [fprod fold_right fst snd]; fold (fprod l2); ring|].
  destruct F as (S & E & P). apply Forall_app in E, P. destruct E as [E1 E2], P as [P1 P2]. inversion_clear E2 as [|? ? E3 E4]. inversion_clear P2 as [|? ? P3 P4].
  assert (Forall (fun f => prime (fst f)) (l1 ++ l2)) as P5 by (apply Forall_app; now split). assert (Forall (fun f => 1 <= snd f) (l1 ++ l2)) as E5 by (apply Forall_app; now split).
  split; [now apply fprod_pos|]. intro D. apply prime_fprod in D; [|exact P3|exact P5|exact E5].
  assert (NoDup (map fst (l1 ++ (p, e) :: l2))) as ND.
  { clear - S. remember (map fst (l1 ++ (p, e) :: l2)) as L eqn:K. clear K. induction S as [|x L S IH Fx]; [constructor|]. constructor; [|exact IH]. intro I. rewrite Forall_forall in Fx. specialize (Fx x I). lia. }
  rewrite map_app in ND. cbn [map fst] in ND. apply NoDup_remove_2 in ND. apply ND. now rewrite <- map_app.
Qed.
Lemma carmichael_correct l : factorised l -> exists v, carmichael_of_factorized l = Ok v /\ 0 < v /\
  (forall x, Z.gcd x (fprod l) = 1 -> (fprod l | x ^ v - 1)) /\ (forall t, 1 <= t -> (forall x, Z.gcd x (fprod l) = 1 -> (fprod l | x ^ t - 1)) -> (v | t)).
Proof.
  intro F. pose proof F as (S & E & P). rewrite Forall_forall in E, P.
  destruct (carmichael_factorized_ok l) as (v & -> & V & A & B). { apply Forall_forall. intros [p e] I. apply ppower_pos; [exact (P _ I)|exact (E _ I)]. }
  exists v. split; [reflexivity|]. split; [exact V|]. split.
  - intros x G. apply fprod_divides; [exact F|]. intros p e I. destruct (fprod_split l p e F I) as (m & Em & M1 & Nm).
    assert (~ (p | x)) as Nx. { intro D. pose proof (prime_ge_2 _ (P _ I)) as P2. cbn [fst] in P2. assert ((p | 1)) as W; [|apply Z.divide_1_r in W; lia]. rewrite <- G. apply Z.gcd_greatest; [exact D|]. rewrite Em. apply Z.divide_mul_l. pose proof (E _ I) as E1. cbn [snd] in E1. exists (p ^ (e - 1)). rewrite Z.mul_comm, <- Z.pow_succ_r by lia. f_equal. lia. }
    destruct (A _ I) as [c C]. pose proof (ppower_pos p (P _ I) e (E _ I)) as L0. assert (0 <= c) as C0 by nia. rewrite C, Z.mul_comm, Z.pow_mul_r by lia.
    apply Z.divide_trans with (x ^ carmichael_of_ppower (p, e) - 1); [apply ppower_universal; [exact (P _ I)|exact (E _ I)|exact Nx]|]. pose proof (geo (x ^ carmichael_of_ppower (p, e)) (Z.to_nat c)) as G2. rewrite Z2Nat.id in G2 by lia. rewrite G2. apply Z.divide_factor_l.
  - intros t T H. apply B. intros [p e] I. pose proof (P _ I) as Pp. pose proof (E _ I) as Ee. cbn [fst snd] in Pp, Ee. apply ppower_minimal; [exact Pp|exact Ee|exact T|]. intros y Ny.
    destruct (fprod_split l p e F I) as (m & Em & M1 & Nm). pose proof (ppow_ndiv p e m Pp ltac:(lia) Nm) as CP. apply rel_prime_bezout in CP. destruct CP as [u w Bz].
    pose (x := y * w * m + u * p ^ e).
    assert (forall q, (q | p ^ e) -> (q | x - y)) as X1. { intros q Q. replace (x - y) with ((u - y * u) * p ^ e) by (subst x; transitivity (y * (w * m) + u * p ^ e - y); [replace (w * m) with (1 - u * p ^ e) by lia; ring|ring]). now apply Z.divide_mul_r. }
    assert (Z.gcd x (fprod l) = 1) as G.
    { apply Zgcd_1_rel_prime. rewrite Em. apply rel_prime_mult.
      - apply rel_prime_Zpower_r; [lia|]. apply rel_prime_sym. apply prime_rel_prime; [exact Pp|]. intro D. apply Ny. replace y with (x - (x - y)) by lia. apply Z.divide_sub_r; [exact D|]. apply X1. exists (p ^ (e - 1)). rewrite Z.mul_comm, <- Z.pow_succ_r by lia. f_equal. lia.
      - apply bezout_rel_prime. apply Bezout_intro with 1 (w - y * w). subst x. transitivity (u * p ^ e + w * m); [ring|exact Bz]. }
    specialize (H x G). rewrite Em in H. assert ((p ^ e | x ^ t - 1)) as H1 by (apply Z.divide_trans with (p ^ e * m); [apply Z.divide_factor_l|exact H]).
    assert (0 < p ^ e) as PP by (apply Z.pow_pos_nonneg; [apply prime_ge_2 in Pp|]; lia).
    apply mod_eq_divide in H1; [|lia]. apply mod_eq_divide; [lia|]. rewrite <- H1. rewrite <- (pow_mod_l y), <- (pow_mod_l x). f_equal. f_equal. symmetry. apply mod_eq_divide; [lia|]. apply X1. apply Z.divide_refl.
Qed.
