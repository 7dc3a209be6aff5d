(** Elementary number theory used by the proofs about the curve code:
    Fermat's theorem, the field of integers modulo a prime, Pocklington's
    primality criterion.  Nothing here models /repo. *)
From Coq Require Import ZArith Znumtheory Zpow_facts List Lia Bool Permutation Field Eqdep_dec.
Import ListNotations.
Open Scope Z_scope.

(** ** Ranges and products *)
Definition zrange (n : Z) : list Z := map Z.of_nat (seq 1 (Z.to_nat n)).
Lemma in_zrange n x : In x (zrange n) <-> 1 <= x <= n.
Proof.
  unfold zrange. rewrite in_map_iff. split.
  - intros (k & <- & H). apply in_seq in H. lia.
  - intro H. exists (Z.to_nat x). split; [lia|]. apply in_seq. lia.
Qed.
Lemma zrange_nodup n : NoDup (zrange n).
Proof. unfold zrange. apply FinFun.Injective_map_NoDup; [intros a b; lia|apply seq_NoDup]. Qed.
Lemma zrange_length n : List.length (zrange n) = Z.to_nat n.
Proof. unfold zrange. now rewrite map_length, seq_length. Qed.
Definition zprod (l : list Z) : Z := fold_right Z.mul 1 l.
Lemma zprod_perm l l' : Permutation l l' -> zprod l = zprod l'.
Proof. unfold zprod. induction 1 as [|x l l1 H IH|x y l|l1 l2 l3 H1 I1 H2 I2]; cbn; [reflexivity|now rewrite IH|ring|congruence]. Qed.
Lemma zprod_map_mul a l : zprod (map (fun x => a * x) l) = a ^ Z.of_nat (List.length l) * zprod l.
Proof. induction l as [|x l IH]; [reflexivity|]. cbn [map zprod fold_right List.length]. fold (zprod l). fold (zprod (map (fun x => a * x) l)). rewrite IH, Nat2Z.inj_succ, Z.pow_succ_r by lia. ring. Qed.
Lemma zprod_mod (f : Z -> Z) m l : zprod (map (fun x => f x mod m) l) mod m = zprod (map f l) mod m.
Proof.
  induction l as [|x l IH]; [reflexivity|]. cbn [map zprod fold_right]. fold (zprod (map (fun x => f x mod m) l)). fold (zprod (map f l)).
  rewrite Zmult_mod, IH, Zmod_mod, <- Zmult_mod. reflexivity.
Qed.
Lemma perm_map (f : Z -> Z) l : NoDup l -> (forall x, In x l -> In (f x) l) -> (forall x y, In x l -> In y l -> f x = f y -> x = y) -> Permutation (map f l) l.
Proof.
  intros N H I. apply NoDup_Permutation_bis.
  - clear H. induction l as [|x l IH]; [constructor|]. inversion_clear N as [|? ? A B]. cbn. constructor.
    + rewrite in_map_iff. intros (y & E & Iy). apply I in E; [subst; contradiction|now right|now left].
    + apply IH; [exact B|]. intros u v Hu Hv. apply I; now right.
  - now rewrite map_length.
  - intros y Hy. apply in_map_iff in Hy. destruct Hy as (x & <- & Hx). now apply H.
Qed.

(** ** Congruences *)
Lemma mod_eq_divide m x y : m <> 0 -> x mod m = y mod m <-> (m | x - y).
Proof.
  intro N. split.
  - intro H. apply Zmod_divide; [exact N|]. rewrite Zminus_mod, H, Z.sub_diag. now apply Z.mod_0_l.
  - intros [k H]. replace x with (y + k * m) by lia. now rewrite Z_mod_plus_full.
Qed.
Lemma small_mod_eq m x y : 0 <= x < m -> 0 <= y < m -> (m | x - y) -> x = y.
Proof. intros Hx Hy H. apply mod_eq_divide in H; [|lia]. rewrite !Z.mod_small in H by assumption. exact H. Qed.
Lemma pow_mod_l a m e : (a mod m) ^ e mod m = a ^ e mod m.
Proof.
  destruct (Z_lt_le_dec e 0) as [N|N]; [rewrite !Z.pow_neg_r by assumption; reflexivity|].
  revert N. revert e. apply natlike_ind; [reflexivity|]. intros e He IH. rewrite !Z.pow_succ_r by assumption. rewrite Zmult_mod, IH, Zmod_mod, <- Zmult_mod. reflexivity.
Qed.

Section Prime.
  Variable p : Z.
  Hypothesis Hp : prime p.
  Lemma p_ge : 2 <= p.
  Proof. apply prime_ge_2. exact Hp. Qed.
  Lemma prime_mul x y : (p | x * y) -> (p | x) \/ (p | y).
  Proof. apply prime_mult. exact Hp. Qed.
  Lemma prime_small x : 0 < x < p -> ~ (p | x).
  Proof. intros H D. apply Z.divide_pos_le in D; lia. Qed.
  Lemma prime_prod l : (forall x, In x l -> ~ (p | x)) -> ~ (p | zprod l).
  Proof.
    induction l as [|x l IH]; intro H.
    - cbn. intro D. pose proof p_ge. apply Z.divide_1_r in D. lia.
    - cbn. intro D. apply prime_mul in D. destruct D as [D|D]; [apply (H x); [now left|exact D]|]. apply IH; [|exact D]. intros y Hy. apply H. now right.
  Qed.
  Lemma prime_pow a k : 0 <= k -> ~ (p | a) -> ~ (p | a ^ k).
  Proof.
    intros Hk N. revert k Hk. apply natlike_ind.
    - intro D. pose proof p_ge. apply Z.divide_1_r in D. lia.
    - intros k Hk IH D. rewrite Z.pow_succ_r in D by exact Hk. apply prime_mul in D. tauto.
  Qed.
  (** Fermat's little theorem. *)
  Theorem fermat a : ~ (p | a) -> a ^ (p - 1) mod p = 1.
  Proof.
    intro N. pose proof p_ge as G.
    assert (Permutation (map (fun x => a * x mod p) (zrange (p - 1))) (zrange (p - 1))) as P.
    { apply perm_map; [apply zrange_nodup| |].
      - intros x Hx. apply in_zrange in Hx. apply in_zrange. pose proof (Z.mod_pos_bound (a * x) p ltac:(lia)).
        assert (a * x mod p <> 0); [|lia]. intro E. apply Zmod_divide in E; [|lia]. apply prime_mul in E. destruct E as [E|E]; [tauto|]. apply (prime_small x); [lia|exact E].
      - intros x y Hx Hy E. apply in_zrange in Hx, Hy. apply mod_eq_divide in E; [|lia]. replace (a * x - a * y) with (a * (x - y)) in E by ring.
        apply prime_mul in E. destruct E as [E|E]; [tauto|]. apply (small_mod_eq p); [lia|lia|exact E]. }
    apply zprod_perm in P. apply (f_equal (fun z => z mod p)) in P. rewrite zprod_mod, zprod_map_mul, zrange_length, Z2Nat.id in P by lia.
    apply mod_eq_divide in P; [|lia]. replace (a ^ (p - 1) * zprod (zrange (p - 1)) - zprod (zrange (p - 1))) with ((a ^ (p - 1) - 1) * zprod (zrange (p - 1))) in P by ring.
    apply prime_mul in P. destruct P as [P|P].
    - apply mod_eq_divide in P; [|lia]. rewrite P. apply Z.mod_small. lia.
    - exfalso. revert P. apply prime_prod. intros x Hx. apply prime_small. apply in_zrange in Hx. lia.
  Qed.

  (** ** The field of integers modulo p *)
  Definition Fp : Type := { z : Z | z mod p = z }.
  Definition val (x : Fp) : Z := proj1_sig x.
  Definition fp (z : Z) : Fp := exist _ (z mod p) (Zmod_mod z p).
  Lemma val_inj x y : val x = val y -> x = y.
  Proof. destruct x as [x Hx], y as [y Hy]. cbn. intros ->. f_equal. apply UIP_dec. apply Z.eq_dec. Qed.
  Lemma val_mod x : val x mod p = val x.
  Proof. exact (proj2_sig x). Qed.
  Lemma val_range x : 0 <= val x < p.
  Proof. rewrite <- val_mod. apply Z.mod_pos_bound. pose proof p_ge. lia. Qed.
  Lemma val_fp z : val (fp z) = z mod p.
  Proof. reflexivity. Qed.
  Lemma fp_val x : fp (val x) = x.
  Proof. apply val_inj. rewrite val_fp. apply val_mod. Qed.
  Lemma fp_eq x y : fp x = fp y <-> x mod p = y mod p.
  Proof. split; intro H; [now apply (f_equal val) in H|now apply val_inj]. Qed.
  Definition F0 := fp 0.
  Definition F1 := fp 1.
  Definition Fadd (x y : Fp) := fp (val x + val y).
  Definition Fmul (x y : Fp) := fp (val x * val y).
  Definition Fsub (x y : Fp) := fp (val x - val y).
  Definition Fopp (x : Fp) := fp (- val x).
  Definition Finv (x : Fp) := fp (val x ^ (p - 2)).
  Definition Fdiv (x y : Fp) := Fmul x (Finv y).
  Definition Fdec (x y : Fp) : {x = y} + {x <> y}.
  Proof. destruct (Z.eq_dec (val x) (val y)) as [E|N]; [left; now apply val_inj|right; congruence]. Defined.
  Lemma fp_add x y : fp (x + y) = Fadd (fp x) (fp y).
  Proof. apply fp_eq. rewrite !val_fp. now rewrite <- Zplus_mod. Qed.
  Lemma fp_mul x y : fp (x * y) = Fmul (fp x) (fp y).
  Proof. apply fp_eq. rewrite !val_fp. now rewrite <- Zmult_mod. Qed.
  Lemma fp_sub x y : fp (x - y) = Fsub (fp x) (fp y).
  Proof. apply fp_eq. rewrite !val_fp. now rewrite <- Zminus_mod. Qed.
  Lemma fp_opp x : fp (- x) = Fopp (fp x).
  Proof. unfold Fopp. apply fp_eq. rewrite val_fp. pose proof (Zminus_mod_idemp_r 0 x p) as H. rewrite !Z.sub_0_l in H. now symmetry. Qed.
  Lemma fp_mod x : fp (x mod p) = fp x.
  Proof. apply fp_eq. apply Zmod_mod. Qed.
  Lemma Fp_ring : ring_theory F0 F1 Fadd Fmul Fsub Fopp (@eq Fp).
  Proof.
    assert (forall P : Fp -> Prop, (forall z, P (fp z)) -> forall x, P x) as I by (intros P H x; rewrite <- (fp_val x); apply H).
    constructor; repeat (let x := fresh in intro x; pattern x; apply I; clear x; intro x); unfold F0, F1; rewrite <- ?fp_add, <- ?fp_mul, <- ?fp_sub, <- ?fp_opp, <- ?fp_add, <- ?fp_mul, <- ?fp_add; f_equal; ring.
  Qed.
  Lemma fp_0 z : fp z = F0 <-> (p | z).
  Proof.
    unfold F0. rewrite fp_eq. pose proof p_ge. rewrite mod_eq_divide by lia. now rewrite Z.sub_0_r.
  Qed.
  Lemma F1_neq_0 : F1 <> F0.
  Proof. intro H. apply fp_0 in H. apply Z.divide_1_r in H. pose proof p_ge. lia. Qed.
  Lemma Fp_field : field_theory F0 F1 Fadd Fmul Fsub Fopp Fdiv Finv (@eq Fp).
  Proof.
    constructor; [exact Fp_ring|exact F1_neq_0|reflexivity|].
    intros x N. assert (~ (p | val x)) as D by (intro D; apply N; rewrite <- (fp_val x); now apply fp_0).
    unfold Finv, F1, Fmul. apply fp_eq. rewrite val_fp, Zmult_mod, Zmod_mod, <- Zmult_mod. pose proof p_ge.
    rewrite Z.mul_comm, <- Z.pow_succ_r by lia. replace (Z.succ (p - 2)) with (p - 1) by lia. rewrite fermat by exact D. symmetry. apply Z.mod_small. lia.
  Qed.
End Prime.

(** ** Pocklington's criterion *)
Lemma prime_divisor n : 2 <= n -> exists r, prime r /\ (r | n).
Proof.
  intro H. remember (Z.to_nat n) as k eqn:K. revert n H K. induction k as [k IH] using lt_wf_ind. intros n H K.
  destruct (prime_dec n) as [P|P]; [exists n; split; [exact P|apply Z.divide_refl]|].
  apply not_prime_divide in P; [|lia]. destruct P as (d & Hd & D).
  destruct (IH (Z.to_nat d) ltac:(lia) d ltac:(lia) eq_refl) as (r & Hr & R). exists r. split; [exact Hr|]. now apply Z.divide_trans with d.
Qed.
Lemma prime_sqrt n : 2 <= n -> (forall r, prime r -> (r | n) -> n < r * r) -> prime n.
Proof.
  intros H A. destruct (prime_dec n) as [P|P]; [exact P|exfalso].
  apply not_prime_divide in P; [|lia]. destruct P as (d & Hd & [c D]).
  assert (2 <= c) as Hc by nia.
  destruct (prime_divisor d ltac:(lia)) as (r & Hr & R). destruct (prime_divisor c Hc) as (s & Hs & S).
  pose proof (A r Hr ltac:(apply Z.divide_trans with d; [exact R|exists c; lia])) as A1. pose proof (A s Hs ltac:(apply Z.divide_trans with c; [exact S|exists d; lia])) as A2.
  apply Z.divide_pos_le in R; [|lia]. apply Z.divide_pos_le in S; [|lia]. apply prime_ge_2 in Hr, Hs. assert (r * s <= d * c) by nia. destruct (Z_le_gt_dec r s); nia.
Qed.
Lemma pocklington_step n q a r : 2 <= n -> prime q -> (q | n - 1) -> a ^ (n - 1) mod n = 1 -> Z.gcd (a ^ ((n - 1) / q) - 1) n = 1 ->
  prime r -> (r | n) -> (q | r - 1).
Proof.
  intros H Hq [k Q] E G Hr R. pose proof (prime_ge_2 _ Hr) as R2. pose proof (prime_ge_2 _ Hq) as Q2.
  destruct (Zdivide_dec q (r - 1)) as [D|D]; [exact D|exfalso].
  rewrite Q, Z.div_mul in G by lia. assert (0 <= k) as K by nia.
  assert (~ (r | a)) as Na.
  { intro A. assert (a ^ (n - 1) mod r = 1) as M. { assert (exists c, a ^ (n - 1) = 1 + c * n) as [c C] by (exists (a ^ (n - 1) / n); pose proof (Z.div_mod (a ^ (n - 1)) n ltac:(lia)); lia). destruct R as [w W]. rewrite C, W. replace (1 + c * (w * r)) with (1 + (c * w) * r) by ring. rewrite Z_mod_plus_full. apply Z.mod_small. lia. }
    destruct A as [w ->]. replace (n - 1) with (Z.succ (n - 2)) in M by lia. rewrite Z.pow_succ_r in M by lia. replace (w * r * (w * r) ^ (n - 2)) with (w * (w * r) ^ (n - 2) * r) in M by ring. rewrite Z_mod_mult in M. lia. }
  (* q is invertible modulo r - 1 *)
  assert (rel_prime q (r - 1)) as RP.
  { apply prime_rel_prime; assumption. }
  apply rel_prime_bezout in RP. destruct RP as [u v B].
  assert (exists U V, 0 <= U /\ 0 <= V /\ U * q = 1 + V * (r - 1)) as (U & V & HU & HV & HB).
  { pose (t := Z.abs u + Z.abs v + 1). exists (u + t * (r - 1)), (t * q - v). split; [nia|]. split; [nia|]. nia. }
  (* a^k = 1 mod r *)
  assert (a ^ k mod r = 1) as AK.
  { pose proof (fermat r Hr a Na) as Fe.
    assert (a ^ (k * q * U) mod r = a ^ k mod r) as E1.
    { replace (k * q * U) with (k + (r - 1) * (k * V)) by (transitivity (k * (U * q)); [rewrite HB; ring|ring]).
      rewrite Z.pow_add_r by nia. rewrite Z.pow_mul_r by nia. rewrite Zmult_mod. rewrite <- (pow_mod_l (a ^ (r - 1))). rewrite Fe, Z.pow_1_l by nia. rewrite <- Zmult_mod. f_equal. ring. }
    rewrite <- E1. rewrite Z.pow_mul_r by nia. rewrite <- Q.
    assert (a ^ (n - 1) mod r = 1) as M. { assert (exists c, a ^ (n - 1) = 1 + c * n) as [c C] by (exists (a ^ (n - 1) / n); pose proof (Z.div_mod (a ^ (n - 1)) n ltac:(lia)); lia). destruct R as [w W]. rewrite C, W. replace (1 + c * (w * r)) with (1 + (c * w) * r) by ring. rewrite Z_mod_plus_full. apply Z.mod_small. lia. }
    rewrite <- pow_mod_l, M, Z.pow_1_l by lia. apply Z.mod_small. lia. }
  assert (r | 1) as D1.
  { rewrite <- G. apply Z.gcd_greatest; [|exact R]. apply Z.mod_divide; [lia|]. rewrite Zminus_mod, AK. rewrite (Z.mod_small 1) by lia. reflexivity. }
  apply Z.divide_1_r in D1. lia.
Qed.
(** A certificate: distinct primes dividing n - 1, each with a witness. *)
Definition pock_ok (n : Z) (qa : Z * Z) : bool :=
  let (q, a) := qa in ((n - 1) mod q =? 0) && (Zpow_mod a (n - 1) n =? 1) && (Z.gcd (Zpow_mod a ((n - 1) / q) n - 1) n =? 1).
Definition pock (n : Z) (l : list (Z * Z)) : bool :=
  let f := zprod (map fst l) in (2 <=? n) && forallb (pock_ok n) l && (n <=? f * f).
Lemma coprime_prod_divides l m : NoDup l -> Forall prime l -> (forall q, In q l -> (q | m)) -> (zprod l | m).
Proof.
  induction l as [|q l IH]; intros N P H; [exists m; cbn; lia|]. inversion_clear N as [|? ? A B]. inversion_clear P as [|? ? C D]. cbn.
  destruct (H q (or_introl eq_refl)) as [k K]. destruct (IH B D (fun x Hx => H x (or_intror Hx))) as [w W]. fold (zprod l).
  assert ((q | w * zprod l)) as Q by (exists k; lia). apply prime_mult in Q; [|exact C]. destruct Q as [[j ->]|Q].
  - exists j. rewrite W. ring.
  - exfalso. clear W IH. induction l as [|x l IH2].
    + cbn in Q. apply Z.divide_1_r in Q. apply prime_ge_2 in C. lia.
    + cbn in Q. apply prime_mult in Q; [|exact C]. inversion_clear D as [|? ? D1 D2]. destruct Q as [Q|Q].
      * apply prime_div_prime in Q; [|exact C|exact D1]. subst. apply A. now left.
      * apply IH2; try assumption; first [now inversion_clear B | (intros y [Hy|Hy]; apply H; [now left|right; now right]) | (intro I; apply A; now right)].
Qed.
Theorem pocklington_prop n l : NoDup (map fst l) -> Forall prime (map fst l) -> 2 <= n ->
  (forall q a, In (q, a) l -> (q | n - 1) /\ a ^ (n - 1) mod n = 1 /\ Z.gcd (a ^ ((n - 1) / q) - 1) n = 1) ->
  n <= zprod (map fst l) * zprod (map fst l) -> prime n.
Proof.
  intros N P H1 H S. apply prime_sqrt; [exact H1|]. intros r Hr R. pose proof (prime_ge_2 _ Hr).
  assert ((zprod (map fst l) | r - 1)) as D.
  { apply coprime_prod_divides; [exact N|exact P|]. intros q Hq. pose proof Hq as Hq'. apply in_map_iff in Hq. destruct Hq as ([q' a] & E & I). cbn in E. subst q'.
    assert (prime q) as Pq by (rewrite Forall_forall in P; now apply P). destruct (H q a I) as (Q1 & Q2 & Q3). now apply (pocklington_step n q a r). }
  apply Z.divide_pos_le in D; [|lia]. assert (0 <= zprod (map fst l)) as Z0.
  { clear - P. induction P as [|x k A B C]; cbn; [lia|]. fold (zprod k). apply prime_ge_2 in A. nia. }
  nia.
Qed.
Theorem pocklington n l : NoDup (map fst l) -> Forall prime (map fst l) -> pock n l = true -> prime n.
Proof.
  intros N P H. unfold pock in H. apply andb_true_iff in H. destruct H as [H S]. apply andb_true_iff in H. destruct H as [H1 H2].
  apply Z.leb_le in S, H1. apply prime_sqrt; [exact H1|]. intros r Hr R. pose proof (prime_ge_2 _ Hr).
  assert ((zprod (map fst l) | r - 1)) as D.
  { apply coprime_prod_divides; [exact N|exact P|]. intros q Hq. apply in_map_iff in Hq. destruct Hq as ([q' a] & E & I). cbn in E. subst q'.
    rewrite forallb_forall in H2. specialize (H2 _ I). cbn in H2. apply andb_true_iff in H2. destruct H2 as [H2 H4]. apply andb_true_iff in H2. destruct H2 as [H2 H3]. apply Z.eqb_eq in H2, H3, H4.
    assert (prime q) as Hq by (rewrite Forall_forall in P; apply P; apply in_map_iff; now exists (q, a)). pose proof (prime_ge_2 _ Hq).
    rewrite Zpow_mod_correct in H3, H4 by (try lia; apply Z.div_pos; lia).
    apply (pocklington_step n q a r); try assumption; [apply Zmod_divide; [lia|exact H2]|].
    etransitivity; [|exact H4]. rewrite (Z.gcd_comm _ n), <- (Z.gcd_mod (a ^ ((n - 1) / q) - 1) n) by lia. rewrite (Z.gcd_comm (_ - 1) n), <- (Z.gcd_mod (a ^ ((n - 1) / q) mod n - 1) n) by lia.
    f_equal. apply mod_eq_divide; [lia|]. exists (a ^ ((n - 1) / q) / n). pose proof (Z.div_mod (a ^ ((n - 1) / q)) n ltac:(lia)). lia. }
  apply Z.divide_pos_le in D; [|lia]. assert (0 <= zprod (map fst l)) as Z0.
  { clear - P. induction P as [|x k A B C]; cbn; [lia|]. fold (zprod k). apply prime_ge_2 in A. nia. }
  nia.
Qed.
(** Small primes by trial division. *)
Definition trial (n : Z) : bool := (2 <=? n) && forallb (fun d => negb (n mod d =? 0)) (map (fun x => x + 1) (zrange (Z.sqrt n - 1))).
Lemma trial_prime n : trial n = true -> prime n.
Proof.
  unfold trial. intro H. apply andb_true_iff in H. destruct H as [H1 H2]. apply Z.leb_le in H1. rewrite forallb_forall in H2.
  apply prime_sqrt; [exact H1|]. intros r Hr R. pose proof (prime_ge_2 _ Hr). destruct (Z_lt_le_dec n (r * r)) as [L|L]; [exact L|exfalso].
  assert (r <= Z.sqrt n) as S by (apply Z.sqrt_le_square; lia).
  specialize (H2 r). assert (negb (n mod r =? 0) = true) as E.
  { apply H2. apply in_map_iff. exists (r - 1). split; [lia|]. apply in_zrange. lia. }
  apply negb_true_iff in E. apply Z.eqb_neq in E. apply E. apply Z.mod_divide; [lia|exact R].
Qed.
