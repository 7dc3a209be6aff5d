(** Greatest common divisors, primes, factorisation and orders (C90-C96). *)
From Coq Require Import ZArith Znumtheory List Lia Bool Sorted.
From Verif Require Import PyBase NtModel NtProofs ZpTheory NtJacobi PrimeModel PrimeProofs FactorProofs OrderProofs TotientProofs CarmichaelProofs PseudoPrime.
Import ListNotations.
Open Scope list_scope.
Open Scope Z_scope.

(** C90: gcd and lcm of any list of integers, powers for any modulus. *)
Theorem C90_gcd : forall l, l <> [] -> exists g, gcd l = Ok g /\
  (forall x, In x l -> (g | x)) /\ (forall d, (forall x, In x l -> (d | x)) -> (d | g)) /\
  ((forall x, In x l -> 0 <= x) -> 0 <= g).
Proof.
  intros [|a l] H; [now elim H|]. exact (reduce_gcd l a).
Qed.
Theorem C90_lcm : forall l, l <> [] -> (forall x, In x l -> x <> 0) -> exists v, lcm l = Ok v /\
  (forall x, In x l -> (x | v)) /\ (forall m, (forall x, In x l -> (x | m)) -> (v | m)) /\
  ((forall x, In x l -> 0 < x) -> 0 < v).
Proof.
  intros [|a l] H NZ; [now elim H|]. exact (reduce_lcm l a NZ).
Qed.
Theorem C90_power : forall b e m, m <> 0 ->
  (0 <= e -> modular_exp b e m = Ok (b ^ e mod m)) /\ (e < 0 -> modular_exp b e m = Raise NegativeExponentError).
Proof.
  intros b e m Hm. split; intro He; [now apply modular_exp_ok|]. unfold modular_exp. now replace (e <? 0) with true by lia.
Qed.
Example C90_case : gcd [84; 126; -35] = Ok 7 /\ lcm [4; 6; 15] = Ok 60 /\ lcm [0; 0] = Raise ZeroDivisionError /\ gcd [-4; 6] = Ok (-2) /\
  modular_exp 7 20 (-10) = Ok (-9) /\ modular_exp 7 20 10 = Ok 1.
Proof. repeat split; vm_compute; reflexivity. Qed.

Section Bits.
  (** The value of the floating point expression [1 + int(math.log(n, 2))]. *)
  Variable nbits : Z -> Z.

  (** C91: is_prime always answers; it accepts every prime, is exact up to
      1229, and beyond accepts exactly the numbers without a factor 2, 3, 5, 7
      or 11 that are strong probable primes to the first bases. *)
  Theorem C91_answers : forall n, exists b, is_prime nbits n = Ok b.
  Proof. exact (is_prime_total nbits). Qed.
  Theorem C91_prime_accepted : forall n, prime n -> is_prime nbits n = Ok true.
  Proof. exact (is_prime_prime nbits). Qed.
  Theorem C91_small_exact : forall n, n <= 1229 -> (is_prime nbits n = Ok true <-> prime n).
  Proof.
    intros n H. destruct (is_prime_small nbits n H) as (b & -> & B). rewrite <- B. split; congruence.
  Qed.
  Theorem C91_miller_rabin : forall n, 1229 < n ->
    (is_prime nbits n = Ok true <-> Z.gcd n (2 * 3 * 5 * 7 * 11) = 1 /\
       forall a, In a (firstn (Z.to_nat (rounds (nbits n))) smallprimes) -> strong_pp n a).
  Proof.
    intros n H. destruct (is_prime_big nbits n H) as (b & -> & B). change (2 * 3 * 5 * 7 * 11) with 2310. unfold bases in B. rewrite Forall_forall in B. rewrite <- B. split; congruence.
  Qed.
  (** At least two bases are always tried. *)
  Theorem C91_bases : forall n, 2 <= rounds (nbits n) <= 40.
  Proof.
    intro n. generalize (nbits n) as b. intro b. unfold rounds, rounds_table. cbn [rounds_from]. repeat (destruct (b <? _); [lia|]). lia.
  Qed.
  Lemma pseudo_accepted : 250 <= nbits pseudo < 300 -> is_prime nbits pseudo = Ok true.
  Proof.
    intro H. apply C91_miller_rabin; [exact pseudo_big|]. split; [exact pseudo_gcd|]. intros a I. apply pseudo_strong. replace (rounds (nbits pseudo)) with 12 in I.
    - exact I.
    - unfold rounds, rounds_table. cbn [rounds_from]. revert H. generalize (nbits pseudo) as b. intros b H. replace (b <? 100) with false by lia. replace (b <? 150) with false by lia. replace (b <? 200) with false by lia. replace (b <? 250) with false by lia. replace (b <? 300) with true by lia. reflexivity.
  Qed.
  (** The number 2^260 < n < 2^261 below is composite; any estimate of its
      number of bits from 250 to 299 leads to the same 12 bases. *)
  Theorem C91_composite_refuted : 250 <= nbits pseudo < 300 ->
    ~ (forall n, is_prime nbits n = Ok true -> prime n).
  Proof. intros H A. apply pseudo_composite. apply A. now apply pseudo_accepted. Qed.

  (** C92: next_prime returns the first number above its argument that is_prime
      accepts; no prime is skipped. *)
  Theorem C92_first_accepted : forall v, exists p, next_prime nbits v = Ok p /\ v < p /\ is_prime nbits p = Ok true /\
    (forall q, v < q < p -> is_prime nbits q = Ok false) /\ (forall q, v < q < p -> ~ prime q).
  Proof.
    intro v. destruct (next_prime_ok nbits v) as (p & E & L & A & B). exists p. repeat split; try assumption. intros q Hq P. specialize (B q Hq). rewrite (is_prime_prime nbits q P) in B. discriminate B.
  Qed.
  Theorem C92_next_prime_partial : forall v, v < 1229 -> exists p, next_prime nbits v = Ok p /\ prime p /\ v < p /\ forall q, v < q < p -> ~ prime q.
  Proof.
    intros v H. destruct (C92_first_accepted v) as (p & E & L & A & _ & B). exists p. split; [exact E|]. split; [|split; [exact L|exact B]].
    destruct (Z_le_gt_dec p 1229) as [Lp|Lp]; [now apply C91_small_exact|]. exfalso. apply (B 1229); [lia|]. apply trial_prime. vm_compute. reflexivity.
  Qed.
  Theorem C92_next_prime_refuted : 250 <= nbits pseudo < 300 ->
    ~ (forall v, exists p, next_prime nbits v = Ok p /\ prime p).
  Proof.
    intros H A. destruct (A (pseudo - 1)) as (p & E & P). destruct (C92_first_accepted (pseudo - 1)) as (p' & E' & L & _ & B & _). assert (p' = p) as -> by congruence.
    destruct (Z_lt_le_dec pseudo p) as [W|W].
    - specialize (B pseudo ltac:(lia)). rewrite (pseudo_accepted H) in B. discriminate B.
    - apply pseudo_composite. now replace pseudo with p by lia.
  Qed.

  (** C93: factorization(n) for n >= 2.  [pvalue] multiplies the pairs out. *)
  Fixpoint pvalue (l : list (Z * Z)) : Z := match l with [] => 1 | (p, e) :: l => p ^ e * pvalue l end.
  Lemma pvalue_eq l : pvalue l = fprod l.
  Proof. induction l as [|[p e] l IH]; [reflexivity|]. cbn [pvalue fprod fold_right fst snd]. fold (fprod l). now rewrite IH. Qed.
  Theorem C93_product : forall n, 2 <= n -> exists l, factorization nbits n = Ok l /\ pvalue l = n /\
    StronglySorted Z.lt (map fst l) /\ forall p e, In (p, e) l -> 2 <= p /\ 1 <= e /\ (prime p \/ 1229 < p /\ e = 1 /\ is_prime nbits p = Ok true).
  Proof.
    intros n H. destruct (factorization_ok nbits n H) as (l & E & P & S & F & G). exists l. split; [exact E|]. split; [now rewrite pvalue_eq|]. split; [exact S|].
    intros p e I. rewrite Forall_forall in F, G. specialize (F _ I). specialize (G _ I). cbn [fst snd] in F, G. split; [|split; [exact F|exact G]]. destruct G as [G|G]; [now apply prime_ge_2|lia].
  Qed.
  Theorem C93_below_two : forall n, n < 2 -> factorization nbits n = Ok [].
  Proof. intros n H. unfold factorization. now replace (n <? 2) with true by lia. Qed.
  (** The test makes no mistake on the divisors of n. *)
  Definition reliable (n : Z) : Prop := forall d, (d | n) -> is_prime nbits d = Ok true -> prime d.
  Lemma factorization_exact n : 2 <= n -> reliable n -> exists l, factorization nbits n = Ok l /\ fprod l = n /\ factorised l.
  Proof.
    intros H R. destruct (factorization_ok nbits n H) as (l & E & P & S & F & G). exists l. split; [exact E|]. split; [exact P|]. split; [exact S|]. split; [exact F|].
    apply Forall_forall. intros [p e] I. rewrite Forall_forall in G, F. specialize (F _ I). destruct (G _ I) as [W|(L & E1 & W)]; [exact W|]. apply R; [|exact W]. cbn [fst snd] in *. rewrite <- P.
    apply in_split in I. destruct I as (l1 & l2 & ->). rewrite fprod_app. cbn [fprod fold_right fst snd]. apply Z.divide_mul_r. apply Z.divide_mul_l. rewrite E1, Z.pow_1_r. apply Z.divide_refl.
  Qed.
  (** Then the list gives exactly the prime divisors with their multiplicities. *)
  Theorem C93_prime_factors_partial : forall n, 2 <= n -> reliable n -> exists l, factorization nbits n = Ok l /\
    forall p e, In (p, e) l <-> prime p /\ 1 <= e /\ (p ^ e | n) /\ ~ (p ^ (e + 1) | n).
  Proof.
    intros n H R. destruct (factorization_exact n H R) as (l & E & P & F). exists l. split; [exact E|]. pose proof F as (S & Fe & Fp). rewrite Forall_forall in Fe, Fp.
    assert (forall p e, In (p, e) l -> prime p /\ 1 <= e /\ (p ^ e | n) /\ ~ (p ^ (e + 1) | n)) as A.
    { intros p e I. pose proof (Fp _ I) as Pp. pose proof (Fe _ I) as Ee. cbn [fst snd] in Pp, Ee. split; [exact Pp|]. split; [exact Ee|]. destruct (fprod_split l p e F I) as (m & Em & M & N). rewrite P in Em. rewrite Em. split; [apply Z.divide_factor_l|].
      rewrite Z.pow_add_r, Z.pow_1_r by lia. intro D. apply N. apply Z.mul_divide_cancel_l in D; [exact D|]. assert (0 < p ^ e) by (apply Z.pow_pos_nonneg; [apply prime_ge_2 in Pp|]; lia). lia. }
    intros p e. split; [apply A|]. intros (Pp & He & D1 & D2).
    assert (In p (map fst l)) as I. { apply prime_fprod; [exact Pp|apply Forall_forall; exact Fp|apply Forall_forall; exact Fe|]. rewrite P. apply Z.divide_trans with (p ^ e); [|exact D1]. exists (p ^ (e - 1)). rewrite Z.mul_comm, <- Z.pow_succ_r by lia. f_equal. lia. }
    apply in_map_iff in I. destruct I as ([p' e'] & <- & I). cbn [fst] in *. destruct (A p' e' I) as (_ & He' & D1' & D2').
    assert (forall a b, 0 <= a -> a <= b -> (p' ^ b | n) -> (p' ^ a | n)) as Mono. { intros a b Ha Hab D. apply Z.divide_trans with (p' ^ b); [|exact D]. exists (p' ^ (b - a)). rewrite <- Z.pow_add_r by lia. f_equal. lia. }
    destruct (Z.lt_trichotomy e e') as [L|[->|L]]; [exfalso; apply D2; apply Mono with e'; (lia || exact D1')|exact I|exfalso; apply D2'; apply Mono with e; (lia || exact D1)].
  Qed.
  Lemma pseudo_factors : 250 <= nbits pseudo < 300 -> factorization nbits pseudo = Ok [(pseudo, 1)].
  Proof.
    intro H. unfold factorization. replace (pseudo <? 2) with false by (vm_compute; reflexivity). assert (small_factors smallprimes pseudo [] = Ok (pseudo, [])) as -> by (vm_compute; reflexivity).
    cbn [bind]. replace (last_small <? pseudo) with true by (vm_compute; reflexivity). rewrite (pseudo_accepted H). reflexivity.
  Qed.
  Theorem C93_prime_factors_refuted : 250 <= nbits pseudo < 300 ->
    ~ (forall n, 2 <= n -> exists l, factorization nbits n = Ok l /\ forall p e, In (p, e) l -> prime p).
  Proof.
    intros H A. destruct (A pseudo ltac:(pose proof pseudo_big; lia)) as (l & E & P). rewrite (pseudo_factors H) in E. injection E as <-. apply pseudo_composite. apply (P pseudo 1). now left.
  Qed.

  (** C94: phi(n) is the number of 1 <= k <= n coprime to n. *)
  Theorem C94_totient_partial : forall n, 1 <= n -> reliable n ->
    phi nbits n = Ok (Z.of_nat (List.length (filter (fun k => Z.gcd k n =? 1) (zrange n)))).
  Proof.
    intros n H R. change (phi nbits n = Ok (totient n)). unfold phi. destruct (Z.ltb_spec n 3) as [L|L]; [assert (n = 1 \/ n = 2) as [-> | ->] by lia; reflexivity|].
    destruct (factorization_exact n ltac:(lia) R) as (l & -> & P & F). cbn [bind]. f_equal. rewrite phi_fold by apply F. rewrite <- P, totient_list by exact F. lia.
  Qed.
  Lemma pseudo_list : factorised [(pp_a, 1); (pp_b, 1); (pp_c, 1)] /\ fprod [(pp_a, 1); (pp_b, 1); (pp_c, 1)] = pseudo.
  Proof.
    split; [|reflexivity]. split; [|split].
    - apply Sorted_StronglySorted; [intros x y z; lia|]. repeat (first [apply Sorted_cons|apply Sorted_nil|apply HdRel_nil|apply HdRel_cons]); cbn [fst map]; reflexivity.
    - repeat (apply Forall_cons; [cbn [snd]; lia|]). apply Forall_nil.
    - apply Forall_cons; [exact pp_7|]. apply Forall_cons; [exact pp_11|]. apply Forall_cons; [exact pp_12|]. apply Forall_nil.
  Qed.
  Theorem C94_totient_refuted : 250 <= nbits pseudo < 300 ->
    ~ (forall n, 1 <= n -> phi nbits n = Ok (Z.of_nat (List.length (filter (fun k => Z.gcd k n =? 1) (zrange n))))).
  Proof.
    intros H A0. assert (forall n, 1 <= n -> phi nbits n = Ok (totient n)) as A by exact A0. clear A0. destruct pseudo_list as [F P]. pose proof (totient_list _ F) as T. rewrite P in T.
    specialize (A pseudo ltac:(pose proof pseudo_big; lia)). rewrite T in A.
    unfold phi in A. replace (pseudo <? 3) with false in A by (vm_compute; reflexivity). rewrite (pseudo_factors H) in A. clear T F P H. match type of A with bind (Ok ?l) ?f = Ok ?y => assert (f l = Ok y) as B by exact A end. clear A. revert B. vm_compute. discriminate.
  Qed.

  (** C95: carmichael(n) is the smallest exponent that takes every number
      coprime to n to 1 modulo n; it divides every other such exponent. *)
  Definition universal (n t : Z) : Prop := 1 <= t /\ forall x, Z.gcd x n = 1 -> (n | x ^ t - 1).
  Theorem C95_carmichael_partial : forall n, 1 <= n -> reliable n -> exists v, carmichael nbits n = Ok v /\ universal n v /\
    forall t, universal n t -> v <= t /\ (v | t).
  Proof.
    intros n H R. assert (exists l, factorization nbits n = Ok l /\ fprod l = n /\ factorised l) as (l & E & P & F).
    { destruct (Z.eq_dec n 1) as [->|N]; [|apply factorization_exact; (lia || exact R)]. exists []. split; [reflexivity|]. split; [reflexivity|]. split; [constructor|]. split; constructor. }
    unfold carmichael. rewrite E. cbn [bind]. destruct (carmichael_correct l F) as (v & Ev & V & U & M). rewrite P in U, M. exists v. split; [exact Ev|]. split; [split; [lia|exact U]|].
    intros t [T Ut]. pose proof (M t T Ut) as D. split; [apply Z.divide_pos_le in D; lia|exact D].
  Qed.
  Theorem C95_carmichael_refuted : 250 <= nbits pseudo < 300 ->
    ~ (forall n, 1 <= n -> exists v, carmichael nbits n = Ok v /\ forall t, universal n t -> v <= t).
  Proof.
    intros H A. destruct (A pseudo ltac:(pose proof pseudo_big; lia)) as (v & E & M). unfold carmichael in E. rewrite (pseudo_factors H) in E. cbn [bind carmichael_of_factorized carmichael_loop] in E. assert (v = carmichael_of_ppower (pseudo, 1)) as -> by congruence.
    destruct pseudo_list as [F P]. destruct (carmichael_correct _ F) as (w & Ew & W & U & _). rewrite P in U. specialize (M w ltac:(split; [lia|exact U])).
    assert (carmichael_of_factorized [(pp_a, 1); (pp_b, 1); (pp_c, 1)] = Ok (13 * 17 * (pp_a - 1))) as Ec by (vm_compute; reflexivity). rewrite Ec in Ew. injection Ew as <-. revert M. vm_compute. intro M. now apply M.
  Qed.

  Lemma not_strong n a r v : n - 1 = 2 * r -> r mod 2 = 1 -> Zpow_facts.Zpow_mod a r n = v -> v <> 1 -> v <> n - 1 -> ~ strong_pp n a.
  Proof.
    intros E O P N1 N2 (s & r' & S0 & E' & O' & V). destruct (odd_part_unique s r' 1 r S0 ltac:(lia) O' O ltac:(rewrite Z.pow_1_r; lia)) as [-> ->].
    destruct (Z.eq_dec n 0) as [->|N]; [destruct V as [V|(i & Hi & V)]; rewrite Zmod_0_r in V; pose proof (Z.div_mod r 2 ltac:(lia)); lia|]. rewrite Zpow_facts.Zpow_mod_correct in P by exact N.
    destruct V as [V|(i & Hi & V)]; [congruence|]. replace i with 0 in V by lia. rewrite Z.pow_0_r, Z.mul_1_l in V. congruence.
  Qed.
  (** Cases: the small numbers, and a product of two primes above 1229. *)
  Lemma reliable_small n : 1 <= n <= 1229 -> reliable n.
  Proof. intros H d D. apply Z.divide_pos_le in D; [|lia]. apply C91_small_exact. lia. Qed.
  Lemma reliable_1231_1237 : reliable (1231 * 1237).
  Proof.
    assert (forallb (fun d => negb ((1231 * 1237) mod d =? 0) || existsb (Z.eqb d) [1; 1231]) (zrange 1234) = true) as C by (vm_compute; reflexivity). rewrite forallb_forall in C.
    assert (forall d, 1 <= d <= 1234 -> (d | 1231 * 1237) -> d = 1 \/ d = 1231) as A.
    { intros d Hd D. specialize (C d ltac:(apply in_zrange; lia)). apply Z.mod_divide in D; [|lia]. rewrite D in C. cbn in C. lia. }
    intros d D W. pose proof (is_prime_ge nbits d W) as G. destruct D as [c D]. destruct (Z_le_gt_dec d 1234) as [L|L].
    - destruct (A d ltac:(lia) ltac:(now exists c)) as [-> | ->]; [lia|]. apply trial_prime. vm_compute. reflexivity.
    - assert (1 <= c <= 1234) as Hc by nia. destruct (A c Hc ltac:(exists d; lia)) as [-> | ->].
      + exfalso. assert (d = 1231 * 1237) as -> by lia. destruct (is_prime_big nbits (1231 * 1237) ltac:(lia)) as (b & E & B). rewrite W in E. injection E as <-. destruct B as [B _]. destruct (B eq_refl) as [_ S]. rewrite Forall_forall in S.
        assert (In 2 (bases nbits (1231 * 1237))) as I2. { unfold bases. pose proof (C91_bases (1231 * 1237)) as R. destruct (Z.to_nat (rounds (nbits (1231 * 1237)))) as [|k] eqn:K; [lia|]. now left. }
        refine (not_strong (1231 * 1237) 2 761373 1429199 _ _ _ _ _ (S 2 I2)); [reflexivity|reflexivity|vm_compute; reflexivity|discriminate|discriminate].
      + assert (d = 1237) as -> by lia. apply trial_prime. vm_compute. reflexivity.
  Qed.
End Bits.
Definition exact_bits (n : Z) : Z := 1 + Z.log2 n.
Example C91_case : is_prime exact_bits 1000003 = Ok true /\ is_prime exact_bits 1000001 = Ok false /\ is_prime exact_bits 3215031751 = Ok false /\
  exact_bits pseudo = 261 /\ is_prime exact_bits pseudo = Ok true /\ ~ prime pseudo.
Proof.
  split; [vm_compute; reflexivity|]. split; [vm_compute; reflexivity|]. split; [vm_compute; reflexivity|]. assert (exact_bits pseudo = 261) as E by (unfold exact_bits; rewrite pseudo_bits; reflexivity). split; [exact E|]. split; [apply pseudo_accepted; lia|exact pseudo_composite].
Qed.
Example C92_case : next_prime exact_bits 113 = Ok 127 /\ next_prime exact_bits 1228 = Ok 1229 /\ next_prime exact_bits (-5) = Ok 2.
Proof. repeat split; vm_compute; reflexivity. Qed.
Example C93_case : reliable exact_bits 720 /\ factorization exact_bits 720 = Ok [(2, 4); (3, 2); (5, 1)] /\
  reliable exact_bits (1231 * 1237) /\ factorization exact_bits (1231 * 1237) = Ok [(1231, 1); (1237, 1)] /\ factorization exact_bits (8 * 1231 * 1231 * 1237) = Ok [(2, 3); (1231, 2); (1237, 1)].
Proof. split; [apply reliable_small; lia|]. split; [vm_compute; reflexivity|]. split; [apply reliable_1231_1237|]. split; vm_compute; reflexivity. Qed.
Example C94_case : phi exact_bits 720 = Ok 192 /\ phi exact_bits (1231 * 1237) = Ok (1230 * 1236).
Proof. split; vm_compute; reflexivity. Qed.
Example C95_case : carmichael exact_bits 720 = Ok 12 /\ carmichael exact_bits 16 = Ok 4 /\ carmichael exact_bits 561 = Ok 80.
Proof. repeat split; vm_compute; reflexivity. Qed.

(** C96: orders. *)
Definition is_order (x m k : Z) : Prop := 1 <= k /\ x ^ k mod m = 1 /\ forall j, 1 <= j < k -> x ^ j mod m <> 1.
Theorem C96_order_partial : forall x m, 1 < m -> 0 <= x -> Z.gcd x m = 1 ->
  exists k, order_mod x m = Ok k /\ (x < m -> is_order x m k) /\ (x mod m <> 1 -> is_order x m k) /\ (x mod m = 1 -> x <> 1 -> k = 2).
Proof.
  intros x m Hm Hx G. destruct (order_mod_ok x m Hm Hx G) as (k & E & A & B). exists k. split; [exact E|]. split; [|split].
  - intro L. apply A. destruct (Z.eq_dec x 1) as [->|N]; [now left|right]. rewrite Z.mod_small; lia.
  - intro N. apply A. now right.
  - intros M N. now apply B.
Qed.
Theorem C96_order_refuted : ~ (forall x m, 1 < m -> Z.gcd x m = 1 -> exists k, order_mod x m = Ok k /\ is_order x m k).
Proof.
  intro A. destruct (A 8 7 ltac:(lia) ltac:(reflexivity)) as (k & E & (_ & _ & M)). assert (order_mod 8 7 = Ok 2) as E2 by (vm_compute; reflexivity). rewrite E in E2. injection E2 as ->. apply (M 1); [lia|reflexivity].
Qed.
Theorem C96_refused : forall x m, (m <= 1 -> order_mod x m = Ok 0) /\ (1 < m -> x < 0 \/ Z.gcd x m <> 1 -> order_mod x m = Raise AssertionError).
Proof.
  intros x m. split; [|apply order_mod_fails]. intro H. unfold order_mod. now replace (m <=? 1) with true by lia.
Qed.
Theorem C96_coprime_factor : forall a b, 1 <= a -> exists v, largest_factor_relatively_prime a b = Ok v /\ 1 <= v /\ (v | a) /\ Z.gcd v b = 1 /\
  forall d, (d | a) -> Z.gcd d b = 1 -> d <= v /\ (d | v).
Proof.
  intros a b Ha. destruct (lfrp_ok a b Ha) as (v & E & V & D & G & M). exists v. repeat split; try assumption; [|now apply M]. pose proof (M d H H0) as W. apply Z.divide_pos_le in W; lia.
Qed.
Theorem C96_kinda_order_partial : forall x m, 1 <= m -> 0 <= x -> exists v, 1 <= v /\ (v | m) /\ Z.gcd v x = 1 /\ (forall d, (d | m) -> Z.gcd d x = 1 -> d <= v) /\
  exists k, kinda_order_mod x m = Ok k /\ (v = 1 -> k = 0) /\ (1 < v -> x mod v <> 1 -> is_order x v k).
Proof.
  intros x m Hm Hx. destruct (C96_coprime_factor m x Hm) as (v & E & V & D & G & M). exists v. split; [exact V|]. split; [exact D|]. split; [exact G|]. split; [intros d Dd Gd; now apply M|].
  unfold kinda_order_mod. rewrite E. cbn [bind]. destruct (Z.eq_dec v 1) as [->|N].
  - exists 0. split; [reflexivity|]. split; [reflexivity|lia].
  - destruct (C96_order_partial x v ltac:(lia) Hx ltac:(now rewrite Z.gcd_comm)) as (k & Ek & _ & K & _). exists k. split; [exact Ek|]. split; [lia|]. intros _. exact K.
Qed.
Example C96_case : order_mod 3 7 = Ok 6 /\ order_mod 1 5 = Ok 1 /\ order_mod 8 7 = Ok 2 /\ order_mod (-3) 7 = Raise AssertionError /\ order_mod 6 9 = Raise AssertionError /\
  largest_factor_relatively_prime 720 6 = Ok 5 /\ kinda_order_mod 3 720 = Ok 4.
Proof. repeat split; vm_compute; reflexivity. Qed.

(** ** Assumptions *)

Print Assumptions C90_gcd.
Print Assumptions C90_lcm.
Print Assumptions C90_power.
Print Assumptions C91_answers.
Print Assumptions C91_prime_accepted.
Print Assumptions C91_small_exact.
Print Assumptions C91_miller_rabin.
Print Assumptions C91_bases.
Print Assumptions C91_composite_refuted.
Print Assumptions C92_first_accepted.
Print Assumptions C92_next_prime_partial.
Print Assumptions C92_next_prime_refuted.
Print Assumptions C93_product.
Print Assumptions C93_below_two.
Print Assumptions C93_prime_factors_partial.
Print Assumptions C93_prime_factors_refuted.
Print Assumptions C94_totient_partial.
Print Assumptions C94_totient_refuted.
Print Assumptions C95_carmichael_partial.
Print Assumptions C95_carmichael_refuted.
Print Assumptions C96_order_partial.
Print Assumptions C96_order_refuted.
Print Assumptions C96_refused.
Print Assumptions C96_coprime_factor.
Print Assumptions C96_kinda_order_partial.
