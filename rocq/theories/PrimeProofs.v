(** The primality test, the next prime and the factorisation. *)
From Coq Require Import ZArith Znumtheory Zpow_facts List Lia Bool.
From Verif Require Import PyBase PyLoop NtModel NtProofs ZpTheory NtJacobi NtSqrt PrimeModel.
Import ListNotations.
Open Scope list_scope.
Open Scope Z_scope.

(** ** The small primes *)
Lemma small_prime n : In n smallprimes -> prime n.
Proof.
  assert (forallb trial smallprimes = true) as H by (vm_compute; reflexivity).
  intro I. apply trial_prime. rewrite forallb_forall in H. now apply H.
Qed.
Lemma trial_complete n : prime n -> trial n = true.
Proof.
  intro P. pose proof (prime_ge_2 _ P) as G. unfold trial. apply andb_true_iff. split; [lia|]. apply forallb_forall. intros d I.
  apply in_map_iff in I. destruct I as (x & <- & I). apply in_zrange in I. apply negb_true_iff. apply Z.eqb_neq. intro M.
  apply Z.mod_divide in M; [|lia]. assert (x + 1 < n) as L by (pose proof (Z.sqrt_lt_lin n ltac:(lia)); lia).
  apply prime_divisors in M; [|exact P]. lia.
Qed.
Lemma small_complete n : n <= 1229 -> prime n -> In n smallprimes.
Proof.
  assert (forallb (fun n => existsb (Z.eqb n) smallprimes || negb (trial n)) (zrange 1229) = true) as H by (vm_compute; reflexivity).
  intros L P. pose proof (prime_ge_2 _ P) as G. rewrite forallb_forall in H. specialize (H n ltac:(apply in_zrange; lia)).
  rewrite (trial_complete n P), orb_false_r in H. apply existsb_exists in H. destruct H as (x & I & E). apply Z.eqb_eq in E. now subst.
Qed.
Lemma last_small_eq : last_small = 1229. Proof. reflexivity. Qed.
Lemma small_range x : In x smallprimes -> 2 <= x <= 1229.
Proof.
  assert (forallb (fun x => (2 <=? x) && (x <=? 1229)) smallprimes = true) as H by (vm_compute; reflexivity).
  rewrite forallb_forall in H. intro I. specialize (H x I). lia.
Qed.

(** ** Miller-Rabin *)
(** n is a strong probable prime to the base a. *)
Definition strong_pp (n a : Z) : Prop :=
  exists s r, 0 <= s /\ n - 1 = 2 ^ s * r /\ r mod 2 = 1 /\
    (a ^ r mod n = 1 \/ exists i, 0 <= i < s /\ a ^ (2 ^ i * r) mod n = n - 1).
Lemma odd_part_unique s r s' r' : 0 <= s -> 0 <= s' -> r mod 2 = 1 -> r' mod 2 = 1 -> 2 ^ s * r = 2 ^ s' * r' -> s = s' /\ r = r'.
Proof.
  assert (forall s r s' r', 0 <= s -> s < s' -> r mod 2 = 1 -> 2 ^ s * r = 2 ^ s' * r' -> False) as A.
  { clear. intros s r s' r' H L M E. replace s' with (s + Z.succ (s' - s - 1)) in E by lia. rewrite Z.pow_add_r, Z.pow_succ_r in E by lia.
    assert (0 < 2 ^ s) by (apply Z.pow_pos_nonneg; lia). assert (r = 2 * (2 ^ (s' - s - 1) * r')) as W by nia. rewrite W, Z.mul_comm, Z_mod_mult in M. lia. }
  intros H H' M M' E. destruct (Z.lt_trichotomy s s') as [L|[L|L]]; [exfalso; eauto| |exfalso; symmetry in E; eauto].
  subst s'. split; [reflexivity|]. assert (0 < 2 ^ s) by (apply Z.pow_pos_nonneg; lia). nia.
Qed.
Lemma sq_pow n y e : 1 < n -> 0 <= e -> (y ^ e mod n) ^ 2 mod n = y ^ (2 * e) mod n.
Proof. intros Hn He. rewrite pow_mod_l, <- Z.pow_mul_r by lia. do 2 f_equal. lia. Qed.
Lemma mr_round_ok s r n a : 2 < n -> 0 < s -> n - 1 = 2 ^ s * r -> r mod 2 = 1 ->
  exists b, mr_round s r n a = Ok b /\ (b = true <-> strong_pp n a).
Proof.
  intros Hn Hs En Hr. assert (0 < 2 ^ s) as P2 by (apply Z.pow_pos_nonneg; lia). assert (0 <= r) as R0 by nia.
  assert (strong_pp n a <-> a ^ r mod n = 1 \/ exists i, 0 <= i < s /\ a ^ (2 ^ i * r) mod n = n - 1) as SP.
  { split; [|intro H; exists s, r; repeat split; (lia || exact H)]. intros (s' & r' & A & B & C & D).
    destruct (odd_part_unique s r s' r' ltac:(lia) A Hr C ltac:(lia)) as [<- <-]. exact D. }
  unfold mr_round. rewrite exp_mod_ok by lia. cbn [bind].
  assert (forall i, 0 <= i -> 0 <= 2 ^ i * r) as NN by (intros i Hi; pose proof (Z.pow_nonneg 2 i ltac:(lia)); nia).
  assert (forall i, 0 <= i -> (a ^ (2 ^ i * r) mod n) ^ 2 mod n = a ^ (2 ^ (i + 1) * r) mod n) as SQ.
  { intros i Hi. rewrite sq_pow by (lia || apply NN; lia). do 2 f_equal. rewrite Z.pow_add_r by lia. ring. }
  assert (forall i j, 0 <= i -> i <= j -> a ^ (2 ^ i * r) mod n = 1 -> a ^ (2 ^ j * r) mod n = 1) as ONE.
  { intros i j Hi Hj E. replace j with (i + (j - i)) by lia. rewrite Z.pow_add_r by lia. replace (2 ^ i * 2 ^ (j - i) * r) with (2 ^ i * r * 2 ^ (j - i)) by ring.
    rewrite Z.pow_mul_r by (try apply NN; try apply Z.pow_nonneg; lia). rewrite <- pow_mod_l, E, Z.pow_1_l by (apply Z.pow_nonneg; lia). apply Z.mod_1_l. lia. }
  destruct (Z.eqb_spec (a ^ r mod n) 1) as [E1|E1].
  { cbn. exists true. split; [reflexivity|]. rewrite SP. tauto. }
  destruct (Z.eqb_spec (a ^ r mod n) (n - 1)) as [E2|E2].
  { cbn. exists true. split; [reflexivity|]. rewrite SP. split; [|tauto]. intros _. right. exists 0. split; [lia|]. rewrite Z.pow_0_r, Z.mul_1_l. exact E2. }
  cbn [negb andb].
  destruct (ploop_rule (witness_step s n)
    (fun st => let (j, y) := st in 1 <= j <= s /\ y = a ^ (2 ^ (j - 1) * r) mod n /\ forall i, 0 <= i < j -> a ^ (2 ^ i * r) mod n <> 1 /\ (i < j - 1 -> a ^ (2 ^ i * r) mod n <> n - 1))
    (fun v => exists b, v = Ok b /\ (b = true <-> strong_pp n a)) (fun st => s - fst st)) with (n := Z.to_pos (s + 1)) (a := (1, a ^ r mod n)) as (v & -> & (b & -> & B)).
  - intros [j y] (Hj & Ey & I). unfold witness_step. destruct (Z.leb_spec j (s - 1)) as [L|L]; destruct (Z.eqb_spec y (n - 1)) as [E|E]; cbn [negb andb].
    + exists true. split; [reflexivity|]. split; [intros _|reflexivity]. rewrite SP. right. exists (j - 1). split; [lia|]. now rewrite <- Ey.
    + rewrite exp_mod_ok by lia. rewrite Ey, SQ by lia. replace (j - 1 + 1) with j by lia. destruct (Z.eqb_spec (a ^ (2 ^ j * r) mod n) 1) as [F|F].
      * exists false. split; [reflexivity|]. split; [discriminate|]. rewrite SP. intros [G|(i & Hi & G)]; [tauto|]. exfalso.
        destruct (Z_lt_le_dec i j) as [Lt|Ge].
        -- destruct (Z.eq_dec i (j - 1)) as [->|N]; [rewrite <- Ey in G; tauto|]. destruct (I i ltac:(lia)) as [_ W]. apply W; [lia|exact G].
        -- rewrite (ONE j i ltac:(lia) Ge F) in G. lia.
      * cbn [fst]. split; [|lia]. split; [lia|]. split; [now replace (j + 1 - 1) with j by lia|]. intros i Hi. destruct (Z.eq_dec i j) as [->|N]; [split; [exact F|lia]|].
        split; [apply I; lia|]. intros _. destruct (Z.eq_dec i (j - 1)) as [->|N']; [now rewrite <- Ey|]. apply I; lia.
    + exists true. split; [reflexivity|]. split; [intros _|reflexivity]. rewrite SP. right. exists (j - 1). split; [lia|]. now rewrite <- Ey.
    + exists false. split; [reflexivity|]. split; [discriminate|]. rewrite SP. intros [G|(i & Hi & G)]; [tauto|]. exfalso.
      destruct (Z.eq_dec i (j - 1)) as [->|N]; [rewrite <- Ey in G; tauto|]. destruct (I i ltac:(lia)) as [_ W]. apply W; [lia|exact G].
  - split; [lia|]. split; [now rewrite Z.sub_diag, Z.pow_0_r, Z.mul_1_l|]. intros i Hi. replace i with 0 by lia. rewrite Z.pow_0_r, Z.mul_1_l. split; [exact E1|lia].
  - cbn [fst]. rewrite Z2Pos.id by lia. lia.
  - exists b. split; [reflexivity|exact B].
Qed.
Lemma mr_rounds_ok s r n l : 2 < n -> 0 < s -> n - 1 = 2 ^ s * r -> r mod 2 = 1 ->
  exists b, mr_rounds s r n l = Ok b /\ (b = true <-> Forall (strong_pp n) l).
Proof.
  intros Hn Hs En Hr. induction l as [|a l (b & E & B)]; [exists true; split; [reflexivity|split; [constructor|reflexivity]]|].
  cbn [mr_rounds]. destruct (mr_round_ok s r n a Hn Hs En Hr) as (v & -> & V). cbn [bind]. destruct v.
  - rewrite E. exists b. split; [reflexivity|]. rewrite B. split; intro H; [constructor; [now apply V|exact H]|now inversion H].
  - exists false. split; [reflexivity|]. split; [discriminate|]. intro H. inversion H. now apply V.
Qed.
(** A prime is a strong probable prime to every base it does not divide. *)
Lemma prime_strong p a : prime p -> 2 < p -> ~ (p | a) -> strong_pp p a.
Proof.
  intros P G N. destruct (odd_loop (p - 1) ltac:(lia)) as (r & s & _ & E & M & _ & S0). exists s, r. split; [exact S0|]. split; [exact E|]. split; [exact M|].
  assert (0 < 2 ^ s) as P2 by (apply Z.pow_pos_nonneg; lia). assert (0 <= r) as R0 by nia.
  assert (forall k, 0 <= k <= s -> a ^ (2 ^ k * r) mod p = 1 -> a ^ r mod p = 1 \/ exists i, 0 <= i < s /\ a ^ (2 ^ i * r) mod p = p - 1) as A.
  { intros k Hk. destruct Hk as [Hk Hs]. revert Hs. pattern k. apply natlike_ind; [|clear k Hk|exact Hk].
    - intros _ F. left. now rewrite Z.pow_0_r, Z.mul_1_l in F.
    - intros k Hk IH Hs F. assert ((p | (a ^ (2 ^ k * r) - 1) * (a ^ (2 ^ k * r) + 1))) as D.
      { replace ((a ^ (2 ^ k * r) - 1) * (a ^ (2 ^ k * r) + 1)) with (a ^ (2 ^ (Z.succ k) * r) - 1).
        - apply mod_eq_divide; [lia|]. rewrite F. symmetry. apply Z.mod_1_l. lia.
        - rewrite Z.pow_succ_r by lia. replace (2 * 2 ^ k * r) with (2 ^ k * r + 2 ^ k * r) by ring. pose proof (Z.pow_nonneg 2 k ltac:(lia)). rewrite Z.pow_add_r by nia. ring. }
      apply prime_mult in D; [|exact P]. destruct D as [D|D].
      + apply IH; [lia|]. apply mod_eq_divide in D; [|lia]. rewrite D. apply Z.mod_1_l. lia.
      + right. exists k. split; [lia|]. symmetry. apply Z.mod_unique with ((a ^ (2 ^ k * r) + 1) / p - 1); [lia|]. destruct D as [c D]. rewrite D, Z.div_mul by lia. lia. }
  apply (A s); [lia|]. rewrite <- E. now apply fermat.
Qed.

Section IsPrime.
  Variable nbits : Z -> Z.
  Notation is_prime := (is_prime nbits).
  Definition bases (n : Z) : list Z := firstn (Z.to_nat (rounds (nbits n))) smallprimes.
  Lemma base_in n a : In a (bases n) -> In a smallprimes.
  Proof. unfold bases. intro I. rewrite <- (firstn_skipn (Z.to_nat (rounds (nbits n)))). apply in_or_app. now left. Qed.
  Lemma is_prime_small n : n <= 1229 -> exists b, is_prime n = Ok b /\ (b = true <-> prime n).
  Proof.
    intro H. unfold is_prime. rewrite last_small_eq. destruct (Z.leb_spec n 1229); [|lia]. eexists. split; [reflexivity|]. rewrite existsb_exists. split.
    - intros (x & I & E). apply Z.eqb_eq in E. subst. now apply small_prime.
    - intro P. exists n. split; [now apply small_complete|apply Z.eqb_refl].
  Qed.
  Lemma is_prime_big n : 1229 < n -> exists b, is_prime n = Ok b /\ (b = true <-> Z.gcd n 2310 = 1 /\ Forall (strong_pp n) (bases n)).
  Proof.
    intro H. unfold is_prime. rewrite last_small_eq. destruct (Z.leb_spec n 1229); [lia|]. cbn [gcd reduce]. change (2 * 3 * 5 * 7 * 11) with 2310. rewrite gcd2_ok by lia. cbn [bind].
    destruct (Z.eqb_spec (Z.gcd n 2310) 1) as [G|G]; cbn [negb].
    - destruct (odd_loop (n - 1) ltac:(lia)) as (r & s & E & En & M & _ & S0). replace (n - 1 + 1) with n in E by lia. rewrite E.
      assert (0 < s) as Sp.
      { destruct (Z.eq_dec s 0) as [->|]; [|lia]. exfalso. rewrite Z.pow_0_r, Z.mul_1_l in En. assert ((2 | 1)) as D; [|apply Z.divide_1_r in D; lia].
        rewrite <- G. apply Z.gcd_greatest; [|now exists 1155]. exists (n / 2). pose proof (Z.div_mod n 2 ltac:(lia)). rewrite <- En in M. pose proof (Z.div_mod (n - 1) 2 ltac:(lia)). pose proof (Z.mod_pos_bound n 2 ltac:(lia)). lia. }
      destruct (mr_rounds_ok s r n (bases n) ltac:(lia) Sp En M) as (b & Eb & B). exists b. split; [exact Eb|]. rewrite B. tauto.
    - exists false. split; [reflexivity|]. split; [discriminate|]. tauto.
  Qed.
  Lemma is_prime_total n : exists b, is_prime n = Ok b.
  Proof. destruct (Z_le_gt_dec n 1229) as [L|L]; [destruct (is_prime_small n L) as (b & E & _)|destruct (is_prime_big n ltac:(lia)) as (b & E & _)]; now exists b. Qed.
  Lemma is_prime_prime n : prime n -> is_prime n = Ok true.
  Proof.
    intro P. destruct (Z_le_gt_dec n 1229) as [L|L].
    - destruct (is_prime_small n L) as (b & -> & B). now replace b with true by (symmetry; now apply B).
    - destruct (is_prime_big n ltac:(lia)) as (b & -> & B). replace b with true; [reflexivity|]. symmetry. apply B. split.
      + apply Zgcd_1_rel_prime. apply prime_rel_prime; [exact P|]. intro D. assert (n = 2 \/ n = 3 \/ n = 5 \/ n = 7 \/ n = 11); [|lia].
        change 2310 with (2 * (3 * (5 * (7 * 11)))) in D.
        assert (forall q, In q smallprimes -> (n | q) -> n = q) as K by (intros q I Dq; apply prime_div_prime; [exact P|now apply small_prime|exact Dq]).
        repeat (apply prime_mult in D; [|exact P]; destruct D as [D|D]; [apply K in D; [lia|cbn; tauto]|]). apply K in D; [lia|cbn; tauto].
      + apply Forall_forall. intros a I. apply base_in, small_range in I. apply prime_strong; [exact P|lia|]. intro D. apply Z.divide_pos_le in D; lia.
  Qed.
  Lemma is_prime_ge n : is_prime n = Ok true -> 2 <= n.
  Proof.
    intro E. destruct (Z_le_gt_dec n 1229) as [L|L]; [|lia]. destruct (is_prime_small n L) as (b & Eb & B). rewrite E in Eb. injection Eb as <-. apply prime_ge_2. now apply B.
  Qed.

  (** ** next_prime *)
  Lemma zfact_pos k : 1 <= zfact k.
  Proof. induction k as [|k IH]; [cbn; lia|]. cbn [zfact]. nia. Qed.
  Lemma zfact_divide d k : 1 <= d <= Z.of_nat k -> (d | zfact k).
  Proof.
    induction k as [|k IH]; intro H; [lia|]. cbn [zfact]. destruct (Z.eq_dec d (Z.of_nat (S k))) as [->|N]; [apply Z.divide_factor_l|]. apply Z.divide_mul_r. apply IH. lia.
  Qed.
  Lemma prime_above v : 2 <= v -> exists p, prime p /\ v < p <= zfact (Z.to_nat v) + 1.
  Proof.
    intro H. pose proof (zfact_pos (Z.to_nat v)) as F. destruct (prime_divisor (zfact (Z.to_nat v) + 1) ltac:(lia)) as (p & P & D). exists p. split; [exact P|].
    split; [|apply Z.divide_pos_le in D; lia]. destruct (Z_lt_le_dec v p) as [L|L]; [exact L|exfalso]. pose proof (prime_ge_2 _ P).
    assert ((p | 1)) as D1; [|apply Z.divide_1_r in D1; lia]. replace 1 with (zfact (Z.to_nat v) + 1 - zfact (Z.to_nat v)) by lia. apply Z.divide_sub_r; [exact D|]. apply zfact_divide. lia.
  Qed.
  Lemma lor_1 v : 0 <= v -> Z.lor v 1 = if Z.even v then v + 1 else v.
  Proof.
    intro H. destruct (Z.Even_or_Odd v) as [[k ->]|[k ->]].
    - rewrite Z.even_mul. cbn [Z.even orb]. destruct k as [|k|k]; reflexivity || lia.
    - replace (Z.even (2 * k + 1)) with false by (rewrite Z.even_add, Z.even_mul; reflexivity). destruct k as [|k|k]; reflexivity || lia.
  Qed.
  Lemma is_prime_even q : 2 < q -> Z.even q = true -> is_prime q = Ok false.
  Proof.
    intros H E. apply Zeven_bool_iff in E. apply Zeven_ex in E. destruct E as [k ->]. destruct (Z_le_gt_dec (2 * k) 1229) as [L|L].
    - destruct (is_prime_small (2 * k) L) as (b & -> & B). destruct b; [exfalso|reflexivity]. destruct B as [B _]. specialize (B eq_refl). pose proof (prime_divisors _ B 2 ltac:(now exists k; lia)). lia.
    - destruct (is_prime_big (2 * k) ltac:(lia)) as (b & -> & B). destruct b; [exfalso|reflexivity]. destruct B as [B _]. destruct (B eq_refl) as [G _].
      assert ((2 | 1)) as D; [|apply Z.divide_1_r in D; lia]. rewrite <- G. apply Z.gcd_greatest; [exists k; lia|now exists 1155].
  Qed.
  Lemma is_prime_low q : q < 2 -> is_prime q = Ok false.
  Proof.
    intro H. destruct (is_prime_total q) as (b & E). destruct b; [|exact E]. apply is_prime_ge in E. lia.
  Qed.
  Lemma next_prime_ok v : exists p, next_prime nbits v = Ok p /\ v < p /\ is_prime p = Ok true /\ forall q, v < q < p -> is_prime q = Ok false.
  Proof.
    unfold next_prime. destruct (Z.ltb_spec v 2) as [L|L].
    - exists 2. split; [reflexivity|]. split; [lia|]. split; [apply is_prime_prime, prime_2|]. intros q Hq. apply is_prime_low. lia.
    - destruct (prime_above v L) as (p0 & P0 & R0). pose proof (zfact_pos (Z.to_nat v)) as F. rewrite lor_1 by lia. set (x0 := if Z.even (v + 1) then v + 1 + 1 else v + 1).
      assert (v < x0 <= v + 2 /\ Z.even x0 = false /\ forall q, v < q < x0 -> is_prime q = Ok false) as (X1 & X2 & X3).
      { subst x0. destruct (Z.even (v + 1)) eqn:Ev.
        - split; [lia|]. split; [rewrite Z.even_add, Ev; reflexivity|]. intros q Hq. replace q with (v + 1) by lia. apply is_prime_even; [lia|exact Ev].
        - split; [lia|]. split; [exact Ev|]. intros q Hq. lia. }
      assert (x0 <= p0) as X4.
      { destruct (Z_lt_le_dec p0 x0) as [W|W]; [|exact W]. specialize (X3 p0 ltac:(lia)). rewrite (is_prime_prime p0 P0) in X3. discriminate X3. }
      destruct (ploop_rule (next_step nbits) (fun x => v < x <= p0 /\ Z.even x = false /\ forall q, v < q < x -> is_prime q = Ok false)
        (fun r => exists p, r = Ok p /\ v < p /\ is_prime p = Ok true /\ forall q, v < q < p -> is_prime q = Ok false) (fun x => p0 - x)) with (n := Z.to_pos (zfact (Z.to_nat v) + 2)) (a := x0) as (r & -> & (p & -> & W)).
      + intros x (I1 & I2 & I3). unfold next_step. destruct (is_prime_total x) as (b & E). rewrite E. destruct b.
        * exists x. split; [reflexivity|]. split; [lia|]. split; [exact E|exact I3].
        * assert (x <> p0) as N by (intros ->; rewrite (is_prime_prime p0 P0) in E; discriminate E).
          assert (is_prime (x + 1) = Ok false) as E1 by (apply is_prime_even; [lia|rewrite Z.even_add, I2; reflexivity]).
          assert (x + 1 <> p0) as N1 by (intros W; rewrite W, (is_prime_prime p0 P0) in E1; discriminate E1).
          split; [|lia]. split; [lia|]. split; [now rewrite Z.even_add, I2|]. intros q Hq. destruct (Z.eq_dec q x) as [->|]; [exact E|]. destruct (Z.eq_dec q (x + 1)) as [->|]; [exact E1|]. apply I3. lia.
      + split; [lia|]. split; [exact X2|exact X3].
      + rewrite Z2Pos.id by lia. lia.
      + exists p. split; [reflexivity|exact W].
  Qed.
End IsPrime.
