(** Greatest common divisors, least common multiples and powers for arguments of
    any sign; orders and coprime factors. *)
From Coq Require Import ZArith Znumtheory Zpow_facts List Lia Bool.
From Verif Require Import PyBase PyLoop NtModel NtProofs ZpTheory NtSqrt PrimeModel.
Import ListNotations.
Open Scope list_scope.
Open Scope Z_scope.

Lemma gcd2_sign a b : gcd2 a b = Ok (if a =? 0 then b else Z.sgn a * Z.gcd a b).
Proof.
  unfold gcd2. destruct (ploop_rule gcd2_step
    (fun st => let (c, d) := st in c = a /\ d = b \/ a <> 0 /\ d <> 0 /\ Z.sgn d = Z.sgn a /\ Z.gcd c d = Z.gcd a b /\ (c = 0 \/ Z.sgn c = Z.sgn a))
    (fun r => r = if a =? 0 then b else Z.sgn a * Z.gcd a b) (fun st => Z.abs (fst st))) with (n := Z.to_pos (Z.abs a + 1)) (a := (a, b)) as (r & -> & ->).
  - intros [c d] I. unfold gcd2_step. destruct (Z.eqb_spec c 0) as [->|N].
    + destruct I as [[A B]|(A & B & C & D & E)]; [subst; reflexivity|]. destruct (Z.eqb_spec a 0) as [|_]; [contradiction|]. rewrite <- D, Z.gcd_0_l, <- C. destruct d; cbn; lia.
    + cbn [fst]. split.
      * right. assert (a <> 0 /\ Z.sgn c = Z.sgn a /\ Z.gcd c d = Z.gcd a b) as (A & S & G) by (destruct I as [[-> ->]|(A & B & C & D & [E|E])]; [split; [exact N|split; reflexivity]|contradiction|tauto]).
        split; [exact A|]. split; [exact N|]. split; [exact S|]. split; [rewrite Z.gcd_comm, <- G, (Z.gcd_comm c (d mod c)), gcd_step by exact N; reflexivity|].
        destruct (Z.eq_dec (d mod c) 0) as [|M]; [now left|right]. rewrite <- S. destruct c as [|c|c]; [contradiction| |].
        -- pose proof (Z.mod_pos_bound d (Z.pos c) ltac:(lia)). cbn. lia.
        -- pose proof (Z.mod_neg_bound d (Z.neg c) ltac:(lia)). cbn. lia.
      * destruct (Z_lt_le_dec 0 c); [pose proof (Z.mod_pos_bound d c ltac:(lia))|pose proof (Z.mod_neg_bound d c ltac:(lia))]; lia.
  - now left.
  - cbn [fst]. rewrite Z2Pos.id by lia. lia.
  - reflexivity.
Qed.
Lemma gcd2_is_gcd a b : exists g, gcd2 a b = Ok g /\ (g | a) /\ (g | b) /\ (forall d, (d | a) -> (d | b) -> (d | g)) /\ (0 <= a -> 0 <= b -> 0 <= g).
Proof.
  rewrite gcd2_sign. eexists. split; [reflexivity|]. destruct (Z.eqb_spec a 0) as [->|N].
  - split; [apply Z.divide_0_r|]. split; [apply Z.divide_refl|]. tauto.
  - assert (Z.sgn a = 1 \/ Z.sgn a = -1) as S by lia. pose proof (Z.gcd_divide_l a b) as L. pose proof (Z.gcd_divide_r a b) as R. pose proof (Z.gcd_nonneg a b).
    assert (forall z, (z | Z.gcd a b) -> (z | Z.sgn a * Z.gcd a b)) as W by (intros z D; now apply Z.divide_mul_r).
    split; [destruct S as [-> | ->]; [now rewrite Z.mul_1_l|]; replace (-1 * Z.gcd a b) with (- Z.gcd a b) by lia; now apply Z.divide_opp_l|].
    split; [destruct S as [-> | ->]; [now rewrite Z.mul_1_l|]; replace (-1 * Z.gcd a b) with (- Z.gcd a b) by lia; now apply Z.divide_opp_l|].
    split; [intros d D1 D2; apply W; now apply Z.gcd_greatest|]. intros. nia.
Qed.
Lemma reduce_gcd l : forall a, exists g, reduce gcd2 a l = Ok g /\ (forall x, In x (a :: l) -> (g | x)) /\ (forall d, (forall x, In x (a :: l) -> (d | x)) -> (d | g)) /\ ((forall x, In x (a :: l) -> 0 <= x) -> 0 <= g).
Proof.
  induction l as [|b l IH]; intro a.
  - exists a. split; [reflexivity|]. split; [intros x [->|[]]; apply Z.divide_refl|]. split; intros; auto with datatypes.
  - cbn [reduce]. destruct (gcd2_is_gcd a b) as (g0 & -> & A & B & C & P). cbn [bind]. destruct (IH g0) as (g & -> & D & E & Q). exists g. split; [reflexivity|]. split; [|split].
    + assert (g | g0) as G by (apply D; now left). intros x [<-|[<-|I]]; [now apply Z.divide_trans with g0|now apply Z.divide_trans with g0|apply D; now right].
    + intros d H. apply E. intros x [<-|I]; [apply C; apply H; cbn; tauto|apply H; cbn; tauto].
    + intro H. apply Q. intros x [<-|I]; [apply P; apply H; cbn; tauto|apply H; cbn; tauto].
Qed.
(** lcm2 on numbers that are not both zero. *)
Lemma lcm2_is_lcm a b : a <> 0 -> b <> 0 -> exists v, lcm2 a b = Ok v /\ v <> 0 /\ (a | v) /\ (b | v) /\ (forall m, (a | m) -> (b | m) -> (v | m)) /\ (0 < a -> 0 < b -> 0 < v).
Proof.
  intros Na Nb. unfold lcm2. cbn [gcd reduce]. rewrite gcd2_sign. cbn [bind]. destruct (Z.eqb_spec a 0) as [|_]; [contradiction|].
  pose proof (Z.gcd_nonneg a b) as G0. assert (Z.gcd a b <> 0) as G1 by (intro W; apply Z.gcd_eq_0_l in W; contradiction). assert (Z.sgn a = 1 \/ Z.sgn a = -1) as S by lia.
  destruct (Z.eqb_spec (Z.sgn a * Z.gcd a b) 0) as [W|_]; [nia|].
  destruct (Z.gcd_divide_l a b) as [a' A]. destruct (Z.gcd_divide_r a b) as [b' B]. set (g := Z.gcd a b) in *.
  assert (a * b / (Z.sgn a * g) = Z.sgn a * (a' * b)) as ->.
  { rewrite A at 1. replace (a' * g * b) with ((Z.sgn a * (a' * b)) * (Z.sgn a * g)) by (destruct S as [-> | ->]; ring). apply Z.div_mul. nia. }
  eexists. split; [reflexivity|]. assert (Z.sgn a * Z.sgn a = 1) as SS by (destruct S as [-> | ->]; reflexivity).
  split; [destruct S as [-> | ->]; nia|]. split; [exists (Z.sgn a * b'); rewrite A at 3; rewrite B; ring|]. split; [exists (Z.sgn a * a'); ring|]. split.
  - intros m [x X] [y Y]. (* a' and b' are coprime *)
    assert (Z.gcd a' b' = 1) as CP. { assert (Z.gcd a b = g) as G2 by reflexivity. rewrite A, B in G2. rewrite Z.gcd_mul_mono_r_nonneg in G2 by lia. nia. }
    assert (x * a' = y * b') as XY by nia. assert ((b' | x)) as [z D]. { apply Z.gauss with a'; [exists y; lia|]. now rewrite Z.gcd_comm. }
    exists (Z.sgn a * z). rewrite X, D. rewrite A at 1. rewrite B. transitivity (Z.sgn a * Z.sgn a * (z * b' * (a' * g))); [rewrite SS; ring|ring].
  - intros. assert (Z.sgn a = 1) as -> by lia. nia.
Qed.
Lemma reduce_lcm l : forall a, (forall x, In x (a :: l) -> x <> 0) -> exists v, reduce lcm2 a l = Ok v /\ (forall x, In x (a :: l) -> (x | v)) /\ (forall m, (forall x, In x (a :: l) -> (x | m)) -> (v | m)) /\ ((forall x, In x (a :: l) -> 0 < x) -> 0 < v).
Proof.
  induction l as [|b l IH]; intros a NZ.
  - exists a. split; [reflexivity|]. split; [intros x [->|[]]; apply Z.divide_refl|]. split; intros; auto with datatypes.
  - cbn [reduce]. destruct (lcm2_is_lcm a b) as (v0 & -> & N & A & B & C & P); [apply NZ; cbn; tauto|apply NZ; cbn; tauto|]. cbn [bind].
    destruct (IH v0) as (v & -> & D & E & Q); [intros x [<-|I]; [exact N|apply NZ; cbn; tauto]|]. exists v. split; [reflexivity|]. split; [|split].
    + assert (v0 | v) as G by (apply D; now left). intros x [<-|[<-|I]]; [now apply Z.divide_trans with v0|now apply Z.divide_trans with v0|apply D; now right].
    + intros m H. apply E. intros x [<-|I]; [apply C; apply H; cbn; tauto|apply H; cbn; tauto].
    + intro H. apply Q. intros x [<-|I]; [apply P; apply H; cbn; tauto|apply H; cbn; tauto].
Qed.
Lemma modular_exp_ok b e m : 0 <= e -> m <> 0 -> modular_exp b e m = Ok (b ^ e mod m).
Proof.
  intros He Hm. unfold modular_exp. destruct (Z.ltb_spec e 0); [lia|]. destruct (Z.eqb_spec m 0); [lia|]. destruct (Z.ltb_spec m 0) as [L|L].
  - rewrite Zpow_mod_correct by lia. f_equal. destruct (Z.eqb_spec (b ^ e mod - m) 0) as [E|E].
    + symmetry. apply Z.mod_divide; [exact Hm|]. apply Z.mod_divide in E; [|lia]. apply Z.divide_opp_l. exact E.
    + assert (b ^ e mod m <> 0) as N by (intro W; apply E; rewrite Z.mod_opp_r_z by assumption; reflexivity). rewrite Z.mod_opp_r_nz by assumption. lia.
  - rewrite Zpow_mod_correct by lia. reflexivity.
Qed.

(** ** order_mod *)
Lemma pow_mod_mul x m k : 0 < m -> 0 <= k -> (x ^ k mod m * x) mod m = x ^ (k + 1) mod m.
Proof. intros Hm Hk. rewrite Zmult_mod_idemp_l. rewrite Z.pow_add_r, Z.pow_1_r by lia. reflexivity. Qed.
(** Some positive power of a number coprime to m is 1 modulo m. *)
Lemma power_one x m : 1 < m -> Z.gcd x m = 1 -> exists k, 1 <= k <= m /\ x ^ k mod m = 1.
Proof.
  intros Hm G.
  assert (~ NoDup (map (fun k => x ^ k mod m) (0 :: zrange m))) as D.
  { intro N. pose proof (NoDup_incl_length (l' := 0 :: zrange (m - 1)) N) as L. cbn [List.length map] in L. rewrite map_length, !zrange_length in L.
    assert (incl (map (fun k => x ^ k mod m) (0 :: zrange m)) (0 :: zrange (m - 1))) as I; [|specialize (L I); lia].
    intros y Iy. apply in_map_iff in Iy. destruct Iy as (k & <- & _). pose proof (Z.mod_pos_bound (x ^ k) m ltac:(lia)). destruct (Z.eq_dec (x ^ k mod m) 0) as [->|]; [now left|]. right. apply in_zrange. lia. }
  assert (exists i j, In i (0 :: zrange m) /\ In j (0 :: zrange m) /\ i < j /\ x ^ i mod m = x ^ j mod m) as (i & j & Ii & Ij & L & E).
  { assert (NoDup (0 :: zrange m)) as N by (constructor; [rewrite in_zrange; lia|apply zrange_nodup]). clear - D N. induction (0 :: zrange m) as [|a l IH]; [elim D; constructor|]. inversion_clear N as [|? ? N1 N2].
    destruct (in_dec Z.eq_dec (x ^ a mod m) (map (fun k => x ^ k mod m) l)) as [I|I].
    - apply in_map_iff in I. destruct I as (b & E & Ib). destruct (Z.lt_trichotomy a b) as [L|[L|L]]; [exists a, b|subst; contradiction|exists b, a]; (split; [cbn; tauto|]; split; [cbn; tauto|]; split; [exact L|congruence]).
    - destruct IH as (i & j & A & B & C); [intro K; apply D; cbn; now constructor|exact N2|]. exists i, j. split; [now right|]. split; [now right|exact C]. }
  assert (forall z, In z (0 :: zrange m) -> 0 <= z <= m) as R by (intros z [<-|I]; [lia|apply in_zrange in I; lia]). apply R in Ii, Ij.
  exists (j - i). split; [lia|]. replace j with (i + (j - i)) in E by lia. rewrite Z.pow_add_r in E by lia. symmetry in E. apply mod_eq_divide in E; [|lia].
  assert ((m | x ^ (j - i) - 1)) as W. { apply Z.gauss with (x ^ i); [replace (x ^ i * (x ^ (j - i) - 1)) with (x ^ i * x ^ (j - i) - x ^ i) by ring; exact E|]. apply Zgcd_1_rel_prime. apply rel_prime_Zpower_r; [lia|]. apply rel_prime_sym. now apply Zgcd_1_rel_prime. }
  apply mod_eq_divide in W; [|lia]. rewrite W. apply Z.mod_1_l. lia.
Qed.
Lemma order_loop x m : 1 < m -> Z.gcd x m = 1 ->
  exists k, ploop (order_step x m) (Z.to_pos (m + 2)) (x, 1) = inr k /\ 1 <= k /\
    ((x = 1 /\ k = 1) \/ (x <> 1 /\ 2 <= k /\ x ^ k mod m = 1 /\ forall j, 2 <= j < k -> x ^ j mod m <> 1)).
Proof.
  intros Hm G. destruct (power_one x m Hm G) as (k0 & K0 & E0).
  assert (exists K, 2 <= K <= m + 1 /\ x ^ K mod m = 1) as (K & HK & EK).
  { destruct (Z.eq_dec k0 1) as [->|N]; [|exists k0; split; [lia|exact E0]]. exists 2. split; [lia|]. rewrite Z.pow_1_r in E0. rewrite Z.pow_2_r, Zmult_mod, E0. apply Z.mod_1_l. lia. }
  destruct (ploop_rule (order_step x m) (fun st => let (z, r) := st in 1 <= r <= K /\ (r = 1 /\ z = x \/ 2 <= r /\ x <> 1 /\ z = x ^ r mod m /\ forall j, 2 <= j < r -> x ^ j mod m <> 1))
    (fun k => 1 <= k /\ ((x = 1 /\ k = 1) \/ (x <> 1 /\ 2 <= k /\ x ^ k mod m = 1 /\ forall j, 2 <= j < k -> x ^ j mod m <> 1))) (fun st => K - snd st)) with (n := Z.to_pos (m + 2)) (a := (x, 1)) as (k & -> & P).
  - intros [z r] (R & I). unfold order_step. destruct (Z.eqb_spec z 1) as [->|N]; cbn [negb].
    + split; [lia|]. destruct I as [[-> <-]|(A & B & C & D)]; [now left|right]. split; [exact B|]. split; [exact A|]. split; [now symmetry|exact D].
    + cbn [snd]. assert (r < K) as L.
      { destruct I as [[-> ->]|(A & B & C & D)]; [lia|]. destruct (Z.eq_dec r K) as [->|]; [congruence|lia]. }
      split; [|lia]. split; [lia|]. right. split; [lia|]. destruct I as [[-> ->]|(A & B & C & D)].
      * split; [exact N|]. split; [now rewrite <- Z.pow_2_r|]. intros j Hj. lia.
      * split; [exact B|]. split; [rewrite C; now apply pow_mod_mul; lia|]. intros j Hj. destruct (Z.eq_dec j r) as [->|]; [now rewrite <- C|]. apply D. lia.
  - split; [lia|]. now left.
  - cbn [snd]. rewrite Z2Pos.id by lia. lia.
  - exists k. tauto.
Qed.
Lemma order_mod_ok x m : 1 < m -> 0 <= x -> Z.gcd x m = 1 -> exists k, order_mod x m = Ok k /\ 
    (x = 1 \/ x mod m <> 1 -> 1 <= k /\ x ^ k mod m = 1 /\ forall j, 1 <= j < k -> x ^ j mod m <> 1) /\ (x <> 1 -> x mod m = 1 -> k = 2).
Proof.
  intros Hm Hx G. unfold order_mod. destruct (Z.leb_spec m 1); [lia|]. cbn [gcd reduce]. rewrite gcd2_ok by lia. cbn [bind]. rewrite G. change (negb (1 =? 1)) with false. cbv iota.
  destruct (order_loop x m Hm G) as (k & -> & K1 & K). exists k. split; [reflexivity|]. destruct K as [[-> ->]|(N & K2 & E & M)].
  - split; [|intros W; now elim W]. intros _. split; [lia|]. split; [rewrite Z.pow_1_l by lia; apply Z.mod_1_l; lia|]. intros j Hj. lia.
  - split.
    + intros [W|W]; [contradiction|]. split; [lia|]. split; [exact E|]. intros j Hj. destruct (Z.eq_dec j 1) as [->|]; [now rewrite Z.pow_1_r|]. apply M. lia.
    + intros _ W. destruct (Z.eq_dec k 2) as [|K3]; [assumption|]. exfalso. apply (M 2 ltac:(lia)). rewrite Z.pow_2_r, Zmult_mod, W. apply Z.mod_1_l. lia.
Qed.
Lemma order_mod_fails x m : 1 < m -> x < 0 \/ Z.gcd x m <> 1 -> order_mod x m = Raise AssertionError.
Proof.
  intros Hm H. unfold order_mod. destruct (Z.leb_spec m 1); [lia|]. cbn [gcd reduce]. rewrite gcd2_sign. cbn [bind]. pose proof (Z.gcd_nonneg x m).
  match goal with |- context[negb (?u =? 1)] => assert (u <> 1) as N end.
  { destruct (Z.eqb_spec x 0) as [->|Nx]; [rewrite Z.gcd_0_l in H; lia|]. destruct H as [H|H]; [assert (Z.sgn x = -1) as -> by lia; lia|]. intro W. assert (Z.sgn x = 1 \/ Z.sgn x = -1) as [S|S] by lia; rewrite S in W; lia. }
  apply Z.eqb_neq in N. now rewrite N.
Qed.

(** ** largest_factor_relatively_prime *)
Lemma strip_ok d a : 1 < d -> 1 <= a -> exists a', ploop (strip_step d) (Z.to_pos (Z.abs a + 1)) a = inr a' /\ 1 <= a' <= a /\ ~ (d | a') /\ exists k, 0 <= k /\ a = d ^ k * a'.
Proof.
  intros Hd Ha. destruct (ploop_rule (strip_step d) (fun z => 1 <= z <= a /\ exists k, 0 <= k /\ a = d ^ k * z) (fun a' => 1 <= a' <= a /\ ~ (d | a') /\ exists k, 0 <= k /\ a = d ^ k * a') (fun z => z)) with (n := Z.to_pos (Z.abs a + 1)) (a := a) as (a' & -> & P).
  - intros z (R & k & K & E). unfold strip_step. pose proof (Z.mod_pos_bound z d ltac:(lia)) as B. destruct (Z.ltb_spec 0 (z mod d)) as [L|L].
    + split; [exact R|]. split; [|exists k; tauto]. intro D. apply Z.mod_divide in D; lia.
    + assert (z mod d = 0) as M by lia. apply Z.mod_divide in M; [|lia]. destruct M as [w W]. assert (z / d = w) as -> by (rewrite W, Z.div_mul; lia). split; [|nia]. split; [nia|].
      exists (k + 1). split; [lia|]. rewrite Z.pow_add_r, Z.pow_1_r by lia. rewrite E, W. ring.
  - split; [lia|]. exists 0. split; [lia|]. rewrite Z.pow_0_r. lia.
  - rewrite Z2Pos.id by lia. lia.
  - exists a'. tauto.
Qed.
Lemma coprime_pow d x k : 0 <= k -> Z.gcd x d = 1 -> Z.gcd x (d ^ k) = 1.
Proof. intros Hk G. apply Zgcd_1_rel_prime. apply rel_prime_Zpower_r; [exact Hk|]. now apply Zgcd_1_rel_prime. Qed.
Lemma lfrp_ok a b : 1 <= a -> exists v, largest_factor_relatively_prime a b = Ok v /\ 1 <= v /\ (v | a) /\ Z.gcd v b = 1 /\ forall d, (d | a) -> Z.gcd d b = 1 -> (d | v).
Proof.
  intro Ha. unfold largest_factor_relatively_prime.
  destruct (ploop_rule coprime_step
    (fun st => let (x, y) := st in 1 <= x /\ (x | a) /\ (y | b) /\ (forall d, (d | a) -> Z.gcd d b = 1 -> (d | x)) /\ forall q, prime q -> (q | x) -> (q | b) -> (q | y))
    (fun r => exists v, r = Ok v /\ 1 <= v /\ (v | a) /\ Z.gcd v b = 1 /\ forall d, (d | a) -> Z.gcd d b = 1 -> (d | v)) (fun st => fst st)) with (n := Z.to_pos (Z.abs a + 1)) (a := (a, b)) as (r & -> & (v & -> & P)).
  - intros [x y] (X & D1 & D2 & D3 & D4). unfold coprime_step. cbn [gcd reduce]. rewrite gcd2_sign. cbn [bind]. destruct (Z.eqb_spec x 0); [lia|]. assert (Z.sgn x = 1) as -> by lia. rewrite Z.mul_1_l.
    pose proof (Z.gcd_nonneg x y) as G0. assert (Z.gcd x y <> 0) as G1 by (intro W; apply Z.gcd_eq_0_l in W; lia). destruct (Z.leb_spec (Z.gcd x y) 1) as [L|L].
    + exists x. split; [reflexivity|]. split; [exact X|]. split; [exact D1|]. split; [|exact D3]. destruct (Z.eq_dec (Z.gcd x b) 1) as [|N]; [assumption|exfalso].
      assert (2 <= Z.gcd x b) as G2. { pose proof (Z.gcd_nonneg x b). assert (Z.gcd x b <> 0) by (intro W; apply Z.gcd_eq_0_l in W; lia). lia. }
      destruct (prime_divisor _ G2) as (q & Pq & Dq). assert ((q | x)) as Q1 by (apply Z.divide_trans with (Z.gcd x b); [exact Dq|apply Z.gcd_divide_l]). assert ((q | b)) as Q2 by (apply Z.divide_trans with (Z.gcd x b); [exact Dq|apply Z.gcd_divide_r]).
      pose proof (Z.gcd_greatest x y q Q1 (D4 q Pq Q1 Q2)) as Q3. apply Z.divide_pos_le in Q3; [|lia]. apply prime_ge_2 in Pq. lia.
    + destruct (strip_ok (Z.gcd x y) x L X) as (x' & -> & R & ND & k & K & E). cbn [fst].
      assert (x' <> x) as NE by (intros ->; apply ND; apply Z.gcd_divide_l). split; [|lia]. split; [lia|].
      assert ((x' | x)) as DX by (exists (Z.gcd x y ^ k); exact E). split; [now apply Z.divide_trans with x|]. split; [apply Z.divide_trans with y; [apply Z.gcd_divide_r|exact D2]|]. split.
      * intros d Da Gd. apply Z.gauss with (Z.gcd x y ^ k); [rewrite <- E; now apply D3|]. apply coprime_pow; [exact K|].
        apply Zgcd_1_rel_prime. apply rel_prime_sym. apply rel_prime_div with b; [apply rel_prime_sym; now apply Zgcd_1_rel_prime|]. apply Z.divide_trans with y; [apply Z.gcd_divide_r|exact D2].
      * intros q Pq Qx Qb. apply Z.gcd_greatest; [now apply Z.divide_trans with x'|]. apply D4; [exact Pq|now apply Z.divide_trans with x'|exact Qb].
  - split; [lia|]. split; [apply Z.divide_refl|]. split; [apply Z.divide_refl|]. tauto.
  - cbn [fst]. rewrite Z2Pos.id by lia. lia.
  - exists v. tauto.
Qed.
