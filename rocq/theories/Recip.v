(** The Jacobi symbol by the lemma of Gauss and Schering, quadratic
    reciprocity, Euler's criterion.  Nothing here models /repo. *)
From Coq Require Import ZArith Znumtheory Zpow_facts List Lia Bool Permutation.
From Verif Require Import ZpTheory.
Import ListNotations.
Open Scope Z_scope.

(** ** Sums and products over lists *)
Definition zsum (f : Z -> Z) (l : list Z) : Z := fold_right (fun x s => f x + s) 0 l.
Lemma zsum_cons f x l : zsum f (x :: l) = f x + zsum f l. Proof. reflexivity. Qed.
Lemma zsum_ext f g l : (forall x, In x l -> f x = g x) -> zsum f l = zsum g l.
Proof. induction l as [|x l IH]; intro H; [reflexivity|]. rewrite !zsum_cons, H, IH; [reflexivity| |now left]. intros y I. apply H. now right. Qed.
Lemma zsum_add f g l : zsum (fun x => f x + g x) l = zsum f l + zsum g l.
Proof. induction l as [|x l IH]; [reflexivity|]. rewrite !zsum_cons, IH. lia. Qed.
Lemma zsum_mul k f l : zsum (fun x => k * f x) l = k * zsum f l.
Proof. induction l as [|x l IH]; [cbn; lia|]. rewrite !zsum_cons, IH. lia. Qed.
Lemma zsum_0 l : zsum (fun _ => 0) l = 0.
Proof. induction l as [|x l IH]; [reflexivity|]. now rewrite zsum_cons, IH. Qed.
Lemma zsum_const k l : zsum (fun _ => k) l = k * Z.of_nat (List.length l).
Proof. induction l as [|x l IH]; [cbn; lia|]. rewrite zsum_cons, IH. cbn [List.length]. lia. Qed.
Lemma zsum_app f l l' : zsum f (l ++ l') = zsum f l + zsum f l'.
Proof. induction l as [|x l IH]; [reflexivity|]. cbn [app]. rewrite !zsum_cons, IH. lia. Qed.
Lemma zsum_swap f l l' : zsum (fun x => zsum (f x) l') l = zsum (fun y => zsum (fun x => f x y) l) l'.
Proof. induction l as [|x l IH]; [symmetry; apply zsum_0|]. rewrite zsum_cons, IH, <- zsum_add. apply zsum_ext. intros y _. now rewrite zsum_cons. Qed.
Lemma zsum_map f g l : zsum f (map g l) = zsum (fun x => f (g x)) l.
Proof. induction l as [|x l IH]; [reflexivity|]. cbn [map]. now rewrite !zsum_cons, IH. Qed.
Lemma zsum_perm f l l' : Permutation l l' -> zsum f l = zsum f l'.
Proof. induction 1; rewrite ?zsum_cons; lia. Qed.
Lemma zprod_cons x l : zprod (x :: l) = x * zprod l. Proof. reflexivity. Qed.
Lemma zprod_map_mul2 (f g : Z -> Z) (l : list Z) : zprod (map (fun x => f x * g x) l) = zprod (map f l) * zprod (map g l).
Proof. induction l as [|x l IH]; [reflexivity|]. cbn [map]. rewrite !zprod_cons, IH. lia. Qed.
Lemma map_ext_in' {A B} (f g : A -> B) l : (forall x, In x l -> f x = g x) -> map f l = map g l.
Proof. intro H. now apply map_ext_in. Qed.
Lemma zrange_succ k : 0 <= k -> zrange (k + 1) = zrange k ++ [k + 1].
Proof.
  intro H. unfold zrange. replace (Z.to_nat (k + 1)) with (S (Z.to_nat k)) by lia. rewrite seq_S, map_app. cbn [map]. f_equal. f_equal. lia.
Qed.
Lemma zrange_0 : zrange 0 = []. Proof. reflexivity. Qed.
(** The number of positive multiples of n up to t. *)
Lemma count_le k q : 0 <= q <= k -> zsum (fun j => if j <=? q then 1 else 0) (zrange k) = q.
Proof.
  intro H. assert (0 <= k) as Hk by lia. revert q H. pattern k. apply natlike_ind; [|clear k Hk; intros k Hk IH|exact Hk].
  - intros q H. rewrite zrange_0. cbn. lia.
  - intros q H. rewrite <- Z.add_1_r in *. rewrite zrange_succ, zsum_app by exact Hk. rewrite (zsum_cons _ (k + 1) []). change (zsum _ []) with 0. destruct (Z.leb_spec (k + 1) q) as [L|L].
    + assert (q = k + 1) as -> by lia. rewrite (zsum_ext _ (fun j => if j <=? k then 1 else 0)).
      * rewrite IH by lia. lia.
      * intros j I. apply in_zrange in I. destruct (Z.leb_spec j (k + 1)), (Z.leb_spec j k); lia.
    + rewrite IH by lia. lia.
Qed.
Lemma count_multiples k n t : 0 < n -> 0 <= t -> t / n <= k -> zsum (fun j => if n * j <=? t then 1 else 0) (zrange k) = t / n.
Proof.
  intros Hn Ht Hk. pose proof (Z.div_pos t n Ht Hn). rewrite (zsum_ext _ (fun j => if j <=? t / n then 1 else 0)); [apply count_le; lia|].
  intros j _. destruct (Z.leb_spec (n * j) t) as [A|A], (Z.leb_spec j (t / n)) as [B|B]; try reflexivity.
  - apply Z.div_le_lower_bound in A; lia.
  - pose proof (Z.mul_div_le t n Hn). nia.
Qed.

(** ** Signs *)
Definition sgn (k : Z) : Z := if Z.even k then 1 else -1.
Lemma sgn_add a b : sgn (a + b) = sgn a * sgn b.
Proof. unfold sgn. rewrite Z.even_add. now destruct (Z.even a), (Z.even b). Qed.
Lemma sgn_sq k : sgn k * sgn k = 1.
Proof. unfold sgn. now destruct (Z.even k). Qed.
Lemma sgn_mod2 a b : a mod 2 = b mod 2 -> sgn a = sgn b.
Proof. intro H. unfold sgn. rewrite !Zeven_mod. now rewrite H. Qed.
Lemma sgn_even k : sgn (2 * k) = 1.
Proof. unfold sgn. now rewrite Z.even_mul. Qed.
Lemma sgn_cases k : sgn k = 1 \/ sgn k = -1.
Proof. unfold sgn. destruct (Z.even k); auto. Qed.

(** ** The symbol *)
Definition half (n : Z) : Z := (n - 1) / 2.
Definition eps (a n i : Z) : Z := if (a * i) mod n <=? half n then 1 else -1.
Definition sig (a n i : Z) : Z := if (a * i) mod n <=? half n then (a * i) mod n else n - (a * i) mod n.
Definition J (a n : Z) : Z := zprod (map (eps a n) (zrange (half n))).
Section Odd.
  Variable n : Z.
  Hypothesis Hn : 0 < n.
  Hypothesis Ho : n mod 2 = 1.
  Lemma half_eq : n = 2 * half n + 1.
  Proof. unfold half. pose proof (Z_div_mod_eq_full n 2). assert ((n - 1) / 2 = n / 2) as ->; [|lia]. symmetry. apply (Z.div_unique _ _ _ 0); lia. Qed.
  Lemma half_nonneg : 0 <= half n.
  Proof. pose proof half_eq. lia. Qed.
  Section Coprime.
    Variable a : Z.
    Hypothesis Ha : Z.gcd a n = 1.
    Lemma n_mul_div x : (n | a * x) -> (n | x).
    Proof. intro D. apply Gauss with a; [exact D|]. apply Zgcd_1_rel_prime. now rewrite Z.gcd_comm. Qed.
    Lemma ai_range i : 1 <= i <= half n -> 1 <= (a * i) mod n <= n - 1.
    Proof.
      intro H. pose proof (Z.mod_pos_bound (a * i) n Hn). assert ((a * i) mod n <> 0); [|lia]. intro E. apply Zmod_divide in E; [|lia].
      apply n_mul_div in E. apply Z.divide_pos_le in E; pose proof half_eq; lia.
    Qed.
    Lemma sig_range i : 1 <= i <= half n -> 1 <= sig a n i <= half n.
    Proof. intro H. pose proof (ai_range i H). pose proof half_eq. unfold sig. destruct (Z.leb_spec ((a * i) mod n) (half n)); lia. Qed.
    Lemma sig_eps i : 1 <= i <= half n -> (n | a * i - eps a n i * sig a n i).
    Proof.
      intro H. unfold sig, eps. pose proof (Z_div_mod_eq_full (a * i) n) as D. destruct (Z.leb_spec ((a * i) mod n) (half n)).
      - exists (a * i / n). lia.
      - exists (a * i / n + 1). lia.
    Qed.
    Lemma sig_inj i j : 1 <= i <= half n -> 1 <= j <= half n -> sig a n i = sig a n j -> i = j.
    Proof.
      intros Hi Hj E. pose proof (sig_eps i Hi) as Di. pose proof (sig_eps j Hj) as Dj. rewrite <- E in Dj. pose proof half_eq as He.
      assert ((n | i - j) \/ (n | i + j)) as [D|D].
      { unfold eps in *. destruct ((a * i) mod n <=? half n), ((a * j) mod n <=? half n).
        - left. apply n_mul_div. replace (a * (i - j)) with ((a * i - 1 * sig a n i) - (a * j - 1 * sig a n i)) by ring. now apply Z.divide_sub_r.
        - right. apply n_mul_div. replace (a * (i + j)) with ((a * i - 1 * sig a n i) + (a * j - -1 * sig a n i)) by ring. now apply Z.divide_add_r.
        - right. apply n_mul_div. replace (a * (i + j)) with ((a * i - -1 * sig a n i) + (a * j - 1 * sig a n i)) by ring. now apply Z.divide_add_r.
        - left. apply n_mul_div. replace (a * (i - j)) with ((a * i - -1 * sig a n i) - (a * j - -1 * sig a n i)) by ring. now apply Z.divide_sub_r. }
      - destruct (Z.eq_dec i j) as [|N]; [assumption|]. exfalso. apply Z.divide_abs_r in D. apply Z.divide_pos_le in D; lia.
      - apply Z.divide_pos_le in D; lia.
    Qed.
    Lemma sig_perm : Permutation (map (sig a n) (zrange (half n))) (zrange (half n)).
    Proof.
      apply perm_map; [apply zrange_nodup| |].
      - intros x I. apply in_zrange in I. apply in_zrange. now apply sig_range.
      - intros x y Ix Iy. apply in_zrange in Ix, Iy. now apply sig_inj.
    Qed.
    Lemma eps_cases i : eps a n i = 1 \/ eps a n i = -1.
    Proof. unfold eps. destruct (_ <=? _); auto. Qed.
  End Coprime.
  Lemma J_cases a : J a n = 1 \/ J a n = -1.
  Proof.
    unfold J. induction (zrange (half n)) as [|i l IH]; [now left|]. cbn [map]. rewrite zprod_cons. assert (eps a n i = 1 \/ eps a n i = -1) as E by (unfold eps; destruct (_ <=? _); auto). destruct E as [->| ->], IH as [->| ->]; cbn; auto.
  Qed.
  Lemma J_mod a b : a mod n = b mod n -> J a n = J b n.
  Proof.
    intro E. unfold J. f_equal. apply map_ext_in'. intros i _. unfold eps. now rewrite <- (Zmult_mod_idemp_l a), E, Zmult_mod_idemp_l.
  Qed.
  Lemma J_1 : J 1 n = 1.
  Proof.
    unfold J. rewrite (map_ext_in' _ (fun _ => 1)).
    - induction (zrange (half n)) as [|i l IH]; [reflexivity|]. cbn [map]. rewrite zprod_cons, IH. reflexivity.
    - intros i I. apply in_zrange in I. unfold eps. rewrite Z.mul_1_l. pose proof half_eq. rewrite Z.mod_small by lia. destruct (Z.leb_spec i (half n)); lia.
  Qed.
  (** Schering: the symbol is multiplicative. *)
  Theorem J_mul a b : Z.gcd a n = 1 -> Z.gcd b n = 1 -> J (a * b) n = J a n * J b n.
  Proof.
    intros Ha Hb. unfold J. rewrite (map_ext_in' (eps (a * b) n) (fun i => eps a n (sig b n i) * eps b n i)).
    - rewrite zprod_map_mul2. f_equal. rewrite <- (map_map (sig b n) (eps a n)). apply zprod_perm. apply Permutation_map. now apply sig_perm.
    - intros i I. apply in_zrange in I. pose proof (sig_range b Hb i I) as Rb. pose proof (sig_eps b i I) as D1. pose proof (sig_eps a (sig b n i) Rb) as D2.
      pose proof (sig_range a Ha _ Rb) as Ra. set (s := sig a n (sig b n i)) in *. set (e1 := eps b n i) in *. set (e2 := eps a n (sig b n i)) in *.
      assert (n | a * b * i - e2 * e1 * s) as D.
      { replace (a * b * i - e2 * e1 * s) with (a * (b * i - e1 * sig b n i) + e1 * (a * sig b n i - e2 * s)) by ring. apply Z.divide_add_r; now apply Z.divide_mul_r. }
      assert (e2 * e1 = 1 \/ e2 * e1 = -1) as E by (unfold e1, e2; destruct (eps_cases b i) as [->| ->], (eps_cases a (sig b n i)) as [->| ->]; auto).
      pose proof half_eq as He. unfold eps at 1. destruct E as [E|E]; rewrite E in *.
      + assert ((a * b * i) mod n = s) as ->. { rewrite <- (Z.mod_small s n) by lia. apply mod_eq_divide; [lia|]. now rewrite Z.mul_1_l in D. }
        destruct (Z.leb_spec s (half n)); lia.
      + assert ((a * b * i) mod n = n - s) as ->. { rewrite <- (Z.mod_small (n - s) n) by lia. apply mod_eq_divide; [lia|]. replace (a * b * i - (n - s)) with (a * b * i - -1 * s - n) by ring. apply Z.divide_sub_r; [exact D|apply Z.divide_refl]. }
        destruct (Z.leb_spec (n - s) (half n)); lia.
  Qed.
  Lemma J_pow a k : Z.gcd a n = 1 -> 0 <= k -> J (a ^ k) n = J a n ^ k.
  Proof.
    intros Ha Hk. pattern k. apply natlike_ind; [|clear k Hk; intros k Hk IH|exact Hk].
    - apply J_1.
    - rewrite !Z.pow_succ_r by exact Hk. rewrite J_mul, IH; [reflexivity|exact Ha|]. apply Zgcd_1_rel_prime. apply rel_prime_sym. apply rel_prime_Zpower_r; [exact Hk|]. apply rel_prime_sym. now apply Zgcd_1_rel_prime.
  Qed.
  (** The number of sign changes. *)
  Definition changes (a : Z) : Z := zsum (fun i => if (a * i) mod n <=? half n then 0 else 1) (zrange (half n)).
  Lemma J_changes a : J a n = sgn (changes a).
  Proof.
    unfold J, changes. induction (zrange (half n)) as [|i l IH]; [reflexivity|]. cbn [map]. rewrite zprod_cons, zsum_cons, IH, sgn_add. f_equal. unfold eps. now destruct (_ <=? _).
  Qed.
  (** Eisenstein: for odd a count the multiples of n below. *)
  Lemma eisenstein a : Z.gcd a n = 1 -> a mod 2 = 1 -> J a n = sgn (zsum (fun i => a * i / n) (zrange (half n))).
  Proof.
    intros Ha Hodd. rewrite J_changes. apply sgn_mod2. pose proof half_eq as He. set (l := zrange (half n)).
    assert (zsum (fun i => a * i) l = n * zsum (fun i => a * i / n) l + zsum (fun i => (a * i) mod n) l) as S1.
    { rewrite <- zsum_mul, <- zsum_add. apply zsum_ext. intros i _. apply Z_div_mod_eq_full. }
    assert (exists t, zsum (fun i => (a * i) mod n) l = zsum (sig a n) l + changes a + 2 * t) as [t S2].
    { exists (zsum (fun i => if (a * i) mod n <=? half n then 0 else half n - sig a n i) l). unfold changes. fold l. rewrite <- zsum_mul, <- !zsum_add. apply zsum_ext. intros i I. apply in_zrange in I. unfold sig. destruct (Z.leb_spec ((a * i) mod n) (half n)); lia. }
    assert (zsum (sig a n) l = zsum (fun i => i) l) as S3.
    { transitivity (zsum (fun i => i) (map (sig a n) l)); [now rewrite zsum_map|]. apply zsum_perm. exact (sig_perm a Ha). }
    rewrite S3 in S2. assert (zsum (fun i => a * i) l = a * zsum (fun i => i) l) as S0 by exact (zsum_mul a (fun i => i) l). rewrite S0, S2 in S1.
    pose proof (Z_div_mod_eq_full a 2) as Da. rewrite Hodd in Da. set (k := a / 2) in *. set (X := zsum (fun i => i) l) in *. set (Y := zsum (fun i => a * i / n) l) in *.
    apply mod_eq_divide; [lia|]. exists (k * X - half n * Y - Y - t). rewrite He in S1 at 1. nia.
  Qed.
End Odd.

(** ** Reciprocity *)
Section Recip.
  Variables m n : Z.
  Hypothesis Hm : 0 < m.
  Hypothesis Hn : 0 < n.
  Hypothesis Mo : m mod 2 = 1.
  Hypothesis No : n mod 2 = 1.
  Hypothesis Hg : Z.gcd m n = 1.
  Lemma floor_count : zsum (fun i => m * i / n) (zrange (half n)) = zsum (fun i => zsum (fun j => if n * j <=? m * i then 1 else 0) (zrange (half m))) (zrange (half n)).
  Proof.
    apply zsum_ext. intros i I. apply in_zrange in I. symmetry. pose proof (half_eq n No). pose proof (half_eq m Mo). apply count_multiples; [exact Hn|nia|].
    assert (m * i / n < half m + 1); [|lia]. apply Z.div_lt_upper_bound; [exact Hn|]. nia.
  Qed.
End Recip.
Theorem reciprocity m n : 0 < m -> 0 < n -> m mod 2 = 1 -> n mod 2 = 1 -> Z.gcd m n = 1 -> J m n * J n m = sgn (half m * half n).
Proof.
  intros Hm Hn Mo No Hg. rewrite (eisenstein n Hn No m Hg Mo), (eisenstein m Hm Mo n) by (try rewrite Z.gcd_comm; assumption). rewrite <- sgn_add. f_equal.
  rewrite (floor_count m n), (floor_count n m) by assumption. rewrite (zsum_swap _ (zrange (half m))). rewrite <- zsum_add.
  rewrite (zsum_ext _ (fun _ => half m)).
  - rewrite zsum_const, zrange_length. pose proof (half_nonneg n Hn No). rewrite Z2Nat.id by lia. reflexivity.
  - intros i I. apply in_zrange in I. rewrite <- zsum_add. rewrite (zsum_ext _ (fun _ => 1)).
    + rewrite zsum_const, zrange_length. pose proof (half_nonneg m Hm Mo). rewrite Z2Nat.id by lia. lia.
    + intros j Ij. apply in_zrange in Ij. pose proof (half_eq n No). pose proof (half_eq m Mo).
      assert (n * j <> m * i).
      { intro E. assert (n | i) as D. { apply Gauss with m; [exists j; lia|]. apply Zgcd_1_rel_prime. now rewrite Z.gcd_comm. } apply Z.divide_pos_le in D; lia. }
      destruct (Z.leb_spec (n * j) (m * i)), (Z.leb_spec (m * i) (n * j)); lia.
Qed.
Theorem J_2 n : 0 < n -> n mod 2 = 1 -> J 2 n = if (n mod 8 =? 1) || (n mod 8 =? 7) then 1 else -1.
Proof.
  intros Hn No. rewrite J_changes. unfold changes. pose proof (half_eq n No) as He. pose proof (half_nonneg n Hn No) as Hh.
  assert (zsum (fun i => if (2 * i) mod n <=? half n then 0 else 1) (zrange (half n)) + half n / 2 = half n) as E.
  { rewrite <- (count_multiples (half n) 2 (half n)); [|lia|lia|apply Z.div_le_upper_bound; lia]. rewrite <- zsum_add.
    rewrite (zsum_ext _ (fun _ => 1)); [rewrite zsum_const, zrange_length, Z2Nat.id by lia; lia|].
    intros i I. apply in_zrange in I. rewrite Z.mod_small by lia. destruct (2 * i <=? half n); reflexivity. }
  pose proof (Z_div_mod_eq_full n 8) as D8. pose proof (Z.mod_pos_bound n 8 ltac:(lia)) as B8.
  assert (n mod 8 = 1 \/ n mod 8 = 3 \/ n mod 8 = 5 \/ n mod 8 = 7) as C by lia.
  set (x := zsum _ _) in *. pose proof (Z_div_mod_eq_full (half n) 2) as D2. pose proof (Z.mod_pos_bound (half n) 2 ltac:(lia)) as B2.
  assert (x mod 2 = if (n mod 8 =? 1) || (n mod 8 =? 7) then 0 else 1) as X.
  { destruct C as [C|[C|[C|C]]]; rewrite C in *; cbn [Z.eqb orb Pos.eqb]; symmetry.
    - apply (Z.mod_unique _ _ (n / 8)); lia.
    - apply (Z.mod_unique _ _ (n / 8)); lia.
    - apply (Z.mod_unique _ _ (n / 8)); lia.
    - apply (Z.mod_unique _ _ (n / 8 + 1)); lia. }
  unfold sgn. rewrite Zeven_mod, X. now destruct (_ || _).
Qed.
(** Multiplicativity below. *)
Lemma sgn_half_mul m n : m mod 2 = 1 -> n mod 2 = 1 -> sgn (half (m * n)) = sgn (half m) * sgn (half n) /\ forall k, sgn (k * half (m * n)) = sgn (k * half m) * sgn (k * half n).
Proof.
  intros Mo No. assert (half (m * n) = half m + half n + 2 * (half m * half n)) as E.
  { assert ((m * n) mod 2 = 1) as MN by (rewrite Zmult_mod, Mo, No; reflexivity). pose proof (half_eq m Mo) as E1. pose proof (half_eq n No) as E2. pose proof (half_eq _ MN) as E3.
    set (a := half m) in *. set (b := half n) in *. rewrite E1, E2 in E3 at 1. lia. }
  split.
  - rewrite E, !sgn_add, sgn_even. lia.
  - intro k. rewrite E. replace (k * (half m + half n + 2 * (half m * half n))) with (k * half m + k * half n + 2 * (k * (half m * half n))) by ring. rewrite !sgn_add, sgn_even. lia.
Qed.
Lemma gcd_mul_1 a m n : Z.gcd a m = 1 -> Z.gcd a n = 1 -> Z.gcd a (m * n) = 1.
Proof. intros H1 H2. apply Zgcd_1_rel_prime. apply rel_prime_mult; now apply Zgcd_1_rel_prime. Qed.
Theorem J_mul_r a m n : 0 < m -> 0 < n -> m mod 2 = 1 -> n mod 2 = 1 -> Z.gcd a m = 1 -> Z.gcd a n = 1 -> J a (m * n) = J a m * J a n.
Proof.
  intros Hm Hn Mo No Gm Gn. assert ((m * n) mod 2 = 1) as MN by (rewrite Zmult_mod, Mo, No; reflexivity). assert (0 < m * n) as Hmn by lia.
  assert (exists b, 0 < b /\ b mod 2 = 1 /\ (m * n | a - b)) as (b & Hb & Bo & D).
  { pose proof (Z.mod_pos_bound a (m * n) Hmn). pose proof (Z_div_mod_eq_full a (m * n)) as Da. destruct (Z.eq_dec ((a mod (m * n)) mod 2) 1) as [E|E].
    - exists (a mod (m * n)). split; [|split; [exact E|exists (a / (m * n)); lia]]. destruct (Z.eq_dec (a mod (m * n)) 0) as [Z0|]; [rewrite Z0 in E; discriminate|lia].
    - exists (a mod (m * n) + m * n). split; [lia|]. split; [|exists (a / (m * n) - 1); lia]. rewrite Zplus_mod, MN. pose proof (Z.mod_pos_bound (a mod (m * n)) 2 ltac:(lia)). assert ((a mod (m * n)) mod 2 = 0) as -> by lia. reflexivity. }
  assert (m | a - b) as Dm by (apply Z.divide_trans with (m * n); [apply Z.divide_factor_l|exact D]).
  assert (n | a - b) as Dn by (apply Z.divide_trans with (m * n); [apply Z.divide_factor_r|exact D]).
  assert (Z.gcd b m = 1) as Bm. { rewrite <- Gm. rewrite Z.gcd_comm, (Z.gcd_comm a). destruct Dm as [k Dm]. replace b with (a + (- k) * m) by lia. apply Z.gcd_add_mult_diag_r. }
  assert (Z.gcd b n = 1) as Bn. { rewrite <- Gn. rewrite Z.gcd_comm, (Z.gcd_comm a). destruct Dn as [k Dn]. replace b with (a + (- k) * n) by lia. apply Z.gcd_add_mult_diag_r. }
  pose proof (gcd_mul_1 b m n Bm Bn) as Bmn.
  rewrite (J_mod _ a b) by (apply mod_eq_divide; [lia|exact D]). rewrite (J_mod m a b) by (apply mod_eq_divide; [lia|exact Dm]). rewrite (J_mod n a b) by (apply mod_eq_divide; [lia|exact Dn]).
  pose proof (reciprocity b (m * n) Hb Hmn Bo MN Bmn) as R. pose proof (reciprocity b m Hb Hm Bo Mo Bm) as R1. pose proof (reciprocity b n Hb Hn Bo No Bn) as R2.
  rewrite (J_mul b Hb Bo m n) in R by (now rewrite Z.gcd_comm). rewrite (proj2 (sgn_half_mul m n Mo No)) in R. rewrite <- R1, <- R2 in R.
  destruct (J_cases b m) as [X|X], (J_cases b n) as [Y|Y], (J_cases m b) as [Z|Z], (J_cases n b) as [W|W], (J_cases (m * n) b) as [V|V]; rewrite ?X, ?Y, ?Z, ?W, ?V in *; lia.
Qed.

(** ** Primes *)
Lemma zprod_congr p (f g : Z -> Z) l : (forall x, In x l -> (p | f x - g x)) -> (p | zprod (map f l) - zprod (map g l)).
Proof.
  induction l as [|x l IH]; intro H; [exists 0; reflexivity|]. cbn [map]. rewrite !zprod_cons.
  replace (f x * zprod (map f l) - g x * zprod (map g l)) with ((f x - g x) * zprod (map f l) + g x * (zprod (map f l) - zprod (map g l))) by ring.
  apply Z.divide_add_r; [apply Z.divide_mul_l; apply H; now left|]. apply Z.divide_mul_r. apply IH. intros y I. apply H. now right.
Qed.
(** Polynomials as lists of coefficients, the constant first. *)
Fixpoint peval (c : list Z) (x : Z) : Z := match c with [] => 0 | d :: c' => d + x * peval c' x end.
Fixpoint pquot (c : list Z) (r : Z) : list Z := match c with [] => [] | d :: c' => peval (d :: c') r :: pquot c' r end.
Lemma pquot_spec d c r x : peval (d :: c) x - peval (d :: c) r = (x - r) * peval (pquot c r) x.
Proof.
  revert d. induction c as [|e c IH]; intro d; [cbn; lia|]. cbn [pquot]. change (peval (d :: e :: c) x) with (d + x * peval (e :: c) x). change (peval (d :: e :: c) r) with (d + r * peval (e :: c) r).
  change (peval (peval (e :: c) r :: pquot c r) x) with (peval (e :: c) r + x * peval (pquot c r) x). specialize (IH e).
  replace (peval (e :: c) x) with (peval (e :: c) r + (x - r) * peval (pquot c r) x) by lia. ring.
Qed.
Lemma pquot_length c r : List.length (pquot c r) = List.length c.
Proof. induction c as [|d c IH]; [reflexivity|]. cbn [pquot List.length]. now rewrite IH. Qed.
Lemma pquot_last c r : last (pquot c r) 0 = last c 0.
Proof. induction c as [|d c IH]; [reflexivity|]. destruct c as [|e c]; [cbn; lia|]. change (last (pquot (d :: e :: c) r) 0) with (last (pquot (e :: c) r) 0). rewrite IH. reflexivity. Qed.
Section Prime.
  Variable p : Z.
  Hypothesis Hp : prime p.
  (** A polynomial has at most as many roots as its degree. *)
  Theorem root_bound l : forall c, ~ (p | last c 0) -> NoDup l -> (forall x, In x l -> 0 <= x < p /\ (p | peval c x)) -> (List.length l < List.length c)%nat.
  Proof.
    induction l as [|r l IH]; intros c Hc N H.
    - destruct c as [|d c]; [elim Hc; exists 0; reflexivity|cbn; lia].
    - destruct c as [|d c]; [elim Hc; exists 0; reflexivity|]. destruct c as [|e c].
      { destruct (H r) as [_ D]; [now left|]. elim Hc. cbn in *. replace d with (d + r * 0) by ring. exact D. }
      apply NoDup_cons_iff in N. destruct N as [Nr N]. assert (List.length l < List.length (pquot (e :: c) r))%nat as B; [|rewrite pquot_length in B; cbn [List.length] in *; lia].
      apply IH; [rewrite pquot_last; exact Hc|exact N|]. intros x I. destruct (H x) as [Rx Dx]; [now right|]. destruct (H r) as [Rr Dr]; [now left|]. split; [exact Rx|].
      assert (p | (x - r) * peval (pquot (e :: c) r) x) as D by (rewrite <- (pquot_spec d); now apply Z.divide_sub_r).
      apply prime_mult in D; [|exact Hp]. destruct D as [D|D]; [|exact D]. exfalso. assert (x = r) as -> by now apply (small_mod_eq p). contradiction.
  Qed.
  Hypothesis Hp2 : 2 < p.
  Lemma odd_p : p mod 2 = 1.
  Proof. pose proof (Z.mod_pos_bound p 2 ltac:(lia)). destruct (Z.eq_dec (p mod 2) 0) as [E|]; [|lia]. apply Zmod_divide in E; [|lia]. apply prime_div_prime in E; [lia|exact prime_2|exact Hp]. Qed.
  Lemma gcd_p a : ~ (p | a) -> Z.gcd a p = 1.
  Proof. intro N. rewrite Z.gcd_comm. apply Zgcd_1_rel_prime. now apply prime_rel_prime. Qed.
  Theorem gauss_lemma a : ~ (p | a) -> (p | a ^ half p - J a p).
  Proof.
    intro N. pose proof odd_p as Ho. assert (0 < p) as Hp0 by lia. pose proof (gcd_p a N) as Ga. pose proof (half_eq p Ho) as He.
    pose proof (zprod_congr p (fun i => a * i) (fun i => eps a p i * sig a p i) (zrange (half p))) as C.
    rewrite zprod_map_mul, zprod_map_mul2 in C. fold (J a p) in C. rewrite (zprod_perm _ _ (sig_perm p Hp0 Ho a Ga)), zrange_length in C. pose proof (half_nonneg p Hp0 Ho). rewrite Z2Nat.id in C by lia.
    rewrite <- Z.mul_sub_distr_r in C. assert (p | (a ^ half p - J a p) * zprod (zrange (half p))) as D.
    { apply C. intros x I. apply in_zrange in I. now apply sig_eps. }
    apply prime_mult in D; [|exact Hp]. destruct D as [D|D]; [exact D|]. exfalso. revert D. apply prime_prod; [exact Hp|]. intros x I. apply in_zrange in I. apply prime_small; lia.
  Qed.
  Lemma peval_pow k x : peval (repeat 0 k ++ [1]) x = x ^ Z.of_nat k.
  Proof. induction k as [|k IH]; [cbn [repeat app peval]; change (Z.of_nat 0) with 0; rewrite Z.pow_0_r; lia|]. cbn [repeat app peval]. rewrite IH. replace (Z.of_nat (S k)) with (Z.succ (Z.of_nat k)) by lia. rewrite Z.pow_succ_r by lia. lia. Qed.
  Lemma last_pow k d : last (d :: repeat 0 k ++ [1]) 0 = 1.
  Proof. rewrite app_comm_cons. apply last_last. Qed.
  (** Euler: the roots of x^((p-1)/2) - 1 are the squares. *)
  Theorem euler_square a : ~ (p | a) -> (p | a ^ half p - 1) -> exists x, 1 <= x <= half p /\ (p | x * x - a).
  Proof.
    intros N E. pose proof odd_p as Ho. assert (0 < p) as Hp0 by lia. pose proof (half_eq p Ho) as He.
    set (l := map (fun i => (i * i) mod p) (zrange (half p))).
    destruct (in_dec Z.eq_dec (a mod p) l) as [I|I].
    { apply in_map_iff in I. destruct I as (x & Ex & Ix). apply in_zrange in Ix. exists x. split; [exact Ix|]. now apply mod_eq_divide in Ex; [|lia]. }
    exfalso. pose proof (root_bound (a mod p :: l) (-1 :: repeat 0 (Z.to_nat (half p) - 1) ++ [1])) as B.
    assert (forall x, peval (-1 :: repeat 0 (Z.to_nat (half p) - 1) ++ [1]) x = x ^ half p - 1) as PE.
    { intro x. cbn [peval]. rewrite peval_pow. replace (half p) with (Z.succ (Z.of_nat (Z.to_nat (half p) - 1))) at 2 by lia. rewrite Z.pow_succ_r by lia. lia. }
    rewrite last_pow in B. cbn [List.length] in B. unfold l in B at 3. rewrite map_length, zrange_length, app_length, repeat_length in B. cbn [List.length] in B. apply (Nat.lt_irrefl (S (Z.to_nat (half p)))).
    replace (S (Z.to_nat (half p) - 1 + 1)) with (S (Z.to_nat (half p))) in B by lia. apply B; clear B.
    - intro D. apply Z.divide_pos_le in D; lia.
    - constructor; [exact I|]. unfold l.
      assert (forall i j, In i (zrange (half p)) -> In j (zrange (half p)) -> (i * i) mod p = (j * j) mod p -> i = j) as Inj.
      { intros i j Hi Hj Eq. apply in_zrange in Hi, Hj. apply mod_eq_divide in Eq; [|lia]. replace (i * i - j * j) with ((i - j) * (i + j)) in Eq by ring.
        apply prime_mult in Eq; [|exact Hp]. destruct Eq as [D|D]; [apply (small_mod_eq p); [lia|lia|exact D]|]. apply Z.divide_pos_le in D; lia. }
      pose proof (zrange_nodup (half p)) as ND. clear I l. induction (zrange (half p)) as [|i k IHk]; [constructor|]. cbn [map]. apply NoDup_cons_iff in ND. destruct ND as [Ni ND]. constructor.
      + intro I'. apply in_map_iff in I'. destruct I' as (j & Ej & Ij). apply Ni. rewrite (Inj i j); [exact Ij|now left|now right|now symmetry].
      + apply IHk; [|exact ND]. intros x y Ix Iy. apply Inj; now right.
    - clear I. intros x [<-|I].
      + split; [now apply Z.mod_pos_bound|]. rewrite PE. apply Zmod_divide; [lia|]. rewrite Zminus_mod, pow_mod_l, <- Zminus_mod. now apply Zdivide_mod.
      + unfold l in I. apply in_map_iff in I. destruct I as (i & <- & Ii). apply in_zrange in Ii. split; [now apply Z.mod_pos_bound|]. rewrite PE. apply Zmod_divide; [lia|].
        rewrite Zminus_mod, pow_mod_l, <- Zminus_mod. apply Zdivide_mod. pose proof (half_nonneg p Hp0 Ho).
        replace (i * i) with (i ^ 2) by ring. rewrite <- Z.pow_mul_r by lia. replace (2 * half p) with (p - 1) by lia.
        apply mod_eq_divide; [lia|]. rewrite (fermat p Hp); [symmetry; apply Z.mod_small; lia|]. apply prime_small; lia.
  Qed.
  (** For an odd prime the symbol is that of Legendre. *)
  Theorem J_legendre a : ~ (p | a) -> J a p = 1 <-> exists x, (p | x * x - a).
  Proof.
    intro N. pose proof odd_p as Ho. assert (0 < p) as Hp0 by lia. split.
    - intro E. pose proof (gauss_lemma a N) as D. rewrite E in D. destruct (euler_square a N D) as (x & _ & Dx). now exists x.
    - intros (x & D). assert (~ (p | x)) as Nx. { intro X. apply N. replace a with (x * x - (x * x - a)) by ring. apply Z.divide_sub_r; [now apply Z.divide_mul_l|exact D]. }
      rewrite (J_mod p a (x * x)).
      + rewrite (J_mul p Hp0 Ho) by now apply gcd_p. destruct (J_cases p x) as [->| ->]; reflexivity.
      + symmetry. apply mod_eq_divide; [lia|exact D].
  Qed.
  Theorem euler_J a : ~ (p | a) -> a ^ half p mod p = (J a p) mod p.
  Proof. intro N. apply mod_eq_divide; [lia|]. now apply gauss_lemma. Qed.
End Prime.
