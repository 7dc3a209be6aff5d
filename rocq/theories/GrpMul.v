(** Multiples in a commutative group given by a predicate on a type.  Nothing
    here models /repo. *)
From Coq Require Import ZArith Znumtheory Lia List.
Open Scope Z_scope.

Section Group.
  Context {T : Type}.
  Variables (on : T -> Prop) (zero : T) (add : T -> T -> T) (neg : T -> T).
  Hypothesis zero_on : on zero.
  Hypothesis add_on : forall P Q, on P -> on Q -> on (add P Q).
  Hypothesis neg_on : forall P, on P -> on (neg P).
  Hypothesis add_0_l : forall P, on P -> add zero P = P.
  Hypothesis add_comm : forall P Q, on P -> on Q -> add P Q = add Q P.
  Hypothesis add_assoc : forall P Q R, on P -> on Q -> on R -> add (add P Q) R = add P (add Q R).
  Hypothesis add_neg : forall P, on P -> add P (neg P) = zero.

  (** The k-fold sum P + (P + ... (P + 0)). *)
  Definition nmul (k : nat) (P : T) : T := Nat.iter k (add P) zero.
  (** Multiples by integers. *)
  Definition zmul (e : Z) (P : T) : T := if e <? 0 then neg (nmul (Z.to_nat (- e)) P) else nmul (Z.to_nat e) P.

  Lemma add_0_r P : on P -> add P zero = P.
  Proof. intro H. rewrite add_comm by assumption. now apply add_0_l. Qed.
  Lemma cancel_l P Q R : on P -> on Q -> on R -> add P Q = add P R -> Q = R.
  Proof.
    intros HP HQ HR E. assert (forall X, on X -> add (neg P) (add P X) = X) as C.
    { intros X HX. rewrite <- add_assoc by auto. rewrite (add_comm (neg P) P) by auto. rewrite add_neg by auto. now apply add_0_l. }
    rewrite <- (C Q HQ), <- (C R HR). now f_equal.
  Qed.
  Lemma neg_unique P Q : on P -> on Q -> add P Q = zero -> Q = neg P.
  Proof. intros HP HQ E. apply (cancel_l P); auto. now rewrite add_neg. Qed.
  Lemma neg_zero : neg zero = zero.
  Proof. symmetry. apply neg_unique; auto. Qed.
  Lemma neg_neg P : on P -> neg (neg P) = P.
  Proof. intro H. symmetry. apply neg_unique; auto. rewrite add_comm by auto. now apply add_neg. Qed.
  Lemma neg_add P Q : on P -> on Q -> neg (add P Q) = add (neg P) (neg Q).
  Proof.
    intros HP HQ. symmetry. apply neg_unique; auto. rewrite add_assoc by auto. rewrite (add_comm (neg P)) by auto.
    rewrite <- (add_assoc Q) by auto. rewrite add_neg by auto. rewrite add_0_l by auto. now apply add_neg.
  Qed.
  Lemma nmul_on k P : on P -> on (nmul k P).
  Proof. intro H. induction k as [|k IH]; [exact zero_on|]. cbn. auto. Qed.
  Lemma nmul_add j k P : on P -> nmul (j + k) P = add (nmul j P) (nmul k P).
  Proof.
    intro H. induction j as [|j IH].
    - cbn. symmetry. apply add_0_l. now apply nmul_on.
    - change (nmul (S j + k) P) with (add P (nmul (j + k) P)). change (nmul (S j) P) with (add P (nmul j P)). rewrite IH. symmetry. apply add_assoc; auto using nmul_on.
  Qed.
  Lemma zmul_on e P : on P -> on (zmul e P).
  Proof. intro H. unfold zmul. destruct (e <? 0); auto using nmul_on. Qed.
  Lemma zmul_nonneg e P : 0 <= e -> zmul e P = nmul (Z.to_nat e) P.
  Proof. intro H. unfold zmul. destruct (Z.ltb_spec e 0); [lia|reflexivity]. Qed.
  Lemma zmul_0 P : zmul 0 P = zero.
  Proof. reflexivity. Qed.
  Lemma zmul_1 P : on P -> zmul 1 P = P.
  Proof. intro H. cbn. now apply add_0_r. Qed.
  Lemma zmul_neg e P : on P -> zmul (- e) P = neg (zmul e P).
  Proof.
    intro H. unfold zmul. destruct (Z.ltb_spec (- e) 0), (Z.ltb_spec e 0); try lia.
    - now rewrite Z.opp_involutive.
    - rewrite neg_neg by auto using nmul_on. reflexivity.
    - assert (e = 0) by lia. subst e. cbn. now rewrite neg_zero.
  Qed.
  Lemma nmul_sub j k P : on P -> (k <= j)%nat -> nmul (j - k) P = add (nmul j P) (neg (nmul k P)).
  Proof.
    intros H L. apply (cancel_l (nmul k P)); auto using nmul_on. rewrite <- nmul_add by exact H. replace (k + (j - k))%nat with j by lia.
    rewrite (add_comm (nmul j P)) by auto using nmul_on. rewrite <- add_assoc by auto using nmul_on. rewrite add_neg by auto using nmul_on. symmetry. apply add_0_l. auto using nmul_on.
  Qed.
  Lemma zmul_add a b P : on P -> zmul (a + b) P = add (zmul a P) (zmul b P).
  Proof.
    intro H. assert (forall a b, 0 <= a -> 0 <= b -> zmul (a - b) P = add (zmul a P) (neg (zmul b P))) as S.
    { intros x y Hx Hy. rewrite (zmul_nonneg x), (zmul_nonneg y) by assumption. destruct (Z.le_gt_cases y x) as [L|L].
      - rewrite zmul_nonneg by lia. rewrite Z2Nat.inj_sub by lia. apply nmul_sub; [exact H|lia].
      - replace (x - y) with (- (y - x)) by lia. rewrite zmul_neg by exact H. rewrite zmul_nonneg by lia. rewrite Z2Nat.inj_sub by lia.
        rewrite nmul_sub by (auto; lia). rewrite neg_add by auto using nmul_on. rewrite neg_neg by auto using nmul_on. apply add_comm; auto using nmul_on. }
    assert (forall a b, 0 <= a -> 0 <= b -> zmul (a + b) P = add (zmul a P) (zmul b P)) as A.
    { intros x y Hx Hy. rewrite !zmul_nonneg by lia. rewrite Z2Nat.inj_add by lia. now apply nmul_add. }
    destruct (Z.le_gt_cases 0 a) as [Ha|Ha], (Z.le_gt_cases 0 b) as [Hb|Hb].
    - now apply A.
    - replace (a + b) with (a - (- b)) by lia. rewrite S by lia. rewrite zmul_neg by exact H. rewrite neg_neg by auto using zmul_on. reflexivity.
    - replace (a + b) with (b - (- a)) by lia. rewrite S by lia. rewrite zmul_neg by exact H. rewrite neg_neg by auto using zmul_on. apply add_comm; auto using zmul_on.
    - replace (a + b) with (- (- a + - b)) by lia. rewrite zmul_neg by exact H. rewrite A by lia. rewrite neg_add by auto using zmul_on. rewrite !zmul_neg by exact H. rewrite !neg_neg by auto using zmul_on. reflexivity.
  Qed.
  Lemma zmul_zero e : zmul e zero = zero.
  Proof.
    assert (forall k, nmul k zero = zero) as N by (induction k as [|k IH]; [reflexivity|]; change (nmul (S k) zero) with (add zero (nmul k zero)); rewrite IH; now apply add_0_l).
    unfold zmul. destruct (e <? 0); rewrite N; [apply neg_zero|reflexivity].
  Qed.
  Lemma zmul_mul a b P : on P -> zmul a (zmul b P) = zmul (a * b) P.
  Proof.
    intro H. assert (forall a, 0 <= a -> zmul a (zmul b P) = zmul (a * b) P) as K.
    { apply (natlike_ind (fun a => zmul a (zmul b P) = zmul (a * b) P)); [reflexivity|]. intros x Hx IH. unfold Z.succ. rewrite zmul_add by auto using zmul_on.
      rewrite IH, zmul_1 by auto using zmul_on. rewrite <- zmul_add by exact H. f_equal. lia. }
    destruct (Z.le_gt_cases 0 a) as [Ha|Ha]; [now apply K|]. replace a with (- (- a)) at 1 by lia. rewrite zmul_neg by auto using zmul_on. rewrite K by lia.
    rewrite <- zmul_neg by exact H. f_equal. lia.
  Qed.
  Lemma zmul_distr e P Q : on P -> on Q -> zmul e (add P Q) = add (zmul e P) (zmul e Q).
  Proof.
    intros HP HQ. assert (forall a, 0 <= a -> zmul a (add P Q) = add (zmul a P) (zmul a Q)) as K.
    { apply (natlike_ind (fun a => zmul a (add P Q) = add (zmul a P) (zmul a Q))); [cbn; symmetry; now apply add_0_l|]. intros x Hx IH. unfold Z.succ. rewrite !zmul_add by auto.
      rewrite IH, !zmul_1 by auto. rewrite !add_assoc by auto using zmul_on. f_equal. rewrite <- !add_assoc by auto using zmul_on. f_equal. apply add_comm; auto using zmul_on. }
    destruct (Z.le_gt_cases 0 e) as [He|He]; [now apply K|]. replace e with (- (- e)) by lia. rewrite !(zmul_neg (- e)) by auto. rewrite K by lia. apply neg_add; auto using zmul_on.
  Qed.
  Lemma zmul_negp e P : on P -> zmul e (neg P) = neg (zmul e P).
  Proof. intro H. replace (neg P) with (zmul (-1) P) by (change (-1) with (- (1)); rewrite zmul_neg by exact H; now rewrite zmul_1). rewrite zmul_mul by exact H. rewrite <- zmul_neg by exact H. f_equal. lia. Qed.
  (** Points of order dividing n. *)
  Lemma zmul_multiple n k P : on P -> zmul n P = zero -> zmul (k * n) P = zero.
  Proof. intros H E. rewrite <- zmul_mul by exact H. rewrite E. apply zmul_zero. Qed.
  Lemma zmul_mod n e P : on P -> zmul n P = zero -> zmul (e mod n) P = zmul e P.
  Proof.
    intros H E. destruct (Z.eq_dec n 0) as [->|N]; [now rewrite Zmod_0_r|]. rewrite (Z_div_mod_eq_full e n) at 2. rewrite zmul_add by exact H. rewrite (Z.mul_comm n). rewrite zmul_multiple by assumption.
    symmetry. apply add_0_l. auto using zmul_on.
  Qed.
  Lemma zmul_coprime n e P : on P -> zmul n P = zero -> rel_prime e n -> zmul e P = zero -> P = zero.
  Proof.
    intros H E R E'. destruct (rel_prime_bezout _ _ R) as [u v B]. rewrite <- (zmul_1 P) by exact H. rewrite <- B. rewrite zmul_add by exact H. rewrite !zmul_multiple by assumption. now apply add_0_l.
  Qed.
  Lemma zmul_prime n e P : on P -> prime n -> zmul n P = zero -> P <> zero -> zmul e P = zero <-> (n | e).
  Proof.
    intros H Hn E N. split.
    - intro E'. destruct (Zdivide_dec n e) as [D|D]; [exact D|]. exfalso. apply N. apply (zmul_coprime n e); auto. apply rel_prime_sym. now apply prime_rel_prime.
    - intros [k ->]. now apply zmul_multiple.
  Qed.
  Lemma zmul_eq n a b P : on P -> prime n -> zmul n P = zero -> P <> zero -> zmul a P = zmul b P <-> (n | a - b).
  Proof.
    intros H Hn E N. rewrite <- (zmul_prime n (a - b) P) by assumption. unfold Z.sub. rewrite zmul_add, zmul_neg by exact H. split; intro X.
    - rewrite X. apply add_neg. auto using zmul_on.
    - apply neg_unique in X; auto using zmul_on. apply (f_equal neg) in X. rewrite !neg_neg in X by auto using zmul_on. now symmetry.
  Qed.
End Group.
