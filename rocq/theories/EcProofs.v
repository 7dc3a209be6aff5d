(** The point operations of EcModel.v compute in the group of EcGroup.v. *)
From Coq Require Import ZArith Znumtheory List Lia Bool Field.
From Verif Require Import PyBase PyLoop NtModel NtProofs ZpTheory EcGroup GrpMul EcModel.
Open Scope Z_scope.

(** ** The group of a curve over the integers modulo p *)
Section Spec.
  Variable c : curve.
  Notation p := (c_p c).
  Definition EF : Type := Fp p.
  Definition ept : Type := pt EF.
  Definition e_inf : ept := Inf EF.
  Definition e_on : ept -> Prop := on EF (Fadd p) (Fmul p) (fp p (c_a c)) (fp p (c_b c)).
  Definition e_add : ept -> ept -> ept := add EF (F0 p) (F1 p) (Fadd p) (Fmul p) (Fsub p) (Fdiv p) (Fdec p) (fp p (c_a c)).
  Definition e_neg : ept -> ept := neg EF (Fopp p).
  Definition e_mul : Z -> ept -> ept := zmul e_inf e_add e_neg.
  (** The point of the curve a Python point stands for. *)
  Definition eabs (P : point) : ept := match P with PInf => e_inf | PAff x y _ => Aff EF (fp p x) (fp p y) end.
  (** What the library keeps true of its points: the first coordinate is
      reduced and the equation holds. *)
  Definition good (P : point) : Prop := match P with PInf => True | PAff x y _ => 0 <= x < p /\ contains_point c x y = true end.
  (** The points that operations create: both coordinates reduced. *)
  Definition fresh (P : point) : Prop := match P with PInf => True | PAff x y o => 0 <= x < p /\ 0 <= y < p /\ o = 0 end.
  Definition curve_ok : Prop := prime p /\ 2 < p /\ forall x, (x * x * x + c_a c * x + c_b c) mod p <> 0.
End Spec.

Section Ec.
  Variable c : curve.
  Hypothesis Hc : curve_ok c.
  Notation p := (c_p c).
  Lemma ecp : prime p. Proof. apply Hc. Qed.
  Lemma ecp2 : 2 < p. Proof. apply Hc. Qed.
  Lemma ec_no2 : forall x, (x * x * x + c_a c * x + c_b c) mod p <> 0. Proof. apply Hc. Qed.
  Notation fe := (fp p).
  Infix "+f" := (Fadd p) (at level 50, left associativity).
  Infix "-f" := (Fsub p) (at level 50, left associativity).
  Infix "*f" := (Fmul p) (at level 40, left associativity).
  Infix "/f" := (Fdiv p) (at level 40, left associativity).
  Add Field Fef : (Fp_field p ecp).

  Lemma fe_2 : fe 2 = F1 p +f F1 p.
  Proof. unfold F1. now rewrite <- fp_add. Qed.
  Lemma fe_3 : fe 3 = F1 p +f F1 p +f F1 p.
  Proof. unfold F1. now rewrite <- !fp_add. Qed.
  Lemma e_two : F1 p +f F1 p <> F0 p.
  Proof. rewrite <- fe_2. intro H. apply fp_0 in H; [|exact ecp]. pose proof ecp2. apply Z.divide_pos_le in H; lia. Qed.
  Lemma contains_on x y : contains_point c x y = true <-> eqn (EF c) (Fadd p) (Fmul p) (fe (c_a c)) (fe (c_b c)) (fe x) (fe y).
  Proof.
    unfold contains_point, eqn. rewrite Z.eqb_eq. pose proof ecp2. rewrite <- !fp_mul, <- !fp_add. split; intro E.
    - apply fp_eq. apply mod_eq_divide; [lia|]. apply Zmod_divide; [lia|exact E].
    - apply (fp_eq p) in E. apply mod_eq_divide in E; [|lia]. apply Zdivide_mod. exact E.
  Qed.
  Lemma e_no2 (x : EF c) : ~ eqn (EF c) (Fadd p) (Fmul p) (fe (c_a c)) (fe (c_b c)) x (F0 p).
  Proof.
    rewrite <- (fp_val p x). unfold F0. intro H. apply contains_on in H. unfold contains_point in H. rewrite Z.eqb_eq in H.
    apply (ec_no2 (val p x)). pose proof ecp2. apply Zmod_divide in H; [|lia]. apply Zdivide_mod.
    replace (0 * 0 - (val p x * val p x * val p x + c_a c * val p x + c_b c)) with (- (val p x * val p x * val p x + c_a c * val p x + c_b c)) in H by ring. exact (proj1 (Z.divide_opp_r _ _) H).
  Qed.
  Lemma e_smooth : forall x : EF c, ~ (eqn (EF c) (Fadd p) (Fmul p) (fe (c_a c)) (fe (c_b c)) x (F0 p) /\ (F1 p +f F1 p +f F1 p) *f (x *f x) +f fe (c_a c) = F0 p).
  Proof. intros x [H _]. exact (e_no2 x H). Qed.

  (** ** The group laws, for this curve *)
  Notation "P ⊕ Q" := (e_add c P Q) (at level 50, left associativity).
  Notation O := (e_inf c).
  Lemma e_inf_on : e_on c O. Proof. exact I. Qed.
  Lemma e_add_on P Q : e_on c P -> e_on c Q -> e_on c (P ⊕ Q).
  Proof. exact (add_on _ _ _ _ _ _ _ _ _ (Fp_field p ecp) (Fdec p) e_two _ _ e_smooth P Q). Qed.
  Lemma e_neg_on P : e_on c P -> e_on c (e_neg c P).
  Proof. exact (neg_on _ _ _ _ _ _ _ _ _ (Fp_field p ecp) _ _ P). Qed.
  Lemma e_add_0_l P : e_on c P -> O ⊕ P = P.
  Proof. intros _. reflexivity. Qed.
  Lemma e_add_0_r P : P ⊕ O = P.
  Proof. now destruct P. Qed.
  Lemma e_add_comm P Q : e_on c P -> e_on c Q -> P ⊕ Q = Q ⊕ P.
  Proof. exact (add_comm _ _ _ _ _ _ _ _ _ (Fp_field p ecp) (Fdec p) e_two _ _ P Q). Qed.
  Lemma e_add_assoc P Q R : e_on c P -> e_on c Q -> e_on c R -> P ⊕ Q ⊕ R = P ⊕ (Q ⊕ R).
  Proof. exact (add_assoc _ _ _ _ _ _ _ _ _ (Fp_field p ecp) (Fdec p) e_two _ _ e_smooth P Q R). Qed.
  Lemma e_add_neg P : e_on c P -> P ⊕ e_neg c P = O.
  Proof. intros _. exact (add_neg _ _ _ _ _ _ _ _ _ (Fp_field p ecp) (Fdec p) _ P). Qed.
  Lemma e_neg_neg P : e_neg c (e_neg c P) = P.
  Proof. exact (EcGroup.neg_neg _ _ _ _ _ _ _ _ _ (Fp_field p ecp) P). Qed.
  Definition e_mul_on := zmul_on (e_on c) O (e_add c) (e_neg c) e_inf_on e_add_on e_neg_on.
  Definition e_mul_1 := zmul_1 (e_on c) O (e_add c) (e_neg c) e_inf_on e_add_0_l e_add_comm.
  Definition e_mul_add := zmul_add (e_on c) O (e_add c) (e_neg c) e_inf_on e_add_on e_neg_on e_add_0_l e_add_comm e_add_assoc e_add_neg.
  Definition e_mul_mul := zmul_mul (e_on c) O (e_add c) (e_neg c) e_inf_on e_add_on e_neg_on e_add_0_l e_add_comm e_add_assoc e_add_neg.
  Definition e_mul_neg := zmul_neg (e_on c) O (e_add c) (e_neg c) e_inf_on e_add_on e_neg_on e_add_0_l e_add_comm e_add_assoc e_add_neg.
  Definition e_mul_distr := zmul_distr (e_on c) O (e_add c) (e_neg c) e_inf_on e_add_on e_neg_on e_add_0_l e_add_comm e_add_assoc e_add_neg.
  Definition e_mul_mod := zmul_mod (e_on c) O (e_add c) (e_neg c) e_inf_on e_add_on e_neg_on e_add_0_l e_add_comm e_add_assoc e_add_neg.
  Definition e_mul_prime := zmul_prime (e_on c) O (e_add c) (e_neg c) e_inf_on e_add_on e_neg_on e_add_0_l e_add_comm e_add_assoc e_add_neg.
  Definition e_mul_eq := zmul_eq (e_on c) O (e_add c) (e_neg c) e_inf_on e_add_on e_neg_on e_add_0_l e_add_comm e_add_assoc e_add_neg.

  (** ** Points of the library *)
  Lemma good_on P : good c P -> e_on c (eabs c P).
  Proof. destruct P as [|x y o]; [intros _; exact I|]. intros [_ H]. now apply contains_on. Qed.
  Lemma on_inv x : (0 <= x < p -> fe x <> F0 p -> x <> 0).
  Proof. intros H N ->. now apply N. Qed.
  Lemma inverse_fe d : fe d <> F0 p -> exists i, inverse_mod d p = Ok i /\ fe i = Finv p (fe d).
  Proof.
    intro N. pose proof ecp2. destruct (inverse_mod_ok d p) as (i & E & R & M); [lia| |].
    - rewrite Z.gcd_comm. apply Zgcd_1_rel_prime. apply prime_rel_prime; [exact ecp|]. intro D. apply N. now apply fp_0; [exact ecp|].
    - exists i. split; [exact E|]. assert (fe d *f fe i = F1 p) as X by (rewrite <- fp_mul; apply fp_eq; rewrite M; symmetry; apply Z.mod_small; lia).
      transitivity (Finv p (fe d) *f (fe d *f fe i)); [field; exact N|]. rewrite X. ring.
  Qed.
  Lemma new_ok x y : e_on c (Aff (EF c) (fe x) (fe y)) -> point_new c (x mod p) (y mod p) 0 = Ok (PAff (x mod p) (y mod p) 0) /\ good c (PAff (x mod p) (y mod p) 0) /\ fresh c (PAff (x mod p) (y mod p) 0).
  Proof.
    intro H. pose proof ecp2. assert (contains_point c (x mod p) (y mod p) = true) as C by (apply contains_on; rewrite !fp_mod; exact H).
    unfold point_new. rewrite C. pose proof (Z.mod_pos_bound x p ltac:(lia)). pose proof (Z.mod_pos_bound y p ltac:(lia)). repeat split; try lia; assumption.
  Qed.
  Lemma y_neq_0 x y : contains_point c x y = true -> fe y <> F0 p.
  Proof. intros H E. apply contains_on in H. rewrite E in H. exact (e_no2 _ H). Qed.
  Theorem ec_double_ok P : good c P -> exists R, ec_double c P = Ok R /\ good c R /\ fresh c R /\ eabs c R = eabs c P ⊕ eabs c P.
  Proof.
    intro G. destruct P as [|x y o]; [exists PInf; now repeat split|].
    pose proof (good_on _ G) as On. destruct G as [Hx C]. pose proof (y_neq_0 _ _ C) as N.
    assert (fe (2 * y) <> F0 p) as N2.
    { rewrite fp_mul, fe_2. intro E. assert (fe y = ((F1 p +f F1 p) *f fe y) /f (F1 p +f F1 p)) as E' by (field; exact e_two). apply N. rewrite E', E. field. exact e_two. }
    destruct (inverse_fe _ N2) as (i & Hi & Fi). cbn [ec_double]. cbv zeta. rewrite Hi. cbn [bind].
    assert (eabs c (PAff x y o) ⊕ eabs c (PAff x y o) = Aff (EF c) (fe ((((3 * x * x + c_a c) * i) mod p) * (((3 * x * x + c_a c) * i) mod p) - 2 * x))
       (fe ((((3 * x * x + c_a c) * i) mod p) * (x - ((((3 * x * x + c_a c) * i) mod p) * (((3 * x * x + c_a c) * i) mod p) - 2 * x) mod p) - y))) as A.
    { unfold eabs, e_add, add. destruct (Fdec p (fe x) (fe x)) as [_|X]; [|now elim X]. destruct (Fdec p (fe y +f fe y) (F0 p)) as [X|X].
      { exfalso. apply N2. rewrite fp_mul, fe_2, <- X. ring. }
      assert (fe (((3 * x * x + c_a c) * i) mod p) = ((F1 p +f F1 p +f F1 p) *f (fe x *f fe x) +f fe (c_a c)) /f ((F1 p +f F1 p) *f fe y)) as L.
      { rewrite fp_mod, fp_mul, Fi, fp_add, !fp_mul, fe_2, fe_3. field. split; [exact N|exact e_two]. }
      unfold third. rewrite <- L. set (l := ((3 * x * x + c_a c) * i) mod p). f_equal.
      - rewrite fp_sub, fp_mul, fp_mul, fe_2. ring.
      - rewrite fp_sub, fp_mul, fp_sub, fp_mod, fp_sub, !fp_mul, fe_2. ring. }
    pose proof (e_add_on _ _ On On) as O2. rewrite A in O2. set (x3 := (((3 * x * x + c_a c) * i) mod p) * (((3 * x * x + c_a c) * i) mod p) - 2 * x) in *.
    destruct (new_ok _ _ O2) as (E & Gd & Fr). eexists. split; [exact E|]. split; [exact Gd|]. split; [exact Fr|]. rewrite A. cbn [eabs]. now rewrite !fp_mod.
  Qed.
  Theorem ec_add_ok P Q : good c P -> good c Q -> exists R, ec_add c P Q = Ok R /\ good c R /\ (fresh c R \/ (R = P /\ Q = PInf) \/ (R = Q /\ P = PInf)) /\ eabs c R = eabs c P ⊕ eabs c Q.
  Proof.
    intros GP GQ. destruct Q as [|x2 y2 o2].
    { exists P. cbn. split; [reflexivity|]. split; [exact GP|]. split; [tauto|]. now destruct P. }
    destruct P as [|x1 y1 o1]; [exists (PAff x2 y2 o2); split; [reflexivity|]; split; [exact GQ|]; split; [tauto|reflexivity]|].
    pose proof (good_on _ GP) as OP. pose proof (good_on _ GQ) as OQ. destruct GP as [H1 C1]. destruct GQ as [H2 C2]. cbn [ec_add]. cbv zeta. pose proof ecp2.
    destruct (Z.eqb_spec x1 x2) as [<-|Nx].
    - destruct (Z.eqb_spec ((y1 + y2) mod p) 0) as [E|N].
      + exists PInf. split; [reflexivity|]. split; [exact I|]. split; [left; exact I|]. cbn. unfold e_add, add. destruct (Fdec p (fe x1) (fe x1)) as [_|X]; [|now elim X].
        destruct (Fdec p (fe y1 +f fe y2) (F0 p)) as [_|X]; [reflexivity|]. exfalso. apply X. rewrite <- fp_add. apply fp_0; [exact ecp|]. apply Zmod_divide; [lia|exact E].
      + destruct (ec_double_ok (PAff x1 y1 o1)) as (R & E & G & Fr & A); [now split|]. exists R. split; [exact E|]. split; [exact G|]. split; [now left|]. rewrite A. cbn [eabs]. unfold e_add, add.
        destruct (Fdec p (fe x1) (fe x1)) as [_|X]; [|now elim X].
        assert (fe y1 = fe y2 \/ fe y1 +f fe y2 = F0 p) as S by (apply (same_x _ _ _ _ _ _ _ _ _ (Fp_field p ecp) (Fdec p) (fe (c_a c)) (fe (c_b c)) (fe x1)); now apply contains_on).
        destruct (Fdec p (fe y1 +f fe y2) (F0 p)) as [X|X].
        { exfalso. apply N. apply Zdivide_mod. apply fp_0; [exact ecp|]. now rewrite fp_add. }
        destruct S as [S|S]; [|now elim X]. rewrite <- S in X. destruct (Fdec p (fe y1 +f fe y1) (F0 p)) as [Y|Y]; [now elim X|reflexivity].
    - assert (fe (x2 - x1) <> F0 p) as N2. { intro E. apply fp_0 in E; [|exact ecp]. apply Nx. symmetry. apply (small_mod_eq p); [lia|lia|exact E]. }
      destruct (inverse_fe _ N2) as (i & Hi & Fi). rewrite Hi. cbn [bind].
      assert (fe x2 -f fe x1 <> F0 p) as N3 by now rewrite <- fp_sub.
      assert (eabs c (PAff x1 y1 o1) ⊕ eabs c (PAff x2 y2 o2) = Aff (EF c) (fe ((((y2 - y1) * i) mod p) * (((y2 - y1) * i) mod p) - x1 - x2))
       (fe ((((y2 - y1) * i) mod p) * (x1 - ((((y2 - y1) * i) mod p) * (((y2 - y1) * i) mod p) - x1 - x2) mod p) - y1))) as A.
      { unfold eabs, e_add, add. destruct (Fdec p (fe x1) (fe x2)) as [X|_]; [exfalso; apply N3; rewrite X; ring|].
        assert (fe (((y2 - y1) * i) mod p) = (fe y2 -f fe y1) /f (fe x2 -f fe x1)) as L.
        { rewrite fp_mod, fp_mul, Fi, !fp_sub. field. exact N3. }
        unfold third. rewrite <- L. set (l := ((y2 - y1) * i) mod p). f_equal.
        - rewrite !fp_sub, fp_mul. ring.
        - rewrite fp_sub, fp_mul, fp_sub, fp_mod, !fp_sub, !fp_mul. ring. }
      pose proof (e_add_on _ _ OP OQ) as O2. rewrite A in O2. set (x3 := (((y2 - y1) * i) mod p) * (((y2 - y1) * i) mod p) - x1 - x2) in *.
      destruct (new_ok _ _ O2) as (E & Gd & Fr). eexists. split; [exact E|]. split; [exact Gd|]. split; [now left|]. rewrite A. cbn [eabs]. now rewrite !fp_mod.
  Qed.

  (** ** Multiplication *)
  Lemma land_pow2 x j : 0 <= j -> (Z.land x (2 ^ j) =? 0) = negb (Z.testbit x j).
  Proof.
    intro Hj. assert (Z.land x (2 ^ j) = if Z.testbit x j then 2 ^ j else 0) as ->.
    { apply Z.bits_inj'. intros n Hn. rewrite Z.land_spec, Z.pow2_bits_eqb by exact Hj. destruct (Z.eqb_spec j n) as [<-|N].
      - rewrite andb_true_r. destruct (Z.testbit x j) eqn:E; [now rewrite Z.pow2_bits_true|now rewrite Z.bits_0].
      - rewrite andb_false_r. destruct (Z.testbit x j); [rewrite Z.pow2_bits_eqb by exact Hj; symmetry; now apply Z.eqb_neq|now rewrite Z.bits_0]. }
    destruct (Z.testbit x j); [|reflexivity]. apply Z.eqb_neq. pose proof (Z.pow_pos_nonneg 2 j ltac:(lia) Hj). lia.
  Qed.
  Lemma shiftr_bit x j : 0 <= j -> Z.shiftr x j = 2 * Z.shiftr x (j + 1) + Z.b2z (Z.testbit x j).
  Proof.
    intro Hj. rewrite Z.testbit_odd. rewrite <- Z.shiftr_shiftr by lia. rewrite (Z.shiftr_div_pow2 (Z.shiftr x j) 1) by lia. change (2 ^ 1) with 2.
    rewrite Z.mul_comm, <- Z.bit0_odd, Z.bit0_mod. rewrite Z.mul_comm. apply Z_div_mod_eq_full.
  Qed.
  Lemma leftmost_ok x : 0 < x -> leftmost_bit x = Ok (2 ^ Z.log2 x).
  Proof.
    intro Hx. unfold leftmost_bit. destruct (Z.ltb_spec 0 x) as [_|]; [|lia]. cbn [negb].
    destruct (ploop_rule (leftmost_step x) (fun r => exists j, r = 2 ^ j /\ 0 <= j <= Z.log2 x + 1) (fun r => r = 2 ^ Z.log2 x) (fun r => Z.log2 x + 1 - Z.log2 r)) with (n := Z.to_pos (x + 1)) (a := 1) as (r & E & ->).
    - intros r (j & -> & Hj). unfold leftmost_step. pose proof (Z.log2_spec x Hx) as [L1 L2]. destruct (Z.leb_spec (2 ^ j) x) as [L|L].
      + assert (j <= Z.log2 x) by now apply Z.log2_le_pow2. replace (2 * 2 ^ j) with (2 ^ (j + 1)) by (rewrite Z.pow_add_r by lia; lia).
        split; [exists (j + 1); split; [reflexivity|lia]|]. rewrite !Z.log2_pow2 by lia. lia.
      + assert (j = Z.log2 x + 1) as ->. { assert (~ (j <= Z.log2 x)); [|lia]. intro. apply Z.lt_nge in L. apply L. now apply Z.log2_le_pow2. }
        rewrite Z.pow_add_r by (try apply Z.log2_nonneg; lia). change (2 ^ 1) with 2. now apply Z.div_mul.
    - exists 0. split; [reflexivity|]. pose proof (Z.log2_nonneg x). lia.
    - rewrite Z2Pos.id by lia. change (Z.log2 1) with 0. pose proof (Z.log2_nonneg x). pose proof (Z.log2_lt_lin x Hx). lia.
    - now rewrite E.
  Qed.
  (** The digits of the addition-subtraction chain. *)
  Definition chain (e j : Z) : Z := Z.shiftr (3 * e) j - Z.shiftr e j.
  Lemma chain_step e j : 0 <= j -> chain e j = 2 * chain e (j + 1) + (Z.b2z (Z.testbit (3 * e) j) - Z.b2z (Z.testbit e j)).
  Proof. intro H. unfold chain. rewrite (shiftr_bit (3 * e) j H), (shiftr_bit e j H). lia. Qed.
  Lemma chain_top e : 0 < e -> chain e (Z.log2 (3 * e)) = 1.
  Proof.
    intro H. unfold chain. pose proof (Z.log2_spec (3 * e) ltac:(lia)) as [L1 L2]. pose proof (Z.log2_nonneg (3 * e)). set (j := Z.log2 (3 * e)) in *.
    rewrite !Z.shiftr_div_pow2 by assumption. rewrite Z.pow_succ_r in L2 by assumption. rewrite (Z.div_small e) by lia. rewrite Z.sub_0_r. symmetry. apply (Z.div_unique _ _ 1 (3 * e - 2 ^ j)); lia.
  Qed.
  Lemma chain_1 e : chain e 1 = e.
  Proof.
    unfold chain. rewrite !Z.shiftr_div_pow2 by lia. change (2 ^ 1) with 2. rewrite (Z_div_mod_eq_full e 2) at 1. pose proof (Z.mod_pos_bound e 2 ltac:(lia)).
    replace (3 * (2 * (e / 2) + e mod 2)) with ((3 * (e / 2) + e mod 2) * 2 + e mod 2) by ring. rewrite Z.div_add_l by lia. rewrite (Z.div_small (e mod 2) 2) by lia. pose proof (Z_div_mod_eq_full e 2). lia.
  Qed.
  Lemma chain_range e j : 0 < e -> 1 <= j -> 2 ^ (j + 1) <= 3 * e -> 1 <= chain e (j + 1) <= e / 2 + 1.
  Proof.
    intros He Hj H. unfold chain. rewrite !Z.shiftr_div_pow2 by lia. rewrite Z.pow_add_r in * by lia. change (2 ^ 1) with 2 in *.
    assert (2 <= 2 ^ j) as H2 by (pose proof (Z.pow_le_mono_r 2 1 j ltac:(lia) ltac:(lia)); change (2 ^ 1) with 2 in *; lia). set (m := 2 ^ j) in *.
    pose proof (Z_div_mod_eq_full e (m * 2)) as D1. pose proof (Z.mod_pos_bound e (m * 2) ltac:(lia)) as B1. pose proof (Z_div_mod_eq_full (3 * e) (m * 2)) as D2. pose proof (Z.mod_pos_bound (3 * e) (m * 2) ltac:(lia)) as B2.
    pose proof (Z_div_mod_eq_full e 2) as D3. pose proof (Z.mod_pos_bound e 2 ltac:(lia)) as B3.
    set (u := 3 * e / (m * 2)) in *. set (v := e / (m * 2)) in *. set (r := e mod (m * 2)) in *. set (t := (3 * e) mod (m * 2)) in *. set (h := e / 2) in *.
    assert (0 <= v) by (apply Z.div_pos; lia). split.
    - destruct (Z.eq_dec v 0) as [V|V]; [|nia]. assert (1 <= u); [|lia]. apply Z.div_le_lower_bound; lia.
    - nia.
  Qed.
  (** A product is a new point, or the point itself, or the negated point that
      the code builds, whose second coordinate is negative; the latter only if
      a doubling on the way gave INFINITY. *)
  Definition mul_form (P : point) (e : Z) (R : point) : Prop :=
    fresh c R \/ R = P \/
    exists x y o v, P = PAff x y o /\ R = PAff x (- y) o /\ 1 <= v <= e / 2 + 1 /\ e_mul c (2 * v) (eabs c P) = O.
  Theorem ec_mul_ok P e : good c P ->
    (if p_order P =? 0 then 0 <= e else 0 < p_order P /\ e_mul c (p_order P) (eabs c P) = O) ->
    exists R, ec_mul c P e = Ok R /\ good c R /\ mul_form P (if p_order P =? 0 then e else e mod p_order P) R /\ eabs c R = e_mul c e (eabs c P).
  Proof.
    intros G He. pose proof (good_on _ G) as On. unfold ec_mul. cbv zeta.
    assert (exists e', (if p_order P =? 0 then e else e mod p_order P) = e' /\ 0 <= e' /\ e_mul c e (eabs c P) = e_mul c e' (eabs c P)) as (e' & -> & H0 & ->).
    { destruct (p_order P =? 0); [now exists e|]. destruct He as [Ho E]. exists (e mod p_order P). split; [reflexivity|]. split; [apply Z.mod_pos_bound; exact Ho|]. symmetry. now apply e_mul_mod. }
    clear e He. destruct (Z.eqb_spec e' 0) as [->|N]; [exists PInf; split; [reflexivity|]; split; [exact I|]; split; [left; exact I|reflexivity]|].
    destruct P as [|x y o].
    { exists PInf. split; [reflexivity|]. split; [exact I|]. split; [left; exact I|]. cbn. symmetry.
      apply (zmul_zero (e_on c)); first [exact e_inf_on|exact e_add_on|exact e_neg_on|exact e_add_0_l|exact e_add_comm|exact e_add_assoc|exact e_add_neg]. }
    destruct (Z.ltb_spec 0 e') as [Hp|]; [|lia]. cbn [negb].
    assert (contains_point c x (- y) = true) as CN by (destruct G as [_ C]; unfold contains_point in *; now rewrite Z.mul_opp_opp).
    assert (point_new c x (- y) o = Ok (PAff x (- y) o)) as -> by (unfold point_new; now rewrite CN). cbn [bind]. rewrite leftmost_ok by lia. cbn [bind].
    assert (good c (PAff x (- y) o)) as GN by (split; [apply G|exact CN]).
    assert (eabs c (PAff x (- y) o) = e_neg c (eabs c (PAff x y o))) as AN by (cbn; now rewrite fp_opp).
    set (P := PAff x y o) in *. set (N' := PAff x (- y) o) in *.
    assert (1 <= Z.log2 (3 * e')) as L1 by (apply Z.log2_le_pow2; [lia|change (2 ^ 1) with 2; lia]).
    destruct (ploop_rule (mul_step c P N' e' (3 * e'))
      (fun s => exists j, fst s = 2 ^ j /\ 0 <= j /\ 2 ^ (j + 1) <= 3 * e' /\ good c (snd s) /\ mul_form P e' (snd s) /\ eabs c (snd s) = e_mul c (chain e' (j + 1)) (eabs c P))
      (fun r => exists R, r = Ok R /\ good c R /\ mul_form P e' R /\ eabs c R = e_mul c e' (eabs c P)) (fun s => Z.log2 (fst s))) with (n := Z.to_pos (2 ^ Z.log2 (3 * e') + 1)) (a := (2 ^ Z.log2 (3 * e') / 2, P)) as (r & E & R & -> & Q).
    - intros [i R] (j & Hi & Hj & Hl & GR & FR & AR). cbn [fst snd] in *. subst i. unfold mul_step. destruct (Z.ltb_spec 1 (2 ^ j)) as [L|L].
      + assert (1 <= j) as Hj1. { destruct (Z.eq_dec j 0) as [->|]; [cbn in L; lia|lia]. }
        destruct (ec_double_ok R GR) as (D & -> & GD & FD & AD). cbn [bind]. rewrite !land_pow2 by exact Hj. rewrite !negb_involutive.
        rewrite AR in AD. unfold e_mul in AD. rewrite <- e_mul_add in AD by exact On. fold (e_mul c) in AD.
        pose proof (chain_step e' j Hj) as CS.
        assert (forall S, good c S -> mul_form P e' S -> eabs c S = e_mul c (chain e' j) (eabs c P) ->
          (exists j0, fst (2 ^ j / 2, S) = 2 ^ j0 /\ 0 <= j0 /\ 2 ^ (j0 + 1) <= 3 * e' /\ good c (snd (2 ^ j / 2, S)) /\ mul_form P e' (snd (2 ^ j / 2, S)) /\ eabs c (snd (2 ^ j / 2, S)) = e_mul c (chain e' (j0 + 1)) (eabs c P)) /\
          0 <= Z.log2 (fst (2 ^ j / 2, S)) < Z.log2 (2 ^ j)) as K.
        { intros S GS FS AS. cbn [fst snd]. assert (2 ^ j / 2 = 2 ^ (j - 1)) as -> by (replace j with (j - 1 + 1) at 1 by lia; rewrite Z.pow_add_r by lia; change (2 ^ 1) with 2; now apply Z.div_mul).
          split; [|rewrite !Z.log2_pow2 by lia; lia]. exists (j - 1). split; [reflexivity|]. split; [lia|]. split; [rewrite Z.pow_add_r in Hl by lia; replace (j - 1 + 1) with j by lia; lia|]. split; [exact GS|]. split; [exact FS|]. now replace (j - 1 + 1) with j by lia. }
        destruct (Z.testbit (3 * e') j), (Z.testbit e' j); cbn [andb negb Z.b2z] in CS |- *.
        * cbn [bind]. apply K; [exact GD|now left|]. rewrite AD. f_equal. lia.
        * destruct (ec_add_ok D P GD G) as (S & -> & GS & FS & AS). cbn [bind]. apply K; [exact GS| |].
          -- destruct FS as [F|[[-> F]|[-> F]]]; [now left|now left|right; now left].
          -- rewrite AS, AD. rewrite <- (e_mul_1 (eabs c P)) at 2 by exact On. unfold e_mul. rewrite <- e_mul_add by exact On. f_equal. lia.
        * cbn [bind]. destruct (ec_add_ok D N' GD GN) as (S & -> & GS & FS & AS). apply K; [exact GS| |].
          -- destruct FS as [F|[[-> F]|[-> F]]]; [now left|now left|]. right. right. exists x, y, o, (chain e' (j + 1)).
             split; [reflexivity|]. split; [reflexivity|]. split; [now apply chain_range|]. subst D. replace (2 * chain e' (j + 1)) with (chain e' (j + 1) + chain e' (j + 1)) by lia. symmetry. exact AD.
          -- rewrite AS, AD, AN. rewrite <- (e_mul_1 (eabs c P)) at 2 by exact On. unfold e_mul. rewrite <- e_mul_neg by exact On. rewrite <- e_mul_add by exact On. f_equal. lia.
        * cbn [bind]. apply K; [exact GD|now left|]. rewrite AD. f_equal. lia.
      + assert (j = 0) as ->. { destruct (Z.eq_dec j 0) as [|]; [assumption|]. pose proof (Z.pow_gt_1 2 j ltac:(lia)). lia. }
        exists R. split; [reflexivity|]. split; [exact GR|]. split; [exact FR|]. rewrite AR. f_equal. apply chain_1.
    - exists (Z.log2 (3 * e') - 1). cbn [fst snd]. split.
      { replace (Z.log2 (3 * e')) with (Z.log2 (3 * e') - 1 + 1) at 1 by lia. rewrite Z.pow_add_r by lia. change (2 ^ 1) with 2. now apply Z.div_mul. }
      split; [lia|]. split; [replace (Z.log2 (3 * e') - 1 + 1) with (Z.log2 (3 * e')) by lia; apply Z.log2_spec; lia|]. split; [exact G|]. split; [right; now left|]. replace (Z.log2 (3 * e') - 1 + 1) with (Z.log2 (3 * e')) by lia. rewrite chain_top by exact Hp. symmetry. now apply e_mul_1.
    - cbn [fst]. rewrite Z2Pos.id by lia. split; [apply Z.log2_nonneg|]. 
      assert (2 ^ Z.log2 (3 * e') / 2 < 2 ^ Z.log2 (3 * e')) by (apply Z.div_lt; lia). pose proof (Z.log2_le_lin (2 ^ Z.log2 (3 * e') / 2) ltac:(apply Z.div_pos; lia)). lia.
    - rewrite E. exists R. split; [reflexivity|]. exact Q.
  Qed.
End Ec.
