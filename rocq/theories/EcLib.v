(** The library's points against the plain specification of EcSpec.v. *)
From Coq Require Import ZArith Znumtheory List Lia Bool Field.
From Verif Require Import PyBase PyLoop NtModel NtProofs ZpTheory EcGroup GrpMul EcModel EcProofs EcOrder EcSpec.
Open Scope Z_scope.

(** The coordinates of a point, as its x() and y() give them. *)
Definition coords (P : point) : spt := match P with PInf => None | PAff x y _ => Some (x, y) end.

Section Lib.
  Variable c : curve.
  Hypothesis Hc : curve_ok c.
  Notation p := (c_p c).
  Notation fe := (fp p).
  Infix "+f" := (Fadd p) (at level 50, left associativity).
  Infix "-f" := (Fsub p) (at level 50, left associativity).
  Infix "*f" := (Fmul p) (at level 40, left associativity).
  Infix "/f" := (Fdiv p) (at level 40, left associativity).
  Notation "P ⊕ Q" := (e_add c P Q) (at level 50, left associativity).
  Notation O := (e_inf c).
  Add Field Fel : (Fp_field p (ecp c Hc)).
  Definition sabs (P : spt) : ept c := match P with None => O | Some (x, y) => Aff (EF c) (fe x) (fe y) end.
  Notation onc := (on_curve p (c_a c) (c_b c)).
  Lemma lp0 : 0 < p. Proof. pose proof (ecp2 c Hc). lia. Qed.
  Lemma sabs_coords P : sabs (coords P) = eabs c P.
  Proof. now destruct P. Qed.
  Lemma fe0 z : (p | z) <-> fe z = F0 p.
  Proof. symmetry. apply fp_0. exact (ecp c Hc). Qed.
  Lemma fe_sub x y : (p | x - y) <-> fe x = fe y.
  Proof. rewrite fe0, fp_sub. split; intro H; [replace (fe x) with (fe x -f fe y +f fe y) by ring; rewrite H; ring|rewrite H; ring]. Qed.
  Lemma contains_div x y : contains_point c x y = true <-> (p | y * y - (x * x * x + c_a c * x + c_b c)).
  Proof. unfold contains_point. rewrite Z.eqb_eq. pose proof lp0. split; intro H0; [apply Zmod_divide; [lia|exact H0]|now apply Zdivide_mod]. Qed.
  Lemma onc_good P : onc (coords P) -> good c P.
  Proof. destruct P as [|x y o]; [easy|]. intros (H & _ & D). split; [exact H|]. now apply contains_div. Qed.
  Lemma onc_on P : onc P -> e_on c (sabs P).
  Proof. destruct P as [[x y]|]; [|easy]. intros (_ & _ & D). apply (contains_on c Hc). now apply contains_div. Qed.
  Lemma good_onc P : good c P -> fresh c P -> onc (coords P).
  Proof. destruct P as [|x y o]; [easy|]. intros [H D] (_ & H2 & _). split; [exact H|]. split; [exact H2|]. now apply contains_div. Qed.
  Lemma sabs_inj P Q : onc P -> onc Q -> sabs P = sabs Q -> P = Q.
  Proof.
    destruct P as [[x y]|], Q as [[x' y']|]; cbn; try discriminate; [|reflexivity]. intros (Hx & Hy & _) (Hx' & Hy' & _) E. assert (fe x = fe x' /\ fe y = fe y') as [E1 E2] by (split; congruence).
    apply fe_sub in E1, E2. f_equal. f_equal; now apply (small_mod_eq p).
  Qed.
  (** Every point of the group has coordinates. *)
  Lemma sabs_surj (A : ept c) : e_on c A -> exists P, onc P /\ sabs P = A.
  Proof.
    destruct A as [|x y]; intro H; [now exists None|]. exists (Some (val p x, val p y)). cbn. rewrite !fp_val. split; [|reflexivity].
    split; [apply val_range; exact (ecp c Hc)|]. split; [apply val_range; exact (ecp c Hc)|]. apply contains_div. apply (contains_on c Hc). now rewrite !fp_val.
  Qed.
  Lemma aff_inj x y x' y' : Aff (EF c) x y = Aff (EF c) x' y' -> x = x' /\ y = y'.
  Proof. intro E. split; congruence. Qed.
  Theorem line_sum_add P Q R : onc P -> onc Q -> line_sum p (c_a c) P Q R -> sabs P ⊕ sabs Q = sabs R.
  Proof.
    intros HP HQ H. destruct H as [Q|P|x y y' H|x1 y1 x2 y2 l x3 y3 N L T|x y l x3 y3 N L T].
    - reflexivity.
    - now destruct P as [[x y]|].
    - cbn. unfold e_add, add. destruct (Fdec p (fe x) (fe x)) as [_|X]; [|now elim X]. destruct (Fdec p (fe y +f fe y') (F0 p)) as [_|X]; [reflexivity|].
      elim X. rewrite <- fp_add. now apply fe0.
    - destruct T as (_ & _ & T1 & T2). apply fe_sub in T1, T2, L. cbn. unfold e_add, add. destruct HP as (Hx1 & _ & _), HQ as (Hx2 & _ & _).
      destruct (Fdec p (fe x1) (fe x2)) as [X|X]; [exfalso; apply N; apply (small_mod_eq p); [exact Hx1|exact Hx2|now apply fe_sub]|].
      assert (fe x2 -f fe x1 <> F0 p) as ND by (intro E; apply X; replace (fe x2) with (fe x2 -f fe x1 +f fe x1) by ring; rewrite E; ring).
      assert ((fe y2 -f fe y1) /f (fe x2 -f fe x1) = fe l) as -> by (rewrite <- fp_sub, <- L, fp_mul, fp_sub; field; exact ND).
      unfold third. rewrite T2, T1, !fp_sub, !fp_mul, !fp_sub, T1, !fp_sub, fp_mul. reflexivity.
    - destruct T as (_ & _ & T1 & T2). apply fe_sub in T1, T2, L. cbn. unfold e_add, add. rewrite fe0 in N.
      destruct (Fdec p (fe x) (fe x)) as [_|X]; [|now elim X].
      rewrite fp_mul, (fe_2 c) in N. rewrite fp_add, !fp_mul, (fe_2 c) in L.
      destruct (Fdec p (fe y +f fe y) (F0 p)) as [X|X]; [exfalso; apply N; rewrite <- X; ring|].
      assert (fe y <> F0 p) as N2 by (intro E; apply N; rewrite E; ring).
      assert (((F1 p +f F1 p +f F1 p) *f (fe x *f fe x) +f fe (c_a c)) /f ((F1 p +f F1 p) *f fe y) = fe l) as ->.
      { rewrite <- (fe_3 c). assert (fe 3 *f (fe x *f fe x) +f fe (c_a c) = fe l *f ((F1 p +f F1 p) *f fe y)) as ->.
        { rewrite L. ring. }
        field. split; [exact N2|exact (e_two c Hc)]. }
      unfold third. rewrite T2, T1, !fp_sub, !fp_mul, !fp_sub, T1, !fp_sub, fp_mul. reflexivity.
  Qed.
  Theorem line_sum_exists P Q : onc P -> onc Q -> exists R, onc R /\ line_sum p (c_a c) P Q R.
  Proof.
    intros HP HQ. destruct (sabs_surj (sabs P ⊕ sabs Q)) as (R & OR & E); [apply (e_add_on c Hc); now apply onc_on|]. exists R. split; [exact OR|].
    destruct P as [[x1 y1]|]; [|assert (R = Q) as -> by (apply sabs_inj; [exact OR|exact HQ|exact E]); constructor].
    destruct Q as [[x2 y2]|]; [|assert (R = Some (x1, y1)) as -> by (apply sabs_inj; [exact OR|exact HP|exact E]); constructor].
    revert E. cbn [sabs]. unfold e_add, add. destruct HP as (Hx1 & Hy1 & C1), HQ as (Hx2 & Hy2 & C2).
    destruct (Fdec p (fe x1) (fe x2)) as [X|X].
    - apply fe_sub in X. apply (small_mod_eq p) in X; [|exact Hx1|exact Hx2]. subst x2. destruct (Fdec p (fe y1 +f fe y2) (F0 p)) as [Y|Y].
      + destruct R as [[x y]|]; [discriminate|]. intros _. constructor. apply fe0. now rewrite fp_add.
      + assert (y1 = y2) as <-.
        { destruct (same_x _ _ _ _ _ _ _ _ _ (Fp_field p (ecp c Hc)) (Fdec p) (fe (c_a c)) (fe (c_b c)) (fe x1) (fe y1) (fe y2)) as [S|S]; [apply (contains_on c Hc); now apply contains_div|apply (contains_on c Hc); now apply contains_div| |now elim Y].
          apply fe_sub in S. now apply (small_mod_eq p). }
        assert ((F1 p +f F1 p) *f fe y1 <> F0 p) as N by (intro E; apply Y; rewrite <- E; ring).
        assert (fe y1 <> F0 p) as N2 by (intro E; apply N; rewrite E; ring).
        destruct R as [[x3 y3]|]; [|discriminate]. set (L := ((F1 p +f F1 p +f F1 p) *f (fe x1 *f fe x1) +f fe (c_a c)) /f ((F1 p +f F1 p) *f fe y1)).
        unfold third. intro E. apply aff_inj in E. destruct E as [E1 E2]. apply sum_tangent with (l := val p L).
        * rewrite fe0, fp_mul, (fe_2 c). exact N.
        * apply fe_sub. rewrite fp_mul, fp_val, fp_mul, (fe_2 c), fp_add, !fp_mul, (fe_3 c). unfold L. field. split; [exact N2|exact (e_two c Hc)].
        * destruct OR as (O1 & O2 & _). split; [exact O1|]. split; [exact O2|]. split; apply fe_sub; rewrite !fp_sub, !fp_mul, ?fp_sub, fp_val; [exact E1|rewrite E1; exact E2].
    - assert (fe x2 -f fe x1 <> F0 p) as ND by (intro E; apply X; replace (fe x2) with (fe x2 -f fe x1 +f fe x1) by ring; rewrite E; ring).
      destruct R as [[x3 y3]|]; [|discriminate]. set (L := (fe y2 -f fe y1) /f (fe x2 -f fe x1)).
      unfold third. intro E. apply aff_inj in E. destruct E as [E1 E2]. apply sum_chord with (l := val p L).
      * intros ->. now apply X.
      * apply fe_sub. rewrite fp_mul, fp_val, !fp_sub. unfold L. field. exact ND.
      * destruct OR as (O1 & O2 & _). split; [exact O1|]. split; [exact O2|]. split; apply fe_sub; rewrite !fp_sub, !fp_mul, ?fp_sub, fp_val; [exact E1|rewrite E1; exact E2].
  Qed.
  Theorem line_sum_fun P Q R R' : onc P -> onc Q -> onc R -> onc R' -> line_sum p (c_a c) P Q R -> line_sum p (c_a c) P Q R' -> R = R'.
  Proof. intros HP HQ HR HR' H H'. apply sabs_inj; [exact HR|exact HR'|]. now rewrite <- (line_sum_add _ _ _ HP HQ H), <- (line_sum_add _ _ _ HP HQ H'). Qed.
  Theorem line_sum_iff P Q R : onc P -> onc Q -> onc R -> line_sum p (c_a c) P Q R <-> sabs R = sabs P ⊕ sabs Q.
  Proof.
    intros HP HQ HR. split; [intro H; symmetry; now apply line_sum_add|]. intro E. destruct (line_sum_exists P Q HP HQ) as (R' & HR' & L).
    assert (R = R') as -> by (apply sabs_inj; [exact HR|exact HR'|rewrite E; now apply line_sum_add]). exact L.
  Qed.
  Lemma onc_opposite P : onc P -> onc (opposite p P) /\ sabs (opposite p P) = e_neg c (sabs P).
  Proof.
    destruct P as [[x y]|]; [|easy]. intros (H1 & H2 & D). assert (contains_point c x ((- y) mod p) = true) as C.
    { apply contains_div in D. apply (contains_on c Hc) in D. apply (contains_on c Hc). rewrite fp_mod, fp_opp. unfold eqn in *. assert (Fopp p (fe y) *f Fopp p (fe y) = fe y *f fe y) as K by ring. transitivity (fe y *f fe y); [exact K|exact D]. }
    cbn. rewrite fp_mod, fp_opp. split; [|reflexivity]. split; [exact H1|]. split; [apply Z.mod_pos_bound; exact lp0|]. now apply contains_div.
  Qed.
  Lemma multiple_on P k R : onc P -> multiple p (c_a c) P k R -> e_on c (sabs R) /\ sabs R = nmul O (e_add c) k (sabs P) /\ onc R.
  Proof.
    intros HP H. induction H as [|k Q R H IH L]; [now repeat split|]. destruct IH as (I1 & I2 & I3).
    assert (onc R) as HR.
    { clear - L HP I3 Hc. destruct (line_sum_exists P Q HP I3) as (R' & HR' & L').
      assert (E : sabs R = sabs R') by (rewrite <- (line_sum_add _ _ _ HP I3 L); now apply line_sum_add).
      pose proof (line_sum_add _ _ _ HP I3 L) as S. clear L'.
      destruct L as [Q|P|x y y' H|x1 y1 x2 y2 l x3 y3 N L T|x y l x3 y3 N L T]; try assumption; try exact I.
      - destruct T as (T1 & T2 & _). split; [exact T1|]. split; [exact T2|]. apply contains_div. apply (contains_on c Hc). change (e_on c (sabs (Some (x3, y3)))). rewrite E. now apply onc_on.
      - destruct T as (T1 & T2 & _). split; [exact T1|]. split; [exact T2|]. apply contains_div. apply (contains_on c Hc). change (e_on c (sabs (Some (x3, y3)))). rewrite E. now apply onc_on. }
    split; [now apply onc_on|]. split; [|exact HR]. cbn. rewrite <- (line_sum_add _ _ _ HP I3 L), I2. reflexivity.
  Qed.
  Lemma multiple_exists P k : onc P -> exists R, onc R /\ multiple p (c_a c) P k R.
  Proof.
    intro HP. induction k as [|k (Q & HQ & IH)]; [exists None; split; [exact I|constructor]|]. destruct (line_sum_exists P Q HP HQ) as (R & HR & L).
    exists R. split; [exact HR|]. now apply multiple_S with Q.
  Qed.
  (** The e-fold sums are the multiples in the group. *)
  Theorem multiple_z_iff P e R : onc P -> onc R -> multiple_z p (c_a c) P e R <-> sabs R = e_mul c e (sabs P).
  Proof.
    intros HP HR. unfold multiple_z, e_mul, zmul. destruct (Z.ltb_spec e 0) as [L|L].
    - destruct (onc_opposite P HP) as [HO EO].
      assert (forall k A, e_on c A -> nmul O (e_add c) k (e_neg c A) = e_neg c (nmul O (e_add c) k A)) as NN.
      { intros k A HA. rewrite <- (Nat2Z.id k). pose proof (zmul_negp (e_on c) O (e_add c) (e_neg c)) as ZN. unfold zmul in ZN. specialize (ZN (e_inf_on c) (e_add_on c Hc) (e_neg_on c Hc) (e_add_0_l c) (e_add_comm c Hc) (e_add_assoc c Hc) (e_add_neg c Hc) (Z.of_nat k) A HA).
        destruct (Z.ltb_spec (Z.of_nat k) 0); [lia|]. exact ZN. }
      split.
      + intro M. destruct (multiple_on _ _ _ HO M) as (_ & E & _). rewrite E, EO. apply NN. now apply onc_on.
      + intro E. destruct (multiple_exists (opposite p P) (Z.to_nat (- e)) HO) as (R' & HR' & M). destruct (multiple_on _ _ _ HO M) as (_ & E' & _).
        assert (R = R') as -> by (apply sabs_inj; [exact HR|exact HR'|rewrite E, E', EO; symmetry; apply NN; now apply onc_on]). exact M.
    - split.
      + intro M. now destruct (multiple_on _ _ _ HP M) as (_ & E & _).
      + intro E. destruct (multiple_exists P (Z.to_nat e) HP) as (R' & HR' & M). destruct (multiple_on _ _ _ HP M) as (_ & E' & _).
        assert (R = R') as -> by (apply sabs_inj; [exact HR|exact HR'|now rewrite E, E']). exact M.
  Qed.
  (** Addition of points with reduced coordinates. *)
  Theorem add_lib P Q : onc (coords P) -> onc (coords Q) -> exists R, ec_add c P Q = Ok R /\ onc (coords R) /\ line_sum p (c_a c) (coords P) (coords Q) (coords R).
  Proof.
    intros HP HQ. destruct (ec_add_ok c Hc P Q (onc_good _ HP) (onc_good _ HQ)) as (R & E & G & F & A). exists R. split; [exact E|].
    assert (onc (coords R)) as HR by (destruct F as [F|[[-> _]|[-> _]]]; [now apply good_onc|exact HP|exact HQ]). split; [exact HR|].
    apply line_sum_iff; try assumption. now rewrite !sabs_coords.
  Qed.
  Lemma eqb_coords P Q : point_eqb P Q = true <-> coords P = coords Q.
  Proof.
    destruct P as [|x y o], Q as [|x' y' o']; cbn; try easy. rewrite andb_true_iff, !Z.eqb_eq. split; [now intros [-> ->]|]. intro E. now injection E as -> ->.
  Qed.
  (** The last turn of the loop: for e = 3 modulo 4 it adds the negated point,
      which comes back as it is if the doubled sum is INFINITY. *)
  Theorem mul_last x y e : good c (PAff x y 0) -> 3 <= e -> e mod 4 = 3 -> e_mul c (e + 1) (eabs c (PAff x y 0)) = O -> ec_mul c (PAff x y 0) e = Ok (PAff x (- y) 0).
  Proof.
    intros G He M4 T. pose proof (good_on c Hc _ G) as On. unfold ec_mul. cbv zeta. cbn [p_order]. rewrite Z.eqb_refl. destruct (Z.eqb_spec e 0) as [|_]; [lia|].
    destruct (Z.ltb_spec 0 e) as [Hp|]; [|lia]. cbn [negb].
    assert (contains_point c x (- y) = true) as CN by (destruct G as [_ C]; unfold contains_point in *; now rewrite Z.mul_opp_opp).
    assert (point_new c x (- y) 0 = Ok (PAff x (- y) 0)) as -> by (unfold point_new; now rewrite CN). cbn [bind]. rewrite leftmost_ok by lia. cbn [bind].
    assert (good c (PAff x (- y) 0)) as GN by (split; [apply G|exact CN]).
    assert (eabs c (PAff x (- y) 0) = e_neg c (eabs c (PAff x y 0))) as AN by (cbn; now rewrite fp_opp).
    set (P := PAff x y 0) in *. set (N' := PAff x (- y) 0) in *.
    assert (3 <= Z.log2 (3 * e)) as L1 by (apply Z.log2_le_pow2; [lia|change (2 ^ 3) with 8; lia]).
    destruct (ploop_rule (mul_step c P N' e (3 * e))
      (fun s => exists j, fst s = 2 ^ j /\ 0 <= j /\ 2 ^ (j + 1) <= 3 * e /\ good c (snd s) /\ eabs c (snd s) = e_mul c (chain e (j + 1)) (eabs c P) /\ (j = 0 -> snd s = N'))
      (fun r => r = Ok N') (fun s => Z.log2 (fst s))) with (n := Z.to_pos (2 ^ Z.log2 (3 * e) + 1)) (a := (2 ^ Z.log2 (3 * e) / 2, P)) as (r & E & ->).
    - intros [i R] (j & Hi & Hj & Hl & GR & AR & FR). cbn [fst snd] in *. subst i. unfold mul_step. destruct (Z.ltb_spec 1 (2 ^ j)) as [L|L].
      + assert (1 <= j) as Hj1. { destruct (Z.eq_dec j 0) as [->|]; [cbn in L; lia|lia]. }
        destruct (ec_double_ok c Hc R GR) as (D & -> & GD & _ & AD). cbn [bind]. rewrite !land_pow2 by exact Hj. rewrite !negb_involutive.
        rewrite AR in AD. unfold e_mul in AD. rewrite <- (e_mul_add c Hc) in AD by exact On. fold (e_mul c) in AD.
        pose proof (chain_step e j Hj) as CS.
        assert (forall S, good c S -> eabs c S = e_mul c (chain e j) (eabs c P) -> (j = 1 -> S = N') ->
          (exists j0, fst (2 ^ j / 2, S) = 2 ^ j0 /\ 0 <= j0 /\ 2 ^ (j0 + 1) <= 3 * e /\ good c (snd (2 ^ j / 2, S)) /\ eabs c (snd (2 ^ j / 2, S)) = e_mul c (chain e (j0 + 1)) (eabs c P) /\ (j0 = 0 -> snd (2 ^ j / 2, S) = N')) /\
          0 <= Z.log2 (fst (2 ^ j / 2, S)) < Z.log2 (2 ^ j)) as K.
        { intros S GS AS FS. cbn [fst snd]. assert (2 ^ j / 2 = 2 ^ (j - 1)) as -> by (replace j with (j - 1 + 1) at 1 by lia; rewrite Z.pow_add_r by lia; change (2 ^ 1) with 2; now apply Z.div_mul).
          split; [|rewrite !Z.log2_pow2 by lia; lia]. exists (j - 1). split; [reflexivity|]. split; [lia|]. split; [rewrite Z.pow_add_r in Hl by lia; replace (j - 1 + 1) with j by lia; lia|]. split; [exact GS|]. replace (j - 1 + 1) with j by lia. split; [exact AS|]. intro. apply FS. lia. }
        assert (j = 1 -> Z.testbit (3 * e) j = false /\ Z.testbit e j = true) as B.
        { intros ->. pose proof (Z_div_mod_eq_full e 4) as DE. rewrite !Z.testbit_odd, !Z.shiftr_div_pow2 by lia. change (2 ^ 1) with 2. rewrite M4 in DE. set (q := e / 4) in *.
          assert (3 * e / 2 = 2 * (3 * q + 2)) as -> by (symmetry; apply (Z.div_unique _ _ _ 1); lia). assert (e / 2 = 2 * q + 1) as -> by (symmetry; apply (Z.div_unique _ _ _ 1); lia).
          rewrite Z.odd_mul, (Z.add_comm (2 * q)), Z.odd_add_mul_2. now split. }
        destruct (Z.testbit (3 * e) j), (Z.testbit e j); cbn [andb negb Z.b2z] in CS |- *.
        * cbn [bind]. apply K; [exact GD| |intro J; now destruct (B J)]. rewrite AD. f_equal. lia.
        * destruct (ec_add_ok c Hc D P GD G) as (S & -> & GS & FS & AS). cbn [bind]. apply K; [exact GS| |intro J; now destruct (B J)].
          rewrite AS, AD. rewrite <- (e_mul_1 c Hc (eabs c P)) at 2 by exact On. unfold e_mul. rewrite <- (e_mul_add c Hc) by exact On. f_equal. lia.
        * cbn [bind]. destruct (ec_add_ok c Hc D N' GD GN) as (S & ES & GS & FS & AS). rewrite ES. apply K; [exact GS| |].
          -- rewrite AS, AD, AN. rewrite <- (e_mul_1 c Hc (eabs c P)) at 2 by exact On. unfold e_mul. rewrite <- (e_mul_neg c Hc) by exact On. rewrite <- (e_mul_add c Hc) by exact On. f_equal. lia.
          -- intros ->. rewrite chain_1 in CS. replace (chain e (1 + 1) + chain e (1 + 1)) with (e + 1) in AD by lia. rewrite T in AD. destruct D as [|x' y' o']; [|discriminate]. cbn in ES. congruence.
        * cbn [bind]. apply K; [exact GD| |intro J; now destruct (B J)]. rewrite AD. f_equal. lia.
      + assert (j = 0) as ->. { destruct (Z.eq_dec j 0) as [|]; [assumption|]. pose proof (Z.pow_gt_1 2 j ltac:(lia)). lia. }
        now rewrite FR.
    - exists (Z.log2 (3 * e) - 1). cbn [fst snd]. split.
      { replace (Z.log2 (3 * e)) with (Z.log2 (3 * e) - 1 + 1) at 1 by lia. rewrite Z.pow_add_r by lia. change (2 ^ 1) with 2. now apply Z.div_mul. }
      split; [lia|]. split; [replace (Z.log2 (3 * e) - 1 + 1) with (Z.log2 (3 * e)) by lia; apply Z.log2_spec; lia|]. split; [exact G|]. split; [|lia]. replace (Z.log2 (3 * e) - 1 + 1) with (Z.log2 (3 * e)) by lia. rewrite chain_top by exact Hp. symmetry. now apply (e_mul_1 c Hc).
    - cbn [fst]. rewrite Z2Pos.id by lia. split; [apply Z.log2_nonneg|]. 
      assert (2 ^ Z.log2 (3 * e) / 2 < 2 ^ Z.log2 (3 * e)) by (apply Z.div_lt; lia). pose proof (Z.log2_le_lin (2 ^ Z.log2 (3 * e) / 2) ltac:(apply Z.div_pos; lia)). lia.
    - now rewrite E.
  Qed.
End Lib.

Section Gen.
  Variable G : generator.
  Hypothesis HG : generator_ok G.
  Notation c := (g_curve G).
  Notation p := (c_p c).
  Notation n := (g_order G).
  Notation O := (e_inf c).
  Notation onc := (on_curve p (c_a c) (c_b c)).
  Lemma gen_c : curve_ok c. Proof. apply HG. Qed.
  (** Multiplication of points of the curve: those made without an order and
      those made with the order of the curve. *)
  Theorem mul_lib P e : onc (coords P) ->
    p_order P = n \/ (p_order P = 0 /\ 0 <= e /\ (e < 2 * n - 2 \/ ~ (n | e + 1))) ->
    exists R, ec_mul c P e = Ok R /\ onc (coords R) /\ multiple_z p (c_a c) (coords P) e (coords R) /\ (p_order R = 0 \/ R = P) /\ eabs c R = e_mul c e (eabs c P).
  Proof.
    intros HP He. pose proof gen_c as Hc. pose proof (ok_n2 G HG) as N2. pose proof (onc_good c Hc P HP) as GP. pose proof (good_on c Hc P GP) as On.
    pose proof (order_n G HG _ On) as ON.
    destruct (ec_mul_ok c Hc P e GP) as (R & E & GR & F & A).
    { destruct He as [->|(-> & H0 & _)]; [|cbn; exact H0]. destruct (Z.eqb_spec n 0); [lia|]. split; [lia|exact ON]. }
    exists R. split; [exact E|].
    assert (fresh c R \/ R = P) as FR.
    { destruct F as [F|[F|F]]; [now left|now right|]. exfalso. destruct F as (x & y & o & v & -> & -> & Hv & T).
      assert (eabs c (PAff x y o) <> O) as NO by discriminate.
      apply (e_mul_prime c Hc n) in T; [|exact On|exact (ok_n G HG)|exact ON|exact NO].
      assert (n | v) as D. { pose proof (n_odd G HG) as Od. apply Gauss with 2; [exact T|]. apply Zgcd_1_rel_prime. rewrite Z.gcd_comm.
        assert (rel_prime 2 n) as X; [|now apply Zgcd_1_rel_prime in X]. apply prime_rel_prime; [exact prime_2|]. intro D. apply Zdivide_mod in D. lia. }
      apply Z.divide_pos_le in D; [|lia].
      cbn [p_order] in *. destruct He as [->|(Ho & H0 & Hb)].
      - destruct (Z.eqb_spec n 0) as [|_]; [lia|]. pose proof (Z.mod_pos_bound e n ltac:(lia)). pose proof (Z_div_mod_eq_full (e mod n) 2). pose proof (Z.mod_pos_bound (e mod n) 2 ltac:(lia)). lia.
      - cbn [p_order] in *. subst o. rewrite Z.eqb_refl in *. destruct Hb as [Hb|Hb]; [pose proof (Z_div_mod_eq_full e 2); pose proof (Z.mod_pos_bound e 2 ltac:(lia)); lia|].
        apply Hb. assert (eabs c (PAff x (- y) 0) = e_neg c (eabs c (PAff x y 0))) as AN by (cbn; now rewrite fp_opp).
        rewrite AN in A. rewrite <- (e_mul_1 c Hc (eabs c (PAff x y 0))) in A at 1 by exact On. unfold e_mul in A. rewrite <- (e_mul_neg c Hc) in A by exact On.
        apply (e_mul_eq c Hc n) in A; [|exact On|exact (ok_n G HG)|exact ON|exact NO]. replace (e + 1) with (- (- (1) - e)) by lia. now apply Z.divide_opp_r. }
    assert (onc (coords R)) as HR by (destruct FR as [FR| ->]; [now apply good_onc|exact HP]).
    split; [exact HR|]. split; [|split; [|exact A]].
    - apply multiple_z_iff; try assumption. now rewrite !sabs_coords.
    - destruct FR as [FR|FR]; [|now right]. left. destruct R as [|x y o]; [reflexivity|apply FR].
  Qed.
  Theorem mul_order P R : onc P -> multiple_z p (c_a c) P n R -> onc R -> R = None.
  Proof.
    intros HP M HR. pose proof gen_c as Hc. apply multiple_z_iff in M; [|exact Hc|exact HP|exact HR]. rewrite (order_n G HG) in M by now apply onc_on.
    destruct R as [[x y]|]; [discriminate|reflexivity].
  Qed.
  Theorem valid_lib x y : n <= p -> exists v, point_is_valid G x y = Ok v /\
    (v = true <-> 0 <= x < n /\ 0 <= y < n /\ (p | y * y - (x * x * x + c_a c * x + c_b c))).
  Proof.
    intro Hnp. pose proof gen_c as Hc. pose proof (ok_n2 G HG) as N2. unfold point_is_valid. cbv zeta.
    destruct ((x <? 0) || (n <=? x) || (y <? 0) || (n <=? y)) eqn:B.
    { exists false. split; [reflexivity|]. split; [discriminate|]. intros (H1 & H2 & _). rewrite !orb_true_iff, !Z.ltb_lt, !Z.leb_le in B. lia. }
    rewrite !orb_false_iff, !Z.ltb_ge, !Z.leb_gt in B. destruct (contains_point c x y) eqn:C; cbn [negb].
    - unfold point_new. rewrite C. cbn [bind].
      assert (onc (coords (PAff x y 0))) as HP by (split; [lia|]; split; [lia|]; apply contains_div; [exact Hc|exact C]).
      destruct (mul_lib (PAff x y 0) n) as (R & -> & HR & _ & _ & A); [exact HP|right; split; [reflexivity|]; split; [lia|left; lia]|]. cbn [bind].
      rewrite (order_n G HG) in A by (rewrite <- sabs_coords; now apply onc_on). destruct R as [|x' y' o']; [|discriminate]. exists true. split; [reflexivity|].
      split; [intros _|reflexivity]. split; [lia|]. split; [lia|]. apply contains_div; [exact Hc|exact C].
    - exists false. split; [reflexivity|]. split; [discriminate|]. intros (_ & _ & D). apply contains_div in D; [|exact Hc]. congruence.
  Qed.
  Lemma onc_y x y : onc (Some (x, y)) -> 0 < y.
  Proof.
    pose proof gen_c as Hc. intros (H1 & H2 & D). destruct (Z.eq_dec y 0) as [->|]; [|lia]. exfalso. apply (ec_no2 c Hc x). apply Zdivide_mod. apply Z.divide_opp_r.
    replace (- (x * x * x + c_a c * x + c_b c)) with (0 * 0 - (x * x * x + c_a c * x + c_b c)) by ring. exact D.
  Qed.
  Theorem not_reduced x y : onc (coords (PAff x y 0)) ->
    ec_mul c (PAff x y 0) (4 * n - 1) = Ok (PAff x (- y) 0) /\ - y < 0 /\
    exists R, ec_mul c (PAff x y 0) (n - 1) = Ok R /\ multiple_z p (c_a c) (coords (PAff x y 0)) (4 * n - 1) (coords R) /\ point_eqb R (PAff x (- y) 0) = false.
  Proof.
    intro HP. pose proof gen_c as Hc. pose proof (onc_on c Hc _ HP) as On. pose proof (order_n G HG _ On) as ON. pose proof (ok_n2 G HG) as N2. pose proof (onc_y _ _ HP) as Hy.
    split; [|split; [lia|]].
    - apply (mul_last c Hc).
      + exact (onc_good c Hc _ HP).
      + lia.
      + replace (4 * n - 1) with (3 + (n - 1) * 4) by lia. now rewrite Z.mod_add by lia.
      + replace (4 * n - 1 + 1) with (4 * n) by lia. unfold e_mul. rewrite <- (e_mul_mul c Hc) by exact On.
        transitivity (zmul O (e_add c) (e_neg c) 4 O); [f_equal; exact ON|].
        apply (GrpMul.zmul_zero (e_on c)); first [exact (e_inf_on c)|exact (e_add_on c Hc)|exact (e_neg_on c Hc)|exact (e_add_0_l c)|exact (e_add_comm c Hc)|exact (e_add_assoc c Hc)|exact (e_add_neg c Hc)].
    - destruct (mul_lib (PAff x y 0) (n - 1)) as (R & E & HR & M & _); [exact HP|right; split; [reflexivity|]; split; [lia|left; lia]|].
      exists R. split; [exact E|]. split.
      + apply multiple_z_iff in M; [|exact Hc|exact HP|exact HR]. apply multiple_z_iff; [exact Hc|exact HP|exact HR|]. rewrite M.
        unfold e_mul. rewrite <- (e_mul_mod c Hc n (n - 1)) by (first [exact ON|exact On]). rewrite <- (e_mul_mod c Hc n (4 * n - 1)) by (first [exact ON|exact On]). f_equal.
        replace (4 * n - 1) with (n - 1 + 3 * n) by lia. now rewrite Z.mod_add by lia.
      + destruct R as [|x' y' o']; [reflexivity|]. destruct HR as (_ & H2 & _). cbn. destruct (Z.eqb_spec y' (- y)); [lia|]. apply andb_false_r.
  Qed.
  Theorem group_lib P Q R : onc (coords P) -> onc (coords Q) -> onc (coords R) ->
    (exists PQ QP, ec_add c P Q = Ok PQ /\ ec_add c Q P = Ok QP /\ onc (coords PQ) /\ point_eqb PQ QP = true) /\
    (exists PQ QR S S', ec_add c P Q = Ok PQ /\ ec_add c Q R = Ok QR /\ ec_add c PQ R = Ok S /\ ec_add c P QR = Ok S' /\ point_eqb S S' = true) /\
    ec_add c P PInf = Ok P /\ ec_add c PInf P = Ok P /\
    (exists N, onc (coords N) /\ ec_add c P N = Ok PInf).
  Proof.
    intros HP HQ HR. pose proof gen_c as Hc. pose proof (onc_on c Hc _ HP) as OP. pose proof (onc_on c Hc _ HQ) as OQ. pose proof (onc_on c Hc _ HR) as OR.
    destruct (add_lib c Hc P Q HP HQ) as (PQ & E1 & H1 & L1). destruct (add_lib c Hc Q P HQ HP) as (QP & E2 & H2 & L2).
    destruct (add_lib c Hc Q R HQ HR) as (QR & E3 & H3 & L3). destruct (add_lib c Hc PQ R H1 HR) as (S & E4 & H4 & L4).
    destruct (add_lib c Hc P QR HP H3) as (S' & E5 & H5 & L5).
    apply (line_sum_iff c Hc) in L1, L2, L3, L4, L5; try assumption.
    split; [|split; [|split; [reflexivity|split; [now destruct P|]]]].
    - exists PQ, QP. split; [exact E1|]. split; [exact E2|]. split; [exact H1|]. apply eqb_coords. apply (sabs_inj c Hc); [exact H1|exact H2|]. rewrite L1, L2. now apply (e_add_comm c Hc).
    - exists PQ, QR, S, S'. repeat (split; [assumption|]). apply eqb_coords. apply (sabs_inj c Hc); [exact H4|exact H5|]. rewrite L4, L5, L1, L3. now apply (e_add_assoc c Hc).
    - destruct (onc_opposite c Hc _ HP) as [HN EN]. set (N := match opposite p (coords P) with None => PInf | Some (x, y) => PAff x y 0 end). exists N.
      assert (coords N = opposite p (coords P)) as CN by (unfold N; now destruct P). rewrite CN. split; [exact HN|].
      destruct (add_lib c Hc P N HP) as (Z & E & HZ & L); [now rewrite CN|]. rewrite E. f_equal.
      apply (line_sum_iff c Hc) in L; [|exact HP|now rewrite CN|exact HZ].
      rewrite CN, EN, (e_add_neg c Hc) in L by exact OP. destruct Z as [|x y o]; [reflexivity|discriminate].
  Qed.
  Theorem order_lib P : onc (coords P) -> p_order P = 0 \/ p_order P = n -> ec_mul c P n = Ok PInf.
  Proof.
    intros HP Ho. pose proof (ok_n2 G HG) as N2. destruct (mul_lib P n) as (R & E & HR & M & _); [exact HP|destruct Ho as [Ho|Ho]; [right|now left]; split; [exact Ho|]; split; [lia|left; lia]|].
    rewrite E. f_equal. apply mul_order in M; [|exact HP|exact HR]. destruct R; [reflexivity|discriminate].
  Qed.
  Theorem distinct_lib P e f R S : onc P -> P <> None -> onc R -> onc S ->
    multiple_z p (c_a c) P e R -> multiple_z p (c_a c) P f S -> R = S <-> e mod n = f mod n.
  Proof.
    intros HP NP HR HS M1 M2. pose proof gen_c as Hc. apply multiple_z_iff in M1, M2; try assumption. pose proof (ok_n2 G HG) as N2.
    pose proof (order_n G HG _ (onc_on c Hc _ HP)) as ON.
    assert (R = S <-> e_mul c e (sabs c P) = e_mul c f (sabs c P)) as ->.
    { rewrite <- M1, <- M2. split; [now intros ->|]. now apply (sabs_inj c Hc). }
    rewrite mod_eq_divide by lia. apply (e_mul_eq c Hc); [exact (onc_on c Hc _ HP)|exact (ok_n G HG)|exact ON|].
    destruct P as [[x y]|]; [discriminate|now elim NP].
  Qed.
  Lemma gen_onc : n <= p -> 0 <= g_y G < p -> onc (coords (gen_point G)).
  Proof. intros _ Hy. pose proof gen_c as Hc. destruct HG as (_ & _ & _ & [Hx C] & _). split; [exact Hx|]. split; [exact Hy|]. apply contains_div; [exact Hc|exact C]. Qed.
  Theorem cyclic_lib R : 0 <= g_y G < p -> onc R -> exists! k, 0 <= k < n /\ multiple_z p (c_a c) (coords (gen_point G)) k R.
  Proof.
    intros Hy HR. pose proof gen_c as Hc. assert (onc (coords (gen_point G))) as HGp. { destruct HG as (_ & _ & _ & [Hx C] & _). split; [exact Hx|]. split; [exact Hy|]. apply contains_div; [exact Hc|exact C]. }
    destruct (cyclic G HG _ (onc_on c Hc _ HR)) as (k & Hk & E). exists k. assert (multiple_z p (c_a c) (coords (gen_point G)) k R) as M0 by now apply multiple_z_iff.
    split; [now split|]. intros k' [Hk' M].
    assert (k mod n = k' mod n) as X by (apply (distinct_lib (coords (gen_point G)) k k' R R); try assumption; [discriminate|reflexivity]).
    now rewrite !Z.mod_small in X by assumption.
  Qed.
  Theorem mul_fun_lib P e : onc P -> exists! R, onc R /\ multiple_z p (c_a c) P e R.
  Proof.
    intro HP. pose proof gen_c as Hc. destruct (sabs_surj c Hc (e_mul c e (sabs c P))) as (R & HR & E); [apply (e_mul_on c Hc); now apply onc_on|].
    exists R. split; [split; [exact HR|now apply multiple_z_iff]|]. intros R' [HR' M']. apply multiple_z_iff in M'; [|exact Hc|exact HP|exact HR'].
    apply (sabs_inj c Hc); [exact HR|exact HR'|]. now rewrite E, M'.
  Qed.
  Theorem double_lib P : onc (coords P) -> exists R, ec_double c P = Ok R /\ onc (coords R) /\ line_sum p (c_a c) (coords P) (coords P) (coords R).
  Proof.
    intro HP. pose proof gen_c as Hc. destruct (ec_double_ok c Hc P (onc_good c Hc P HP)) as (R & E & Gd & F & A). exists R. split; [exact E|].
    assert (onc (coords R)) as HR by now apply good_onc. split; [exact HR|]. apply line_sum_iff; try assumption. now rewrite !sabs_coords.
  Qed.
End Gen.
