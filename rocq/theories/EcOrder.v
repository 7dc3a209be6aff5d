(** The points of a curve whose generator has a large enough prime order are
    the multiples of the generator.  Nothing here models /repo. *)
From Coq Require Import ZArith Znumtheory List Lia Bool.
From Verif Require Import PyBase NtModel ZpTheory EcGroup GrpMul EcModel EcProofs.
Open Scope Z_scope.

Definition generator_ok (G : generator) : Prop :=
  curve_ok (g_curve G) /\ prime (g_order G) /\ 2 < g_order G /\ good (g_curve G) (gen_point G) /\
  2 * c_p (g_curve G) + 1 < 3 * g_order G /\
  e_mul (g_curve G) (g_order G) (eabs (g_curve G) (gen_point G)) = e_inf (g_curve G).

Lemma NoDup_map_inj {A B} (f : A -> B) l : (forall x y, In x l -> In y l -> f x = f y -> x = y) -> NoDup l -> NoDup (map f l).
Proof.
  intros H N. induction N as [|x l Nx N IH]; [apply NoDup_nil|]. cbn. apply NoDup_cons.
  - intro I. apply in_map_iff in I. destruct I as (y & E & I). apply Nx. rewrite (H x y); [exact I|now left|now right|now symmetry].
  - apply IH. intros y z Iy Iz. apply H; now right.
Qed.
Lemma NoDup_app_intro {A} (l l' : list A) : NoDup l -> NoDup l' -> (forall x, In x l -> In x l' -> False) -> NoDup (l ++ l').
Proof.
  intros N N' H. induction N as [|x l Nx N IH]; [exact N'|]. cbn. apply NoDup_cons.
  - intro I. apply in_app_or in I. destruct I as [I|I]; [contradiction|]. apply (H x); [now left|exact I].
  - apply IH. intros y Iy. apply H. now right.
Qed.

Section Order.
  Variable G : generator.
  Hypothesis HG : generator_ok G.
  Notation c := (g_curve G).
  Notation p := (c_p c).
  Notation n := (g_order G).
  Notation g := (eabs c (gen_point G)).
  Notation O := (e_inf c).
  Notation "P ⊕ Q" := (e_add c P Q) (at level 50, left associativity).
  Lemma ok_c : curve_ok c. Proof. apply HG. Qed.
  Lemma ok_n : prime n. Proof. apply HG. Qed.
  Lemma ok_n2 : 2 < n. Proof. apply HG. Qed.
  Lemma ok_g : e_on c g. Proof. apply good_on; [exact ok_c|apply HG]. Qed.
  Lemma ok_ng : e_mul c n g = O. Proof. apply HG. Qed.
  Lemma ok_g0 : g <> O. Proof. discriminate. Qed.
  Lemma n_odd : n mod 2 = 1.
  Proof.
    pose proof ok_n as Hn. pose proof ok_n2. pose proof (Z.mod_pos_bound n 2 ltac:(lia)). assert (n mod 2 <> 0); [|lia]. intro E.
    apply Zmod_divide in E; [|lia]. apply prime_div_prime in E; [lia|exact prime_2|exact Hn].
  Qed.
  Lemma g_mul_eq a b : e_mul c a g = e_mul c b g <-> (n | a - b).
  Proof. apply (e_mul_eq c ok_c); [exact ok_g|exact ok_n|exact ok_ng|exact ok_g0]. Qed.
  Definition pt_dec (P Q : ept c) : {P = Q} + {P <> Q}.
  Proof. decide equality; apply (Fdec p). Defined.
  Definition xof (P : ept c) : Z := match P with Inf _ => 0 | Aff _ x _ => val p x end.
  Lemma xof_range P : 0 <= xof P < p.
  Proof. destruct P as [|x y]; [pose proof (ecp2 c ok_c); cbn; lia|]. apply val_range. exact (ecp c ok_c). Qed.
  Lemma xof_eq P Q : e_on c P -> e_on c Q -> P <> O -> Q <> O -> xof P = xof Q -> P = Q \/ P = e_neg c Q.
  Proof.
    intros HP HQ NP NQ E. destruct P as [|x1 y1]; [now elim NP|]. destruct Q as [|x2 y2]; [now elim NQ|]. cbn in E. apply val_inj in E. subst x2.
    destruct (same_x _ _ _ _ _ _ _ _ _ (Fp_field p (ecp c ok_c)) (Fdec p) _ _ x1 y1 y2 HP HQ) as [->|S]; [now left|]. right. cbn. f_equal.
    pose proof (Fp_ring p) as R. transitivity (Fsub p (Fadd p y1 y2) y2).
    - rewrite (Rsub_def R), <- (Radd_assoc R), (Ropp_def R), (Radd_comm R). symmetry. apply (Radd_0_l R).
    - rewrite S, (Rsub_def R). apply (Radd_0_l R).
  Qed.
  Lemma two_torsion P : e_on c P -> P ⊕ P = O -> P = O.
  Proof.
    intros HP E. destruct P as [|x y]; [reflexivity|]. exfalso. assert (Aff (EF c) x y = e_neg c (Aff (EF c) x y)) as N.
    { apply (neg_unique (e_on c) O (e_add c) (e_neg c) ); auto; first [exact (e_neg_on c ok_c)|exact (e_add_0_l c)|exact (e_add_comm c ok_c)|exact (e_add_assoc c ok_c)|exact (e_add_neg c ok_c)]. }
    cbn in N. injection N as N. apply (e_no2 c ok_c x). cbn in HP. assert (y = F0 p) as <-; [|exact HP].
    rewrite <- (fp_val p y). assert (fp p (val p y) = fp p (- val p y)) as N' by (rewrite fp_opp, !fp_val; exact N). clear N. rename N' into N.
    apply fp_0; [exact (ecp c ok_c)|]. apply fp_eq in N. pose proof (ecp2 c ok_c). apply mod_eq_divide in N; [|lia]. replace (val p y - - val p y) with (2 * val p y) in N by lia.
    apply prime_mult in N; [|exact (ecp c ok_c)]. destruct N as [N|N]; [apply Z.divide_pos_le in N; lia|exact N].
  Qed.
  Lemma sub_move P Q R : e_on c P -> e_on c Q -> e_on c R -> P ⊕ Q = R -> P = R ⊕ e_neg c Q.
  Proof.
    intros HP HQ HR <-. pose proof (e_neg_on c ok_c Q HQ). rewrite e_add_assoc by (auto; exact ok_c). rewrite e_add_neg by (auto; exact ok_c). symmetry. apply e_add_0_r.
  Qed.
  (** ** Counting abscissas *)
  Theorem cyclic P : e_on c P -> exists k, 0 <= k < n /\ P = e_mul c k g.
  Proof.
    intro HP. pose proof ok_n2 as N2. pose proof ok_g as Og. assert (forall k, e_on c (e_mul c k g)) as Om by (intro; apply (e_mul_on c ok_c); exact Og).
    destruct (in_dec pt_dec P (map (fun k => e_mul c (k - 1) g) (zrange n))) as [I|NI].
    { apply in_map_iff in I. destruct I as (k & <- & I). apply in_zrange in I. exists (k - 1). split; [lia|reflexivity]. }
    exfalso. assert (forall k, P <> e_mul c k g) as NP.
    { intros k ->. apply NI. apply in_map_iff. exists (k mod n + 1). pose proof (Z.mod_pos_bound k n ltac:(lia)). split; [|apply in_zrange; lia].
      replace (k mod n + 1 - 1) with (k mod n) by lia. apply (e_mul_mod c ok_c); [exact Og|exact ok_ng]. }
    clear NI. assert (forall k, P ⊕ e_mul c k g <> O) as NO.
    { intros k E. apply (NP (- k)). unfold e_mul. rewrite (e_mul_neg c ok_c) by exact Og. apply sub_move in E; auto; try exact (e_inf_on c). }
    assert (forall k, 0 < k < n -> e_mul c k g <> O) as NG.
    { intros k Hk E. change O with (e_mul c 0 g) in E. apply g_mul_eq in E. apply Z.divide_pos_le in E; lia. }
    set (h := (n - 1) / 2). pose proof n_odd as Odd. assert (n = 2 * h + 1) as Hh by (unfold h; pose proof (Z_div_mod_eq_full n 2); replace (n - 1) with (n / 2 * 2) by lia; rewrite Z.div_mul; lia).
    set (L := map (fun k => xof (e_mul c k g)) (zrange h) ++ map (fun k => xof (P ⊕ e_mul c k g)) (zrange n)).
    assert (forall k l, 1 <= k <= h -> P ⊕ e_mul c l g = e_mul c k g \/ P ⊕ e_mul c l g = e_neg c (e_mul c k g) -> False) as M1.
    { intros k l _ [E|E].
      - apply sub_move in E; auto. unfold e_mul in E. rewrite <- (e_mul_neg c ok_c), <- (e_mul_add c ok_c) in E by exact Og. exact (NP _ E).
      - unfold e_mul in E. rewrite <- (e_mul_neg c ok_c) in E by exact Og. apply sub_move in E; auto; try apply Om. rewrite <- (e_mul_neg c ok_c), <- (e_mul_add c ok_c) in E by exact Og. exact (NP _ E). }
    assert (NoDup L) as ND.
    { apply NoDup_app_intro.
      - apply NoDup_map_inj; [|apply zrange_nodup]. intros k l Ik Il E. apply in_zrange in Ik, Il. apply xof_eq in E; auto; [|apply NG; lia|apply NG; lia].
        destruct E as [E|E].
        + apply g_mul_eq in E. apply (small_mod_eq n); [lia|lia|exact E].
        + unfold e_mul in E. rewrite <- (e_mul_neg c ok_c) in E by exact Og. apply g_mul_eq in E. apply Z.divide_pos_le in E; lia.
      - apply NoDup_map_inj; [|apply zrange_nodup]. intros k l Ik Il E. apply in_zrange in Ik, Il. apply xof_eq in E; auto; try (apply (e_add_on c ok_c); auto).
        destruct E as [E|E].
        + assert (e_mul c k g = e_mul c l g) as E'. { apply (cancel_l (e_on c) O (e_add c) (e_neg c)) with (P := P); auto; first [exact (e_neg_on c ok_c)|exact (e_add_0_l c)|exact (e_add_comm c ok_c)|exact (e_add_assoc c ok_c)|exact (e_add_neg c ok_c)]. }
          apply g_mul_eq in E'. destruct (Z.eq_dec k l) as [|Nk]; [assumption|]. exfalso. destruct E' as [q Hq]. assert (q = 0) by nia. subst q. lia.
        + (* 2P would be a multiple of g *)
          assert (exists m, P ⊕ P = e_mul c m g) as [m Em].
          { exists (- (k + l)). unfold e_mul. rewrite (e_mul_neg c ok_c), (e_mul_add c ok_c) by exact Og. fold (e_mul c).
            assert (P ⊕ e_mul c k g ⊕ (P ⊕ e_mul c l g) = O) as Z0. { rewrite E. rewrite e_add_comm; [apply e_add_neg; auto| | |]; auto; try apply e_neg_on; auto; try exact ok_c; apply (e_add_on c ok_c); auto. }
            pose proof (e_add_on c ok_c P P HP HP) as HPP. pose proof (e_add_on c ok_c _ _ (Om k) (Om l)) as Hkl.
            assert (P ⊕ P ⊕ (e_mul c k g ⊕ e_mul c l g) = O) as Z1.
            { rewrite <- Z0. rewrite !e_add_assoc by (auto; try exact ok_c; apply (e_add_on c ok_c); auto). f_equal. rewrite <- !(e_add_assoc c ok_c) by auto. f_equal. apply e_add_comm; auto. exact ok_c. }
            apply sub_move in Z1; [exact Z1|assumption|assumption|exact (e_inf_on c)]. }
          assert (exists m', P ⊕ P = e_mul c m' g ⊕ e_mul c m' g) as [m' Em'].
          { assert (m mod 2 = 0 \/ m mod 2 = 1) as [Hm|Hm] by (pose proof (Z.mod_pos_bound m 2 ltac:(lia)); lia).
            - exists (m / 2). unfold e_mul. rewrite <- (e_mul_add c ok_c) by exact Og. fold (e_mul c). rewrite Em. f_equal. pose proof (Z_div_mod_eq_full m 2). lia.
            - exists ((m + n) / 2). unfold e_mul. rewrite <- (e_mul_add c ok_c) by exact Og. fold (e_mul c). rewrite Em. apply g_mul_eq.
              assert ((m + n) / 2 + (m + n) / 2 = m + n) as ->; [|exists (-1); lia]. assert ((m + n) mod 2 = 0) as E2 by (rewrite Zplus_mod, Hm, Odd; reflexivity). pose proof (Z_div_mod_eq_full (m + n) 2). lia. }
          exfalso. apply (NP m'). pose proof (e_neg_on c ok_c _ (Om m')) as HN. assert (P ⊕ e_neg c (e_mul c m' g) = O) as Z2.
          { apply two_torsion; [apply (e_add_on c ok_c); auto|]. rewrite !e_add_assoc by (auto; try exact ok_c; apply (e_add_on c ok_c); auto).
            rewrite (e_add_comm c ok_c (e_neg c (e_mul c m' g)) (P ⊕ _)) by (auto; apply (e_add_on c ok_c); auto). rewrite <- !(e_add_assoc c ok_c) by (auto; apply (e_add_on c ok_c); auto). rewrite Em'.
            rewrite (e_add_assoc c ok_c) by (auto; apply (e_add_on c ok_c); auto). 
            rewrite (e_add_assoc c ok_c (e_mul c m' g) (e_mul c m' g)) by (auto; apply (e_add_on c ok_c); auto). rewrite <- (e_add_assoc c ok_c (e_mul c m' g) (e_neg c (e_mul c m' g))) by auto.
            rewrite e_add_neg by (auto; exact ok_c). rewrite e_add_0_l by auto. apply e_add_neg; [exact ok_c|auto]. }
          apply sub_move in Z2; auto; try exact (e_inf_on c). rewrite Z2. rewrite e_add_0_l; [apply (e_neg_neg c ok_c)|]. apply (e_neg_on c ok_c). exact HN.
      - intros x I1 I2. apply in_map_iff in I1, I2. destruct I1 as (k & E1 & I1), I2 as (l & E2 & I2). apply in_zrange in I1, I2.
        apply (M1 k l I1). rewrite <- E1 in E2. apply xof_eq in E2; auto; [apply (e_add_on c ok_c); auto|apply NG; lia]. }
    assert (incl L (map (fun k => k - 1) (zrange p))) as IL.
    { intros x Ix. apply in_map_iff. exists (x + 1). split; [lia|]. apply in_zrange. apply in_app_or in Ix. destruct Ix as [Ix|Ix]; apply in_map_iff in Ix; destruct Ix as (k & <- & _); pose proof (xof_range (e_mul c k g)); pose proof (xof_range (P ⊕ e_mul c k g)); lia. }
    pose proof (NoDup_incl_length ND IL) as Len. unfold L in Len. rewrite app_length, !map_length, !zrange_length in Len.
    assert (2 * p + 1 < 3 * n) as Sz by apply HG. pose proof (ecp2 c ok_c). lia.
  Qed.
  Theorem order_n P : e_on c P -> e_mul c n P = O.
  Proof.
    intro HP. destruct (cyclic P HP) as (k & _ & ->). unfold e_mul. rewrite (e_mul_mul c ok_c) by exact ok_g. rewrite Z.mul_comm, <- (e_mul_mul c ok_c) by exact ok_g.
    pose proof ok_ng as E. unfold e_mul in E. rewrite E. apply (zmul_zero (e_on c)); first [exact (e_inf_on c)|exact (e_add_on c ok_c)|exact (e_neg_on c ok_c)|exact (e_add_0_l c)|exact (e_add_comm c ok_c)|exact (e_add_assoc c ok_c)|exact (e_add_neg c ok_c)].
  Qed.
End Order.
