(** ECDSA signing and verification against EcdsaSpec.v. *)
From Coq Require Import ZArith Znumtheory List Lia Bool.
From Verif Require Import PyBase PyLoop NtModel NtProofs ZpTheory EcGroup GrpMul EcModel EcProofs EcOrder EcSpec EcLib EcdsaSpec.
Open Scope Z_scope.

Section Ecdsa.
  Variable G : generator.
  Hypothesis HG : generator_ok G.
  Hypothesis Hnp : g_order G <= c_p (g_curve G).
  Hypothesis Hgy : 0 <= g_y G < c_p (g_curve G).
  Notation c := (g_curve G).
  Notation p := (c_p c).
  Notation n := (g_order G).
  Notation onc := (on_curve p (c_a c) (c_b c)).
  Notation O := (e_inf c).
  Notation "P ⊕ Q" := (e_add c P Q) (at level 50, left associativity).
  Notation gp := (coords (gen_point G)).
  Notation vpoint := (verification_point p (c_a c) n gp).
  Notation valid := (ecdsa_valid p (c_a c) n gp).
  Let Hc : curve_ok c := gen_c G HG.
  Let N2 : 2 < n := ok_n2 G HG.
  Lemma gp_on : onc gp. Proof. exact (gen_onc G HG Hnp Hgy). Qed.
  Lemma line_sum_onc A B R : onc A -> onc B -> line_sum p (c_a c) A B R -> onc R.
  Proof.
    intros HA HB L. pose proof (line_sum_add c Hc A B R HA HB L) as E. assert (e_on c (sabs c R)) as On by (rewrite <- E; apply (e_add_on c Hc); now apply onc_on).
    assert (forall x y, 0 <= x < p -> 0 <= y < p -> e_on c (sabs c (Some (x, y))) -> onc (Some (x, y))) as K.
    { intros x y Hx Hy H. split; [exact Hx|]. split; [exact Hy|]. apply (contains_div c Hc). now apply (contains_on c Hc). }
    destruct L as [Q|P|x y y' H|x1 y1 x2 y2 l x3 y3 N L (T1 & T2 & _)|x y l x3 y3 N L (T1 & T2 & _)]; [exact HB|exact HA|exact I|now apply K|now apply K].
  Qed.
  Lemma mult_onc P e R : onc P -> 0 <= e -> multiple_z p (c_a c) P e R -> onc R /\ sabs c R = e_mul c e (sabs c P).
  Proof.
    intros HP He M. assert (onc R) as HR. { unfold multiple_z in M. destruct (Z.ltb_spec e 0); [lia|]. now destruct (multiple_on c Hc P _ R HP M) as (_ & _ & H'). }
    split; [exact HR|]. now apply (multiple_z_iff c Hc) in M.
  Qed.
  Lemma ord P : e_on c P -> e_mul c n P = O. Proof. exact (order_n G HG P). Qed.
  Lemma e_mod e P : e_on c P -> e_mul c (e mod n) P = e_mul c e P.
  Proof. intro On. unfold e_mul. apply (e_mul_mod c Hc); [exact On|now apply ord]. Qed.
  Lemma e_cong a b P : e_on c P -> a mod n = b mod n -> e_mul c a P = e_mul c b P.
  Proof. intros On E. rewrite <- (e_mod a), <- (e_mod b) by exact On. now rewrite E. Qed.
  Lemma e_cancel s P Q : e_on c P -> e_on c Q -> 1 <= s < n -> e_mul c s P = e_mul c s Q -> P = Q.
  Proof.
    intros HP HQ Hs E. destruct (inverse_mod_ok s n) as (w & _ & Hw & Mw); [lia| |].
    { apply Zgcd_1_rel_prime. apply rel_prime_sym. apply prime_rel_prime; [exact (ok_n G HG)|]. intro D. apply Z.divide_pos_le in D; lia. }
    assert (forall X, e_on c X -> X = e_mul c w (e_mul c s X)) as K.
    { intros X HX. unfold e_mul. rewrite (e_mul_mul c Hc) by exact HX. fold (e_mul c). rewrite (e_cong (w * s) 1) by (try exact HX; rewrite Z.mul_comm, Mw; symmetry; apply Z.mod_small; lia).
      symmetry. now apply (e_mul_1 c Hc). }
    rewrite (K P HP), (K Q HQ). now rewrite E.
  Qed.
  Lemma inv_exists s : 1 <= s < n -> exists w, inverse_mod s n = Ok w /\ 1 <= w < n /\ (s * w) mod n = 1.
  Proof.
    intro Hs. apply inverse_mod_ok; [lia|]. apply Zgcd_1_rel_prime. apply rel_prime_sym. apply prime_rel_prime; [exact (ok_n G HG)|]. intro D. apply Z.divide_pos_le in D; lia.
  Qed.
  Notation g := (sabs c gp).
  Lemma g_on : e_on c g. Proof. apply (onc_on c Hc). exact gp_on. Qed.
  (** The verification point is determined by s R = h G + r Q. *)
  Theorem vpoint_iff Q h r s R : onc Q -> onc R -> 1 <= s < n -> vpoint Q h r s R <-> e_mul c s (sabs c R) = e_mul c h g ⊕ e_mul c r (sabs c Q).
  Proof.
    intros HQ HR Hs. pose proof (onc_on c Hc Q HQ) as Oq. pose proof g_on as Og.
    assert (forall w, (s * w) mod n = 1 -> e_mul c s (e_mul c ((h * w) mod n) g ⊕ e_mul c ((r * w) mod n) (sabs c Q)) = e_mul c h g ⊕ e_mul c r (sabs c Q)) as K.
    { intros w Mw. rewrite !e_mod by assumption. unfold e_mul. rewrite (e_mul_distr c Hc) by (apply (e_mul_on c Hc); assumption). rewrite !(e_mul_mul c Hc) by assumption. fold (e_mul c).
      assert (forall u, (s * (u * w)) mod n = u mod n) as M. { intro u. replace (s * (u * w)) with (u * (s * w)) by ring. rewrite Zmult_mod, Mw, Z.mul_1_r. apply Zmod_mod. }
      f_equal; (apply e_cong; [assumption|apply M]). }
    split.
    - intros (w & A & B & Mw & MA & MB & L). apply mult_onc in MA; [|exact gp_on|apply Z.mod_pos_bound; lia]. apply mult_onc in MB; [|exact HQ|apply Z.mod_pos_bound; lia].
      destruct MA as (HA & EA), MB as (HB & EB). apply (line_sum_add c Hc) in L; [|exact HA|exact HB]. rewrite <- L, EA, EB. now apply K.
    - intro E. destruct (inv_exists s Hs) as (w & _ & _ & Mw). destruct (mul_fun_lib G HG gp ((h * w) mod n) gp_on) as (A & (HA & MA) & _). destruct (mul_fun_lib G HG Q ((r * w) mod n) HQ) as (B & (HB & MB) & _).
      exists w, A, B. split; [exact Mw|]. split; [exact MA|]. split; [exact MB|]. apply (line_sum_iff c Hc); [exact HA|exact HB|exact HR|].
      apply (multiple_z_iff c Hc) in MA; [|exact gp_on|exact HA]. apply (multiple_z_iff c Hc) in MB; [|exact HQ|exact HB].
      apply (e_cancel s); [now apply onc_on|apply (e_add_on c Hc); now apply onc_on|exact Hs|]. rewrite E, MA, MB. symmetry. now apply K.
  Qed.
  Lemma vpoint_onc Q h r s R : onc Q -> vpoint Q h r s R -> onc R.
  Proof.
    intros HQ (w & A & B & Mw & MA & MB & L). apply mult_onc in MA; [|exact gp_on|apply Z.mod_pos_bound; lia]. apply mult_onc in MB; [|exact HQ|apply Z.mod_pos_bound; lia].
    apply (line_sum_onc A B); [apply MA|apply MB|exact L].
  Qed.
  Lemma vpoint_fun Q h r s R R' : onc Q -> 1 <= s < n -> vpoint Q h r s R -> vpoint Q h r s R' -> R = R'.
  Proof.
    intros HQ Hs V V'. pose proof (vpoint_onc _ _ _ _ _ HQ V) as HR. pose proof (vpoint_onc _ _ _ _ _ HQ V') as HR'. apply vpoint_iff in V, V'; try assumption.
    apply (sabs_inj c Hc); [exact HR|exact HR'|]. apply (e_cancel s); [now apply onc_on|now apply onc_on|exact Hs|congruence].
  Qed.
  Theorem verifies_run Q h r s : onc (coords Q) -> p_order Q = 0 \/ p_order Q = n -> 1 <= r < n -> 1 <= s < n ->
    exists R, vpoint (coords Q) h r s R /\ verifies G Q h r s = match R with None => Raise TypeError | Some (x, _) => Ok (x mod n =? r) end.
  Proof.
    intros HQ Ho Hr Hs. unfold verifies. cbv zeta. destruct (Z.ltb_spec r 1); [lia|]. destruct (Z.ltb_spec (n - 1) r); [lia|]. destruct (Z.ltb_spec s 1); [lia|]. destruct (Z.ltb_spec (n - 1) s); [lia|]. cbn [orb].
    destruct (inv_exists s Hs) as (w & -> & Hw & Mw). cbn [bind].
    destruct (mul_lib G HG (gen_point G) ((h * w) mod n)) as (A & -> & HA & MA & _); [exact gp_on|now left|]. cbn [bind].
    pose proof (Z.mod_pos_bound (r * w) n ltac:(lia)) as Bu.
    destruct (mul_lib G HG Q ((r * w) mod n)) as (B & -> & HB & MB & _); [exact HQ|destruct Ho as [Ho|Ho]; [right|now left]; split; [exact Ho|]; split; [lia|left; lia]|]. cbn [bind].
    destruct (add_lib c Hc A B HA HB) as (R & -> & HR & L). cbn [bind]. exists (coords R). split; [exists w, (coords A), (coords B); auto|]. now destruct R.
  Qed.
  Lemma verifies_range Q h r s : ~ (1 <= r < n /\ 1 <= s < n) -> verifies G Q h r s = Ok false.
  Proof.
    intro H. unfold verifies. cbv zeta. destruct (Z.ltb_spec r 1); [reflexivity|]. destruct (Z.ltb_spec (n - 1) r); [reflexivity|]. cbn [orb]. destruct (Z.ltb_spec s 1); [reflexivity|]. destruct (Z.ltb_spec (n - 1) s); [reflexivity|lia].
  Qed.
  Theorem verifies_spec Q h r s : onc (coords Q) -> p_order Q = 0 \/ p_order Q = n ->
    (verifies G Q h r s = Ok true <-> valid (coords Q) h r s) /\
    (verifies G Q h r s = Raise TypeError <-> 1 <= r < n /\ 1 <= s < n /\ vpoint (coords Q) h r s None) /\
    (forall e, verifies G Q h r s = Raise e -> e = TypeError).
  Proof.
    intros HQ Ho. assert ((1 <= r < n /\ 1 <= s < n) \/ ~ (1 <= r < n /\ 1 <= s < n)) as [[Hr Hs]|N] by lia.
    - destruct (verifies_run Q h r s HQ Ho Hr Hs) as (R & V & E). rewrite E. split; [|split].
      + split.
        * destruct R as [[x y]|]; [|discriminate]. intro T. assert ((x mod n =? r) = true) as T' by congruence. apply Z.eqb_eq in T'. split; [exact Hr|]. split; [exact Hs|]. now exists x, y.
        * intros (_ & _ & x & y & V' & X). rewrite (vpoint_fun _ _ _ _ _ _ HQ Hs V V'). now rewrite X, Z.eqb_refl.
      + split; [destruct R as [[x y]|]; [discriminate|]; intros _; auto|]. intros (_ & _ & V'). now rewrite (vpoint_fun _ _ _ _ _ _ HQ Hs V V').
      + intros e. destruct R as [[x y]|]; [discriminate|congruence].
    - rewrite verifies_range by exact N. split; [split; [discriminate|intros (A & B & _); tauto]|]. split; [split; [discriminate|tauto]|discriminate].
  Qed.

  (** *** Signing *)
  Theorem sign_spec d Q h k r s : onc Q -> sabs c Q = e_mul c d g -> k mod n <> 0 -> private_sign G d h k = Ok (r, s) ->
    exists y, multiple_z p (c_a c) gp (k mod n) (Some (r, y)) /\ 0 < r < p /\ 1 <= s < n /\ vpoint Q h r s (Some (r, y)).
  Proof.
    intros HQ EQ Hk. pose proof (Z.mod_pos_bound k n ltac:(lia)) as Bk. unfold private_sign. cbv zeta.
    destruct (mul_lib G HG (gen_point G) (k mod n)) as (R & -> & HR & M & _ & A); [exact gp_on|now left|]. cbn [bind].
    destruct R as [|x y o]; [destruct (inv_exists (k mod n) ltac:(lia)) as (w & -> & _); discriminate|]. destruct (Z.eqb_spec x 0) as [|X0]; [discriminate|].
    destruct (inv_exists (k mod n) ltac:(lia)) as (w & -> & Hw & Mw). cbn [bind]. set (s' := (w * (h + (d * x) mod n)) mod n). destruct (Z.eqb_spec s' 0) as [|S0]; [discriminate|].
    intro E. assert (x = r /\ s' = s) as (-> & Es) by (split; congruence). exists y. split; [exact M|]. pose proof (Z.mod_pos_bound (w * (h + (d * r) mod n)) n ltac:(lia)) as Bs.
    assert (0 <= r < p) by apply HR. assert (1 <= s < n) as Hs by (subst s; unfold s' in *; lia). split; [lia|]. split; [exact Hs|].
    apply vpoint_iff; [exact HQ|exact HR|exact Hs|]. change (Some (r, y)) with (coords (PAff r y o)). rewrite sabs_coords, A, EQ. rewrite <- sabs_coords. pose proof g_on as Og.
    unfold e_mul. rewrite !(e_mul_mul c Hc) by exact Og. rewrite <- (e_mul_add c Hc) by exact Og. fold (e_mul c). apply e_cong; [exact Og|]. subst s. unfold s'.
    rewrite Zmult_mod_idemp_l. replace (w * (h + (d * r) mod n) * (k mod n)) with ((k mod n * w) * (h + (d * r) mod n)) by ring. rewrite Zmult_mod, Mw, Z.mul_1_l, Zmod_mod. rewrite Zplus_mod_idemp_r. f_equal. ring.
  Qed.
  Theorem sign_total d h k : k mod n <> 0 -> (exists r s, private_sign G d h k = Ok (r, s)) \/ private_sign G d h k = Raise RuntimeError.
  Proof.
    intros Hk. pose proof (Z.mod_pos_bound k n ltac:(lia)) as Bk. unfold private_sign. cbv zeta.
    destruct (mul_lib G HG (gen_point G) (k mod n)) as (R & -> & HR & M & _ & A); [exact gp_on|now left|]. cbn [bind].
    destruct R as [|x y o].
    - exfalso. cbn [eabs] in A. symmetry in A. apply (e_mul_prime c Hc n) in A; [|rewrite <- sabs_coords; exact g_on|exact (ok_n G HG)|apply ord; rewrite <- sabs_coords; exact g_on|discriminate]. apply Z.divide_pos_le in A; lia.
    - destruct (x =? 0); [now right|]. destruct (inv_exists (k mod n) ltac:(lia)) as (w & -> & Hw & Mw). cbn [bind]. destruct (_ =? 0); [now right|]. left. eauto.
  Qed.
  (** Signing with the nonce k fails only if r or s is 0. *)
  Theorem sign_fails d h k : k mod n <> 0 -> private_sign G d h k = Raise RuntimeError ->
    exists x y w, multiple_z p (c_a c) gp (k mod n) (Some (x, y)) /\ (k mod n * w) mod n = 1 /\ (x = 0 \/ (w * (h + d * x)) mod n = 0).
  Proof.
    intros Hk. pose proof (Z.mod_pos_bound k n ltac:(lia)) as Bk. unfold private_sign. cbv zeta.
    destruct (mul_lib G HG (gen_point G) (k mod n)) as (R & -> & HR & M & _ & A); [exact gp_on|now left|]. cbn [bind].
    destruct (inv_exists (k mod n) ltac:(lia)) as (w & -> & Hw & Mw). cbn [bind]. destruct R as [|x y o]; [discriminate|]. exists x, y, w. split; [exact M|]. split; [exact Mw|].
    destruct (Z.eqb_spec x 0) as [X|X]; [now left|]. destruct (Z.eqb_spec ((w * (h + (d * x) mod n)) mod n) 0) as [Y|Y]; [|discriminate]. right.
    rewrite Zmult_mod, Zplus_mod_idemp_r, <- Zmult_mod in Y. exact Y.
  Qed.

  (** *** Malleability *)
  Theorem valid_negated Q h r s : onc Q -> valid Q h r s -> valid Q h r (n - s).
  Proof.
    intros HQ (Hr & Hs & x & y & V & X). split; [exact Hr|]. split; [lia|]. pose proof (vpoint_onc _ _ _ _ _ HQ V) as HR. apply vpoint_iff in V; [|exact HQ|exact HR|exact Hs].
    destruct (onc_opposite c Hc _ HR) as (HN & EN). exists x, ((- y) mod p). split; [|exact X]. apply vpoint_iff; [exact HQ|exact HN|lia|].
    change (Some (x, (- y) mod p)) with (opposite p (Some (x, y))). rewrite EN, <- V. pose proof (onc_on c Hc _ HR) as On.
    assert (e_neg c (sabs c (Some (x, y))) = e_mul c (- (1)) (sabs c (Some (x, y)))) as ->. { unfold e_mul. rewrite (e_mul_neg c Hc) by exact On. now rewrite (e_mul_1 c Hc) by exact On. }
    unfold e_mul. rewrite (e_mul_mul c Hc) by exact On. fold (e_mul c). apply e_cong; [exact On|]. replace ((n - s) * - (1)) with (s + (- (1)) * n) by ring. apply Z_mod_plus_full.
  Qed.
  Lemma x_of_r x r : 0 <= x < p -> p - n <= r < n -> x mod n = r -> x = r.
  Proof.
    intros Hx Hr E. pose proof HG as (_ & _ & _ & _ & H & _). pose proof (Z_div_mod_eq_full x n) as D. rewrite E in D. assert (0 <= x / n) by (apply Z.div_pos; lia).
    assert (x / n < 2) by (apply Z.div_lt_upper_bound; lia). assert (x / n = 0 \/ x / n = 1) as [X|X] by lia; rewrite X in D; lia.
  Qed.
  Theorem valid_unique Q h r s s' : onc Q -> p - n <= r -> valid Q h r s -> valid Q h r s' -> s' = s \/ s' = n - s.
  Proof.
    intros HQ Hp (Hr & Hs & x & y & V & X) (_ & Hs' & x' & y' & V' & X'). pose proof (vpoint_onc _ _ _ _ _ HQ V) as HR. pose proof (vpoint_onc _ _ _ _ _ HQ V') as HR'.
    apply x_of_r in X; [|apply HR|lia]. apply x_of_r in X'; [|apply HR'|lia]. subst x x'. apply vpoint_iff in V, V'; try assumption. rewrite <- V' in V. clear V'.
    pose proof (onc_on c Hc _ HR) as On. pose proof (onc_on c Hc _ HR') as On'. set (P := sabs c (Some (r, y))) in *. set (P' := sabs c (Some (r, y'))) in *.
    assert (P' = P \/ P' = e_neg c P) as D. { apply (xof_eq G HG); [exact On'|exact On|discriminate|discriminate|reflexivity]. }
    assert (P <> O) as NP by discriminate. destruct D as [D|D]; rewrite D in V.
    - left. apply (e_mul_eq c Hc n) in V; [|exact On|exact (ok_n G HG)|now apply ord|exact NP]. symmetry. apply (small_mod_eq n); [lia|lia|exact V].
    - right. assert (e_neg c P = e_mul c (- (1)) P) as EN. { unfold e_mul. rewrite (e_mul_neg c Hc) by exact On. now rewrite (e_mul_1 c Hc) by exact On. } rewrite EN in V.
      unfold e_mul in V. rewrite (e_mul_mul c Hc) in V by exact On. apply (e_mul_eq c Hc n) in V; [|exact On|exact (ok_n G HG)|now apply ord|exact NP].
      replace (s - s' * - (1)) with (s + s') in V by ring. destruct V as (q & Q1). assert (q = 1) by nia. lia.
  Qed.
End Ecdsa.
