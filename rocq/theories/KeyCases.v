(** Keys, nonces and signatures that show what fails, over any generator that
    satisfies [generator_ok]. *)
From Coq Require Import ZArith Znumtheory List Lia Bool.
From Verif Require Import PyBase NtModel NtProofs ZpTheory EcGroup GrpMul EcModel EcProofs EcOrder EcSpec EcLib EcdsaSpec EcdsaProofs DerModel DerProofs Base58Model PropsDer KeyModel KeySpec KeyProofs.
Import ListNotations.
Open Scope list_scope.
Open Scope Z_scope.

Section Cases.
  Variable cv : curve_info.
  Notation G := (cv_gen cv).
  Hypothesis HG : generator_ok G.
  Hypothesis Hnp : g_order G <= c_p (g_curve G).
  Hypothesis Hgy : 0 <= g_y G < c_p (g_curve G).
  Notation c := (g_curve G).
  Notation p := (c_p c).
  Notation n := (g_order G).
  Notation onc := (on_curve p (c_a c) (c_b c)).
  Notation gp := (coords (gen_point G)).
  Notation vpoint := (verification_point p (c_a c) n gp).
  Notation valid := (ecdsa_valid p (c_a c) n gp).
  Notation gmul := (multiple_z p (c_a c) gp).
  Let Hc : curve_ok c := gen_c G HG.
  Let N2 : 2 < n := ok_n2 G HG.
  Let P2 : 2 < p := ecp2 c Hc.
  Hypothesis Hlen : cv_baselen cv = 32.
  Hypothesis Hp : p < 256 ^ 32.
  Hypothesis Hgx : g_x G < n.
  Hypothesis Hgyn : g_y G < n.
  Hypothesis Hgyp : p - g_y G < n.
  Variable sha256 : bytes -> bytes.
  Hypothesis Hsha : forall d, wf_bytes (sha256 d) /\ zlen (sha256 d) = 32.
  Notation h data := (be_val (sha256 (sha256 data))).
  Lemma gy_pos : 0 < g_y G. Proof. exact (onc_y G HG (g_x G) (g_y G) (gp_on G HG Hnp Hgy)). Qed.
  Lemma gen_1 : gmul 1 (Some (g_x G, g_y G)) /\ onc (Some (g_x G, g_y G)).
  Proof.
    pose proof (gp_on G HG Hnp Hgy) as On. split; [|exact On]. apply (multiple_z_iff c Hc); [exact On|exact On|]. symmetry. apply (e_mul_1 c Hc). now apply onc_on.
  Qed.
  Lemma gen_neg : gmul (n - 1) (Some (g_x G, p - g_y G)) /\ onc (Some (g_x G, p - g_y G)).
  Proof.
    pose proof (gp_on G HG Hnp Hgy) as On. pose proof gy_pos. destruct (onc_opposite c Hc gp On) as (On' & A). assert (opposite p gp = Some (g_x G, p - g_y G)) as Eo.
    { cbn. f_equal. f_equal. rewrite Z_mod_nz_opp_full; rewrite Z.mod_small; lia. }
    rewrite Eo in On', A. split; [|exact On']. apply (multiple_z_iff c Hc); [exact On|exact On'|]. rewrite A. pose proof (onc_on c Hc _ On) as Oe.
    assert (e_neg c (sabs c gp) = e_mul c (- (1)) (sabs c gp)) as ->. { unfold e_mul. rewrite (e_mul_neg c Hc) by exact Oe. now rewrite (e_mul_1 c Hc) by exact Oe. }
    apply (e_cong G HG); [exact Oe|]. replace (n - 1) with (- (1) + 1 * n) by ring. now rewrite Z_mod_plus_full.
  Qed.
  Lemma n_lt : n < 256 ^ 32. Proof. lia. Qed.
  (** For each message there is a key under which s is not 0. *)
  Lemma key_for data r : r mod n <> 0 -> exists priv d x y, octets32 priv d /\ 1 <= d < n /\ gmul d (Some (x, y)) /\ onc (Some (x, y)) /\ x < n /\ y < n /\ p - y < n /\ (h data + d * r) mod n <> 0.
  Proof.
    intro R. pose proof n_lt. pose proof gy_pos. destruct (Z.eq_dec ((h data + 1 * r) mod n) 0) as [E|E].
    - exists (be_bytes 32 (n - 1)), (n - 1), (g_x G), (p - g_y G). destruct gen_neg as (M & On). split; [apply octets_of; lia|]. split; [lia|]. split; [exact M|]. split; [exact On|]. split; [lia|]. split; [lia|]. split; [lia|].
      intro E'. apply Zmod_divide in E; [|lia]. apply Zmod_divide in E'; [|lia]. assert (n | 2 * r) as D. { replace (2 * r) with (h data + 1 * r - (h data + (n - 1) * r) + r * n) by ring. apply Z.divide_add_r; [now apply Z.divide_sub_r|apply Z.divide_factor_r]. }
      apply prime_mult in D; [|exact (ok_n G HG)]. destruct D as [D|D]; [apply Z.divide_pos_le in D; lia|]. apply R. now apply Zdivide_mod.
    - exists (be_bytes 32 1), 1, (g_x G), (g_y G). destruct gen_1 as (M & On). split; [apply octets_of; lia|]. split; [lia|]. split; [exact M|]. split; [exact On|]. split; [lia|]. split; [lia|]. split; [lia|exact E].
  Qed.
  Lemma text_of x y : onc (Some (x, y)) -> exists k, sec1_uncompressed k x y.
  Proof.
    intros (Hx & Hy & _). destruct (octets_of x ltac:(lia)) as (WX & LX & VX), (octets_of y ltac:(lia)) as (WY & LY & VY). exists (4 :: be_bytes 32 x ++ be_bytes 32 y), (be_bytes 32 x), (be_bytes 32 y). auto 10.
  Qed.
  Lemma text_ok k x y : sec1_uncompressed k x y -> onc (Some (x, y)) -> x < n -> y < n -> decompress_with G k = Ok k.
  Proof.
    intros U On Hx Hy. rewrite (decompress_uncompressed cv HG Hnp Hgy k x y U). assert (contains_point c x y = true) as -> by (apply (contains_div c Hc); apply On). destruct (Z.ltb_spec x n); [|lia]. destruct (Z.ltb_spec y n); [|lia]. reflexivity.
  Qed.
  Lemma p512 : p < 2 ^ 512. Proof. apply Z.lt_trans with (256 ^ 32); [exact Hp|reflexivity]. Qed.
  Lemma decodes r s sig : 0 <= r < p -> 0 <= s < p -> sigencode_der r s = Ok sig -> wf_bytes sig /\ ecc_sigdecode_der sig = Ok (r, s).
  Proof.
    intros Hr Hs E. pose proof p512. destruct (C35_der_in_use (2 ^ 521) r s) as (sig' & E' & W & _ & D); [lia|split; [lia|]; apply Z.lt_trans with (2 ^ 512); [lia|reflexivity]|split; [lia|]; apply Z.lt_trans with (2 ^ 512); [lia|reflexivity]|].
    assert (sig = sig') as -> by congruence. now split.
  Qed.
  Lemma encodes r s : 0 <= r < p -> 0 <= s < p -> exists sig, sigencode_der r s = Ok sig /\ wf_bytes sig /\ ecc_sigdecode_der sig = Ok (r, s).
  Proof.
    intros Hr Hs. pose proof p512. destruct (C35_der_in_use (2 ^ 521) r s) as (sig' & E' & W & _ & D); [lia|split; [lia|]; apply Z.lt_trans with (2 ^ 512); [lia|reflexivity]|split; [lia|]; apply Z.lt_trans with (2 ^ 512); [lia|reflexivity]|]. exists sig'. auto.
  Qed.
  (** What sign returns is accepted if the nonce's point has x < n, and
      refused otherwise. *)
  Theorem sign_verify data priv d nonce sig : octets32 priv d -> sign_with sha256 cv data priv nonce = Ok sig ->
    exists k x y r y', nonce = Ok k /\ 1 <= k < n /\ 1 <= d < n /\ onc (Some (x, y)) /\ x < n /\ y < n /\ gmul d (Some (x, y)) /\ gmul k (Some (r, y')) /\
      forall key key', decompress_with G key = Ok key' -> sec1_uncompressed key' x y -> verify_with sha256 cv data key sig = Ok (r <? n).
  Proof.
    intros O E. destruct (sign_run cv HG Hnp Hgy Hlen sha256 Hsha data priv d nonce sig O E) as (Hd & k & x & y & r & y' & s & En & Hk & On & M & Hx & Hy & Mk & Hr & Hs & Es & V).
    exists k, x, y, r, y'. repeat (split; [assumption|]). intros key key' D U. destruct (decodes r s sig ltac:(lia) ltac:(lia) Es) as (_ & Ds). destruct (Z.ltb_spec r n) as [L|L].
    - apply (verify_decoded cv HG Hnp Hgy Hlen sha256 Hsha data key key' x y sig r s D U On Hx Hy Ds). split; [lia|]. split; [exact Hs|]. exists r, y'. split; [exact V|]. apply Z.mod_small. lia.
    - apply (verify_range cv HG Hnp Hgy Hlen sha256 Hsha data key key' x y sig r s D U On Hx Hy Ds). lia.
  Qed.
  (** For each message there is a key and a nonce with any given x(kG). *)
  Theorem sign_with_point data x0 y0 : onc (Some (x0, y0)) -> x0 <> 0 -> x0 <> n -> x0 < 2 * n -> exists priv d k x y sig, octets32 priv d /\ 1 <= k < n /\ gmul k (Some (x0, y0)) /\ gmul d (Some (x, y)) /\ onc (Some (x, y)) /\ x < n /\ y < n /\ p - y < n /\
    sign_with sha256 cv data priv (Ok k) = Ok sig /\ forall key key', decompress_with G key = Ok key' -> sec1_uncompressed key' x y -> verify_with sha256 cv data key sig = Ok (x0 <? n).
  Proof.
    intros On0 X0 Xn X2. assert (x0 mod n <> 0) as R. { intro E. apply Zmod_divide in E; [|lia]. destruct E as (q & E). pose proof On0 as (Bx & _). assert (0 < q < 2) by nia. assert (q = 1) by lia. nia. }
    destruct (key_for data x0 R) as (priv & d & x & y & O & Hd & M & On & Hx & Hy & Hy' & S).
    destruct (cyclic_lib G HG (Some (x0, y0)) Hgy On0) as (k & (Hk & Mk) & _). assert (k <> 0) as K0.
    { intros ->. apply (multiple_z_iff c Hc) in Mk; [|exact (gp_on G HG Hnp Hgy)|exact On0]. cbn in Mk. discriminate Mk. }
    destruct (sign_returns cv HG Hnp Hgy Hlen Hp sha256 Hsha data priv d k x y O M On Hx Hy Hd ltac:(lia) x0 y0 Mk On0 X0 S p512) as (sig & s & Es & Hs & Eder).
    destruct (sign_verify data priv d (Ok k) sig O Es) as (k1 & x1 & y1 & r & y' & Ek & _ & _ & On1 & _ & _ & M1 & Mk1 & V). assert (k1 = k) as -> by congruence.
    pose proof (gp_on G HG Hnp Hgy) as Og.
    assert (Some (x1, y1) = Some (x, y)) as Exy. { apply (multiple_z_iff c Hc) in M1, M; try assumption. apply (sabs_inj c Hc); [exact On1|exact On|congruence]. } assert (x1 = x /\ y1 = y) as (-> & ->) by (split; congruence).
    assert (Some (r, y') = Some (x0, y0)) as Er. { apply (mult_onc G HG) in Mk1, Mk; try assumption; try lia. destruct Mk1 as (O1 & A1), Mk as (O2 & A2). apply (sabs_inj c Hc); [exact O1|exact O2|congruence]. } assert (r = x0) as -> by congruence.
    exists priv, d, k, x, y, sig. repeat (split; [assumption || lia|]). exact V.
  Qed.
  (** An accepted signature is never the only one. *)
  Theorem malleable data key sig : wf_bytes key -> verify_with sha256 cv data key sig = Ok true -> exists sig', wf_bytes sig' /\ sig' <> sig /\ verify_with sha256 cv data key sig' = Ok true.
  Proof.
    intros W V. apply (verify_true cv HG Hnp Hgy Hlen Hp sha256 Hsha) in V; [|exact W]. destruct V as (k' & x & y & r & s & D & U & On & Hx & Hy & Es & V). pose proof V as (Hr & Hs & _).
    destruct (encodes r s ltac:(lia) ltac:(lia)) as (s1 & E1 & W1 & D1). destruct (encodes r (n - s) ltac:(lia) ltac:(lia)) as (s2 & E2 & W2 & D2).
    assert (verify_with sha256 cv data key s1 = Ok true) as V1 by now apply (verify_decoded cv HG Hnp Hgy Hlen sha256 Hsha data key k' x y s1 r s D U On Hx Hy D1).
    assert (verify_with sha256 cv data key s2 = Ok true) as V2. { apply (verify_decoded cv HG Hnp Hgy Hlen sha256 Hsha data key k' x y s2 r (n - s) D U On Hx Hy D2). now apply valid_negated. }
    destruct (list_eq_dec Z.eq_dec s1 sig) as [E|E]; [|now exists s1]. exists s2. split; [exact W2|]. split; [|exact V2]. intro E'. assert (s1 = s2) as E12 by congruence. rewrite E12 in D1. assert (s = n - s) as F by congruence.
    pose proof (n_odd G HG) as O. assert (n = 2 * s) as F2 by lia. rewrite F2, Z.mul_comm, Z_mod_mult in O. lia.
  Qed.
  Theorem two_values data key sig sig' r s s' : wf_bytes key -> ecc_sigdecode_der sig = Ok (r, s) -> ecc_sigdecode_der sig' = Ok (r, s') -> p - n <= r ->
    verify_with sha256 cv data key sig = Ok true -> verify_with sha256 cv data key sig' = Ok true -> s' = s \/ s' = n - s.
  Proof.
    intros W D D' Hr V V'. apply (verify_true cv HG Hnp Hgy Hlen Hp sha256 Hsha) in V, V'; try exact W. destruct V as (k1 & x & y & r1 & s1 & K & U & On & Hx & Hy & Es & V), V' as (k2 & x' & y' & r2 & s2 & K' & U' & On' & Hx' & Hy' & Es' & V').
    assert (k1 = k2) as <- by congruence. assert (r1 = r /\ s1 = s) as (-> & ->) by (split; congruence). assert (r2 = r /\ s2 = s') as (-> & ->) by (split; congruence).
    assert (x' = x /\ y' = y) as (-> & ->). { destruct U as (X & Y & -> & _ & _ & LX & LY & VX & VY), U' as (X' & Y' & E & _ & _ & LX' & LY' & VX' & VY'). assert (X ++ Y = X' ++ Y') as E' by congruence.
      assert (X = X') as <-. { rewrite <- (ztake_app_exact X Y 32), <- (ztake_app_exact X' Y' 32) by lia. now rewrite E'. } apply app_inv_head in E'. split; congruence. }
    exact (valid_unique G HG Hnp Hgy (Some (x, y)) (h data) r s s' On Hr V V').
  Qed.
  (** The verification point can be the point at infinity. *)
  Theorem infinity data : h data mod n <> 0 -> exists key sig, sec1_uncompressed key (g_x G) (p - g_y G) /\ wf_bytes sig /\ ecc_sigdecode_der sig = Ok (h data mod n, 1) /\ verify_with sha256 cv data key sig = Raise TypeError.
  Proof.
    intro Hh. pose proof (Z.mod_pos_bound (h data) n ltac:(lia)) as B. destruct gen_neg as (M & On). pose proof gy_pos. destruct (text_of _ _ On) as (key & U). destruct (encodes (h data mod n) 1 ltac:(lia) ltac:(lia)) as (sig & E & W & D).
    exists key, sig. split; [exact U|]. split; [exact W|]. split; [exact D|]. pose proof (gp_on G HG Hnp Hgy) as Og. pose proof (g_on G HG Hnp Hgy) as Oe.
    apply (verify_decoded cv HG Hnp Hgy Hlen sha256 Hsha data key key (g_x G) (p - g_y G) sig (h data mod n) 1 (text_ok _ _ _ U On ltac:(lia) ltac:(lia)) U On ltac:(lia) ltac:(lia) D).
    split; [lia|]. split; [lia|]. apply (vpoint_iff G HG Hnp Hgy); [exact On|exact I|lia|]. apply (multiple_z_iff c Hc) in M; [|exact Og|exact On]. rewrite M.
    unfold e_mul. rewrite (e_mul_mul c Hc) by exact Oe. rewrite <- (e_mul_add c Hc) by exact Oe. fold (e_mul c).
    rewrite (e_cong G HG (h data + h data mod n * (n - 1)) 0); [|exact Oe|].
    - reflexivity.
    - rewrite Zplus_mod, Zmult_mod_idemp_l, <- Zplus_mod. replace (h data + h data * (n - 1)) with (h data * n) by ring. rewrite Z_mod_mult. reflexivity.
  Qed.
End Cases.
