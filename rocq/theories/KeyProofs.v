(** Public key texts, key objects and the signature functions, over any
    generator that satisfies [generator_ok]. *)
From Coq Require Import ZArith Znumtheory List Lia Bool.
From Verif Require Import PyBase NtModel NtProofs Recip NtJacobi NtSqrt ZpTheory EcGroup GrpMul EcModel EcProofs EcOrder EcSpec EcLib EcdsaSpec EcdsaProofs DerModel DerProofs Base58Model KeyModel KeySpec.
From Verif Require PropsDer.
Import ListNotations.
Open Scope list_scope.
Open Scope Z_scope.

Lemma cons_zlen {A} (l : list A) : zlen l <> 0 -> l <> []. Proof. now intros H ->. Qed.
Lemma zdrop1 {A} (x : A) l : zdrop 1 (x :: l) = l.
Proof. change (x :: l) with ([x] ++ l). now apply zdrop_app_exact. Qed.
Lemma slice_1_33 x (X Y : bytes) : zlen X = 32 -> slice 1 33 (x :: X ++ Y) = X.
Proof. intro H. unfold slice. rewrite zdrop1. now apply ztake_app_exact. Qed.
Lemma slice_33_65 x (X Y : bytes) : zlen X = 32 -> zlen Y = 32 -> slice 33 65 (x :: X ++ Y) = Y.
Proof. intros H H'. unfold slice. change (x :: X ++ Y) with ((x :: X) ++ Y). rewrite zdrop_app_exact by (rewrite zlen_cons; lia). apply ztake_all. lia. Qed.
Lemma zdrop_33 x (X Y : bytes) : zlen X = 32 -> zdrop 33 (x :: X ++ Y) = Y.
Proof. intros H. change (x :: X ++ Y) with ((x :: X) ++ Y). apply zdrop_app_exact. rewrite zlen_cons. lia. Qed.
Lemma split_65 (k : bytes) : zlen k = 65 -> exists ch X Y, k = ch :: X ++ Y /\ zlen X = 32 /\ zlen Y = 32.
Proof.
  intro H. destruct k as [|ch k]; [discriminate|]. rewrite zlen_cons in H. exists ch, (ztake 32 k), (zdrop 32 k). rewrite ztake_zdrop. split; [reflexivity|]. rewrite zlen_ztake, zlen_zdrop by lia. lia.
Qed.
Lemma land1 y : Z.land y 1 = y mod 2.
Proof. change 1 with (Z.ones 1) at 1. now rewrite Z.land_ones by lia. Qed.
Lemma octets_of x : 0 <= x < 256 ^ 32 -> octets32 (be_bytes 32 x) x.
Proof. intro H. split; [apply wf_be_bytes|]. split; [apply zlen_be_bytes|]. now apply be_val_be_bytes_small. Qed.
Lemma octets_eq s d : octets32 s d -> s = be_bytes 32 d.
Proof. intros (W & L & V). subst d. rewrite <- (be_bytes_be_val s W) at 1. f_equal. unfold zlen in L. lia. Qed.

Section Key.
  Variable cv : curve_info.
  Notation G := (cv_gen cv).
  Hypothesis HG : generator_ok G.
  Hypothesis Hnp : g_order G <= c_p (g_curve G).
  Hypothesis Hgy : 0 <= g_y G < c_p (g_curve G).
  Notation c := (g_curve G).
  Notation p := (c_p c).
  Notation n := (g_order G).
  Notation onc := (on_curve p (c_a c) (c_b c)).
  Notation gp := (coords (gen_point G)).
  Notation vpoint := (verification_point p (c_a c) n gp).
  Notation valid := (ecdsa_valid p (c_a c) n gp).
  Notation gmul := (multiple_z p (c_a c) gp).
  Let Hc : curve_ok c := gen_c G HG.
  Let N2 : 2 < n := ok_n2 G HG.
  Let P2 : 2 < p := ecp2 c Hc.
  Lemma p_lt_2n : 2 * p + 1 < 3 * n. Proof. apply HG. Qed.

  (** *** Key objects *)
  Lemma is_valid x y : point_is_valid G x y = Ok ((0 <=? x) && (x <? n) && (0 <=? y) && (y <? n) && contains_point c x y).
  Proof.
    destruct (valid_lib G HG x y Hnp) as (v & -> & E). f_equal. apply eq_true_iff_eq. rewrite E, !andb_true_iff, !Z.leb_le, !Z.ltb_lt, (contains_div c Hc). tauto.
  Qed.
  Lemma contains_onc x y : 0 <= x < p -> 0 <= y < p -> contains_point c x y = true <-> onc (Some (x, y)).
  Proof. intros Hx Hy. rewrite (contains_div c Hc). cbn. tauto. Qed.
  Lemma public_key_ok x y o : onc (Some (x, y)) -> o = 0 \/ o = n -> public_key G (PAff x y o) = if (x <? n) && (y <? n) then Ok (PAff x y o) else Raise RuntimeError.
  Proof.
    intros H Ho. unfold public_key. cbv zeta. destruct (Z.eqb_spec n 0) as [?Hq|?Hq]; [lia|]. rewrite (order_lib G HG) by (cbn [p_order]; assumption). cbn [bind is_inf negb].
    destruct H as (Hx & Hy & _). destruct (Z.ltb_spec x 0); [lia|]. destruct (Z.ltb_spec y 0); [lia|]. cbn [orb]. destruct (Z.leb_spec n x), (Z.ltb_spec x n); try lia; cbn [orb andb]; [reflexivity|].
    now destruct (Z.leb_spec n y), (Z.ltb_spec y n); try lia.
  Qed.
  Lemma vk_string_ok X Y : wf_bytes X -> wf_bytes Y -> zlen X = cv_baselen cv -> zlen Y = cv_baselen cv ->
    vk_from_string cv (X ++ Y) = if (be_val X <? n) && (be_val Y <? n) && contains_point c (be_val X) (be_val Y) then Ok (mk_vkey cv (PAff (be_val X) (be_val Y) n)) else Raise AssertionError.
  Proof.
    intros WX WY LX LY. unfold vk_from_string. assert (1 <= cv_baselen cv) as B1 by (unfold cv_baselen, cv_order; destruct (orderlen_spec n); lia).
    rewrite zlen_app. destruct (Z.eqb_spec (zlen X + zlen Y) (2 * cv_baselen cv)) as [?Hq|?Hq]; [|lia]. cbn [negb]. rewrite ztake_app_exact, zdrop_app_exact by lia.
    rewrite !string_to_number_spec by (apply cons_zlen; lia). cbn [bind]. rewrite is_valid. cbn [bind].
    pose proof (be_val_bound X WX). pose proof (be_val_bound Y WY). destruct (Z.leb_spec 0 (be_val X)); [|lia]. destruct (Z.leb_spec 0 (be_val Y)); [|lia]. cbn [andb]. rewrite andb_true_r.
    destruct (Z.ltb_spec (be_val X) n); [|reflexivity]. destruct (Z.ltb_spec (be_val Y) n); [|reflexivity]. cbn [andb]. destruct (contains_point c (be_val X) (be_val Y)) eqn:C; [|reflexivity]. cbn [negb].
    unfold point_new. rewrite C. cbn [bind]. unfold vk_from_public_point. rewrite public_key_ok; [|apply contains_onc; [lia|lia|exact C]|now right].
    destruct (Z.ltb_spec (be_val X) n); [|lia]. destruct (Z.ltb_spec (be_val Y) n); [|lia]. reflexivity.
  Qed.
  Lemma secexp_ok d : 1 <= d < n -> exists x y o, onc (Some (x, y)) /\ gmul d (Some (x, y)) /\ (o = 0 \/ o = n) /\ sabs c (Some (x, y)) = e_mul c d (sabs c gp) /\
    sk_from_secret_exponent cv d = if (x <? n) && (y <? n) then Ok (mk_skey cv d (mk_vkey cv (PAff x y o))) else Raise RuntimeError.
  Proof.
    intro Hd. unfold sk_from_secret_exponent, cv_order. destruct (Z.leb_spec 1 d); [|lia]. destruct (Z.ltb_spec d n); [|lia]. cbn [andb negb].
    destruct (mul_lib G HG (gen_point G) d) as (R & -> & HR & M & Ho & A); [exact (gp_on G HG Hnp Hgy)|now left|]. cbn [bind].
    destruct R as [|x y o].
    - exfalso. cbn [eabs] in A. symmetry in A. pose proof (gp_on G HG Hnp Hgy) as On. apply (onc_on c Hc) in On. rewrite sabs_coords in On.
      apply (e_mul_prime c Hc n) in A; [|exact On|exact (ok_n G HG)|now apply order_n|discriminate]. apply Z.divide_pos_le in A; lia.
    - exists x, y, o. split; [exact HR|]. split; [exact M|]. assert (o = 0 \/ o = n) as Ho'. { destruct Ho as [Ho|Ho]; [now left|]. right. unfold gen_point in Ho. congruence. }
      split; [exact Ho'|]. split. { change (Some (x, y)) with (coords (PAff x y o)). now rewrite !sabs_coords. }
      unfold vk_from_public_point. rewrite (public_key_ok x y o HR Ho'). destruct ((x <? n) && (y <? n)); reflexivity.
  Qed.

  (** *** Public key texts *)
  Section Text.
    Hypothesis Hlen : cv_baselen cv = 32.
    Hypothesis Hp : p < 256 ^ 32.
    Lemma decompress_4 X Y : wf_bytes X -> wf_bytes Y -> zlen X = 32 -> zlen Y = 32 ->
      decompress_with G (4 :: X ++ Y) = if (be_val X <? n) && (be_val Y <? n) && contains_point c (be_val X) (be_val Y) then Ok (4 :: X ++ Y) else Raise ValueError.
    Proof.
      intros WX WY LX LY. unfold decompress_with. change (4 =? 4) with true. rewrite zlen_cons, zlen_app, LX, LY. change (1 + (32 + 32) =? 65) with true. cbn [andb].
      rewrite slice_1_33, slice_33_65 by assumption. rewrite !string_to_number_spec by (apply cons_zlen; lia). cbn [bind]. rewrite is_valid. cbn [bind].
      pose proof (be_val_bound X WX). pose proof (be_val_bound Y WY). destruct (Z.leb_spec 0 (be_val X)); [|lia]. destruct (Z.leb_spec 0 (be_val Y)); [|lia]. cbn [andb]. rewrite andb_true_r.
      destruct ((be_val X <? n) && (be_val Y <? n) && contains_point c (be_val X) (be_val Y)); reflexivity.
    Qed.
    Lemma not_compressed ch k : ~ (ch = 4 /\ zlen (ch :: k) = 65) -> ~ ((ch = 2 \/ ch = 3) /\ zlen (ch :: k) = 33) -> decompress_with G (ch :: k) = Raise ValueError.
    Proof.
      intros N4 N2'. unfold decompress_with. destruct (Z.eqb_spec ch 4), (Z.eqb_spec (zlen (ch :: k)) 65); try tauto; cbn [andb].
      all: destruct (Z.eqb_spec ch 2), (Z.eqb_spec ch 3), (Z.eqb_spec (zlen (ch :: k)) 33); try tauto; try reflexivity; exfalso; lia.
    Qed.
    Notation rhs x := (x * x * x + c_a c * x + c_b c).
    Lemma decompress_23 ch X : ch = 2 \/ ch = 3 -> wf_bytes X -> zlen X = 32 -> let x := be_val X in
      (~ (exists y, (p | y * y - rhs x)) /\ decompress_with G (ch :: X) = Raise SquareRootError) \/
      (exists y, 0 < y < p /\ (p | y * y - rhs x) /\ square_root_mod_prime (rhs x mod p) p = Ok y /\ decompress_with G (ch :: X) =
         if (x <? n) && (y <? n) then Ok (4 :: X ++ be_bytes 32 (if y mod 2 =? ch mod 2 then y else p - y)) else Raise ValueError).
    Proof.
      intros Hch WX LX x. unfold decompress_with. destruct (Z.eqb_spec ch 4) as [?Hq|?Hq]; [lia|]. cbn [andb]. rewrite zlen_cons, LX. change (1 + 32 =? 33) with true. cbn [negb].
      assert (negb (ch =? 2) && negb (ch =? 3) = false) as -> by (destruct Hch as [->| ->]; reflexivity). cbn [orb]. rewrite zdrop1, string_to_number_spec by (apply cons_zlen; lia). cbn [bind]. fold x.
      replace (x ^ 3 + c_a c * x + c_b c) with (rhs x) by ring. set (a := rhs x mod p). assert (0 <= a < p) as Ha by (apply Z.mod_pos_bound; lia).
      assert (forall y, (p | y * y - a) <-> (p | y * y - rhs x)) as K.
      { intro y. assert (p | rhs x - a) as D by (exists (rhs x / p); unfold a; rewrite (Z_div_mod_eq_full (rhs x) p) at 1; ring). split; intro D'.
        - replace (y * y - rhs x) with (y * y - a - (rhs x - a)) by ring. now apply Z.divide_sub_r.
        - replace (y * y - a) with (y * y - rhs x + (rhs x - a)) by ring. now apply Z.divide_add_r. }
      assert (a <> 0) as A0 by apply (ec_no2 c Hc).
      pose proof (symbol_legendre a p (proj1 Hc) P2) as L.
      assert (~ (p | a)) as Na by (intro D; apply Z.divide_pos_le in D; lia).
      assert ((exists y, (p | y * y - a)) \/ ~ (exists y, (p | y * y - a))) as [Ey|Ey] by (inversion L as [D E|y N' D E|N' D E]; [contradiction|left; now exists y|right; intros (z & Dz); now apply (D z)]).
      - right. destruct (square_root_ok p a (proj1 Hc) Ha Ey) as (r & Er & Hr & Mr). assert (r <> 0) by (intros ->; rewrite Z.mul_0_l, Zmod_0_l in Mr; lia).
        assert (p | r * r - rhs x) as D. { apply K. exists (r * r / p). rewrite <- Mr at 1. rewrite (Z_div_mod_eq_full (r * r) p) at 1. ring. }
        exists r. split; [lia|]. split; [exact D|]. split; [exact Er|]. rewrite Er. cbn [bind]. rewrite is_valid. cbn [bind].
        assert (contains_point c x r = true) as -> by now apply (contains_div c Hc).
        pose proof (be_val_bound X WX). destruct (Z.leb_spec 0 x); [|unfold x in *; lia]. destruct (Z.leb_spec 0 r); [|lia]. cbn [andb]. rewrite !andb_true_r. destruct ((x <? n) && (r <? n)); [|reflexivity]. cbn [negb].
        rewrite !land1, number_to_string_spec by lia. unfold cv_baselen, cv_order in Hlen. rewrite Hlen. rewrite (Z.eqb_sym (r mod 2)). set (y := if ch mod 2 =? r mod 2 then r else p - r).
        assert (0 < y < p) by (unfold y; destruct (ch mod 2 =? r mod 2); lia). destruct (Z.ltb_spec y 0); [lia|]. destruct (Z.ltb_spec y (256 ^ 32)); [|lia]. reflexivity.
      - left. split; [intros (y & D); apply Ey; exists y; now apply K|]. rewrite (square_root_none p a (proj1 Hc) Ha Ey). reflexivity.
    Qed.
    (** Every accepted text denotes a point, with the coordinates returned. *)
    Theorem decompress_sound k k' : wf_bytes k -> decompress_with G k = Ok k' ->
      exists x y, onc (Some (x, y)) /\ x < n /\ sec1_uncompressed k' x y /\ (k = k' /\ y < n \/ sec1_compressed k x y).
    Proof.
      intros W. destruct k as [|ch k]; [discriminate|]. intro E. apply Forall_inv_tail in W as Wk.
      assert ((ch = 4 /\ zlen (ch :: k) = 65) \/ ~ (ch = 4 /\ zlen (ch :: k) = 65)) as [(-> & L)|N4] by lia.
      - destruct (split_65 _ L) as (ch & X & Y & Ek & LX & LY). assert (k = X ++ Y) by congruence. subst k. apply Forall_app in Wk. destruct Wk as (WX & WY). rewrite decompress_4 in E by assumption.
        destruct (Z.ltb_spec (be_val X) n); [|discriminate]. destruct (Z.ltb_spec (be_val Y) n); [|discriminate]. cbn [andb] in E. destruct (contains_point c (be_val X) (be_val Y)) eqn:C; [|discriminate].
        pose proof (be_val_bound X WX). pose proof (be_val_bound Y WY). assert (k' = 4 :: X ++ Y) as -> by congruence. exists (be_val X), (be_val Y). split; [apply contains_onc; [lia|lia|exact C]|]. split; [assumption|].
        split; [exists X, Y; auto 10|]. left. split; [reflexivity|assumption].
      - assert ((ch = 2 \/ ch = 3) /\ zlen (ch :: k) = 33 \/ ~ ((ch = 2 \/ ch = 3) /\ zlen (ch :: k) = 33)) as [(Hch & L)|N23] by lia; [|rewrite not_compressed in E by assumption; discriminate].
        rewrite zlen_cons in L. assert (zlen k = 32) as Lk by lia. pose proof (be_val_bound k Wk). destruct (decompress_23 ch k Hch Wk Lk) as [(_ & E')|(y & Hy & D & _ & E')]; rewrite E' in E; [discriminate|].
        destruct (Z.ltb_spec (be_val k) n); [|discriminate]. destruct (Z.ltb_spec y n); [|discriminate]. cbn [andb] in E. set (y' := if y mod 2 =? ch mod 2 then y else p - y) in *.
        assert (0 < y' < p) by (unfold y'; destruct (y mod 2 =? ch mod 2); lia). assert (onc (Some (be_val k, y'))) as On.
        { split; [lia|]. split; [lia|]. unfold y'. destruct (y mod 2 =? ch mod 2); [exact D|]. replace ((p - y) * (p - y) - rhs (be_val k)) with (y * y - rhs (be_val k) + (p - 2 * y) * p) by ring. apply Z.divide_add_r; [exact D|apply Z.divide_factor_r]. }
        exists (be_val k), y'. split; [exact On|]. split; [assumption|]. assert (k' = 4 :: k ++ be_bytes 32 y') as -> by congruence. destruct (octets_of y' ltac:(lia)) as (WY & LY & VY).
        split; [exists k, (be_bytes 32 y'); auto 10|]. right. exists k. split; [|auto]. f_equal. pose proof (Recip.odd_p p (proj1 Hc) P2) as Po.
        unfold y'. destruct (Z.eqb_spec (y mod 2) (ch mod 2)) as [M|M].
        + rewrite M. destruct Hch as [->| ->]; reflexivity.
        + assert ((p - y) mod 2 = ch mod 2) as ->; [|destruct Hch as [->| ->]; reflexivity]. rewrite Zminus_mod, Po. pose proof (Z.mod_pos_bound y 2 ltac:(lia)). pose proof (Z.mod_pos_bound ch 2 ltac:(lia)).
          assert (y mod 2 = 0 \/ y mod 2 = 1) as [R|R] by lia; rewrite R in *; [change ((1 - 0) mod 2) with 1|change ((1 - 1) mod 2) with 0]; lia.
    Qed.
    Lemma opposite_y x y y' : (p | y * y - rhs x) -> (p | y' * y' - rhs x) -> 0 < y < p -> 0 < y' < p -> y' = y \/ y' = p - y.
    Proof.
      intros D D' H H'. assert (p | (y' - y) * (y' + y)) as M. { replace ((y' - y) * (y' + y)) with (y' * y' - rhs x - (y * y - rhs x)) by ring. now apply Z.divide_sub_r. }
      apply prime_mult in M; [|exact (proj1 Hc)]. destruct M as [(q & M)|(q & M)].
      - left. assert (q = 0) by nia. lia.
      - right. assert (q = 1) by nia. lia.
    Qed.
    Lemma onc_ypos x y : onc (Some (x, y)) -> 0 < y < p.
    Proof. intro H. pose proof (onc_y G HG x y H). destruct H as (_ & H & _). lia. Qed.
    (** A compressed text is decompressed to the point of the same parity,
        unless the root that is computed first is n or more. *)
    Theorem decompress_point k x y : onc (Some (x, y)) -> x < n -> sec1_compressed k x y ->
      (exists k', decompress_with G k = Ok k' /\ sec1_uncompressed k' x y) \/
      (decompress_with G k = Raise ValueError /\ (n <= y \/ n <= p - y) /\ square_root_mod_prime (rhs x mod p) p = Ok (Z.max y (p - y))).
    Proof.
      intros On Hx (X & -> & WX & LX & VX). pose proof (onc_ypos _ _ On) as Hy. destruct On as (_ & _ & D). pose proof (Z.mod_pos_bound y 2 ltac:(lia)) as By.
      destruct (decompress_23 (2 + y mod 2) X ltac:(lia) WX LX) as [(N & _)|(r & Hr & Dr & Er & E)]; [elim N; exists y; now rewrite VX|]. rewrite VX in *. rewrite E.
      destruct (opposite_y x y r D Dr Hy Hr) as [R|R].
      - destruct (Z.ltb_spec x n); [|lia]. destruct (Z.ltb_spec r n); cbn [andb]; [left|right].
        + eexists. split; [reflexivity|]. destruct (octets_of y ltac:(lia)) as (WY & LY & VY). exists X, (be_bytes 32 y). split; [|auto 10]. do 3 f_equal. rewrite R. rewrite Zplus_mod. change (2 mod 2) with 0. rewrite Z.add_0_l, !Zmod_mod, Z.eqb_refl. reflexivity.
        + split; [reflexivity|]. split; [lia|]. rewrite Er. f_equal. pose proof p_lt_2n. lia.
      - destruct (Z.ltb_spec x n); [|lia]. destruct (Z.ltb_spec r n); cbn [andb]; [left|right].
        + eexists. split; [reflexivity|]. destruct (octets_of y ltac:(lia)) as (WY & LY & VY). exists X, (be_bytes 32 y). split; [|auto 10]. do 3 f_equal. subst r. rewrite (Zplus_mod 2). change (2 mod 2) with 0. rewrite Z.add_0_l, !Zmod_mod.
          rewrite Zminus_mod, (Recip.odd_p p (proj1 Hc) P2). assert (y mod 2 = 0 \/ y mod 2 = 1) as [R|R] by lia; rewrite R; [change ((1 - 0) mod 2 =? 0) with false|change ((1 - 1) mod 2 =? 1) with false]; cbv iota; lia.
        + split; [reflexivity|]. split; [lia|]. rewrite Er. f_equal. pose proof p_lt_2n. lia.
    Qed.
    Lemma uncompressed_fun k k' x y : sec1_uncompressed k x y -> sec1_uncompressed k' x y -> k = k'.
    Proof.
      intros (X & Y & -> & WX & WY & LX & LY & VX & VY) (X' & Y' & -> & WX' & WY' & LX' & LY' & VX' & VY'). rewrite (be_val_inj X X'), (be_val_inj Y Y') by (assumption || lia). reflexivity.
    Qed.
    Lemma compress_ok k x y : sec1_uncompressed k x y -> exists k', compress_public_key k = Ok k' /\ sec1_compressed k' x y.
    Proof.
      intros (X & Y & -> & WX & WY & LX & LY & VX & VY). unfold compress_public_key. rewrite zlen_cons, zlen_app, LX, LY. change (4 =? 4) with true. change (1 + (32 + 32) =? 65) with true. cbn [negb orb].
      rewrite slice_1_33, slice_33_65 by assumption. rewrite string_to_number_spec by (apply cons_zlen; lia). cbn [bind]. eexists. split; [reflexivity|]. exists X. rewrite land1, VY. auto.
    Qed.
    Lemma decompress_uncompressed k x y : sec1_uncompressed k x y -> decompress_with G k = if (x <? n) && (y <? n) && contains_point c x y then Ok k else Raise ValueError.
    Proof. intros (X & Y & -> & WX & WY & LX & LY & <- & <-). now apply decompress_4. Qed.
    Theorem compress_decompress k x y : sec1_uncompressed k x y -> onc (Some (x, y)) -> x < n ->
      exists k', compress_public_key k = Ok k' /\ sec1_compressed k' x y /\ (decompress_with G k' = Ok k \/
        (decompress_with G k' = Raise ValueError /\ (n <= y \/ n <= p - y) /\ square_root_mod_prime (rhs x mod p) p = Ok (Z.max y (p - y)))).
    Proof.
      intros Hk On Hx. destruct (compress_ok k x y Hk) as (k' & E & C). exists k'. split; [exact E|]. split; [exact C|]. destruct (decompress_point k' x y On Hx C) as [(k'' & E' & U)|R]; [left|now right].
      rewrite E'. f_equal. now apply (uncompressed_fun _ _ x y).
    Qed.
    (** The root computed for p = 3 modulo 4 is the one that is a square. *)
    Lemma root_of_square y : p mod 4 = 3 -> 0 < y < p -> square_root_mod_prime ((y * y) mod p) p = Ok (if symbol y p =? 1 then y else p - y).
    Proof.
      intros P4 Hy. pose proof (proj1 Hc) as Hp'. assert (~ (p | y)) as Ny by (intro D; apply Z.divide_pos_le in D; lia). set (a := (y * y) mod p).
      assert (0 <= a < p) as Ha by (apply Z.mod_pos_bound; lia). assert (p | y * y - a) as Da. { exists (y * y / p). unfold a. rewrite (Z_div_mod_eq_full (y * y) p) at 1. ring. }
      assert (~ (p | a)) as Na. { intro D. assert (p | y * y) as D' by (replace (y * y) with (y * y - a + a) by ring; now apply Z.divide_add_r). apply prime_mult in D'; [tauto|exact Hp']. }
      assert (a <> 0) as A0 by (intro E; apply Na; rewrite E; apply Z.divide_0_r). pose proof (Recip.odd_p p Hp' P2) as Po.
      unfold square_root_mod_prime. destruct (Z.leb_spec 0 a) as [_|]; [|lia]. destruct (Z.ltb_spec a p) as [_|]; [|lia]. destruct (Z.ltb_spec 1 p) as [_|]; [|lia]. cbn [andb negb].
      destruct (Z.eqb_spec a 0) as [?Hq|_]; [lia|]. destruct (Z.eqb_spec p 2) as [?Hq|_]; [lia|]. rewrite jacobi_ok by lia. cbn [bind]. rewrite (symbol_sq p Hp' P2 a y Da Na). cbn [Z.eqb]. rewrite P4, Z.eqb_refl.
      rewrite exp_mod_ok by (try apply Z.div_pos; lia). f_equal.
      assert (half p = (p - 1) / 2) as Hh. { unfold half. reflexivity. }
      set (e := (p + 1) / 4). assert (2 * e = half p + 1) as He. { unfold e. rewrite Hh. pose proof (Z_div_mod_eq_full p 4) as D4. rewrite P4 in D4. rewrite D4. replace (4 * (p / 4) + 3 + 1) with ((p / 4 + 1) * 4) by ring. replace (4 * (p / 4) + 3 - 1) with ((2 * (p / 4) + 1) * 2) by ring. rewrite !Z.div_mul by lia. ring. }
      assert (0 <= e) by (unfold e; apply Z.div_pos; lia). assert (0 <= half p) by (rewrite Hh; apply Z.div_pos; lia).
      assert (symbol y p = J y p) as Es. { unfold symbol. assert (Z.gcd y p = 1) as ->; [|reflexivity]. rewrite Z.gcd_comm. apply Zgcd_1_rel_prime. apply prime_rel_prime; assumption. }
      assert (a ^ e mod p = (y * J y p) mod p) as ->.
      { unfold a. rewrite pow_mod_l. rewrite <- Z.pow_2_r, <- Z.pow_mul_r, He by lia. rewrite Z.pow_add_r, Z.pow_1_r by lia. rewrite Z.mul_comm. rewrite Zmult_mod, (euler_J p Hp' P2 y Ny), <- Zmult_mod. reflexivity. }
      rewrite Es. destruct (J_cases p y) as [->| ->]; cbn [Z.eqb Pos.eqb]; [rewrite Z.mul_1_r; apply Z.mod_small; lia|].
      replace (y * -1) with ((p - y) + (-1) * p) by ring. rewrite Z_mod_plus_full. apply Z.mod_small. lia.
    Qed.
    Lemma square_iff y : 0 < y < p -> symbol y p = 1 <-> exists z, (p | z * z - y).
    Proof.
      intro Hy. assert (~ (p | y)) as Ny by (intro D; apply Z.divide_pos_le in D; lia). split.
      - intro E. pose proof (symbol_legendre y p (proj1 Hc) P2) as L. rewrite E in L. inversion L as [|z N' D E'|]. now exists z.
      - intros (z & D). exact (symbol_sq p (proj1 Hc) P2 y z D Ny).
    Qed.
    (** What the compressed text of a point with coordinates below n gives. *)
    Theorem decompress_iff k x y : p mod 4 = 3 -> onc (Some (x, y)) -> x < n -> y < n -> sec1_compressed k x y ->
      (exists k', decompress_with G k = Ok k' /\ sec1_uncompressed k' x y) /\ (p - y < n \/ exists z, (p | z * z - y)) \/
      decompress_with G k = Raise ValueError /\ n <= p - y /\ ~ (exists z, (p | z * z - y)).
    Proof.
      intros P4 On Hx Hyn C. pose proof (onc_ypos _ _ On) as Hy. pose proof p_lt_2n. assert (rhs x mod p = (y * y) mod p) as Er. { symmetry. destruct On as (_ & _ & D). apply mod_eq_divide; [lia|exact D]. }
      pose proof (root_of_square y P4 Hy) as R. destruct (decompress_point k x y On Hx C) as [D|(D & O & Q)].
      - destruct (Z.lt_ge_cases (p - y) n) as [L|L]; [left; split; [exact D|now left]|]. destruct (Z.eq_dec (symbol y p) 1) as [S|S]; [left; split; [exact D|right; now apply square_iff]|].
        exfalso. destruct D as (k' & D & U). destruct C as (X & -> & WX & LX & VX). pose proof (Z.mod_pos_bound y 2 ltac:(lia)) as By.
        destruct (decompress_23 (2 + y mod 2) X ltac:(lia) WX LX) as [(_ & E)|(r & Hr & Dr & Er' & E)]; rewrite E in D; [discriminate|]. rewrite VX, Er, R in Er'.
        revert Er'. destruct (Z.eqb_spec (symbol y p) 1) as [?Hq|?Hq]; [contradiction|]. intro Er'. assert (r = p - y) as -> by congruence. destruct (Z.ltb_spec (p - y) n); [lia|]. rewrite andb_false_r in D. discriminate.
      - right. split; [exact D|]. assert (n <= p - y) as L by lia. split; [exact L|]. intro Sq. apply square_iff in Sq; [|exact Hy]. rewrite Er, R, Sq in Q. cbn [Z.eqb Pos.eqb] in Q. assert (y = Z.max y (p - y)) by congruence. lia.
    Qed.

    (** *** Signatures *)
    Section Sha.
      Variable sha256 : bytes -> bytes.
      Hypothesis Hsha : forall d, wf_bytes (sha256 d) /\ zlen (sha256 d) = 32.
      Notation h data := (be_val (sha256 (sha256 data))).
      Lemma verify_run data k k' x y sig : decompress_with G k = Ok k' -> sec1_uncompressed k' x y -> onc (Some (x, y)) -> x < n ->
        verify_with sha256 cv data k sig =
          if y <? n then
            match (let! rs := ecc_sigdecode_der sig in let! ok := verifies G (PAff x y n) (h data) (fst rs) (snd rs) in if ok then Ok true else Raise BadSignatureError) with
            | Raise BadSignatureError => Ok false
            | r => r
            end
          else Raise AssertionError.
      Proof.
        intros D (X & Y & -> & WX & WY & LX & LY & <- & <-) On Hx. unfold verify_with. rewrite D. rewrite zdrop1, vk_string_ok by (try assumption; rewrite Hlen; assumption).
        assert (contains_point c (be_val X) (be_val Y) = true) as -> by (apply (contains_div c Hc); apply On). rewrite andb_true_r. destruct (Z.ltb_spec (be_val X) n); [|lia]. cbn [andb].
        destruct (be_val Y <? n); [|reflexivity]. cbn [bind]. unfold vk_verify_digest. cbn [vk_curve vk_point]. rewrite Hlen. unfold sha256d. destruct (Hsha (sha256 data)) as (_ & L). rewrite L. change (32 <? 32) with false. cbv iota.
        rewrite string_to_number_spec by (apply cons_zlen; lia). reflexivity.
      Qed.
      Theorem verify_decoded data k k' x y sig r s : decompress_with G k = Ok k' -> sec1_uncompressed k' x y -> onc (Some (x, y)) -> x < n -> y < n -> ecc_sigdecode_der sig = Ok (r, s) ->
        (verify_with sha256 cv data k sig = Ok true <-> valid (Some (x, y)) (h data) r s) /\
        (verify_with sha256 cv data k sig = Raise TypeError <-> 1 <= r < n /\ 1 <= s < n /\ vpoint (Some (x, y)) (h data) r s None) /\
        (forall e, verify_with sha256 cv data k sig = Raise e -> e = TypeError).
      Proof.
        intros D U On Hx Hy Es. rewrite (verify_run data k k' x y sig D U On Hx), Es. destruct (Z.ltb_spec y n); [|lia]. cbn [bind fst snd].
        destruct (verifies_spec G HG Hnp Hgy (PAff x y n) (h data) r s On ltac:(now right)) as (A & B & C). cbn [coords] in A, B. rewrite <- A, <- B.
        destruct (verifies G (PAff x y n) (h data) r s) as [[|]|e] eqn:V; cbn [bind].
        - repeat split; congruence.
        - repeat split; congruence.
        - rewrite (C e eq_refl). repeat split; congruence.
      Qed.
      Theorem verify_range data k k' x y sig r s : decompress_with G k = Ok k' -> sec1_uncompressed k' x y -> onc (Some (x, y)) -> x < n -> y < n -> ecc_sigdecode_der sig = Ok (r, s) ->
        ~ (1 <= r < n /\ 1 <= s < n) -> verify_with sha256 cv data k sig = Ok false.
      Proof.
        intros D U On Hx Hy Es N. rewrite (verify_run data k k' x y sig D U On Hx), Es. destruct (Z.ltb_spec y n); [|lia]. cbn [bind fst snd]. now rewrite (verifies_range G).
      Qed.
      (** True is answered in exactly these cases. *)
      Theorem verify_true data k sig : wf_bytes k -> verify_with sha256 cv data k sig = Ok true <->
        exists k' x y r s, decompress_with G k = Ok k' /\ sec1_uncompressed k' x y /\ onc (Some (x, y)) /\ x < n /\ y < n /\ ecc_sigdecode_der sig = Ok (r, s) /\ valid (Some (x, y)) (h data) r s.
      Proof.
        intro W. split.
        - intro V. destruct (decompress_with G k) as [k'|e] eqn:D; [|unfold verify_with in V; rewrite D in V; destruct e; discriminate].
          destruct (decompress_sound k k' W D) as (x & y & On & Hx & U & _). pose proof V as V'. rewrite (verify_run data k k' x y sig D U On Hx) in V'. destruct (Z.ltb_spec y n) as [Hy|]; [|discriminate].
          destruct (ecc_sigdecode_der sig) as [[r s]|e] eqn:Es; [|destruct e; discriminate]. exists k', x, y, r, s. repeat (split; [assumption || reflexivity|]). now apply (verify_decoded data k k' x y sig r s D U On Hx Hy Es).
        - intros (k' & x & y & r & s & D & U & On & Hx & Hy & Es & V). now apply (verify_decoded data k k' x y sig r s D U On Hx Hy Es).
      Qed.
      Theorem sign_run data priv d nonce sig : octets32 priv d -> sign_with sha256 cv data priv nonce = Ok sig ->
        1 <= d < n /\ exists k x y r y' s, nonce = Ok k /\ 1 <= k < n /\ onc (Some (x, y)) /\ gmul d (Some (x, y)) /\ x < n /\ y < n /\
          gmul k (Some (r, y')) /\ 0 < r < p /\ 1 <= s < n /\ sigencode_der r s = Ok sig /\ vpoint (Some (x, y)) (h data) r s (Some (r, y')).
      Proof.
        intros (W & L & V). unfold sign_with, sk_from_string. rewrite Hlen, L. change (32 =? 32) with true. cbn [negb]. rewrite string_to_number_spec by (apply cons_zlen; lia). cbn [bind]. rewrite V.
        assert (1 <= d < n \/ ~ 1 <= d < n) as [Hd|Nd] by lia.
        2: { unfold sk_from_secret_exponent, cv_order. destruct (Z.leb_spec 1 d), (Z.ltb_spec d n); try lia; discriminate. }
        destruct (secexp_ok d Hd) as (x & y & o & On & M & Ho & EQ & ->). destruct (Z.ltb_spec x n) as [Hx|]; [|discriminate]. destruct (Z.ltb_spec y n) as [Hy|]; [|discriminate]. cbn [andb bind].
        unfold sk_sign_digest, sha256d, sk_sign_number, cv_order. cbn [sk_curve sk_secexp]. rewrite Hlen. destruct (Hsha (sha256 data)) as (_ & Lh). rewrite Lh. change (32 <? 32) with false. cbv iota.
        rewrite string_to_number_spec by (apply cons_zlen; lia). cbn [bind]. destruct nonce as [k|]; [|discriminate]. cbn [bind]. destruct (Z.leb_spec 1 k) as [K1|]; [|discriminate]. destruct (Z.ltb_spec k n) as [K2|]; [|discriminate]. cbn [andb negb].
        destruct (private_sign G d (h data) k) as [[r s]|] eqn:S; [|discriminate]. cbn [bind fst snd]. intro E. split; [exact Hd|].
        destruct (sign_spec G HG Hnp Hgy d (Some (x, y)) (h data) k r s On EQ) as (y' & Mk & Hr & Hs & Vp); [rewrite Z.mod_small; lia|exact S|]. rewrite Z.mod_small in Mk by lia.
        exists k, x, y, r, y', s. repeat (split; [assumption || reflexivity || lia|]). exact Vp.
      Qed.
      (** A signature is returned unless the key is not accepted or the nonce
          gives r = 0 or s = 0. *)
      Theorem sign_returns data priv d k x y : octets32 priv d -> gmul d (Some (x, y)) -> onc (Some (x, y)) -> x < n -> y < n -> 1 <= d < n -> 1 <= k < n ->
        forall r y', gmul k (Some (r, y')) -> onc (Some (r, y')) -> r <> 0 -> (h data + d * r) mod n <> 0 -> p < 2 ^ 512 -> exists sig s, sign_with sha256 cv data priv (Ok k) = Ok sig /\ 1 <= s < n /\ sigencode_der r s = Ok sig.
      Proof.
        intros (W & L & V) M On Hx Hy Hd Hk r y' Mk Onk R0 S0 Hp'. unfold sign_with, sk_from_string. rewrite Hlen, L. change (32 =? 32) with true. cbn [negb]. rewrite string_to_number_spec by (apply cons_zlen; lia). cbn [bind]. rewrite V.
        destruct (secexp_ok d Hd) as (x1 & y1 & o & On1 & M1 & Ho & EQ & ->). pose proof (gp_on G HG Hnp Hgy) as Og. apply (multiple_z_iff c Hc) in M; [|exact Og|exact On].
        assert (Some (x1, y1) = Some (x, y)) as Exy by (apply (sabs_inj c Hc); [exact On1|exact On|congruence]). assert (x1 = x /\ y1 = y) as (-> & ->) by (split; congruence). destruct (Z.ltb_spec x n) as [_|]; [|lia]. destruct (Z.ltb_spec y n) as [_|]; [|lia]. cbn [andb bind].
        unfold sk_sign_digest, sha256d, sk_sign_number, cv_order. cbn [sk_curve sk_secexp]. rewrite Hlen. destruct (Hsha (sha256 data)) as (_ & Lh). rewrite Lh. change (32 <? 32) with false. cbv iota.
        rewrite string_to_number_spec by (apply cons_zlen; lia). cbn [bind]. destruct (Z.leb_spec 1 k) as [K1|]; [|lia]. destruct (Z.ltb_spec k n) as [K2|]; [|lia]. cbn [andb negb].
        assert (k mod n <> 0) as Kn by (rewrite Z.mod_small; lia). apply (multiple_z_iff c Hc) in Mk; [|exact Og|exact Onk].
        destruct (sign_total G HG Hnp Hgy d (h data) k Kn) as [(r1 & s & S)|S].
        - rewrite S. cbn [bind fst snd]. destruct (sign_spec G HG Hnp Hgy d (Some (x, y)) (h data) k r1 s On ltac:(congruence) Kn S) as (y1' & Mk1 & Hr1 & Hs1 & Vp). rewrite Z.mod_small in Mk1 by lia.
          apply (mult_onc G HG) in Mk1; [|exact Og|lia]. destruct Mk1 as (On2 & Mk1). assert (Some (r1, y1') = Some (r, y')) as Er by (apply (sabs_inj c Hc); [exact On2|exact Onk|congruence]). assert (r1 = r) as -> by congruence.
          destruct (PropsDer.C35_der_in_use (2 ^ 521) r s) as (sig & Esig & _); [lia|split; [lia|]; apply Z.lt_trans with (2 ^ 512); [lia|reflexivity]|split; [lia|]; apply Z.lt_trans with (2 ^ 512); [lia|reflexivity]|]. exists sig, s. split; [exact Esig|]. split; [exact Hs1|exact Esig].
        - exfalso. destruct (sign_fails G HG Hnp Hgy d (h data) k Kn S) as (r1 & y1' & w & Mk1 & Mw & F). rewrite (Z.mod_small k n) in Mk1, Mw by lia.
          apply (mult_onc G HG) in Mk1; [|exact Og|lia]. destruct Mk1 as (On2 & Mk1). assert (Some (r1, y1') = Some (r, y')) as Er by (apply (sabs_inj c Hc); [exact On2|exact Onk|congruence]). assert (r1 = r) as -> by congruence.
          destruct F as [F|F]; [contradiction|]. apply S0. apply Zmod_divide in F; [|lia]. apply prime_mult in F; [|exact (ok_n G HG)]. destruct F as [F|F]; [|now apply Zdivide_mod].
          exfalso. assert (n | 1) as D1. { replace 1 with (k * w - n * (k * w / n)) by (pose proof (Z_div_mod_eq_full (k * w) n); lia). apply Z.divide_sub_r; [now apply Z.divide_mul_r|apply Z.divide_factor_l]. } apply Z.divide_pos_le in D1; lia.
      Qed.
    End Sha.
  End Text.
End Key.
