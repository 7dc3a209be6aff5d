(** Key objects as byte strings and in DER, and the shared secret, over any
    generator that satisfies [generator_ok]. *)
From Coq Require Import ZArith Znumtheory List Lia Bool.
From Verif Require Import PyBase NtModel NtProofs ZpTheory EcGroup GrpMul EcModel EcProofs EcOrder EcSpec EcLib EcdsaSpec EcdsaProofs DerModel DerProofs Base58Model PropsDer KeyModel KeySpec KeyProofs.
Import ListNotations.
Open Scope list_scope.
Open Scope Z_scope.

Lemma encode_length_len l h : 0 <= l < max_length -> encode_length l = Ok h -> zlen h <= 128.
Proof.
  intros Hl. unfold encode_length. destruct (Z.ltb_spec l 0); [lia|]. destruct (Z.ltb_spec l 128).
  - unfold int2byte. destruct (is_byteb l); [|discriminate]. intro E. assert (h = [l]) as -> by congruence. cbn. lia.
  - pose proof (min_bytes_len l ltac:(lia) 126 ltac:(lia) ltac:(unfold max_length in Hl; lia)) as Len. cbv zeta. destruct (int2byte _) as [b|] eqn:B; [|discriminate]. cbn [bind]. intro E.
    unfold int2byte in B. destruct (is_byteb _); [|discriminate]. assert (zlen b = 1) as Lb by (assert (b = [Z.lor 128 (zlen (min_bytes l))]) as -> by congruence; reflexivity). assert (h = b ++ min_bytes l) as -> by congruence. rewrite zlen_app. lia.
Qed.
(** An encoded element is read back and is not much longer. *)
Definition element {A} (encoded : res bytes) (reader : bytes -> res (A * bytes)) (v : A) (bound : Z) : Prop :=
  exists e, encoded = Ok e /\ wf_bytes e /\ zlen e <= bound /\ forall rest, reader (e ++ rest) = Ok (v, rest).
Lemma fits_small z : 0 <= z < 1000000 -> fits z.
Proof. intro H. split; [lia|]. apply Z.lt_trans with 1000000; [lia|reflexivity]. Qed.
Lemma tlv_len tag s e : zlen s < 1000000 -> (let! l := encode_length (zlen s) in Ok (tag :: l ++ s)) = Ok e -> zlen e <= zlen s + 129.
Proof.
  intros H. destruct (encode_length (zlen s)) as [h|] eqn:E; [|discriminate]. cbn [bind]. intro E'. assert (e = tag :: h ++ s) as -> by congruence. rewrite zlen_cons, zlen_app.
  pose proof (zlen_nonneg s). apply encode_length_len in E; [lia|apply fits_small; lia].
Qed.
Lemma el_octet s : wf_bytes s -> zlen s < 1000000 -> element (encode_octet_string s) remove_octet_string s (zlen s + 129).
Proof.
  intros W H. pose proof (zlen_nonneg s). destruct (C36_octet_string s W (fits_small (zlen s) ltac:(lia))) as (e & E & We & R). exists e. split; [exact E|]. split; [exact We|]. split; [|exact R]. now apply (tlv_len 4).
Qed.
Lemma el_bits s : wf_bytes s -> zlen s < 1000000 -> element (encode_bitstring s) remove_bitstring s (zlen s + 129).
Proof.
  intros W H. pose proof (zlen_nonneg s). destruct (C36_bitstring s W (fits_small (zlen s) ltac:(lia))) as (e & E & We & R). exists e. split; [exact E|]. split; [exact We|]. split; [|exact R]. now apply (tlv_len 3).
Qed.
Lemma el_seq pieces : Forall wf_bytes pieces -> zlen (concat pieces) < 1000000 -> element (encode_sequence pieces) remove_sequence (concat pieces) (zlen (concat pieces) + 129).
Proof.
  intros W H. pose proof (zlen_nonneg (concat pieces)). destruct (C36_sequence pieces W (fits_small (zlen (concat pieces)) ltac:(lia))) as (e & E & We & R). exists e. split; [exact E|]. split; [exact We|]. split; [|exact R]. now apply (tlv_len 0x30).
Qed.
Lemma el_cons tag s : 0 <= tag < 32 -> wf_bytes s -> zlen s < 1000000 -> element (encode_constructed tag s) remove_constructed (tag, s) (zlen s + 129).
Proof.
  intros T W H. pose proof (zlen_nonneg s). destruct (C36_constructed tag s T W (fits_small (zlen s) ltac:(lia))) as (e & E & We & R). exists e. split; [exact E|]. split; [exact We|]. split; [|exact R].
  unfold encode_constructed in E. unfold int2byte in E. destruct (is_byteb _); [|discriminate]. now apply (tlv_len (0xa0 + tag)).
Qed.
Definition oid_ok (oid : list Z) : Prop := element (encoded_oid oid) remove_object oid 300.
Lemma oid_intro first second pieces : 0 <= first <= 2 -> 0 <= second <= 39 -> Forall (fun z => 0 <= z) pieces -> zlen (concat (map encode_number pieces)) < 100 -> oid_ok (first :: second :: pieces).
Proof.
  intros H1 H2 H3 H4. pose proof (zlen_nonneg (concat (map encode_number pieces))). destruct (C36_object_identifier first second pieces H1 H2 H3 (fits_small (1 + zlen (concat (map encode_number pieces))) ltac:(lia))) as (e & E & We & R).
  exists e. split; [exact E|]. split; [exact We|]. split; [|exact R]. unfold encode_oid in E. destruct (2 <? first); [discriminate|]. destruct (39 <? second); [discriminate|].
  unfold int2byte in E. destruct (is_byteb _); [|discriminate]. cbn [bind] in E. apply (tlv_len 6) in E; rewrite zlen_app, zlen_cons, zlen_nil in *; lia.
Qed.
Lemma curves_oid cv : In cv curves -> oid_ok (cv_oid cv) /\ find_curve (cv_oid cv) = Ok cv.
Proof.
  intro I. repeat (destruct I as [<-|I]; [split; [apply oid_intro; [lia|lia|repeat (constructor; try lia)|reflexivity]|reflexivity]|]). destruct I.
Qed.
Lemma pk_oid : oid_ok oid_ecPublicKey.
Proof. apply oid_intro; [lia|lia|repeat (constructor; try lia)|reflexivity]. Qed.

Section Der.
  Variable cv : curve_info.
  Notation G := (cv_gen cv).
  Hypothesis HG : generator_ok G.
  Hypothesis Hnp : g_order G <= c_p (g_curve G).
  Hypothesis Hgy : 0 <= g_y G < c_p (g_curve G).
  Notation c := (g_curve G).
  Notation p := (c_p c).
  Notation n := (g_order G).
  Notation onc := (on_curve p (c_a c) (c_b c)).
  Notation gp := (coords (gen_point G)).
  Notation gmul := (multiple_z p (c_a c) gp).
  Let Hc : curve_ok c := gen_c G HG.
  Let N2 : 2 < n := ok_n2 G HG.
  Let P2 : 2 < p := ecp2 c Hc.
  (** A verifying key of this curve, as the constructors make them. *)
  Definition vkey_of (k : vkey) (x y : Z) : Prop :=
    exists o, k = mk_vkey cv (PAff x y o) /\ (o = 0 \/ o = n) /\ onc (Some (x, y)) /\ x < n /\ y < n.
  Lemma strings_ok x y o : 0 <= x < n -> 0 <= y < n -> exists X Y, point_strings cv (PAff x y o) = Ok (X, Y) /\ wf_bytes X /\ wf_bytes Y /\
    zlen X = cv_baselen cv /\ zlen Y = cv_baselen cv /\ be_val X = x /\ be_val Y = y.
  Proof.
    intros Hx Hy. unfold point_strings, cv_order. rewrite !number_to_string_spec by lia. destruct (orderlen_spec n ltac:(lia)) as (O1 & O2 & _). destruct (Z.ltb_spec x 0); [lia|]. destruct (Z.ltb_spec y 0); [lia|].
    destruct (Z.ltb_spec x (256 ^ orderlen n)); [|lia]. destruct (Z.ltb_spec y (256 ^ orderlen n)); [|lia]. cbn [bind]. eexists _, _. split; [reflexivity|].
    split; [apply wf_be_bytes|]. split; [apply wf_be_bytes|]. unfold cv_baselen, cv_order. rewrite !zlen_be_bytes. split; [lia|]. split; [lia|]. rewrite !be_val_be_bytes_small by (rewrite Z2Nat.id; lia). now split.
  Qed.
  Theorem vk_to_from_string k x y : vkey_of k x y -> exists s, vk_to_string k = Ok s /\ wf_bytes s /\ zlen s = 2 * cv_baselen cv /\ vk_from_string cv s = Ok (mk_vkey cv (PAff x y n)).
  Proof.
    intros (o & -> & Ho & On & Hx & Hy). pose proof On as (Bx & By & _). destruct (strings_ok x y o ltac:(lia) ltac:(lia)) as (X & Y & E & WX & WY & LX & LY & VX & VY). unfold vk_to_string. cbn [vk_curve vk_point]. rewrite E. cbn [bind fst snd].
    exists (X ++ Y). split; [reflexivity|]. split; [apply Forall_app; now split|]. split; [rewrite zlen_app; lia|]. rewrite (vk_string_ok cv HG Hnp) by assumption. rewrite VX, VY.
    assert (contains_point c x y = true) as -> by (apply (contains_div c Hc); apply On). destruct (Z.ltb_spec x n); [|lia]. destruct (Z.ltb_spec y n); [|lia]. reflexivity.
  Qed.
  Theorem vk_from_to_string s k : wf_bytes s -> vk_from_string cv s = Ok k -> vk_to_string k = Ok s /\ exists x y, vkey_of k x y.
  Proof.
    intros W E. assert (zlen s = 2 * cv_baselen cv) as L. { unfold vk_from_string in E. destruct (Z.eqb_spec (zlen s) (2 * cv_baselen cv)) as [?Hq|?Hq]; [assumption|discriminate]. }
    assert (1 <= cv_baselen cv) as B1 by (unfold cv_baselen, cv_order; destruct (orderlen_spec n); lia).
    rewrite <- (ztake_zdrop s (cv_baselen cv)) in E. set (X := ztake (cv_baselen cv) s) in *. set (Y := zdrop (cv_baselen cv) s) in *.
    assert (zlen X = cv_baselen cv) as LX by (unfold X; rewrite zlen_ztake; lia). assert (zlen Y = cv_baselen cv) as LY by (unfold Y; rewrite zlen_zdrop; lia).
    assert (wf_bytes X) as WX by now apply Forall_ztake. assert (wf_bytes Y) as WY by now apply Forall_zdrop. rewrite (vk_string_ok cv HG Hnp) in E by assumption.
    pose proof (be_val_bound X WX). pose proof (be_val_bound Y WY). destruct (Z.ltb_spec (be_val X) n); [|discriminate]. destruct (Z.ltb_spec (be_val Y) n); [|discriminate]. cbn [andb] in E. destruct (contains_point c (be_val X) (be_val Y)) eqn:C; [|discriminate].
    assert (k = mk_vkey cv (PAff (be_val X) (be_val Y) n)) as -> by congruence. split.
    - unfold vk_to_string. cbn [vk_curve vk_point]. destruct (strings_ok (be_val X) (be_val Y) n ltac:(lia) ltac:(lia)) as (X' & Y' & -> & WX' & WY' & LX' & LY' & VX & VY). cbn [bind fst snd]. rewrite (be_val_inj X' X), (be_val_inj Y' Y) by (assumption || lia). unfold X, Y. now rewrite ztake_zdrop.
    - exists (be_val X), (be_val Y), n. split; [reflexivity|]. split; [now right|]. split; [split; [lia|]; split; [lia|]; now apply (contains_div c Hc)|]. now split.
  Qed.
  Theorem vk_to_from_der k x y : In cv curves -> cv_baselen cv <= 100 -> vkey_of k x y -> exists s, vk_to_der k = Ok s /\ wf_bytes s /\ vk_from_der s = Ok (mk_vkey cv (PAff x y n)).
  Proof.
    intros Icv Hb Hk. destruct (vk_to_from_string k x y Hk) as (t & Et & Wt & Lt & Ft). destruct Hk as (o & -> & Ho & On & Hx & Hy). pose proof On as (Bx & By & _).
    destruct (strings_ok x y o ltac:(lia) ltac:(lia)) as (X & Y & E & WX & WY & LX & LY & VX & VY). unfold vk_to_string in Et. cbn [vk_curve vk_point] in Et. rewrite E in Et. cbn [bind fst snd] in Et. assert (t = X ++ Y) by congruence. subst t.
    unfold vk_to_der. cbn [vk_curve vk_point]. rewrite E. cbn [bind fst snd]. destruct (curves_oid cv Icv) as ((oc & Eoc & Woc & Loc & Roc) & Fc). destruct pk_oid as (opk & Eopk & Wopk & Lopk & Ropk). rewrite Eopk, Eoc. cbn [bind].
    destruct (el_seq [opk; oc]) as (a & Ea & Wa & La & Ra); [repeat (constructor; try assumption)|cbn [concat]; rewrite app_nil_r, zlen_app; lia|]. cbn [concat] in *. rewrite app_nil_r in *. rewrite zlen_app in La.
    destruct (el_bits ([0; 4] ++ X ++ Y)) as (b & Eb & Wb & Lb & Rb); [apply Forall_app; split; [repeat constructor; lia|exact Wt]|rewrite zlen_app; change (zlen [0; 4]) with 2; lia|]. rewrite (zlen_app [0; 4]) in Lb. change (zlen [0; 4]) with 2 in Lb.
    destruct (el_seq [a; b]) as (s & Es & Ws & Ls & Rs); [repeat (constructor; try assumption)|cbn [concat]; rewrite app_nil_r, zlen_app; lia|]. cbn [concat] in *. rewrite app_nil_r in *.
    rewrite Ea. cbn [bind]. rewrite Eb. cbn [bind]. exists s. split; [exact Es|]. split; [exact Ws|]. unfold vk_from_der. rewrite <- (app_nil_r s), Rs. cbn [bind fst snd no_junk]. rewrite Ra. cbn [bind fst snd]. rewrite Ropk. cbn [bind fst snd].
    rewrite <- (app_nil_r oc), Roc. cbn [bind fst snd no_junk]. rewrite bytes_eqb_refl. cbn [negb]. rewrite Fc. cbn [bind]. rewrite <- (app_nil_r b), Rb. cbn [bind fst snd no_junk app]. exact Ft.
  Qed.

  (** Signing keys come from a secret exponent. *)
  Theorem sk_from_to_string k d : sk_from_secret_exponent cv d = Ok k -> exists s, sk_to_string k = Ok s /\ wf_bytes s /\ zlen s = cv_baselen cv /\ be_val s = d /\ 1 <= d < n /\ sk_from_string cv s = Ok k.
  Proof.
    intro E. assert (1 <= d < n) as Hd. { unfold sk_from_secret_exponent, cv_order in E. destruct (Z.leb_spec 1 d), (Z.ltb_spec d n); try discriminate; lia. }
    assert (sk_curve k = cv /\ sk_secexp k = d) as (Ec & Ed). { destruct (secexp_ok cv HG Hnp Hgy d Hd) as (x & y & o & _ & _ & _ & _ & E'). rewrite E' in E. destruct ((x <? n) && (y <? n)); [|discriminate]. assert (k = mk_skey cv d (mk_vkey cv (PAff x y o))) as -> by congruence. now split. }
    unfold sk_to_string, cv_order. rewrite Ec, Ed, number_to_string_spec by lia. destruct (orderlen_spec n ltac:(lia)) as (O1 & O2 & _). destruct (Z.ltb_spec d 0); [lia|]. destruct (Z.ltb_spec d (256 ^ orderlen n)); [|lia].
    eexists. split; [reflexivity|]. split; [apply wf_be_bytes|]. assert (zlen (be_bytes (Z.to_nat (orderlen n)) d) = cv_baselen cv) as L by (rewrite zlen_be_bytes; unfold cv_baselen, cv_order; lia). split; [exact L|].
    assert (be_val (be_bytes (Z.to_nat (orderlen n)) d) = d) as V by (apply be_val_be_bytes_small; rewrite Z2Nat.id; lia). split; [exact V|]. split; [exact Hd|].
    unfold sk_from_string. rewrite L, Z.eqb_refl. cbn [negb]. rewrite string_to_number_spec, V; [exact E|]. apply cons_zlen. unfold cv_baselen, cv_order in L. lia.
  Qed.
  Lemma sk_vk_ok k d : sk_from_secret_exponent cv d = Ok k -> exists x y, vkey_of (sk_vk k) x y /\ gmul d (Some (x, y)) /\ sk_curve k = cv /\ sk_secexp k = d.
  Proof.
    intro E. assert (1 <= d < n) as Hd. { unfold sk_from_secret_exponent, cv_order in E. destruct (Z.leb_spec 1 d), (Z.ltb_spec d n); try discriminate; lia. }
    destruct (secexp_ok cv HG Hnp Hgy d Hd) as (x & y & o & On & M & Ho & _ & E'). rewrite E' in E. destruct (Z.ltb_spec x n); [|discriminate]. destruct (Z.ltb_spec y n); [|discriminate]. cbn [andb] in E. assert (k = mk_skey cv d (mk_vkey cv (PAff x y o))) as -> by congruence.
    exists x, y. split; [exists o; auto|]. split; [exact M|]. now split.
  Qed.
  Theorem sk_to_from_der k d : In cv curves -> cv_baselen cv <= 100 -> sk_from_secret_exponent cv d = Ok k -> exists s, sk_to_der k = Ok s /\ wf_bytes s /\ sk_from_der s = Ok k.
  Proof.
    intros Icv Hb Ek. destruct (sk_from_to_string k d Ek) as (ss & Ess & Wss & Lss & Vss & Hd & Fss). destruct (sk_vk_ok k d Ek) as (x & y & Hk & _ & Ec & Ed). destruct (vk_to_from_string _ x y Hk) as (vs & Evs & Wvs & Lvs & _).
    unfold sk_to_der. rewrite Evs. cbn [bind]. destruct (C36_integer_partial 1 ltac:(lia)) as (one & Eone & Wone & Rone). rewrite Eone. cbn [bind]. assert (zlen one = 3) as Lone by (vm_compute in Eone; assert (one = [2; 1; 1]) as -> by congruence; reflexivity). rewrite Ess. cbn [bind].
    destruct (el_octet ss Wss ltac:(lia)) as (os & Eos & Wos & Los & Ros). rewrite Eos. cbn [bind]. rewrite Ec. destruct (curves_oid cv Icv) as ((oc & Eoc & Woc & Loc & Roc) & Fc). rewrite Eoc. cbn [bind].
    destruct (el_cons 0 oc ltac:(lia) Woc ltac:(lia)) as (c0 & Ec0 & Wc0 & Lc0 & Rc0). rewrite Ec0. cbn [bind].
    destruct (el_bits ([0; 4] ++ vs)) as (bs & Ebs & Wbs & Lbs & Rbs); [apply Forall_app; split; [repeat constructor; lia|exact Wvs]|rewrite zlen_app; change (zlen [0; 4]) with 2; lia|]. rewrite Ebs. cbn [bind]. rewrite (zlen_app [0; 4]) in Lbs. change (zlen [0; 4]) with 2 in Lbs.
    destruct (el_cons 1 bs ltac:(lia) Wbs ltac:(lia)) as (c1 & Ec1 & Wc1 & Lc1 & Rc1). rewrite Ec1. cbn [bind].
    destruct (el_seq [one; os; c0; c1]) as (s & Es & Ws & Ls & Rs); [repeat (constructor; try assumption)|cbn [concat]; rewrite !zlen_app, zlen_nil; lia|]. exists s. split; [exact Es|]. split; [exact Ws|].
    unfold sk_from_der. rewrite <- (app_nil_r s), Rs. cbn [bind fst snd no_junk concat]. rewrite Rone. cbn [bind fst snd]. change (1 =? 1) with true. cbn [negb]. rewrite Ros. cbn [bind fst snd]. rewrite Rc0. cbn [bind fst snd]. change (0 =? 0) with true. cbn [negb].
    rewrite <- (app_nil_r oc), Roc. cbn [bind fst snd no_junk]. rewrite Fc. cbn [bind]. rewrite Lss, Z.sub_diag. cbn [Z.to_nat repeat app]. exact Fss.
  Qed.

  (** *** Shared secret *)
  Section Secret.
    Hypothesis Hlen : cv_baselen cv = 32.
    Hypothesis Hp : p < 256 ^ 32.
    Variable sha256 : bytes -> bytes.
    Theorem secret_run k k' x y wif priv d : decompress_with G k = Ok k' -> sec1_uncompressed k' x y -> onc (Some (x, y)) -> privkey_from_wif sha256 wif 128 = Ok priv -> octets32 priv d -> 1 <= d < n ->
      exists x' y' s, multiple_z p (c_a c) (Some (x, y)) d (Some (x', y')) /\ onc (Some (x', y')) /\ sabs c (Some (x', y')) = e_mul c d (sabs c (Some (x, y))) /\ octets32 s x' /\ shared_secret_with sha256 cv k wif = Ok s.
    Proof.
      intros D (X & Y & -> & WX & WY & LX & LY & VX & VY) On Ew (Wp & Lp & Vp) Hd. unfold shared_secret_with. rewrite D. cbn [bind]. rewrite slice_1_33 by exact LX.
      rewrite zdrop_33 by exact LX. rewrite !string_to_number_spec by (apply cons_zlen; lia). cbn [bind]. rewrite VX, VY. unfold point_new. assert (contains_point c x y = true) as -> by (apply (contains_div c Hc); apply On). cbn [bind].
      rewrite Ew. cbn [bind]. rewrite string_to_number_spec by (apply cons_zlen; lia). cbn [bind]. rewrite Vp. destruct (mul_lib G HG (PAff x y 0) d On) as (R & -> & HR & M & _ & A); [right; cbn [p_order]; split; [reflexivity|]; split; [lia|left; lia]|]. cbn [bind].
      destruct R as [|x' y' o].
      - exfalso. cbn [eabs] in A. symmetry in A. pose proof (onc_on c Hc _ On) as Oe. change (e_on c (eabs c (PAff x y 0))) in Oe.
        apply (e_mul_prime c Hc n) in A; [|exact Oe|exact (ok_n G HG)|now apply order_n|discriminate]. apply Z.divide_pos_le in A; lia.
      - cbn [coords] in *. pose proof HR as (Bx & _ & _). exists x', y', (be_bytes 32 x'). split; [exact M|]. split; [exact HR|]. split; [exact A|]. split; [apply octets_of; lia|].
        unfold cv_order. rewrite number_to_string_spec by lia. unfold cv_baselen, cv_order in Hlen. rewrite Hlen. destruct (Z.ltb_spec x' 0); [lia|]. destruct (Z.ltb_spec x' (256 ^ 32)); [|lia]. reflexivity.
    Qed.
    Theorem secret_symmetric kA kA' xA yA wA pA dA kB kB' xB yB wB pB dB :
      decompress_with G kA = Ok kA' -> sec1_uncompressed kA' xA yA -> onc (Some (xA, yA)) -> privkey_from_wif sha256 wA 128 = Ok pA -> octets32 pA dA -> 1 <= dA < n -> gmul dA (Some (xA, yA)) ->
      decompress_with G kB = Ok kB' -> sec1_uncompressed kB' xB yB -> onc (Some (xB, yB)) -> privkey_from_wif sha256 wB 128 = Ok pB -> octets32 pB dB -> 1 <= dB < n -> gmul dB (Some (xB, yB)) ->
      exists s x y, shared_secret_with sha256 cv kB wA = Ok s /\ shared_secret_with sha256 cv kA wB = Ok s /\ octets32 s x /\ gmul (dA * dB) (Some (x, y)).
    Proof.
      intros DA UA OA EA PA HA MA DB UB OB EB PB HB MB. destruct (secret_run kB kB' xB yB wA pA dA DB UB OB EA PA HA) as (x1 & y1 & s1 & _ & On1 & A1 & S1 & R1). destruct (secret_run kA kA' xA yA wB pB dB DA UA OA EB PB HB) as (x2 & y2 & s2 & _ & On2 & A2 & S2 & R2).
      pose proof (gp_on G HG Hnp Hgy) as Og. pose proof (g_on G HG Hnp Hgy) as Oe. apply (multiple_z_iff c Hc) in MA, MB; try assumption. rewrite MA in A2. rewrite MB in A1. unfold e_mul in A1, A2. rewrite (e_mul_mul c Hc) in A1, A2 by exact Oe.
      assert (Some (x1, y1) = Some (x2, y2)) as E. { apply (sabs_inj c Hc); [exact On1|exact On2|]. rewrite A1, A2. now rewrite Z.mul_comm. } assert (x1 = x2 /\ y1 = y2) as (-> & ->) by (split; congruence).
      assert (s1 = s2) as -> by (rewrite (octets_eq _ _ S1), (octets_eq _ _ S2); reflexivity). exists s2, x2, y2. split; [exact R1|]. split; [exact R2|]. split; [exact S2|]. apply (multiple_z_iff c Hc); [exact Og|exact On2|exact A1].
    Qed.
  End Secret.
End Der.
