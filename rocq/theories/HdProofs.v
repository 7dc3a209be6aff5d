(** HD wallets over any generator that satisfies [generator_ok]: points,
    fingerprints, derivation, compressed texts of points. *)
From Coq Require Import String ZArith Znumtheory List Lia Bool.
From Verif Require Import PyBase PyVal UtilModel Base58Model Base58Proofs DerModel DerProofs NtModel NtJacobi Recip ZpTheory EcGroup EcModel EcProofs EcOrder EcSpec EcLib EcdsaSpec EcdsaProofs KeyModel KeySpec KeyProofs AesModel AesModes JsonModel WalletModel WalletProofs.
Import ListNotations.
Open Scope string_scope.
Open Scope list_scope.
Open Scope Z_scope.

Lemma compressed_fun k k' x y : sec1_compressed k x y -> sec1_compressed k' x y -> k = k'.
Proof.
  intros (X & -> & W & L & V) (X' & -> & W' & L' & V'). f_equal. apply be_val_inj; assumption || lia.
Qed.
Lemma index_text i : 0 <= i < 2 ^ 32 -> number_to_string i (2 ^ 32 - 1) = Ok (be_bytes 4 i).
Proof.
  intro H. rewrite number_to_string_spec by lia. change (orderlen (2 ^ 32 - 1)) with 4. destruct (Z.ltb_spec i 0); [lia|]. change (256 ^ 4) with (2 ^ 32). destruct (Z.ltb_spec i (2 ^ 32)); [|lia]. reflexivity.
Qed.

Section Hd.
  Variable cv : curve_info.
  Notation G := (cv_gen cv).
  Hypothesis HG : generator_ok G.
  Hypothesis Hnp : g_order G <= c_p (g_curve G).
  Hypothesis Hgy : 0 <= g_y G < c_p (g_curve G).
  Hypothesis Hlen : cv_baselen cv = 32.
  Hypothesis Hp : c_p (g_curve G) < 256 ^ 32.
  Notation c := (g_curve G).
  Notation p := (c_p c).
  Notation n := (g_order G).
  Notation onc := (on_curve p (c_a c) (c_b c)).
  Notation gp := (coords (gen_point G)).
  Notation gmul := (multiple_z p (c_a c) gp).
  Let Hc : curve_ok c := gen_c G HG.
  Let N2 : 2 < n := ok_n2 G HG.
  Let P2 : 2 < p := ecp2 c Hc.

  Lemma p_len : orderlen p = 32.
  Proof.
    destruct (orderlen_spec p ltac:(lia)) as (A & B & C). destruct (orderlen_spec n ltac:(lia)) as (A' & B' & C'). unfold cv_baselen, cv_order in Hlen. rewrite Hlen in *.
    destruct C' as [C'|C']; [discriminate|]. destruct (Z.le_gt_cases (orderlen p) 31) as [H|H].
    - assert (256 ^ orderlen p <= 256 ^ 31) by (apply Z.pow_le_mono_r; lia). change (32 - 1) with 31 in C'. lia.
    - destruct (Z.le_gt_cases (orderlen p) 32) as [H'|H']; [lia|]. destruct C as [C|C]; [lia|]. assert (256 ^ 32 <= 256 ^ (orderlen p - 1)) by (apply Z.pow_le_mono_r; lia). lia.
  Qed.
  Lemma n_len : orderlen n = 32. Proof. exact Hlen. Qed.
  (** *** Points and their texts *)
  Lemma gen_mul e : exists R, ec_mul c (gen_point G) e = Ok R /\ onc (coords R) /\ gmul e (coords R) /\ sabs c (coords R) = e_mul c e (sabs c gp).
  Proof.
    destruct (mul_lib G HG (gen_point G) e) as (R & E & On & M & _ & A); [exact (gp_on G HG Hnp Hgy)|now left|]. exists R. rewrite !sabs_coords. auto.
  Qed.
  Lemma gen_mul_nz d : 0 < d < n -> exists x y o, ec_mul c (gen_point G) d = Ok (PAff x y o) /\ onc (Some (x, y)) /\ gmul d (Some (x, y)) /\ sabs c (Some (x, y)) = e_mul c d (sabs c gp).
  Proof.
    intro Hd. destruct (gen_mul d) as (R & E & On & M & A). destruct R as [|x y o]; [|now exists x, y, o].
    exfalso. cbn [coords sabs] in A. symmetry in A. pose proof (gp_on G HG Hnp Hgy) as Og. apply (onc_on c Hc) in Og. apply (e_mul_prime c Hc n) in A; [|exact Og|exact (ok_n G HG)|now apply order_n|discriminate].
    apply Z.divide_pos_le in A; lia.
  Qed.
  Lemma compress_of x y o : onc (Some (x, y)) -> exists k, point_compress cv (PAff x y o) = Ok k /\ sec1_compressed k x y /\ wf_bytes k /\ k <> [].
  Proof.
    intros (Hx & Hy & _). unfold point_compress. rewrite number_to_string_spec by lia. rewrite p_len. destruct (Z.ltb_spec x 0); [lia|]. destruct (Z.ltb_spec x (256 ^ 32)); [|lia]. cbn [bind].
    eexists. split; [reflexivity|]. rewrite land1. pose proof (Z.mod_pos_bound y 2 ltac:(lia)). split.
    - exists (be_bytes (Z.to_nat 32) x). split; [reflexivity|]. split; [apply wf_be_bytes|]. split; [apply zlen_be_bytes|]. apply be_val_be_bytes_small. change (Z.of_nat (Z.to_nat 32)) with 32. lia.
    - split; [|discriminate]. cbn [app]. constructor; [unfold is_byte; lia|apply wf_be_bytes].
  Qed.
  Lemma compress_coords P Q : coords P = coords Q -> point_compress cv P = point_compress cv Q.
  Proof. destruct P as [|x y o], Q as [|x' y' o']; intro E; try discriminate; [reflexivity|]. injection E as -> ->. reflexivity. Qed.
  Lemma key_of x y o : onc (Some (x, y)) -> exists k, key_from_point cv (PAff x y o) = Ok k /\ sec1_uncompressed k x y.
  Proof.
    intros (Hx & Hy & _). unfold key_from_point, point_strings, cv_order. rewrite !number_to_string_spec by lia. rewrite n_len.
    destruct (Z.ltb_spec x 0); [lia|]. destruct (Z.ltb_spec x (256 ^ 32)); [|lia]. destruct (Z.ltb_spec y 0); [lia|]. destruct (Z.ltb_spec y (256 ^ 32)); [|lia]. cbn [bind fst snd].
    eexists. split; [reflexivity|]. exists (be_bytes (Z.to_nat 32) x), (be_bytes (Z.to_nat 32) y). split; [reflexivity|]. repeat (split; [apply wf_be_bytes || apply zlen_be_bytes|]).
    split; apply be_val_be_bytes_small; change (Z.of_nat (Z.to_nat 32)) with 32; lia.
  Qed.
  (** What a compressed text of a point gives: the sign is chosen by the first
      byte alone, from the root that is a square. *)
  Lemma decompress_of k x y : p mod 4 = 3 -> onc (Some (x, y)) -> sec1_compressed k x y ->
    point_decompress cv k = Ok (PAff x (if Bool.eqb (Z.even y) (symbol y p =? 1) then y else p - y) 0).
  Proof.
    intros P4 On (X & -> & WX & LX & VX). pose proof (onc_y G HG x y On) as Hy0. destruct On as (Hx & Hy & D). pose proof (Z.mod_pos_bound y 2 ltac:(lia)) as By.
    unfold point_decompress. cbv zeta. assert ((2 + y mod 2 =? 2) || (2 + y mod 2 =? 3) = true) as -> by lia. cbn [negb].
    rewrite string_to_number_spec by (apply cons_zlen; lia). cbn [bind]. rewrite VX.
    assert ((x * x * x + c_a c * x + c_b c) mod p = (y * y) mod p) as ->.
    { destruct D as (q & D). replace (y * y) with (x * x * x + c_a c * x + c_b c + q * p) by lia. now rewrite Z.mod_add by lia. }
    rewrite (root_of_square cv HG Hgy y P4) by lia. cbn [bind].
    assert (forall s, (s = y \/ s = p - y) -> point_new c x s 0 = Ok (PAff x s 0)) as PN.
    { intros s Hs. unfold point_new. assert (contains_point c x s = true) as ->; [|reflexivity]. apply (contains_div c Hc). destruct Hs as [-> | ->]; [exact D|].
      replace ((p - y) * (p - y) - (x * x * x + c_a c * x + c_b c)) with (y * y - (x * x * x + c_a c * x + c_b c) + (p - 2 * y) * p) by ring. apply Z.divide_add_r; [exact D|apply Z.divide_factor_r]. }
    assert (Z.even y = (2 + y mod 2 =? 2)) as ->. { rewrite Zmod_even. destruct (Z.even y); reflexivity. }
    assert (forall s, 0 < s < p -> (1 * s) mod p = s /\ (-1 * s) mod p = p - s) as ME.
    { intros s Hs. split; [rewrite Z.mul_1_l; now apply Z.mod_small; lia|]. replace (-1 * s) with (p - s + (-1) * p) by ring. rewrite Z.mod_add by lia. apply Z.mod_small. lia. }
    destruct (2 + y mod 2 =? 2), (symbol y p =? 1); cbn [Bool.eqb]; destruct (ME y ltac:(lia)) as [M1 M2], (ME (p - y) ltac:(lia)) as [M3 M4].
    - rewrite M1. apply PN. now left.
    - rewrite M3. apply PN. now right.
    - rewrite M2. apply PN. now right.
    - rewrite M4. replace (p - (p - y)) with y by ring. apply PN. now left.
  Qed.

  (** *** Derivation *)
  Section Derive.
    Variable sha256 ripemd160 : bytes -> bytes.
    Variable hmac_sha512 : bytes -> bytes -> bytes.
    Notation child := (hd_child sha256 ripemd160 hmac_sha512 cv).
    (** A wallet with the private key d and a watch-only wallet of the same
        public key; everything but [vcn] agrees. *)
    Definition counterpart (w w' : hdwallet) : Prop :=
      exists d P x y, hd_key w = HPriv d /\ 0 < d < n /\ hd_key w' = HPub P /\ coords P = Some (x, y) /\ onc (Some (x, y)) /\ gmul d (Some (x, y)) /\
        hd_chain w = hd_chain w' /\ hd_testnet w = hd_testnet w' /\ hd_depth w = hd_depth w' /\ hd_parent w = hd_parent w' /\ hd_childnum w = hd_childnum w'.
    Lemma counterpart_point w w' : counterpart w w' -> exists Q P x y, hd_point cv w = Ok Q /\ hd_point cv w' = Ok P /\ coords P = Some (x, y) /\ coords Q = coords P /\ onc (Some (x, y)).
    Proof.
      intros (d & P & x & y & E & Hd & E' & CP & On & M & _). destruct (gen_mul_nz d Hd) as (x1 & y1 & o & E1 & On1 & M1 & _). exists (PAff x1 y1 o), P, x, y.
      unfold hd_point. rewrite E, E'. split; [exact E1|]. split; [reflexivity|]. split; [exact CP|]. rewrite CP. split; [|exact On].
      destruct (mul_fun_lib G HG gp d (gp_on G HG Hnp Hgy)) as (R & _ & U). transitivity R; [symmetry|]; apply U; now split.
    Qed.
    Lemma even_hardened i : 0 <= i < 2 ^ 31 -> Z.land i 0x80000000 = 0.
    Proof.
      intro H. apply Z.bits_inj'. intros k Hk. rewrite Z.land_spec, Z.bits_0. change 0x80000000 with (2 ^ 31). rewrite Z.pow2_bits_eqb by lia.
      destruct (Z.eqb_spec 31 k) as [<-|]; [|apply andb_false_r]. rewrite andb_true_r. destruct (Z.eq_dec i 0) as [->|]; [apply Z.bits_0|]. apply Z.bits_above_log2; [lia|]. apply Z.log2_lt_pow2; lia.
    Qed.
    Lemma hardened i : 2 ^ 31 <= i < 2 ^ 32 -> Z.land i 0x80000000 =? 0 = false.
    Proof.
      intro H. apply Z.eqb_neq. intro E. apply (f_equal (fun z => Z.testbit z 31)) in E. rewrite Z.land_spec, Z.bits_0 in E. change 0x80000000 with (2 ^ 31) in E. rewrite Z.pow2_bits_true, andb_true_r in E by lia.
      rewrite Z.testbit_odd, Z.shiftr_div_pow2 in E by lia. assert (i / 2 ^ 31 = 1) as K. { symmetry. apply Z.div_unique with (i - 2 ^ 31); lia. } rewrite K in E. discriminate.
    Qed.
    Theorem derive_counterpart w w' i r r' : counterpart w w' -> 0 <= i < 2 ^ 31 -> 
      (exists e, child w i r = Raise e /\ child w' i r' = Raise e) \/
      (exists v v', child w i r = Ok v /\ child w' i r' = Ok v' /\ counterpart v v').
    Proof.
      intros C Hi. destruct (counterpart_point w w' C) as (Q & P0 & x0 & y0 & EQ & EP & CP0 & CQ & _). destruct C as (d & P & x & y & E & Hd & E' & CP & On & M & Ec & Et & Edp & Ef & En).
      assert (P0 = P) as -> by (unfold hd_point in EP; rewrite E' in EP; congruence).
      unfold hd_child. destruct (Z.leb_spec 0 i); [|lia]. destruct (Z.leb_spec i (2 ^ 32 - 1)); [|lia]. cbn [andb negb]. rewrite even_hardened by exact Hi. cbn [Z.eqb negb].
      unfold hd_fingerprint. rewrite EQ, EP, E, E', Ec, Et, Edp. cbn [bind].
      rewrite (compress_coords Q P CQ).
      destruct (negb (hd_depth w' <? 255)) eqn:Dp; [left; now exists AssertionError|].
      destruct (number_to_string i (2 ^ 32 - 1)) as [si|e]; [|left; now exists e]. cbn [bind].
      destruct (point_compress cv P) as [k|e]; [|left; now exists e]. cbn [bind]. cbv zeta. set (deriv := hmac_sha512 (hd_chain w') (k ++ si)).
      destruct (string_to_number (ztake 32 deriv)) as [m|e] eqn:Em; [|left; now exists e]. cbn [bind].
      destruct (Z.leb_spec (cv_order cv) m) as [Hm|Hm]; [left; now exists PlainException|].
      destruct (gen_mul m) as (A & EA & OnA & MA & SA). rewrite EA. cbn [bind].
      destruct (add_lib c Hc P A ltac:(rewrite CP; exact On) OnA) as (R & ER & OnR & LR). rewrite ER. cbn [bind].
      (* the sum is the multiple by d + m *)
      assert (sabs c (coords R) = e_mul c ((d + m) mod n) (sabs c gp)) as SR.
      { pose proof (onc_on c Hc _ (gp_on G HG Hnp Hgy)) as Og. rewrite (e_mod G HG) by exact Og. transitivity (e_add c (e_mul c d (sabs c gp)) (e_mul c m (sabs c gp))); [|symmetry; exact (e_mul_add c Hc d m _ Og)].
        rewrite <- SA. apply (multiple_z_iff c Hc) in M; [|exact (gp_on G HG Hnp Hgy)|exact On]. rewrite <- M, <- CP. symmetry. apply (line_sum_add c Hc); [rewrite CP; exact On|exact OnA|exact LR]. }
      assert (gmul ((d + m) mod n) (coords R)) as MR by (apply (multiple_z_iff c Hc); [exact (gp_on G HG Hnp Hgy)|exact OnR|exact SR]).
      pose proof (Z.mod_pos_bound (d + m) n ltac:(lia)) as Bk. unfold cv_order.
      destruct (Z.eqb_spec ((d + m) mod n) 0) as [Z0|Z0].
      - rewrite Z0 in SR. destruct R as [|xr yr o]; [|discriminate SR]. cbn [point_eqb]. left. now exists PlainException.
      - destruct R as [|xr yr o]; [exfalso; cbn [coords sabs] in SR; symmetry in SR; pose proof (onc_on c Hc _ (gp_on G HG Hnp Hgy)) as Og; apply (e_mul_prime c Hc n) in SR; [|exact Og|exact (ok_n G HG)|now apply order_n|discriminate]; apply Z.divide_pos_le in SR; lia|].
        cbn [point_eqb bind]. unfold hd_new. cbn [bind]. unfold cv_order. destruct (Z.ltb_spec 0 ((d + m) mod n)); [|lia]. destruct (Z.ltb_spec ((d + m) mod n) n); [|lia]. cbn [andb bind].
        destruct (negb (zlen (zdrop 32 deriv) =? 32)); [left; now exists AssertionError|]. apply negb_false_iff, Z.ltb_lt in Dp. destruct (Z.ltb_spec (hd_depth w' + 1) 256); [|lia].
        right. eexists _, _. split; [reflexivity|]. split; [reflexivity|]. exists ((d + m) mod n), (PAff xr yr o), xr, yr. cbn [hd_key hd_chain hd_testnet hd_depth hd_childnum]. repeat (split; [first [reflexivity|assumption|lia]|]). split; reflexivity.
    Qed.
    (** What a child is computed from (BIP-32): the hash of the key and the
        index under the chain code. *)
    Hypothesis Hmac : forall k m, wf_bytes (hmac_sha512 k m) /\ zlen (hmac_sha512 k m) = 64.
    Lemma left_half k m : string_to_number (ztake 32 (hmac_sha512 k m)) = Ok (be_val (ztake 32 (hmac_sha512 k m))) /\ 0 <= be_val (ztake 32 (hmac_sha512 k m)).
    Proof.
      destruct (Hmac k m) as (W & L). assert (zlen (ztake 32 (hmac_sha512 k m)) = 32) as L32 by (rewrite zlen_ztake; lia). split; [|apply be_val_bound; now apply Forall_ztake].
      apply string_to_number_spec. intro E. rewrite E in L32. discriminate.
    Qed.
    Lemma right_half k m : zlen (zdrop 32 (hmac_sha512 k m)) = 32.
    Proof. destruct (Hmac k m) as (W & L). rewrite zlen_zdrop; lia. Qed.
    Lemma mul_unique d A B : onc A -> onc B -> gmul d A -> gmul d B -> A = B.
    Proof. intros OA OB MA MB. destruct (mul_fun_lib G HG gp d (gp_on G HG Hnp Hgy)) as (R & _ & U). transitivity R; [symmetry|]; apply U; now split. Qed.
    Definition child_hash (w : hdwallet) (k : bytes) (d i : Z) : bytes := hmac_sha512 (hd_chain w) ((if i <? 2 ^ 31 then k else [0] ++ be_bytes 32 d) ++ be_bytes 4 i).
    Lemma child_priv w i r d x y k : hd_key w = HPriv d -> 0 < d < n -> 0 <= i < 2 ^ 32 -> hd_depth w < 255 -> onc (Some (x, y)) -> gmul d (Some (x, y)) -> sec1_compressed k x y ->
      let I := child_hash w k d i in let IL := be_val (ztake 32 I) in
      child w i r = if (n <=? IL) || ((d + IL) mod n =? 0) then Raise PlainException
                    else Ok (mk_hd (HPriv ((d + IL) mod n)) (zdrop 32 I) r (hd_testnet w) (hd_depth w + 1) (ztake 4 (ripemd160 (sha256 k))) i).
    Proof.
      intros E Hd Hi Hdp On M C. cbv zeta. destruct (gen_mul_nz d Hd) as (x1 & y1 & o & E1 & On1 & M1 & _).
      assert (x1 = x /\ y1 = y) as (-> & ->). { pose proof (mul_unique d _ _ On1 On M1 M) as U. injection U. auto. }
      destruct (compress_of x y o On) as (k' & Ek & C' & _). rewrite (compressed_fun k' k x y C' C) in Ek. clear C' k'.
      unfold hd_child, hd_fingerprint, hd_point, hash_160. rewrite E, E1. cbn [bind]. rewrite Ek, index_text by exact Hi. cbn [bind].
      destruct (Z.leb_spec 0 i); [|lia]. destruct (Z.leb_spec i (2 ^ 32 - 1)); [|lia]. destruct (Z.ltb_spec (hd_depth w) 255); [|lia]. cbn [andb negb]. cbv zeta.
      assert (number_to_string d (cv_order cv) = Ok (be_bytes 32 d)) as Ed.
      { destruct (orderlen_spec n ltac:(lia)) as (_ & B & _). unfold cv_order. rewrite number_to_string_spec, n_len by lia. rewrite n_len in B. destruct (Z.ltb_spec d 0); [lia|]. destruct (Z.ltb_spec d (256 ^ 32)); [reflexivity|lia]. }
      assert ((if negb (Z.land i 0x80000000 =? 0) then Ok ([0] ++ be_bytes 32 d ++ be_bytes 4 i) else Ok (k ++ be_bytes 4 i)) = Ok ((if i <? 2 ^ 31 then k else [0] ++ be_bytes 32 d) ++ be_bytes 4 i)) as Em.
      { destruct (Z.ltb_spec i (2 ^ 31)); [rewrite even_hardened by lia; reflexivity|rewrite hardened by lia; reflexivity]. }
      assert (forall m, (if cv_order cv <=? be_val (ztake 32 (hmac_sha512 (hd_chain w) m)) then Raise PlainException else
         let! childKey := (if (d + be_val (ztake 32 (hmac_sha512 (hd_chain w) m))) mod cv_order cv =? 0 then Raise PlainException else Ok (HPriv ((d + be_val (ztake 32 (hmac_sha512 (hd_chain w) m))) mod cv_order cv))) in
         hd_new cv childKey (zdrop 32 (hmac_sha512 (hd_chain w) m)) None r (hd_testnet w) (Some (hd_depth w + 1)) (ztake 4 (ripemd160 (sha256 k))) i) =
         (let IL := be_val (ztake 32 (hmac_sha512 (hd_chain w) m)) in if (n <=? IL) || ((d + IL) mod n =? 0) then Raise PlainException
                    else Ok (mk_hd (HPriv ((d + IL) mod n)) (zdrop 32 (hmac_sha512 (hd_chain w) m)) r (hd_testnet w) (hd_depth w + 1) (ztake 4 (ripemd160 (sha256 k))) i))) as Fin.
      { intro m. cbv zeta. unfold cv_order. destruct (n <=? _); [reflexivity|]. cbn [orb]. set (IL := be_val _). pose proof (Z.mod_pos_bound (d + IL) n ltac:(lia)). destruct (Z.eqb_spec ((d + IL) mod n) 0) as [Hz|Hz]; [reflexivity|].
        cbn [bind]. unfold hd_new, cv_order. destruct (Z.ltb_spec 0 ((d + IL) mod n)); [|lia]. destruct (Z.ltb_spec ((d + IL) mod n) n); [|lia]. cbn [andb bind]. rewrite right_half. cbn [Z.eqb Pos.eqb negb].
        destruct (Z.ltb_spec (hd_depth w + 1) 256); [|lia]. reflexivity. }
      unfold child_hash. rewrite <- Fin. clear Fin. revert Em. destruct (negb (Z.land i 0x80000000 =? 0)); intro Em; [rewrite Ed; cbn [bind]|cbn [bind]]; assert (forall A B : bytes, Ok A = Ok B -> A = B) as Oi by (intros; congruence); apply Oi in Em; rewrite Em;
        destruct (left_half (hd_chain w) ((if i <? 2 ^ 31 then k else [0] ++ be_bytes 32 d) ++ be_bytes 4 i)) as (-> & _); cbn [bind]; reflexivity.
    Qed.
    Lemma child_pub w i r P x y k : hd_key w = HPub P -> coords P = Some (x, y) -> onc (Some (x, y)) -> 0 <= i < 2 ^ 31 -> hd_depth w < 255 -> sec1_compressed k x y ->
      let I := hmac_sha512 (hd_chain w) (k ++ be_bytes 4 i) in let IL := be_val (ztake 32 I) in
      n <= IL /\ child w i r = Raise PlainException \/
      IL < n /\ exists A R, onc (coords A) /\ gmul IL (coords A) /\ onc (coords R) /\ line_sum p (c_a c) (Some (x, y)) (coords A) (coords R) /\
        child w i r = match coords R with None => Raise PlainException
                      | Some _ => Ok (mk_hd (HPub R) (zdrop 32 I) r (hd_testnet w) (hd_depth w + 1) (ztake 4 (ripemd160 (sha256 k))) i) end.
    Proof.
      intros E CP On Hi Hdp C. cbv zeta. destruct P as [|px py o]; [discriminate|]. injection CP as -> ->.
      destruct (compress_of x y o On) as (k' & Ek & C' & _). rewrite (compressed_fun k' k x y C' C) in Ek. clear C' k'.
      unfold hd_child, hd_fingerprint, hd_point, hash_160. rewrite E. cbn [bind]. rewrite Ek, index_text by lia. cbn [bind].
      destruct (Z.leb_spec 0 i); [|lia]. destruct (Z.leb_spec i (2 ^ 32 - 1)); [|lia]. destruct (Z.ltb_spec (hd_depth w) 255); [|lia]. cbn [andb negb]. rewrite even_hardened by exact Hi. cbn [Z.eqb negb]. cbn [bind]. cbv zeta.
      destruct (left_half (hd_chain w) (k ++ be_bytes 4 i)) as (-> & N). cbn [bind]. set (IL := be_val (ztake 32 (hmac_sha512 (hd_chain w) (k ++ be_bytes 4 i)))) in *. unfold cv_order.
      destruct (Z.leb_spec n IL) as [Hl|Hl]; [left; now split|right]. split; [exact Hl|]. destruct (gen_mul IL) as (A & EA & OnA & MA & _). exists A. rewrite EA. cbn [bind].
      destruct (add_lib c Hc (PAff x y o) A On OnA) as (R & ER & OnR & LR). exists R. rewrite ER. cbn [bind]. do 4 (split; [assumption|]).
      destruct R as [|xr yr orr]; [reflexivity|]. cbn [point_eqb coords bind]. unfold hd_new. cbn [bind]. rewrite right_half. cbn [Z.eqb Pos.eqb negb]. destruct (Z.ltb_spec (hd_depth w + 1) 256); [|lia]. reflexivity.
    Qed.
  End Derive.
  (** *** The keys of an address *)
  Section Keys.
    Variable sha256 sha512 ripemd160 : bytes -> bytes.
    Hypothesis Hsha : forall d, wf_bytes (sha256 d) /\ zlen (sha256 d) = 32.
    Lemma private_key a w : address_made sha256 sha512 ripemd160 cv a -> ad_priv a = Some w ->
      exists k d x y, privkey_from_wif sha256 w 0x80 = Ok k /\ octets32 k d /\ onc (Some (x, y)) /\ gmul d (Some (x, y)) /\ sec1_uncompressed (ad_pub a) x y /\
        (ad_compressed a = true <-> exists r, w = 76 :: r \/ w = 75 :: r).
    Proof.
      intros (pub & priv & vcn & rand & testnet & Hr & Wp & H) Ep. unfold address_new in H. assert (0 < cv_order cv) as Ho by (unfold cv_order; lia).
      assert (forall q, wf_bytes q -> address_finish sha256 sha512 ripemd160 cv None q false vcn rand testnet = Ok a -> False) as NoPriv.
      { intros q Wq Hf. destruct (finish_inv sha256 sha512 ripemd160 cv Hsha Ho Hlen None q false vcn rand testnet a Hr Wq Hf) as (E & _). congruence. }
      assert (wf_bytes (match pub with Some k => k | None => [] end)) as Wq by (destruct pub; [exact Wp|constructor]).
      destruct priv as [[|ch r]|]; [exfalso; exact (NoPriv _ Wq H)| |exfalso; exact (NoPriv _ Wq H)].
      destruct pub; [discriminate|]. destruct (negb (ch =? 76) && negb (ch =? 75) && negb (ch =? 53)); [discriminate|].
      destruct (privkey_from_wif sha256 (ch :: r) 0x80) as [k|e] eqn:Ek; [|discriminate]. cbn [bind] in H. destruct (wif_text sha256 sha512 ripemd160 Hsha (ch :: r) k Ek) as (_ & _ & Wk & Lk).
      rewrite string_to_number_spec in H by (intro Z0; rewrite Z0 in Lk; discriminate). cbn [bind] in H. destruct (gen_mul (be_val k)) as (R & ER & On & M & _). rewrite ER in H. cbn [bind] in H.
      destruct R as [|x y o]; [discriminate|]. cbn [coords] in *. destruct (key_of x y o On) as (pk & Epk & U). rewrite Epk in H. cbn [bind] in H.
      destruct (key_point_text cv Ho Hlen _ _ Epk) as (Wpk & Lpk & Spk).
      destruct (finish_inv sha256 sha512 ripemd160 cv Hsha Ho Hlen (Some (ch :: r)) pk _ vcn rand testnet a Hr Wpk H) as (E & _ & _ & _ & _ & _ & _ & F). destruct (F Lpk Spk) as (F1 & F2).
      assert (w = ch :: r) as -> by congruence. exists k, (be_val k), x, y. rewrite F1, F2. split; [exact Ek|]. split; [now split|]. do 3 (split; [assumption|]).
      split; [intro B; exists r; destruct (Z.eqb_spec ch 76); [left; congruence|]; destruct (Z.eqb_spec ch 75); [right; congruence|discriminate B]|].
      intros (r' & [B|B]); injection B as -> ->; reflexivity.
    Qed.
    Notation wif := (privkey_to_wif sha256).
    Lemma sha_len4 x : 4 <= zlen (sha256 x). Proof. destruct (Hsha x). lia. Qed.
    Lemma sha_wf4 x : wf_bytes (sha256 x). Proof. now destruct (Hsha x). Qed.
    (** The address of a private key in its two forms. *)
    Lemma private_new k d x y (z : bool) vcn r testnet : octets32 k d -> onc (Some (x, y)) -> gmul d (Some (x, y)) ->
      exists pub t, sec1_uncompressed pub x y /\ public_text z pub = Ok t /\ (if z then sec1_compressed t x y else t = pub) /\
        address_new sha256 sha512 ripemd160 cv None (Some (wif (if z then k ++ [1] else k) [0x80])) vcn r testnet =
          Ok (mk_address (Some (wif (if z then k ++ [1] else k) [0x80])) pub z (choose_vcn vcn r) testnet
                (publickey_to_address sha256 sha512 ripemd160 t (choose_vcn vcn r) (version_byte testnet))).
    Proof.
      intros (Wk & Lk & Vk) On M. assert (0 < cv_order cv) as Ho by (unfold cv_order; lia).
      destruct (gen_mul d) as (R & ER & OnR & MR & _). pose proof (mul_unique d _ _ OnR On MR M) as U. destruct R as [|x' y' o]; [discriminate|]. injection U as -> ->.
      destruct (key_of x y o On) as (pub & Epub & Up). exists pub. destruct (key_point_text cv Ho Hlen _ _ Epub) as (Wpk & Lpk & (r0 & Spk)).
      assert (exists t, public_text z pub = Ok t /\ (if z then sec1_compressed t x y else t = pub)) as (t & Et & Ht). { destruct z; [exact (compress_ok pub x y Up)|now exists pub]. }
      exists t. split; [exact Up|]. split; [exact Et|]. split; [exact Ht|].
      assert (exists ch r1, wif (if z then k ++ [1] else k) [0x80] = ch :: r1 /\ (ch =? 76) || (ch =? 75) = z /\ negb (ch =? 76) && negb (ch =? 75) && negb (ch =? 53) = false) as (ch & r1 & Ew & Ez & Ec).
      { destruct z; [destruct (wif_lead_KL sha256 sha_len4 sha_wf4 k Wk Lk) as (r1 & [E|E])|destruct (wif_lead_5 sha256 sha_len4 sha_wf4 k Wk Lk) as (r1 & E)]; eexists _, r1; (split; [exact E|split; reflexivity]). }
      assert (privkey_from_wif sha256 (wif (if z then k ++ [1] else k) [0x80]) 0x80 = Ok k) as Ek.
      { destruct z; [exact (wif_roundtrip_compressed sha256 sha_len4 sha_wf4 k Wk Lk)|exact (wif_roundtrip sha256 sha_len4 sha_wf4 k Wk Lk)]. }
      revert Ek. rewrite Ew. intro Ek. unfold address_new. rewrite Ec, Ek. cbn [bind]. rewrite string_to_number_spec by (intro Z0; rewrite Z0 in Lk; discriminate). cbn [bind]. rewrite Vk, ER. cbn [bind]. rewrite Epub. cbn [bind].
      unfold address_finish. rewrite Spk in *. change (4 =? 4) with true. rewrite Lpk. cbn [Z.eqb Pos.eqb negb bind fst snd]. cbv zeta. rewrite Ez, Et. reflexivity.
    Qed.
    Lemma private_form a w : address_made sha256 sha512 ripemd160 cv a -> ad_priv a = Some w ->
      exists k d x y, octets32 k d /\ onc (Some (x, y)) /\ gmul d (Some (x, y)) /\ sec1_uncompressed (ad_pub a) x y /\ w = wif (if ad_compressed a then k ++ [1] else k) [0x80].
    Proof.
      intros Ma Ep. destruct (private_key a w Ma Ep) as (k & d & x & y & Ek & O & On & M & U & L). exists k, d, x, y. do 4 (split; [assumption|]).
      destruct (wif_inverse sha256 sha_len4 w k Ek) as (Wk & Lk & [E|E]).
      - destruct (wif_lead_5 sha256 sha_len4 sha_wf4 k Wk Lk) as (r & F). destruct (ad_compressed a) eqn:Ec; [|exact E]. destruct (proj1 L eq_refl) as (r' & H). rewrite E, F in H. destruct H; discriminate.
      - destruct (wif_lead_KL sha256 sha_len4 sha_wf4 k Wk Lk) as (r & F). rewrite (proj2 L); [exact E|]. exists r. rewrite E. tauto.
    Qed.
    (** Compression and decompression of an address with a private key. *)
    Lemma private_recode a w : address_made sha256 sha512 ripemd160 cv a -> ad_priv a = Some w ->
      exists b, (if ad_compressed a then address_decompress sha256 sha512 ripemd160 cv a else address_compress sha256 sha512 ripemd160 cv a) = Ok b /\
        address_made sha256 sha512 ripemd160 cv b /\ ad_compressed b = negb (ad_compressed a) /\ ad_pub b = ad_pub a /\ ad_vcn b = ad_vcn a /\ ad_testnet b = ad_testnet a /\
        (exists k w', ad_priv b = Some w' /\ privkey_from_wif sha256 w 0x80 = Ok k /\ privkey_from_wif sha256 w' 0x80 = Ok k) /\
        (if ad_compressed b then address_decompress sha256 sha512 ripemd160 cv b else address_compress sha256 sha512 ripemd160 cv b) = Ok a.
    Proof.
      intros Ma Ep. assert (0 < cv_order cv) as Ho by (unfold cv_order; lia).
      destruct (private_form a w Ma Ep) as (k & d & x & y & O & On & M & U & Ew).
      destruct (private_new k d x y (negb (ad_compressed a)) (Some (ad_vcn a)) 0 (ad_testnet a) O On M) as (pub & t & Up & Et & _ & En).
      rewrite (uncompressed_fun pub (ad_pub a) x y Up U) in *. destruct (address_facts sha256 sha512 ripemd160 cv Hsha Ho Hlen a Ma) as (Hv & _ & _ & _ & _ & F). rewrite Ep in F. destruct F as (_ & _ & _ & F).
      rewrite (choose_again _ Hv) in En. destruct O as (Wk & Lk & _).
      assert (privkey_from_wif sha256 (wif (k ++ [1]) [0x80]) 0x80 = Ok k) as Kc by exact (wif_roundtrip_compressed sha256 sha_len4 sha_wf4 k Wk Lk).
      assert (privkey_from_wif sha256 (wif k [0x80]) 0x80 = Ok k) as Ku by exact (wif_roundtrip sha256 sha_len4 sha_wf4 k Wk Lk).
      match type of En with _ = Ok ?b => exists b end. split.
      - unfold address_decompress, address_compress. rewrite Ep. destruct (ad_compressed a); cbn [negb] in *; rewrite Ew; [rewrite Kc|rewrite Ku]; cbn [bind]; exact En.
      - split; [exists None, (Some (wif (if negb (ad_compressed a) then k ++ [1] else k) [0x80])), (Some (ad_vcn a)), 0, (ad_testnet a); split; [lia|split; [exact I|exact En]]|].
        cbn [ad_compressed ad_pub ad_vcn ad_testnet ad_priv]. do 4 (split; [reflexivity|]). split.
        + exists k. eexists. split; [reflexivity|]. rewrite Ew. destruct (ad_compressed a); cbn [negb]; split; assumption.
        + unfold address_decompress, address_compress. cbn [ad_compressed ad_pub ad_vcn ad_testnet ad_priv]. destruct (ad_compressed a) eqn:Ez; cbn [negb] in *; [rewrite Ku|rewrite Kc]; cbn [bind]; rewrite <- Ew; apply F.
    Qed.
  End Keys.
End Hd.
