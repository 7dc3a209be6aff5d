(** Signing and verifying through the key objects, for any signature codec. *)
From Coq Require Import ZArith Znumtheory List Lia Bool.
From Verif Require Import PyBase PyLoop NtModel NtProofs ZpTheory EcGroup GrpMul EcModel EcProofs EcOrder EcSpec EcLib EcdsaSpec EcdsaProofs DerModel DerProofs KeyModel KeyProofs KeyDer.
Import ListNotations.
Open Scope list_scope.
Open Scope Z_scope.

Section Sign.
  Variable cv : curve_info.
  Notation G := (cv_gen cv).
  Hypothesis HG : generator_ok G.
  Hypothesis Hnp : g_order G <= c_p (g_curve G).
  Hypothesis Hgy : 0 <= g_y G < c_p (g_curve G).
  Notation c := (g_curve G).
  Notation p := (c_p c).
  Notation n := (g_order G).
  Notation onc := (on_curve p (c_a c) (c_b c)).
  Notation gp := (coords (gen_point G)).
  Notation vpoint := (verification_point p (c_a c) n gp).
  Notation valid := (ecdsa_valid p (c_a c) n gp).
  Notation gmul := (multiple_z p (c_a c) gp).
  Let Hc : curve_ok c := gen_c G HG.
  Let N2 : 2 < n := ok_n2 G HG.
  Lemma private_sign_exact d h k : 1 <= k < n -> exists x y, gmul k (Some (x, y)) /\ onc (Some (x, y)) /\
    ((x = 0 \/ (h + d * x) mod n = 0) /\ private_sign G d h k = Raise RuntimeError \/
     (x <> 0 /\ (h + d * x) mod n <> 0 /\ exists s, private_sign G d h k = Ok (x, s) /\ 1 <= s < n /\ (s * k) mod n = (h + d * x) mod n)).
  Proof.
    intro Hk. unfold private_sign. cbv zeta. rewrite (Z.mod_small k n) by lia.
    destruct (mul_lib G HG (gen_point G) k) as (R & -> & HR & M & _ & A); [exact (gp_on G HG Hnp Hgy)|now left|]. cbn [bind].
    destruct R as [|x y o].
    - exfalso. cbn [eabs] in A. symmetry in A. pose proof (gp_on G HG Hnp Hgy) as On. apply (onc_on c Hc) in On. rewrite sabs_coords in On.
      apply (e_mul_prime c Hc n) in A; [|exact On|exact (ok_n G HG)|now apply order_n|discriminate]. apply Z.divide_pos_le in A; lia.
    - exists x, y. split; [exact M|]. split; [exact HR|]. destruct (Z.eqb_spec x 0) as [X|X]; [left; auto|].
      destruct (inv_exists G HG k Hk) as (w & -> & Hw & Mw). cbn [bind]. set (s := (w * (h + (d * x) mod n)) mod n).
      assert ((s * k) mod n = (h + d * x) mod n) as F.
      { unfold s. rewrite Zmult_mod_idemp_l. replace (w * (h + (d * x) mod n) * k) with ((k * w) * (h + (d * x) mod n)) by ring. rewrite Zmult_mod, Mw, Z.mul_1_l, Zmod_mod. now rewrite Zplus_mod_idemp_r. }
      pose proof (Z.mod_pos_bound (w * (h + (d * x) mod n)) n ltac:(lia)) as Bs. fold s in Bs.
      destruct (Z.eqb_spec s 0) as [S|S].
      + left. split; [right|reflexivity]. rewrite <- F, S. reflexivity.
      + right. split; [exact X|]. split.
        * intro Z0. rewrite Z0 in F. apply Zmod_divide in F; [|lia]. apply prime_mult in F; [|exact (ok_n G HG)]. destruct F as [F|F]; apply Z.divide_pos_le in F; lia.
        * exists s. split; [reflexivity|]. split; [lia|exact F].
  Qed.
  (** *** Verifying *)
  Section Codec.
    Context {S : Type}.
    Variable enc : Z -> Z -> Z -> res S.
    Variable dec : S -> Z -> res (Z * Z).
    Lemma verify_digest_run k x y sig digest : vkey_of cv k x y -> digest <> [] -> zlen digest <= cv_baselen cv ->
      vk_verify_digest k sig digest dec = (let! rs := dec sig n in let! ok := verifies G (vk_point k) (be_val digest) (fst rs) (snd rs) in if ok then Ok true else Raise BadSignatureError).
    Proof.
      intros (o & -> & Ho & On & Hx & Hy) D L. unfold vk_verify_digest. cbn [vk_curve vk_point]. destruct (Z.ltb_spec (cv_baselen cv) (zlen digest)); [lia|]. rewrite string_to_number_spec by exact D. reflexivity.
    Qed.
    Theorem verify_digest_spec k x y sig digest r s : vkey_of cv k x y -> digest <> [] -> zlen digest <= cv_baselen cv -> dec sig n = Ok (r, s) ->
      (vk_verify_digest k sig digest dec = Ok true /\ valid (Some (x, y)) (be_val digest) r s) \/
      (vk_verify_digest k sig digest dec = Raise BadSignatureError /\ ~ valid (Some (x, y)) (be_val digest) r s) \/
      (vk_verify_digest k sig digest dec = Raise TypeError /\ 1 <= r < n /\ 1 <= s < n /\ vpoint (Some (x, y)) (be_val digest) r s None).
    Proof.
      intros K D L E. rewrite (verify_digest_run k x y sig digest K D L), E. cbn [bind fst snd]. destruct K as (o & -> & Ho & On & Hx & Hy). cbn [vk_point].
      destruct (verifies_spec G HG Hnp Hgy (PAff x y o) (be_val digest) r s On) as (A & B & C); [exact Ho|]. cbn [coords] in A, B.
      destruct (verifies G (PAff x y o) (be_val digest) r s) as [[|]|e] eqn:V; cbn [bind].
      - left. split; [reflexivity|]. now apply A.
      - right. left. split; [reflexivity|]. intro X. apply A in X. discriminate.
      - right. right. rewrite (C e eq_refl) in *. split; [reflexivity|]. now apply B.
    Qed.
    Theorem verify_digest_undecoded k x y sig digest e : vkey_of cv k x y -> digest <> [] -> zlen digest <= cv_baselen cv -> dec sig n = Raise e -> vk_verify_digest k sig digest dec = Raise e.
    Proof. intros K D L E. now rewrite (verify_digest_run k x y sig digest K D L), E. Qed.
    (** *** Signing, then verifying *)
    Hypothesis codec : forall r s, 0 < r < p -> 1 <= s < n -> exists sig s', enc r s n = Ok sig /\ dec sig n = Ok (r, s') /\ (s' = s \/ s' = n - s).
    Theorem sign_digest_exact d k digest nonce : sk_from_secret_exponent cv d = Ok k -> digest <> [] -> zlen digest <= cv_baselen cv -> 1 <= nonce < n ->
      let h := be_val digest in
      exists x y, gmul nonce (Some (x, y)) /\ onc (Some (x, y)) /\
      ((x = 0 \/ (h + d * x) mod n = 0) /\ sk_sign_digest k digest (Ok nonce) enc = Raise RuntimeError \/
       (x <> 0 /\ (h + d * x) mod n <> 0 /\ exists sig s, sk_sign_digest k digest (Ok nonce) enc = Ok sig /\ dec sig n = Ok (x, s) /\ 1 <= s < n /\
         ((s * nonce) mod n = (h + d * x) mod n \/ ((n - s) * nonce) mod n = (h + d * x) mod n) /\
         vk_verify_digest (sk_vk k) sig digest dec = if x <? n then Ok true else Raise BadSignatureError)).
    Proof.
      intros K D L Hk h. destruct (private_sign_exact d h nonce Hk) as (x & y & M & On & H). exists x, y. split; [exact M|]. split; [exact On|].
      assert (1 <= d < n) as Hd. { unfold sk_from_secret_exponent, cv_order in K. destruct (Z.leb_spec 1 d), (Z.ltb_spec d n); try discriminate. lia. }
      destruct (secexp_ok cv HG Hnp Hgy d Hd) as (qx & qy & o & OnQ & MQ & Ho & EQ & K'). rewrite K in K'. destruct (Z.ltb_spec qx n) as [Hx|]; [|discriminate]. destruct (Z.ltb_spec qy n) as [Hy|]; [|discriminate]. cbn [andb] in K'.
      assert (k = mk_skey cv d (mk_vkey cv (PAff qx qy o))) as -> by congruence. clear K K'.
      assert (forall e, sk_sign_digest (S := S) (mk_skey cv d (mk_vkey cv (PAff qx qy o))) digest (Ok nonce) e = let! rs := private_sign G d h nonce in e (fst rs) (snd rs) n) as Run.
      { intro e. unfold sk_sign_digest, sk_sign_number, cv_order. cbn [sk_curve sk_secexp]. destruct (Z.ltb_spec (cv_baselen cv) (zlen digest)); [lia|]. rewrite string_to_number_spec by exact D. cbn [bind]. destruct (Z.leb_spec 1 nonce); [|lia]. destruct (Z.ltb_spec nonce n); [|lia]. reflexivity. }
      rewrite Run. destruct H as [(Z0 & E)|(X0 & Z0 & s & E & Hs & F)]; rewrite E; cbn [bind fst snd]; [left; auto|]. right. split; [exact X0|]. split; [exact Z0|].
      assert (0 < x < p) as Hxp by (destruct On as (? & _); lia). destruct (codec x s Hxp Hs) as (sig & s' & Es & Ds & S'). exists sig, s'. split; [exact Es|]. split; [exact Ds|]. split; [lia|]. split.
      { destruct S' as [->| ->]; [now left|right]. now replace (n - (n - s)) with s by ring. }
      destruct (sign_spec G HG Hnp Hgy d (Some (qx, qy)) h nonce x s OnQ EQ) as (y1 & M1 & _ & _ & V); [rewrite Z.mod_small; lia|exact E|].
      assert (vkey_of cv (mk_vkey cv (PAff qx qy o)) qx qy) as KV by (exists o; auto). cbn [sk_vk].
      destruct (Z.ltb_spec x n) as [Lx|Lx].
      - assert (valid (Some (qx, qy)) h x s) as V1. { split; [lia|]. split; [exact Hs|]. exists x, y1. split; [exact V|]. apply Z.mod_small. lia. }
        assert (valid (Some (qx, qy)) h x s') as V2 by (destruct S' as [->| ->]; [exact V1|now apply (valid_negated G HG Hnp Hgy)]).
        destruct (verify_digest_spec _ qx qy sig digest x s' KV D L Ds) as [(R & _)|[(_ & N)|(_ & _ & _ & N)]]; [exact R|contradiction|].
        destruct V2 as (_ & Hs2 & x2 & y2 & V2 & _). pose proof (vpoint_fun G HG Hnp Hgy _ _ _ _ _ _ OnQ Hs2 V2 N). discriminate.
      - rewrite (verify_digest_run _ qx qy sig digest KV D L), Ds. cbn [bind fst snd]. rewrite (verifies_range G) by lia. reflexivity.
    Qed.
    Theorem sign_digest_refused d k digest nonce : sk_from_secret_exponent cv d = Ok k ->
      (cv_baselen cv < zlen digest -> sk_sign_digest k digest (Ok nonce) enc = Raise BadDigestError) /\
      (zlen digest <= cv_baselen cv -> digest <> [] -> ~ 1 <= nonce < n -> sk_sign_digest k digest (Ok nonce) enc = Raise AssertionError).
    Proof.
      intro K. assert (sk_curve k = cv) as Ek.
      { unfold sk_from_secret_exponent in K. destruct (negb _); [discriminate|]. destruct (ec_mul _ _ _) as [P|]; [|discriminate]. cbn [bind] in K. destruct (public_key _ _) as [Q|]; [|discriminate]. cbn [bind] in K. destruct (vk_from_public_point _ _) as [v|]; [|discriminate]. cbn [bind] in K. assert (k = mk_skey cv d v) as -> by congruence. reflexivity. }
      unfold sk_sign_digest, sk_sign_number, cv_order. rewrite Ek. split; intro L.
      - destruct (Z.ltb_spec (cv_baselen cv) (zlen digest)); [reflexivity|lia].
      - intros D N. destruct (Z.ltb_spec (cv_baselen cv) (zlen digest)); [lia|]. rewrite string_to_number_spec by exact D. cbn [bind].
        destruct (Z.leb_spec 1 nonce), (Z.ltb_spec nonce n); try reflexivity. lia.
    Qed.
  End Codec.
End Sign.
