(** C165: how keys that are none are refused by address wallets; C45, C77: how
    the derivation of children and shared secrets are refused. *)
From Coq Require Import String ZArith Znumtheory List Lia Bool.
From Verif Require Import PyBase PyVal UtilModel UtilProofs Base58Model Base58Proofs DerModel DerProofs NtModel EcModel EcSpec EcProofs EcOrder EcLib EcdsaSpec EcdsaProofs EcParams256k1 KeyModel KeySpec KeyProofs KeyCases KeyDer PropsBase58 PropsNt PropsEc PropsKey WalletModel WalletProofs HdProofs PropsWallet PropsRefuse.
Import ListNotations.
Open Scope list_scope.
Open Scope Z_scope.

(** ** Specification *)
(** The two forms of a public key: 4 and 64 bytes, or 2 or 3 and 32 bytes. *)
Definition long_form (k : bytes) : Prop := hd_error k = Some 4 /\ zlen k = 65.
Definition short_form (k : bytes) : Prop := (hd_error k = Some 2 \/ hd_error k = Some 3) /\ zlen k = 33.
(** The curve has a point with the x of a key in the short form. *)
Definition on_the_curve (k : bytes) : Prop := exists y, (secp_p | y * y - (be_val (tl k) ^ 3 + 7)).

(** Multiples of the order give the point at infinity. *)
Lemma zero_point cv (HG : generator_ok (cv_gen cv)) (Hnp : g_order (cv_gen cv) <= c_p (g_curve (cv_gen cv))) (Hgy : 0 <= g_y (cv_gen cv) < c_p (g_curve (cv_gen cv))) e x y o :
  e mod g_order (cv_gen cv) = 0 -> sabs (g_curve (cv_gen cv)) (coords (PAff x y o)) = e_mul (g_curve (cv_gen cv)) e (sabs (g_curve (cv_gen cv)) (coords (gen_point (cv_gen cv)))) -> False.
Proof.
  intros Z0 A. pose proof (gen_c (cv_gen cv) HG) as Hc. pose proof (gen_onc (cv_gen cv) HG Hnp Hgy) as Og. apply (onc_on _ Hc) in Og.
  pose proof (e_mul_mod _ Hc (g_order (cv_gen cv)) e _ Og ltac:(now apply order_n)) as M. rewrite Z0 in M. unfold e_mul in A. rewrite <- M in A. cbn [coords sabs] in A. discriminate A.
Qed.

(** A key in the long form whose x and y are a point of the curve. *)
Definition a_point (k : bytes) : Prop := (secp_p | be_val (slice 33 65 k) * be_val (slice 33 65 k) - (be_val (slice 1 33 k) ^ 3 + 7)).

Section NoKey.
  Variable sha256 sha512 ripemd160 : bytes -> bytes.
  Notation new_address := (address_new sha256 sha512 ripemd160 S256).

  Lemma compressed_ok ch X Y : zlen X = 32 -> zlen Y = 32 -> exists t, compress_public_key (ch :: X ++ Y) = Ok t \/ compress_public_key (ch :: X ++ Y) = Raise ValueError.
  Proof.
    intros LX LY. unfold compress_public_key. destruct (_ || _); [exists []; right; reflexivity|].
    assert (slice 33 65 (ch :: X ++ Y) = Y) as ->. { change (ch :: X ++ Y) with ((ch :: X) ++ Y). rewrite <- (app_nil_r Y) at 1. apply slice_app_mid; rewrite ?zlen_cons; lia. }
    rewrite string_to_number_spec by (intros ->; discriminate LY). cbn [bind]. eexists. left. reflexivity.
  Qed.

  (** ** C165 *)
  (** Whatever bytes are given as public key: an address wallet, ValueError or
      SquareRootError. *)
  Theorem C165_public k vcn rand testnet : wf_bytes k ->
    only [ValueError; SquareRootError] (new_address (Some k) None vcn rand testnet) /\
    (new_address (Some k) None vcn rand testnet = Raise SquareRootError <-> short_form k /\ ~ on_the_curve k).
  Proof.
    intro W. unfold address_new, address_finish. destruct k as [|ch k]; [split; [cbn; tauto|split; [discriminate|intros ((_ & H) & _); discriminate H]]|].
    destruct (Z.eqb_spec ch 4) as [->|N4].
    { destruct (negb _); cbn [bind fst snd public_text]; (split; [cbn; tauto|split; [discriminate|intros (([H|H] & _) & _); discriminate H]]). }
    destruct ((ch =? 2) || (ch =? 3)) eqn:Hc; [|cbn [bind]; split; [cbn; tauto|split; [discriminate|]]; intros (([H|H] & _) & _); cbn [hd_error] in H; assert (ch = 2 \/ ch = 3) as [-> | ->] by (left; congruence) || (right; congruence); discriminate Hc].
    assert (ch = 2 \/ ch = 3) as Hch by (apply orb_true_iff in Hc; rewrite !Z.eqb_eq in Hc; exact Hc). apply Forall_inv_tail in W.
    destruct (Z.eq_dec (zlen k) 32) as [L|L].
    - assert (short_form (ch :: k)) as F by (split; [destruct Hch as [-> | ->]; [left|right]; reflexivity|rewrite zlen_cons; lia]).
      destruct (decompress_23 SECP256k1 Sok Snp Sgy Slen Sp ch k Hch W L) as [(N & ->)|(y & By & D & _ & E)].
      + cbn [bind]. split; [cbn; tauto|]. split; [intros _|reflexivity]. split; [exact F|]. intros (y & D). apply N. exists y. eapply eq_ind; [exact D|]. f_equal. change (c_a (g_curve (cv_gen S256))) with 0. change (c_b (g_curve (cv_gen S256))) with 7. cbn [tl]. ring.
      + assert (on_the_curve (ch :: k)) as On. { exists y. eapply eq_ind; [exact D|]. f_equal. change (c_a (g_curve (cv_gen S256))) with 0. change (c_b (g_curve (cv_gen S256))) with 7. cbn [tl]. ring. }
        rewrite E. destruct (_ && _); cbn [bind]; [|split; [cbn; tauto|split; [discriminate|tauto]]]. cbn [fst snd public_text].
        match goal with |- context [compress_public_key (4 :: k ++ ?Y)] => destruct (compressed_ok 4 k Y L (zlen_be_bytes _ _)) as (t & [-> | ->]) end; cbn [bind]; (split; [cbn; tauto|split; [discriminate|tauto]]).
    - rewrite (not_compressed S256 Sgy) by (rewrite ?zlen_cons; lia). cbn [bind]. split; [cbn; tauto|split; [discriminate|]]. intros ((_ & H) & _). rewrite zlen_cons in H. lia.
  Qed.
  (** Keys of neither form are refused with ValueError. *)
  Theorem C165_form k vcn rand testnet : wf_bytes k -> ~ long_form k -> ~ short_form k -> new_address (Some k) None vcn rand testnet = Raise ValueError.
  Proof.
    intros W N4 N2. destruct (C165_public k vcn rand testnet W) as (O & S). destruct (new_address (Some k) None vcn rand testnet) as [a|e] eqn:E.
    - exfalso. unfold address_new, address_finish in E. destruct k as [|ch k]; [discriminate|]. destruct (Z.eqb_spec ch 4) as [->|H4].
      + destruct (Z.eqb_spec (zlen (4 :: k)) 65) as [L|L]; [|discriminate]. apply N4. now split.
      + destruct ((ch =? 2) || (ch =? 3)) eqn:Hc; [|discriminate]. rewrite (not_compressed S256 Sgy) in E; [discriminate|lia|].
        intros (H & L). apply N2. split; [destruct H as [-> | ->]; [left|right]; reflexivity|exact L].
    - destruct O as [<-|[<-|[]]]; [reflexivity|]. exfalso. apply N2, S. reflexivity.
  Qed.
  (** Whatever bytes are given as private key: an address wallet or one of three
      exceptions. *)
  Lemma only_b58 w : only [ValueError; TypeError; IndexError] (decode_check sha256 w).
  Proof.
    unfold decode_check. apply only_bind; [|intros; exact Logic.I]. unfold b58decode. cbv zeta. apply only_bind; [|intros; exact Logic.I]. unfold b58decode_int. generalize 0 as z.
    induction (lstrip 49 w) as [|c v IH]; intro z; cbn [decode_int_loop]; [exact Logic.I|]. destruct (index_of _ _ _); [apply IH|cbn; tauto].
  Qed.
  Lemma wif_key w : only [ValueError; TypeError; IndexError] (privkey_from_wif sha256 w 0x80) /\ forall k, privkey_from_wif sha256 w 0x80 = Ok k -> zlen k = 32.
  Proof.
    pose proof (only_b58 w) as O. unfold privkey_from_wif. destruct (decode_check sha256 w) as [[[|k0 key]|]|e]; cbn [bind].
    - split; [cbn; tauto|discriminate].
    - destruct (negb _); [split; [cbn; tauto|discriminate]|]. destruct (Z.eqb_spec (zlen (k0 :: key)) 33) as [L|_].
      + rewrite zlen_cons in L. destruct w; [split; [cbn; tauto|discriminate]|]. destruct (negb _); [split; [cbn; tauto|discriminate]|]. split; [exact Logic.I|]. intros k E. assert (k = key) as -> by congruence. lia.
      + destruct (Z.eqb_spec (zlen (k0 :: key)) 34) as [L|_]; [|split; [cbn; tauto|discriminate]]. destruct (negb _); [split; [cbn; tauto|discriminate]|]. destruct w; [split; [cbn; tauto|discriminate]|]. destruct (_ && _); [split; [cbn; tauto|discriminate]|].
        split; [exact Logic.I|]. intros k E. assert (k = removelast key) as -> by congruence. rewrite zlen_cons in L. assert (key <> []) as N by (intros ->; discriminate L).
        rewrite (app_removelast_last 0 N), zlen_app in L. change (zlen [last key 0]) with 1 in L. lia.
    - split; [cbn; tauto|discriminate].
    - split; [exact O|discriminate].
  Qed.
  Theorem C165_private w vcn rand testnet : only [ValueError; TypeError; IndexError] (new_address None (Some w) vcn rand testnet).
  Proof.
    unfold address_new. destruct w as [|ch r]; [cbn; tauto|]. destruct (_ && _); [cbn; tauto|]. destruct (wif_key (ch :: r)) as (O & K). apply only_bind; [exact O|]. intros k Ek. specialize (K k Ek).
    rewrite string_to_number_spec by (intros ->; discriminate K). cbn [bind]. destruct (gen_mul S256 Sok Snp Sgy (be_val k)) as (R & -> & On & _). cbn [bind].
    destruct R as [|x y o]; [cbn; tauto|]. destruct On as (Bx & By & _). pose proof Sp as P.
    assert (forall z, 0 <= z < c_p (g_curve (cv_gen S256)) -> number_to_string z (cv_order S256) = Ok (be_bytes 32 z)) as T.
    { intros z Bz. rewrite number_to_string_spec by reflexivity. change (orderlen (cv_order S256)) with (cv_baselen S256). rewrite Slen. destruct (Z.ltb_spec z 0); [lia|]. destruct (Z.ltb_spec z (256 ^ 32)); [reflexivity|lia]. }
    unfold key_from_point, point_strings. rewrite (T x Bx), (T y By). pose proof (zlen_be_bytes 32 x) as LX. pose proof (zlen_be_bytes 32 y) as LY. generalize dependent (be_bytes 32 x). intros X LX. generalize dependent (be_bytes 32 y). intros Y LY.
    change (Z.of_nat 32) with 32 in *. cbn [bind fst snd app]. unfold address_finish. change (4 =? 4) with true. cbv iota. assert (zlen (4 :: X ++ Y) = 65) as L by (rewrite zlen_cons, zlen_app; lia). rewrite L. change (65 =? 65) with true. cbn [negb bind fst snd].
    unfold public_text. destruct ((ch =? 76) || (ch =? 75)); [|cbn; tauto].
    destruct (compressed_ok 4 X Y LX LY) as (t & [-> | ->]); cbn; tauto.
  Qed.
  (** Private keys with another first letter than 5, K and L are refused with
      ValueError. *)
  Theorem C165_letter ch r vcn rand testnet : ch <> 53 -> ch <> 75 -> ch <> 76 -> new_address None (Some (ch :: r)) vcn rand testnet = Raise ValueError.
  Proof.
    intros A B C. unfold address_new. destruct (Z.eqb_spec ch 76); [contradiction|]. destruct (Z.eqb_spec ch 75); [contradiction|]. destruct (Z.eqb_spec ch 53); [contradiction|]. reflexivity.
  Qed.
  (** Otherwise what reading the key raises is raised: TypeError for a wrong
      checksum, ValueError for a character that is none of Base58. *)
  Theorem C165_read ch r e vcn rand testnet : ch = 53 \/ ch = 75 \/ ch = 76 -> privkey_from_wif sha256 (ch :: r) 0x80 = Raise e -> new_address None (Some (ch :: r)) vcn rand testnet = Raise e.
  Proof.
    intros Hc E. unfold address_new. assert (negb (ch =? 76) && negb (ch =? 75) && negb (ch =? 53) = false) as -> by (destruct Hc as [-> |[-> | ->]]; reflexivity). rewrite E. reflexivity.
  Qed.
  Theorem C165_checksum ch r data vcn rand testnet : ch = 53 \/ ch = 75 \/ ch = 76 -> b58decode (ch :: r) = Ok data -> ztake 4 (sha256 (sha256 (drop_last4 data))) <> last4 data ->
    new_address None (Some (ch :: r)) vcn rand testnet = Raise TypeError.
  Proof.
    intros Hc E N. apply C165_read; [exact Hc|]. unfold privkey_from_wif, decode_check. rewrite E. cbn [bind]. destruct (bytes_eqb_spec (ztake 4 (sha256 (sha256 (drop_last4 data)))) (last4 data)) as [B|_]; [contradiction|reflexivity].
  Qed.
  (** A private key that is a multiple of the order is refused with TypeError. *)
  Theorem C165_zero ch r k vcn rand testnet : ch = 53 \/ ch = 75 \/ ch = 76 -> privkey_from_wif sha256 (ch :: r) 0x80 = Ok k -> be_val k mod secp_n = 0 ->
    new_address None (Some (ch :: r)) vcn rand testnet = Raise TypeError.
  Proof.
    intros Hc Ek Z0. destruct (wif_key (ch :: r)) as (_ & K). specialize (K k Ek). unfold address_new.
    assert (negb (ch =? 76) && negb (ch =? 75) && negb (ch =? 53) = false) as -> by (destruct Hc as [-> |[-> | ->]]; reflexivity). rewrite Ek. cbn [bind].
    rewrite string_to_number_spec by (intros ->; discriminate K). cbn [bind]. destruct (gen_mul S256 Sok Snp Sgy (be_val k)) as (R & -> & On & _ & A). cbn [bind].
    destruct R as [|x y o]; [reflexivity|]. exfalso. exact (zero_point S256 Sok Snp Sgy (be_val k) x y o Z0 A).
  Qed.
  (** Keys in the long form are taken as they are: nobody looks at the point. *)
  Theorem C165_long k vcn rand testnet : long_form k -> exists a, new_address (Some k) None vcn rand testnet = Ok a /\ ad_pub a = k.
  Proof.
    intros (H & L). destruct k as [|ch r]; [discriminate|]. assert (ch = 4) as -> by (cbn [hd_error] in H; congruence). unfold address_new, address_finish. change (4 =? 4) with true. cbv iota. rewrite L. change (65 =? 65) with true.
    cbn [negb bind fst snd public_text]. eexists. split; [reflexivity|reflexivity].
  Qed.
  (** So not every key that is accepted is a point of the curve ... *)
  Theorem C165_points_refuted : exists k, wf_bytes k /\ ~ a_point k /\ forall vcn rand testnet, exists a, new_address (Some k) None vcn rand testnet = Ok a /\ ad_pub a = k.
  Proof.
    exists (4 :: repeat 0 64). split; [|split].
    - constructor; [unfold is_byte; lia|]. apply Forall_forall. intros b Hb. apply repeat_spec in Hb. subst b. unfold is_byte. lia.
    - unfold a_point. assert (be_val (slice 33 65 (4 :: repeat 0 64)) = 0) as -> by (vm_compute; reflexivity). assert (be_val (slice 1 33 (4 :: repeat 0 64)) = 0) as -> by (vm_compute; reflexivity).
      intros D. change (0 * 0 - (0 ^ 3 + 7)) with (-7) in D. apply Z.divide_opp_r in D. change (- -7) with 7 in D. apply Z.divide_pos_le in D; [|lia]. revert D. vm_compute. intro D. now apply D.
    - intros. apply C165_long. split; reflexivity.
  Qed.
  (** ... and one who expects ValueError alone is surprised by a short key. *)
  Theorem C165_expected_refuted vcn rand testnet : new_address (Some (2 :: be_bytes 32 5)) None vcn rand testnet = Raise SquareRootError.
  Proof.
    assert (wf_bytes (2 :: be_bytes 32 5)) as W by (constructor; [unfold is_byte; lia|apply wf_be_bytes]). apply (C165_public _ vcn rand testnet W). split.
    - split; [left; reflexivity|]. rewrite zlen_cons, zlen_be_bytes. reflexivity.
    - intros (y & D). apply (not_square 132); [split; reflexivity|vm_compute; reflexivity|]. exists y. cbn [tl] in D. rewrite be_val_be_bytes_small in D by (split; [discriminate|reflexivity]). exact D.
  Qed.
  (** The theorems are not vacuous. *)
  Example C165_applies vcn rand testnet :
    new_address (Some [5]) None vcn rand testnet = Raise ValueError /\ new_address (Some [2; 1]) None vcn rand testnet = Raise ValueError /\
    new_address None (Some [53; 48]) vcn rand testnet = Raise ValueError /\ new_address None (Some []) vcn rand testnet = Raise ValueError /\
    (ztake 4 (sha256 (sha256 [])) <> [4] -> new_address None (Some [53]) vcn rand testnet = Raise TypeError).
  Proof.
    split; [|split; [|split; [|split]]].
    - apply C165_form; [constructor; [unfold is_byte; lia|constructor]|intros (H & _); discriminate H|intros (_ & H); discriminate H].
    - apply C165_form; [constructor; [unfold is_byte; lia|constructor; [unfold is_byte; lia|constructor]]|intros (H & _); discriminate H|intros (_ & H); discriminate H].
    - reflexivity.
    - reflexivity.
    - intro N. apply (C165_checksum 53 [] [4]); [now left|vm_compute; reflexivity|exact N].
  Qed.
End NoKey.

(** * Children that cannot be derived *)
Section NoChild.
  Variable sha256 ripemd160 : bytes -> bytes.
  Variable hmac_sha512 : bytes -> bytes -> bytes.
  Hypothesis Hmac : forall k m, wf_bytes (hmac_sha512 k m) /\ zlen (hmac_sha512 k m) = 64.
  Notation child := (hd_child sha256 ripemd160 hmac_sha512 S256).
  (** A wallet whose key is in range or a point of the curve. *)
  Definition keyed (w : hdwallet) : Prop :=
    match hd_key w with HPriv d => 0 < d < secp_n | HPub P => exists x y, coords P = Some (x, y) /\ secp_xy x y end.
  Definition watching (w : hdwallet) : Prop := exists P, hd_key w = HPub P.

  (** Whatever the index: a child, AssertionError or Exception.  AssertionError
      tells of an index beyond 32 bits or of a parent of depth 255, except that
      a watch-only wallet is first asked whether the index is hardened. *)
  Theorem C45_verdict w i r : keyed w ->
    only [AssertionError; PlainException] (child w i r) /\
    (child w i r = Raise AssertionError <-> ~ 0 <= i < 2 ^ 32 \/ 255 <= hd_depth w /\ ~ (watching w /\ 2 ^ 31 <= i)).
  Proof.
    intro K. destruct (Z_le_gt_dec 0 i) as [A|A]; [destruct (Z_lt_ge_dec i (2 ^ 32)) as [B|B]|].
    2: { assert (child w i r = Raise AssertionError) as ->. { unfold hd_child. destruct (Z.leb_spec i (2 ^ 32 - 1)); [lia|]. rewrite andb_false_r. reflexivity. } split; [cbn; tauto|]. split; [intros _; left; lia|reflexivity]. }
    2: { assert (child w i r = Raise AssertionError) as ->. { unfold hd_child. destruct (Z.leb_spec 0 i); [lia|reflexivity]. } split; [cbn; tauto|]. split; [intros _; left; lia|reflexivity]. }
    unfold keyed in K. destruct (hd_key w) as [d|P] eqn:E.
    - assert (~ watching w) as NW by (intros (P & H); congruence).
      destruct (Z_lt_ge_dec (hd_depth w) 255) as [D|D].
      + destruct (gen_mul_nz S256 Sok Snp Sgy d K) as (x & y & o & _ & On & M & _). destruct (compress_of S256 Sok Snp Slen Sp x y o On) as (k & _ & C & _).
        pose proof (child_priv S256 Sok Snp Sgy Slen Sp sha256 ripemd160 hmac_sha512 Hmac w i r d x y k E K (conj A B) D On M C) as V. cbv zeta in V. rewrite V. destruct (_ || _); (split; [cbn; tauto|split; [discriminate|intros [H|H]; lia]]).
      + assert (child w i r = Raise AssertionError) as ->. { unfold hd_child. destruct (Z.leb_spec 0 i); [|lia]. destruct (Z.leb_spec i (2 ^ 32 - 1)); [|lia]. cbn [andb negb]. rewrite E. destruct (Z.ltb_spec (hd_depth w) 255); [lia|]. destruct (negb _); reflexivity. }
        split; [cbn; tauto|]. split; [intros _; right; split; [lia|tauto]|reflexivity].
    - assert (watching w) as IW by now exists P.
      destruct (Z_lt_ge_dec i (2 ^ 31)) as [S|S].
      + destruct (Z_lt_ge_dec (hd_depth w) 255) as [D|D].
        * destruct K as (x & y & CP & On). destruct (compress_of S256 Sok Snp Slen Sp x y 0 On) as (k & _ & C & _).
          pose proof (child_pub S256 Sok Snp Sgy Slen Sp sha256 ripemd160 hmac_sha512 Hmac w i r P x y k E CP On (conj A S) D C) as V. cbv zeta in V. destruct V as [(_ & ->)|(_ & Q & R & _ & _ & _ & _ & ->)]; [|destruct (coords R)]; (split; [cbn; tauto|split; [discriminate|intros [H|H]; lia]]).
        * assert (child w i r = Raise AssertionError) as ->.
          { unfold hd_child. destruct (Z.leb_spec 0 i); [|lia]. destruct (Z.leb_spec i (2 ^ 32 - 1)); [|lia]. cbn [andb negb]. rewrite E, even_hardened by lia. cbn [Z.eqb negb]. destruct (Z.ltb_spec (hd_depth w) 255); [lia|]. reflexivity. }
          split; [cbn; tauto|]. split; [intros _; right; split; [lia|intros (_ & H); lia]|reflexivity].
      + assert (child w i r = Raise PlainException) as ->. { unfold hd_child. destruct (Z.leb_spec 0 i); [|lia]. destruct (Z.leb_spec i (2 ^ 32 - 1)); [|lia]. cbn [andb negb]. rewrite E, hardened by lia. reflexivity. }
        split; [cbn; tauto|]. split; [discriminate|]. intros [H|(_ & H)]; [lia|]. exfalso. apply H. split; [exact IW|lia].
  Qed.
  Example C45_verdict_applies : keyed (mk_hd (HPriv 1) (repeat 0 32) 7 false 255 (repeat 0 4) 0) /\ child (mk_hd (HPriv 1) (repeat 0 32) 7 false 255 (repeat 0 4) 0) 0 5 = Raise AssertionError.
  Proof. split; [split; reflexivity|]. apply C45_verdict; [split; reflexivity|]. right. split; [discriminate|]. intros ((P & H) & _). discriminate H. Qed.
End NoChild.

(** * Shared secrets *)
Lemma order_big : 256 ^ 32 <= 2 * g_order (cv_gen SECP256k1) - 2.
Proof. vm_compute. discriminate. Qed.
Section Multiple.
  Variable cv : curve_info.
  Notation G := (cv_gen cv).
  Notation c := (g_curve G).
  Hypothesis HG : generator_ok G.
  Hypothesis Hlen : cv_baselen cv = 32.
  Hypothesis Hp : c_p c < 256 ^ 32.
  Hypothesis Hn : 256 ^ 32 <= 2 * g_order G - 2.
  Variable sha256 : bytes -> bytes.
  Lemma secret_verdict k k' x y w priv : decompress_with G k = Ok k' -> sec1_uncompressed k' x y -> on_curve (c_p c) (c_a c) (c_b c) (Some (x, y)) -> privkey_from_wif sha256 w 128 = Ok priv -> wf_bytes priv -> zlen priv = 32 ->
    (be_val priv mod g_order G = 0 /\ shared_secret_with sha256 cv k w = Raise TypeError) \/
    (be_val priv mod g_order G <> 0 /\ exists x' y', multiple_z (c_p c) (c_a c) (Some (x, y)) (be_val priv) (Some (x', y')) /\ shared_secret_with sha256 cv k w = Ok (be_bytes 32 x')).
  Proof.
    intros D (X & Y & -> & WX & WY & LX & LY & VX & VY) On Ew Wp Lp. pose proof (gen_c G HG) as Hc. pose proof (ok_n2 G HG) as N2. unfold shared_secret_with. rewrite D. cbn [bind]. rewrite slice_1_33 by exact LX.
    rewrite zdrop_33 by exact LX. rewrite !string_to_number_spec by (apply cons_zlen; lia). cbn [bind]. rewrite VX, VY. unfold point_new. assert (contains_point c x y = true) as -> by (apply (contains_div c Hc); apply On). cbn [bind].
    rewrite Ew. cbn [bind]. rewrite string_to_number_spec by (apply cons_zlen; lia). cbn [bind]. pose proof (be_val_bound priv Wp) as B. rewrite Lp in B. set (d := be_val priv) in *. clearbody d.
    destruct (mul_lib G HG (PAff x y 0) d On) as (R & -> & HR & M & _ & A); [right; cbn [p_order]; split; [reflexivity|]; split; [lia|left; lia]|]. cbn [bind].
    pose proof (onc_on c Hc _ On) as Oe. change (e_on c (eabs c (PAff x y 0))) in Oe. pose proof (e_mul_mod c Hc (g_order G) d _ Oe ltac:(now apply order_n)) as MM.
    destruct R as [|x' y' o].
    - left. split; [|reflexivity]. cbn [eabs] in A. symmetry in A. apply (e_mul_prime c Hc (g_order G)) in A; [|exact Oe|exact (ok_n G HG)|now apply order_n|discriminate]. apply Z.mod_divide; [lia|exact A].
    - right. split.
      + intro Z0. rewrite Z0 in MM. unfold e_mul in A. rewrite <- MM in A. cbn [eabs] in A. discriminate A.
      + exists x', y'. split; [exact M|]. cbn [coords] in *. destruct HR as (Bx & _ & _). unfold cv_order. rewrite number_to_string_spec by lia. unfold cv_baselen, cv_order in Hlen. rewrite Hlen. destruct (Z.ltb_spec x' 0); [lia|]. destruct (Z.ltb_spec x' (256 ^ 32)); [|lia]. reflexivity.
  Qed.
End Multiple.
Section NoSecret.
  Variable sha256 : bytes -> bytes.
  Hypothesis Hsha : forall d, wf_bytes (sha256 d) /\ zlen (sha256 d) = 32.
  Lemma decompress_only k : wf_bytes k -> only [IndexError; ValueError; SquareRootError] (decompress_public_key k).
  Proof.
    intro W. destruct k as [|ch k]; [cbn; tauto|]. apply Forall_inv_tail in W. unfold decompress_public_key.
    destruct (Z.eq_dec (zlen k) 32) as [L|L].
    - destruct (Z.eq_dec ch 2) as [H2|H2]; [|destruct (Z.eq_dec ch 3) as [H3|H3]].
      3: { rewrite (not_compressed S256 Sgy) by (rewrite ?zlen_cons; first [lia|tauto]). cbn; tauto. }
      all: destruct (decompress_23 SECP256k1 Sok Snp Sgy Slen Sp ch k ltac:(tauto) W L) as [(_ & E)|(y & _ & _ & _ & E)]; change (cv_gen SECP256k1) with generator_secp256k1 in E; rewrite E; [cbn; tauto|]; destruct (_ && _); cbn; tauto.
    - destruct (Z.eq_dec ch 4) as [->|H4]; [destruct (Z.eq_dec (zlen k) 64) as [L6|L6]|].
      + assert (k = ztake 32 k ++ zdrop 32 k) as Ek by (symmetry; apply ztake_zdrop). rewrite Ek in W |- *. apply Forall_app in W. destruct W as (WX & WY).
        rewrite (decompress_4 SECP256k1 Sok Snp Sgy) by (assumption || (rewrite ?zlen_ztake, ?zlen_zdrop; lia)). destruct (_ && _); cbn; tauto.
      + rewrite (not_compressed S256 Sgy) by (rewrite ?zlen_cons; intros (? & ?); lia). cbn; tauto.
      + rewrite (not_compressed S256 Sgy) by (rewrite ?zlen_cons; intros (? & ?); lia). cbn; tauto.
  Qed.
  (** Whatever bytes are given as keys: a secret or one of four exceptions, and
      a secret exactly if the public key is readable and the private key is
      one that is no multiple of the order. *)
  Theorem C77_verdict k w : wf_bytes k ->
    only [IndexError; ValueError; SquareRootError; TypeError] (shared_secret sha256 k w) /\
    ((exists s, shared_secret sha256 k w = Ok s) <-> (exists k', decompress_public_key k = Ok k') /\ exists d, privkey_from_wif sha256 w 0x80 = Ok d /\ be_val d mod secp_n <> 0).
  Proof.
    intro W. pose proof (decompress_only k W) as O. destruct (decompress_public_key k) as [k'|e] eqn:D.
    2: { assert (shared_secret sha256 k w = Raise e) as ->. { unfold shared_secret, shared_secret_with. unfold decompress_public_key in D. change (cv_gen SECP256k1) with generator_secp256k1. rewrite D. reflexivity. }
         split; [cbn in O |- *; tauto|]. split; [intros (s & H); discriminate H|intros ((k' & H) & _); discriminate H]. }
    destruct (C31_sound k k' W D) as (x & y & On & _ & U & _). destruct (wif_key sha256 sha256 sha256 w) as (OW & _). destruct (privkey_from_wif sha256 w 128) as [d|e] eqn:E.
    - destruct (C29_wif_accepts_only sha256 (fun m => proj2 (Hsha m)) w d E) as (Wd & Ld & _).
      destruct (secret_verdict SECP256k1 Sok Slen Sp order_big sha256 k k' x y w d D U On E Wd Ld) as [(Z0 & V)|(N0 & x' & y' & _ & V)]; unfold shared_secret; rewrite V.
      + split; [cbn; tauto|]. split; [intros (s & H); discriminate H|]. intros (_ & d' & H & N). exfalso. apply N. assert (d' = d) as -> by congruence. exact Z0.
      + split; [exact Logic.I|]. split; [intros _|intros _; eexists; reflexivity]. split; [eexists; reflexivity|]. exists d. split; [reflexivity|exact N0].
    - assert (shared_secret sha256 k w = Raise e) as ->.
      { pose proof U as (X & Y & -> & WX & WY & LX & LY & VX & VY). unfold shared_secret, shared_secret_with. unfold decompress_public_key in D. change (cv_gen SECP256k1) with generator_secp256k1. rewrite D. cbn [bind]. rewrite slice_1_33 by exact LX.
        rewrite zdrop_33 by exact LX. rewrite !string_to_number_spec by (apply cons_zlen; lia). cbn [bind]. rewrite VX, VY. unfold point_new. assert (contains_point (g_curve generator_secp256k1) x y = true) as -> by (apply (contains_div _ secp_ok); apply On). cbn [bind]. rewrite E. reflexivity. }
      split; [cbn in OW |- *; tauto|]. split; [intros (s & H); discriminate H|intros (_ & d' & H & _); discriminate H].
  Qed.
  (** The public key of 1 is readable, its private key in WIF too. *)
  Example C77_verdict_applies : exists k s, wf_bytes k /\ shared_secret sha256 k (privkey_to_wif sha256 (be_bytes 32 1) [0x80]) = Ok s.
  Proof.
    destruct (key_of S256 Sok Slen Sp _ _ 0 generator_xy) as (k & _ & U). exists k. assert (wf_bytes k) as W.
    { destruct U as (X & Y & -> & WX & WY & _). constructor; [unfold is_byte; lia|apply Forall_app; now split]. }
    destruct (C77_verdict k (privkey_to_wif sha256 (be_bytes 32 1) [0x80]) W) as (_ & V). destruct V as (_ & V). destruct V as (s & E); [|exists s; split; [exact W|exact E]]. split.
    - exists k. exact (C31_accepts k _ _ generator_xy Sgx Sgyn U).
    - exists (be_bytes 32 1). split; [apply (C77_wif sha256 Hsha); split; [apply wf_be_bytes|split; [apply zlen_be_bytes|reflexivity]]|].
      rewrite be_val_be_bytes_small by (split; [discriminate|reflexivity]). vm_compute. discriminate.
  Qed.
End NoSecret.

(** ** Assumptions *)

Print Assumptions C165_public.
Print Assumptions C165_form.
Print Assumptions C165_private.
Print Assumptions C165_letter.
Print Assumptions C165_read.
Print Assumptions C165_checksum.
Print Assumptions C165_zero.
Print Assumptions C165_long.
Print Assumptions C165_points_refuted.
Print Assumptions C165_expected_refuted.
Print Assumptions C45_verdict.
Print Assumptions C77_verdict.
