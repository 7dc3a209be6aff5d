(** C32 and C42 to C49, C78 to C81: wallets on secp256k1.  The hash functions
    are parameters; what is assumed of them is the length of their results.
    What is claimed of points and texts is in EcSpec.v, KeySpec.v and
    PropsKey.v. *)
From Coq Require Import String ZArith Znumtheory List Lia Bool.
From Verif Require Import PyBase PyVal UtilModel Base58Model Base58Proofs DerModel NtModel NtJacobi EcModel EcSpec EcProofs EcOrder EcLib EcParams256k1 AesModel AesModes KeyModel KeySpec KeyProofs KeyCases PropsEc PropsKey PropsDer JsonModel JsonProofs WalletModel WalletProofs HdProofs.
Import ListNotations.
Open Scope string_scope.
Open Scope list_scope.
Open Scope Z_scope.

Notation S256 := SECP256k1.
Lemma Sord : 0 < cv_order S256. Proof. reflexivity. Qed.
Lemma square_symbol y : 0 < y < secp_p -> (symbol y secp_p =? 1) = true <-> is_square y.
Proof. intro H. rewrite Z.eqb_eq. exact (square_iff S256 Sok y H). Qed.
Lemma compressed_octets k x y : sec1_compressed k x y -> wf_bytes k /\ zlen k = 33 /\ k <> [].
Proof. intros (X & -> & WX & LX & _). pose proof (Z.mod_pos_bound y 2 ltac:(lia)). split; [constructor; [unfold is_byte; lia|exact WX]|]. rewrite zlen_cons. split; [lia|discriminate]. Qed.

Section Wallets.
  Variable sha256 sha512 ripemd160 : bytes -> bytes.
  Variable hmac_sha512 : bytes -> bytes -> bytes.
  Hypothesis Hsha : forall d, wf_bytes (sha256 d) /\ zlen (sha256 d) = 32.
  Notation new_address := (address_new sha256 sha512 ripemd160 S256).
  Notation load := (load_from sha256 sha512 ripemd160 S256).
  Notation text_of_wallet := (wallet_text S256).
  Notation child := (hd_child sha256 ripemd160 hmac_sha512 S256).

  (** An address that the constructor returns; 16-bit random draws. *)
  Definition an_address (a : address) : Prop :=
    exists pub priv vcn rand testnet, 0 <= rand < 65536 /\ match pub with Some k => wf_bytes k | None => True end /\ new_address pub priv vcn rand testnet = Ok a.
  (** A wallet that the constructor returns. *)
  Definition an_hd (w : hdwallet) : Prop :=
    exists key chain vcn rand testnet depth parentfp childnum, wf_bytes chain /\ wf_bytes parentfp /\ 0 <= rand < 65536 /\ hd_new S256 key chain vcn rand testnet depth parentfp childnum = Ok w.
  Lemma hd_is w : an_hd w -> hd_made S256 w.
  Proof. intros (key & chain & vcn & rand & testnet & depth & fp & cn & Wc & Wf & Hr & E). apply (hd_new_made sha256 sha512 ripemd160 S256 Hsha key chain vcn rand testnet depth fp cn w Wc Wf Hr E). Qed.
  (** The key pair 1 as an address, compressed or not, and watch-only. *)
  Lemma one_of : point_of 1 (g_x generator_secp256k1) (g_y generator_secp256k1).
  Proof. exact (proj1 (gen_1 S256 Sok Snp Sgy)). Qed.

  (** ** C42: address wallets *)
  (** With a private key, every field is restored, whatever the passphrase. *)
  Theorem C42_private a passphrase : an_address a -> ad_priv a <> None -> wf_bytes passphrase ->
    exists t, text_of_wallet (WAddress a) passphrase = Ok t /\ forall typed rand, load t passphrase typed rand = Ok (WAddress a).
  Proof.
    intros Ma Hp Wp. destruct (address_file sha256 sha512 ripemd160 S256 Hsha Sord Slen a passphrase Ma Wp) as (t & E & _ & L). exists t. split; [exact E|]. intros typed rand. rewrite L. destruct (ad_priv a); [reflexivity|congruence].
  Qed.
  (** So is an uncompressed watch-only address. *)
  Theorem C42_watch_only_partial a passphrase : an_address a -> ad_priv a = None -> ad_compressed a = false -> wf_bytes passphrase ->
    exists t, text_of_wallet (WAddress a) passphrase = Ok t /\ forall p typed rand, load t p typed rand = Ok (WAddress a).
  Proof.
    intros Ma Hp Hc Wp. destruct (address_file sha256 sha512 ripemd160 S256 Hsha Sord Slen a passphrase Ma Wp) as (t & E & _ & L). exists t. split; [exact E|].
    destruct (address_file sha256 sha512 ripemd160 S256 Hsha Sord Slen a [] Ma ltac:(constructor)) as (t0 & E0 & _ & L0).
    destruct (address_facts sha256 sha512 ripemd160 S256 Hsha Sord Slen a Ma) as (_ & _ & _ & _ & (u & Eu & Ea) & _). rewrite Hc in Eu. cbn [public_text] in Eu. assert (u = ad_pub a) as -> by congruence.
    assert (forall q typed rand, load t q typed rand = load t passphrase typed rand) as Q.
    { intros q typed rand. unfold wallet_text, address_dump in E. rewrite Hp in E. cbn [bind] in E.
      unfold load_from. destruct (json_loads t) as [cfg|] eqn:Ej; [|reflexivity]. cbn [bind].
      assert (cfg = [(bs "encrypted", JBool false); (bs "type", JStr (bs "default")); (bs "vcn", JInt (ad_vcn a)); (bs "testnet", JBool (ad_testnet a)); (bs "prvkey", JNull); (bs "pubkey", JStr (hex_encode (ad_pub a)))]) as ->.
      { destruct (address_members sha256 sha512 ripemd160 S256 Hsha Sord Slen a [] Ma ltac:(constructor)) as (c1 & D & Pl & _). unfold address_dump in D. rewrite Hp in D. cbn [bind] in D.
        assert (t = json_dumps c1) as -> by congruence. rewrite (loads_dumps _ Pl) in Ej. congruence. }
      reflexivity. }
    intros p typed rand. rewrite (Q p), L, Hp, (address_watch_only sha256 sha512 ripemd160 S256 Hsha Sord Slen a rand Ma Hp). cbn [bind]. rewrite <- Ea. f_equal. f_equal. rewrite <- Hp at 1. rewrite <- Hc at 1. apply address_eta.
  Qed.
  (** Every compressed watch-only address comes back uncompressed: the text of
      its public key, from which the address is made, has 65 bytes in place of
      33. *)
  Theorem C42_compressed_watch_only_lost a passphrase : an_address a -> ad_priv a = None -> ad_compressed a = true -> wf_bytes passphrase ->
    exists t, text_of_wallet (WAddress a) passphrase = Ok t /\ forall typed rand, exists b, load t passphrase typed rand = Ok (WAddress b) /\ ad_compressed b = false /\ ad_pub b = ad_pub a /\ b <> a /\
      exists k k', public_text (ad_compressed a) (ad_pub a) = Ok k /\ public_text (ad_compressed b) (ad_pub b) = Ok k' /\ zlen k = 33 /\ zlen k' = 65.
  Proof.
    intros Ma Hp Hc Wp. destruct (address_file sha256 sha512 ripemd160 S256 Hsha Sord Slen a passphrase Ma Wp) as (t & E & _ & L). exists t. split; [exact E|]. intros typed rand.
    destruct (address_facts sha256 sha512 ripemd160 S256 Hsha Sord Slen a Ma) as (_ & Wk & Lk & (r & Sk) & (u & Eu & Ea) & _).
    rewrite L, Hp, (address_watch_only sha256 sha512 ripemd160 S256 Hsha Sord Slen a rand Ma Hp). cbn [bind]. eexists. split; [reflexivity|]. cbn [ad_compressed ad_pub public_text]. split; [reflexivity|]. split; [reflexivity|].
    split; [intro B; apply (f_equal ad_compressed) in B; cbn [ad_compressed] in B; congruence|]. exists u, (ad_pub a). split; [exact Eu|]. split; [reflexivity|]. split; [|exact Lk].
    rewrite Hc in Eu. cbn [public_text] in Eu.
    assert (zlen r = 64) as Lr by (rewrite Sk, zlen_cons in Lk; lia). assert (wf_bytes r) as Wr by (rewrite Sk in Wk; now inversion Wk).
    assert (sec1_uncompressed (ad_pub a) (be_val (ztake 32 r)) (be_val (zdrop 32 r))) as U.
    { exists (ztake 32 r), (zdrop 32 r). rewrite ztake_zdrop. split; [exact Sk|]. split; [now apply Forall_ztake|]. split; [now apply Forall_zdrop|]. split; [rewrite zlen_ztake; lia|]. split; [rewrite zlen_zdrop; lia|]. now split. }
    destruct (compress_ok _ _ _ U) as (u' & Eu' & Cu). assert (u' = u) as -> by congruence. now destruct (compressed_octets u _ _ Cu).
  Qed.
  Lemma one_watch_only vcn testnet : exists a k, new_address (Some k) None (Some vcn) 0 testnet = Ok a /\ an_address a /\ ad_priv a = None /\ ad_compressed a = true.
  Proof.
    destruct (text_of S256 Sp _ _ generator_xy) as (k0 & U). destruct (compress_ok k0 _ _ U) as (k & _ & C). pose proof (compressed_octets k _ _ C) as (Wk & Lk & _).
    destruct (decompress_iff S256 Sok Snp Sgy Slen Sp k _ _ Sp4 generator_xy ltac:(reflexivity) ltac:(reflexivity) C) as [((k' & D & U') & _)|(_ & L & _)]; [|exfalso; revert L; vm_compute; intro L; exact (L eq_refl)].
    destruct (compress_ok k' _ _ U') as (k2 & E2 & C2).
    assert (exists a, new_address (Some k) None (Some vcn) 0 testnet = Ok a /\ ad_priv a = None /\ ad_compressed a = true) as (a & Ea & P1 & P2).
    { eexists. split; [|split].
      - unfold address_new, address_finish. destruct C as (X & Ek & _). rewrite Ek in *. change (2 + g_y generator_secp256k1 mod 2) with 2 in *. cbn [Z.eqb Pos.eqb orb negb]. rewrite D. cbn [bind fst snd public_text]. rewrite E2. reflexivity.
      - reflexivity.
      - reflexivity. }
    exists a, k. split; [exact Ea|]. split; [|now split]. exists (Some k), None, (Some vcn), 0, testnet. split; [lia|]. now split.
  Qed.
  (** A file with both keys is refused, whatever they are. *)
  Theorem C42_both_keys cfg passphrase typed rand prv pub k vcn testnet : jfield "prvkey" cfg = Ok prv -> jtruth prv = true -> read_secret cfg prv passphrase typed = Ok k ->
    jfield "pubkey" cfg = Ok pub -> pub <> JNull -> jfield "vcn" cfg = Ok vcn -> jfield "testnet" cfg = Ok testnet ->
    address_load sha256 sha512 ripemd160 S256 cfg passphrase typed rand = Raise ValueError \/
    (k = [] /\ jtruth pub = true /\ address_load sha256 sha512 ripemd160 S256 cfg passphrase typed rand = Raise AssertionError).
  Proof.
    intros E1 T R E2 N E3 E4. unfold address_load. rewrite E1, E2. cbn [bind]. rewrite T, R. cbn [bind snd]. rewrite E3, E4. cbn [bind]. destruct k as [|x k]; [|left; destruct pub; (congruence || reflexivity)]. destruct pub as [|b|z|u]; try congruence; match goal with |- context [jtruth ?j] => destruct (jtruth j) eqn:J end; auto.
  Qed.
  Theorem C42_refuted : ~ (forall a passphrase t, an_address a -> wf_bytes passphrase -> text_of_wallet (WAddress a) passphrase = Ok t ->
    forall typed rand, load t passphrase typed rand = Ok (WAddress a)).
  Proof.
    intro H. destruct (one_watch_only 7 false) as (a & k & _ & Ma & Hp & Hc). destruct (C42_compressed_watch_only_lost a [] Ma Hp Hc ltac:(constructor)) as (t & E & L).
    destruct (L [] 0) as (b & Lb & _ & _ & Nb & _). rewrite (H a [] t Ma ltac:(constructor) E [] 0) in Lb. congruence.
  Qed.
  Lemma one_private (z : bool) vcn testnet : exists a w, new_address None (Some w) (Some vcn) 0 testnet = Ok a /\ an_address a /\ ad_priv a = Some w /\ ad_compressed a = z.
  Proof.
    destruct (private_new S256 Sok Snp Sgy Slen Sp sha256 sha512 ripemd160 Hsha (be_bytes 32 1) 1 _ _ z (Some vcn) 0 testnet (octets_of 1 ltac:(split; [discriminate|reflexivity])) generator_xy one_of) as (pub & t & _ & _ & _ & E).
    eexists _, _. split; [exact E|]. cbn [ad_priv ad_compressed]. split; [|now split]. eexists None, _, (Some vcn), 0, testnet. split; [lia|]. split; [exact I|exact E].
  Qed.
  Example C42_applies : (exists a, an_address a /\ ad_priv a <> None) /\ (exists a, an_address a /\ ad_priv a = None /\ ad_compressed a = true).
  Proof.
    split; [destruct (one_private true 7 false) as (a & w & _ & M & E & _); exists a; split; [exact M|congruence]|]. destruct (one_watch_only 7 false) as (a & k & _ & H). now exists a.
  Qed.

  (** ** C43: HD wallets *)
  Definition same_fields (w w' : hdwallet) : Prop :=
    hd_chain w' = hd_chain w /\ hd_vcn w' = hd_vcn w /\ hd_testnet w' = hd_testnet w /\ hd_depth w' = hd_depth w /\ hd_parent w' = hd_parent w /\ hd_childnum w' = hd_childnum w.
  Lemma same_again w key : same_fields w (hd_again w key).
  Proof. unfold same_fields, hd_again. cbn. repeat (split; [reflexivity|]). split; [|reflexivity]. unfold hd_parent at 1. cbn. unfold hd_parent. now destruct (hd_depth w =? 0). Qed.
  Theorem C43_private w d passphrase : an_hd w -> hd_key w = HPriv d -> wf_bytes passphrase ->
    exists t, text_of_wallet (WHD w) passphrase = Ok t /\ forall typed rand, exists w', load t passphrase typed rand = Ok (WHD w') /\ hd_key w' = HPriv d /\ same_fields w w'.
  Proof.
    intros Mw Ek Wp. pose proof (hd_file sha256 sha512 ripemd160 S256 Hsha Sord Slen w passphrase (hd_is w Mw) Wp) as F. rewrite Ek in F. destruct F as (t & E & _ & L). exists t. split; [exact E|]. intros typed rand.
    exists (hd_again w (HPriv d)). split; [apply L|]. split; [reflexivity|apply same_again].
  Qed.
  (** A watch-only wallet comes back with the point (x, y) only if y is even
      and a square modulo p, or neither; with (x, p - y) otherwise. *)
  Theorem C43_watch_only_partial w x y o passphrase : an_hd w -> hd_key w = HPub (PAff x y o) -> secp_xy x y -> wf_bytes passphrase ->
    exists t, text_of_wallet (WHD w) passphrase = Ok t /\ forall typed rand, exists w' y', load t passphrase typed rand = Ok (WHD w') /\ hd_key w' = HPub (PAff x y' 0) /\ same_fields w w' /\
      ((Z.even y = true <-> is_square y) -> y' = y) /\ (~ (Z.even y = true <-> is_square y) -> y' = secp_p - y /\ y' <> y).
  Proof.
    intros Mw Ek On Wp. pose proof (hd_file sha256 sha512 ripemd160 S256 Hsha Sord Slen w passphrase (hd_is w Mw) Wp) as F. rewrite Ek in F.
    destruct (compress_of S256 Sok Snp Slen Sp x y o On) as (k & Ec & C & Wk & Nk).
    destruct (F k Ec Wk Nk) as (t & E & _ & L). exists t. split; [exact E|]. intros typed rand. pose proof (onc_y generator_secp256k1 Sok x y On) as Hy. destruct On as (Hx & Hy' & D).
    exists (hd_again w (HPub (PAff x (if Bool.eqb (Z.even y) (symbol y secp_p =? 1) then y else secp_p - y) 0))), (if Bool.eqb (Z.even y) (symbol y secp_p =? 1) then y else secp_p - y).
    rewrite L. rewrite (decompress_of S256 Sok Sgy k x y Sp4 (conj Hx (conj Hy' D)) C). split; [reflexivity|]. split; [reflexivity|]. split; [apply same_again|].
    pose proof (square_symbol y (conj Hy (proj2 Hy'))) as Sq.
    assert (secp_p - y <> y) as Ny. { assert (secp_p mod 2 = 1) as O by (vm_compute; reflexivity). intro B. assert (secp_p = 2 * y) as B' by lia. rewrite B', Z.mul_comm, Z.mod_mul in O by lia. discriminate. }
    destruct (Z.even y), (symbol y secp_p =? 1); cbn [Bool.eqb]; split; intro H; try reflexivity; try (split; [reflexivity|exact Ny]).
    - exfalso. apply H. tauto.
    - exfalso. assert (false = true) by (apply Sq, H; reflexivity). discriminate.
    - exfalso. assert (false = true) by (apply H, Sq; reflexivity). discriminate.
    - exfalso. apply H. split; [discriminate|]. intro B. apply Sq in B. discriminate.
  Qed.
  Definition watch_only (x y : Z) : hdwallet := mk_hd (HPub (PAff x y 0)) (repeat 0 32) 7 false 0 (repeat 0 4) 0.
  Lemma watch_only_hd x y : an_hd (watch_only x y).
  Proof.
    exists (HPub (PAff x y 0)), (repeat 0 32), (Some 7), 0, false, None, [], 0. split; [apply Forall_forall; intros b Hb; apply repeat_spec in Hb; subst; unfold is_byte; lia|]. split; [constructor|]. split; [lia|]. reflexivity.
  Qed.
  Theorem C43_refuted : exists w x y, an_hd w /\ secp_xy x y /\ hd_key w = HPub (PAff x y 0) /\
    exists t w' y', text_of_wallet (WHD w) [] = Ok t /\ load t [] [] 0 = Ok (WHD w') /\ hd_key w' = HPub (PAff x y' 0) /\ y' <> y.
  Proof.
    exists (watch_only x6 6), x6, 6. split; [apply watch_only_hd|]. split; [exact x6_xy|]. split; [reflexivity|].
    destruct (C43_watch_only_partial (watch_only x6 6) x6 6 0 [] (watch_only_hd _ _) eq_refl x6_xy ltac:(constructor)) as (t & E & L). destruct (L [] 0) as (w' & y' & El & Ek & _ & _ & N).
    exists t, w', y'. split; [exact E|]. split; [exact El|]. split; [exact Ek|]. apply N. intros [H _]. revert H. cbn [Z.even]. intro H. revert H. intro H. apply (not_square 6); [split; reflexivity|vm_compute; reflexivity|now apply H].
  Qed.
  (** The generator, an even y that is a square?  Either way one of the two
      cases of the theorem applies to it. *)
  Example C43_applies : an_hd (watch_only (g_x generator_secp256k1) (g_y generator_secp256k1)) /\ an_hd (mk_hd (HPriv 5) (repeat 0 32) 7 true 3 [1; 2; 3; 4] 9).
  Proof.
    split; [apply watch_only_hd|]. exists (HPriv 5), (repeat 0 32), (Some 7), 0, true, (Some 3), [1; 2; 3; 4], 9. split; [apply Forall_forall; intros b Hb; apply repeat_spec in Hb; subst; unfold is_byte; lia|].
    split; [repeat (constructor; [unfold is_byte; lia|]); constructor|]. split; [lia|]. vm_compute. reflexivity.
  Qed.

  (** ** C44: private and watch-only derivation *)
  (** A wallet with a private key and the watch-only wallet of its public key. *)
  Definition watches (w w' : hdwallet) : Prop :=
    exists d P x y, hd_key w = HPriv d /\ 0 < d < secp_n /\ hd_key w' = HPub P /\ coords P = Some (x, y) /\ secp_xy x y /\ point_of d x y /\
      hd_chain w = hd_chain w' /\ hd_testnet w = hd_testnet w' /\ hd_depth w = hd_depth w' /\ hd_parent w = hd_parent w' /\ hd_childnum w = hd_childnum w'.
  (** Derivation along a path; each step comes with the draw of the random
      generator. *)
  Fixpoint derive (w : hdwallet) (path : list (Z * Z)) : res hdwallet :=
    match path with [] => Ok w | (i, r) :: path => let! v := child w i r in derive v path end.
  Definition normal (path : list (Z * Z)) : Prop := Forall (fun s => 0 <= fst s < 2 ^ 31) path.
  (** Along the same indices both derivations fail alike, or both succeed and
      the results belong together. *)
  Theorem C44_paths w w' path path' : watches w w' -> normal path -> map fst path' = map fst path ->
    (exists e, derive w path = Raise e /\ derive w' path' = Raise e) \/ (exists v v', derive w path = Ok v /\ derive w' path' = Ok v' /\ watches v v').
  Proof.
    intros H N. revert w w' path' H. induction N as [|(i & r) path Hi N IH]; intros w w' path' H E.
    - destruct path' as [|]; [|discriminate]. right. now exists w, w'.
    - destruct path' as [|(i' & r') path']; [discriminate|]. cbn [map fst] in E. injection E as -> E. cbn [fst] in Hi. cbn [derive].
      destruct (derive_counterpart S256 Sok Snp Sgy sha256 ripemd160 hmac_sha512 w w' i r r' H Hi) as [(e & -> & ->)|(v & v' & -> & -> & C)]; [left; exists e; now split|]. cbn [bind]. exact (IH v v' path' C E).
  Qed.
  (** What belongs together has the same public point, in every text. *)
  Theorem C44_same_public w w' : watches w w' -> exists x y P P', hd_point S256 w = Ok P /\ hd_point S256 w' = Ok P' /\ coords P = Some (x, y) /\ coords P' = Some (x, y) /\
    hd_pubkey S256 w = hd_pubkey S256 w' /\ hd_fingerprint sha256 ripemd160 S256 w = hd_fingerprint sha256 ripemd160 S256 w' /\ hd_extended sha256 S256 w false = hd_extended sha256 S256 w' false.
  Proof.
    intro H. destruct (counterpart_point S256 Sok Snp Sgy w w' H) as (Q & P & x & y & EQ & EP & CP & CQ & On). exists x, y, Q, P. split; [exact EQ|]. split; [exact EP|]. split; [congruence|]. split; [exact CP|].
    unfold hd_pubkey, hd_fingerprint, hd_extended. rewrite EQ, EP. cbn [bind]. rewrite (compress_coords S256 Q P CQ).
    assert (point_strings S256 Q = point_strings S256 P) as ->. { destruct Q as [|qx qy qo], P as [|px py po]; try discriminate. injection CQ as -> ->. reflexivity. }
    destruct H as (d & P' & x' & y' & _ & _ & _ & _ & _ & _ & -> & -> & -> & -> & ->). repeat split; reflexivity.
  Qed.
  (** Its text is the two coordinates, 32 bytes each. *)
  Theorem C44_public_key w w' : watches w w' -> exists x y P k, hd_point S256 w = Ok P /\ coords P = Some (x, y) /\ hd_pubkey S256 w = Ok k /\ sec1_uncompressed (4 :: k) x y.
  Proof.
    intro H. destruct (counterpart_point S256 Sok Snp Sgy w w' H) as (Q & P & x & y & EQ & EP & CP & CQ & On). assert (coords Q = Some (x, y)) as C by congruence. destruct Q as [|qx qy o]; [discriminate|]. injection C as -> ->.
    destruct (key_of S256 Sok Slen Sp x y o On) as (k & Ek & U). pose proof U as (X & Y & -> & R). unfold key_from_point in Ek. destruct (point_strings S256 (PAff x y o)) as [s|] eqn:Es; [|discriminate]. cbn [bind] in Ek.
    exists x, y, (PAff x y o), (X ++ Y). split; [exact EQ|]. split; [reflexivity|]. split; [|exact U]. unfold hd_pubkey. rewrite EQ. cbn [bind]. rewrite Es. cbn [bind]. cbn [app] in Ek. destruct s as (xs, ys). cbn [fst snd] in *. injection Ek as Ek. now rewrite Ek.
  Qed.
  (** The key pair of 1. *)
  Example C44_applies : watches (mk_hd (HPriv 1) (repeat 0 32) 7 false 0 (repeat 0 4) 0) (watch_only (g_x generator_secp256k1) (g_y generator_secp256k1)) /\ normal [(0, 5); (2147483647, 6)].
  Proof.
    split; [|repeat (constructor; [split; [discriminate|reflexivity]|]); constructor]. exists 1, (PAff (g_x generator_secp256k1) (g_y generator_secp256k1) 0), (g_x generator_secp256k1), (g_y generator_secp256k1).
    split; [reflexivity|]. split; [split; reflexivity|]. split; [reflexivity|]. split; [reflexivity|]. split; [exact generator_xy|]. split; [exact one_of|]. repeat split; reflexivity.
  Qed.

  (** ** C45: what cannot be derived *)
  Theorem C45_hardened w P i r : hd_key w = HPub P -> 2 ^ 31 <= i < 2 ^ 32 -> child w i r = Raise PlainException.
  Proof. intros E Hi. unfold hd_child. destruct (Z.leb_spec 0 i); [|lia]. destruct (Z.leb_spec i (2 ^ 32 - 1)); [|lia]. cbn [andb negb]. rewrite hardened by exact Hi. cbn [negb]. now rewrite E. Qed.
  Theorem C45_index w i r : ~ 0 <= i < 2 ^ 32 -> child w i r = Raise AssertionError.
  Proof. intro H. unfold hd_child. destruct (Z.leb_spec 0 i); [|reflexivity]. destruct (Z.leb_spec i (2 ^ 32 - 1)); [lia|reflexivity]. Qed.
  Theorem C45_depth w i r : 255 <= hd_depth w -> exists e, child w i r = Raise e.
  Proof.
    intro H. destruct (Z.le_gt_cases 0 i) as [A|A]; [|exists AssertionError; apply C45_index; lia]. destruct (Z.lt_ge_cases i (2 ^ 32)) as [B|B]; [|exists AssertionError; apply C45_index; lia].
    unfold hd_child. destruct (Z.leb_spec 0 i); [|lia]. destruct (Z.leb_spec i (2 ^ 32 - 1)); [|lia]. cbn [andb negb]. destruct (Z.ltb_spec (hd_depth w) 255); [lia|]. destruct (negb _), (hd_key w); eexists; reflexivity.
  Qed.
  (** So a chain of derivations has at most 255 steps. *)
  Theorem C45_path_length w path v : derive w path = Ok v -> 0 <= hd_depth w -> hd_depth v = hd_depth w + zlen path /\ (path <> [] -> hd_depth v <= 255).
  Proof.
    revert w. induction path as [|(i & r) path IH]; intros w H D; [cbn in H; injection H as ->; split; [change (zlen []) with 0; lia|congruence]|]. cbn [derive] in H. destruct (child w i r) as [a|] eqn:H0; [|discriminate]. cbn [bind] in H.
    assert (hd_depth a = hd_depth w + 1 /\ hd_depth w < 255) as (Da & Dw).
    { destruct (Z.lt_ge_cases (hd_depth w) 255) as [L|L]; [|destruct (C45_depth w i r L) as (e & Ee); congruence]. split; [|exact L].
      unfold hd_child in H0. destruct (negb (_ && _)); [discriminate|].
      assert (forall key ch fp, hd_new S256 key ch None r (hd_testnet w) (Some (hd_depth w + 1)) fp i = Ok a -> hd_depth a = hd_depth w + 1) as K.
      { intros key ch fp E. unfold hd_new in E. bind_inv E. cbv beta zeta in E. destruct (Z.eqb_spec (zlen ch) 32); cbn [negb] in E; [|discriminate]. destruct (_ <? 256); [|discriminate]. injection E as <-. reflexivity. }
      destruct (negb (Z.land i 2147483648 =? 0)), (hd_key w); try discriminate; destruct (negb (hd_depth w <? 255)); try discriminate; bind_inv H0; bind_inv H0; bind_inv H0; (destruct (_ <=? _); [discriminate|]); bind_inv H0; bind_inv H0; eapply K; exact H0. }
    destruct (IH a H ltac:(lia)) as (E1 & E2). rewrite zlen_cons. split; [lia|]. intros _. destruct path as [|s path]; [change (zlen []) with 0 in *; lia|apply E2; discriminate].
  Qed.

  (** ** C46: extended keys *)
  (** The key of the wallet is a key of secp256k1. *)
  Definition key_ok (w : hdwallet) : Prop :=
    match hd_key w with HPriv d => 0 < d < secp_n | HPub P => exists x y, coords P = Some (x, y) /\ secp_xy x y end.
  Definition fields_ok (w : hdwallet) : Prop :=
    key_ok w /\ wf_bytes (hd_chain w) /\ zlen (hd_chain w) = 32 /\ 0 <= hd_depth w < 256 /\ wf_bytes (hd_parent w) /\ zlen (hd_parent w) = 4 /\ 0 <= hd_childnum w < 2 ^ 32.
  (** The layout of BIP-32. *)
  Definition bip32_text (version depth : Z) (fingerprint : bytes) (childnum : Z) (chain data : bytes) : bytes :=
    encode_check sha256 (be_bytes 4 version ++ [depth] ++ fingerprint ++ be_bytes 4 childnum ++ chain ++ data).
  Lemma depth_text d : 0 <= d < 256 -> number_to_string d (2 ^ 8 - 1) = Ok [d].
  Proof.
    intro H. rewrite DerProofs.number_to_string_spec by lia. change (orderlen (2 ^ 8 - 1)) with 1. destruct (Z.ltb_spec d 0); [lia|]. change (256 ^ 1) with 256. destruct (Z.ltb_spec d 256); [|lia].
    change (Z.to_nat 1) with 1%nat. unfold be_bytes. cbn. now rewrite Z.mod_small by lia.
  Qed.
  Lemma point_ok w : key_ok w -> exists x y o, hd_point S256 w = Ok (PAff x y o) /\ secp_xy x y /\ match hd_key w with HPriv d => point_of d x y | HPub P => coords P = Some (x, y) end.
  Proof.
    unfold key_ok, hd_point. destruct (hd_key w) as [d|P].
    - intro H. destruct (gen_mul_nz S256 Sok Snp Sgy d H) as (x & y & o & E & On & M & _). exists x, y, o. auto.
    - intros (x & y & E & On). destruct P as [|px py po]; [discriminate|]. injection E as -> ->. now exists x, y, po.
  Qed.
  Theorem C46_public_text_partial w : fields_ok w -> exists x y P k, hd_point S256 w = Ok P /\ coords P = Some (x, y) /\ secp_xy x y /\ sec1_compressed k x y /\
    hd_extended sha256 S256 w false = Ok (bip32_text (if hd_testnet w then 0x043587CF else 0x0488B21E) (hd_depth w) (hd_parent w) (hd_childnum w) (hd_chain w) k).
  Proof.
    intros (K & Wc & Lc & Hd & Wp & Lp & Hn). destruct (point_ok w K) as (x & y & o & EP & On & _). destruct (compress_of S256 Sok Snp Slen Sp x y o On) as (k & Ek & C & _).
    exists x, y, (PAff x y o), k. do 4 (split; [first [assumption|reflexivity]|]). unfold hd_extended. rewrite index_text by (destruct (hd_testnet w); split; [discriminate|reflexivity|discriminate|reflexivity]).
    rewrite depth_text, index_text by assumption. rewrite EP. cbn [bind]. rewrite Ek. reflexivity.
  Qed.
  Lemma key_octets d : 0 < d < secp_n -> number_to_string d (cv_order S256) = Ok (be_bytes 32 d) /\ be_val (be_bytes 32 d) = d.
  Proof.
    intro H. destruct (octets_of d) as (_ & _ & V). { split; [lia|]. apply Z.lt_trans with secp_n; [lia|reflexivity]. } split; [|exact V].
    destruct (hd_secret S256 Sord Slen d H) as (s & E & W & L & V' & _). rewrite E. f_equal. rewrite <- (be_bytes_be_val s W) at 1. rewrite V'. f_equal. unfold zlen in L. lia.
  Qed.
  Theorem C46_private_text_partial w d : fields_ok w -> hd_key w = HPriv d ->
    hd_extended sha256 S256 w true = Ok (bip32_text (if hd_testnet w then 0x04358394 else 0x0488ADE4) (hd_depth w) (hd_parent w) (hd_childnum w) (hd_chain w) ([0] ++ be_bytes 32 d)).
  Proof.
    intros (K & Wc & Lc & Hd & Wp & Lp & Hn) Ek. unfold key_ok in K. rewrite Ek in K. unfold hd_extended. rewrite index_text by (destruct (hd_testnet w); split; [discriminate|reflexivity|discriminate|reflexivity]).
    rewrite depth_text, index_text by assumption. rewrite Ek. cbn [bind]. destruct (key_octets d K) as (-> & _). reflexivity.
  Qed.
  Lemma app_split (a b a' b' : bytes) : a ++ b = a' ++ b' -> zlen a = zlen a' -> a = a' /\ b = b'.
  Proof.
    intros E L. assert (a = a') as <-. { rewrite <- (ztake_app_exact a b (zlen a)), <- (ztake_app_exact a' b' (zlen a)) by lia. now rewrite E. } split; [reflexivity|]. now apply app_inv_head in E.
  Qed.
  Lemma be4 a : 0 <= a < 2 ^ 32 -> be_val (be_bytes 4 a) = a. Proof. intro H. apply be_val_be_bytes_small. exact H. Qed.
  Lemma bip32_inj v d f n c k v' d' f' n' c' k' : 0 <= v < 2 ^ 32 -> 0 <= v' < 2 ^ 32 -> 0 <= n < 2 ^ 32 -> 0 <= n' < 2 ^ 32 -> 0 <= d < 256 -> 0 <= d' < 256 -> zlen f = 4 -> zlen f' = 4 -> zlen c = 32 -> zlen c' = 32 ->
    wf_bytes f -> wf_bytes f' -> wf_bytes c -> wf_bytes c' -> wf_bytes k -> wf_bytes k' ->
    bip32_text v d f n c k = bip32_text v' d' f' n' c' k' -> v = v' /\ d = d' /\ f = f' /\ n = n' /\ c = c' /\ k = k'.
  Proof.
    intros Hv Hv' Hn Hn' Hd Hd' Lf Lf' Lc Lc' Wf Wf' Wc Wc' Wk Wk' E. unfold bip32_text in E. apply (encode_check_inj sha256) in E.
    - apply app_split in E; [|now rewrite !zlen_be_bytes]. destruct E as (E1 & E). apply app_split in E; [|reflexivity]. destruct E as (E2 & E). apply app_split in E; [|lia]. destruct E as (E3 & E). apply app_split in E; [|now rewrite !zlen_be_bytes]. destruct E as (E4 & E).
      apply app_split in E; [|lia]. destruct E as (E5 & E6). apply (f_equal be_val) in E1. apply (f_equal be_val) in E4. rewrite !be4 in * by assumption. injection E2 as E2. repeat split; assumption.
    - intro x. destruct (Hsha x). lia.
    - intro x. now destruct (Hsha x).
    - repeat (first [assumption|apply wf_be_bytes|apply wf_bytes_app; split|constructor; [unfold is_byte; lia|constructor]]).
    - repeat (first [assumption|apply wf_be_bytes|apply wf_bytes_app; split|constructor; [unfold is_byte; lia|constructor]]).
  Qed.
  (** x and the parity of y determine the point. *)
  Lemma parity_point x y x' y' k : secp_xy x y -> secp_xy x' y' -> sec1_compressed k x y -> sec1_compressed k x' y' -> x = x' /\ y = y'.
  Proof.
    intros On On' (X & -> & _ & _ & VX) (X' & E & _ & _ & VX'). pose proof (f_equal (hd 0) E) as Ep. pose proof (f_equal (@tl Z) E) as Et. cbn [hd tl] in Ep, Et. subst X'. clear E. assert (x' = x) as -> by congruence. split; [reflexivity|]. assert (y mod 2 = y' mod 2) as Pa by lia. clear Ep.
    destruct On as (_ & Hy & D), On' as (_ & Hy' & D'). pose proof (ecp secp secp_ok) as Pp.
    assert (c_p secp | (y - y') * (y + y')) as Dv. { replace ((y - y') * (y + y')) with ((y * y - (x * x * x + c_a secp * x + c_b secp)) - (y' * y' - (x * x * x + c_a secp * x + c_b secp))) by ring. now apply Z.divide_sub_r. }
    apply prime_mult in Dv; [|exact Pp]. assert (c_p secp mod 2 = 1) as Podd by (vm_compute; reflexivity). set (p := c_p secp) in *. assert (2 < p) by (unfold p; reflexivity).
    destruct Dv as [(q & Q)|(q & Q)].
    - assert (q = 0) by nia. lia.
    - assert (q = 0 \/ q = 1) as [->| ->] by nia; [lia|]. exfalso. assert (p = y + y') as -> by lia. rewrite Z.add_mod, Pa, <- Z.add_mod in Podd by lia. replace (y' + y') with (y' * 2) in Podd by ring. rewrite Z.mod_mul in Podd by lia. discriminate.
  Qed.
  (** The extended text determines the wallet (but for vcn, which it leaves
      out). *)
  Theorem C46_determines_partial w w' include_prv t : fields_ok w -> fields_ok w' -> hd_extended sha256 S256 w include_prv = Ok t -> hd_extended sha256 S256 w' include_prv = Ok t ->
    hd_testnet w = hd_testnet w' /\ hd_depth w = hd_depth w' /\ hd_parent w = hd_parent w' /\ hd_childnum w = hd_childnum w' /\ hd_chain w = hd_chain w' /\
    (if include_prv then exists d, hd_key w = HPriv d /\ hd_key w' = HPriv d
     else exists P P' x y, hd_point S256 w = Ok P /\ hd_point S256 w' = Ok P' /\ coords P = Some (x, y) /\ coords P' = Some (x, y)).
  Proof.
    intros F F' E E'. pose proof F as (K & Wc & Lc & Hd & Wp & Lp & Hn). pose proof F' as (K' & Wc' & Lc' & Hd' & Wp' & Lp' & Hn').
    destruct include_prv.
    - destruct (hd_key w) as [d|P] eqn:Ek; [|unfold hd_extended in E; rewrite Ek in E; bind_inv E; bind_inv E; bind_inv E; discriminate].
      destruct (hd_key w') as [d'|P'] eqn:Ek'; [|unfold hd_extended in E'; rewrite Ek' in E'; bind_inv E'; bind_inv E'; bind_inv E'; discriminate].
      rewrite (C46_private_text_partial w d F Ek) in E. rewrite (C46_private_text_partial w' d' F' Ek') in E'. unfold key_ok in K, K'. rewrite Ek in K. rewrite Ek' in K'.
      assert (forall A B : bytes, Ok A = Ok t -> Ok B = Ok t -> A = B) as Oi by (intros; congruence). pose proof (Oi _ _ E E') as X. apply bip32_inj in X; try assumption; try (destruct (hd_testnet w); split; [discriminate|reflexivity|discriminate|reflexivity]); try (destruct (hd_testnet w'); split; [discriminate|reflexivity|discriminate|reflexivity]); try (constructor; [unfold is_byte; lia|apply wf_be_bytes]).
      destruct X as (Ev & -> & -> & -> & -> & Ed). split; [destruct (hd_testnet w), (hd_testnet w'); first [reflexivity|discriminate]|]. do 4 (split; [reflexivity|]). exists d. split; [reflexivity|]. f_equal.
      apply app_inv_head in Ed. rewrite <- (proj2 (key_octets d K)), <- (proj2 (key_octets d' K')). now rewrite Ed.
    - destruct (C46_public_text_partial w F) as (x & y & P & k & EP & CP & On & C & Et). destruct (C46_public_text_partial w' F') as (x' & y' & P' & k' & EP' & CP' & On' & C' & Et').
      rewrite Et in E. rewrite Et' in E'. assert (forall A B : bytes, Ok A = Ok t -> Ok B = Ok t -> A = B) as Oi by (intros; congruence). pose proof (Oi _ _ E E') as X. apply bip32_inj in X; try assumption; try (destruct (hd_testnet w); split; [discriminate|reflexivity|discriminate|reflexivity]); try (destruct (hd_testnet w'); split; [discriminate|reflexivity|discriminate|reflexivity]); try (eapply compressed_octets; eassumption).
      destruct X as (Ev & -> & -> & -> & -> & <-). split; [destruct (hd_testnet w), (hd_testnet w'); first [reflexivity|discriminate]|]. do 4 (split; [reflexivity|]). destruct (parity_point x y x' y' k On On' C C') as (<- & <-). now exists P, P', x, y.
  Qed.
  (** But nothing can be read back. *)
  Theorem C46_never_reads s : from_extended_key sha256 S256 s = Raise TypeError.
  Proof. reflexivity. Qed.
  (** Not even if [b58decode] took the length it is called with. *)
  Theorem C46_never_reads_even_if decode s : exists e, from_extended_with sha256 S256 decode s = Raise e.
  Proof.
    unfold from_extended_with. assert (forall A B (m : res A) (f : A -> res B), (forall a, exists e, f a = Raise e) -> exists e, bind m f = Raise e) as R. { intros A B [a|e] f H; [apply H|now exists e]. }
    apply R. intros [|b decoded]; [now eexists|]. cbv zeta. destruct (negb _); [now eexists|]. apply R. intro version. apply R. intro depth. apply R. intro childnum. apply R. intro key. now eexists.
  Qed.
  Theorem C46_refuted : ~ (forall w include_prv t, fields_ok w -> hd_extended sha256 S256 w include_prv = Ok t -> exists w', from_extended_key sha256 S256 t = Ok w' /\ same_fields w w').
  Proof.
    intro H. set (w := watch_only (g_x generator_secp256k1) (g_y generator_secp256k1)).
    assert (fields_ok w) as F. { split; [exists (g_x generator_secp256k1), (g_y generator_secp256k1); split; [reflexivity|exact generator_xy]|]. cbn. repeat split; try lia; apply Forall_forall; intros b Hb; apply repeat_spec in Hb || (cbn in Hb); unfold is_byte; lia. }
    destruct (C46_public_text_partial w F) as (x & y & P & k & _ & _ & _ & _ & E). destruct (H w false _ F E) as (w' & B & _). rewrite C46_never_reads in B. discriminate.
  Qed.

  (** ** C47: derived addresses *)
  Definition same_but_vcn (w w' : hdwallet) : Prop :=
    hd_key w' = hd_key w /\ hd_chain w' = hd_chain w /\ hd_testnet w' = hd_testnet w /\ hd_depth w' = hd_depth w /\ hd_parentfp w' = hd_parentfp w /\ hd_childnum w' = hd_childnum w.
  Definition with_vcn (w : hdwallet) (v : Z) : hdwallet := mk_hd (hd_key w) (hd_chain w) v (hd_testnet w) (hd_depth w) (hd_parentfp w) (hd_childnum w).
  Lemma same_with w w' : same_but_vcn w w' -> w' = with_vcn w (hd_vcn w').
  Proof. intros (A & B & C & D & E & F). destruct w, w'. cbn in *. unfold with_vcn. cbn. congruence. Qed.
  Lemma child_draw w i r v : child (with_vcn w v) i r = (let! c := child w i 0 in Ok (with_vcn c r)).
  Proof.
    unfold hd_child, hd_fingerprint, hd_point. cbn [with_vcn hd_key hd_chain hd_testnet hd_depth]. destruct (negb (_ && _)); [reflexivity|].
    assert (forall key ch fp, hd_new S256 key ch None r (hd_testnet w) (Some (hd_depth w + 1)) fp i = (let! c := hd_new S256 key ch None 0 (hd_testnet w) (Some (hd_depth w + 1)) fp i in Ok (with_vcn c r))) as L.
    { intros key ch fp. unfold hd_new. destruct (match key with HPriv d => _ | HPub _ => _ end); [|reflexivity]. cbn [bind]. destruct (negb _); [reflexivity|]. cbv zeta. destruct (_ <? 256); reflexivity. }
    cbv zeta. destruct (negb (Z.land i 2147483648 =? 0)), (hd_key w) as [d|P]; try reflexivity; (destruct (negb (hd_depth w <? 255)); [reflexivity|]);
      repeat match goal with
      | |- (let! x := ?m in _) = _ => destruct m as [?|?]; [cbn [bind]|reflexivity]
      | |- (if ?b then _ else _) = _ => destruct b; [reflexivity|]
      end; apply L.
  Qed.
  (** Draws of the random generator decide nothing but the vcn of the result,
      which is the last draw. *)
  Theorem C47_all_but_vcn_partial w w' path path' : same_but_vcn w w' -> map fst path' = map fst path ->
    (exists e, derive w path = Raise e /\ derive w' path' = Raise e) \/
    (exists v v', derive w path = Ok v /\ derive w' path' = Ok v' /\ same_but_vcn v v' /\ (path <> [] -> hd_vcn v = last (map snd path) 0 /\ hd_vcn v' = last (map snd path') 0)).
  Proof.
    revert w w' path'. induction path as [|(i & r) path IH]; intros w w' path' Sm E; (destruct path' as [|(i' & r') path']; [try discriminate|try discriminate]).
    - right. exists w, w'. split; [reflexivity|]. split; [reflexivity|]. split; [exact Sm|]. congruence.
    - cbn [map fst] in E. injection E as -> E. cbn [derive]. rewrite (same_with w w' Sm), child_draw. assert (child w i r = let! c := child w i 0 in Ok (with_vcn c r)) as -> by (rewrite <- (child_draw w i r (hd_vcn w)); now destruct w).
      destruct (child w i 0) as [c|e]; [|left; exists e; now split]. cbn [bind].
      assert (same_but_vcn (with_vcn c r) (with_vcn c r')) as Sc by (repeat split; reflexivity).
      destruct (IH _ _ path' Sc E) as [(e & -> & ->)|(v & v' & E1 & E2 & Sv & Lv)]; [left; exists e; now split|]. right. exists v, v'. split; [exact E1|]. split; [exact E2|]. split; [exact Sv|]. intros _.
      destruct path as [|s path], path' as [|s' path']; try discriminate E.
      + cbn in E1, E2. injection E1 as <-. injection E2 as <-. now split.
      + destruct (Lv ltac:(discriminate)) as (L1 & L2). split; [exact L1|exact L2].
  Qed.
  Theorem C47_master_partial seed vcn testnet r r' : from_master_seed hmac_sha512 S256 seed (Some vcn) r testnet = from_master_seed hmac_sha512 S256 seed (Some vcn) r' testnet.
  Proof. reflexivity. Qed.
  Lemma derive_app w a b : derive w (a ++ b) = (let! v := derive w a in derive v b).
  Proof. revert w. induction a as [|(i & r) a IH]; intro w; [reflexivity|]. cbn [app derive]. destruct (child w i r); [|reflexivity]. cbn [bind]. apply IH. Qed.
  Lemma child_key_ok w i r v : key_ok w -> child w i r = Ok v -> key_ok v.
  Proof.
    intro K. unfold hd_child. destruct (negb (_ && _)); [discriminate|]. intro H.
    assert (forall key ch fp, hd_new S256 key ch None r (hd_testnet w) (Some (hd_depth w + 1)) fp i = Ok v -> match key with HPub P => exists x y, coords P = Some (x, y) /\ secp_xy x y | _ => True end -> key_ok v) as N.
    { intros key ch fp E Hk. unfold hd_new in E. destruct key as [d|P]; cbn [bind] in E.
      - destruct (Z.ltb_spec 0 d), (Z.ltb_spec d (cv_order S256)); cbn [andb bind] in E; try discriminate. cbv zeta in E. destruct (Z.eqb_spec (zlen ch) 32); cbn [negb] in E; [|discriminate]. destruct (_ <? 256); [|discriminate]. injection E as <-. unfold key_ok. cbn [hd_key]. now split.
      - cbv zeta in E. destruct (Z.eqb_spec (zlen ch) 32); cbn [negb] in E; [|discriminate]. destruct (_ <? 256); [|discriminate]. injection E as <-. exact Hk. }
    assert (forall m, (let! z := string_to_number (ztake 32 m) in if cv_order S256 <=? z then Raise PlainException else
       let! childKey := match hd_key w with HPriv d => let k := (d + z) mod cv_order S256 in if k =? 0 then Raise PlainException else Ok (HPriv k)
                        | HPub P => let! M := ec_mul (g_curve (cv_gen S256)) (gen_point (cv_gen S256)) z in let! Q := ec_add (g_curve (cv_gen S256)) P M in if point_eqb Q PInf then Raise PlainException else Ok (HPub Q) end in
       let! fp := hd_fingerprint sha256 ripemd160 S256 w in hd_new S256 childKey (zdrop 32 m) None r (hd_testnet w) (Some (hd_depth w + 1)) fp i) = Ok v -> key_ok v) as F.
    { intros m E. bind_inv E. destruct (cv_order S256 <=? x); [discriminate|]. bind_inv E. bind_inv E. apply N in E; [exact E|]. unfold key_ok in K. destruct (hd_key w) as [d|P].
      - cbv zeta in H1. destruct ((d + x) mod cv_order S256 =? 0); [discriminate|]. injection H1 as <-. exact I.
      - destruct K as (px & py & CP & On). destruct (gen_mul S256 Sok Snp Sgy x) as (A & EA & OnA & _). rewrite EA in H1. cbn [bind] in H1.
        destruct (add_lib secp secp_ok P A ltac:(rewrite CP; exact On) OnA) as (R & ER & OnR & _). change (g_curve (cv_gen S256)) with secp in H1. rewrite ER in H1. cbn [bind] in H1.
        destruct R as [|rx ry ro]; [discriminate|]. cbn [point_eqb] in H1. injection H1 as <-. now exists rx, ry. }
    destruct (negb (Z.land i 2147483648 =? 0)), (hd_key w) eqn:Ek; try discriminate; (destruct (negb (hd_depth w <? 255)); [discriminate|]); bind_inv H; bind_inv H; cbv zeta in H; exact (F _ H).
  Qed.
  Lemma derive_key_ok w path v : key_ok w -> derive w path = Ok v -> key_ok v.
  Proof. revert w. induction path as [|(i & r) path IH]; intros w K E; [cbn in E; congruence|]. cbn [derive] in E. bind_inv E. exact (IH x (child_key_ok w i r x K H) E). Qed.
  (** So the last draw changes the address. *)
  Theorem C47_addresses_differ w path i r r' v : key_ok w -> 0 <= r < 65536 -> 0 <= r' < 65536 -> r <> r' -> derive w (path ++ [(i, r)]) = Ok v ->
    exists v' a a', derive w (path ++ [(i, r')]) = Ok v' /\ hd_address sha256 sha512 ripemd160 S256 v None = Ok a /\ hd_address sha256 sha512 ripemd160 S256 v' None = Ok a' /\ a <> a'.
  Proof.
    intros K Hr Hr' Nr E. destruct (C47_all_but_vcn_partial w w (path ++ [(i, r)]) (path ++ [(i, r')])) as [(e & B & _)|(v1 & v' & E1 & E2 & Sm & L)]; [repeat split|now rewrite !map_app|congruence|].
    assert (v1 = v) as -> by congruence. destruct L as (L1 & L2); [intro B; now apply app_eq_nil in B|]. rewrite map_app in L1. rewrite map_app in L2. cbn [map snd] in L1, L2. rewrite last_last in L1, L2.
    destruct (point_ok v (derive_key_ok _ _ _ K E)) as (x & y & o & EP & On & _). destruct (compress_of S256 Sok Snp Slen Sp x y o On) as (k & Ek & C & _). rewrite (same_with v v' Sm) in *. cbn [with_vcn hd_vcn] in L2.
    eexists _, _, _. split; [exact E2|]. unfold hd_address. cbn [with_vcn hd_vcn hd_testnet]. assert (hd_point S256 (with_vcn v (hd_vcn v')) = hd_point S256 v) as -> by reflexivity. rewrite EP. cbn [bind]. rewrite Ek. cbn [bind].
    split; [reflexivity|]. split; [reflexivity|]. intro B. unfold publickey_to_address in B. apply (address_inj sha256) in B.
    - destruct B as (_ & B & _). rewrite L1, L2, !Z.mod_small in B by lia. congruence.
    - intro z. destruct (Hsha z). lia.
    - intro z. now destruct (Hsha z).
    - unfold pubkey_digest. apply Hsha.
    - unfold pubkey_digest. apply Hsha.
    - destruct (hd_testnet v); constructor; try constructor; unfold is_byte; lia.
    - destruct (hd_testnet v); constructor; try constructor; unfold is_byte; lia.
    - reflexivity.
  Qed.

  (** ** C48: stopping while saving *)
  Definition a_wallet (w : wallet) : Prop := match w with WAddress a => an_address a | WHD h => an_hd h /\ key_ok h end.
  Definition has_private (w : wallet) : Prop := match w with WAddress a => ad_priv a <> None | WHD h => exists d, hd_key h = HPriv d end.
  (** Equal to the user: the parent fingerprint of a master wallet is never
      shown. *)
  Definition same_wallet (w w' : wallet) : Prop :=
    match w, w' with
    | WAddress a, WAddress b => a = b
    | WHD h, WHD h' => hd_key h' = hd_key h /\ same_fields h h'
    | _, _ => False
    end.
  (** What the file can contain if the process stops at some point of
      [saveTo(file, w, passphrase)]. *)
  Definition can_contain (old : text) (w : wallet) (passphrase : bytes) (f : text) : Prop :=
    match text_of_wallet w passphrase with Ok new => during_save old new f | Raise _ => f = old end.
  Lemma stored w passphrase : a_wallet w -> wf_bytes passphrase -> exists t, text_of_wallet w passphrase = Ok t /\ (0 < List.length t)%nat /\
    (forall n p typed rand, (n < List.length t)%nat -> load (firstn n t) p typed rand = Raise ValueError) /\
    (has_private w -> forall typed rand, exists w', load t passphrase typed rand = Ok w' /\ same_wallet w w').
  Proof.
    intros Mw Wp. assert (forall t : text, (forall typed rand, exists e, load t passphrase typed rand = Ok e) -> (0 < List.length t)%nat) as Ne.
    { intros [|c t] H; [|cbn; lia]. destruct (H [] 0) as (e & B). discriminate B. }
    assert (forall t, text_of_wallet w passphrase = Ok t -> (0 < List.length t)%nat) as Ne'. { intros t E. unfold wallet_text in E. bind_inv E. injection E as <-. unfold json_dumps. rewrite app_length. cbn. lia. }
    destruct w as [a|h].
    - destruct (address_file sha256 sha512 ripemd160 S256 Hsha Sord Slen a passphrase Mw Wp) as (t & E & T & L). exists t. split; [exact E|]. split; [now apply Ne'|]. split; [intros; now apply T|]. cbn [has_private]. intros Hp typed rand. exists (WAddress a). split; [|reflexivity]. rewrite L. destruct (ad_priv a); congruence.
    - destruct Mw as (Mh & K). pose proof (hd_file sha256 sha512 ripemd160 S256 Hsha Sord Slen h passphrase (hd_is h Mh) Wp) as F. destruct (hd_key h) as [d|P] eqn:Ek.
      + destruct F as (t & E & T & L). exists t. split; [exact E|]. split; [now apply Ne'|]. split; [intros; now apply T|]. intros _ typed rand. exists (WHD (hd_again h (HPriv d))). split; [apply L|]. cbn [same_wallet]. split; [now rewrite Ek|apply same_again].
      + unfold key_ok in K. rewrite Ek in K. destruct K as (x & y & CP & On). destruct P as [|px py o]; [discriminate|]. injection CP as -> ->. destruct (compress_of S256 Sok Snp Slen Sp x y o On) as (k & Ec & C & Wk & Nk).
        destruct (F k Ec Wk Nk) as (t & E & T & _). exists t. split; [exact E|]. split; [now apply Ne'|]. split; [intros; now apply T|]. cbn [has_private]. intros (d & B). congruence.
  Qed.
  (** The file then holds the old contents, or the new wallet, or something
      that no passphrase loads. *)
  Theorem C48_crash_partial old w passphrase f : a_wallet w -> has_private w -> wf_bytes passphrase -> can_contain old w passphrase f ->
    f = old \/ (forall typed rand, exists w', load f passphrase typed rand = Ok w' /\ same_wallet w w') \/ (forall p typed rand, load f p typed rand = Raise ValueError).
  Proof.
    intros Mw Hp Wp H. destruct (stored w passphrase Mw Wp) as (t & E & _ & T & L). unfold can_contain in H. rewrite E in H. destruct H as [|n]; [now left|]. right.
    destruct (Nat.lt_ge_cases n (List.length t)) as [Hn|Hn]; [right; intros; now apply T|]. left. intros typed rand. rewrite firstn_all2 by lia. now apply L.
  Qed.
  (** The third case happens, for every wallet that is saved: old and new
      wallet are both lost. *)
  Theorem C48_lost old w passphrase : a_wallet w -> wf_bytes passphrase -> exists f, can_contain old w passphrase f /\ forall p typed rand, load f p typed rand = Raise ValueError.
  Proof.
    intros Mw Wp. destruct (stored w passphrase Mw Wp) as (t & E & Nt & T & _). exists (firstn 0 t). split; [unfold can_contain; rewrite E; apply written|]. intros. now apply T.
  Qed.
  Theorem C48_refuted : ~ (forall old w passphrase f, a_wallet w -> has_private w -> wf_bytes passphrase -> can_contain old w passphrase f ->
    f = old \/ forall typed rand, exists w', load f passphrase typed rand = Ok w' /\ same_wallet w w').
  Proof.
    intro H. destruct (one_private true 7 false) as (a & w & _ & Ma & Hp & _). destruct (C48_lost (bs "{}") (WAddress a) [] Ma ltac:(constructor)) as (f & Cf & Lf).
    destruct (H (bs "{}") (WAddress a) [] f Ma ltac:(cbn; congruence) ltac:(constructor) Cf) as [-> |L].
    - pose proof (Lf [] [] 0) as B. vm_compute in B. discriminate B.
    - destruct (L [] 0) as (w' & B & _). rewrite Lf in B. discriminate B.
  Qed.
  (** Cutting a file anywhere is noticed. *)
  Theorem C48_truncated w passphrase t n p typed rand : a_wallet w -> wf_bytes passphrase -> text_of_wallet w passphrase = Ok t -> (n < List.length t)%nat -> load (firstn n t) p typed rand = Raise ValueError.
  Proof. intros Mw Wp E Hn. destruct (stored w passphrase Mw Wp) as (t' & E' & _ & T & _). assert (t' = t) as -> by congruence. now apply T. Qed.

  (** ** C49: wrong passphrases *)
  (** Only the first 16 bytes of a passphrase count, and zero bytes at its end
      do not. *)
  Theorem C49_ignored_bytes_refuted t p q q' typed rand : zlen p = 16 -> load t (p ++ q) typed rand = load t (p ++ q') typed rand.
  Proof.
    intro L. assert (pass_key (p ++ q) = pass_key (p ++ q')) as E. { unfold pass_key. now rewrite !ztake_app_exact by lia. }
    assert (forall d, wallet_decrypt d (p ++ q) = wallet_decrypt d (p ++ q')) as D by (intro d; unfold wallet_decrypt; now rewrite E).
    assert (forall cfg v, read_secret cfg v (p ++ q) typed = read_secret cfg v (p ++ q') typed) as R. { intros cfg v. unfold read_secret. destruct p as [|b p]; [discriminate|]. cbn [app]. destruct (jbytes v); [|reflexivity]. cbn [bind]. now rewrite D. }
    assert (forall cfg, hd_load S256 cfg (p ++ q) typed rand = hd_load S256 cfg (p ++ q') typed rand) as Lh. { intro cfg. unfold hd_load. destruct (jfield "prvkey" cfg) as [prv|]; [|reflexivity]. cbn [bind]. rewrite R. reflexivity. }
    assert (forall cfg, address_load sha256 sha512 ripemd160 S256 cfg (p ++ q) typed rand = address_load sha256 sha512 ripemd160 S256 cfg (p ++ q') typed rand) as La.
    { intro cfg. unfold address_load. destruct (jfield "pubkey" cfg) as [pub|]; [|reflexivity]. cbn [bind]. destruct (jfield "prvkey" cfg) as [prv|]; [|reflexivity]. cbn [bind]. rewrite R. reflexivity. }
    unfold load_from. destruct (json_loads t) as [cfg|]; cbn [bind]; [|reflexivity]. rewrite Lh, La. reflexivity.
  Qed.
  (** A private key that an address file gives, with any passphrase, passed the
      checksum of its text. *)
  Theorem C49_address_partial t passphrase typed rand a w : load t passphrase typed rand = Ok (WAddress a) -> ad_priv a = Some w ->
    exists k, wf_bytes k /\ zlen k = 32 /\ (w = privkey_to_wif sha256 k [0x80] \/ w = privkey_to_wif sha256 (k ++ [1]) [0x80]).
  Proof.
    intros H Ep. assert (forall pub priv vcn testnet, new_address pub priv vcn rand testnet = Ok a -> exists k, wf_bytes k /\ zlen k = 32 /\ (w = privkey_to_wif sha256 k [0x80] \/ w = privkey_to_wif sha256 (k ++ [1]) [0x80])) as N.
    { intros pub priv vcn testnet E. unfold address_new in E.
      assert (forall pv q z, address_finish sha256 sha512 ripemd160 S256 pv q z vcn rand testnet = Ok a -> ad_priv a = pv) as Fp.
      { intros pv q z F. unfold address_finish in F. destruct q as [|ch q]; [discriminate|]. bind_inv F. cbv zeta in F. bind_inv F. injection F as <-. reflexivity. }
      destruct priv as [[|ch r]|]; [apply Fp in E; congruence| |apply Fp in E; congruence]. destruct pub; [discriminate|]. destruct (_ && _); [discriminate|].
      destruct (privkey_from_wif sha256 (ch :: r) 0x80) as [k|] eqn:Ek; [|discriminate]. cbn [bind] in E. bind_inv E. bind_inv E. bind_inv E. apply Fp in E. assert (w = ch :: r) as -> by congruence.
      exists k. apply (wif_inverse sha256); [intro z; destruct (Hsha z); lia|exact Ek]. }
    unfold load_from in H. bind_inv H. destruct (jget (bs "type") x) as [[| | |tp]|]; try discriminate. destruct (bytes_eqb tp (bs "HD")); [bind_inv H; discriminate|]. destruct (bytes_eqb tp (bs "default")); [|discriminate].
    bind_inv H. injection H as ->. unfold address_load in H1. bind_inv H1. bind_inv H1. bind_inv H1. bind_inv H1. bind_inv H1. bind_inv H1.
    destruct (snd x2) as [[|b s]|], x0; try discriminate; try (destruct (jtruth _) in H1; discriminate); apply given_vcn_ok in H1; destruct H1 as (v & _ & H1); exact (N _ _ _ _ H1).
  Qed.

  (** ** C32 for wallets *)
  (** A signature that an address returns is accepted by the address, if the x
      of the nonce's point is below n, and refused otherwise. *)
  Theorem C32_address_partial a data nonce sig : an_address a -> address_sign sha256 S256 a data nonce = Ok sig ->
    exists k r y', nonce = Ok k /\ 1 <= k < secp_n /\ point_of k r y' /\ address_verify sha256 S256 a data sig = Ok (r <? secp_n).
  Proof.
    intros Ma H. unfold address_sign in H. destruct (ad_priv a) as [w|] eqn:Ep; [|discriminate].
    destruct (private_key S256 Sok Snp Sgy Slen Sp sha256 sha512 ripemd160 Hsha a w Ma Ep) as (key & d & x & y & Ek & O & On & M & U & _). rewrite Ek in H. cbn [bind] in H.
    destruct (sign_verify S256 Sok Snp Sgy Slen Sp sha256 Hsha data key d nonce sig O H) as (k & x' & y0 & r & y' & En & Hk & _ & On' & Hx & Hy & M' & Mk & V).
    pose proof (mul_unique S256 Sok Snp Sgy d _ _ On' On M' M) as E. injection E as -> ->. exists k, r, y'. split; [exact En|]. split; [exact Hk|]. split; [exact Mk|].
    apply (V (ad_pub a) (ad_pub a)); [|exact U]. exact (text_ok S256 Sok Snp Sgy (ad_pub a) x y U On Hx Hy).
  Qed.
  (** So for HD wallets, and for the watch-only wallet of the same key. *)
  Theorem C32_hd_partial w d data nonce sig : hd_key w = HPriv d -> 0 < d < secp_n -> hd_sign sha256 S256 w data nonce = Ok sig ->
    exists k r y', nonce = Ok k /\ 1 <= k < secp_n /\ point_of k r y' /\ hd_verify sha256 S256 w data sig = Ok (r <? secp_n) /\ forall w', watches w w' -> hd_verify sha256 S256 w' data sig = Ok (r <? secp_n).
  Proof.
    intros Ek Hd H. unfold hd_sign, hd_prvkey in H. rewrite Ek in H. destruct (key_octets d Hd) as (En & _). rewrite En in H. cbn [bind] in H.
    assert (octets32 (be_bytes 32 d) d) as O. { apply octets_of. split; [lia|]. apply Z.lt_trans with secp_n; [lia|reflexivity]. }
    assert (sign_with sha256 S256 data (be_bytes 32 d) nonce = Ok sig) as Hs by (destruct (be_bytes 32 d); [discriminate|exact H]). clear H.
    destruct (sign_verify S256 Sok Snp Sgy Slen Sp sha256 Hsha data _ d nonce sig O Hs) as (k & x & y & r & y' & Ek' & Hk & _ & On & Hx & Hy & M & Mk & V). exists k, r, y'. split; [exact Ek'|]. split; [exact Hk|]. split; [exact Mk|].
    assert (forall P, coords P = Some (x, y) -> (let! key := key_from_point S256 P in verify_with sha256 S256 data key sig) = Ok (r <? secp_n)) as VP.
    { intros P CP. destruct P as [|px py o]; [discriminate|]. injection CP as -> ->. destruct (key_of S256 Sok Slen Sp x y o On) as (key & Eq & U). rewrite Eq. cbn [bind]. apply (V key key); [|exact U]. exact (text_ok S256 Sok Snp Sgy key x y U On Hx Hy). }
    destruct (gen_mul_nz S256 Sok Snp Sgy d Hd) as (x1 & y1 & o & EP & On1 & M1 & _). pose proof (mul_unique S256 Sok Snp Sgy d _ _ On1 On M1 M) as E. injection E as -> ->.
    unfold hd_verify, hd_point. rewrite Ek, EP. cbn [bind]. split; [exact (VP (PAff x y o) eq_refl)|]. intros w' (d' & P & x' & y2 & Ed & _ & EP' & CP & On' & M' & _). rewrite EP'. cbn [bind]. apply VP. rewrite CP.
    assert (d' = d) as -> by congruence. exact (mul_unique S256 Sok Snp Sgy d _ _ On' On M' M).
  Qed.

  (** ** C79: compressing and decompressing addresses *)
  (** With a private key: the key pair, vcn and network are kept, and the other
      form gives the first one back. *)
  Theorem C79_private a w : an_address a -> ad_priv a = Some w ->
    exists b, (if ad_compressed a then address_decompress sha256 sha512 ripemd160 S256 a else address_compress sha256 sha512 ripemd160 S256 a) = Ok b /\
      an_address b /\ ad_compressed b = negb (ad_compressed a) /\ ad_pub b = ad_pub a /\ ad_vcn b = ad_vcn a /\ ad_testnet b = ad_testnet a /\
      (exists k w', ad_priv b = Some w' /\ privkey_from_wif sha256 w 0x80 = Ok k /\ privkey_from_wif sha256 w' 0x80 = Ok k) /\
      (if ad_compressed b then address_decompress sha256 sha512 ripemd160 S256 b else address_compress sha256 sha512 ripemd160 S256 b) = Ok a.
  Proof. exact (private_recode S256 Sok Snp Sgy Slen Sp sha256 sha512 ripemd160 Hsha a w). Qed.
  Theorem C79_same a : (ad_compressed a = true -> address_compress sha256 sha512 ripemd160 S256 a = Ok a) /\ (ad_compressed a = false -> address_decompress sha256 sha512 ripemd160 S256 a = Ok a).
  Proof. unfold address_compress, address_decompress. split; intros ->; reflexivity. Qed.
  Example C79_applies z : exists a w, an_address a /\ ad_priv a = Some w /\ ad_compressed a = z.
  Proof. destruct (one_private z 7 true) as (a & w & _ & H). now exists a, w. Qed.
  (** Without: as far as the compressed public key can be read. *)
  Theorem C79_watch_only_partial a x y : an_address a -> ad_priv a = None -> ad_compressed a = false -> sec1_uncompressed (ad_pub a) x y -> secp_xy x y -> x < secp_n -> y < secp_n -> secp_p - y < secp_n \/ is_square y ->
    exists b, address_compress sha256 sha512 ripemd160 S256 a = Ok b /\ ad_compressed b = true /\ ad_pub b = ad_pub a /\ ad_vcn b = ad_vcn a /\ ad_testnet b = ad_testnet a /\ ad_priv b = None /\
      address_decompress sha256 sha512 ripemd160 S256 b = Ok a.
  Proof.
    intros Ma Ep Ec U On Hx Hy R. destruct (C31_round_trip_partial (ad_pub a) x y On Hx Hy U R) as (k & Ek & C & D). change (decompress_with (cv_gen S256) k = Ok (ad_pub a)) in D.
    destruct (address_facts sha256 sha512 ripemd160 S256 Hsha Sord Slen a Ma) as (Hv & _ & Lk & Sk & (t & Et & Ea) & _). rewrite Ec in Et. cbn [public_text] in Et. assert (t = ad_pub a) as -> by congruence.
    eexists. split; [|split; [|split; [|split; [|split; [|split]]]]].
    - unfold address_compress. rewrite Ec, Ep, Ek. cbn [bind]. unfold address_new, address_finish. destruct (compressed_octets k x y C) as (_ & _ & Nk). destruct C as (X & Ex & _). destruct k as [|ch k]; [congruence|].
      assert (ch = 2 + y mod 2) as Hch by congruence. pose proof (Z.mod_pos_bound y 2 ltac:(lia)). assert (ch =? 4 = false) as -> by lia. assert ((ch =? 2) || (ch =? 3) = true) as -> by lia. rewrite D. cbn [bind fst snd public_text]. rewrite Ek. cbn [bind]. cbv zeta. rewrite (choose_again _ Hv). reflexivity.
    - reflexivity.
    - reflexivity.
    - reflexivity.
    - reflexivity.
    - reflexivity.
    - unfold address_decompress. cbn [ad_compressed ad_priv ad_pub ad_vcn ad_testnet negb]. pose proof (text_ok S256 Sok Snp Sgy (ad_pub a) x y U On Hx Hy) as D'. rewrite D'. cbn [bind].
      rewrite (address_watch_only sha256 sha512 ripemd160 S256 Hsha Sord Slen a 0 Ma Ep). rewrite <- Ea. f_equal. rewrite <- Ep at 1. rewrite <- Ec at 1. apply address_eta.
  Qed.
  Theorem C79_watch_only_fails a x y : an_address a -> ad_priv a = None -> ad_compressed a = false -> sec1_uncompressed (ad_pub a) x y -> secp_xy x y -> x < secp_n -> y < secp_n -> ~ (secp_p - y < secp_n \/ is_square y) ->
    address_compress sha256 sha512 ripemd160 S256 a = Raise ValueError.
  Proof.
    intros Ma Ep Ec U On Hx Hy R. destruct (C31_round_trip_fails (ad_pub a) x y On Hx Hy U R) as (k & Ek & C & D). change (decompress_with (cv_gen S256) k = Raise ValueError) in D.
    unfold address_compress. rewrite Ec, Ep, Ek. cbn [bind]. unfold address_new, address_finish. destruct (compressed_octets k x y C) as (_ & _ & Nk). destruct C as (X & Ex & _). destruct k as [|ch k]; [congruence|].
    assert (ch = 2 + y mod 2) as Hch by congruence. pose proof (Z.mod_pos_bound y 2 ltac:(lia)). assert (ch =? 4 = false) as -> by lia. assert ((ch =? 2) || (ch =? 3) = true) as -> by lia. rewrite D. reflexivity.
  Qed.
  Lemma watch_only_text k x y vcn testnet : sec1_uncompressed k x y -> exists a, new_address (Some k) None (Some vcn) 0 testnet = Ok a /\ an_address a /\ ad_priv a = None /\ ad_compressed a = false /\ ad_pub a = k.
  Proof.
    intros (X & Y & Ek & WX & WY & LX & LY & _). assert (wf_bytes k) as Wk by (rewrite Ek; constructor; [unfold is_byte; lia|]; now apply wf_bytes_app). assert (zlen k = 65) as Lk by (rewrite Ek, zlen_cons, zlen_app; lia).
    assert (exists a, new_address (Some k) None (Some vcn) 0 testnet = Ok a /\ ad_priv a = None /\ ad_compressed a = false /\ ad_pub a = k) as (a & E & H).
    { eexists. split; [|split; [|split]]; [unfold address_new, address_finish; rewrite Ek in *; change (4 =? 4) with true; rewrite Lk; reflexivity|reflexivity|reflexivity|now rewrite Ek]. }
    exists a. split; [exact E|]. split; [|exact H]. exists (Some k), None, (Some vcn), 0, testnet. split; [lia|]. now split.
  Qed.
  Theorem C79_refuted : exists a x y, an_address a /\ ad_compressed a = false /\ sec1_uncompressed (ad_pub a) x y /\ secp_xy x y /\ address_compress sha256 sha512 ripemd160 S256 a = Raise ValueError.
  Proof.
    destruct (text_of S256 Sp x6 6 x6_xy) as (k & U). destruct (watch_only_text k x6 6 7 false U) as (a & _ & Ma & Ep & Ec & Ea). exists a, x6, 6. rewrite Ea. do 4 (split; [first [assumption|exact x6_xy]|]).
    apply (C79_watch_only_fails a x6 6 Ma Ep Ec); [now rewrite Ea|exact x6_xy|reflexivity|reflexivity|]. intros [H|H]; [vm_compute in H; discriminate H|]. revert H. apply not_square; [split; reflexivity|vm_compute; reflexivity].
  Qed.

  (** ** C80: new addresses *)
  (** [Address.generate] gives the address of the private key drawn. *)
  Theorem C80_generate vcn rand testnet compressed entropy d : 0 <= rand < 65536 -> randrange secp_n entropy = Ok d -> 1 <= d < secp_n ->
    exists a w x y t, address_generate sha256 sha512 ripemd160 S256 vcn rand testnet compressed entropy = Ok a /\ an_address a /\ ad_priv a = Some w /\ privkey_from_wif sha256 w 0x80 = Ok (be_bytes 32 d) /\
      secp_xy x y /\ point_of d x y /\ sec1_uncompressed (ad_pub a) x y /\ (if compressed then sec1_compressed t x y else sec1_uncompressed t x y) /\ ad_compressed a = compressed /\ ad_testnet a = testnet /\
      ad_vcn a = match vcn with Some v => v mod 65536 | None => rand end /\ ad_address a = publickey_to_address sha256 sha512 ripemd160 t (ad_vcn a) (version_byte testnet).
  Proof.
    intros Hr Er Hd. assert (0 < d < secp_n) as Hd' by lia. destruct (gen_mul_nz S256 Sok Snp Sgy d Hd') as (x & y & o & _ & On & M & _).
    assert (octets32 (be_bytes 32 d) d) as O. { apply octets_of. split; [lia|]. apply Z.lt_trans with secp_n; [lia|reflexivity]. }
    destruct (private_new S256 Sok Snp Sgy Slen Sp sha256 sha512 ripemd160 Hsha (be_bytes 32 d) d x y compressed vcn rand testnet O On M) as (pub & t & Up & _ & Ht & E).
    match type of E with _ = Ok ?b => exists b end. eexists _, x, y, t. split; [|split; [|split; [reflexivity|]]].
    - unfold address_generate. change (cv_order S256) with secp_n at 1. rewrite Er. cbn [bind]. destruct (key_octets d Hd') as (-> & _). cbn [bind]. exact E.
    - eexists None, _, vcn, rand, testnet. split; [exact Hr|]. split; [exact I|exact E].
    - split.
      + destruct compressed; [apply wif_roundtrip_compressed|apply wif_roundtrip]; try (intro z; destruct (Hsha z); lia || assumption); try apply O.
      + cbn [ad_pub ad_compressed ad_testnet ad_vcn ad_address]. split; [exact On|]. split; [exact M|]. split; [exact Up|]. split; [destruct compressed; [exact Ht|now rewrite Ht]|]. do 2 (split; [reflexivity|]). split; [|reflexivity]. destruct vcn; [cbn [choose_vcn]; apply land_ffff|reflexivity].
  Qed.
  (** The draw is in range; the only other outcome is that the entropy runs
      out. *)
  Theorem C80_range entropy d : entropy_ok entropy -> randrange secp_n entropy = Ok d -> 1 <= d < secp_n.
  Proof. intros He E. assert (1 < secp_n) as L by reflexivity. apply (C61_randrange secp_n entropy d He L) in E. now destruct E as (j & _ & _ & H & _). Qed.

  (** ** C81: public keys given to Address *)
  Theorem C81_refuted : exists k a, zlen k = 65 /\ new_address (Some k) None (Some 7) 0 false = Ok a /\ ~ exists x y, sec1_uncompressed k x y /\ secp_xy x y.
  Proof.
    set (k := be_bytes 33 (4 * 256 ^ 32) ++ be_bytes 32 0). assert (sec1_uncompressed k 0 0) as U. { exists (be_bytes 32 0), (be_bytes 32 0). split; [reflexivity|]. do 4 (split; [first [apply wf_be_bytes|reflexivity]|]). split; reflexivity. }
    destruct (watch_only_text k 0 0 7 false U) as (a & E & _). exists k, a. split; [reflexivity|]. split; [exact E|]. intros (x & y & U' & On).
    assert (x = 0 /\ y = 0) as (-> & ->).
    { destruct U' as (X & Y & Ek & _ & _ & LX & LY & VX & VY). assert (be_bytes 32 0 ++ be_bytes 32 0 = X ++ Y) as E' by (apply (f_equal (@tl Z)) in Ek; exact Ek). apply app_split in E'; [|rewrite zlen_be_bytes; lia]. destruct E' as (<- & <-). split; [rewrite <- VX|rewrite <- VY]; reflexivity. }
    destruct On as (_ & _ & D). apply (contains_div secp secp_ok) in D. vm_compute in D. discriminate D.
  Qed.
  (** Keys of 33 bytes are checked. *)
  Theorem C81_compressed_partial k vcn rand testnet a : wf_bytes k -> zlen k = 33 -> new_address (Some k) None vcn rand testnet = Ok a ->
    exists x y, secp_xy x y /\ x < secp_n /\ sec1_compressed k x y /\ sec1_uncompressed (ad_pub a) x y /\ ad_compressed a = true.
  Proof.
    intros Wk Lk E. unfold address_new, address_finish in E. destruct k as [|ch k]; [discriminate|]. rewrite Lk in E. change (33 =? 65) with false in E. destruct (ch =? 4); [discriminate|]. destruct ((ch =? 2) || (ch =? 3)); [|discriminate].
    destruct (decompress_with (cv_gen S256) (ch :: k)) as [k'|] eqn:D; [|discriminate]. cbn [bind fst snd] in E. destruct (C31_sound (ch :: k) k' Wk D) as (x & y & On & Hx & U & H). bind_inv E. injection E as <-. exists x, y. cbn [ad_pub ad_compressed].
    do 2 (split; [assumption|]). split; [|now split]. destruct H as [(Ek' & _)|C]; [|exact C]. exfalso. destruct U as (X & Y & Ek & _ & _ & LX & LY & _). rewrite Ek', Ek, zlen_cons, zlen_app, LX, LY in Lk. discriminate.
  Qed.
  (** Whatever else is given, 65 bytes beginning with 4 or 33 bytes beginning
      with 2 or 3 are required. *)
  Theorem C81_lengths_partial k vcn rand testnet a : new_address (Some k) None vcn rand testnet = Ok a -> (zlen k = 65 /\ hd_error k = Some 4) \/ hd_error k = Some 2 \/ hd_error k = Some 3.
  Proof.
    unfold address_new, address_finish. destruct k as [|ch k]; [discriminate|]. cbn [hd_error]. destruct (Z.eqb_spec ch 4) as [->|]; [destruct (Z.eqb_spec (zlen (4 :: k)) 65); [now left|discriminate]|].
    destruct (Z.eqb_spec ch 2) as [->|]; [right; now left|]. destruct (Z.eqb_spec ch 3) as [->|]; [right; now right|discriminate].
  Qed.

  (** ** C78: BIP-32 *)
  Hypothesis Hmac : forall k m, wf_bytes (hmac_sha512 k m) /\ zlen (hmac_sha512 k m) = 64.
  (** The two derivations of BIP-32; [ser32 i] is [be_bytes 4 i], [ser256 d] is
      [be_bytes 32 d], and [serP] of (x, y) the text [k] of 33 bytes. *)
  Definition ckd_hash (d : Z) (chain : bytes) (i : Z) (I : bytes) : Prop :=
    2 ^ 31 <= i /\ I = hmac_sha512 chain ([0] ++ be_bytes 32 d ++ be_bytes 4 i) \/
    i < 2 ^ 31 /\ exists x y k, secp_xy x y /\ point_of d x y /\ sec1_compressed k x y /\ I = hmac_sha512 chain (k ++ be_bytes 4 i).
  Definition ckd_priv (d : Z) (chain : bytes) (i d' : Z) (chain' : bytes) : Prop :=
    exists I, ckd_hash d chain i I /\ be_val (ztake 32 I) < secp_n /\ d' = (be_val (ztake 32 I) + d) mod secp_n /\ d' <> 0 /\ chain' = zdrop 32 I.
  Definition ckd_pub (x y : Z) (chain : bytes) (i x' y' : Z) (chain' : bytes) : Prop :=
    exists I k Q, sec1_compressed k x y /\ I = hmac_sha512 chain (k ++ be_bytes 4 i) /\ be_val (ztake 32 I) < secp_n /\
      on_curve (c_p secp) (c_a secp) (c_b secp) Q /\ times (coords (gen_point generator_secp256k1)) (be_val (ztake 32 I)) Q /\ secp_xy x' y' /\ sum (Some (x, y)) Q (Some (x', y')) /\ chain' = zdrop 32 I.
  (** The fingerprint of the public key (x, y). *)
  Definition fingerprint (x y : Z) (f : bytes) : Prop := exists k, sec1_compressed k x y /\ f = ztake 4 (ripemd160 (sha256 k)).
  Definition child_of (w v : hdwallet) (i : Z) (x y : Z) : Prop :=
    hd_testnet v = hd_testnet w /\ hd_depth v = hd_depth w + 1 /\ hd_childnum v = i /\ fingerprint x y (hd_parent v).
  Theorem C78_private w d i r : hd_key w = HPriv d -> 0 < d < secp_n -> 0 <= hd_depth w < 255 -> 0 <= i < 2 ^ 32 ->
    exists x y, secp_xy x y /\ point_of d x y /\
      (forall d' chain', ckd_priv d (hd_chain w) i d' chain' -> exists v, child w i r = Ok v /\ hd_key v = HPriv d' /\ hd_chain v = chain' /\ child_of w v i x y) /\
      ((~ exists d' chain', ckd_priv d (hd_chain w) i d' chain') -> child w i r = Raise PlainException).
  Proof.
    intros Ek Hd Hdp Hi. destruct (gen_mul_nz S256 Sok Snp Sgy d Hd) as (x & y & o & _ & On & M & _). exists x, y. split; [exact On|]. split; [exact M|].
    destruct (compress_of S256 Sok Snp Slen Sp x y o On) as (k & _ & C & _).
    pose proof (child_priv S256 Sok Snp Sgy Slen Sp sha256 ripemd160 hmac_sha512 Hmac w i r d x y k Ek Hd Hi ltac:(lia) On M C) as E. cbv zeta in E. change (g_order (cv_gen S256)) with secp_n in E.
    set (I := child_hash hmac_sha512 w k d i) in *.
    assert (forall J, ckd_hash d (hd_chain w) i J <-> J = I) as HI.
    { intro J. unfold ckd_hash, I, child_hash. destruct (Z.ltb_spec i (2 ^ 31)); split.
      - intros [(B & _)|(_ & x1 & y1 & k1 & On1 & M1 & C1 & ->)]; [lia|]. pose proof (mul_unique S256 Sok Snp Sgy d _ _ On1 On M1 M) as U. injection U as -> ->. now rewrite (compressed_fun k1 k x y C1 C).
      - intros ->. right. split; [assumption|]. exists x, y, k. auto.
      - intros [(_ & ->)|(B & _)]; [now rewrite <- app_assoc|lia].
      - intros ->. left. split; [assumption|]. now rewrite <- app_assoc. }
    set (IL := be_val (ztake 32 I)) in *. split.
    - intros d' chain' (J & HJ & HL & Ed & Nd & Ec). apply HI in HJ. subst J. fold IL in HL, Ed. rewrite E. destruct (Z.leb_spec secp_n IL); [lia|]. rewrite Z.add_comm in Ed. rewrite <- Ed. destruct (Z.eqb_spec d' 0); [contradiction|]. cbn [orb].
      eexists. split; [reflexivity|]. cbn [hd_key hd_chain]. split; [reflexivity|]. split; [now symmetry|]. unfold child_of, hd_parent. cbn [hd_testnet hd_depth hd_childnum hd_parentfp]. do 3 (split; [reflexivity|]). destruct (Z.eqb_spec (hd_depth w + 1) 0); [lia|]. now exists k.
    - intro N. rewrite E. destruct (Z.leb_spec secp_n IL); [reflexivity|]. destruct (Z.eqb_spec ((d + IL) mod secp_n) 0) as [B|B]; [reflexivity|]. exfalso. apply N. exists ((IL + d) mod secp_n), (zdrop 32 I). exists I. split; [now apply HI|]. split; [exact H|]. split; [reflexivity|]. split; [now rewrite Z.add_comm|reflexivity].
  Qed.
  Theorem C78_watch_only w P x y i r : hd_key w = HPub P -> coords P = Some (x, y) -> secp_xy x y -> 0 <= hd_depth w < 255 -> 0 <= i < 2 ^ 31 ->
    (forall x' y' chain', ckd_pub x y (hd_chain w) i x' y' chain' -> exists v P', child w i r = Ok v /\ hd_key v = HPub P' /\ coords P' = Some (x', y') /\ hd_chain v = chain' /\ child_of w v i x y) /\
    ((~ exists x' y' chain', ckd_pub x y (hd_chain w) i x' y' chain') -> child w i r = Raise PlainException).
  Proof.
    intros Ek CP On Hdp Hi. destruct P as [|px py o]; [discriminate|]. destruct (compress_of S256 Sok Snp Slen Sp x y o On) as (k & _ & C & _).
    pose proof (child_pub S256 Sok Snp Sgy Slen Sp sha256 ripemd160 hmac_sha512 Hmac w i r _ x y k Ek CP On Hi ltac:(lia) C) as E. cbv zeta in E. change (g_order (cv_gen S256)) with secp_n in E.
    set (I := hmac_sha512 (hd_chain w) (k ++ be_bytes 4 i)) in *. set (IL := be_val (ztake 32 I)) in *. split.
    - intros x' y' chain' (J & k1 & Q & C1 & -> & HL & OQ & MQ & On' & LQ & ->). rewrite (compressed_fun k1 k x y C1 C) in *. fold I in HL, MQ |- *. fold IL in HL, MQ. destruct E as [(B & _)|(_ & A & R & OA & MA & OR & LR & E)]; [lia|].
      pose proof (mul_unique S256 Sok Snp Sgy IL _ _ OA OQ MA MQ) as U. rewrite U in LR.
      pose proof (line_sum_fun secp secp_ok _ _ _ _ On OQ OR On' LR LQ) as CR.
      rewrite E, CR. exists (mk_hd (HPub R) (zdrop 32 I) r (hd_testnet w) (hd_depth w + 1) (ztake 4 (ripemd160 (sha256 k))) i), R. split; [reflexivity|]. split; [reflexivity|]. split; [exact CR|]. split; [reflexivity|].
      unfold child_of, hd_parent. cbn [hd_testnet hd_depth hd_childnum hd_parentfp]. do 3 (split; [reflexivity|]). destruct (Z.eqb_spec (hd_depth w + 1) 0); [lia|]. now exists k.
    - intro N. destruct E as [(_ & E)|(HL & A & R & OA & MA & OR & LR & E)]; [exact E|]. rewrite E. destruct (coords R) as [(x', y')|] eqn:CR; [|reflexivity]. exfalso. apply N. exists x', y', (zdrop 32 I), I, k, (coords A). repeat (split; [first [assumption|reflexivity]|]). reflexivity.
  Qed.
End Wallets.

(** A wrong passphrase opens this HD wallet, as a wallet with another private
    key. *)
Definition victim : hdwallet := mk_hd (HPriv 1) (repeat 0 32) 7 false 0 (repeat 0 4) 0.
Theorem C49_hd_refuted sha256 sha512 ripemd160 typed rand : exists t w' d, an_hd victim /\ wallet_text SECP256k1 (WHD victim) (bs "secret") = Ok t /\
  load_from sha256 sha512 ripemd160 SECP256k1 t (bs "guess7443") typed rand = Ok (WHD w') /\ hd_key w' = HPriv d /\ d <> 1.
Proof.
  eexists _, _, _. split; [|split; [vm_compute; reflexivity|split; [vm_compute; reflexivity|split; [reflexivity|discriminate]]]].
  exists (HPriv 1), (repeat 0 32), (Some 7), 0, false, None, [], 0. split; [apply Forall_forall; intros b Hb; apply repeat_spec in Hb; subst; unfold is_byte; lia|]. split; [constructor|]. split; [lia|]. vm_compute. reflexivity.
Qed.

(** ** Cases: some functions with results of the right length *)
Definition h32 (s : bytes) : bytes := be_bytes 32 (be_val s).
Definition h64 (k m : bytes) : bytes := be_bytes 32 1 ++ be_bytes 32 (be_val m).
Lemma h32_ok s : wf_bytes (h32 s) /\ zlen (h32 s) = 32. Proof. unfold h32. split; [apply wf_be_bytes|]. rewrite zlen_be_bytes. reflexivity. Qed.
Lemma h64_ok k m : wf_bytes (h64 k m) /\ zlen (h64 k m) = 64.
Proof. unfold h64. split; [apply wf_bytes_app; split; apply wf_be_bytes|]. rewrite zlen_app, !zlen_be_bytes. reflexivity. Qed.
Definition root : hdwallet := mk_hd (HPriv 1) (be_bytes 32 (be_val (bs "seed"))) 7 false 0 (repeat 0 4) 0.
Lemma root_made r : from_master_seed h64 S256 (bs "seed") (Some 7) r false = Ok root.
Proof. vm_compute. reflexivity. Qed.
Lemma root_ok : fields_ok root.
Proof.
  split; [split; reflexivity|]. cbn [root hd_chain hd_depth hd_parent hd_parentfp hd_childnum]. split; [apply wf_be_bytes|]. split; [rewrite zlen_be_bytes; reflexivity|]. split; [lia|].
  split; [unfold hd_parent; cbn; apply Forall_forall; intros b Hb; cbn in Hb; unfold is_byte; lia|]. split; [reflexivity|lia].
Qed.
Example C46_applies : fields_ok root /\ hd_key root = HPriv 1.
Proof. split; [exact root_ok|reflexivity]. Qed.
Lemma root_ckd i : 0 <= i < 2 ^ 32 -> exists chain', ckd_priv h64 1 (hd_chain root) i 2 chain'.
Proof.
  intro Hi. assert (forall k m, be_val (ztake 32 (h64 k m)) = 1) as V.
  { intros k m. unfold h64. rewrite ztake_app_exact by (rewrite zlen_be_bytes; reflexivity). reflexivity. }
  assert (exists I, ckd_hash h64 1 (hd_chain root) i I /\ be_val (ztake 32 I) = 1) as (I & H & E).
  { destruct (Z.lt_ge_cases i (2 ^ 31)).
    - destruct (compress_of S256 Sok Snp Slen Sp _ _ 0 generator_xy) as (k & _ & C & _). eexists. split; [right; split; [assumption|]; exists (g_x generator_secp256k1), (g_y generator_secp256k1), k; split; [exact generator_xy|]; split; [exact one_of|]; split; [exact C|reflexivity]|apply V].
    - eexists. split; [left; split; [assumption|reflexivity]|apply V]. }
  eexists. exists I. split; [exact H|]. rewrite E. repeat split; discriminate.
Qed.
(** Hardened and normal children of the root exist. *)
Example C78_applies i r : 0 <= i < 2 ^ 32 -> exists v, hd_child h32 h32 h64 S256 root i r = Ok v /\ hd_key v = HPriv 2.
Proof.
  intro Hi. destruct (root_ckd i Hi) as (chain' & K). destruct (C78_private h32 h32 h32 h64 h32_ok h64_ok root 1 i r) as (x & y & _ & _ & H & _); [reflexivity|split; reflexivity|cbn; lia|exact Hi|].
  destruct (H _ _ K) as (v & E & Ek & _). now exists v.
Qed.
(** The same seed and path give two addresses, for two draws of the random
    generator. *)
Theorem C47_refuted : ~ (forall sha256 sha512 ripemd160 hmac_sha512 seed vcn testnet w path path' v v' a a', (forall d, wf_bytes (sha256 d) /\ zlen (sha256 d) = 32) -> (forall k m, wf_bytes (hmac_sha512 k m) /\ zlen (hmac_sha512 k m) = 64) ->
  from_master_seed hmac_sha512 S256 seed (Some vcn) 0 testnet = Ok w -> map fst path' = map fst path ->
  derive sha256 ripemd160 hmac_sha512 w path = Ok v -> derive sha256 ripemd160 hmac_sha512 w path' = Ok v' ->
  hd_address sha256 sha512 ripemd160 S256 v None = Ok a -> hd_address sha256 sha512 ripemd160 S256 v' None = Ok a' -> a = a').
Proof.
  intro H. destruct (C78_applies 0 5) as (v & E & _); [lia|]. assert (derive h32 h32 h64 root ([] ++ [(0, 5)]) = Ok v) as D by (cbn [app derive]; rewrite E; reflexivity).
  destruct (C47_addresses_differ h32 h32 h32 h64 h32_ok root [] 0 5 6 v) as (v' & a & a' & D' & A & A' & N); [split; reflexivity|lia|lia|discriminate|exact D|]. apply N.
  exact (H h32 h32 h32 h64 (bs "seed") 7 false root ([] ++ [(0, 5)]) ([] ++ [(0, 6)]) v v' a a' h32_ok h64_ok (root_made 0) eq_refl D D' A A').
Qed.

(** ** Assumptions *)

Print Assumptions C42_private.
Print Assumptions C42_watch_only_partial.
Print Assumptions C42_compressed_watch_only_lost.
Print Assumptions C42_both_keys.
Print Assumptions C42_refuted.
Print Assumptions C43_private.
Print Assumptions C43_watch_only_partial.
Print Assumptions C43_refuted.
Print Assumptions C44_paths.
Print Assumptions C44_same_public.
Print Assumptions C44_public_key.
Print Assumptions C45_hardened.
Print Assumptions C45_index.
Print Assumptions C45_depth.
Print Assumptions C45_path_length.
Print Assumptions C46_public_text_partial.
Print Assumptions C46_private_text_partial.
Print Assumptions C46_determines_partial.
Print Assumptions C46_never_reads.
Print Assumptions C46_never_reads_even_if.
Print Assumptions C46_refuted.
Print Assumptions C47_all_but_vcn_partial.
Print Assumptions C47_master_partial.
Print Assumptions C47_addresses_differ.
Print Assumptions C48_crash_partial.
Print Assumptions C48_lost.
Print Assumptions C48_refuted.
Print Assumptions C48_truncated.
Print Assumptions C49_ignored_bytes_refuted.
Print Assumptions C49_address_partial.
Print Assumptions C32_address_partial.
Print Assumptions C32_hd_partial.
Print Assumptions C79_private.
Print Assumptions C79_same.
Print Assumptions C79_watch_only_partial.
Print Assumptions C79_watch_only_fails.
Print Assumptions C79_refuted.
Print Assumptions C80_generate.
Print Assumptions C80_range.
Print Assumptions C81_refuted.
Print Assumptions C81_compressed_partial.
Print Assumptions C81_lengths_partial.
Print Assumptions C78_private.
Print Assumptions C78_watch_only.
Print Assumptions C49_hd_refuted.
Print Assumptions C47_refuted.
