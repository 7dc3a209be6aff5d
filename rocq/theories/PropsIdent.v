(** C139: which wallets show the same address. *)
From Coq Require Import String ZArith Znumtheory List Lia Bool.
From Verif Require Import PyBase PyVal UtilModel Base58Model Base58Proofs DerModel NtModel EcModel EcSpec EcLib EcParams256k1 KeyModel KeySpec KeyProofs KeyCases PropsEc PropsKey PropsBase58 WalletModel WalletProofs HdProofs PropsWallet.
Import ListNotations.
Open Scope string_scope.
Open Scope list_scope.
Open Scope Z_scope.

Section Ident.
  Variable sha256 sha512 ripemd160 : bytes -> bytes.
  Hypothesis Hsha : forall d, wf_bytes (sha256 d) /\ zlen (sha256 d) = 32.
  Hypothesis Hrip : forall d, zlen (ripemd160 d) = 20.
  Notation an_address := (an_address sha256 sha512 ripemd160).

  Definition collides (h : bytes -> bytes) (x y : bytes) : Prop := x <> y /\ h x = h y.
  (** What is hashed on the way from a public key to its address. *)
  Definition first_half (k : bytes) : bytes := firstn 32 (sha512 k).
  Definition second_half (k : bytes) : bytes := skipn 32 (sha512 k).
  Definition halves (k : bytes) : bytes := ripemd160 (first_half k) ++ ripemd160 (second_half k).
  (** Two keys give away a collision of one of the three hash functions. *)
  Definition collision (k k' : bytes) : Prop :=
    collides sha512 k k' \/ collides ripemd160 (first_half k) (first_half k') \/ collides ripemd160 (second_half k) (second_half k') \/ collides sha256 (halves k) (halves k').

  Lemma parts (a b a' b' : bytes) : a ++ b = a' ++ b' -> zlen a = zlen a' -> a = a' /\ b = b'.
  Proof.
    intros E L. assert (a = a') as <-. { rewrite <- (ztake_app_exact a b (zlen a)), <- (ztake_app_exact a' b' (zlen a)) by lia. now rewrite E. } split; [reflexivity|]. now apply app_inv_head in E.
  Qed.
  Lemma same_or (h : bytes -> bytes) x y : h x = h y -> x = y \/ collides h x y.
  Proof. intro E. destruct (bytes_eqb_spec x y) as [->|N]; [now left|right; now split]. Qed.
  Lemma digest_same k k' : key_digest sha256 sha512 ripemd160 k = key_digest sha256 sha512 ripemd160 k' -> k = k' \/ collision k k'.
  Proof.
    intro E. change (sha256 (halves k) = sha256 (halves k')) in E. unfold collision. apply same_or in E. destruct E as [E|E]; [|tauto]. unfold halves in E.
    apply parts in E; [|now rewrite !Hrip]. destruct E as (E1 & E2). apply same_or in E1. destruct E1 as [E1|E1]; [|tauto]. apply same_or in E2. destruct E2 as [E2|E2]; [|tauto].
    assert (sha512 k = sha512 k') as E by (unfold first_half, second_half in *; rewrite <- (firstn_skipn 32 (sha512 k)), E1, E2; apply firstn_skipn). apply same_or in E. tauto.
  Qed.
  Lemma version_wf b : wf_bytes (version_byte b) /\ zlen (version_byte b) = 1.
  Proof. destruct b; (split; [constructor; [unfold is_byte; lia|constructor]|reflexivity]). Qed.
  (** The address of a public key tells its network, its vcn and the key. *)
  Theorem C139_texts k v (n : bool) k' v' (n' : bool) :
    publickey_to_address sha256 sha512 ripemd160 k v (version_byte n) = publickey_to_address sha256 sha512 ripemd160 k' v' (version_byte n') ->
    n = n' /\ v mod 65536 = v' mod 65536 /\ (k = k' \/ collision k k').
  Proof.
    intro E. apply (C30_address_injective sha256) in E; try (intro x; destruct (Hsha x); (lia || assumption)); try apply version_wf; [|now rewrite !(proj2 (version_wf _))].
    destruct E as (E1 & E2 & E3). split; [destruct n, n'; (reflexivity || discriminate)|]. split; [exact E2|]. now apply digest_same.
  Qed.

  (** What a wallet shows, the text of its public key, its secret number. *)
  Definition shows (v : wallet) (t : bytes) : Prop :=
    match v with WAddress a => ad_address a = t | WHD h => hd_address sha256 sha512 ripemd160 S256 h None = Ok t end.
  Definition key_of_wallet (v : wallet) (k : bytes) : Prop :=
    match v with WAddress a => public_text (ad_compressed a) (ad_pub a) = Ok k | WHD h => exists P, hd_point S256 h = Ok P /\ point_compress S256 P = Ok k end.
  Definition network (v : wallet) : bool := match v with WAddress a => ad_testnet a | WHD h => hd_testnet h end.
  Definition vcn_of (v : wallet) : Z := match v with WAddress a => ad_vcn a | WHD h => hd_vcn h end.
  Definition secret (v : wallet) (d : Z) : Prop :=
    match v with WAddress a => exists w k, ad_priv a = Some w /\ privkey_from_wif sha256 w 0x80 = Ok k /\ be_val k = d | WHD h => hd_key h = HPriv d end.
  (** Wallets that the constructors return. *)
  Definition made (v : wallet) : Prop := match v with WAddress a => an_address a | WHD h => an_hd h end.

  Lemma shown v t : made v -> shows v t -> 0 <= vcn_of v < 65536 /\ exists k, key_of_wallet v k /\ t = publickey_to_address sha256 sha512 ripemd160 k (vcn_of v) (version_byte (network v)).
  Proof.
    destruct v as [a|h]; cbn [made shows key_of_wallet network vcn_of]; intros M S.
    - destruct (address_facts sha256 sha512 ripemd160 S256 Hsha Sord Slen a M) as (Hv & _ & _ & _ & (k & Ek & Ea) & _). split; [exact Hv|]. exists k. split; [exact Ek|congruence].
    - apply (hd_is sha256 sha512 ripemd160 Hsha) in M. destruct M as (_ & _ & _ & Hv & _). split; [exact Hv|]. unfold hd_address in S. bind_inv S. bind_inv S. exists x0. split; [now exists x|congruence].
  Qed.
  (** Two wallets that show the same address are of the same network, have the
      same vcn and the same public key, unless the two keys collide. *)
  Theorem C139_wallets v w t : made v -> made w -> shows v t -> shows w t ->
    network v = network w /\ vcn_of v = vcn_of w /\ exists k k', key_of_wallet v k /\ key_of_wallet w k' /\ (k = k' \/ collision k k').
  Proof.
    intros Mv Mw Sv Sw. destruct (shown v t Mv Sv) as (Hv & k & Ek & ->). destruct (shown w _ Mw Sw) as (Hw & k' & Ek' & E). apply C139_texts in E. destruct E as (E1 & E2 & E3).
    split; [exact E1|]. rewrite !Z.mod_small in E2 by assumption. split; [exact E2|]. now exists k, k'.
  Qed.

  (** *** Private keys *)
  Lemma mul_mod d e : d mod secp_n = e mod secp_n -> ec_mul (g_curve (cv_gen S256)) (gen_point (cv_gen S256)) d = ec_mul (g_curve (cv_gen S256)) (gen_point (cv_gen S256)) e.
  Proof.
    intro E. unfold ec_mul. change (p_order (gen_point (cv_gen S256))) with secp_n. change (secp_n =? 0) with false. cbn iota. now rewrite E.
  Qed.
  Lemma point_mod d x y : secp_xy x y -> point_of d x y -> point_of (d mod secp_n) x y.
  Proof.
    intros On M. destruct (gen_mul S256 Sok Snp Sgy d) as (R & ER & OnR & MR & _). destruct (gen_mul S256 Sok Snp Sgy (d mod secp_n)) as (R' & ER' & OnR' & MR' & _).
    rewrite (mul_mod (d mod secp_n) d) in ER' by (apply Z.mod_mod; intro H0; discriminate H0). assert (R' = R) as -> by (rewrite ER in ER'; congruence).
    pose proof (mul_unique S256 Sok Snp Sgy d _ _ OnR On MR M) as U. unfold point_of, times. rewrite <- U. exact MR'.
  Qed.
  Lemma log_unique d e x y : secp_xy x y -> point_of d x y -> point_of e x y -> d mod secp_n = e mod secp_n.
  Proof.
    intros On Hd He. apply point_mod in Hd; [|exact On]. apply point_mod in He; [|exact On]. destruct (C60_cyclic (Some (x, y)) On) as (k & _ & U).
    assert (0 < secp_n) as Hn by reflexivity. pose proof (Z.mod_pos_bound d secp_n Hn). pose proof (Z.mod_pos_bound e secp_n Hn).
    rewrite <- (U (d mod secp_n)), <- (U (e mod secp_n)); [reflexivity|now split|now split].
  Qed.
  Lemma secret_point v d k : made v -> secret v d -> key_of_wallet v k -> exists x y, secp_xy x y /\ point_of d x y /\ (sec1_compressed k x y \/ sec1_uncompressed k x y).
  Proof.
    destruct v as [a|h]; cbn [made secret key_of_wallet].
    - intros M (w & s & Ep & Ew & <-) Ek. destruct (private_key S256 Sok Snp Sgy Slen Sp sha256 sha512 ripemd160 Hsha a w M Ep) as (s' & d & x & y & Es & (_ & _ & Vd) & On & Md & U & _).
      assert (s' = s) as -> by congruence. subst d. exists x, y. split; [exact On|]. split; [exact Md|]. destruct (ad_compressed a); cbn [public_text] in Ek.
      + left. destruct (compress_ok _ x y U) as (t & Et & C). assert (t = k) as -> by congruence. exact C.
      + right. assert (k = ad_pub a) as -> by congruence. exact U.
    - intros M Ek (P & EP & Ec). apply (hd_is sha256 sha512 ripemd160 Hsha) in M. destruct M as (Hd & _). rewrite Ek in Hd. destruct (gen_mul_nz S256 Sok Snp Sgy d Hd) as (x & y & o & E & On & M & _).
      unfold hd_point in EP. rewrite Ek in EP. assert (P = PAff x y o) as -> by congruence. exists x, y. split; [exact On|]. split; [exact M|]. left. destruct (compress_of S256 Sok Snp Slen Sp x y o On) as (t & Et & C & _). assert (t = k) as -> by congruence. exact C.
  Qed.
  Lemma forms_differ k x y x' y' : sec1_compressed k x y -> sec1_uncompressed k x' y' -> False.
  Proof. intros (X & -> & _ & LX & _) (X' & Y' & E & _ & _ & L1 & L2 & _). assert (X = X' ++ Y') as -> by congruence. rewrite zlen_app in LX. lia. Qed.
  (** Two private wallets with the same address have the same private key, up to
      multiples of the order of the curve. *)
  Theorem C139_secrets_partial v w t d e : made v -> made w -> shows v t -> shows w t -> secret v d -> secret w e ->
    d mod secp_n = e mod secp_n \/ exists k k', key_of_wallet v k /\ key_of_wallet w k' /\ collision k k'.
  Proof.
    intros Mv Mw Sv Sw Dv Dw. destruct (C139_wallets v w t Mv Mw Sv Sw) as (_ & _ & k & k' & Ek & Ek' & [<-|C]); [left|right; now exists k, k'].
    destruct (secret_point v d k Mv Dv Ek) as (x & y & On & Pd & F). destruct (secret_point w e k Mw Dw Ek') as (x' & y' & On' & Pe & F').
    assert (x = x' /\ y = y') as (<- & <-).
    { destruct F as [F|F], F' as [F'|F']; [exact (parity_point sha256 sha512 ripemd160 (fun k _ => k) Hsha x y x' y' k On On' F F')|exfalso; exact (forms_differ _ _ _ _ _ F F')|exfalso; exact (forms_differ _ _ _ _ _ F' F)|].
      destruct F as (X & Y & -> & _ & _ & LX & LY & <- & <-), F' as (X' & Y' & E & _ & _ & LX' & LY' & <- & <-). assert (X ++ Y = X' ++ Y') as E' by congruence. apply parts in E'; [|lia]. destruct E' as (-> & ->). now split. }
    exact (log_unique d e x y On Pd Pe).
  Qed.
  (** HD wallets: the key itself. *)
  Theorem C139_hd_secrets h h' t d e : an_hd h -> an_hd h' -> shows (WHD h) t -> shows (WHD h') t -> hd_key h = HPriv d -> hd_key h' = HPriv e ->
    d = e \/ exists k k', key_of_wallet (WHD h) k /\ key_of_wallet (WHD h') k' /\ collision k k'.
  Proof.
    intros M M' S S' D D'. destruct (C139_secrets_partial (WHD h) (WHD h') t d e M M' S S' D D') as [E|E]; [left|right; exact E].
    apply (hd_is sha256 sha512 ripemd160 Hsha) in M. apply (hd_is sha256 sha512 ripemd160 Hsha) in M'. destruct M as (R & _), M' as (R' & _). rewrite D in R. rewrite D' in R'. change (cv_order S256) with secp_n in *. rewrite !Z.mod_small in E by lia. exact E.
  Qed.
  (** Not so for private keys in Wallet Import Format: the constructor takes
      numbers above the order, and d + n has the address of d. *)
  Theorem C139_secrets_refuted d vcn testnet (z : bool) : 0 < d < 2 ^ 256 - secp_n -> 
    let wif k := privkey_to_wif sha256 (if z then be_bytes 32 k ++ [1] else be_bytes 32 k) [0x80] in
    exists a b, address_new sha256 sha512 ripemd160 S256 None (Some (wif d)) (Some vcn) 0 testnet = Ok a /\
      address_new sha256 sha512 ripemd160 S256 None (Some (wif (d + secp_n))) (Some vcn) 0 testnet = Ok b /\
      ad_priv a <> ad_priv b /\ ad_address a = ad_address b /\ secret (WAddress a) d /\ secret (WAddress b) (d + secp_n).
  Proof.
    intros Hd wif. assert (0 < secp_n) as Hn by reflexivity. assert (2 ^ 256 - secp_n < secp_n) as Hs by reflexivity.
    assert (0 < d < secp_n) as Hd' by lia. destruct (gen_mul_nz S256 Sok Snp Sgy d Hd') as (x & y & o & _ & On & M & _).
    assert (point_of (d + secp_n) x y) as M'.
    { destruct (gen_mul S256 Sok Snp Sgy (d + secp_n)) as (R & ER & OnR & MR & _). destruct (gen_mul S256 Sok Snp Sgy d) as (R' & ER' & OnR' & MR' & _).
      rewrite (mul_mod (d + secp_n) d) in ER by (rewrite Z.add_mod, Z.mod_same, Z.add_0_r, Z.mod_mod by lia; reflexivity). assert (R' = R) as -> by (rewrite ER in ER'; congruence).
      pose proof (mul_unique S256 Sok Snp Sgy d _ _ OnR' On MR' M) as U. unfold point_of, times. rewrite <- U. exact MR. }
    destruct (octets_of d) as (W1 & L1 & V1); [change (256 ^ 32) with (2 ^ 256); lia|]. destruct (octets_of (d + secp_n)) as (W2 & L2 & V2); [change (256 ^ 32) with (2 ^ 256); lia|].
    assert (forall e, 0 <= e < 256 ^ 32 -> privkey_from_wif sha256 (wif e) 0x80 = Ok (be_bytes 32 e)) as back.
    { intros e He. destruct (octets_of e He) as (We & Le & _). unfold wif. destruct z; [apply wif_roundtrip_compressed|apply wif_roundtrip]; try (intro q; destruct (Hsha q); lia || assumption); assumption. }
    assert (256 ^ 32 = 2 ^ 256) as P256 by reflexivity.
    destruct (private_new S256 Sok Snp Sgy Slen Sp sha256 sha512 ripemd160 Hsha (be_bytes 32 d) d x y z (Some vcn) 0 testnet (conj W1 (conj L1 V1)) On M) as (pub & t & Up & Et & _ & E).
    destruct (private_new S256 Sok Snp Sgy Slen Sp sha256 sha512 ripemd160 Hsha (be_bytes 32 (d + secp_n)) (d + secp_n) x y z (Some vcn) 0 testnet (conj W2 (conj L2 V2)) On M') as (pub' & t' & Up' & Et' & _ & E').
    eexists _, _. split; [exact E|]. split; [exact E'|]. cbn [ad_priv ad_address].
    assert (pub' = pub) as ->.
    { destruct Up as (X & Y & -> & WX & WY & LX & LY & VX & VY), Up' as (X' & Y' & -> & WX' & WY' & LX' & LY' & VX' & VY').
      rewrite <- (be_bytes_be_val X WX), <- (be_bytes_be_val X' WX'), <- (be_bytes_be_val Y WY), <- (be_bytes_be_val Y' WY'). unfold zlen in *. rewrite VX, VX', VY, VY'. assert (List.length X = List.length X') as -> by lia. assert (List.length Y = List.length Y') as -> by lia. reflexivity. }
    assert (t' = t) as -> by congruence. split; [|split; [reflexivity|]].
    - intro H. assert (wif d = wif (d + secp_n)) as H' by (unfold wif; congruence). 
      assert (Ok (be_bytes 32 d) = Ok (be_bytes 32 (d + secp_n))) as H2 by (rewrite <- (back d), <- (back (d + secp_n)) by lia; now rewrite H').
      assert (be_val (be_bytes 32 d) = be_val (be_bytes 32 (d + secp_n))) by congruence. lia.
    - split; cbn [secret ad_priv]; eexists _, _; (split; [reflexivity|]); (split; [apply back; lia|assumption]).
  Qed.
  (** Such wallets exist. *)
  Example C139_applies : exists v w t d e, made v /\ made w /\ shows v t /\ shows w t /\ secret v d /\ secret w e /\ v <> w.
  Proof.
    destruct (C139_secrets_refuted 1 7 false true) as (a & b & Ea & Eb & N & E & Sa & Sb); [split; reflexivity|].
    exists (WAddress a), (WAddress b), (ad_address a), 1, (1 + secp_n). cbn [made shows].
    split; [eexists None, _, (Some 7), 0, false; split; [lia|]; split; [exact I|exact Ea]|]. split; [eexists None, _, (Some 7), 0, false; split; [lia|]; split; [exact I|exact Eb]|].
    split; [reflexivity|]. split; [now symmetry|]. split; [exact Sa|]. split; [exact Sb|]. intro H. apply N. congruence.
  Qed.
End Ident.
(** Lengths as assumed. *)
Example C139_hashes : (forall d, wf_bytes (le_bytes 32 (le_val d)) /\ zlen (le_bytes 32 (le_val d)) = 32) /\ forall d, zlen (le_bytes 20 (le_val d)) = 20.
Proof. split; [intro d; split; [apply wf_le_bytes|apply zlen_le_bytes]|intro d; apply zlen_le_bytes]. Qed.

(** ** Assumptions *)

Print Assumptions C139_texts.
Print Assumptions C139_wallets.
Print Assumptions C139_secrets_partial.
Print Assumptions C139_hd_secrets.
Print Assumptions C139_secrets_refuted.
