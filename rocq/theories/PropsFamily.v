(** C131 and C132: private wallets and the watch-only wallets that go with
    them.  [watches w w'] (PropsWallet): w' has the public key of w, and the
    same chain code, network, depth, parent and number; [derive] follows a path
    of indices, each with the draw of the random generator; [normal]: no index
    is hardened. *)
From Coq Require Import String ZArith List Lia Bool.
From Verif Require Import PyBase PyVal UtilModel Base58Model Base58Proofs DerModel DerProofs NtModel EcModel EcSpec EcLib EcParams256k1 KeyModel KeySpec KeyProofs KeyCases PropsEc PropsKey JsonModel JsonProofs WalletModel WalletProofs HdProofs PropsWallet.
Import ListNotations.
Open Scope string_scope.
Open Scope list_scope.
Open Scope Z_scope.

Section Family.
  Variable sha256 sha512 ripemd160 : bytes -> bytes.
  Variable hmac_sha512 : bytes -> bytes -> bytes.
  Hypothesis Hsha : forall d, wf_bytes (sha256 d) /\ zlen (sha256 d) = 32.
  Notation child := (hd_child sha256 ripemd160 hmac_sha512 S256).
  Notation along := (derive sha256 ripemd160 hmac_sha512).

  (** ** C131 *)
  (** What the private child signs, the watch-only child at the same path
      verifies, if the first number of the signature is below the order (all
      but some 2^128 of the 2^256). *)
  Theorem C131_signatures_partial w w' path path' v data nonce sig : watches w w' -> normal path -> map fst path' = map fst path ->
    along w path = Ok v -> hd_sign sha256 S256 v data nonce = Ok sig ->
    exists v' k r y, along w' path' = Ok v' /\ nonce = Ok k /\ 1 <= k < secp_n /\ point_of k r y /\ hd_verify sha256 S256 v' data sig = Ok (r <? secp_n).
  Proof.
    intros W N E D S. destruct (C44_paths sha256 ripemd160 hmac_sha512 w w' path path' W N E) as [(e & D' & _)|(v0 & v' & D0 & D' & W')]; [congruence|]. assert (v0 = v) as -> by congruence.
    pose proof W' as (d & P & x & y & Ek & Hd & _). destruct (C32_hd_partial sha256 sha512 ripemd160 hmac_sha512 Hsha v d data nonce sig Ek Hd S) as (k & r & y' & En & Hk & M & _ & V).
    exists v', k, r, y'. split; [exact D'|]. split; [exact En|]. split; [exact Hk|]. split; [exact M|exact (V v' W')].
  Qed.
  (** The watch-only child signs nothing. *)
  Theorem C131_only_the_private w w' path path' v' data nonce : watches w w' -> normal path -> map fst path' = map fst path ->
    along w' path' = Ok v' -> exists e, hd_sign sha256 S256 v' data nonce = Raise e.
  Proof.
    intros W N E D'. destruct (C44_paths sha256 ripemd160 hmac_sha512 w w' path path' W N E) as [(e & _ & D)|(v & v0 & D & D0 & W')]; [congruence|]. assert (v0 = v') as -> by congruence.
    destruct W' as (d & P & x & y & _ & _ & EP & _). unfold hd_sign, hd_prvkey. rewrite EP. cbn [bind]. now eexists.
  Qed.

  (** ** C132 *)
  Hypothesis Hmac : forall k m, wf_bytes (hmac_sha512 k m) /\ zlen (hmac_sha512 k m) = 64.
  (** What everybody can compute who holds the watch-only wallet and the private
      key [d'] of its child [i]. *)
  Definition unchild (w' : hdwallet) (i d' : Z) : Z :=
    match hd_key w' with
    | HPub (PAff x y _) => (d' - be_val (ztake 32 (hmac_sha512 (hd_chain w') (([2 + y mod 2] ++ be_bytes 32 x) ++ be_bytes 4 i)))) mod secp_n
    | _ => 0
    end.
  (** The same, along a path. *)
  Fixpoint stolen (w' : hdwallet) (path : list (Z * Z)) (d' : Z) : Z :=
    match path with
    | [] => d'
    | (i, r) :: path => match child w' i r with Ok v' => unchild w' i (stolen v' path d') | Raise _ => 0 end
    end.
  Lemma unchild_ok w w' i r v d d' : watches w w' -> 0 <= i < 2 ^ 31 -> child w i r = Ok v -> hd_key w = HPriv d -> hd_key v = HPriv d' -> unchild w' i d' = d.
  Proof.
    intros (d0 & P & x & y & Ek & Hd & EP & CP & On & M & Ec & _) Hi H Ed Ev. assert (d0 = d) as -> by congruence.
    destruct (compress_of S256 Sok Snp Slen Sp x y 0 On) as (k & _ & C & _).
    assert (hd_depth w < 255) as Hdp.
    { unfold hd_child in H. rewrite Ek in H. destruct (negb ((0 <=? i) && (i <=? 2 ^ 32 - 1))); [discriminate|]. destruct (Z.ltb_spec (hd_depth w) 255) as [L|L]; [exact L|]. destruct (negb (Z.land i 2147483648 =? 0)); discriminate. }
    pose proof (child_priv S256 Sok Snp Sgy Slen Sp sha256 ripemd160 hmac_sha512 Hmac w i r d x y k Ek Hd ltac:(lia) Hdp On M C) as E. cbv zeta in E. rewrite H in E.
    destruct ((g_order (cv_gen S256) <=? _) || _); [discriminate|]. apply (f_equal (fun o => match o with Ok u => hd_key u | Raise _ => HPriv 0 end)) in E. cbn [hd_key] in E. rewrite Ev in E.
    apply (f_equal (fun u => match u with HPriv z => z | HPub _ => 0 end)) in E. change (g_order (cv_gen S256)) with secp_n in E.
    unfold unchild. rewrite EP. destruct P as [|px py o]; [discriminate|]. cbn [coords] in CP. assert (px = x) as -> by congruence. assert (py = y) as -> by congruence.
    unfold child_hash in E. rewrite (proj2 (Z.ltb_lt i (2 ^ 31)) ltac:(lia)) in E. rewrite Ec in E.
    assert (k = [2 + y mod 2] ++ be_bytes 32 x) as Hk. { destruct C as (X & -> & WX & LX & VX). cbn [app]. f_equal. rewrite <- VX. rewrite <- (be_bytes_be_val X WX) at 1. f_equal. unfold zlen in LX. lia. }
    rewrite <- Hk. rewrite E. rewrite Zminus_mod_idemp_l. match goal with |- (d + ?t - ?t) mod _ = d => replace (d + t - t) with d by lia end. apply Z.mod_small. lia.
  Qed.
  (** Whoever holds a watch-only wallet and the private key of a wallet derived
      from it without hardened steps has the private key of the wallet. *)
  Theorem C132_stolen w w' path path' v d d' : watches w w' -> normal path -> map fst path' = map fst path -> along w path = Ok v -> hd_key w = HPriv d -> hd_key v = HPriv d' ->
    stolen w' path' d' = d.
  Proof.
    intros W N. revert w w' path' d W. induction N as [|(i & r) path Hi N IH]; intros w w' path' d W E D Ed Ev.
    - destruct path' as [|]; [|discriminate]. cbn [stolen]. cbn [derive] in D. congruence.
    - destruct path' as [|(i' & r') path']; [discriminate|]. cbn [map fst] in E. assert (i' = i) as -> by congruence. assert (map fst path' = map fst path) as E' by congruence. cbn [fst] in Hi. cbn [derive] in D. cbn [stolen].
      destruct (derive_counterpart S256 Sok Snp Sgy sha256 ripemd160 hmac_sha512 w w' i r r' W Hi) as [(e & Ee & _)|(u & u' & Eu & Eu' & W')]; [rewrite Ee in D; discriminate D|].
      rewrite Eu in D. cbn [bind] in D. rewrite Eu'. pose proof W' as (du & _ & _ & _ & Ku & _). rewrite (IH u u' path' du W' E' D Ku Ev). exact (unchild_ok w w' i r u d du W Hi Eu Ed Ku).
  Qed.
  (** So the property fails. *)
  Theorem C132_refuted : exists thief : hdwallet -> list (Z * Z) -> Z -> Z, forall w w' path v d d', watches w w' -> normal path -> along w path = Ok v -> hd_key w = HPriv d -> hd_key v = HPriv d' ->
    thief w' path d' = d.
  Proof. exists stolen. intros w w' path v d d' W N D. exact (C132_stolen w w' path path v d d' W N eq_refl D). Qed.
  (** A hardened step is not followed from a watch-only wallet, so [stolen] says
      nothing there. *)
  Theorem C132_hardened_partial w w' i r d' : watches w w' -> 2 ^ 31 <= i < 2 ^ 32 -> child w' i r = Raise PlainException /\ forall path, stolen w' ((i, r) :: path) d' = 0.
  Proof.
    intros (d & P & x & y & _ & _ & EP & _) Hi. pose proof (C45_hardened sha256 ripemd160 hmac_sha512 w' P i r EP Hi) as E.
    split; [exact E|]. intro path. cbn [stolen]. now rewrite E.
  Qed.
End Family.

(** The private wallet of key 1 and its watch-only wallet, and a child at any
    normal index; functions in place of the hashes. *)
Definition watching : hdwallet := mk_hd (HPub (PAff (g_x generator_secp256k1) (g_y generator_secp256k1) 0)) (hd_chain root) 7 false 0 (repeat 0 4) 0.
Lemma watching_root : watches root watching.
Proof.
  exists 1, (PAff (g_x generator_secp256k1) (g_y generator_secp256k1) 0), (g_x generator_secp256k1), (g_y generator_secp256k1).
  split; [reflexivity|]. split; [split; reflexivity|]. split; [reflexivity|]. split; [reflexivity|]. split; [exact generator_xy|]. split; [exact one_of|]. repeat split; reflexivity.
Qed.
Example C132_applies i r : 0 <= i < 2 ^ 31 -> exists v, watches root watching /\ normal [(i, r)] /\ derive h32 h32 h64 root [(i, r)] = Ok v /\ hd_key root = HPriv 1 /\ hd_key v = HPriv 2.
Proof.
  intro Hi. destruct (C78_applies i r) as (v & E & K); [lia|]. exists v. split; [exact watching_root|].
  split; [constructor; [exact Hi|constructor]|]. split; [cbn [derive]; rewrite E; reflexivity|]. split; [reflexivity|exact K].
Qed.
Definition z64 (k m : bytes) : bytes := be_bytes 32 0 ++ be_bytes 32 (be_val m).
Lemma z64_ok k m : wf_bytes (z64 k m) /\ zlen (z64 k m) = 64.
Proof. unfold z64. split; [apply wf_bytes_app; split; apply wf_be_bytes|]. rewrite zlen_app, !zlen_be_bytes. reflexivity. Qed.
(** The child signs. *)
Example C131_applies i r : 0 <= i < 2 ^ 31 -> exists v sig, watches root watching /\ normal [(i, r)] /\ derive h32 h32 z64 root [(i, r)] = Ok v /\ hd_sign h32 S256 v [] (Ok 1) = Ok sig.
Proof.
  intro Hi. assert (forall k m, be_val (ztake 32 (z64 k m)) = 0) as V. { intros k m. unfold z64. rewrite ztake_app_exact by (rewrite zlen_be_bytes; reflexivity). reflexivity. }
  destruct (compress_of S256 Sok Snp Slen Sp _ _ 0 generator_xy) as (k & _ & C & _).
  pose proof (child_priv S256 Sok Snp Sgy Slen Sp h32 h32 z64 z64_ok root i r 1 _ _ k eq_refl ltac:(split; reflexivity) ltac:(lia) ltac:(reflexivity) generator_xy one_of C) as E. cbv zeta in E.
  unfold child_hash in E. rewrite !V in E.
  destruct (sign_returns S256 Sok Snp Sgy Slen Sp h32 h32_ok [] (be_bytes 32 1) 1 1 (g_x generator_secp256k1) (g_y generator_secp256k1)) with (r := g_x generator_secp256k1) (y' := g_y generator_secp256k1) as (sig & s & Es & _).
  1: exact (octets_of 1 ltac:(split; [discriminate|reflexivity])).
  1: exact one_of. 1: exact generator_xy. 1: reflexivity. 1: reflexivity. 1: split; [discriminate|reflexivity]. 1: split; [discriminate|reflexivity]. 1: exact one_of. 1: exact generator_xy. 1: discriminate. 1: vm_compute; discriminate. 1: reflexivity.
  eexists _, sig. split; [exact watching_root|]. split; [constructor; [exact Hi|constructor]|]. split; [cbn [derive]; rewrite E; reflexivity|exact Es].
Qed.

(** ** Assumptions *)

Print Assumptions C131_signatures_partial.
Print Assumptions C131_only_the_private.
Print Assumptions C132_stolen.
Print Assumptions C132_refuted.
Print Assumptions C132_hardened_partial.
