(** C140: what the text of a wallet tells. *)
From Coq Require Import String ZArith List Lia Bool.
From Verif Require Import PyBase Base58Model Base58Proofs EcModel KeyModel KeyCases PropsKey WalletModel WalletProofs PropsBase58 PropsWallet PropsWatch PropsIdent PrintModel.
Import ListNotations.
Open Scope string_scope.
Open Scope list_scope.
Open Scope Z_scope.

(** The text as read by a person: the kind of the wallet, its address, and
    whether it has a private key. *)
Inductive kind : Type := Single | Hierarchical.
Definition kind_of (v : wallet) : kind := match v with WAddress _ => Single | WHD _ => Hierarchical end.
Definition label (k : kind) : bytes := match k with Single => bs "Address" | Hierarchical => bs "HD" end.
Definition sheet (py2 : bool) (k : kind) (address : bytes) (private : bool) : bytes :=
  bs "<" ++ label k ++ bs " address=" ++ (if py2 then address else bs "b'" ++ address ++ bs "'") ++ bs " private=" ++ (if private then bs "**redacted**" else bs "None") ++ bs ">".

Lemma upto c (a b x y : bytes) : ~ In c a -> ~ In c b -> a ++ c :: x = b ++ c :: y -> a = b /\ x = y.
Proof.
  revert b. induction a as [|h a IH]; intros [|k b] Ha Hb E; cbn [app In] in *.
  - split; congruence.
  - exfalso. apply Hb. left. congruence.
  - exfalso. apply Ha. left. congruence.
  - assert (h = k) as <- by congruence. destruct (IH b) as (-> & ->); [tauto|tauto|congruence|now split].
Qed.
Lemma not58 a : over_alphabet a -> ~ In 32 a /\ ~ In 39 a.
Proof.
  intro O. unfold over_alphabet in O. rewrite Forall_forall in O.
  assert (existsb (Z.eqb 32) alphabet = false /\ existsb (Z.eqb 39) alphabet = false) as (A & B) by (split; vm_compute; reflexivity).
  split; intro H; apply O in H; [rewrite <- not_true_iff_false in A; apply A|rewrite <- not_true_iff_false in B; apply B]; apply existsb_exists; eexists; (split; [exact H|reflexivity]).
Qed.
Lemma sheet_inj py2 k a b k' a' b' : over_alphabet a -> over_alphabet a' -> sheet py2 k a b = sheet py2 k' a' b' -> k = k' /\ a = a' /\ b = b'.
Proof.
  intros O O' E. apply not58 in O, O'. destruct O as (O1 & O2), O' as (O1' & O2'). unfold sheet in E.
  assert (k = k') as <-. { destruct k, k'; [reflexivity| | |reflexivity]; exfalso; cbn in E; discriminate. }
  split; [reflexivity|]. apply app_inv_head in E. apply app_inv_head in E. apply app_inv_head in E.
  assert (forall u u' : bytes, (if py2 then a else bs "b'" ++ a ++ bs "'") ++ bs " private=" ++ u = (if py2 then a' else bs "b'" ++ a' ++ bs "'") ++ bs " private=" ++ u' -> a = a' /\ u = u') as K.
  { intros u u' H. destruct py2.
    - apply upto in H; [|exact O1|exact O1']. destruct H as (Ha & Hu). split; [exact Ha|]. congruence.
    - rewrite <- !app_assoc in H. apply app_inv_head in H. apply upto in H; [|exact O2|exact O2']. destruct H as (Ha & Hu). split; [exact Ha|]. change (bs " private=" ++ u = bs " private=" ++ u') in Hu. now apply app_inv_head in Hu. }
  apply K in E. destruct E as (-> & E). split; [reflexivity|]. destruct b, b'; (reflexivity || discriminate).
Qed.

Section Print.
  Variable sha256 sha512 ripemd160 : bytes -> bytes.
  Hypothesis Hsha : forall d, wf_bytes (sha256 d) /\ zlen (sha256 d) = 32.
  Notation made := (made sha256 sha512 ripemd160).
  Notation shows := (shows sha256 sha512 ripemd160).
  Notation text := (wallet_str sha256 sha512 ripemd160 SECP256k1).
  (** str gives exactly this sheet, for wallets that have an address; the
      others, HD wallets made from the point at infinity, raise what address()
      raises. *)
  Theorem C140_text py2 v t : made v -> shows v t -> exists b, (b = true <-> private v) /\ text py2 v = Ok (sheet py2 (kind_of v) t b).
  Proof.
    destruct v as [a|w]; cbn [PropsIdent.made PropsIdent.shows kind_of wallet_str private]; intros M S.
    - destruct (address_facts sha256 sha512 ripemd160 SECP256k1 Hsha Sord Slen a M) as (_ & _ & _ & _ & _ & F). unfold address_str. rewrite S. destruct (ad_priv a) as [k|].
      + destruct F as (_ & _ & N & _). destruct k as [|c k]; [contradiction|]. exists true. split; [split; [discriminate|reflexivity]|reflexivity].
      + exists false. split; [split; [discriminate|congruence]|reflexivity].
    - apply (hd_is sha256 sha512 ripemd160 Hsha) in M. destruct M as (K & _). unfold hd_str. rewrite S. cbn [bind]. destruct (hd_key w) as [d|P].
      + exists true. split; [split; [now exists d|reflexivity]|]. destruct (Z.eqb_spec d 0); [lia|reflexivity].
      + exists false. split; [split; [discriminate|intros (d & D); discriminate]|reflexivity].
  Qed.
  Theorem C140_raises py2 w e : hd_address sha256 sha512 ripemd160 SECP256k1 w None = Raise e -> text py2 (WHD w) = Raise e.
  Proof. intro E. cbn [wallet_str]. unfold hd_str. now rewrite E. Qed.
  (** So the text tells the kind, the address and whether there is a private
      key, and nothing else: two wallets have the same text exactly if they
      agree in these. *)
  Theorem C140_tells py2 v w t u : made v -> made w -> shows v t -> shows w u ->
    (text py2 v = text py2 w <-> kind_of v = kind_of w /\ t = u /\ (private v <-> private w)).
  Proof.
    intros Mv Mw Sv Sw. destruct (C140_text py2 v t Mv Sv) as (b & B & ->). destruct (C140_text py2 w u Mw Sw) as (c & C & ->).
    assert (forall x y, made x -> shows x y -> over_alphabet y) as O.
    { intros x y Mx Sx. destruct (PropsIdent.shown sha256 sha512 ripemd160 Hsha x y Mx Sx) as (_ & k & _ & ->). unfold publickey_to_address, pubkeyhash_to_address, encode_check. apply b58_roundtrip. rewrite Z.land_ones with (n := 16) by lia. pose proof (Z.mod_pos_bound (vcn_of x) (2 ^ 16) ltac:(reflexivity)) as Bm. change (2 ^ 16) with 65536 in *.
      pose proof (version_wf (network x)) as (Wv & _). pose proof (hex4_wf _ Bm) as Wh. unfold pubkey_digest. repeat (apply wf_bytes_app; split); try assumption; [apply Hsha|apply Forall_ztake, Hsha]. }
    split.
    - intro E. assert (sheet py2 (kind_of v) t b = sheet py2 (kind_of w) u c) as E' by congruence. apply sheet_inj in E'; [|now apply (O v)|now apply (O w)]. destruct E' as (E1 & E2 & E3). subst c. split; [exact E1|]. split; [exact E2|]. tauto.
    - intros (-> & -> & E). do 2 f_equal. destruct b, c; tauto || (symmetry; tauto) || idtac; exfalso; (assert (false = true) by tauto; discriminate).
  Qed.
  (** In particular str shows no secret: wallets with the same address and
      different private keys have the same text. *)
  Hypothesis Hrip : forall d, zlen (ripemd160 d) = 20.
  Example C140_applies py2 : exists a b, made (WAddress a) /\ made (WAddress b) /\ shows (WAddress a) (ad_address a) /\ ad_priv a <> ad_priv b /\
    text py2 (WAddress a) = text py2 (WAddress b) /\ exists t, text py2 (WAddress a) = Ok (sheet py2 Single t true).
  Proof.
    destruct (C139_secrets_refuted sha256 sha512 ripemd160 Hsha Hrip 1 7 false true) as (a & b & Ea & Eb & N & E & (ka & ? & Ka & _) & (kb & ? & Kb & _)); [split; reflexivity|].
    assert (made (WAddress a)) as Ma by (eexists None, _, (Some 7), 0, false; split; [lia|]; split; [exact I|exact Ea]). assert (made (WAddress b)) as Mb by (eexists None, _, (Some 7), 0, false; split; [lia|]; split; [exact I|exact Eb]).
    exists a, b. split; [exact Ma|]. split; [exact Mb|]. split; [reflexivity|]. split; [exact N|]. split.
    - apply (C140_tells py2 (WAddress a) (WAddress b) (ad_address a) (ad_address b)); [exact Ma|exact Mb|reflexivity|reflexivity|]. cbn [private]. rewrite Ka, Kb. split; [reflexivity|]. split; [exact E|]. split; discriminate.
    - exists (ad_address a). destruct (C140_text py2 (WAddress a) (ad_address a) Ma eq_refl) as (c & C & ->). cbn [private] in C. rewrite Ka in C. assert (c = true) as -> by (apply C; discriminate). reflexivity.
  Qed.
End Print.

(** ** Assumptions *)

Print Assumptions C140_text.
Print Assumptions C140_raises.
Print Assumptions C140_tells.
