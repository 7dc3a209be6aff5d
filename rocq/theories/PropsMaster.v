(** C150: which wallet a master seed gives, compared with BIP-32
    (nbc/wallet/hdwallet.py:228-237). *)
From Coq Require Import String ZArith List Lia Bool.
From Verif Require Import PyBase PyVal UtilModel DerModel DerProofs EcModel EcParams256k1 KeyModel KeySpec PropsEc PropsKey WalletModel WalletProofs HdProofs PropsWallet.
Import ListNotations.
Open Scope string_scope.
Open Scope list_scope.
Open Scope Z_scope.

Section Master.
  (** HMAC-SHA512 of the standard library: bytes, 64 of them. *)
  Variable hmac_sha512 : bytes -> bytes -> bytes.
  Hypothesis Hmac : forall k m, wf_bytes (hmac_sha512 k m) /\ zlen (hmac_sha512 k m) = 64.

  (** BIP-32, "Master key generation": I = HMAC-SHA512(Key = "Bitcoin seed",
      Data = S); I_L is the key, I_R the chain code; in case parse256(I_L) is 0
      or parse256(I_L) >= n, the master key is invalid. *)
  Definition bip32_number (seed : bytes) : Z := be_val (ztake 32 (hmac_sha512 (bs "Bitcoin seed") seed)).
  Definition bip32_master (seed : bytes) (d : Z) (chain : bytes) : Prop :=
    d = bip32_number seed /\ 0 < d < secp_n /\ hmac_sha512 (bs "Bitcoin seed") seed = be_bytes 32 d ++ chain.
  Definition master := from_master_seed hmac_sha512 S256.

  (** The virtual chain number: 16 bits of the given one, or the draw. *)
  Definition number_of (vcn : option Z) (r : Z) : Z := match vcn with None => r | Some v => v mod 65536 end.

  Lemma number_read seed : string_to_number (ztake 32 (hmac_sha512 (bs "Bitcoin seed") seed)) = Ok (bip32_number seed).
  Proof.
    apply string_to_number_spec. intro E. destruct (Hmac (bs "Bitcoin seed") seed) as (_ & L).
    assert (zlen (ztake 32 (hmac_sha512 (bs "Bitcoin seed") seed)) = 32) as T by (rewrite zlen_ztake; lia). rewrite E in T. discriminate T.
  Qed.
  (** Exactly the seeds whose number is a multiple of the order are refused; the
      key of the others is the number modulo the order. *)
  Theorem C150_made seed vcn r testnet :
    (bip32_number seed mod secp_n = 0 /\ master seed vcn r testnet = Raise ValueError) \/
    (0 < bip32_number seed mod secp_n < secp_n /\ exists chain, zlen chain = 32 /\ (exists l, zlen l = 32 /\ hmac_sha512 (bs "Bitcoin seed") seed = l ++ chain) /\
      master seed vcn r testnet = Ok (mk_hd (HPriv (bip32_number seed mod secp_n)) chain (number_of vcn r) testnet 0 [0; 0; 0; 0] 0)).
  Proof.
    unfold master, from_master_seed. cbv zeta. rewrite number_read. cbn [bind]. change (cv_order S256) with secp_n.
    assert (0 < secp_n) as Pn by reflexivity. pose proof (Z.mod_pos_bound (bip32_number seed) secp_n Pn) as B.
    destruct (Hmac (bs "Bitcoin seed") seed) as (_ & L). set (h := hmac_sha512 _ _) in *. set (k := bip32_number seed mod secp_n) in *. clearbody k h.
    destruct (Z.eqb_spec k 0) as [Z0|Z0]; [left; now split|right]. split; [lia|]. exists (zdrop 32 h).
    assert (zlen (zdrop 32 h) = 32) as LD by (rewrite zlen_zdrop; lia). split; [exact LD|]. split.
    - exists (ztake 32 h). split; [rewrite zlen_ztake; lia|]. symmetry. apply ztake_zdrop.
    - unfold hd_new. change (cv_order S256) with secp_n. destruct (Z.ltb_spec 0 k); [|lia]. destruct (Z.ltb_spec k secp_n); [|lia]. cbn [andb bind]. rewrite LD. change (negb (32 =? 32)) with false. cbv iota zeta. assert (choose_vcn vcn r = number_of vcn r) as ->; [|reflexivity].
      destruct vcn as [v|]; [|reflexivity]. unfold choose_vcn, number_of. change 65535 with (Z.ones 16). now rewrite Z.land_ones by lia.
  Qed.
  (** The seeds that are valid for BIP-32 give its master key and chain code. *)
  Theorem C150_standard_partial seed d chain vcn r testnet : bip32_master seed d chain ->
    master seed vcn r testnet = Ok (mk_hd (HPriv d) chain (number_of vcn r) testnet 0 [0; 0; 0; 0] 0).
  Proof.
    intros (-> & B & E). destruct (C150_made seed vcn r testnet) as [(M & _)|(_ & c & Lc & (l & Ll & E') & ->)]; rewrite Z.mod_small in * by lia; [lia|].
    rewrite E' in E. assert (c = chain) as ->; [|reflexivity]. 
    assert (zdrop 32 (l ++ c) = zdrop 32 (be_bytes 32 (bip32_number seed) ++ chain)) as D by (now rewrite E).
    rewrite !zdrop_app_exact in D; [exact D|rewrite zlen_be_bytes; reflexivity|symmetry; exact Ll].
  Qed.
End Master.

(** ** Cases *)
Lemma h64_number seed : bip32_number h64 seed = 1.
Proof. unfold bip32_number, h64. rewrite ztake_app_exact by (rewrite zlen_be_bytes; reflexivity). reflexivity. Qed.
Example C150_applies : bip32_master h64 (bs "seed") 1 (be_bytes 32 (be_val (bs "seed"))).
Proof. unfold bip32_master. rewrite h64_number. split; [reflexivity|]. split; [split; reflexivity|reflexivity]. Qed.
(** A function with the number n + 5. *)
Definition g64 (k m : bytes) : bytes := be_bytes 32 (secp_n + 5) ++ repeat 7 32.
Lemma g64_ok k m : wf_bytes (g64 k m) /\ zlen (g64 k m) = 64.
Proof.
  unfold g64. split; [|rewrite zlen_app, zlen_be_bytes; reflexivity]. apply wf_bytes_app. split; [apply wf_be_bytes|]. apply Forall_forall. intros b Hb. apply repeat_spec in Hb. subst. unfold is_byte. lia.
Qed.
(** BIP-32 declares such a seed invalid; here it gives a wallet. *)
Theorem C150_invalid_refuted : ~ (forall hmac_sha512 seed vcn r testnet w, (forall k m, wf_bytes (hmac_sha512 k m) /\ zlen (hmac_sha512 k m) = 64) ->
  from_master_seed hmac_sha512 S256 seed vcn r testnet = Ok w -> exists d chain, bip32_master hmac_sha512 seed d chain).
Proof.
  intro H. assert (bip32_number g64 (bs "seed") = secp_n + 5) as E.
  { unfold bip32_number, g64. rewrite ztake_app_exact by (rewrite zlen_be_bytes; reflexivity). apply be_val_be_bytes_small. split; [discriminate|reflexivity]. }
  destruct (C150_made g64 g64_ok (bs "seed") (Some 7) 0 false) as [(M & _)|(_ & c & _ & _ & M)].
  - rewrite E in M. vm_compute in M. discriminate M.
  - destruct (H g64 (bs "seed") (Some 7) 0 false _ g64_ok M) as (d & ch & -> & B & _). rewrite E in B. clear - B. set (n := secp_n) in *. clearbody n. lia.
Qed.

(** ** Assumptions *)

Print Assumptions C150_made.
Print Assumptions C150_standard_partial.
Print Assumptions C150_invalid_refuted.
