(** Properties C27-C30: Base58, Base58Check, WIF and addresses. *)
From Coq Require Import String ZArith List Lia Bool.
From Verif Require Import PyBase PyVal Base58Model Base58Proofs.
Import ListNotations.
Open Scope string_scope.
Open Scope list_scope.
Open Scope Z_scope.

(** The alphabet, written out independently of the model: digits and letters
    except 0, O, I and l, in ASCII order. *)
Definition spec_alphabet : list Z :=
  filter (fun c => negb (existsb (Z.eqb c) [48; 79; 73; 108]))
    (map Z.of_nat (seq 48 10 ++ seq 65 26 ++ seq 97 26)).
Definition base58_text (s : bytes) : Prop := Forall (fun c => In c spec_alphabet) s.
Lemma alphabet_spec : alphabet = spec_alphabet. Proof. vm_compute. reflexivity. Qed.
Lemma base58_text_over s : base58_text s <-> over_alphabet s.
Proof. unfold base58_text, over_alphabet. rewrite alphabet_spec. reflexivity. Qed.

(** ** C27: Base58 round trips *)

Theorem C27_decode_encode v : wf_bytes v ->
  exists s, b58encode_py (VBytes v) = Ok s /\ base58_text s /\ b58decode_py (VBytes s) = Ok v /\ b58decode_py (VStr s) = Ok v.
Proof.
  intro H. exists (b58encode v). destruct (b58_roundtrip v H) as (Ha & Hd). split; [reflexivity|].
  split; [now apply base58_text_over|]. split; [exact Hd|]. unfold b58decode_py. cbn [scrub_input].
  replace (forallb _ (b58encode v)) with true; [exact Hd|]. symmetry. apply forallb_forall. intros x Hx.
  unfold over_alphabet in Ha. rewrite Forall_forall in Ha. apply Ha in Hx. clear - Hx.
  assert (forallb (fun c => (0 <=? c) && (c <? 128)) alphabet = true) as G by (vm_compute; reflexivity).
  rewrite forallb_forall in G. now apply G.
Qed.
Theorem C27_encode_decode s : base58_text s ->
  exists v, b58decode_py (VBytes s) = Ok v /\ wf_bytes v /\ b58encode_py (VBytes v) = Ok s.
Proof.
  intro H. apply base58_text_over in H. destruct (b58_inverse s H) as (v & E & W & R). exists v.
  split; [exact E|]. split; [exact W|]. unfold b58encode_py. cbn [scrub_input bind]. now rewrite R.
Qed.
(** Any other byte string, or text, is a ValueError (UnicodeEncodeError is one). *)
Theorem C27_other_characters s : ~ base58_text s ->
  b58decode_py (VBytes s) = Raise ValueError /\
  (b58decode_py (VStr s) = Raise ValueError \/ b58decode_py (VStr s) = Raise UnicodeError).
Proof.
  intro H. rewrite base58_text_over in H. pose proof (b58_other s H) as E. split; [exact E|].
  unfold b58decode_py. cbn [scrub_input]. destruct (forallb _ s); [left; exact E|right; reflexivity].
Qed.
(** Leading zero bytes are exactly the leading ones of the text. *)
Theorem C27_leading_zeros v k : wf_bytes v ->
  (exists r, v = repeat 0 k ++ r) <-> (exists t, b58encode v = repeat 49 k ++ t).
Proof.
  intro Hw. destruct (split_bytes v Hw) as (n & v' & -> & Cv).
  pose proof (val_bound 256 ltac:(lia) v' (proj1 Cv)) as Hb.
  destruct (exists_digits 58 (val 256 v') ltac:(lia) ltac:(lia)) as (l & Cl & El).
  rewrite (b58encode_eq n v' l Cv Cl El).
  assert (forall c (x : bytes), match x with [] => True | y :: _ => y <> c end ->
            (exists r, repeat c n ++ x = repeat c k ++ r) <-> (k <= n)%nat) as G.
  { intros c x Hx. split.
    - intros (r & E). revert k E. clear - Hx. induction n as [|n IH]; intros k E.
      + destruct k; [lia|]. cbn in E. destruct x; [discriminate|]. injection E as E1 E2. now destruct (Hx E1).
      + destruct k; [lia|]. cbn in E. injection E as E. apply IH in E. lia.
    - intro L. exists (repeat c (n - k) ++ x). rewrite app_assoc, <- repeat_app. do 2 f_equal. lia. }
  rewrite (G 0 v') by apply Cv. rewrite (G 49 (map chr58 l)); [reflexivity|].
  destruct l as [|d l]; cbn; [exact I|]. destruct Cl as (F & N). apply Forall_inv in F. now apply chr58_not1.
Qed.
Example C27_nonvacuous : wf_bytes [0; 0; 57; 255] /\ b58encode [0; 0; 57; 255] = bs "115Qz" /\ b58decode (bs "115Qz") = Ok [0; 0; 57; 255]
  /\ ~ base58_text (bs "1O1").
Proof.
  split; [repeat constructor; unfold is_byte; lia|]. split; [vm_compute; reflexivity|]. split; [vm_compute; reflexivity|].
  intro H. inversion H as [|? ? _ H']. inversion H' as [|? ? H'' _]. vm_compute in H''. intuition discriminate.
Qed.

(** ** C28: Base58Check.  SHA-256 is a parameter; only its digest length and that
    it yields bytes are used. *)
Section C28.
Variable sha256 : bytes -> bytes.
Hypothesis sha_len : forall x, zlen (sha256 x) = 32.
Hypothesis sha_wf : forall x, wf_bytes (sha256 x).
Definition checksum (v : bytes) : bytes := ztake 4 (sha256 (sha256 v)).
Let sha_len4 : forall x, 4 <= zlen (sha256 x). Proof. intro x. rewrite sha_len. lia. Qed.

Theorem C28_roundtrip v : wf_bytes v -> decode_check sha256 (encode_check sha256 v) = Ok (Some v).
Proof. now apply check_roundtrip. Qed.
Theorem C28_accepts_only s v : wf_bytes v ->
  decode_check sha256 s = Ok (Some v) <-> b58decode s = Ok (v ++ checksum v).
Proof. now apply decode_check_iff. Qed.
(** The exact outcome for every text. *)
Theorem C28_outcome s : 
  (~ base58_text s /\ decode_check sha256 s = Raise ValueError) \/
  (exists v, wf_bytes v /\ s = encode_check sha256 v /\ decode_check sha256 s = Ok (Some v)) \/
  (base58_text s /\ (forall v, b58decode s <> Ok (v ++ checksum v)) /\ decode_check sha256 s = Ok None).
Proof.
  destruct (over_alphabet_dec s) as [Ha|Hn].
  - right. destruct (decode_check sha256 s) as [[v|]|e] eqn:E.
    + left. exists v. destruct (check_inverse sha256 sha_len4 s v E) as (W & R). auto.
    + right. split; [now apply base58_text_over|]. split; [|reflexivity]. intros v Hv.
      assert (wf_bytes v) as W by (apply b58decode_inv in Hv; destruct Hv as (_ & Hv & _); apply wf_bytes_app in Hv; tauto).
      apply (decode_check_iff sha256 sha_len4) in Hv; [|assumption]. congruence.
    + exfalso. unfold decode_check in E. destruct (b58_inverse s Ha) as (v & Ev & _). rewrite Ev in E. discriminate.
  - left. split; [now rewrite base58_text_over|]. unfold decode_check. now rewrite b58_other.
Qed.
(** ** C29 *)
Theorem C29_wif_roundtrip k : wf_bytes k -> zlen k = 32 ->
  privkey_from_wif sha256 (privkey_to_wif sha256 k [0x80]) 0x80 = Ok k /\
  (exists r, privkey_to_wif sha256 k [0x80] = bs "5" ++ r) /\
  privkey_from_wif sha256 (privkey_to_wif sha256 (k ++ [1]) [0x80]) 0x80 = Ok k /\
  (exists r, privkey_to_wif sha256 (k ++ [1]) [0x80] = bs "K" ++ r \/ privkey_to_wif sha256 (k ++ [1]) [0x80] = bs "L" ++ r).
Proof.
  intros W L. split; [now apply wif_roundtrip|]. split; [now apply wif_lead_5|]. split; [now apply wif_roundtrip_compressed|now apply wif_lead_KL].
Qed.
(** Nothing else is accepted... *)
Theorem C29_wif_accepts_only w k : privkey_from_wif sha256 w 0x80 = Ok k ->
  wf_bytes k /\ zlen k = 32 /\ (w = privkey_to_wif sha256 k [0x80] \/ w = privkey_to_wif sha256 (k ++ [1]) [0x80]).
Proof. now apply wif_inverse. Qed.
(** ... and when the checksum is right and the payload is not empty, the refusal
    is a ValueError. *)
Theorem C29_wif_rejects_partial w p v : decode_check sha256 w = Ok (Some (p :: v)) ->
  (forall k, zlen k = 32 -> w <> privkey_to_wif sha256 k [0x80] /\ w <> privkey_to_wif sha256 (k ++ [1]) [0x80]) ->
  privkey_from_wif sha256 w 0x80 = Raise ValueError.
Proof.
  intros D N. destruct (privkey_from_wif sha256 w 0x80) as [k|e] eqn:E.
  - exfalso. destruct (C29_wif_accepts_only _ _ E) as (_ & L & [H|H]); destruct (N k L); contradiction.
  - unfold privkey_from_wif in E. rewrite D in E. cbn [bind] in E.
    assert (w <> []) as Nw.
    { intros ->. apply (decode_check_iff sha256 sha_len4) in D.
      - change (b58decode []) with (Ok (@nil Z)) in D. discriminate.
      - apply (check_inverse sha256 sha_len4) in D. tauto. }
    destruct w as [|ch w]; [contradiction|].
    repeat match type of E with context [if ?c then _ else _] => destruct c end; congruence.
Qed.
(** A corrupted checksum is a TypeError and not a ValueError, for every such text. *)
Theorem C29_bad_checksum_refuted w : decode_check sha256 w = Ok None ->
  privkey_from_wif sha256 w 0x80 = Raise TypeError.
Proof. unfold privkey_from_wif. intros ->. reflexivity. Qed.
Theorem C29_bad_characters w : ~ base58_text w -> privkey_from_wif sha256 w 0x80 = Raise ValueError.
Proof. intro H. rewrite base58_text_over in H. unfold privkey_from_wif, decode_check. now rewrite b58_other. Qed.
Theorem C29_empty_payload_refuted : privkey_from_wif sha256 (encode_check sha256 []) 0x80 = Raise IndexError.
Proof. unfold privkey_from_wif. rewrite check_roundtrip by (assumption || constructor). reflexivity. Qed.

(** ** C30 *)
Section C30.
Variable sha512 ripemd160 : bytes -> bytes.
(** The key digest, written with its own formula. *)
Definition key_digest (pk : bytes) : bytes :=
  sha256 (ripemd160 (firstn 32 (sha512 pk)) ++ ripemd160 (skipn 32 (sha512 pk))).
Lemma pubkey_digest_spec pk : pubkey_digest sha256 sha512 ripemd160 pk = key_digest pk.
Proof. unfold pubkey_digest, key_digest. now rewrite ztake_firstn, zdrop_skipn. Qed.

Theorem C30_address_decodes pk vcn ver : wf_bytes ver ->
  decode_check sha256 (publickey_to_address sha256 sha512 ripemd160 pk vcn ver)
    = Ok (Some (ver ++ hex4 (vcn mod 65536) ++ key_digest pk)) /\ zlen (hex4 (vcn mod 65536)) = 4.
Proof.
  intro W. unfold publickey_to_address. rewrite pubkey_digest_spec. split; [|reflexivity].
  apply address_decode; try assumption. apply sha_wf.
Qed.
Theorem C30_address_injective pk1 vcn1 ver1 pk2 vcn2 ver2 : wf_bytes ver1 -> wf_bytes ver2 -> zlen ver1 = zlen ver2 ->
  publickey_to_address sha256 sha512 ripemd160 pk1 vcn1 ver1 = publickey_to_address sha256 sha512 ripemd160 pk2 vcn2 ver2 <->
  ver1 = ver2 /\ vcn1 mod 65536 = vcn2 mod 65536 /\ key_digest pk1 = key_digest pk2.
Proof.
  intros W1 W2 L. unfold publickey_to_address. rewrite !pubkey_digest_spec. split.
  - apply address_inj; try assumption; apply sha_wf.
  - intros (-> & Ev & ->). unfold pubkeyhash_to_address. now rewrite !land_ffff, Ev.
Qed.
(** hex4 is the four-digit hexadecimal numeral. *)
Theorem C30_vcn_recoverable a b : 0 <= a < 65536 -> 0 <= b < 65536 -> hex4 a = hex4 b -> a = b.
Proof. apply hex4_inj. Qed.
End C30.
End C28.

Definition ex_h (x : bytes) : bytes := le_bytes 32 (le_val x * 7919 + zlen x).
Example C28_nonvacuous :
  (forall x, zlen (ex_h x) = 32) /\ (forall x, wf_bytes (ex_h x)) /\
  decode_check ex_h (encode_check ex_h [1; 2; 3]) = Ok (Some [1; 2; 3]) /\
  decode_check ex_h (bs "2") = Ok None /\ decode_check ex_h (bs "0") = Raise ValueError.
Proof.
  split; [intro; apply zlen_le_bytes|]. split; [intro; apply wf_le_bytes|].
  split; [vm_compute; reflexivity|]. split; [vm_compute; reflexivity|vm_compute; reflexivity].
Qed.
Example C29_nonvacuous : 
  privkey_from_wif ex_h (privkey_to_wif ex_h (repeat 9 32) [0x80]) 0x80 = Ok (repeat 9 32) /\
  privkey_from_wif ex_h (bs "2") 0x80 = Raise TypeError /\
  privkey_from_wif ex_h (privkey_to_wif ex_h (repeat 9 31) [0x80]) 0x80 = Raise ValueError.
Proof. split; [vm_compute; reflexivity|]. split; [vm_compute; reflexivity|vm_compute; reflexivity]. Qed.
Example C30_nonvacuous :
  publickey_to_address ex_h ex_h ex_h [4; 5] 0x1002a [0] <> publickey_to_address ex_h ex_h ex_h [4; 5] 0x2b [0] /\
  publickey_to_address ex_h ex_h ex_h [4; 5] 0x1002a [0] = publickey_to_address ex_h ex_h ex_h [4; 5] 0x2a [0] /\ hex4 0x2a = bs "002a".
Proof. split; [vm_compute; discriminate|]. split; [vm_compute; reflexivity|vm_compute; reflexivity]. Qed.

(** ** Assumptions *)

Print Assumptions C27_decode_encode.
Print Assumptions C27_encode_decode.
Print Assumptions C27_other_characters.
Print Assumptions C27_leading_zeros.
Print Assumptions C28_roundtrip.
Print Assumptions C28_accepts_only.
Print Assumptions C28_outcome.
Print Assumptions C29_wif_roundtrip.
Print Assumptions C29_wif_accepts_only.
Print Assumptions C29_wif_rejects_partial.
Print Assumptions C29_bad_checksum_refuted.
Print Assumptions C29_bad_characters.
Print Assumptions C29_empty_payload_refuted.
Print Assumptions C30_address_decodes.
Print Assumptions C30_address_injective.
Print Assumptions C30_vcn_recoverable.
