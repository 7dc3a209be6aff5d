(** C31 to C34, C37 and C77: public key texts, signatures, key objects and the
    shared secret on secp256k1.  What is claimed is in KeySpec.v (texts),
    EcdsaSpec.v (valid signatures), EcSpec.v (points) and DerSpec.v. *)
From Coq Require Import ZArith Znumtheory List Lia Bool.
From Verif Require Import PyBase Base58Model Base58Proofs NtModel NtJacobi EcModel EcSpec EcProofs EcOrder EcLib EcParams192 EcParams224 EcParams256 EcParams384 EcParams521 EcParams256k1 EcdsaSpec DerModel DerSpec DerAccept PropsDer KeyModel KeySpec KeyProofs KeyDer KeyCases PropsEc.
Import ListNotations.
Open Scope list_scope.
Open Scope Z_scope.

Definition secp_p : Z := c_p secp.
(** (x, y) is a point of secp256k1. *)
Definition secp_xy (x y : Z) : Prop := on_curve (c_p secp) (c_a secp) (c_b secp) (Some (x, y)).
(** (x, y) is d times the generator: the public key of the private key d, or
    the point of the nonce d. *)
Definition point_of (d x y : Z) : Prop := times (coords (gen_point generator_secp256k1)) d (Some (x, y)).
Definition secp_valid (x y h r s : Z) : Prop := ecdsa_valid (c_p secp) (c_a secp) secp_n (coords (gen_point generator_secp256k1)) (Some (x, y)) h r s.
(** The equation of verification gives the point at infinity. *)
Definition secp_infinite (x y h r s : Z) : Prop := verification_point (c_p secp) (c_a secp) secp_n (coords (gen_point generator_secp256k1)) (Some (x, y)) h r s None.
Definition is_square (y : Z) : Prop := exists z, (secp_p | z * z - y).

Lemma Snp : g_order (cv_gen SECP256k1) <= c_p (g_curve (cv_gen SECP256k1)). Proof. discriminate. Qed.
Lemma Sgy : 0 <= g_y (cv_gen SECP256k1) < c_p (g_curve (cv_gen SECP256k1)). Proof. split; [discriminate|reflexivity]. Qed.
Lemma Slen : cv_baselen SECP256k1 = 32. Proof. vm_compute. reflexivity. Qed.
Lemma Sp : c_p (g_curve (cv_gen SECP256k1)) < 256 ^ 32. Proof. reflexivity. Qed.
Lemma Sgx : g_x (cv_gen SECP256k1) < g_order (cv_gen SECP256k1). Proof. reflexivity. Qed.
Lemma Sgyn : g_y (cv_gen SECP256k1) < g_order (cv_gen SECP256k1). Proof. reflexivity. Qed.
Lemma Sgyp : c_p (g_curve (cv_gen SECP256k1)) - g_y (cv_gen SECP256k1) < g_order (cv_gen SECP256k1). Proof. reflexivity. Qed.
Lemma Sp4 : c_p (g_curve (cv_gen SECP256k1)) mod 4 = 3. Proof. vm_compute. reflexivity. Qed.
Notation Sok := generator_secp256k1_ok.
(** The generator and a point with a small y. *)
Example generator_xy : secp_xy (g_x generator_secp256k1) (g_y generator_secp256k1). Proof. apply secp_generator. Qed.
Definition x6 : Z := 90781615921736716521742408320463983752714860352062599857041814520074891359474.
Example x6_xy : secp_xy x6 6.
Proof. split; [split; [discriminate|reflexivity]|]. split; [split; [discriminate|reflexivity]|]. apply (contains_div secp secp_ok). vm_compute. reflexivity. Qed.
(** A point whose x is not below n. *)
Definition yn : Z := 24738801717713540165859037596706942650182884013760002261031960508407254471123.
Example yn_xy : secp_xy (secp_n + 2) yn.
Proof. split; [split; [discriminate|reflexivity]|]. split; [split; [discriminate|reflexivity]|]. apply (contains_div secp secp_ok). vm_compute. reflexivity. Qed.
Lemma symbol_by a v : jacobi a secp_p = Ok v -> symbol a secp_p = v.
Proof. rewrite jacobi_ok; [congruence|discriminate|vm_compute; reflexivity]. Qed.
Lemma not_square a : 0 < a < secp_p -> jacobi a secp_p = Ok (-1) -> ~ is_square a.
Proof.
  intros Ha E S. apply symbol_by in E. apply (square_iff SECP256k1 Sok) in S; [|exact Ha]. change (symbol a secp_p = 1) in S. congruence.
Qed.

(** ** C31 *)
(** A text of 65 bytes for a point with coordinates below n is compressed and
    decompressed to itself if p - y is below n too, or if y is a square modulo
    p. *)
Theorem C31_round_trip_partial k x y : secp_xy x y -> x < secp_n -> y < secp_n -> sec1_uncompressed k x y -> secp_p - y < secp_n \/ is_square y ->
  exists k', compress_public_key k = Ok k' /\ sec1_compressed k' x y /\ decompress_public_key k' = Ok k.
Proof.
  intros On Hx Hy U H. destruct (compress_ok k x y U) as (k' & E & C). exists k'. split; [exact E|]. split; [exact C|].
  destruct (decompress_iff SECP256k1 Sok Snp Sgy Slen Sp k' x y Sp4 On Hx Hy C) as [((k'' & D & U') & _)|(_ & L & N)].
  - change (decompress_public_key k' = Ok k'') in D. rewrite D. f_equal. exact (uncompressed_fun _ _ x y U' U).
  - exfalso. destruct H as [H|H]; [|now apply N]. unfold secp_p, secp, secp_n in H. change (cv_gen SECP256k1) with generator_secp256k1 in L. lia.
Qed.
(** For the other points the compressed text is refused. *)
Theorem C31_round_trip_fails k x y : secp_xy x y -> x < secp_n -> y < secp_n -> sec1_uncompressed k x y -> ~ (secp_p - y < secp_n \/ is_square y) ->
  exists k', compress_public_key k = Ok k' /\ sec1_compressed k' x y /\ decompress_public_key k' = Raise ValueError.
Proof.
  intros On Hx Hy U H. destruct (compress_ok k x y U) as (k' & E & C). exists k'. split; [exact E|]. split; [exact C|].
  destruct (decompress_iff SECP256k1 Sok Snp Sgy Slen Sp k' x y Sp4 On Hx Hy C) as [(_ & Y)|(D & _)]; [|exact D]. exfalso. apply H. exact Y.
Qed.
(** So the property fails: the point with y = 6 is accepted in 65 bytes, not
    in 33. *)
Theorem C31_round_trip_refuted : exists k k' x y, secp_xy x y /\ x < secp_n /\ y < secp_n /\ sec1_uncompressed k x y /\ decompress_public_key k = Ok k /\
  compress_public_key k = Ok k' /\ sec1_compressed k' x y /\ decompress_public_key k' = Raise ValueError.
Proof.
  destruct (text_of SECP256k1 Sp x6 6 x6_xy) as (k & U).
  assert (~ is_square 6) as N by (apply not_square; [split; reflexivity|vm_compute; reflexivity]).
  destruct (C31_round_trip_fails k x6 6 x6_xy ltac:(reflexivity) ltac:(reflexivity) U) as (k' & E & C & D).
  { intros [H|H]; [|now apply N]. vm_compute in H. discriminate H. }
  exists k, k', x6, 6. split; [exact x6_xy|]. split; [reflexivity|]. split; [reflexivity|]. split; [exact U|]. split; [|now split].
  exact (text_ok SECP256k1 Sok Snp Sgy k x6 6 U x6_xy eq_refl eq_refl).
Qed.
(** Only texts of curve points are accepted, and what is returned is the text
    of that point. *)
Theorem C31_sound k k' : wf_bytes k -> decompress_public_key k = Ok k' ->
  exists x y, secp_xy x y /\ x < secp_n /\ sec1_uncompressed k' x y /\ (k = k' /\ y < secp_n \/ sec1_compressed k x y).
Proof. exact (decompress_sound SECP256k1 Sok Snp Sgy Slen Sp k k'). Qed.
Theorem C31_accepts k x y : secp_xy x y -> x < secp_n -> y < secp_n -> sec1_uncompressed k x y -> decompress_public_key k = Ok k.
Proof. exact (fun On Hx Hy U => text_ok SECP256k1 Sok Snp Sgy k x y U On Hx Hy). Qed.
(** The key of the private key 1. *)
Example C31_applies : exists k, sec1_uncompressed k (g_x generator_secp256k1) (g_y generator_secp256k1) /\ secp_p - g_y generator_secp256k1 < secp_n.
Proof. destruct (text_of SECP256k1 Sp _ _ generator_xy) as (k & U). exists k. split; [exact U|reflexivity]. Qed.

Section Signatures.
  Variable sha256 : bytes -> bytes.
  Hypothesis Hsha : forall d, wf_bytes (sha256 d) /\ zlen (sha256 d) = 32.
  Definition hash_number (data : bytes) : Z := be_val (sha256 (sha256 data)).
  (** [key] is a text of the point (x, y) that the library reads. *)
  Definition key_text (key : bytes) (x y : Z) : Prop :=
    sec1_uncompressed key x y \/ (sec1_compressed key x y /\ (secp_p - y < secp_n \/ is_square y)).
  Lemma key_text_ok key x y : secp_xy x y -> x < secp_n -> y < secp_n -> key_text key x y -> exists k', decompress_with (cv_gen SECP256k1) key = Ok k' /\ sec1_uncompressed k' x y.
  Proof.
    intros On Hx Hy [U|(C & H)]; [exists key; split; [now apply (C31_accepts key x y)|exact U]|].
    destruct (decompress_iff SECP256k1 Sok Snp Sgy Slen Sp key x y Sp4 On Hx Hy C) as [(D & _)|(_ & L & N)]; [exact D|].
    exfalso. destruct H as [H|H]; [|now apply N]. unfold secp_p, secp, secp_n in H. change (cv_gen SECP256k1) with generator_secp256k1 in L. lia.
  Qed.
  Lemma text_key key k' x y : wf_bytes key -> decompress_with (cv_gen SECP256k1) key = Ok k' -> sec1_uncompressed k' x y -> secp_xy x y -> x < secp_n -> y < secp_n -> key_text key x y.
  Proof.
    intros W D U On Hx Hy. destruct (C31_sound key k' W D) as (x' & y' & On' & Hx' & U' & H).
    assert (x' = x /\ y' = y) as (-> & ->). { destruct U as (X & Y & -> & _ & _ & LX & LY & VX & VY), U' as (X' & Y' & E & _ & _ & LX' & LY' & VX' & VY'). assert (X ++ Y = X' ++ Y') as E' by congruence.
      assert (X = X') as <-. { rewrite <- (ztake_app_exact X Y 32), <- (ztake_app_exact X' Y' 32) by lia. now rewrite E'. } apply app_inv_head in E'. split; congruence. }
    destruct H as [(-> & _)|C]; [now left|]. right. split; [exact C|].
    destruct (decompress_iff SECP256k1 Sok Snp Sgy Slen Sp key x y Sp4 On Hx Hy C) as [(_ & Y)|(D' & _)]; [exact Y|]. rewrite D' in D. discriminate.
  Qed.

  (** ** C32 *)
  (** Whatever the nonce, a signature that is returned is accepted under every
      text of the matching public key that the library reads, if the x of the
      nonce's point is below n; it is refused otherwise. *)
  Theorem C32_sign_verify_partial data priv d nonce sig : octets32 priv d -> sign_with sha256 SECP256k1 data priv nonce = Ok sig ->
    exists k x y r y', nonce = Ok k /\ 1 <= k < secp_n /\ 1 <= d < secp_n /\ secp_xy x y /\ x < secp_n /\ y < secp_n /\ point_of d x y /\ point_of k r y' /\
      forall key, key_text key x y -> ecc_verify sha256 data key sig = Ok (r <? secp_n).
  Proof.
    intros O E. destruct (sign_verify SECP256k1 Sok Snp Sgy Slen Sp sha256 Hsha data priv d nonce sig O E) as (k & x & y & r & y' & En & Hk & Hd & On & Hx & Hy & M & Mk & V).
    exists k, x, y, r, y'. repeat (split; [assumption|]). intros key T. destruct (key_text_ok key x y On Hx Hy T) as (k' & D & U). exact (V key k' D U).
  Qed.
  (** The same for [ecc.sign], which draws the nonce. *)
  Theorem C32_ecc_sign_partial data priv d entropy sig : octets32 priv d -> ecc_sign sha256 data priv entropy = Ok sig ->
    exists k x y r y', randrange secp_n entropy = Ok k /\ point_of d x y /\ point_of k r y' /\ forall key, key_text key x y -> ecc_verify sha256 data key sig = Ok (r <? secp_n).
  Proof.
    intros O E. destruct (C32_sign_verify_partial data priv d _ sig O E) as (k & x & y & r & y' & En & _ & _ & _ & _ & _ & M & Mk & V). exists k, x, y, r, y'. now repeat (split; [assumption|]).
  Qed.
  (** There are such nonces: for each message there are a key and a nonce whose
      signature is returned and then refused. *)
  Theorem C32_sign_verify_refuted data : exists priv d k x y sig key, octets32 priv d /\ 1 <= k < secp_n /\ point_of d x y /\ sec1_uncompressed key x y /\ decompress_public_key key = Ok key /\
    sign_with sha256 SECP256k1 data priv (Ok k) = Ok sig /\ ecc_verify sha256 data key sig = Ok false.
  Proof.
    destruct (sign_with_point SECP256k1 Sok Snp Sgy Slen Sp Sgx Sgyn Sgyp sha256 Hsha data (secp_n + 2) yn yn_xy) as (priv & d & k & x & y & sig & O & Hk & _ & M & On & Hx & Hy & _ & Es & V); [discriminate|discriminate|reflexivity|].
    destruct (text_of SECP256k1 Sp x y On) as (key & U). pose proof (text_ok SECP256k1 Sok Snp Sgy key x y U On Hx Hy) as D.
    exists priv, d, k, x, y, sig, key. repeat (split; [assumption|]). exact (V key key D U).
  Qed.
  (** And signatures that are accepted: for each message, with the nonce 1. *)
  Theorem C32_accepted data : exists priv d k x y sig key, octets32 priv d /\ 1 <= k < secp_n /\ point_of d x y /\ wf_bytes key /\ sec1_compressed key x y /\ key_text key x y /\
    sign_with sha256 SECP256k1 data priv (Ok k) = Ok sig /\ ecc_verify sha256 data key sig = Ok true.
  Proof.
    destruct (sign_with_point SECP256k1 Sok Snp Sgy Slen Sp Sgx Sgyn Sgyp sha256 Hsha data _ _ generator_xy) as (priv & d & k & x & y & sig & O & Hk & _ & M & On & Hx & Hy & Hy' & Es & V); [discriminate|discriminate|reflexivity|].
    destruct (text_of SECP256k1 Sp x y On) as (key' & U). destruct (compress_ok key' x y U) as (key & _ & C). assert (key_text key x y) as T by (right; split; [exact C|left; exact Hy']).
    destruct (key_text_ok key x y On Hx Hy T) as (k' & D & U'). exists priv, d, k, x, y, sig, key. split; [exact O|]. split; [exact Hk|]. split; [exact M|]. split.
    { destruct C as (X & -> & WX & _). constructor; [|exact WX]. unfold is_byte. pose proof (Z.mod_pos_bound y 2 ltac:(reflexivity)). lia. }
    split; [exact C|]. split; [exact T|]. split; [exact Es|]. exact (V key k' D U').
  Qed.

  (** ** C33 *)
  (** For a readable key and a signature that decodes, the answer is whether
      the signature is valid; the only exception is TypeError, raised when the
      verification equation gives the point at infinity. *)
  Theorem C33_boolean_partial data key x y sig r s : secp_xy x y -> x < secp_n -> y < secp_n -> key_text key x y -> ecc_sigdecode_der sig = Ok (r, s) ->
    (ecc_verify sha256 data key sig = Ok true <-> secp_valid x y (hash_number data) r s) /\
    (ecc_verify sha256 data key sig = Raise TypeError <-> 1 <= r < secp_n /\ 1 <= s < secp_n /\ secp_infinite x y (hash_number data) r s) /\
    (forall e, ecc_verify sha256 data key sig = Raise e -> e = TypeError).
  Proof.
    intros On Hx Hy T D. destruct (key_text_ok key x y On Hx Hy T) as (k' & K & U). exact (verify_decoded SECP256k1 Sok Snp Sgy Slen sha256 Hsha data key k' x y sig r s K U On Hx Hy D).
  Qed.
  (** For all byte strings: True is answered exactly for a readable key text
      and a signature text (in the liberal sense of C76) that is valid. *)
  Theorem C33_accepts data key sig : wf_bytes key -> wf_bytes sig ->
    ecc_verify sha256 data key sig = Ok true <->
    exists x y r s, secp_xy x y /\ x < secp_n /\ y < secp_n /\ key_text key x y /\ secp_valid x y (hash_number data) r s /\
      exists body cr cs rest junk1 junk2, (tlv 48 body junk1 sig \/ cut_tlv 48 body sig) /\ tlv 2 cr rest body /\ (tlv 2 cs junk2 rest \/ cut_tlv 2 cs rest) /\
        cr <> [] /\ cs <> [] /\ r = be_val cr /\ s = be_val cs.
  Proof.
    intros W Ws. pose proof (verify_true SECP256k1 Sok Snp Sgy Slen Sp sha256 Hsha data key sig W) as V. split.
    - intro E. apply V in E. destruct E as (k' & x & y & r & s & D & U & On & Hx & Hy & Es & Va). exists x, y, r, s. split; [exact On|]. split; [exact Hx|]. split; [exact Hy|]. split; [exact (text_key key k' x y W D U On Hx Hy)|]. split; [exact Va|].
      now apply ecc_sigdecode_der_iff.
    - intros (x & y & r & s & On & Hx & Hy & T & Va & D). apply V. destruct (key_text_ok key x y On Hx Hy T) as (k' & K & U). exists k', x, y, r, s. repeat (split; [assumption|]). split; [now apply ecc_sigdecode_der_iff|exact Va].
  Qed.
  (** What becomes of every key text: besides the empty text, compressed texts
      without a point on the curve and those of points with y >= n, on which
      exceptions escape, a text that is no key is answered by False. *)
  Theorem C33_keys data key sig : wf_bytes key ->
    (key = [] /\ ecc_verify sha256 data key sig = Raise IndexError) \/
    (exists ch X, key = ch :: X /\ (ch = 2 \/ ch = 3) /\ zlen X = 32 /\ (forall y, ~ (secp_p | y * y - (be_val X ^ 3 + 7))) /\ ecc_verify sha256 data key sig = Raise SquareRootError) \/
    (exists x y, secp_xy x y /\ x < secp_n /\ y < secp_n /\ key_text key x y) \/
    (exists x y, secp_xy x y /\ x < secp_n <= y /\ sec1_compressed key x y /\ ecc_verify sha256 data key sig = Raise AssertionError) \/
    ecc_verify sha256 data key sig = Ok false.
  Proof.
    intros W. destruct key as [|ch k]; [left; split; reflexivity|right].
    destruct (decompress_with (cv_gen SECP256k1) (ch :: k)) as [k'|e] eqn:D.
    - right. destruct (C31_sound (ch :: k) k' W D) as (x & y & On & Hx & U & H). destruct (Z.lt_ge_cases y secp_n) as [Hy|Hy].
      + left. exists x, y. split; [exact On|]. split; [exact Hx|]. split; [exact Hy|]. exact (text_key _ k' x y W D U On Hx Hy).
      + right. left. exists x, y. split; [exact On|]. split; [now split|]. split; [destruct H as [(_ & H)|H]; [lia|exact H]|].
        unfold ecc_verify. rewrite (verify_run SECP256k1 Sok Snp Sgy Slen sha256 Hsha data _ k' x y sig D U On Hx). destruct (Z.ltb_spec y (g_order (cv_gen SECP256k1))) as [L|L]; [|reflexivity].
        exfalso. unfold secp_n in Hy. change (cv_gen SECP256k1) with generator_secp256k1 in L. lia.
    - assert (e = ValueError -> ecc_verify sha256 data (ch :: k) sig = Ok false) as V by (intros ->; unfold ecc_verify, verify_with; now rewrite D).
      assert (G : e = ValueError \/ e <> ValueError) by (destruct e; (left; reflexivity) || (right; discriminate)). destruct G as [G|G]; [right; right; right; exact (V G)|]. left.
      apply Forall_inv_tail in W as Wk.
      assert ((ch = 4 /\ zlen (ch :: k) = 65) \/ ~ (ch = 4 /\ zlen (ch :: k) = 65)) as [(-> & L)|N4] by lia.
      { exfalso. destruct (split_65 _ L) as (ch & X & Y & Ek & LX & LY). assert (k = X ++ Y) by congruence. subst k. apply Forall_app in Wk. destruct Wk as (WX & WY).
        rewrite (decompress_4 SECP256k1 Sok Snp Sgy) in D by assumption. destruct (_ && _); [discriminate D|]. apply G. congruence. }
      assert ((ch = 2 \/ ch = 3) /\ zlen (ch :: k) = 33 \/ ~ ((ch = 2 \/ ch = 3) /\ zlen (ch :: k) = 33)) as [(Hch & L)|N23] by lia.
      2:{ exfalso. rewrite (not_compressed SECP256k1 Sgy) in D by assumption. apply G. congruence. }
      rewrite zlen_cons in L. assert (zlen k = 32) as Lk by lia.
      destruct (decompress_23 SECP256k1 Sok Snp Sgy Slen Sp ch k Hch Wk Lk) as [(N & E')|(y & _ & _ & _ & E')]; rewrite E' in D.
      + assert (e = SquareRootError) as -> by congruence. exists ch, k. split; [reflexivity|]. split; [exact Hch|]. split; [exact Lk|]. split.
        * intros y Hy. apply N. exists y. eapply eq_ind; [exact Hy|]. f_equal. change (c_a (g_curve (cv_gen SECP256k1))) with 0. change (c_b (g_curve (cv_gen SECP256k1))) with 7. ring.
        * unfold ecc_verify, verify_with. now rewrite E'.
      + exfalso. destruct (_ && _); [discriminate D|]. apply G. congruence.
  Qed.
  (** In particular for every non-empty text of another length than 33 and 65. *)
  Theorem C33_lengths data key sig : wf_bytes key -> key <> [] -> zlen key <> 33 -> zlen key <> 65 -> ecc_verify sha256 data key sig = Ok false.
  Proof.
    intros W N L1 L2. destruct key as [|ch k]; [contradiction|]. unfold ecc_verify, verify_with. rewrite (not_compressed SECP256k1 Sgy) by lia. reflexivity.
  Qed.
  (** Exceptions instead of False: an empty key, a compressed key whose x is
      not on the curve (x = 5), an empty signature under a good key, and, for
      each message whose hash is not a multiple of n, a signature in range. *)
  Theorem C33_boolean_refuted data :
    ecc_verify sha256 data [] [] = Raise IndexError /\
    (forall sig, ecc_verify sha256 data (2 :: be_bytes 32 5) sig = Raise SquareRootError) /\
    (forall key, sec1_uncompressed key (g_x generator_secp256k1) (g_y generator_secp256k1) -> ecc_verify sha256 data key [] = Raise IndexError) /\
    (hash_number data mod secp_n <> 0 -> exists key sig, decompress_public_key key = Ok key /\ ecc_sigdecode_der sig = Ok (hash_number data mod secp_n, 1) /\ ecc_verify sha256 data key sig = Raise TypeError).
  Proof.
    split; [reflexivity|]. split; [|split].
    - intro sig. unfold ecc_verify, verify_with. destruct (decompress_23 SECP256k1 Sok Snp Sgy Slen Sp 2 (be_bytes 32 5) ltac:(now left) (wf_be_bytes 32 5) (zlen_be_bytes 32 5)) as [(_ & E)|(y & _ & D & _)]; [now rewrite E|].
      exfalso. apply (not_square 132); [split; reflexivity|vm_compute; reflexivity|]. exists y. exact D.
    - intros key U. unfold ecc_verify. rewrite (verify_run SECP256k1 Sok Snp Sgy Slen sha256 Hsha data key key _ _ [] (C31_accepts key _ _ generator_xy Sgx Sgyn U) U generator_xy Sgx). reflexivity.
    - intro N. destruct (infinity SECP256k1 Sok Snp Sgy Slen Sp Sgx Sgyp sha256 Hsha data N) as (key & sig & U & _ & D & V). exists key, sig. split; [|split; [exact D|exact V]].
      exact (text_ok SECP256k1 Sok Snp Sgy key _ _ U (proj2 (gen_neg SECP256k1 Sok Snp Sgy)) Sgx Sgyp).
  Qed.

  (** ** C34 *)
  (** Two accepted signatures with the same r >= p - n have the same s, up to
      its sign modulo n. *)
  Theorem C34_two_values_partial data key sig sig' r s s' : wf_bytes key -> ecc_sigdecode_der sig = Ok (r, s) -> ecc_sigdecode_der sig' = Ok (r, s') -> secp_p - secp_n <= r ->
    ecc_verify sha256 data key sig = Ok true -> ecc_verify sha256 data key sig' = Ok true -> s' = s \/ s' = secp_n - s.
  Proof. exact (two_values SECP256k1 Sok Snp Sgy Slen Sp sha256 Hsha data key sig sig' r s s'). Qed.
  (** But for every accepted signature there is another accepted byte string. *)
  Theorem C34_malleable data key sig : wf_bytes key -> ecc_verify sha256 data key sig = Ok true ->
    exists sig', wf_bytes sig' /\ sig' <> sig /\ ecc_verify sha256 data key sig' = Ok true.
  Proof. exact (malleable SECP256k1 Sok Snp Sgy Slen Sp sha256 Hsha data key sig). Qed.
  (** In particular (r, n - s) is accepted when (r, s) is. *)
  Theorem C34_negated data key sig sig' r s : wf_bytes key -> ecc_sigdecode_der sig = Ok (r, s) -> ecc_sigdecode_der sig' = Ok (r, secp_n - s) ->
    ecc_verify sha256 data key sig = Ok true -> ecc_verify sha256 data key sig' = Ok true.
  Proof.
    intros W D D' V. apply (verify_true SECP256k1 Sok Snp Sgy Slen Sp sha256 Hsha) in V; [|exact W]. destruct V as (k1 & x & y & r1 & s1 & K & U & On & Hx & Hy & Es & V). assert (r1 = r /\ s1 = s) as (-> & ->) by (split; congruence).
    apply (verify_decoded SECP256k1 Sok Snp Sgy Slen sha256 Hsha data key k1 x y sig' r (secp_n - s) K U On Hx Hy D'). exact (EcdsaProofs.valid_negated (cv_gen SECP256k1) Sok Snp Sgy (Some (x, y)) _ r s On V).
  Qed.
  Theorem C34_unique_refuted : exists data key sig sig', ecc_verify sha256 data key sig = Ok true /\ ecc_verify sha256 data key sig' = Ok true /\ sig' <> sig.
  Proof.
    destruct (C32_accepted []) as (_ & _ & _ & _ & _ & sig & key & _ & _ & _ & W & _ & _ & _ & V). destruct (C34_malleable [] key sig W V) as (sig' & _ & N & V'). now exists [], key, sig, sig'.
  Qed.

  (** ** C77 *)
  (** Two parties, each with the private key of one and the public key of the
      other, compute the same 32 bytes: the x of the product of both private
      keys and the generator. *)
  Theorem C77_shared_secret kA xA yA wA pA dA kB xB yB wB pB dB :
    key_text kA xA yA -> secp_xy xA yA -> xA < secp_n -> yA < secp_n -> point_of dA xA yA -> privkey_from_wif sha256 wA 128 = Ok pA -> octets32 pA dA -> 1 <= dA < secp_n ->
    key_text kB xB yB -> secp_xy xB yB -> xB < secp_n -> yB < secp_n -> point_of dB xB yB -> privkey_from_wif sha256 wB 128 = Ok pB -> octets32 pB dB -> 1 <= dB < secp_n ->
    exists s x y, shared_secret sha256 kB wA = Ok s /\ shared_secret sha256 kA wB = Ok s /\ octets32 s x /\ point_of (dA * dB) x y.
  Proof.
    intros TA OA XA YA MA EA PA HA TB OB XB YB MB EB PB HB. destruct (key_text_ok kA xA yA OA XA YA TA) as (kA' & DA & UA). destruct (key_text_ok kB xB yB OB XB YB TB) as (kB' & DB & UB).
    exact (secret_symmetric SECP256k1 Sok Snp Sgy Slen Sp sha256 kA kA' xA yA wA pA dA kB kB' xB yB wB pB dB DA UA OA EA PA HA MA DB UB OB EB PB HB MB).
  Qed.
  (** The private keys are those that privkey_to_wif writes. *)
  Theorem C77_wif priv : octets32 priv (be_val priv) -> privkey_from_wif sha256 (privkey_to_wif sha256 priv [0x80]) 128 = Ok priv.
  Proof. intros (W & L & _). refine (wif_roundtrip sha256 _ _ priv W L); intro x; destruct (Hsha x) as (Wx & Lx); [lia|exact Wx]. Qed.
End Signatures.
(** The hash functions of the statements exist. *)
Example sha_like : forall d : bytes, wf_bytes (be_bytes 32 (be_val d)) /\ zlen (be_bytes 32 (be_val d)) = 32.
Proof. intro d. split; [apply wf_be_bytes|apply zlen_be_bytes]. Qed.

(** ** C37 *)
(** What the proofs need to know about the parameters of a curve. *)
Definition certified (cv : curve_info) : Prop :=
  In cv curves /\ generator_ok (cv_gen cv) /\ g_order (cv_gen cv) <= c_p (g_curve (cv_gen cv)) /\ 0 <= g_y (cv_gen cv) < c_p (g_curve (cv_gen cv)) /\ cv_baselen cv <= 100.
Lemma certified_secp256k1 : certified SECP256k1.
Proof. split; [cbn; tauto|]. split; [exact Sok|]. split; [exact Snp|]. split; [exact Sgy|]. rewrite Slen. discriminate. Qed.
(** It is true of each of the six curves. *)
Theorem C37_parameters cv : In cv curves -> generator_ok (cv_gen cv) /\ g_order (cv_gen cv) <= c_p (g_curve (cv_gen cv)) /\ 0 <= g_y (cv_gen cv) < c_p (g_curve (cv_gen cv)) /\ cv_baselen cv <= 100.
Proof.
  intro I. cbn [In curves] in I. destruct I as [<-|[<-|[<-|[<-|[<-|[<-|[]]]]]]].
  - split; [exact generator_192_ok|]. split; [vm_compute; discriminate|]. split; [split; [vm_compute; discriminate|vm_compute; reflexivity]|]. vm_compute; discriminate.
  - split; [exact generator_224_ok|]. split; [vm_compute; discriminate|]. split; [split; [vm_compute; discriminate|vm_compute; reflexivity]|]. vm_compute; discriminate.
  - split; [exact generator_256_ok|]. split; [vm_compute; discriminate|]. split; [split; [vm_compute; discriminate|vm_compute; reflexivity]|]. vm_compute; discriminate.
  - split; [exact generator_384_ok|]. split; [vm_compute; discriminate|]. split; [split; [vm_compute; discriminate|vm_compute; reflexivity]|]. vm_compute; discriminate.
  - split; [exact generator_521_ok|]. split; [vm_compute; discriminate|]. split; [split; [vm_compute; discriminate|vm_compute; reflexivity]|]. vm_compute; discriminate.
  - exact (proj2 certified_secp256k1).
Qed.
Lemma all_certified cv : In cv curves -> certified cv.
Proof. intro I. split; [exact I|]. exact (C37_parameters cv I). Qed.
Lemma secp_in : In SECP256k1 curves.
Proof. exact (proj1 certified_secp256k1). Qed.
(** A verifying key of the curve for the point (x, y), as every constructor
    makes it. *)
Definition is_vkey (cv : curve_info) (k : vkey) (x y : Z) : Prop :=
  vk_curve k = cv /\ coords (vk_point k) = Some (x, y) /\ on_curve (c_p (g_curve (cv_gen cv))) (c_a (g_curve (cv_gen cv))) (c_b (g_curve (cv_gen cv))) (Some (x, y)) /\ x < cv_order cv /\ y < cv_order cv /\
  (p_order (vk_point k) = 0 \/ p_order (vk_point k) = cv_order cv).
Lemma is_vkey_of cv k x y : is_vkey cv k x y <-> vkey_of cv k x y.
Proof.
  split.
  - destruct k as [cv' [|x' y' o]]; intros (E & C & On & Hx & Hy & Ho); cbn in E, C; [discriminate|]. exists o. assert (x' = x /\ y' = y) as (-> & ->) by (split; congruence). subst cv'. auto.
  - intros (o & -> & Ho & On & Hx & Hy). repeat (split; [reflexivity || assumption|]). exact Ho.
Qed.
(** Both keys are for the same point of the same curve. *)
Definition same_vkey (k k' : vkey) : Prop := vk_curve k = vk_curve k' /\ coords (vk_point k) = coords (vk_point k').
Theorem C37_verifying_key_string cv k x y : In cv curves -> is_vkey cv k x y -> exists s k', vk_to_string k = Ok s /\ wf_bytes s /\ vk_from_string cv s = Ok k' /\ same_vkey k' k.
Proof.
  intro Cv. apply all_certified in Cv. revert Cv. intros (_ & HG & Hn & Hy & _) H. apply is_vkey_of in H. destruct (vk_to_from_string cv HG Hn Hy k x y H) as (s & E & W & _ & F). exists s, (mk_vkey cv (PAff x y (g_order (cv_gen cv)))).
  split; [exact E|]. split; [exact W|]. split; [exact F|]. destruct H as (o & -> & _). split; reflexivity.
Qed.
Theorem C37_verifying_key_string_back cv s k : In cv curves -> wf_bytes s -> vk_from_string cv s = Ok k -> vk_to_string k = Ok s /\ exists x y, is_vkey cv k x y.
Proof.
  intro Cv. apply all_certified in Cv. revert Cv. intros (_ & HG & Hn & Hy & _) W E. destruct (vk_from_to_string cv HG Hn Hy s k W E) as (T & x & y & K). split; [exact T|]. exists x, y. now apply is_vkey_of.
Qed.
Theorem C37_verifying_key_der cv k x y : In cv curves -> is_vkey cv k x y -> exists s k', vk_to_der k = Ok s /\ wf_bytes s /\ vk_from_der s = Ok k' /\ same_vkey k' k.
Proof.
  intro Cv. apply all_certified in Cv. revert Cv. intros (I & HG & Hn & Hy & Hb) H. apply is_vkey_of in H. destruct (vk_to_from_der cv HG Hn Hy k x y I Hb H) as (s & E & W & F). exists s, (mk_vkey cv (PAff x y (g_order (cv_gen cv)))).
  split; [exact E|]. split; [exact W|]. split; [exact F|]. destruct H as (o & -> & _). split; reflexivity.
Qed.
Theorem C37_signing_key_string cv d k : In cv curves -> sk_from_secret_exponent cv d = Ok k -> exists s, sk_to_string k = Ok s /\ wf_bytes s /\ sk_from_string cv s = Ok k.
Proof. intro Cv. apply all_certified in Cv. revert Cv. intros (I & HG & Hn & Hy & Hb) H. destruct (sk_from_to_string cv HG Hn Hy k d H) as (s & E & W & _ & _ & _ & F). now exists s. Qed.
Theorem C37_signing_key_der cv d k : In cv curves -> sk_from_secret_exponent cv d = Ok k -> exists s, sk_to_der k = Ok s /\ wf_bytes s /\ sk_from_der s = Ok k.
Proof. intro Cv. apply all_certified in Cv. revert Cv. intros (I & HG & Hn & Hy & Hb) H. exact (sk_to_from_der cv HG Hn Hy k d I Hb H). Qed.
(** The signing key of d exists and its verifying key is for d G, unless a
    coordinate of d G is n or more; then the constructor raises. *)
Theorem C37_signing_key cv d : In cv curves -> 1 <= d < cv_order cv ->
  exists x y, multiple_z (c_p (g_curve (cv_gen cv))) (c_a (g_curve (cv_gen cv))) (coords (gen_point (cv_gen cv))) d (Some (x, y)) /\
  ((x < cv_order cv /\ y < cv_order cv /\ exists k, sk_from_secret_exponent cv d = Ok k /\ is_vkey cv (sk_vk k) x y /\ sk_secexp k = d) \/
   (~ (x < cv_order cv /\ y < cv_order cv) /\ sk_from_secret_exponent cv d = Raise RuntimeError)).
Proof.
  intro Cv. apply all_certified in Cv. revert Cv. intros (I & HG & Hn & Hy & Hb) Hd. destruct (secexp_ok cv HG Hn Hy d Hd) as (x & y & o & On & M & Ho & _ & E). exists x, y. split; [exact M|]. rewrite E. unfold cv_order.
  destruct (Z.ltb_spec x (g_order (cv_gen cv))); cbn [andb]; [|right; split; [lia|reflexivity]]. destruct (Z.ltb_spec y (g_order (cv_gen cv))); [|right; split; [lia|reflexivity]]. left. split; [assumption|]. split; [assumption|].
  eexists. split; [reflexivity|]. split; [|reflexivity]. apply is_vkey_of. exists o. auto.
Qed.
(** The key of the private key 1. *)
Example C37_applies : exists k, sk_from_secret_exponent SECP256k1 1 = Ok k /\ is_vkey SECP256k1 (sk_vk k) (g_x generator_secp256k1) (g_y generator_secp256k1).
Proof.
  destruct (secexp_ok SECP256k1 Sok Snp Sgy 1 ltac:(split; [discriminate|reflexivity])) as (x & y & o & On & M & Ho & A & E).
  assert (Some (x, y) = Some (g_x generator_secp256k1, g_y generator_secp256k1)) as Exy.
  { apply (sabs_inj secp secp_ok); [exact On|exact generator_xy|]. destruct (gen_1 SECP256k1 Sok Snp Sgy) as (M1 & On1). apply (multiple_z_iff secp secp_ok) in M1; [|exact generator_xy|exact generator_xy]. exact (eq_trans A (eq_sym M1)). }
  assert (x = g_x generator_secp256k1 /\ y = g_y generator_secp256k1) as (-> & ->) by (split; congruence). eexists. split; [exact E|]. apply is_vkey_of. exists o. split; [reflexivity|]. split; [exact Ho|]. split; [exact generator_xy|]. split; reflexivity.
Qed.

(** ** Assumptions *)

Print Assumptions C31_round_trip_partial.
Print Assumptions C31_round_trip_fails.
Print Assumptions C31_round_trip_refuted.
Print Assumptions C31_sound.
Print Assumptions C31_accepts.
Print Assumptions C32_sign_verify_partial.
Print Assumptions C32_ecc_sign_partial.
Print Assumptions C32_sign_verify_refuted.
Print Assumptions C32_accepted.
Print Assumptions C33_boolean_partial.
Print Assumptions C33_accepts.
Print Assumptions C33_keys.
Print Assumptions C33_lengths.
Print Assumptions C33_boolean_refuted.
Print Assumptions C34_two_values_partial.
Print Assumptions C34_malleable.
Print Assumptions C34_negated.
Print Assumptions C34_unique_refuted.
Print Assumptions C77_shared_secret.
Print Assumptions C77_wif.
Print Assumptions C37_parameters.
Print Assumptions C37_verifying_key_string.
Print Assumptions C37_verifying_key_string_back.
Print Assumptions C37_verifying_key_der.
Print Assumptions C37_signing_key_string.
Print Assumptions C37_signing_key_der.
Print Assumptions C37_signing_key.
