(** Model of the key objects (nbc/util/ecdsa/keys.py, curves.py), of public key
    compression (nbc/util/key.py:45-76) and of the signature functions
    (nbc/util/ecc.py).  Python 3, keys and signatures of type bytes.  PEM
    armour, [generate] (a [randrange] followed by [from_secret_exponent]) and
    the choice of a default hash function are not modelled. *)
From Coq Require Import ZArith List Lia Bool.
From Verif Require Import PyBase UtilModel Base58Model DerModel NtModel EcModel.
Import ListNotations.
Open Scope list_scope.
Open Scope Z_scope.

(** ** Curves (curves.py:12-46) *)
Record curve_info : Type := mk_curve_info { cv_gen : generator; cv_oid : list Z }.
(** curves.py:17. *)
Definition cv_order (cv : curve_info) : Z := g_order (cv_gen cv).
(** curves.py:18. *)
Definition cv_baselen (cv : curve_info) : Z := orderlen (cv_order cv).
(** [der.encode_oid( *oid )]. *)
Definition encoded_oid (oid : list Z) : res bytes :=
  match oid with
  | first :: second :: pieces => encode_oid first second pieces
  | _ => Raise TypeError
  end.
(** curves.py:24-25. *)
Definition NIST192p : curve_info := mk_curve_info generator_192 [1; 2; 840; 10045; 3; 1; 1].
(** curves.py:26-27. *)
Definition NIST224p : curve_info := mk_curve_info generator_224 [1; 3; 132; 0; 33].
(** curves.py:28-29. *)
Definition NIST256p : curve_info := mk_curve_info generator_256 [1; 2; 840; 10045; 3; 1; 7].
(** curves.py:30-31. *)
Definition NIST384p : curve_info := mk_curve_info generator_384 [1; 3; 132; 0; 34].
(** curves.py:32-33. *)
Definition NIST521p : curve_info := mk_curve_info generator_521 [1; 3; 132; 0; 35].
(** curves.py:34-36. *)
Definition SECP256k1 : curve_info := mk_curve_info generator_secp256k1 [1; 3; 132; 0; 10].
(** curves.py:38. *)
Definition curves : list curve_info := [NIST192p; NIST224p; NIST256p; NIST384p; NIST521p; SECP256k1].
(** curves.py:40-46. *)
Fixpoint find_in (cs : list curve_info) (oid : list Z) : res curve_info :=
  match cs with
  | [] => Raise UnknownCurveError
  | c :: r => if bytes_eqb (cv_oid c) oid then Ok c else find_in r oid
  end.
(** curves.py:40-46. *)
Definition find_curve (oid : list Z) : res curve_info := find_in curves oid.
(** util.py:16. *)
Definition oid_ecPublicKey : list Z := [1; 2; 840; 10045; 2; 1].

(** ** Verifying keys (keys.py:18-113) *)
(** The curve and the point of [pubkey]; [pubkey.order] is the curve's. *)
Record vkey : Type := mk_vkey { vk_curve : curve_info; vk_point : point }.
(** keys.py:23-30. *)
Definition vk_from_public_point (cv : curve_info) (P : point) : res vkey :=
  let! Q := public_key (cv_gen cv) P in Ok (mk_vkey cv Q).
(** keys.py:32-48; the two assertions on the halves follow from the first. *)
Definition vk_from_string (cv : curve_info) (s : bytes) : res vkey :=
  if negb (zlen s =? 2 * cv_baselen cv) then Raise AssertionError
  else
    let! x := string_to_number (ztake (cv_baselen cv) s) in
    let! y := string_to_number (zdrop (cv_baselen cv) s) in
    let! v := point_is_valid (cv_gen cv) x y in
    if negb v then Raise AssertionError
    else let! P := point_new (g_curve (cv_gen cv)) x y (cv_order cv) in vk_from_public_point cv P.
(** [x()] and [y()] as byte strings; those of INFINITY are None. *)
Definition point_strings (cv : curve_info) (P : point) : res (bytes * bytes) :=
  match P with
  | PInf => Raise TypeError
  | PAff x y _ => let! xs := number_to_string x (cv_order cv) in
                  let! ys := number_to_string y (cv_order cv) in Ok (xs, ys)
  end.
(** keys.py:77-84. *)
Definition vk_to_string (k : vkey) : res bytes :=
  let! s := point_strings (vk_curve k) (vk_point k) in Ok (fst s ++ snd s).
(** keys.py:89-96. *)
Definition vk_to_der (k : vkey) : res bytes :=
  let! s := point_strings (vk_curve k) (vk_point k) in
  let! opk := encoded_oid oid_ecPublicKey in
  let! oc := encoded_oid (cv_oid (vk_curve k)) in
  let! a := encode_sequence [opk; oc] in
  let! b := encode_bitstring ([0; 4] ++ fst s ++ snd s) in
  encode_sequence [a; b].
(** [if rest != b"": raise UnexpectedDER]. *)
Definition no_junk (rest : bytes) : res unit := match rest with [] => Ok tt | _ => Raise UnexpectedDER end.
(** keys.py:54-76. *)
Definition vk_from_der (s : bytes) : res vkey :=
  let! s1 := remove_sequence s in
  let! _ := no_junk (snd s1) in
  let! s2 := remove_sequence (fst s1) in
  let! pk := remove_object (fst s2) in
  let! cu := remove_object (snd pk) in
  let! _ := no_junk (snd cu) in
  if negb (bytes_eqb (fst pk) oid_ecPublicKey) then Raise AssertionError
  else
    let! cv := find_curve (fst cu) in
    let! ps := remove_bitstring (snd s2) in
    let! _ := no_junk (snd ps) in
    match fst ps with
    | 0 :: 4 :: r => vk_from_string cv r
    | _ => Raise AssertionError
    end.
(** keys.py:103-113; [sigdecode] is given the signature and the order. *)
Definition vk_verify_digest {S} (k : vkey) (signature : S) (digest : bytes) (sigdecode : S -> Z -> res (Z * Z)) : res bool :=
  if cv_baselen (vk_curve k) <? zlen digest then Raise BadDigestError
  else
    let! number := string_to_number digest in
    let! rs := sigdecode signature (cv_order (vk_curve k)) in
    let! ok := verifies (cv_gen (vk_curve k)) (vk_point k) number (fst rs) (snd rs) in
    if ok then Ok true else Raise BadSignatureError.

(** ** Signing keys (keys.py:115-282) *)
Record skey : Type := mk_skey { sk_curve : curve_info; sk_secexp : Z; sk_vk : vkey }.
(** keys.py:130-145: the point is checked twice. *)
Definition sk_from_secret_exponent (cv : curve_info) (secexp : Z) : res skey :=
  if negb ((1 <=? secexp) && (secexp <? cv_order cv)) then Raise AssertionError
  else
    let! P := ec_mul (g_curve (cv_gen cv)) (gen_point (cv_gen cv)) secexp in
    let! _ := public_key (cv_gen cv) P in
    let! vk := vk_from_public_point cv P in
    Ok (mk_skey cv secexp vk).
(** keys.py:147-151. *)
Definition sk_from_string (cv : curve_info) (s : bytes) : res skey :=
  if negb (zlen s =? cv_baselen cv) then Raise AssertionError
  else let! secexp := string_to_number s in sk_from_secret_exponent cv secexp.
(** keys.py:200-203. *)
Definition sk_to_string (k : skey) : res bytes := number_to_string (sk_secexp k) (cv_order (sk_curve k)).
(** keys.py:209-217. *)
Definition sk_to_der (k : skey) : res bytes :=
  let! vs := vk_to_string (sk_vk k) in
  let! one := encode_integer 1 in
  let! ss := sk_to_string k in
  let! os := encode_octet_string ss in
  let! oc := encoded_oid (cv_oid (sk_curve k)) in
  let! c0 := encode_constructed 0 oc in
  let! bs := encode_bitstring ([0; 4] ++ vs) in
  let! c1 := encode_constructed 1 bs in
  encode_sequence [one; os; c0; c1].
(** keys.py:161-198: what follows the curve is not read. *)
Definition sk_from_der (s : bytes) : res skey :=
  let! s0 := remove_sequence s in
  let! _ := no_junk (snd s0) in
  let! one := remove_integer (fst s0) in
  if negb (fst one =? 1) then Raise UnexpectedDER
  else
    let! priv := remove_octet_string (snd one) in
    let! con := remove_constructed (snd priv) in
    if negb (fst (fst con) =? 0) then Raise UnexpectedDER
    else
      let! cu := remove_object (snd (fst con)) in
      let! _ := no_junk (snd cu) in
      let! cv := find_curve (fst cu) in
      sk_from_string cv (repeat 0 (Z.to_nat (cv_baselen cv - zlen (fst priv))) ++ fst priv).
(** keys.py:265-282: the nonce given, or a random one. *)
Definition sk_sign_number (k : skey) (number : Z) (nonce : res Z) : res (Z * Z) :=
  let! n := nonce in
  if negb ((1 <=? n) && (n <? cv_order (sk_curve k))) then Raise AssertionError
  else private_sign (cv_gen (sk_curve k)) (sk_secexp k) number n.
(** keys.py:256-263. *)
Definition sk_sign_digest {S} (k : skey) (digest : bytes) (nonce : res Z) (sigencode : Z -> Z -> Z -> res S) : res S :=
  if cv_baselen (sk_curve k) <? zlen digest then Raise BadDigestError
  else
    let! number := string_to_number digest in
    let! rs := sk_sign_number k number nonce in
    sigencode (fst rs) (snd rs) (cv_order (sk_curve k)).

(** ** Public key compression (key.py:45-76) *)
Definition compress_public_key (k : bytes) : res bytes :=
  match k with
  | [] => Raise IndexError
  | ch :: _ =>
      if negb (ch =? 4) || negb (zlen k =? 65) then Raise ValueError
      else let! y := string_to_number (slice 33 65 k) in
           Ok ([2 + Z.land y 1] ++ slice 1 33 k)
  end.
(** key.py:51-76, the generator as a parameter. *)
Definition decompress_with (G : generator) (k : bytes) : res bytes :=
  let p := c_p (g_curve G) in
  match k with
  | [] => Raise IndexError
  | ch :: _ =>
      if (ch =? 4) && (zlen k =? 65) then
        let! x := string_to_number (slice 1 33 k) in
        let! y := string_to_number (slice 33 65 k) in
        let! v := point_is_valid G x y in
        if negb v then Raise ValueError else Ok k
      else if (negb (ch =? 2) && negb (ch =? 3)) || negb (zlen k =? 33) then Raise ValueError
      else
        let! x := string_to_number (zdrop 1 k) in
        let! y := square_root_mod_prime ((x ^ 3 + c_a (g_curve G) * x + c_b (g_curve G)) mod p) p in
        let! v := point_is_valid G x y in
        if negb v then Raise ValueError
        else
          let y := if Z.land ch 1 =? Z.land y 1 then y else p - y in
          let! ys := number_to_string y (g_order G) in
          Ok ([4] ++ zdrop 1 k ++ ys)
  end.
(** key.py:56-76. *)
Definition decompress_public_key (k : bytes) : res bytes := decompress_with generator_secp256k1 k.

(** ** ecc.py *)
Section Ecc.
  Variable sha256 : bytes -> bytes.
  (** hash.py:35-36. *)
  Definition sha256d (data : bytes) : bytes := sha256 (sha256 data).
  (** ecc.py:76-78, the curve as a parameter. *)
  Definition sign_with (cv : curve_info) (data private_key : bytes) (nonce : res Z) : res bytes :=
    let! key := sk_from_string cv private_key in
    sk_sign_digest key (sha256d data) nonce (fun r s _ => sigencode_der r s).
  (** ecc.py:81-91: only ValueError is caught around the decompression, only
      BadSignatureError around the verification. *)
  Definition verify_with (cv : curve_info) (data public_key signature : bytes) : res bool :=
    match decompress_with (cv_gen cv) public_key with
    | Raise ValueError => Ok false
    | Raise e => Raise e
    | Ok k =>
        let! key := vk_from_string cv (zdrop 1 k) in
        match vk_verify_digest key signature (sha256d data) (fun sig _ => ecc_sigdecode_der sig) with
        | Raise BadSignatureError => Ok false
        | r => r
        end
    end.
  (** ecc.py:94-107. *)
  Definition shared_secret_with (cv : curve_info) (public_key private_key : bytes) : res bytes :=
    let! k := decompress_with (cv_gen cv) public_key in
    let! x := string_to_number (slice 1 33 k) in
    let! y := string_to_number (zdrop 33 k) in
    let! P := point_new (g_curve (cv_gen cv)) x y 0 in
    let! priv := privkey_from_wif sha256 private_key 128 in
    let! secexp := string_to_number priv in
    let! T := ec_mul (g_curve (cv_gen cv)) P secexp in
    match T with
    | PInf => Raise TypeError
    | PAff sx _ _ => number_to_string sx (cv_order cv)
    end.
  (** [sign] draws the nonce from os.urandom by [randrange]. *)
  Definition ecc_sign (data private_key : bytes) (entropy : nat -> Z -> bytes) : res bytes :=
    sign_with SECP256k1 data private_key (randrange (cv_order SECP256k1) entropy).
  (** ecc.py:81-92. *)
  Definition ecc_verify (data public_key signature : bytes) : res bool := verify_with SECP256k1 data public_key signature.
  (** ecc.py:94-107. *)
  Definition shared_secret (public_key private_key : bytes) : res bytes := shared_secret_with SECP256k1 public_key private_key.
End Ecc.
