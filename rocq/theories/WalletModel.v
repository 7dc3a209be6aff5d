(** Model of the wallets: nbc/wallet/address.py, hdwallet.py and __init__.py.
    Python 3.  Hash functions, HMAC-SHA-512 and the curve are parameters (the
    code uses hashlib, hmac and SECP256k1); each draw of [random.randint] is an
    argument [rand], and what the user types at the passphrase prompt an
    argument [typed].  Private keys and passphrases are of type bytes; the
    empty passphrase stands for the default ''.  [__str__], [main] and the lazy
    caching of the point of a private HD wallet are not modelled. *)
From Coq Require Import String ZArith List Lia Bool.
From Verif Require Import PyBase PyVal UtilModel Base58Model DerModel NtModel EcModel KeyModel AesModel AesModes JsonModel.
Import ListNotations.
Open Scope string_scope.
Open Scope list_scope.
Open Scope Z_scope.

(** [binascii.unhexlify]; binascii.Error is a ValueError. *)
Definition unhexlify (s : text) : res bytes := match hex_decode s with Ok b => Ok b | Raise _ => Raise ValueError end.
(** [b'%02x' % n] for [0 <= n <= 255]. *)
Definition hex2 (n : Z) : bytes := [hex_digit (n / 16); hex_digit (n mod 16)].
(** Truth value of a value read from JSON. *)
Definition jtruth (v : jval) : bool :=
  match v with JNull => false | JBool b => b | JInt z => negb (z =? 0) | JStr s => match s with [] => false | _ => true end end.
(** [cfg[k]]. *)
Definition jfield (k : string) (cfg : jobj) : res jval :=
  match jget (bs k) cfg with Some v => Ok v | None => Raise KeyError end.
(** [int(v)], None standing for "no value given". *)
Definition jint (v : jval) : res (option Z) :=
  match v with
  | JNull => Ok None
  | JBool b => Ok (Some (if b then 1 else 0))
  | JInt z => Ok (Some z)
  | JStr s => match int_of_text 10 s with Some z => Ok (Some z) | None => Raise ValueError end
  end.
(** A constructor called with the value [vcn] of a file: [f] is the constructor, and
    [int(vcn)] follows the checks of the keys (address.py:65-100, hdwallet.py:53-67). *)
Definition given_vcn {A} (vcn : jval) (f : option Z -> res A) : res A :=
  match jint vcn with Ok v => f v | Raise e => let! _ := f None in Raise e end.
(** [unhexlify(v)]. *)
Definition jbytes (v : jval) : res bytes := match v with JStr s => unhexlify s | _ => Raise TypeError end.

(** address.py:98-100, hdwallet.py:65-67. *)
Definition choose_vcn (vcn : option Z) (rand : Z) : Z := match vcn with None => rand | Some v => Z.land v 0xFFFF end.

(** address.py:181-186, hdwallet.py:251-256: the text kept for a private key,
    and whether it is encrypted. *)
Definition wrap_secret (secret passphrase : bytes) : res (bytes * bool) :=
  if negb (zlen secret <=? 255) then Raise AssertionError
  else
    let t := hex2 (zlen secret) ++ secret in
    match passphrase with
    | [] => Ok (t, false)
    | _ => let! c := wallet_encrypt t passphrase in Ok (c, true)
    end.
(** address.py:201-207, hdwallet.py:273-279; the end of the slice may be
    negative. *)
Definition unwrap_secret (t : bytes) : res bytes :=
  match int_of_text 16 (ztake 2 t) with
  | None => Raise ValueError
  | Some orgLen =>
      let nowLen := zlen t in
      if (nowLen <? 2 + orgLen) || (orgLen + 17 <? nowLen) then Raise ValueError
      else Ok (slice 2 (if 2 + orgLen <? 0 then nowLen + (2 + orgLen) else 2 + orgLen) t)
  end.
(** address.py:197-207, hdwallet.py:269-279. *)
Definition read_secret (cfg : jobj) (v : jval) (passphrase typed : bytes) : res bytes :=
  let! t := jbytes v in
  let! t := if match jget (bs "encrypted") cfg with Some e => jtruth e | None => false end
            then wallet_decrypt t (match passphrase with [] => typed | _ => passphrase end)
            else Ok t in
  unwrap_secret t.

Section Wallet.
Variable sha256 sha512 ripemd160 : bytes -> bytes.
Variable hmac_sha512 : bytes -> bytes -> bytes.
Variable cv : curve_info.

(** ** Address (address.py:59-210) *)
Record address : Type := mk_address
  { ad_priv : option bytes; ad_pub : bytes; ad_compressed : bool; ad_vcn : Z; ad_testnet : bool; ad_address : bytes }.
(** address.py:50-57 with [compressed] False. *)
Definition key_from_point (P : point) : res bytes :=
  let! s := point_strings cv P in Ok ([4] ++ fst s ++ snd s).
(** address.py:113-117. *)
Definition public_text (compressed : bool) (pub : bytes) : res bytes :=
  if compressed then compress_public_key pub else Ok pub.
(** address.py:103 and 166. *)
Definition version_byte (testnet : bool) : bytes := if testnet then [0x6f] else [0].
(** address.py:82-104: the public key given or computed. *)
Definition address_finish (priv : option bytes) (pub : bytes) (compressed : bool) (vcn : option Z) (rand : Z) (testnet : bool) : res address :=
  match pub with
  | [] => Raise ValueError                           (* no address parameters *)
  | ch :: _ =>
      let! r := (if ch =? 4 then if negb (zlen pub =? 65) then Raise ValueError else Ok (pub, compressed)
                 else if (ch =? 2) || (ch =? 3) then let! k := decompress_with (cv_gen cv) pub in Ok (k, true)
                 else Raise ValueError) in
      let v := choose_vcn vcn rand in
      let! t := public_text (snd r) (fst r) in
      Ok (mk_address priv (fst r) (snd r) v testnet (publickey_to_address sha256 sha512 ripemd160 t v (version_byte testnet)))
  end.
(** address.py:60-104. *)
Definition address_new (pub priv : option bytes) (vcn : option Z) (rand : Z) (testnet : bool) : res address :=
  match priv with
  | Some (ch :: r) =>
      match pub with
      | Some _ => Raise ValueError
      | None =>
          if negb (ch =? 76) && negb (ch =? 75) && negb (ch =? 53) then Raise ValueError
          else
            let! k := privkey_from_wif sha256 (ch :: r) 0x80 in
            let! secexp := string_to_number k in
            let! P := ec_mul (g_curve (cv_gen cv)) (gen_point (cv_gen cv)) secexp in
            let! pk := key_from_point P in
            address_finish (Some (ch :: r)) pk ((ch =? 76) || (ch =? 75)) vcn rand testnet
      end
  | _ => address_finish None (match pub with Some k => k | None => [] end) false vcn rand testnet
  end.
(** address.py:126-132; [entropy] is what os.urandom returns. *)
Definition address_generate (vcn : option Z) (rand : Z) (testnet compressed : bool) (entropy : nat -> Z -> bytes) : res address :=
  let! secexp := randrange (cv_order cv) entropy in
  let! key := number_to_string secexp (cv_order cv) in
  address_new None (Some (privkey_to_wif sha256 (if compressed then key ++ [1] else key) [0x80])) vcn rand testnet.
(** address.py:134-142. *)
Definition address_decompress (a : address) : res address :=
  if negb (ad_compressed a) then Ok a
  else
    match ad_priv a with
    | Some w => let! k := privkey_from_wif sha256 w 0x80 in
                address_new None (Some (privkey_to_wif sha256 k [0x80])) (Some (ad_vcn a)) 0 (ad_testnet a)
    | None => let! k := decompress_with (cv_gen cv) (ad_pub a) in
              address_new (Some k) None (Some (ad_vcn a)) 0 (ad_testnet a)
    end.
(** address.py:144-152. *)
Definition address_compress (a : address) : res address :=
  if ad_compressed a then Ok a
  else
    match ad_priv a with
    | Some w => let! k := privkey_from_wif sha256 w 0x80 in
                address_new None (Some (privkey_to_wif sha256 (k ++ [1]) [0x80])) (Some (ad_vcn a)) 0 (ad_testnet a)
    | None => let! k := compress_public_key (ad_pub a) in
              address_new (Some k) None (Some (ad_vcn a)) 0 (ad_testnet a)
    end.
(** address.py:154-159; [nonce] is what [randrange] returns in [SigningKey.sign]. *)
Definition address_sign (a : address) (data : bytes) (nonce : res Z) : res bytes :=
  match ad_priv a with
  | None => Raise ValueError
  | Some w => let! k := privkey_from_wif sha256 w 0x80 in sign_with sha256 cv data k nonce
  end.
(** address.py:161-165. *)
Definition address_verify (a : address) (data signature : bytes) : res bool :=
  verify_with sha256 cv data (ad_pub a) signature.

(** address.py:172-191. *)
Definition address_dump (a : address) (passphrase : bytes) : res jobj :=
  let! r := (match ad_priv a with
             | Some w => let! c := wrap_secret w passphrase in Ok (snd c, JStr (hex_encode (fst c)), JNull)
             | None => Ok (false, JNull, JStr (hex_encode (ad_pub a)))
             end) in
  let '(enc, prv, pub) := r in
  Ok [(bs "encrypted", JBool enc); (bs "type", JStr (bs "default")); (bs "vcn", JInt (ad_vcn a));
      (bs "testnet", JBool (ad_testnet a)); (bs "prvkey", prv); (bs "pubkey", pub)].
(** address.py:193-210.  Beside a private key, [pubkey] is passed on as it is: a
    value other than None makes the constructor fail. *)
Definition address_load (cfg : jobj) (passphrase typed : bytes) (rand : Z) : res address :=
  let! pub := jfield "pubkey" cfg in
  let! prv := jfield "prvkey" cfg in
  let! ks := (if jtruth prv then let! k := read_secret cfg prv passphrase typed in Ok (pub, Some k)
              else Ok (pub, None)) in
  let! pk := (match snd ks with
              | Some _ => Ok None
              | None => if jtruth pub then let! k := jbytes pub in Ok (Some k) else Ok None
              end) in
  let! vcn := jfield "vcn" cfg in
  let! testnet := jfield "testnet" cfg in
  match snd ks, pub with
  | Some k, JNull => given_vcn vcn (fun v => address_new None (Some k) v rand (jtruth testnet))
  | Some [], _ => if jtruth pub then Raise AssertionError else Raise ValueError
  | Some _, _ => Raise ValueError
  | None, _ => given_vcn vcn (fun v => address_new pk None v rand (jtruth testnet))
  end.

(** ** HD wallets (hdwallet.py) *)
(** hdwallet.py:20-22. *)
Definition hash_160 (k : bytes) : bytes := ripemd160 (sha256 k).
(** hdwallet.py:24-27; INFINITY has no coordinates. *)
Definition point_compress (P : point) : res bytes :=
  match P with
  | PInf => Raise TypeError
  | PAff x y _ => let! s := number_to_string x (c_p (g_curve (cv_gen cv))) in Ok ([2 + Z.land y 1] ++ s)
  end.
(** hdwallet.py:29-39. *)
Definition point_decompress (data : bytes) : res point :=
  let c := g_curve (cv_gen cv) in
  match data with
  | [] => Raise IndexError
  | ch :: r =>
      if negb ((ch =? 2) || (ch =? 3)) then Raise AssertionError
      else
        let parity := if ch =? 2 then 1 else -1 in
        let! x := string_to_number r in
        let! y := square_root_mod_prime ((x * x * x + c_a c * x + c_b c) mod c_p c) (c_p c) in
        point_new c x ((parity * y) mod c_p c) 0
  end.
(** The key of a wallet: [_prvkey], or [_pubkey] of a watch-only wallet. *)
Inductive hdkey : Type := HPriv (d : Z) | HPub (P : point).
(** hdwallet.py:52-77: the attributes. *)
Record hdwallet : Type := mk_hd
  { hd_key : hdkey; hd_chain : bytes; hd_vcn : Z; hd_testnet : bool; hd_depth : Z; hd_parentfp : bytes; hd_childnum : Z }.
(** hdwallet.py:52-77. *)
Definition hd_new (key : hdkey) (chain : bytes) (vcn : option Z) (rand : Z) (testnet : bool) (depth : option Z) (parentfp : bytes) (childnum : Z) : res hdwallet :=
  let! _ := (match key with
             | HPub _ => Ok tt
             | HPriv d => if (0 <? d) && (d <? cv_order cv) then Ok tt else Raise AssertionError
             end) in
  if negb (zlen chain =? 32) then Raise AssertionError
  else
    let v := choose_vcn vcn rand in
    match depth with
    | None => Ok (mk_hd key chain v testnet 0 (repeat 0 4) 0)
    | Some d => if d <? 256 then Ok (mk_hd key chain v testnet d parentfp childnum) else Raise AssertionError
    end.
(** hdwallet.py:146-149. *)
Definition hd_point (w : hdwallet) : res point :=
  match hd_key w with
  | HPriv d => ec_mul (g_curve (cv_gen cv)) (gen_point (cv_gen cv)) d
  | HPub P => Ok P
  end.
(** hdwallet.py:172-178. *)
Definition hd_fingerprint (w : hdwallet) : res bytes :=
  let! P := hd_point w in let! k := point_compress P in Ok (ztake 4 (hash_160 k)).
(** hdwallet.py:175-178. *)
Definition hd_parent (w : hdwallet) : bytes := if hd_depth w =? 0 then repeat 0 4 else hd_parentfp w.
(** hdwallet.py:79-121; the child gets no [vcn], so a random one. *)
Definition hd_child (w : hdwallet) (i : Z) (rand : Z) : res hdwallet :=
  if negb ((0 <=? i) && (i <=? 2 ^ 32 - 1)) then Raise AssertionError
  else
    let hardened := negb (Z.land i 0x80000000 =? 0) in
    match hardened, hd_key w with
    | true, HPub _ => Raise PlainException
    | _, _ =>
        if negb (hd_depth w <? 0xff) then Raise AssertionError
        else
          let! str_i := number_to_string i (2 ^ 32 - 1) in
          let! msg := (match hardened, hd_key w with
                       | true, HPriv d => let! k := number_to_string d (cv_order cv) in Ok ([0] ++ k ++ str_i)
                       | _, _ => let! P := hd_point w in let! k := point_compress P in Ok (k ++ str_i)
                       end) in
          let deriv := hmac_sha512 (hd_chain w) msg in
          let childChain := zdrop 32 deriv in
          let! childModifier := string_to_number (ztake 32 deriv) in
          if cv_order cv <=? childModifier then Raise PlainException
          else
            let! childKey := (match hd_key w with
              | HPriv d => let k := (d + childModifier) mod cv_order cv in
                           if k =? 0 then Raise PlainException else Ok (HPriv k)
              | HPub P => let! M := ec_mul (g_curve (cv_gen cv)) (gen_point (cv_gen cv)) childModifier in
                          let! Q := ec_add (g_curve (cv_gen cv)) P M in
                          if point_eqb Q PInf then Raise PlainException else Ok (HPub Q)
              end) in
            let! fp := hd_fingerprint w in
            hd_new childKey childChain None rand (hd_testnet w) (Some (hd_depth w + 1)) fp i
    end.
(** hdwallet.py:123-144. *)
Definition hd_extended (w : hdwallet) (include_prv : bool) : res bytes :=
  let version := if hd_testnet w then if include_prv then 0x04358394 else 0x043587CF
                 else if include_prv then 0x0488ADE4 else 0x0488B21E in
  let! version := number_to_string version (2 ^ 32 - 1) in
  let! depth := number_to_string (hd_depth w) (2 ^ 8 - 1) in
  let! childnum := number_to_string (hd_childnum w) (2 ^ 32 - 1) in
  let! data := (if include_prv then
                  match hd_key w with
                  | HPub _ => Raise PlainException
                  | HPriv d => let! k := number_to_string d (cv_order cv) in Ok ([0] ++ k)
                  end
                else let! P := hd_point w in point_compress P) in
  let ekdata := version ++ depth ++ hd_parent w ++ childnum ++ hd_chain w ++ data in
  Ok (b58encode (ekdata ++ ztake 4 (sha256 (sha256 ekdata)))).
(** hdwallet.py:151-159. *)
Definition hd_pubkey (w : hdwallet) : res bytes :=
  let! P := hd_point w in let! s := point_strings cv P in Ok (fst s ++ snd s).
(** hdwallet.py:156-159. *)
Definition hd_prvkey (w : hdwallet) : res (option bytes) :=
  match hd_key w with
  | HPriv d => let! k := number_to_string d (cv_order cv) in Ok (Some k)
  | HPub _ => Ok None
  end.
(** hdwallet.py:164-167. *)
Definition hd_address (w : hdwallet) (verByte : option bytes) : res bytes :=
  let v := match verByte with Some b => b | None => version_byte (hd_testnet w) end in
  let! P := hd_point w in let! k := point_compress P in
  Ok (publickey_to_address sha256 sha512 ripemd160 k (hd_vcn w) v).
(** hdwallet.py:183-194. *)
Definition hd_sign (w : hdwallet) (data : bytes) (nonce : res Z) : res bytes :=
  let! k := hd_prvkey w in
  match k with
  | None => Raise ValueError
  | Some [] => Raise ValueError
  | Some k => sign_with sha256 cv data k nonce
  end.
(** hdwallet.py:189-194. *)
Definition hd_verify (w : hdwallet) (data signature : bytes) : res bool :=
  let! P := hd_point w in let! k := key_from_point P in verify_with sha256 cv data k signature.

(** hdwallet.py:196-226.  [decode s n] is the call [base58.b58decode(s, n)] of line
    198; line 224 reads [self], which a static method does not have. *)
Definition from_extended_with (decode : bytes -> Z -> res bytes) (s : bytes) : res hdwallet :=
  let! decoded := decode s (78 + 4) in
  match decoded with [] => Raise AssertionError | _ =>
  let ekdata := ztake 78 decoded in
  let checksum := slice 78 (78 + 4) decoded in
  if negb (bytes_eqb checksum (ztake 4 (sha256 (sha256 ekdata)))) then Raise AssertionError
  else
    let! version := string_to_number (slice 0 4 ekdata) in
    let! depth := string_to_number (slice 4 5 ekdata) in
    let parentfp := slice 5 9 ekdata in
    let! childnum := string_to_number (slice 9 13 ekdata) in
    let chaincode := slice 13 45 ekdata in
    let data := slice 45 78 ekdata in
    let testnet := (version =? 0x043587CF) || (version =? 0x04358394) in
    let! key := (if (version =? 0x0488B21E) || (version =? 0x043587CF) then
                   match data with
                   | [] => Raise IndexError
                   | ch :: _ => if negb ((ch =? 2) || (ch =? 3)) then Raise AssertionError
                                else let! P := point_decompress data in Ok (HPub P)
                   end
                 else if (version =? 0x0488ADE4) || (version =? 0x04358394) then
                   match data with
                   | [] => Raise IndexError
                   | ch :: r => if negb (ch =? 0) then Raise AssertionError
                                else let! k := string_to_number r in Ok (HPriv k)
                   end
                 else Raise PlainException) in
    let! vcn := (Raise NameError : res Z) in          (* self.vcn *)
    hd_new key chaincode (Some vcn) 0 testnet (Some depth) parentfp childnum
  end.
(** [base58.b58decode] takes one argument (base58.py:63). *)
Definition from_extended_key (s : bytes) : res hdwallet := from_extended_with (fun _ _ => Raise TypeError) s.
(** hdwallet.py:228-237, for a seed of type bytes. *)
Definition from_master_seed (seed : bytes) (vcn : option Z) (rand : Z) (testnet : bool) : res hdwallet :=
  let deriv := hmac_sha512 (bs "Bitcoin seed") seed in
  let! k := string_to_number (ztake 32 deriv) in
  let master_key := k mod cv_order cv in
  if master_key =? 0 then Raise ValueError
  else hd_new (HPriv master_key) (zdrop 32 deriv) vcn rand testnet None [] 0.
(** hdwallet.py:239-263. *)
Definition hd_dump (w : hdwallet) (passphrase : bytes) : res jobj :=
  let! r := (match hd_key w with
             | HPriv d => let! s := number_to_string d (cv_order cv) in
                          let! c := wrap_secret s passphrase in Ok (snd c, JStr (hex_encode (fst c)), JNull)
             | HPub P => let! k := point_compress P in Ok (false, JNull, JStr (hex_encode k))
             end) in
  let '(enc, prv, pub) := r in
  Ok [(bs "encrypted", JBool enc); (bs "type", JStr (bs "HD")); (bs "chain", JStr (hex_encode (hd_chain w)));
      (bs "vcn", JInt (hd_vcn w)); (bs "testnet", JBool (hd_testnet w)); (bs "depth", JInt (hd_depth w));
      (bs "parentfp", JStr (hex_encode (hd_parent w))); (bs "childnum", JInt (hd_childnum w));
      (bs "prvkey", prv); (bs "pubkey", pub)].
(** hdwallet.py:284: [prvKey or pubKey] where the private key is missing or 0 and the
    public key is [pub] as it stands in the file.  A key that is neither a point nor
    an integer: [long] is not defined (line 55). *)
Definition other_key (pub : jval) : option hdkey := match pub with JInt z => Some (HPriv z) | _ => None end.
(** hdwallet.py:265-286. *)
Definition hd_load (cfg : jobj) (passphrase typed : bytes) (rand : Z) : res hdwallet :=
  let! prv := jfield "prvkey" cfg in
  let! pub := jfield "pubkey" cfg in
  let! key := (if jtruth prv then
                 let! s := read_secret cfg prv passphrase typed in
                 let! k := string_to_number s in
                 Ok (if k =? 0 then other_key pub else Some (HPriv k))
               else if jtruth pub then let! b := jbytes pub in let! P := point_decompress b in Ok (Some (HPub P))
               else Ok (other_key pub)) in
  let! ch := jfield "chain" cfg in
  let! chain := jbytes ch in
  let! vcn := jfield "vcn" cfg in
  let! testnet := jfield "testnet" cfg in
  let! depth := jfield "depth" cfg in
  let! childnum := jfield "childnum" cfg in
  let! pf := jfield "parentfp" cfg in
  let! parentfp := jbytes pf in
  match key with
  | None => Raise NameError
  | Some key =>
      let! _ := given_vcn vcn (fun v => hd_new key chain v rand (jtruth testnet) None [] 0) in     (* lines 53-67 *)
      let! v := jint vcn in
      let! d := (match depth with JNull => Ok None | JInt d => Ok (Some d) | JBool b => Ok (Some (if b then 1 else 0)) | JStr _ => Raise TypeError end) in
      (* a child number that is not an integer is kept as it is; not modelled *)
      let! n := (match childnum with JInt n => Ok n | _ => Raise TypeError end) in
      hd_new key chain v rand (jtruth testnet) d parentfp n
  end.

(** ** Wallet files (__init__.py:8-22) *)
Inductive wallet : Type := WAddress (a : address) | WHD (w : hdwallet).
(** __init__.py:8-10: the text to be written. *)
Definition wallet_text (w : wallet) (passphrase : bytes) : res text :=
  let! cfg := (match w with WAddress a => address_dump a passphrase | WHD h => hd_dump h passphrase end) in
  Ok (json_dumps cfg).
(** __init__.py:14-22, on the contents of the file. *)
Definition load_from (contents : text) (passphrase typed : bytes) (rand : Z) : res wallet :=
  let! cfg := json_loads contents in
  match jget (bs "type") cfg with
  | Some (JStr tp) =>
      if bytes_eqb tp (bs "HD") then let! h := hd_load cfg passphrase typed rand in Ok (WHD h)
      else if bytes_eqb tp (bs "default") then let! a := address_load cfg passphrase typed rand in Ok (WAddress a)
      else Raise RuntimeError
  | _ => Raise RuntimeError
  end.
End Wallet.
(** __init__.py:8-12: what the file can contain when the process stops during
    [saveTo] ([old] is the previous contents, [new] the text of line 10): the
    file is untouched until line 11 opens it, which empties it; the text then
    reaches the file from its beginning, in pieces of any size. *)
Inductive during_save (old new : text) : text -> Prop :=
| before_open : during_save old new old
| written n : during_save old new (firstn n new).
