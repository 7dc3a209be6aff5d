(** Model of nbc/util/base58.py and of the WIF and address parts of
    nbc/util/key.py. *)
From Coq Require Import String ZArith List Lia Bool.
From Verif Require Import PyBase PyVal.
Import ListNotations.
Open Scope string_scope.
Open Scope list_scope.
Open Scope Z_scope.

(** base58.py:7. *)
Definition alphabet : bytes := bs "123456789ABCDEFGHJKLMNPQRSTUVWXYZabcdefghijkmnopqrstuvwxyz".

(** base58.py:20-25 [scrub_input]: text is encoded as ASCII (UnicodeEncodeError,
    a ValueError, otherwise), bytes are kept, anything else is a TypeError. *)
Definition scrub_input (v : pyval) : res bytes :=
  match v with
  | VStr s => if forallb (fun c => (0 <=? c) && (c <? 128)) s then Ok s else Raise UnicodeError
  | VBytes b => Ok b
  | _ => Raise TypeError
  end.

(** [v.lstrip(c)] for a single byte [c]. *)
Fixpoint lstrip (c : Z) (v : bytes) : bytes :=
  match v with
  | x :: r => if x =? c then lstrip c r else v
  | [] => []
  end.

(** base58.py:33-36: the loop of [b58encode_int].  The fuel bounds the loop
    (one turn per base-58 digit; log2 is an upper bound). *)
Fixpoint encode_loop (fuel : nat) (i : Z) (s : bytes) : bytes :=
  if i =? 0 then s else
  match fuel with
  | O => s
  | S k => encode_loop k (i / 58) (slice (i mod 58) (i mod 58 + 1) alphabet ++ s)
  end.
(** base58.py:27-36, for [i >= 0]. *)
Definition b58encode_int (i : Z) (default_one : bool) : bytes :=
  if (i =? 0) && default_one then slice 0 1 alphabet
  else encode_loop (Z.to_nat (Z.log2 i) + 1) i [].

(** base58.py:46-49: the accumulating loop over [reversed(v)]. *)
Fixpoint acc_loop (p acc : Z) (rv : bytes) : Z :=
  match rv with
  | [] => acc
  | c :: r => acc_loop (Z.shiftl p 8) (acc + p * c) r
  end.
(** base58.py:38-52 (after [scrub_input]). *)
Definition b58encode (v : bytes) : bytes :=
  let npad := zlen v in
  let v := lstrip 0 v in
  let npad := npad - zlen v in
  let acc := acc_loop 1 0 (rev v) in
  let ret := b58encode_int acc false in
  repeat 49 (Z.to_nat npad) ++ ret.

(** [alphabet.index(ch)]. *)
Fixpoint index_of (c : Z) (l : bytes) (i : Z) : option Z :=
  match l with
  | [] => None
  | x :: r => if x =? c then Some i else index_of c r (i + 1)
  end.
(** base58.py:54-61. *)
Fixpoint decode_int_loop (v : bytes) (decimal : Z) : res Z :=
  match v with
  | [] => Ok decimal
  | ch :: r => match index_of ch alphabet 0 with
               | Some i => decode_int_loop r (decimal * 58 + i)
               | None => Raise ValueError
               end
  end.
(** base58.py:54-61. *)
Definition b58decode_int (v : bytes) : res Z := decode_int_loop v 0.

(** base58.py:74-76 (fuel as above). *)
Fixpoint bytes_loop (fuel : nat) (acc : Z) (ret : bytes) : bytes :=
  if 0 <? acc then
    match fuel with
    | O => ret
    | S k => bytes_loop k (acc / 256) (ret ++ [acc mod 256])
    end
  else ret.
(** base58.py:63-78 (after [scrub_input]). *)
Definition b58decode (v : bytes) : res bytes :=
  let origlen := zlen v in
  let v := lstrip 49 v in
  let newlen := zlen v in
  let! acc := b58decode_int v in
  let ret := bytes_loop (Z.to_nat (Z.log2 acc) + 1) acc [] in
  Ok (repeat 0 (Z.to_nat (origlen - newlen)) ++ rev ret).

(** base58.py:38-52 and 63-78 as called, with [scrub_input] (lines 41 and 66). *)
Definition b58encode_py (v : pyval) : res bytes := let! b := scrub_input v in Ok (b58encode b).
(** base58.py:63-78. *)
Definition b58decode_py (v : pyval) : res bytes := let! b := scrub_input v in b58decode b.

(** Python slices [l[:-4]] and [l[-4:]]. *)
Definition drop_last4 (l : bytes) : bytes := ztake (zlen l - 4) l.
(** [l[-4:]], base58.py:89-91. *)
Definition last4 (l : bytes) : bytes := zdrop (zlen l - 4) l.

Section Keys.
Variable sha256 : bytes -> bytes.
Variable sha512 : bytes -> bytes.
Variable ripemd160 : bytes -> bytes.

(** base58.py:80-84. *)
Definition encode_check (v : bytes) : bytes :=
  let digest := sha256 (sha256 v) in
  b58encode (v ++ ztake 4 digest).

(** base58.py:86-95. *)
Definition decode_check (v : bytes) : res (option bytes) :=
  let! ret := b58decode v in
  let check := last4 ret in
  let ret := drop_last4 ret in
  let digest := sha256 (sha256 ret) in
  Ok (if bytes_eqb (ztake 4 digest) check then Some ret else None).

(** key.py:80-81. *)
Definition privkey_to_wif (privkey prefix : bytes) : bytes := encode_check (prefix ++ privkey).

(** key.py:84-100, for a one-byte prefix; [privkey] is the WIF text (bytes or
    ASCII str, which [ORD] treats alike). *)
Definition privkey_from_wif (privkey : bytes) (prefix : Z) : res bytes :=
  let! key := decode_check privkey in
  match key with
  | None => Raise TypeError                       (* key[0] of None *)
  | Some key =>
      match key with
      | [] => Raise IndexError                    (* key[0] *)
      | k0 :: key1 =>
          if negb (prefix =? k0) then Raise ValueError
          else if zlen key =? 33 then
            match privkey with
            | [] => Raise IndexError
            | ch :: _ => if negb (ch =? 53) then Raise ValueError else Ok key1
            end
          else if zlen key =? 34 then
            if negb (last key 0 =? 1) then Raise ValueError
            else match privkey with
                 | [] => Raise IndexError
                 | ch :: _ => if negb (ch =? 76) && negb (ch =? 75) then Raise ValueError
                              else Ok (removelast key1)     (* key[1:-1] *)
                 end
          else Raise ValueError
      end
  end.

(** [b'%04x' % (vcn & 0xFFFF)]: four lower-case hexadecimal digits. *)
Definition hex4 (x : Z) : bytes :=
  map (fun d => if d <? 10 then 48 + d else 87 + d)
    [x / 4096; (x / 256) mod 16; (x / 16) mod 16; x mod 16].

(** key.py:102-104. *)
Definition pubkeyhash_to_address (publickey_hash : bytes) (vcn : Z) (version : bytes) : bytes :=
  encode_check (version ++ hex4 (Z.land vcn 0xffff) ++ publickey_hash).

(** key.py:109-112: the digest of a public key. *)
Definition pubkey_digest (publickey : bytes) : bytes :=
  let pubHash := sha512 publickey in
  let s1 := ripemd160 (ztake 32 pubHash) in
  let s2 := ripemd160 (zdrop 32 pubHash) in
  sha256 (s1 ++ s2).
(** key.py:107-112. *)
Definition publickey_to_address (publickey : bytes) (vcn : Z) (version : bytes) : bytes :=
  pubkeyhash_to_address (pubkey_digest publickey) vcn version.
End Keys.
