(** Model of the DER helpers (nbc/util/ecdsa/der.py), of the number
    conversions, signature encoders and random ranges
    (nbc/util/ecdsa/util.py), of the deterministic nonce
    (nbc/util/ecdsa/rfc6979.py) and of the liberal signature decoder
    (nbc/util/ecc.py:45-73).  Python 3 unless a [py2] flag says otherwise; the PEM armour
    (der.py:190-204) is not modelled. *)
From Coq Require Import ZArith List Lia Bool.
From Verif Require Import PyBase PyVal UtilModel.
Import ListNotations.
Open Scope list_scope.
Open Scope Z_scope.

(** [("%x" % x)], padded to an even number of digits, unhexlified: the shortest
    big-endian bytes of [x >= 0], one zero byte for 0 (der.py:14-17, 133-136). *)
Definition min_bytes (x : Z) : bytes := be_bytes (Z.to_nat ((hex_len x + 1) / 2)) x.
(** [int(binascii.hexlify(s), 16)]: ValueError on the empty string. *)
Definition bytes_int (s : bytes) : res Z :=
  match s with [] => Raise ValueError | _ => Ok (be_val s) end.
(** [six.int2byte]: struct.error outside a byte. *)
Definition int2byte (x : Z) : res bytes := if is_byteb x then Ok [x] else Raise StructError.

(** ** Encoders (der.py:10-49, 129-138) *)
(** der.py:129-138. *)
Definition encode_length (l : Z) : res bytes :=
  if l <? 0 then Raise AssertionError
  else if l <? 0x80 then int2byte l
  else let s := min_bytes l in
       let! h := int2byte (Z.lor 0x80 (zlen s)) in Ok (h ++ s).
(** der.py:10-11. *)
Definition encode_constructed (tag : Z) (value : bytes) : res bytes :=
  let! t := int2byte (0xa0 + tag) in let! l := encode_length (zlen value) in Ok (t ++ l ++ value).
(** der.py:12-25. *)
Definition encode_integer (r : Z) : res bytes :=
  if r <? 0 then Raise AssertionError
  else let s := min_bytes r in
       if hd 0 s <=? 0x7f then let! l := int2byte (zlen s) in Ok ([2] ++ l ++ s)
       else let! l := int2byte (zlen s + 1) in Ok ([2] ++ l ++ [0] ++ s).
(** der.py:27-30. *)
Definition encode_bitstring (s : bytes) : res bytes := let! l := encode_length (zlen s) in Ok ([3] ++ l ++ s).
(** der.py:29-30. *)
Definition encode_octet_string (s : bytes) : res bytes := let! l := encode_length (zlen s) in Ok ([4] ++ l ++ s).
(** der.py:42-45, for [n >= 0] (a negative number never terminates); every
    digit but the last has bit 7 set. *)
Fixpoint b128 (fuel : nat) (n : Z) (acc : bytes) : bytes :=
  match fuel with
  | O => acc
  | S k => if n =? 0 then acc else b128 k (Z.shiftr n 7) (Z.lor (Z.land n 0x7f) 0x80 :: acc)
  end.
(** der.py:48. *)
Definition clear_last (l : bytes) : bytes := removelast l ++ [Z.land (last l 0) 0x7f].
(** der.py:41-49. *)
Definition encode_number (n : Z) : bytes :=
  let d := b128 (S (Z.to_nat (Z.log2 n))) n [] in
  clear_last (match d with [] => [0] | _ => d end).
(** der.py:31-37, for non-negative arguments. *)
Definition encode_oid (first second : Z) (pieces : list Z) : res bytes :=
  if 2 <? first then Raise AssertionError
  else if 39 <? second then Raise AssertionError
  else let! h := int2byte (40 * first + second) in
       let body := h ++ concat (map encode_number pieces) in
       let! l := encode_length (zlen body) in Ok ([6] ++ l ++ body).
(** der.py:38-40. *)
Definition encode_sequence (pieces : list bytes) : res bytes :=
  let! l := encode_length (zlen (concat pieces)) in Ok ([0x30] ++ l ++ concat pieces).

(** ** Decoders *)
(** der.py:140-150. *)
Definition read_length (s : bytes) : res (Z * Z) :=
  match s with
  | [] => Raise IndexError
  | num :: r =>
      if Z.land num 0x80 =? 0 then Ok (Z.land num 0x7f, 1)
      else let llen := Z.land num 0x7f in
           if zlen r <? llen then Raise UnexpectedDER
           else let! v := bytes_int (ztake llen r) in Ok (v, 1 + llen)
  end.
(** The common tail of the remove functions: [string[1+llen:1+llen+length]]
    and [string[1+llen+length:]]. *)
Definition body_rest (s : bytes) : res (bytes * bytes) :=
  let! l := read_length (zdrop 1 s) in
  Ok (slice (1 + snd l) (1 + snd l + fst l) s, zdrop (1 + snd l + fst l) s).
(** [if not string.startswith(tag): string[0] ...; raise UnexpectedDER]. *)
Definition expect (tag : Z) (s : bytes) : res unit :=
  match s with
  | [] => Raise IndexError
  | x :: _ => if x =? tag then Ok tt else Raise UnexpectedDER
  end.
(** der.py:51-60. *)
Definition remove_constructed (s : bytes) : res (Z * bytes * bytes) :=
  match s with
  | [] => Raise IndexError
  | s0 :: _ =>
      if negb (Z.land s0 0xe0 =? 0xa0) then Raise UnexpectedDER
      else let! b := body_rest s in Ok (Z.land s0 0x1f, fst b, snd b)
  end.
(** der.py:62-68, 70-77, 152-159. *)
Definition remove_sequence (s : bytes) : res (bytes * bytes) := let! _ := expect 0x30 s in body_rest s.
(** der.py:70-77. *)
Definition remove_octet_string (s : bytes) : res (bytes * bytes) := let! _ := expect 4 s in body_rest s.
(** der.py:152-159. *)
Definition remove_bitstring (s : bytes) : res (bytes * bytes) := let! _ := expect 3 s in body_rest s.
(** der.py:114-127: IndexError when the bytes run out before a last digit (the
    test above it is off by one). *)
Fixpoint read_number_loop (s : bytes) (number llen : Z) : res (Z * Z) :=
  match s with
  | [] => Raise IndexError
  | d :: r =>
      let number := Z.shiftl number 7 + Z.land d 0x7f in
      if Z.land d 0x80 =? 0 then Ok (number, llen + 1) else read_number_loop r number (llen + 1)
  end.
(** der.py:114-127. *)
Definition read_number (s : bytes) : res (Z * Z) := read_number_loop s 0 0.
(** der.py:86-90: a turn removes at least one byte. *)
Fixpoint read_numbers (fuel : nat) (body : bytes) : res (list Z) :=
  match body, fuel with
  | [], _ => Ok []
  | _, O => Ok []
  | _, S k => let! x := read_number body in let! r := read_numbers k (zdrop (snd x) body) in Ok (fst x :: r)
  end.
(** der.py:79-96. *)
Definition remove_object (s : bytes) : res (list Z * bytes) :=
  let! _ := expect 6 s in
  let! b := body_rest s in
  let! numbers := read_numbers (List.length (fst b)) (fst b) in
  match numbers with
  | [] => Raise IndexError
  | n0 :: r => let first := n0 / 40 in Ok (first :: n0 - 40 * first :: r, snd b)
  end.
(** der.py:98-112. *)
Definition remove_integer (s : bytes) : res (Z * bytes) :=
  let! _ := expect 2 s in
  let! b := body_rest s in
  match fst b with
  | [] => Raise IndexError
  | nbytes :: _ =>
      if negb (nbytes <? 0x80) then Raise AssertionError
      else let! v := bytes_int (fst b) in Ok (v, snd b)
  end.

(** ** Numbers as byte strings (util.py:161-180, curves.py:8-9) *)
Definition orderlen (order : Z) : Z := (1 + hex_len order) / 2.
(** [binascii.unhexlify(("%0<2l>x" % num).encode())]: binascii.Error, a
    ValueError, for a minus sign or an odd number of digits. *)
Definition unhex_padded (num l : Z) : res bytes :=
  if num <? 0 then Raise ValueError
  else let digits := Z.max (2 * l) (hex_len num) in
       if digits mod 2 =? 1 then Raise ValueError
       else Ok (be_bytes (Z.to_nat (digits / 2)) num).
(** util.py:161-166. *)
Definition number_to_string (num order : Z) : res bytes :=
  let l := orderlen order in
  let! s := unhex_padded num l in
  if negb (zlen s =? l) then Raise AssertionError else Ok s.
(** util.py:168-172. *)
Definition number_to_string_crop (num order : Z) : res bytes :=
  let l := orderlen order in
  let! s := unhex_padded num l in Ok (ztake l s).
(** util.py:174-175. *)
Definition string_to_number (s : bytes) : res Z := bytes_int s.
(** util.py:177-180. *)
Definition string_to_number_fixedlen (s : bytes) (order : Z) : res Z :=
  if negb (zlen s =? orderlen order) then Raise AssertionError else bytes_int s.

(** ** Signature encodings (util.py:186-247) *)
Definition sigencode_strings (r s order : Z) : res (bytes * bytes) :=
  let! a := number_to_string r order in let! b := number_to_string s order in Ok (a, b).
(** util.py:191-195. *)
Definition sigencode_string (r s order : Z) : res bytes :=
  let! x := sigencode_strings r s order in Ok (fst x ++ snd x).
(** util.py:197-198. *)
Definition sigencode_der (r s : Z) : res bytes :=
  let! a := encode_integer r in let! b := encode_integer s in encode_sequence [a; b].
(** util.py:203-216: [order / 2] is a float (true division), the exact half
    rounded to 53 significant bits, ties to even; [half_above s order] is
    [s > order / 2], for [0 < order < 2^1024]. *)
Definition half_rounded (order : Z) : Z * Z :=
  let e := Z.max 0 (Z.log2 order - 52) in
  let q := order / 2 ^ e in
  let r := order mod 2 ^ e in
  let up := if 2 * r =? 2 ^ e then negb (Z.even q) else 2 ^ e <? 2 * r in
  ((if up then q + 1 else q), e).
(** util.py:204, 209, 214: [s > order / 2]. *)
Definition half_above (s order : Z) : bool :=
  let (m, e) := half_rounded order in m * 2 ^ e <? 2 * s.
(** util.py:203-216. *)
Definition canonize (s order : Z) : Z := if half_above s order then order - s else s.
(** util.py:213-216. *)
Definition sigencode_der_canonize (r s order : Z) : res bytes := sigencode_der r (canonize s order).
(** util.py:208-211. *)
Definition sigencode_string_canonize (r s order : Z) : res bytes := sigencode_string r (canonize s order) order.
(** util.py:203-206. *)
Definition sigencode_strings_canonize (r s order : Z) : res (bytes * bytes) := sigencode_strings r (canonize s order) order.
(** util.py:219-233. *)
Definition sigdecode_string (signature : bytes) (order : Z) : res (Z * Z) :=
  let l := orderlen order in
  if negb (zlen signature =? 2 * l) then Raise AssertionError
  else let! r := string_to_number_fixedlen (ztake l signature) order in
       let! s := string_to_number_fixedlen (zdrop l signature) order in Ok (r, s).
(** util.py:226-233. *)
Definition sigdecode_strings (r_str s_str : bytes) (order : Z) : res (Z * Z) :=
  let l := orderlen order in
  if negb (zlen r_str =? l) then Raise AssertionError
  else if negb (zlen s_str =? l) then Raise AssertionError
  else let! r := string_to_number_fixedlen r_str order in
       let! s := string_to_number_fixedlen s_str order in Ok (r, s).
(** util.py:235-247. *)
Definition sigdecode_der (sig : bytes) : res (Z * Z) :=
  let! x := remove_sequence sig in
  match snd x with
  | _ :: _ => Raise UnexpectedDER
  | [] => let! r := remove_integer (fst x) in
          let! s := remove_integer (snd r) in
          match snd s with
          | _ :: _ => Raise UnexpectedDER
          | [] => Ok (fst r, fst s)
          end
  end.

(** ** The liberal decoder (nbc/util/ecc.py:45-73) *)
(** ecc.py:45-55: the name UnexpectedDER is not imported there. *)
Definition ecc_remove_integer (s : bytes) : res (Z * bytes) :=
  match s with
  | [] => Raise IndexError
  | x :: _ => if x =? 2 then
                let! b := body_rest s in let! v := bytes_int (fst b) in Ok (v, snd b)
              else Raise NameError
  end.
(** ecc.py:58-73. *)
Definition ecc_sigdecode_der (sig : bytes) : res (Z * Z) :=
  let! x := remove_sequence sig in
  let! r := ecc_remove_integer (fst x) in
  let! s := ecc_remove_integer (snd r) in Ok (fst r, fst s).

(** ** Random ranges *)
(** util.py:19-57 [randrange]: [entropy i] is what the i-th call of the
    entropy function returns, given the number of bytes asked for. *)
Fixpoint randrange_loop (tries : nat) (i : nat) (entropy : nat -> Z -> bytes) (order : Z) : res Z :=
  match tries with
  | O => Raise RuntimeError
  | S k =>
      let! c := string_to_number (entropy i (orderlen order)) in
      if (1 <=? c + 1) && (c + 1 <? order) then Ok (c + 1)
      else randrange_loop k (S i) entropy order
  end.
(** util.py:19-57. *)
Definition randrange (order : Z) (entropy : nat -> Z -> bytes) : res Z :=
  if negb (1 <? order) then Raise AssertionError else randrange_loop (Z.to_nat 10000) 0 entropy order.
(** util.py:84-94, given the bytes of the generator. *)
Definition overshoot_modulo (base : bytes) (order : Z) : res Z :=
  let! v := bytes_int base in
  if order - 1 =? 0 then Raise ZeroDivisionError
  else let number := v mod (order - 1) + 1 in
       if negb ((1 <=? number) && (number <? order)) then Raise AssertionError else Ok number.

(** ** Deterministic nonce (rfc6979.py) *)
Section Rfc6979.
  (** [hmac.new(key, msg, hash_func).digest()] and [hash_func().digest_size]. *)
  Variable hmac : bytes -> bytes -> bytes.
  Variable holen : nat.
  (** rfc6979.py:30-34, for a positive number. *)
  Definition bit_length (n : Z) : Z := Z.log2 n + 1.
  (** rfc6979.py:36-42. *)
  Definition bits2int (data : bytes) (qlen : Z) : res Z :=
    let! x := bytes_int data in
    let l := zlen data * 8 in
    Ok (if qlen <? l then Z.shiftr x (l - qlen) else x).
  (** rfc6979.py:44-51. *)
  Definition bits2octets (data : bytes) (order : Z) : res bytes :=
    let! z1 := bits2int data (bit_length order) in
    let z2 := z1 - order in
    number_to_string_crop (if z2 <? 0 then z1 else z2) order.
  (** rfc6979.py:91-93: [rolen] is [(qlen + 7) / 8], a float on Python 3, so
      that [len(t) < rolen] is [8 * len(t) < qlen + 7] there. *)
  Definition short (py2 : bool) (t : bytes) (qlen : Z) : bool :=
    if py2 then zlen t <? (qlen + 7) / 8 else 8 * zlen t <? qlen + 7.
  (** rfc6979.py:91-93: the loop. *)
  Fixpoint fill (fuel : nat) (py2 : bool) (k v t : bytes) (qlen : Z) : bytes * bytes :=
    if short py2 t qlen then
      match fuel with
      | O => (v, t)
      | S f => let v := hmac k v in fill f py2 k v (t ++ v) qlen
      end
    else (v, t).
  (** rfc6979.py:86-103: the outer loop has no bound; [None] when the fuel
      runs out.  With a hash of at least one byte the inner loop needs at most
      [qlen + 1] turns. *)
  Fixpoint nonce_loop (fuel : nat) (py2 : bool) (k v : bytes) (order qlen : Z) : option (res Z) :=
    match fuel with
    | O => None
    | S f =>
        let (v, t) := fill (Z.to_nat (qlen + 1)) py2 k v [] qlen in
        match bits2int t qlen with
        | Raise e => Some (Raise e)
        | Ok secret =>
            if (1 <=? secret) && (secret <? order) then Some (Ok secret)
            else let k := hmac k (v ++ [0]) in let v := hmac k v in nonce_loop f py2 k v order qlen
        end
    end.
  (** rfc6979.py:54-103. *)
  Definition generate_k (fuel : nat) (py2 : bool) (order secexp : Z) (data : bytes) : option (res Z) :=
    let qlen := bit_length order in
    match (let! x := number_to_string secexp order in let! d := bits2octets data order in Ok (x ++ d)) with
    | Raise e => Some (Raise e)
    | Ok bx =>
        let v := repeat 1 holen in
        let k := repeat 0 holen in
        let k := hmac k (v ++ [0] ++ bx) in
        let v := hmac k v in
        let k := hmac k (v ++ [1] ++ bx) in
        let v := hmac k v in
        nonce_loop fuel py2 k v order qlen
    end.
End Rfc6979.
