(** Model of nbc/util/piecewise.py: adding and splitting private keys, and the
    sets of partial keys with their QR codes. *)
From Coq Require Import String ZArith List Lia Bool.
From Verif Require Import PyBase PyVal FormatModel Base58Model DerModel NtModel EcModel KeyModel.
Import ListNotations.
Open Scope string_scope.
Open Scope list_scope.
Open Scope Z_scope.

(** [sum(l)]. *)
Definition zsum (l : list Z) : Z := fold_right Z.add 0 l.
(** A list comprehension whose expression may raise. *)
Definition each {A B} (f : A -> res B) (l : list A) : res (list B) := sequence (map f l).
(** [range(0, n)]. *)
Definition upto (n : Z) : list nat := seq 0 (Z.to_nat n).
(** piecewise.py:58-59 [CHR]. *)
Definition chr (i : Z) : res bytes := if (0 <=? i) && (i <? 256) then Ok [i] else Raise ValueError.
(** [l[i]] for a list and an index that is not negative. *)
Definition item {A} (l : list A) (i : nat) : res A := match nth_error l i with Some x => Ok x | None => Raise IndexError end.
(** [s.add(x)] for a set; the order of the elements is of no account. *)
Definition set_add (x : bytes) (s : list bytes) : list bytes := if existsb (bytes_eqb x) s then s else s ++ [x].
(** [parts[index].add(k)] of lines 258-260. *)
Fixpoint parts_add (index : Z) (k : bytes) (parts : list (Z * list bytes)) : list (Z * list bytes) :=
  match parts with
  | [] => [(index, [k])]
  | (i, s) :: r => if i =? index then (i, set_add k s) :: r else (i, s) :: parts_add index k r
  end.

(** ** base64.b32encode and base64.b32decode of the standard library *)
Definition b32_alphabet : bytes := bs "ABCDEFGHIJKLMNOPQRSTUVWXYZ234567".
(** [base64._b32alphabet[d]]. *)
Definition b32_chr (d : Z) : Z := nth (Z.to_nat d) b32_alphabet 0.
(** The eight digits of five bytes. *)
Definition b32_digits (v : Z) : list Z := map (fun i => v / 32 ^ i mod 32) [7; 6; 5; 4; 3; 2; 1; 0].
(** [base64.b32encode]: five bytes at a time. *)
Fixpoint b32_quanta (fuel : nat) (s : bytes) : bytes :=
  match fuel with
  | O => []
  | S k => map b32_chr (b32_digits (be_val (ztake 5 s))) ++ b32_quanta k (zdrop 5 s)
  end.
(** [base64.b32encode]. *)
Definition b32encode (s : bytes) : bytes :=
  let leftover := zlen s mod 5 in
  let pad := if leftover =? 0 then 0 else 5 - leftover in
  let s' := s ++ repeat 0 (Z.to_nat pad) in
  let encoded := b32_quanta (Z.to_nat (zlen s' / 5)) s' in
  let drop := if leftover =? 1 then 6 else if leftover =? 2 then 4 else if leftover =? 3 then 3 else if leftover =? 4 then 1 else 0 in
  ztake (zlen encoded - drop) encoded ++ repeat 61 (Z.to_nat drop).
(** [s.strip('=')]. *)
Definition strip_pad (s : bytes) : bytes := rev (lstrip 61 (rev (lstrip 61 s))).
(** The digits of the text, eight at a time; [acc] holds the quantum begun and
    [shift] is 35 minus five times the digits in it. *)
Fixpoint b32_read (s : bytes) (acc shift : Z) (out : bytes) : res (Z * bytes) :=
  match s with
  | [] => Ok (acc, out)
  | c :: r =>
      match index_of c b32_alphabet 0 with
      | None => Raise TypeError
      | Some v =>
          let acc := acc + v * 2 ^ shift in
          if shift - 5 <? 0 then b32_read r 0 35 (out ++ be_bytes 5 acc) else b32_read r acc (shift - 5) out
      end
  end.
(** Python 2 raises TypeError for a wrong padding. *)
Definition b32decode (s : bytes) : res bytes :=
  if negb (zlen s mod 8 =? 0) then Raise TypeError
  else
    let body := rev (lstrip 61 (rev s)) in
    let padchars := zlen s - zlen body in
    let! r := b32_read body 0 35 [] in
    let last := be_bytes 5 (fst r) in
    if padchars =? 0 then Ok (snd r)
    else if padchars =? 1 then Ok (snd r ++ ztake 4 last)
    else if padchars =? 3 then Ok (snd r ++ ztake 3 last)
    else if padchars =? 4 then Ok (snd r ++ ztake 2 last)
    else if padchars =? 6 then Ok (snd r ++ ztake 1 last)
    else Raise TypeError.

(** [list.sort()] of pairs of an integer and a byte string. *)
Fixpoint bytes_leb (a b : bytes) : bool :=
  match a, b with
  | [], _ => true
  | _, [] => false
  | x :: a, y :: b => if x <? y then true else if x =? y then bytes_leb a b else false
  end.
(** [<=] of two such pairs. *)
Definition pair_leb (a b : Z * bytes) : bool :=
  if fst a <? fst b then true else if fst a =? fst b then bytes_leb (snd a) (snd b) else false.
(** One insertion of the sort. *)
Fixpoint insert (x : Z * bytes) (l : list (Z * bytes)) : list (Z * bytes) :=
  match l with [] => [x] | y :: r => if pair_leb x y then x :: l else y :: insert x r end.
(** [list.sort()]. *)
Definition sort (l : list (Z * bytes)) : list (Z * bytes) := fold_right insert [] l.

Section Piecewise.
  Variables sha256 sha512 ripemd160 : bytes -> bytes.
  Variable cv : curve_info.                  (* [curve], line 50 *)
  Notation order := (cv_order cv).
  (** util/hash.py:35-36. *)
  Definition sha256d (s : bytes) : bytes := sha256 (sha256 s).

  (** piecewise.py:60-87.  Python 3 compares the integer [public_key[0]] with a byte
      string; line 87 omits the argument [vcn]. *)
  Definition get_address (py2 : bool) (public_key private_key version : bytes) : res bytes :=
    if negb (zlen public_key =? 65) || negb (py2 && (hd 0 public_key =? 4)) then Raise ValueError
    else
      let! x := string_to_number (slice 1 (1 + cv_baselen cv) public_key) in
      let! y := string_to_number (zdrop (1 + cv_baselen cv) public_key) in
      let! public_point := point_new (g_curve (cv_gen cv)) x y order in
      let! private_key := privkey_from_wif sha256 private_key 0x80 in
      let! secexp := string_to_number private_key in
      let! private_point := ec_mul (g_curve (cv_gen cv)) (gen_point (cv_gen cv)) secexp in
      let! combined := ec_add (g_curve (cv_gen cv)) public_point private_point in
      let! s := point_strings cv combined in
      let key_combined := [0] ++ fst s ++ snd s in
      Raise TypeError.

  (** piecewise.py:90-104. *)
  Definition combine_private_keys (private_keys : list bytes) : res bytes :=
    let! private_keys := each (fun k => privkey_from_wif sha256 k 0x80) private_keys in
    let! secexps := each string_to_number private_keys in
    let combined := zsum secexps mod order in
    let! private_key := number_to_string combined order in
    Ok (privkey_to_wif sha256 private_key [0x80]).

  (** piecewise.py:107-124; [draw i] is what os.urandom returns in the i-th call of
      randrange.  Python 3 has no [xrange]. *)
  Definition split_private_key (py2 : bool) (private_key : bytes) (count : Z) (draw : nat -> nat -> Z -> bytes) : res (list bytes) :=
    let! private_key := privkey_from_wif sha256 private_key 0x80 in
    let! secexp := string_to_number private_key in
    if negb py2 then Raise NameError
    else
      let! secexps := each (fun i => randrange order (draw i)) (upto (count - 1)) in
      let secexps := secexps ++ [(secexp - zsum secexps) mod order] in
      let! private_keys := each (fun s => number_to_string s order) secexps in
      Ok (map (fun k => privkey_to_wif sha256 k [0x80]) private_keys).

  (** piecewise.py:195-198. *)
  Definition partial_encode_key (checksum : bytes) (required : Z) (index : nat) (k : bytes) : res bytes :=
    let! pk := privkey_from_wif sha256 k 0x80 in
    let! i := chr (Z.of_nat index) in
    let! r := chr required in
    Ok (encode_check sha256 ([0x10; 0x01] ++ i ++ r ++ checksum ++ pk)).
  (** piecewise.py:173-216; [draw i] are the draws of the i-th split.  The groups are
      frozensets: the order within each list is of no account. *)
  Definition partial_split_private_key (py2 : bool) (private_key : bytes) (required total : Z) (draw : nat -> nat -> nat -> Z -> bytes) : res (list (list bytes)) :=
    if total <? required then Raise ValueError
    else
      let! k := privkey_from_wif sha256 private_key 0x80 in
      let checksum := ztake 4 (sha256d k) in
      if negb py2 then Raise NameError
      else
        let! keys := each (fun index => let! keys := split_private_key py2 private_key required (draw index) in
                                        each (partial_encode_key checksum required index) keys) (upto total) in
        each (fun i => each (fun j => let! ks := item keys ((i + j) mod Z.to_nat total) in item ks j) (upto required)) (upto total).

  (** piecewise.py:232-260: one turn of the loop over the keys; the state is
      [required], [checksum] (None together) and [parts].  A str of Python 3 is
      no prefix for [startswith] of a byte string. *)
  Definition state : Type := option (Z * bytes) * list (Z * list bytes).
  (** piecewise.py:232-260: one turn. *)
  Definition gather_key (py2 ignore_errors : bool) (st : state) (key : bytes) : res state :=
    let! d := decode_check sha256 key in
    match d with
    | None => Raise AttributeError
    | Some private_key =>
        if negb py2 then Raise TypeError
        else if negb (bytes_eqb (ztake 2 private_key) [0x10; 0x01]) then Raise ValueError
        else
          let! r := item private_key 3 in
          let c := slice 4 8 private_key in
          let mismatch := match fst st with None => false | Some (required, checksum) => negb (required =? r) || negb (bytes_eqb checksum c) end in
          if mismatch then (if ignore_errors then Ok st else Raise ValueError)
          else
            let! index := item private_key 2 in
            Ok (Some (r, c), parts_add index (zdrop 8 private_key) (snd st))
    end.
  (** piecewise.py:232-260: the loop. *)
  Fixpoint gather (py2 ignore_errors : bool) (private_keys : list bytes) (st : state) : res state :=
    match private_keys with
    | [] => Ok st
    | key :: rest => let! st := gather_key py2 ignore_errors st key in gather py2 ignore_errors rest st
    end.
  (** piecewise.py:263-273, over the sets of keys in the order of the dictionary. *)
  Fixpoint complete (required : Z) (checksum : bytes) (groups : list (list bytes)) : res (option bytes) :=
    match groups with
    | [] => Ok None
    | group :: rest =>
        if zlen group =? required then
          let! es := each string_to_number group in
          let secexp := zsum es mod order in
          let! private_key := number_to_string secexp order in
          if negb (bytes_eqb (ztake 4 (sha256d private_key)) checksum) then Raise ValueError
          else Ok (Some (privkey_to_wif sha256 private_key [0x80]))
        else complete required checksum rest
    end.
  (** piecewise.py:218-273; [arrange] is the order in which the dictionary gives its
      items. *)
  Definition partial_combine_private_keys (py2 : bool) (arrange : list (Z * list bytes) -> list (Z * list bytes)) (private_keys : list bytes) (ignore_errors : bool) : res (option bytes) :=
    let! st := gather py2 ignore_errors private_keys (None, []) in
    match fst st with
    | None => Ok None
    | Some (required, checksum) => complete required checksum (map snd (arrange (snd st)))
    end.

  (** piecewise.py:282-296: one turn; the state is [required] and [checksum] (None
      together) and [binary]. *)
  Definition qr_key (st : option (Z * bytes) * list (Z * bytes)) (d : option bytes) : res (option (Z * bytes) * list (Z * bytes)) :=
    match d with
    | None => Raise TypeError
    | Some private_key =>
        if negb (bytes_eqb (ztake 2 private_key) [0x10; 0x01]) then Raise ValueError
        else
          let! r := item private_key 3 in
          let c := slice 4 8 private_key in
          if match fst st with None => false | Some (required, checksum) => negb (r =? required) || negb (bytes_eqb c checksum) end then Raise ValueError
          else let! index := item private_key 2 in Ok (Some (r, c), snd st ++ [(index, zdrop 8 private_key)])
    end.
  (** piecewise.py:282-296: the loop. *)
  Fixpoint qr_keys (ds : list (option bytes)) (st : option (Z * bytes) * list (Z * bytes)) : res (option (Z * bytes) * list (Z * bytes)) :=
    match ds with [] => Ok st | d :: ds => let! st := qr_key st d in qr_keys ds st end.
  (** piecewise.py:299-303. *)
  Fixpoint find_missing (i : Z) (binary : list (Z * bytes)) : Z :=
    match binary with [] => i | (k, _) :: r => if k =? i then find_missing (i + 1) r else i end.
  (** piecewise.py:275-308.  Python 3: the slice of line 283 never equals a str (or
      the key is None), and without keys line 300 fails. *)
  Definition partial_split_qr_encode (py2 : bool) (private_keys : list bytes) : res bytes :=
    if negb py2 then
      match private_keys with
      | [] => Raise NameError
      | key :: _ => let! d := decode_check sha256 key in match d with None => Raise TypeError | Some _ => Raise ValueError end
      end
    else
      let! ds := each (decode_check sha256) private_keys in
      let! st := qr_keys ds (None, []) in
      let binary := sort (snd st) in
      let! missing := chr (find_missing 0 binary) in
      match fst st with
      | None => Raise TypeError
      | Some (required, checksum) =>
          let! r := chr required in
          Ok (strip_pad (b32encode ([0x84; 0x7c; 0x20] ++ missing ++ r ++ checksum ++ concat (map snd binary))))
      end.

  (** piecewise.py:331-336, [start] counted from the end of what is read. *)
  Fixpoint qr_read (fuel : nat) (missing required : Z) (checksum rest : bytes) (index : Z) (keys : list bytes) : res (list bytes) :=
    match fuel with
    | O => Ok keys
    | S f =>
        if 32 <=? zlen rest then
          let index := if index =? missing then index + 1 else index in
          let! i := chr index in
          let! r := chr required in
          let key := [0x10; 0x01] ++ i ++ r ++ checksum ++ ztake 32 rest in
          qr_read f missing required checksum (zdrop 32 rest) (index + 1) (set_add (encode_check sha256 key) keys)
        else Ok keys
    end.
  (** piecewise.py:310-338.  Python 3: line 315 raises a ValueError for a wrong
      padding and line 318 a TypeError for a str. *)
  Definition partial_split_qr_decode (py2 : bool) (qr_code : bytes) : res (list bytes) :=
    let padding := (zlen qr_code * 5 - 9 * 8) mod 32 in
    let b := b32decode (qr_code ++ repeat 61 (Z.to_nat padding)) in
    if negb py2 then match b with Raise _ => Raise ValueError | Ok _ => Raise TypeError end
    else
      let! binary := b in
      if negb (bytes_eqb (ztake 3 binary) [0x84; 0x7c; 0x20]) then Raise ValueError
      else
        let! missing := item binary 3 in
        let! required := item binary 4 in
        let checksum := slice 5 9 binary in
        qr_read (length binary) missing required checksum (zdrop 9 binary) 0 [].
End Piecewise.
