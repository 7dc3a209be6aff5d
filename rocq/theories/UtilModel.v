(** Model of nbc/util/__init__.py: block-header helpers, Merkle root, target,
    hexadecimal and version helpers; and of nbc/coins/__init__.py. *)
From Coq Require Import String ZArith List Lia Bool.
From Verif Require Import PyBase PyVal.
Import ListNotations.
Open Scope string_scope.
Open Scope list_scope.
Open Scope Z_scope.

(** ** Merkle root (nbc/util/__init__.py:84-93) *)

(** Python slices [l[0::2]] and [l[1::2]]. *)
Fixpoint stride2 {A} (l : list A) : list A :=
  match l with
  | [] => []
  | a :: l' => a :: match l' with [] => [] | _ :: r => stride2 r end
  end.
(** Python [zip]. *)
Fixpoint zip2 {A B} (a : list A) (b : list B) : list (A * B) :=
  match a, b with
  | x :: a', y :: b' => (x, y) :: zip2 a' b'
  | _, _ => []
  end.

Section Merkle.
Variable sha256d : bytes -> bytes.

(** __init__.py:88-91: one turn of the loop. *)
Definition merkle_step (branches : list bytes) : list bytes :=
  let branches := if zlen branches mod 2 =? 1
                  then branches ++ [last branches []]      (* 88-89 *)
                  else branches in
  map (fun p => sha256d (fst p ++ snd p)) (zip2 (stride2 branches) (stride2 (tl branches))). (* 91 *)

(** __init__.py:87-93.  The fuel bounds the while loop; running out of it is
    not a Python behaviour (UtilProofs.v shows that it does not happen). *)
Fixpoint merkle_loop (fuel : nat) (branches : list bytes) : res bytes :=
  if 1 <? zlen branches then
    match fuel with
    | O => Raise RecursionError
    | S k => merkle_loop k (merkle_step branches)
    end
  else match branches with
       | b :: _ => Ok b
       | [] => Raise IndexError           (* branches[0] *)
       end.

(** __init__.py:84-93 on the list of transaction hashes ([t.hash] of each). *)
Definition get_merkle_root (hashes : list bytes) : res bytes :=
  merkle_loop (List.length hashes) hashes.
End Merkle.

(** ** Proof-of-work target (nbc/util/__init__.py:66-76) *)

(** Number of hexadecimal digits of a non-negative number (["%x"]). *)
Definition hex_len (x : Z) : Z := if x <=? 0 then 1 else Z.log2 x / 4 + 1.

(** __init__.py:74-76 [get_target(bits)].  For an exponent byte below 3 the
    product is a float, which is exact (a mantissa of 23 bits divided by 256,
    256^2 or 256^3); ["%064x"] truncates it on Python 2 and raises TypeError on
    Python 3.  The text has at least 64 digits; [.decode('hex')] raises
    TypeError on an odd number of digits, and on Python 3 a str has no such
    method. *)
Definition get_target (py2 : bool) (bits : Z) : res bytes :=
  let exponent := Z.shiftr bits 24 - 3 in
  if negb py2 then Raise (if exponent <? 0 then TypeError else AttributeError)
  else
    let target := if exponent <? 0 then Z.land bits 0x7fffff / 2 ^ (8 * - exponent)
                  else Z.land bits 0x7fffff * 2 ^ (8 * exponent) in
    let digits := Z.max 64 (hex_len target) in
    if digits mod 2 =? 1 then Raise TypeError
    else Ok (be_bytes (Z.to_nat (digits / 2)) target).

(** Python comparison [a <= b] of byte strings. *)
Fixpoint bytes_leb (a b : bytes) : bool :=
  match a, b with
  | [], _ => true
  | _ :: _, [] => false
  | x :: a', y :: b' => if x <? y then true else if y <? x then false else bytes_leb a' b'
  end.

(** A coin (coins/coin.py:7-46): what [verify_target] and [get_coin] read.
    [proof_of_work] is None when the class has no such method. *)
Record coin : Type := mk_coin { co_name : text; co_symbols : list text; co_pow : option (bytes -> bytes) }.
(** __init__.py:69-72 [verify_target(coin, block_header)]; [header] is
    [block_header.binary()]. *)
Definition verify_target (py2 : bool) (c : coin) (header : bytes) (bits : Z) : res bool :=
  match co_pow c with
  | None => Raise AttributeError
  | Some pow_fn =>
      let pow := rev (pow_fn (ztake 80 header)) in
      let! t := get_target py2 bits in Ok (bytes_leb pow t)
  end.

(** coins/newbitcoin.py:14-22: neither it nor its base class defines
    proof_of_work. *)
Definition newbitcoin : coin := mk_coin (bs "newbitcoin") [bs "NBC"] None.
(** coins/__init__.py:10-12. *)
Definition Coins : list coin := [newbitcoin].
(** [str.lower] and [str.upper], for ASCII text. *)
Definition lower (s : text) : text := map (fun c => if (65 <=? c) && (c <=? 90) then c + 32 else c) s.
(** [str.upper], for ASCII text. *)
Definition upper (s : text) : text := map (fun c => if (97 <=? c) && (c <=? 122) then c - 32 else c) s.
(** coins/__init__.py:15-23, over a list of coins. *)
Fixpoint find_coin (cs : list coin) (name symbol : text) : option coin :=
  match cs with
  | [] => None
  | c :: r => if (match name with [] => false | _ => bytes_eqb (lower name) (co_name c) end) ||
                 existsb (bytes_eqb (upper symbol)) (co_symbols c)
              then Some c else find_coin r name symbol
  end.
(** coins/__init__.py:15-23. *)
Definition get_coin (name symbol : option text) : option coin :=
  find_coin Coins (match name with None => [] | Some n => n end) (match symbol with None => [] | Some s => s end).

(** [struct.pack('32s', b)]: truncated or padded with zero bytes. *)
Definition pack_s (n : Z) (b : bytes) : bytes :=
  ztake n b ++ repeat 0 (Z.to_nat (n - zlen b)).
(** [struct.pack('I', x)] of an integer. *)
Definition pack_I (x : Z) : res bytes :=
  if (0 <=? x) && (x <? 2 ^ 32) then Ok (le_bytes 4 x) else Raise StructError.

(** __init__.py:66-67 [get_block_header(...)], format '<I32s32sIII'. *)
Definition get_block_header (version : Z) (prev_block merkle_root : bytes) (timestamp bits nonce : Z) : res bytes :=
  let! v := pack_I version in
  let! t := pack_I timestamp in
  let! b := pack_I bits in
  let! n := pack_I nonce in
  Ok (v ++ pack_s 32 prev_block ++ pack_s 32 merkle_root ++ t ++ b ++ n).

(** ** Hexadecimal helpers (nbc/util/__init__.py:98-103) *)

(** [binascii.hexlify]: one digit. *)
Definition hex_digit (d : Z) : Z := if d <? 10 then 48 + d else 87 + d.
(** util/__init__.py:102-103. *)
Definition hex_encode (data : bytes) : text :=
  flat_map (fun b => [hex_digit (b / 16); hex_digit (b mod 16)]) data.
(** [binascii.unhexlify]: one digit. *)
Definition hex_value (c : Z) : option Z :=
  if (48 <=? c) && (c <=? 57) then Some (c - 48)
  else if (97 <=? c) && (c <=? 102) then Some (c - 87)
  else if (65 <=? c) && (c <=? 70) then Some (c - 55)
  else None.
(** util/__init__.py:98-100. *)
Fixpoint hex_decode (s : text) : res bytes :=
  match s with
  | [] => Ok []
  | [_] => Raise TypeError               (* odd-length string *)
  | a :: b :: r =>
      match hex_value a, hex_value b with
      | Some x, Some y => let! t := hex_decode r in Ok (16 * x + y :: t)
      | _, _ => Raise TypeError          (* non-hexadecimal digit *)
      end
  end.
(** __init__.py:98-99 [data.decode('hex')[::-1]].  On Python 3 a str has no
    [decode]. *)
Definition hex_to_bin (py2 : bool) (data : text) : res bytes :=
  if negb py2 then Raise AttributeError else let! b := hex_decode data in Ok (rev b).
(** __init__.py:102-103 [data[::-1].encode('hex')].  On Python 3 bytes have no
    [encode]. *)
Definition bin_to_hex (py2 : bool) (data : bytes) : res text :=
  if negb py2 then Raise AttributeError else Ok (hex_encode (rev data)).

(** ** Version numbers (nbc/util/__init__.py:108-118) *)

(** util/__init__.py:108-113. *)
Definition get_version (version : Z) : Z * Z * Z * Z :=
  (version / 1000000, (version / 10000) mod 100, (version / 100) mod 100, version mod 100).

(** util/__init__.py:115-118. *)
Definition make_version (major minor revision build : Z) : res Z :=
  if negb ((0 <=? minor) && (minor <? 100) && ((0 <=? revision) && (revision <? 100)) &&
           ((0 <=? build) && (build <? 100)))
  then Raise ValueError
  else Ok (major * 1000000 + minor * 10000 + revision * 100 + build).
