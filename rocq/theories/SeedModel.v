(** Model of nbc/util/ecdsa/util.py, lines 59-160: numbers derived from seeds
    (Python 3, unless [py2]). *)
From Coq Require Import String ZArith List Lia Bool.
From Verif Require Import PyBase PyVal DerModel.
Import ListNotations.
Open Scope string_scope.
Open Scope list_scope.
Open Scope Z_scope.

(** [repr] of a byte string: in quotes, with escapes (CPython). *)
Definition hex_chr (d : Z) : Z := if d <? 10 then 48 + d else 87 + d.
(** [repr]: one byte. *)
Definition repr_byte (quote c : Z) : text :=
  if (c =? quote) || (c =? 92) then [92; c]
  else if c =? 9 then [92; 116] else if c =? 10 then [92; 110] else if c =? 13 then [92; 114]
  else if (c <? 32) || (127 <=? c) then [92; 120; hex_chr (c / 16); hex_chr (c mod 16)]
  else [c].
(** [repr]: the quotation mark. *)
Definition repr_quote (s : bytes) : Z :=
  if existsb (Z.eqb 39) s && negb (existsb (Z.eqb 34) s) then 34 else 39.
(** [repr] of a byte string. *)
Definition repr_bytes (s : bytes) : text :=
  let q := repr_quote s in 98 :: q :: flat_map (repr_byte q) s ++ [q].
Example repr_1 : repr_bytes [97; 39; 92; 9; 0; 255; 39] = bs "b""a'\\\t\x00\xff'""" /\ repr_bytes [39; 34] = bs "b'\'""'".
Proof. split; vm_compute; reflexivity. Qed.

Section Seed.
  Variable sha256 : bytes -> bytes.

  (** util.py:80 [("prng-%d-%s" % (counter, seed)).encode()], seed a byte string. *)
  Definition prng_text (counter : Z) (seed : bytes) : bytes :=
    bs "prng-" ++ text_of_int 10 counter ++ [45] ++ repr_bytes seed.
  (** util.py:77-82 [block_generator]: the state is the next counter and what
      is left of the current digest.  (With an empty digest, which sha256 never
      gives, Python would not return; here the byte is 0.) *)
  Definition prng_state : Type := Z * bytes.
  (** util.py:77-82: the next byte. *)
  Definition prng_next (seed : bytes) (st : prng_state) : Z * prng_state :=
    let (counter, left) := st in
    match left with
    | b :: r => (b, (counter, r))
    | [] => match sha256 (prng_text counter seed) with
            | b :: r => (b, (counter + 1, r))
            | [] => (0, st)
            end
    end.
  (** util.py:65-75 [__init__], [__call__]. *)
  Definition prng_init : prng_state := (0, []).
  (** util.py:68-75. *)
  Fixpoint prng_call (seed : bytes) (n : nat) (st : prng_state) : bytes * prng_state :=
    match n with
    | O => ([], st)
    | S n => let (b, st) := prng_next seed st in let (r, st) := prng_call seed n st in (b :: r, st)
    end.

  (** util.py:84-94. *)
  Definition from_seed_overshoot_modulo (seed : bytes) (order : Z) : res Z :=
    overshoot_modulo (fst (prng_call seed (Z.to_nat (2 * orderlen order)) prng_init)) order.

  (** util.py:96-102.  [bits] stands for [int(math.log(order-1, 2)+1)],
      the result of a floating-point computation. *)
  Definition lsb_of_ones (numbits : Z) : Z := Z.shiftl 1 numbits - 1.
  (** util.py:98-102. *)
  Definition bits_and_bytes (bits : Z) : Z * Z * Z := (bits, bits / 8, bits mod 8).

  (** util.py:142-159 [randrange_from_seed__trytryagain]; None when [fuel]
      rounds did not suffice. *)
  Fixpoint trytryagain_loop (fuel : nat) (seed : bytes) (n extrabits order : Z) (st : prng_state) : option (res Z) :=
    match fuel with
    | O => None
    | S fuel =>
        let (extra, st) :=
          if extrabits =? 0 then ([], st)
          else let (c, st) := prng_next seed st in ([Z.land c (lsb_of_ones extrabits)], st) in
        let (body, st) := prng_call seed (Z.to_nat n) st in
        match string_to_number (extra ++ body) with
        | Raise e => Some (Raise e)
        | Ok v => if (1 <=? v + 1) && (v + 1 <? order) then Some (Ok (v + 1))
                  else trytryagain_loop fuel seed n extrabits order st
        end
    end.
  (** util.py:142-159. *)
  Definition from_seed_trytryagain (fuel : nat) (bits : Z) (seed : bytes) (order : Z) : option (res Z) :=
    if negb (1 <? order) then Some (Raise AssertionError)
    else let '(_, n, extrabits) := bits_and_bytes bits in
         trytryagain_loop fuel seed n extrabits order prng_init.

  (** util.py:115-126 [randrange_from_seed__truncate_bytes]; [hash] is hashmod.
      On Python 3 the concatenation of a str and the digest raises. *)
  Definition from_seed_truncate_bytes (py2 : bool) (hash : bytes -> bytes) (bits : Z) (seed : bytes) (order : Z) : res Z :=
    let '(_, n, extrabits) := bits_and_bytes bits in
    let n := if extrabits =? 0 then n else n + 1 in
    let base := ztake n (hash seed) in
    if negb py2 then Raise TypeError else
    let base := repeat 0 (Z.to_nat (n - zlen base)) ++ base in
    let! v := bytes_int base in
    if (1 <=? 1 + v) && (1 + v <? order) then Ok (1 + v) else Raise AssertionError.

  (** util.py:128-140 [randrange_from_seed__truncate_bits]. *)
  Definition from_seed_truncate_bits (py2 : bool) (hash : bytes -> bytes) (bits : Z) (seed : bytes) (order : Z) : res Z :=
    let maxbytes := (bits + 7) / 8 in
    let base := ztake maxbytes (hash seed) in
    if negb py2 then Raise TypeError else
    let base := repeat 0 (Z.to_nat (maxbytes - zlen base)) ++ base in
    let topbits := 8 * maxbytes - bits in
    let! base := if topbits =? 0 then Ok base
                 else match base with
                      | [] => Raise IndexError
                      | c :: r => Ok (Z.land c (lsb_of_ones topbits) :: r)
                      end in
    let! v := bytes_int base in
    if (1 <=? 1 + v) && (1 + v <? order) then Ok (1 + v) else Raise AssertionError.
End Seed.
