(** Model of nbc/protocol/format.py (Python 3 semantics). *)
From Coq Require Import String ZArith List Lia Bool.
From Verif Require Import PyBase PyVal.
Import ListNotations.
Open Scope string_scope.
Open Scope list_scope.
Open Scope Z_scope.

(** ** FtNumber *)

(** Format letters, format.py:191-200. *)
Inductive nfmt : Type := Fb | FB | Fh | FH | Fi | FI | Fq | FQ.

(** format.py:191-200 [_ranges]: inclusive minimum and exclusive maximum. *)
Definition nf_range (f : nfmt) : Z * Z :=
  match f with
  | Fb => (-128, 128)
  | FB => (0, 256)
  | Fh => (-32768, 32768)
  | FH => (0, 65536)
  | Fi => (-2147483648, 2147483648)
  | FI => (0, 4294967296)
  | Fq => (-9223372036854775808, 9223372036854775808)
  | FQ => (0, 18446744073709551616)
  end.

(** format.py:221: byte length of the format. *)
Definition nf_len (f : nfmt) : nat :=
  match f with
  | Fb | FB => 1%nat | Fh | FH => 2%nat | Fi | FI => 4%nat | Fq | FQ => 8%nat
  end.

(** format.py:191-200: the signed formats. *)
Definition nf_signed (f : nfmt) : bool :=
  match f with Fb | Fh | Fi | Fq => true | _ => false end.

(** [struct.pack] range of a format letter (a fact about CPython's struct,
    independent of the project's table). *)
Definition struct_range (f : nfmt) : Z * Z :=
  let m := 256 ^ Z.of_nat (nf_len f) in
  if nf_signed f then (- (m / 2), m / 2) else (0, m).

(** [struct.pack(fmt, x)]: StructError outside the range. *)
Definition struct_pack (f : nfmt) (big : bool) (x : Z) : res bytes :=
  let (lo, hi) := struct_range f in
  if (lo <=? x) && (x <? hi)
  then Ok (if big then be_bytes (nf_len f) x else le_bytes (nf_len f) x)
  else Raise StructError.

(** [struct.unpack(fmt, data)[0]]: StructError unless the length is exact. *)
Definition struct_unpack (f : nfmt) (big : bool) (data : bytes) : res Z :=
  if zlen data =? Z.of_nat (nf_len f)
  then let u := if big then be_val data else le_val data in
       Ok (if nf_signed f && (256 ^ Z.of_nat (nf_len f) / 2 <=? u)
           then u - 256 ^ Z.of_nat (nf_len f) else u)
  else Raise StructError.

(** format.py:202-215 [FtNumber.validate].  [integer_types] is [(int,)] on
    Python 3, so lines 205-209 are one test.  bool is a subclass of int. *)
Definition num_validate (f : nfmt) (allow_float : bool) (v : pyval) : option pyval :=
  let (lo, hi) := nf_range f in
  match v with
  | VInt z => if (lo <=? z) && (z <? hi) then Some v else None
  | VBool b => let z := Z.b2z b in if (lo <=? z) && (z <? hi) then Some v else None
  | VFloat x => if allow_float
                then if z_le_float lo x && float_lt_z x hi then Some v else None
                else None
  | _ => None
  end.

(** format.py:217-218 [FtNumber.binary]: [struct.pack(fmt, int(obj))].
    Simplification: [int] of a text or other object (never stored in a
    property by [validate] or [parse]) raises TypeError. *)
Definition num_binary (f : nfmt) (big : bool) (v : pyval) : res bytes :=
  match v with
  | VInt z => struct_pack f big z
  | VBool b => struct_pack f big (Z.b2z b)
  | VFloat x => let! z := float_trunc x in struct_pack f big z
  | _ => Raise TypeError
  end.

(** format.py:220-222 [FtNumber.parse]. *)
Definition num_parse (f : nfmt) (big : bool) (data : bytes) : res (Z * pyval) :=
  let length := Z.of_nat (nf_len f) in
  let! z := struct_unpack f big (ztake length data) in
  Ok (length, VInt z).

(** ** FtVarInteger *)

(** format.py:229-232 [FtVarInteger.validate]. *)
Definition varint_validate (v : pyval) : option pyval :=
  match v with VInt _ | VBool _ => Some v | _ => None end.

(** format.py:235-242 [FtVarInteger.binary] on an integer. *)
Definition varint_binary (x : Z) : res bytes :=
  if x <? 0xfd then struct_pack FB false x
  else if x <? 0xffff then let! b := struct_pack FH false x in Ok (0xfd :: b)
  else if x <? 0xffffffff then let! b := struct_pack FI false x in Ok (0xfe :: b)
  else let! b := struct_pack FQ false x in Ok (0xff :: b).

(** format.py:245-253 [FtVarInteger.parse].  The third test repeats 0xfd
    (line 251), so the nine-byte form is never recognised. *)
Definition varint_parse (data : bytes) : res (Z * Z) :=
  match data with
  | [] => Raise IndexError
  | value :: _ =>
      if value =? 0xfd then
        let! z := struct_unpack FH false (slice 1 3 data) in Ok (3, z)
      else if value =? 0xfe then
        let! z := struct_unpack FI false (slice 1 5 data) in Ok (5, z)
      else if value =? 0xfd then
        let! z := struct_unpack FQ false (slice 1 9 data) in Ok (9, z)
      else Ok (1, value)
  end.

(** ** FtIPAddress *)

(** [[int(i) for i in l]]; [None] = ValueError. *)
Fixpoint map_int (base : Z) (l : list text) : option (list Z) :=
  match l with
  | [] => Some []
  | t :: r => match int_of_text base t with
              | None => None
              | Some z => match map_int base r with
                          | None => None
                          | Some zs => Some (z :: zs)
                          end
              end
  end.

(** format.py:260-273 [FtIPAddress._ipv4_groups]; [None] is Python's None. *)
Definition ipv4_groups (obj : text) : option (list Z) :=
  match map_int 10 (split_on 46 obj) with
  | None => None
  | Some groups =>
      if negb (zlen groups =? 4) then None
      else if forallb (fun g => (0 <=? g) && (g <=? 0xff)) groups
           then Some groups else None
  end.

(** Number of empty texts, Python's [objs.count('')]. *)
Definition count_empty (l : list text) : Z :=
  zlen (filter (fun t => match t with [] => true | _ => false end) l).

(** [not l], for a list or text. *)
Definition is_nil {A} (l : list A) : bool := match l with [] => true | _ => false end.

(** format.py:289-293: values of the groups; [None] = uncaught ValueError. *)
Fixpoint ipv6_fill (n : Z) (objs : list text) : option (list Z) :=
  match objs with
  | [] => Some []
  | [] :: r => match ipv6_fill n r with
               | None => None
               | Some gs => Some (repeat 0 (Z.to_nat (9 - n)) ++ gs)
               end
  | t :: r => match int_of_text 16 t with
              | None => None
              | Some z => match ipv6_fill n r with
                          | None => None
                          | Some gs => Some (z :: gs)
                          end
              end
  end.

(** format.py:280-283: drop one of the two empty texts of a leading or
    trailing double colon. *)
Definition ipv6_trim (objs : list text) : list text :=
  match objs with
  | [] :: [] :: r => [] :: r
  | _ => match rev objs with
         | [] :: [] :: r => rev ([] :: r)
         | _ => objs
         end
  end.

(** format.py:276-300 [FtIPAddress._ipv6_groups]. *)
Definition ipv6_groups (obj : text) : res (option (list Z)) :=
  let objs := split_on 58 obj in
  if zlen objs <? 2 then Ok None
  else
    let objs := ipv6_trim objs in
    if (1 <? count_empty objs) || (8 <? zlen objs) then Ok None
    else match ipv6_fill (zlen objs) objs with
         | None => Raise ValueError
         | Some groups =>
             if forallb (fun g => (0 <=? g) && (g <=? 0xffff)) groups
             then Ok (Some groups) else Ok None
         end.

(** format.py:302-310 [FtIPAddress.validate]. *)
Definition ip_validate (v : pyval) : res (option pyval) :=
  match v with
  | VStr obj =>
      match ipv4_groups obj with
      | Some _ => Ok (Some v)
      | None => let! g := ipv6_groups obj in
                Ok (match g with Some _ => Some v | None => None end)
      end
  | _ => Ok None
  end.

(** [struct.unpack('>HHHHHHHH', data)] and [struct.unpack('>BBBB', data)]. *)
Fixpoint be16s (data : bytes) : list Z :=
  match data with
  | a :: b :: r => a * 256 + b :: be16s r
  | _ => []
  end.

(** format.py:8-9. *)
Definition zero_str10 : bytes := repeat 0 10.
(** format.py:9. *)
Definition ip_head_str : bytes := zero_str10 ++ [0xff; 0xff].

(** format.py:312-316 [FtIPAddress.parse]. *)
Definition ip_parse (data : bytes) : res (Z * pyval) :=
  if bytes_eqb (ztake 10 data) zero_str10 && bytes_eqb (slice 10 12 data) [0xff; 0xff] then
    let s := slice 12 16 data in
    if zlen s =? 4
    then Ok (16, VStr (join_with 46 (map (text_of_int 10) s)))
    else Raise StructError
  else
    let s := ztake 16 data in
    if zlen s =? 16
    then Ok (16, VStr (join_with 58 (map (text_of_int 16) (be16s s))))
    else Raise StructError.

(** [struct.pack('>HHHHHHHH', *groups)]: StructError unless eight groups in range. *)
Definition pack_groups (groups : list Z) : res bytes :=
  if (zlen groups =? 8) && forallb (fun g => (0 <=? g) && (g <? 65536)) groups
  then Ok (concat (map (be_bytes 2) groups))
  else Raise StructError.

(** format.py:318-327 [FtIPAddress.binary]. *)
Definition ip_binary (v : pyval) : res bytes :=
  match v with
  | VStr obj =>
      match ipv4_groups obj with
      | Some groups => Ok (ip_head_str ++ groups)   (* '>BBBB' of values in 0..255 *)
      | None => let! g := ipv6_groups obj in
                match g with
                | Some groups => pack_groups groups
                | None => Raise ValueError
                end
      end
  | _ => Raise AttributeError   (* obj.split *)
  end.

(** ** FtBytes, FtVarString *)

(** format.py:333-336 [FtBytes.validate]. *)
Definition bytes_validate (n : Z) (v : pyval) : option pyval :=
  match v with
  | VBytes s => if zlen s =? n then Some v else None
  | _ => None
  end.

(** format.py:352-355 [FtVarString.validate]. *)
Definition varstr_validate (v : pyval) : option pyval :=
  match v with VBytes _ | VStr _ => Some v | _ => None end.

(** [str.encode('latin-1')]. *)
Definition latin1 (s : text) : res bytes :=
  if forallb (fun c => c <? 256) s then Ok s else Raise UnicodeError.

(** format.py:358-362 [FtVarString.binary]. *)
Definition varstr_binary (v : pyval) : res bytes :=
  let! obj := match v with
              | VBytes s => Ok s
              | VStr s => latin1 s
              | _ => Raise AttributeError
              end in
  let! n := varint_binary (zlen obj) in Ok (n ++ obj)%list.

(** format.py:365-371 [FtVarString.parse] ([data] is bytes). *)
Definition varstr_parse (data : bytes) : res (Z * pyval) :=
  let! (vl, length) := varint_parse data in
  let obj := slice vl (vl + length) data in
  Ok (vl + zlen obj, VBytes obj).

(** ** Field types *)

(** Descriptors of the field types of format.py.  [FCompound cls props] stands
    for an FtCompoundType subclass whose [expected_type] is [cls] with the
    given [properties]; [FCompoundNoTs] for FtNetworkAddressNoTimestamp. *)
Inductive ft : Type :=
| FNumber (f : nfmt) (big allow_float : bool)
| FVarInt
| FIP
| FBytes (n : Z)
| FVarStr
| FArray (child : ft) (min_length max_length : option Z)
| FCompound (cls : string) (props : list (string * ft))
| FCompoundNoTs (cls : string) (props : list (string * ft))
| FOptional (child : ft) (default : pyval).

(** Truthiness test [if self._min_length and ...], format.py:385-388. *)
Definition bound_violated (b : option Z) (bad : Z -> bool) : bool :=
  match b with
  | None => false
  | Some z => negb (z =? 0) && bad z
  end.

(** A list comprehension whose items may raise (format.py:390). *)
Fixpoint sequence {A} (l : list (res A)) : res (list A) :=
  match l with
  | [] => Ok []
  | m :: r => let! x := m in let! xs := sequence r in Ok (x :: xs)
  end.

(** [all(...)] over items that may be invalid (format.py:390-393). *)
Fixpoint all_some {A} (l : list (option A)) : option (list A) :=
  match l with
  | [] => Some []
  | Some x :: r => match all_some r with Some xs => Some (x :: xs) | None => None end
  | None :: _ => None
  end.

(** validate of every field type: format.py:136-140, 159-166, 202-215, 229-232,
    302-310, 333-336, 352-355, 382-393.  [Ok None] is Python's None. *)
Fixpoint validate (t : ft) (v : pyval) : res (option pyval) :=
  match t with
  | FNumber f _ af => Ok (num_validate f af v)
  | FVarInt => Ok (varint_validate v)
  | FIP => ip_validate v
  | FBytes n => Ok (bytes_validate n v)
  | FVarStr => Ok (varstr_validate v)
  | FArray child mn mx =>
      match v with
      | VList l | VTuple l =>
          if bound_violated mn (fun m => zlen l <? m) then Ok None
          else if bound_violated mx (fun m => m <? zlen l) then Ok None
          else let! vs := sequence (map (validate child) l) in
               Ok (match all_some vs with
                   | Some vs => Some (VTuple vs)
                   | None => None
                   end)
      | _ => Ok None
      end
  | FCompound c _ | FCompoundNoTs c _ =>
      match v with
      | VObj c' _ => Ok (if String.eqb c c' then Some v else None)
      | _ => Ok None
      end
  | FOptional child d =>
      match validate child v with
      | Ok (Some x) => Ok (Some x)
      | Ok None => Ok (Some d)
      | Raise _ => Ok (Some d)
      end
  end.

(** binary of every field type: format.py:89-90, 142-144, 168-169, 217-218,
    235-242, 318-327, 338-339, 358-362, 395-397, 425-426. *)
Fixpoint binary (t : ft) (v : pyval) {struct t} : res bytes :=
  let fields := fix fields (ps : list (string * ft)) (fs : list (string * pyval)) : res bytes :=
    match ps with
    | [] => Ok []
    | (k, vt) :: r =>
        match assoc k fs with
        | None => Raise KeyError
        | Some x => let! b := binary vt x in
                    let! bs := fields r fs in Ok (b ++ bs)%list
        end
    end in
  match t with
  | FNumber f big _ => num_binary f big v
  | FVarInt => match v with
               | VInt z => varint_binary z
               | VBool b => varint_binary (Z.b2z b)
               | _ => Raise TypeError
               end
  | FIP => ip_binary v
  | FBytes _ => match v with VBytes s => Ok s | _ => Raise TypeError end
  | FVarStr => varstr_binary v
  | FArray child _ _ =>
      match v with
      | VList l | VTuple l =>
          let! n := varint_binary (zlen l) in
          let! items := sequence (map (binary child) l) in
          Ok (n ++ concat items)%list
      | _ => Raise TypeError
      end
  | FCompound _ props =>
      match v with VObj _ fs => fields props fs | _ => Raise AttributeError end
  | FCompoundNoTs _ props =>
      match v with
      | VObj _ fs => let! b := fields props fs in Ok (zdrop 4 b)
      | _ => Raise AttributeError
      end
  | FOptional child _ => binary child v
  end.

(** format.py:14-24 [parse_var_set], the loop of lines 19-23: [n] items read
    from [data] at offset [off] with the child parser [p]. *)
Fixpoint parse_items {A} (p : bytes -> res (Z * A)) (n : nat) (data : bytes) (off : Z)
  : res (Z * list A) :=
  match n with
  | O => Ok (off, [])
  | S k => let! (len, x) := p (zdrop off data) in
           let! (off', xs) := parse_items p k data (off + len) in
           Ok (off', x :: xs)
  end.

(** format.py:14-24 [parse_var_set]. *)
Definition parse_var_set {A} (p : bytes -> res (Z * A)) (data : bytes) : res (Z * list A) :=
  let! (off, count) := varint_parse data in
  parse_items p (Z.to_nat count) data off.

(** parse of every field type: format.py:93-106, 147-148, 171-176, 220-222,
    245-253, 313-316, 341-342, 365-371, 399-400, 421-423.  A failure inside a
    compound is always ParameterError (lines 100-101). *)
Fixpoint parse (t : ft) (data : bytes) {struct t} : res (Z * pyval) :=
  let fields := fix fields (ps : list (string * ft)) (off : Z) (data : bytes)
                  : res (Z * list (string * pyval)) :=
    match ps with
    | [] => Ok (off, [])
    | (k, vt) :: r =>
        match parse vt (zdrop off data) with
        | Raise _ => Raise ParameterError
        | Ok (len, x) => let! (off', xs) := fields r (off + len) data in
                         Ok (off', (k, x) :: xs)
        end
    end in
  match t with
  | FNumber f big _ => num_parse f big data
  | FVarInt => let! (n, z) := varint_parse data in Ok (n, VInt z)
  | FIP => ip_parse data
  | FBytes n => Ok (n, VBytes (ztake n data))
  | FVarStr => varstr_parse data
  | FArray child _ _ =>
      let! (off, l) := parse_var_set (parse child) data in Ok (off, VList l)
  | FCompound c props =>
      let! (off, fs) := fields props 0 data in Ok (off, VObj c fs)
  | FCompoundNoTs c props =>
      let! (off, fs) := fields props 0 ([0; 0; 0; 0] ++ data)%list in Ok (off - 4, VObj c fs)
  | FOptional child d =>
      match parse child data with
      | Ok r => Ok r
      | Raise _ => Ok (0, d)
      end
  end.

(** format.py:89-90 [CompoundType.binary] on the property dictionary. *)
Fixpoint fields_binary (ps : list (string * ft)) (fs : list (string * pyval)) : res bytes :=
  match ps with
  | [] => Ok []
  | (k, vt) :: r =>
      match assoc k fs with
      | None => Raise KeyError
      | Some x => let! b := binary vt x in
                  let! bs := fields_binary r fs in Ok (b ++ bs)%list
      end
  end.

(** format.py:93-106 [CompoundType.parse], the loop. *)
Fixpoint fields_parse (ps : list (string * ft)) (off : Z) (data : bytes)
  : res (Z * list (string * pyval)) :=
  match ps with
  | [] => Ok (off, [])
  | (k, vt) :: r =>
      match parse vt (zdrop off data) with
      | Raise _ => Raise ParameterError
      | Ok (len, x) => let! (off', xs) := fields_parse r (off + len) data in
                       Ok (off', (k, x) :: xs)
      end
  end.

(** ** CompoundType.__init__ *)

(** [k in d], format.py:66-72. *)
Definition mem_key {A} (k : string) (l : list (string * A)) : bool :=
  match assoc k l with Some _ => true | None => false end.

(** [zip(keys, args)], format.py:65. *)
Fixpoint zip {A B} (a : list A) (b : list B) : list (A * B) :=
  match a, b with
  | x :: r, y :: s => (x, y) :: zip r s
  | _, _ => []
  end.

(** format.py:81-85: validated value of every property, in order. *)
Fixpoint validate_props (ps : list (string * ft)) (params : list (string * pyval))
  : res (list (string * pyval)) :=
  match ps with
  | [] => Ok []
  | (k, vt) :: r =>
      match assoc k params with
      | None => Raise KeyError
      | Some x =>
          let! o := validate vt x in
          match o with
          | None => Raise ParameterError
          | Some y => let! ys := validate_props r params in Ok ((k, y) :: ys)
          end
      end
  end.

(** format.py:61-87 [CompoundType.__init__(self, *args, **kw)].  [kw] is a
    dictionary, hence without duplicate keys.  The result is the instance. *)
Definition construct (cls : string) (props : list (string * ft))
  (args : list pyval) (kw : list (string * pyval)) : res pyval :=
  let keys := map fst props in
  let params := zip keys args in                                  (* line 65 *)
  if existsb (fun e => mem_key (fst e) params) kw then Raise TypeError   (* 66-68 *)
  else if existsb (fun e => negb (existsb (String.eqb (fst e)) keys)) kw
       then Raise TypeError                                       (* 70-72 *)
  else
    let params := params ++ kw in                                 (* 74 *)
    if negb (zlen params =? zlen keys) then Raise TypeError       (* 76-78 *)
    else let! fs := validate_props props params in                (* 81-85 *)
         Ok (VObj cls fs).                                        (* 87 *)

(** ** The compound types of format.py *)

(** format.py:408-414. *)
Definition NetworkAddress_props : list (string * ft) :=
  [ ("timestamp", FNumber FI false true);
    ("services", FNumber FQ false false);
    ("address", FIP);
    ("port", FNumber FH true false) ].
(** format.py:416-417. *)
Definition FtNetworkAddress := FCompound "NetworkAddress" NetworkAddress_props.
(** format.py:419-426. *)
Definition FtNetworkAddressNoTimestamp := FCompoundNoTs "NetworkAddress" NetworkAddress_props.

(** format.py:428-435. *)
Definition InventoryVector_props : list (string * ft) :=
  [ ("object_type", FNumber FI false false); ("hash", FBytes 32) ].
(** format.py:434-435. *)
Definition FtInventoryVector := FCompound "InventoryVector" InventoryVector_props.

(** format.py:437-441, 451-452. *)
Definition OutPoint_props : list (string * ft) :=
  [ ("hash", FBytes 32); ("index", FNumber FI false false) ].
(** format.py:451-452. *)
Definition FtOutPoint := FCompound "OutPoint" OutPoint_props.

(** format.py:454-462. *)
Definition TxnIn_props : list (string * ft) :=
  [ ("previous_output", FtOutPoint);
    ("signature_script", FVarStr);
    ("sequence", FNumber FI false false) ].
(** format.py:461-462. *)
Definition FtTxnIn := FCompound "TxnIn" TxnIn_props.

(** format.py:464-471. *)
Definition TxnOut_props : list (string * ft) :=
  [ ("value", FNumber Fq false false); ("pk_script", FVarStr) ].
(** format.py:470-471. *)
Definition FtTxnOut := FCompound "TxnOut" TxnOut_props.

(** format.py:473-479, 487-488. *)
Definition Txn_props : list (string * ft) :=
  [ ("version", FNumber FI false false);
    ("tx_in", FArray FtTxnIn (Some 1) None);
    ("tx_out", FArray FtTxnOut (Some 1) None);
    ("lock_time", FNumber FI false false) ].
(** format.py:487-488. *)
Definition FtTxn := FCompound "Txn" Txn_props.

(** format.py:490-499, 513-514. *)
Definition BlockHeader_props : list (string * ft) :=
  [ ("version", FNumber FI false false);
    ("prev_block", FBytes 32);
    ("merkle_root", FBytes 32);
    ("timestamp", FNumber FI false true);
    ("bits", FNumber FI false false);
    ("nonce", FNumber FI false false);
    ("txn_count", FVarInt) ].
(** format.py:513-514. *)
Definition FtBlockHeader := FCompound "BlockHeader" BlockHeader_props.

(** format.py:446-449 [OutPoint.__eq__]: [otehr] is undefined. *)
Definition outpoint_eq (a b : pyval) : res bool :=
  match a, b with
  | VObj "OutPoint" fa, VObj "OutPoint" fb =>
      match assoc "hash" fa, assoc "hash" fb with
      | Some (VBytes h1), Some (VBytes h2) =>
          if bytes_eqb h1 h2 then Raise NameError else Ok false
      | _, _ => Raise KeyError
      end
  | VObj "OutPoint" _, _ => Ok false
  | _, _ => Raise AttributeError
  end.

(** ** Cached hashes *)

Section CachedHash.
Variable sha256d : bytes -> bytes.   (* util.sha256d *)

(** format.py:481-485 [Txn.hash] and 507-511 [BlockHeader.hash]: the value is
    stored in the property dictionary under the key '__hash'.  [cut] is the
    slice applied to the serialisation.  Returns the outcome and the new
    dictionary. *)
Definition cached_hash (props : list (string * ft)) (cut : bytes -> bytes)
  (fs : list (string * pyval)) : res pyval * list (string * pyval) :=
  match assoc "__hash" fs with
  | Some h => (Ok h, fs)
  | None => match fields_binary props fs with
            | Ok b => (Ok (VBytes (sha256d (cut b))), fs ++ [("__hash", VBytes (sha256d (cut b)))])
            | Raise e => (Raise e, fs)
            end
  end.
(** format.py:481-485. *)
Definition txn_hash := cached_hash Txn_props (fun b => b).
(** format.py:507-511. *)
Definition header_hash := cached_hash BlockHeader_props (ztake 80).

(** A read of an object: its hash or its serialisation. *)
Inductive obj_read : Type := RHash | RBinary.
(** format.py:89-91, 481-485, 507-511: one read. *)
Definition obj_step (props : list (string * ft)) (cut : bytes -> bytes) (r : obj_read)
  (fs : list (string * pyval)) : res pyval * list (string * pyval) :=
  match r with
  | RHash => cached_hash props cut fs
  | RBinary => (let! b := fields_binary props fs in Ok (VBytes b), fs)
  end.
(** Several reads, one after the other. *)
Fixpoint obj_run (props : list (string * ft)) (cut : bytes -> bytes) (rs : list obj_read)
  (fs : list (string * pyval)) : list (res pyval) :=
  match rs with
  | [] => []
  | r :: rs' => let (o, fs') := obj_step props cut r fs in o :: obj_run props cut rs' fs'
  end.
End CachedHash.
