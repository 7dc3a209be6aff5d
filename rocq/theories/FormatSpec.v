(** Independent specification vocabulary for the wire formats: which stored
    values are well typed, what the canonical form of a value is, which values
    fit the 32-bit counters, and which objects programs can build. *)
From Coq Require Import String ZArith List Lia Bool.
From Verif Require Import PyBase PyVal FormatModel.
Import ListNotations.
Open Scope string_scope.
Open Scope list_scope.
Open Scope Z_scope.

(** The class table of format.py: expected classes and their properties. *)
Definition format_classes : list (string * list (string * ft)) :=
  [ ("NetworkAddress", NetworkAddress_props);
    ("InventoryVector", InventoryVector_props);
    ("OutPoint", OutPoint_props);
    ("TxnIn", TxnIn_props);
    ("TxnOut", TxnOut_props);
    ("Txn", Txn_props);
    ("BlockHeader", BlockHeader_props) ].

(** Values a Python program can hold: bytes are in 0..255 and code points are
    not negative; instances of the compound classes come from a successful
    constructor call on such values. *)
Inductive built : pyval -> Prop :=
| built_none : built VNone
| built_int z : built (VInt z)
| built_bool b : built (VBool b)
| built_float f : built (VFloat f)
| built_str s : Forall (fun c => 0 <= c <= 0x10ffff) s -> built (VStr s)
| built_bytes s : wf_bytes s -> built (VBytes s)
| built_list l : Forall built l -> built (VList l)
| built_tuple l : Forall built l -> built (VTuple l)
| built_other n : built (VOther n)
| built_obj c props args kw v :
    In (c, props) format_classes ->
    Forall built args -> Forall built (map snd kw) ->
    construct c props args kw = Ok v ->
    built v.

(** Number denoted by a numeric field value. *)
Definition num_value (v : pyval) : option Z :=
  match v with
  | VInt z => Some z
  | VBool b => Some (Z.b2z b)
  | VFloat (FFin m e) => Some (if 0 <=? e then m * 2 ^ e else Z.quot m (2 ^ (- e)))
  | _ => None
  end.

(** Text of 16 address bytes: dotted decimal for IPv4-mapped addresses,
    eight colon-separated hexadecimal groups otherwise. *)
Definition ip_text (b : bytes) : text :=
  match b with
  | [0;0;0;0;0;0;0;0;0;0;255;255;w;x;y;z] =>
      text_of_int 10 w ++ [46] ++ text_of_int 10 x ++ [46] ++
      text_of_int 10 y ++ [46] ++ text_of_int 10 z
  | [a;b;c;d;e;f;g;h;i;j;k;l;w;x;y;z] =>
      text_of_int 16 (a*256+b) ++ [58] ++ text_of_int 16 (c*256+d) ++ [58] ++
      text_of_int 16 (e*256+f) ++ [58] ++ text_of_int 16 (g*256+h) ++ [58] ++
      text_of_int 16 (i*256+j) ++ [58] ++ text_of_int 16 (k*256+l) ++ [58] ++
      text_of_int 16 (w*256+x) ++ [58] ++ text_of_int 16 (y*256+z)
  | _ => []
  end.

(** Canonical form of a stored value: what a receiver sees. *)
Fixpoint canon (t : ft) (v : pyval) {struct t} : pyval :=
  match t with
  | FNumber _ _ _ | FVarInt => match num_value v with Some z => VInt z | None => v end
  | FIP => match ip_binary v with Ok b => VStr (ip_text b) | Raise _ => v end
  | FBytes _ => v
  | FVarStr => match v with VStr s => VBytes s | _ => v end
  | FArray child _ _ => match v with
                        | VList l | VTuple l => VList (map (canon child) l)
                        | _ => v
                        end
  | FCompound c props =>
      match v with
      | VObj _ fs => VObj c ((fix go ps fs := match ps, fs with
                              | (k, vt) :: ps', (_, x) :: fs' => (k, canon vt x) :: go ps' fs'
                              | _, _ => []
                              end) props fs)
      | _ => v
      end
  | FCompoundNoTs c props =>   (* the first property (the timestamp) reads as 0 *)
      match v with
      | VObj _ fs =>
          match (fix go ps fs := match ps, fs with
                 | (k, vt) :: ps', (_, x) :: fs' => (k, canon vt x) :: go ps' fs'
                 | _, _ => []
                 end) props fs with
          | (k, _) :: r => VObj c ((k, VInt 0) :: r)
          | [] => VObj c []
          end
      | _ => v
      end
  | FOptional child _ => canon child v
  end.

Fixpoint canon_fields (ps : list (string * ft)) (fs : list (string * pyval)) :=
  match ps, fs with
  | (k, vt) :: ps', (_, x) :: fs' => (k, canon vt x) :: canon_fields ps' fs'
  | _, _ => []
  end.

(** Well-typed stored values (array length limits are in [bounds_ok]). *)
Fixpoint wt (t : ft) (v : pyval) {struct t} : Prop :=
  match t with
  | FNumber f _ af =>
      match v with
      | VInt z => fst (struct_range f) <= z < snd (struct_range f)
      | VBool b => True
      | VFloat x => af = true /\ exists z, num_value v = Some z /\
                    fst (struct_range f) <= z < snd (struct_range f)
      | _ => False
      end
  | FVarInt => match v with VInt _ | VBool _ => True | _ => False end
  | FIP => match v with VStr s => ip_validate v = Ok (Some v) | _ => False end
  | FBytes n => match v with VBytes s => wf_bytes s /\ zlen s = n | _ => False end
  | FVarStr => match v with
               | VBytes s => wf_bytes s
               | VStr s => Forall (fun c => 0 <= c) s
               | _ => False
               end
  | FArray child _ _ =>
      match v with
      | VList l | VTuple l => Forall (wt child) l
      | _ => False
      end
  | FCompound c props | FCompoundNoTs c props =>
      match v with
      | VObj c' fs => c' = c /\
          (fix go ps fs := match ps, fs with
            | [], [] => True
            | (k, vt) :: ps', (k', x) :: fs' => k' = k /\ wt vt x /\ go ps' fs'
            | _, _ => False
            end) props fs
      | _ => False
      end
  | FOptional child _ => wt child v
  end.

Fixpoint wt_fields (ps : list (string * ft)) (fs : list (string * pyval)) : Prop :=
  match ps, fs with
  | [], [] => True
  | (k, vt) :: ps', (k', x) :: fs' => k' = k /\ wt vt x /\ wt_fields ps' fs'
  | _, _ => False
  end.

(** [ok_varints limit t v]: every variable-length integer stored in [v] is
    below [limit]. *)
Fixpoint ok_varints (limit : Z) (t : ft) (v : pyval) {struct t} : Prop :=
  match t with
  | FVarInt => match num_value v with Some z => z < limit | None => True end
  | FArray child _ _ =>
      match v with VList l | VTuple l => Forall (ok_varints limit child) l | _ => True end
  | FCompound _ props | FCompoundNoTs _ props =>
      match v with
      | VObj _ fs => (fix go ps fs := match ps, fs with
          | (_, vt) :: ps', (_, x) :: fs' => ok_varints limit vt x /\ go ps' fs'
          | _, _ => True
          end) props fs
      | _ => True
      end
  | FOptional child _ => ok_varints limit child v
  | _ => True
  end.

Fixpoint ok_varints_fields limit (ps : list (string * ft)) (fs : list (string * pyval)) : Prop :=
  match ps, fs with
  | (_, vt) :: ps', (_, x) :: fs' => ok_varints limit vt x /\ ok_varints_fields limit ps' fs'
  | _, _ => True
  end.

(** Does a type contain a variable-length integer field? *)
Fixpoint has_varint (t : ft) : bool :=
  match t with
  | FVarInt => true
  | FArray child _ _ | FOptional child _ => has_varint child
  | FCompound _ props | FCompoundNoTs _ props => existsb (fun e => has_varint (snd e)) props
  | _ => false
  end.

(** Declared array length limits hold everywhere in the value. *)
Fixpoint bounds_ok (t : ft) (v : pyval) {struct t} : Prop :=
  match t with
  | FArray child mn mx =>
      match v with
      | VList l | VTuple l =>
          Forall (bounds_ok child) l /\
          (forall m, mn = Some m -> m <= zlen l) /\
          (forall m, mx = Some m -> zlen l <= m)
      | _ => True
      end
  | FCompound _ props | FCompoundNoTs _ props =>
      match v with
      | VObj _ fs => (fix go ps fs := match ps, fs with
          | (_, vt) :: ps', (_, x) :: fs' => bounds_ok vt x /\ go ps' fs'
          | _, _ => True
          end) props fs
      | _ => True
      end
  | FOptional child _ => bounds_ok child v
  | _ => True
  end.
Fixpoint bounds_ok_fields (ps : list (string * ft)) (fs : list (string * pyval)) : Prop :=
  match ps, fs with
  | (_, vt) :: ps', (_, x) :: fs' => bounds_ok vt x /\ bounds_ok_fields ps' fs'
  | _, _ => True
  end.

(** Values whose parts can all be written: variable-length integers in 0..2^64-1,
    addresses that denote 16 bytes, text in latin-1, lengths below 2^64. *)
Fixpoint writable (t : ft) (v : pyval) {struct t} : Prop :=
  match t with
  | FVarInt => match num_value v with Some z => 0 <= z < 2 ^ 64 | None => False end
  | FIP => match v with
           | VStr s => (exists g, ipv4_groups s = Some g) \/
                       (exists g, ipv6_groups s = Ok (Some g) /\ zlen g = 8)
           | _ => False
           end
  | FVarStr => match v with
               | VBytes s => zlen s < 2 ^ 64
               | VStr s => zlen s < 2 ^ 64 /\ Forall (fun c => c < 256) s
               | _ => False
               end
  | FArray child _ _ =>
      match v with
      | VList l | VTuple l => zlen l < 2 ^ 64 /\ Forall (writable child) l
      | _ => False
      end
  | FCompound _ props | FCompoundNoTs _ props =>
      match v with
      | VObj _ fs => (fix go ps fs := match ps, fs with
          | (_, vt) :: ps', (_, x) :: fs' => writable vt x /\ go ps' fs'
          | _, _ => True
          end) props fs
      | _ => False
      end
  | FOptional child _ => writable child v
  | _ => True
  end.
Fixpoint writable_fields (ps : list (string * ft)) (fs : list (string * pyval)) : Prop :=
  match ps, fs with
  | (_, vt) :: ps', (_, x) :: fs' => writable vt x /\ writable_fields ps' fs'
  | _, _ => True
  end.
