(** The part of Python's [json] module that wallet files use: objects whose
    values are null, booleans, integers and plain strings.  No project code.
    Simplification: [loads] knows no escapes, floats, nested values and no
    top-level value but an object; on such a text, which [dumps] does not
    write, it raises ValueError. *)
From Coq Require Import String ZArith List Lia Bool.
From Verif Require Import PyBase PyVal.
Import ListNotations.
Open Scope string_scope.
Open Scope list_scope.
Open Scope Z_scope.

(** Values in wallet files (wallet/__init__.py:8-22). *)
Inductive jval : Type := JNull | JBool (b : bool) | JInt (z : Z) | JStr (s : text).
(** A dictionary, in insertion order. *)
Definition jobj := list (text * jval).
(** Characters written unchanged within a string by [json.dumps]. *)
Definition plain_char (c : Z) : bool := (32 <=? c) && (c <=? 126) && negb (c =? 34) && negb (c =? 92).
(** A text of such characters. *)
Definition plain (s : text) : Prop := Forall (fun c => plain_char c = true) s.

(** [d.get(k)] with None for a missing key: the last entry counts. *)
Fixpoint jget (k : text) (d : jobj) : option jval :=
  match d with
  | [] => None
  | (k', v) :: r => match jget k r with
                    | Some w => Some w
                    | None => if bytes_eqb k k' then Some v else None
                    end
  end.

(** ** [json.dumps] *)
Definition json_string (s : text) : text := [34] ++ s ++ [34].
(** [json.dumps] of a value. *)
Definition json_value (v : jval) : text :=
  match v with
  | JNull => bs "null"
  | JBool b => if b then bs "true" else bs "false"
  | JInt z => if z <? 0 then 45 :: text_of_int 10 (- z) else text_of_int 10 z
  | JStr s => json_string s
  end.
(** [json.dumps]: one member of an object. *)
Definition json_member (m : text * jval) : text := json_string (fst m) ++ [58; 32] ++ json_value (snd m).
(** [json.dumps]: the members, with the separator of the default encoder. *)
Fixpoint json_members (d : jobj) : text :=
  match d with
  | [] => []
  | [m] => json_member m
  | m :: r => json_member m ++ [44; 32] ++ json_members r
  end.
(** [json.dumps] of an object (wallet/__init__.py:10). *)
Definition json_dumps (d : jobj) : text := [123] ++ json_members d ++ [125].

(** ** [json.loads] *)
Fixpoint skip_ws (s : text) : text :=
  match s with
  | c :: r => if (c =? 32) || (c =? 9) || (c =? 10) || (c =? 13) then skip_ws r else s
  | [] => []
  end.
(** After the opening quotation mark. *)
Fixpoint read_string (s : text) : option (text * text) :=
  match s with
  | [] => None
  | c :: r => if c =? 34 then Some ([], r)
              else if (c =? 92) || (c <? 32) then None
              else match read_string r with Some (t, u) => Some (c :: t, u) | None => None end
  end.
(** [json.loads]: a digit. *)
Definition is_digit (c : Z) : bool := (48 <=? c) && (c <=? 57).
(** [json.loads]: the digits that follow. *)
Fixpoint read_digits (s : text) (acc : Z) : Z * text :=
  match s with
  | c :: r => if is_digit c then read_digits r (acc * 10 + (c - 48)) else (acc, s)
  | [] => (acc, [])
  end.
(** [0] or digits without a leading zero, not followed by a fraction or an exponent. *)
Definition read_number (s : text) : option (Z * text) :=
  let res :=
    match s with
    | c :: r => if c =? 48 then Some (0, r) else if is_digit c then Some (read_digits s 0) else None
    | [] => None
    end in
  match res with
  | Some (z, c :: r) => if (c =? 46) || (c =? 69) || (c =? 101) then None else Some (z, c :: r)
  | r => r
  end.
(** [json.loads]: the rest after a literal word. *)
Fixpoint read_word (w s : text) : option text :=
  match w, s with
  | [], _ => Some s
  | a :: w', b :: s' => if a =? b then read_word w' s' else None
  | _, [] => None
  end.
(** [json.loads]: a value that is no object. *)
Definition read_value (s : text) : option (jval * text) :=
  match s with
  | [] => None
  | c :: r =>
      if c =? 34 then match read_string r with Some (t, u) => Some (JStr t, u) | None => None end
      else if c =? 110 then match read_word (bs "null") s with Some u => Some (JNull, u) | None => None end
      else if c =? 116 then match read_word (bs "true") s with Some u => Some (JBool true, u) | None => None end
      else if c =? 102 then match read_word (bs "false") s with Some u => Some (JBool false, u) | None => None end
      else if c =? 45 then match read_number r with Some (z, u) => Some (JInt (- z), u) | None => None end
      else match read_number s with Some (z, u) => Some (JInt z, u) | None => None end
  end.
(** From the first quotation mark of an object to its end; every member takes
    at least one character, so the length of the text is enough fuel. *)
Fixpoint read_members (fuel : nat) (s : text) : option (jobj * text) :=
  match fuel with
  | O => None
  | S k =>
      match s with
      | [] => None
      | c :: r =>
          if negb (c =? 34) then None
          else
            match read_string r with
            | None => None
            | Some (key, u) =>
                match skip_ws u with
                | c :: u =>
                    if negb (c =? 58) then None
                    else match read_value (skip_ws u) with
                         | None => None
                         | Some (v, u) =>
                             match skip_ws u with
                             | c :: u =>
                                 if c =? 125 then Some ([(key, v)], u)
                                 else if c =? 44 then
                                   match read_members k (skip_ws u) with
                                   | Some (d, u) => Some ((key, v) :: d, u)
                                   | None => None
                                   end
                                 else None
                             | [] => None
                             end
                         end
                | [] => None
                end
            end
      end
  end.
(** [json.loads]: an object. *)
Definition read_object (s : text) : option (jobj * text) :=
  match skip_ws s with
  | c :: r =>
      if negb (c =? 123) then None
      else match skip_ws r with
           | c :: u => if c =? 125 then Some ([], u) else read_members (List.length s) (c :: u)
           | [] => None
           end
  | [] => None
  end.
(** [json.loads] of an object (wallet/__init__.py:16). *)
Definition json_loads (s : text) : res jobj :=
  match read_object s with
  | Some (d, u) => match skip_ws u with [] => Ok d | _ => Raise ValueError end
  | None => Raise ValueError
  end.
