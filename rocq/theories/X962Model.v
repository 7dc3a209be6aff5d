(** Integers as byte strings and two's complement numbers. *)
From Coq Require Import ZArith List.
From Verif Require Import PyBase.
Import ListNotations.
Open Scope Z_scope.

(** nbc/util/ecdsa/ecdsa.py:160-164: the loop of [int_to_string], lowest byte
    first; [fuel] bounds the number of rounds. *)
Fixpoint low_bytes (fuel : nat) (x : Z) : bytes :=
  match fuel with
  | O => []
  | S k => if x =? 0 then [] else Z.land x 255 :: low_bytes k (Z.shiftr x 8)
  end.
(** nbc/util/ecdsa/ecdsa.py:155-167 [int_to_string]; a number of [n] bits needs
    no more than [n] rounds. *)
Definition int_to_string (x : Z) : res bytes :=
  if x <? 0 then Raise AssertionError
  else if x =? 0 then Ok [0]
  else Ok (rev (low_bytes (S (Z.to_nat (Z.log2 x))) x)).
(** nbc/util/ecdsa/ecdsa.py:170-176 [string_to_int]. *)
Definition string_to_int (s : bytes) : Z := fold_left (fun result c => 256 * result + c) s 0.
(** nbc/util/ecdsa/ecdsa.py:179-187 [digest_integer]. *)
Definition digest_integer (sha1 : bytes -> bytes) (m : Z) : res Z :=
  let! s := int_to_string m in Ok (string_to_int (sha1 s)).
(** nbc/util/ecc.py:38-43 [twos_comp]; shifting by a negative count is a
    ValueError. *)
Definition twos_comp (val bits : Z) : res Z :=
  if bits - 1 <? 0 then Raise ValueError
  else if Z.land val (Z.shiftl 1 (bits - 1)) =? 0 then Ok val
  else Ok (val - Z.shiftl 1 bits).
