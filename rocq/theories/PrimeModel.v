(** Model of nbc/util/ecdsa/numbertheory.py, lines 243-489: factorisation,
    totients, orders and the primality test.  Integers are unbounded; loops
    carry a bound that the proofs show is never reached (running out of it
    would be a RecursionError), except where the comment says otherwise. *)
From Coq Require Import ZArith List Lia Bool.
From Verif Require Import PyBase PyLoop NtModel.
Import ListNotations.
Open Scope list_scope.
Open Scope Z_scope.

(** numbertheory.py:470-489. *)
Definition smallprimes : list Z :=
  [2; 3; 5; 7; 11; 13; 17; 19; 23; 29; 31; 37; 41;
   43; 47; 53; 59; 61; 67; 71; 73; 79; 83; 89; 97;
   101; 103; 107; 109; 113; 127; 131; 137; 139; 149;
   151; 157; 163; 167; 173; 179; 181; 191; 193; 197;
   199; 211; 223; 227; 229; 233; 239; 241; 251; 257;
   263; 269; 271; 277; 281; 283; 293; 307; 311; 313;
   317; 331; 337; 347; 349; 353; 359; 367; 373; 379;
   383; 389; 397; 401; 409; 419; 421; 431; 433; 439;
   443; 449; 457; 461; 463; 467; 479; 487; 491; 499;
   503; 509; 521; 523; 541; 547; 557; 563; 569; 571;
   577; 587; 593; 599; 601; 607; 613; 617; 619; 631;
   641; 643; 647; 653; 659; 661; 673; 677; 683; 691;
   701; 709; 719; 727; 733; 739; 743; 751; 757; 761;
   769; 773; 787; 797; 809; 811; 821; 823; 827; 829;
   839; 853; 857; 859; 863; 877; 881; 883; 887; 907;
   911; 919; 929; 937; 941; 947; 953; 967; 971; 977;
   983; 991; 997; 1009; 1013; 1019; 1021; 1031; 1033;
   1039; 1049; 1051; 1061; 1063; 1069; 1087; 1091; 1093;
   1097; 1103; 1109; 1117; 1123; 1129; 1151; 1153; 1163;
   1171; 1181; 1187; 1193; 1201; 1213; 1217; 1223; 1229].
(** [smallprimes[-1]], numbertheory.py:409, 470-489. *)
Definition last_small : Z := last smallprimes 0.

(** numbertheory.py:419-435: the number of rounds. *)
Definition rounds_table : list (Z * Z) :=
  [(100, 27); (150, 18); (200, 15); (250, 12); (300, 9); (350, 8); (400, 7); (450, 6); (550, 5); (650, 4); (850, 3); (1300, 2)].
(** numbertheory.py:419-435: the loop. *)
Fixpoint rounds_from (t n_bits : Z) (l : list (Z * Z)) : Z :=
  match l with
  | [] => t
  | (k, t1) :: l => if n_bits <? k then t else rounds_from t1 n_bits l
  end.
(** numbertheory.py:419-435. *)
Definition rounds (n_bits : Z) : Z := rounds_from 40 n_bits rounds_table.

(** numbertheory.py:448-454: the inner loop on (j, y). *)
Definition witness_step (s n : Z) (st : Z * Z) : Z * Z + res bool :=
  let (j, y) := st in
  if (j <=? s - 1) && negb (y =? n - 1) then
    match modular_exp y 2 n with
    | Raise e => inr (Raise e)
    | Ok y => if y =? 1 then inr (Ok false) else inl (j + 1, y)
    end
  else inr (Ok (y =? n - 1)).
(** numbertheory.py:445-457: one round, with the base a. *)
Definition mr_round (s r n a : Z) : res bool :=
  let! y := modular_exp a r n in
  if negb (y =? 1) && negb (y =? n - 1) then
    match ploop (witness_step s n) (Z.to_pos (s + 1)) (1, y) with
    | inl _ => Raise RecursionError
    | inr v => v
    end
  else Ok true.
(** numbertheory.py:444-458: the rounds stop at the first that fails. *)
Fixpoint mr_rounds (s r n : Z) (bases : list Z) : res bool :=
  match bases with
  | [] => Ok true
  | a :: bases => let! v := mr_round s r n a in if v then mr_rounds s r n bases else Ok false
  end.

Section Prime.
  (** [1 + int(math.log(n, 2))], a floating point computation: any value. *)
  Variable nbits : Z -> Z.

  (** numbertheory.py:388-458.  The module variable miller_rabin_test_count,
      which nothing reads, is left out.  At most 40 of the 201 small primes are
      used, so that [smallprimes[i]] exists. *)
  Definition is_prime (n : Z) : res bool :=
    if n <=? last_small then Ok (existsb (Z.eqb n) smallprimes)
    else
      let! g := gcd [n; 2 * 3 * 5 * 7 * 11] in
      if negb (g =? 1) then Ok false
      else
        match ploop odd_step (Z.to_pos n) (n - 1, 0) with
        | inl _ => Raise RecursionError
        | inr (r, s) => mr_rounds s r n (firstn (Z.to_nat (rounds (nbits n))) smallprimes)
        end.

  (** numbertheory.py:461-467.  The bound of the loop is a factorial: there is a
      prime up to v! + 1. *)
  Fixpoint zfact (n : nat) : Z := match n with O => 1 | S k => Z.of_nat n * zfact k end.
  (** numbertheory.py:461-467: one turn. *)
  Definition next_step (v : Z) : Z + res Z :=
    match is_prime v with
    | Raise e => inr (Raise e)
    | Ok true => inr (Ok v)
    | Ok false => inl (v + 2)
    end.
  (** numbertheory.py:461-467. *)
  Definition next_prime (starting_value : Z) : res Z :=
    if starting_value <? 2 then Ok 2
    else match ploop next_step (Z.to_pos (zfact (Z.to_nat starting_value) + 2)) (Z.lor (starting_value + 1) 1) with
         | inl _ => Raise RecursionError
         | inr v => v
         end.

  (** numbertheory.py:260-265: the loop on (n, q, count) that divides by a small
      prime. *)
  Definition small_count_step (d : Z) (st : Z * Z * Z) : Z * Z * Z + Z * Z :=
    let '(n, q, count) := st in
    if d <=? n then
      if q mod d =? 0 then inl (q, q / d, count + 1) else inr (q, count)
    else inr (n, count).
  (** numbertheory.py:255-266. *)
  Fixpoint small_factors (primes : list Z) (n : Z) (result : list (Z * Z)) : res (Z * list (Z * Z)) :=
    match primes with
    | [] => Ok (n, result)
    | d :: primes =>
        if n <? d then Ok (n, result)
        else if n mod d =? 0 then
          match ploop (small_count_step d) (Z.to_pos (n + 1)) (n, n / d, 1) with
          | inl _ => Raise RecursionError
          | inr (n, count) => small_factors primes n (result ++ [(d, count)])
          end
        else small_factors primes n result
    end.
  (** numbertheory.py:282-286: the loop on (n, count). *)
  Definition count_step (d : Z) (st : Z * Z) : Z * Z + Z * Z :=
    let (n, count) := st in
    if d <=? n then if n mod d =? 0 then inl (n / d, count + 1) else inr (n, count) else inr (n, count).
  (** numbertheory.py:275-287: the loop on (d, n, result). *)
  Definition search_step (st : Z * Z * list (Z * Z)) : Z * Z * list (Z * Z) + res (Z * list (Z * Z)) :=
    let '(d, n, result) := st in
    let d := d + 2 in
    if n / d <? d then inr (Ok (n, result))
    else if n mod d =? 0 then
      match ploop (count_step d) (Z.to_pos n) (n / d, 1) with
      | inl _ => inr (Raise RecursionError)
      | inr (n, count) => inl (d, n, result ++ [(d, count)])
      end
    else inl (d, n, result).
  (** numbertheory.py:243-290. *)
  Definition factorization (n : Z) : res (list (Z * Z)) :=
    if n <? 2 then Ok []
    else
      let! (n, result) := small_factors smallprimes n [] in
      if last_small <? n then
        let! p := is_prime n in
        if p then Ok (result ++ [(n, 1)])
        else
          match ploop search_step (Z.to_pos n) (last_small, n, result) with
          | inl _ => Raise RecursionError
          | inr v => let! (n, result) := v in Ok (if 1 <? n then result ++ [(n, 1)] else result)
          end
      else Ok result.

  (** numbertheory.py:294-308. *)
  Definition phi (n : Z) : res Z :=
    if n <? 3 then Ok 1
    else
      let! ff := factorization n in
      Ok (fold_left (fun (result : Z) (f : Z * Z) => let (p, e) := f in if 1 <? e then result * p ^ (e - 1) * (p - 1) else result * (p - 1)) ff 1).

  (** numbertheory.py:335-340. *)
  Definition carmichael_of_ppower (pp : Z * Z) : Z :=
    let (p, a) := pp in if (p =? 2) && (2 <? a) then 2 ^ (a - 2) else (p - 1) * p ^ (a - 1).
  (** numbertheory.py:330-331: the loop over the rest of the list. *)
  Fixpoint carmichael_loop (result : Z) (f_list : list (Z * Z)) : res Z :=
    match f_list with
    | [] => Ok result
    | f :: f_list => let! result := lcm [result; carmichael_of_ppower f] in carmichael_loop result f_list
    end.
  (** numbertheory.py:322-333. *)
  Definition carmichael_of_factorized (f_list : list (Z * Z)) : res Z :=
    match f_list with
    | [] => Ok 1
    | f :: f_list => carmichael_loop (carmichael_of_ppower f) f_list
    end.
  (** numbertheory.py:312-319. *)
  Definition carmichael (n : Z) : res Z := let! f := factorization n in carmichael_of_factorized f.
End Prime.

(** numbertheory.py:357-361: the loop on (z, result). *)
Definition order_step (x m : Z) (st : Z * Z) : Z * Z + Z :=
  let (z, result) := st in if negb (z =? 1) then inl ((z * x) mod m, result + 1) else inr result.
(** numbertheory.py:345-361. *)
Definition order_mod (x m : Z) : res Z :=
  if m <=? 1 then Ok 0
  else
    let! g := gcd [x; m] in
    if negb (g =? 1) then Raise AssertionError
    else match ploop (order_step x m) (Z.to_pos (m + 2)) (x, 1) with inl _ => Raise RecursionError | inr v => Ok v end.

(** numbertheory.py:372-376: dividing by d as often as possible.  With a = 0 the
    program's loop does not end; here that is a RecursionError. *)
Definition strip_step (d : Z) (a : Z) : Z + Z := if 0 <? a mod d then inr a else inl (a / d).
(** numbertheory.py:368-376: the loop on (a, b). *)
Definition coprime_step (st : Z * Z) : Z * Z + res Z :=
  let (a, b) := st in
  match gcd [a; b] with
  | Raise e => inr (Raise e)
  | Ok d =>
      if d <=? 1 then inr (Ok a)
      else match ploop (strip_step d) (Z.to_pos (Z.abs a + 1)) a with
           | inl _ => inr (Raise RecursionError)
           | inr a => inl (a, d)
           end
  end.
(** numbertheory.py:364-377. *)
Definition largest_factor_relatively_prime (a b : Z) : res Z :=
  match ploop coprime_step (Z.to_pos (Z.abs a + 1)) (a, b) with
  | inl _ => Raise RecursionError
  | inr v => v
  end.
(** numbertheory.py:380-385. *)
Definition kinda_order_mod (x m : Z) : res Z :=
  let! m := largest_factor_relatively_prime m x in order_mod x m.
