(** Model of nbc/util/ecdsa/numbertheory.py.  Integers are unbounded; floor
    division and modulo of Python are those of [Z].  Loops that the proofs show
    to end carry a bound that is never reached; running out of it would be a
    RecursionError. *)
From Coq Require Import ZArith Zpow_facts List Lia Bool.
From Verif Require Import PyBase PyLoop.
Import ListNotations.
Open Scope list_scope.
Open Scope Z_scope.

(** numbertheory.py:32-37: [pow] with a modulus; the result has the sign of the
    modulus. *)
Definition modular_exp (base exponent modulus : Z) : res Z :=
  if exponent <? 0 then Raise NegativeExponentError
  else if modulus =? 0 then Raise ValueError
  else if modulus <? 0 then Ok (let r := Zpow_mod base exponent (- modulus) in if r =? 0 then 0 else r + modulus)
  else Ok (Zpow_mod base exponent modulus).

(** numbertheory.py:185-202: the loop on (c, d), (uc, vc), (ud, vd). *)
Definition euclid_step (s : (Z * Z) * ((Z * Z) * (Z * Z))) : (Z * Z) * ((Z * Z) * (Z * Z)) + (Z * Z) :=
  let '((c, d), ((uc, vc), (ud, vd))) := s in
  if c =? 0 then inr (d, ud)
  else let q := d / c in inl ((d mod c, c), ((ud - q * uc, vd - q * vc), (uc, vc))).
(** numbertheory.py:185-202. *)
Definition inverse_mod (a m : Z) : res Z :=
  let! a := (if (a <? 0) || (m <=? a) then if m =? 0 then Raise ZeroDivisionError else Ok (a mod m) else Ok a) in
  match ploop euclid_step (Z.to_pos (Z.abs a + 1)) ((a, m), ((1, 0), (0, 1))) with
  | inl _ => Raise RecursionError
  | inr (d, ud) => if negb (d =? 1) then Raise AssertionError
                   else Ok (if 0 <? ud then ud else ud + m)
  end.

(** numbertheory.py:205-209. *)
Definition gcd2_step (s : Z * Z) : Z * Z + Z := let (a, b) := s in if a =? 0 then inr b else inl (b mod a, a).
(** numbertheory.py:205-209. *)
Definition gcd2 (a b : Z) : res Z :=
  match ploop gcd2_step (Z.to_pos (Z.abs a + 1)) (a, b) with inl _ => Raise RecursionError | inr b => Ok b end.
(** numbertheory.py:212-221, on a list of numbers: [reduce]; TypeError on an
    empty sequence. *)
Fixpoint reduce (f : Z -> Z -> res Z) (acc : Z) (l : list Z) : res Z :=
  match l with [] => Ok acc | x :: r => let! v := f acc x in reduce f v r end.
(** numbertheory.py:212-221. *)
Definition gcd (l : list Z) : res Z := match l with [] => Raise TypeError | x :: r => reduce gcd2 x r end.
(** numbertheory.py:224-227. *)
Definition lcm2 (a b : Z) : res Z := let! g := gcd [a; b] in if g =? 0 then Raise ZeroDivisionError else Ok (a * b / g).
(** numbertheory.py:230-240. *)
Definition lcm (l : list Z) : res Z := match l with [] => Raise TypeError | x :: r => reduce lcm2 x r end.

(** numbertheory.py:139-141: the odd part and the number of halvings. *)
Definition odd_step (s : Z * Z) : Z * Z + Z * Z :=
  let (a1, e) := s in if a1 mod 2 =? 0 then inl (a1 / 2, e + 1) else inr (a1, e).
(** numbertheory.py:125-146.  The recursive calls have a smaller odd second
    argument, which is at least halved by two of them. *)
Fixpoint jacobi_rec (fuel : nat) (a n : Z) : res Z :=
  match fuel with
  | O => Raise RecursionError
  | S k =>
      if negb (3 <=? n) then Raise AssertionError
      else if negb (n mod 2 =? 1) then Raise AssertionError
      else
        let a := a mod n in
        if a =? 0 then Ok 0
        else if a =? 1 then Ok 1
        else match ploop odd_step (Z.to_pos (a + 1)) (a, 0) with
             | inl _ => Raise RecursionError
             | inr (a1, e) =>
                 let s := if (e mod 2 =? 0) || (n mod 8 =? 1) || (n mod 8 =? 7) then 1 else -1 in
                 if a1 =? 1 then Ok s
                 else let s := if (n mod 4 =? 3) && (a1 mod 4 =? 3) then - s else s in
                      let! j := jacobi_rec k (n mod a1) a1 in Ok (s * j)
             end
  end.
(** numbertheory.py:125-146. *)
Definition jacobi (a n : Z) : res Z := jacobi_rec (Z.to_nat (2 * Z.log2 n + 4)) a n.

(** numbertheory.py:48-69, polynomials as lists of coefficients, lowest degree
    first.  [lead] is poly[-1]; the inner loop subtracts lead * polymod from
    the last coefficients, poly[-i] for i = 2 .. len(polymod), modulo p. *)
Fixpoint sub_low (lead : Z) (p : Z) (poly polymod : list Z) : list Z :=
  match poly, polymod with
  | x :: poly', y :: polymod' => (x - lead * y) mod p :: sub_low lead p poly' polymod'
  | _, _ => poly
  end.
(** numbertheory.py:62-66: the loop. *)
Fixpoint reduce_loop (fuel : nat) (poly polymod : list Z) (p : Z) : list Z :=
  match fuel with
  | O => poly
  | S k =>
      if (List.length polymod <=? List.length poly)%nat then
        let lead := last poly 0 in
        let body := removelast poly in
        let body := if lead =? 0 then body
                    else firstn (List.length poly - List.length polymod) body ++
                         sub_low lead p (skipn (List.length poly - List.length polymod) body) (removelast polymod) in
        reduce_loop k body polymod p
      else poly
  end.
(** numbertheory.py:48-69. *)
Definition polynomial_reduce_mod (poly polymod : list Z) (p : Z) : res (list Z) :=
  match polymod with
  | [] => Raise IndexError
  | _ => if negb (last polymod 0 =? 1) then Raise AssertionError
         else if negb (1 <? List.length polymod)%nat then Raise AssertionError
         else Ok (reduce_loop (List.length poly) poly polymod p)
  end.
(** numbertheory.py:72-93: every [prod[i+j]] is reduced at every addition; the
    row of index i is added at offset i. *)
Fixpoint add_row (m : Z) (m2 prod : list Z) (p : Z) : list Z :=
  match m2, prod with
  | y :: m2', x :: prod' => (x + m * y) mod p :: add_row m m2' prod' p
  | _, _ => prod
  end.
(** numbertheory.py:85-91: the two loops. *)
Fixpoint mul_rows (m1 m2 prod : list Z) (p : Z) : list Z :=
  match m1, prod with
  | m :: m1', _ =>
      match add_row m m2 prod p with
      | [] => []
      | x :: rest => x :: mul_rows m1' m2 rest p
      end
  | [], _ => prod
  end.
(** numbertheory.py:72-93. *)
Definition polynomial_multiply_mod (m1 m2 polymod : list Z) (p : Z) : res (list Z) :=
  polynomial_reduce_mod (mul_rows m1 m2 (repeat 0 (List.length m1 + List.length m2 - 1)) p) polymod p.
(** numbertheory.py:96-121: the loop on (k, G, s). *)
Definition pexp_step (polymod : list Z) (p : Z) (st : Z * (list Z * list Z)) : Z * (list Z * list Z) + res (list Z) :=
  let '(k, (G, s)) := st in
  if 1 <? k then
    let k := k / 2 in
    match polynomial_multiply_mod G G polymod p with
    | Raise e => inr (Raise e)
    | Ok G => if k mod 2 =? 1 then
                match polynomial_multiply_mod G s polymod p with
                | Raise e => inr (Raise e)
                | Ok s => inl (k, (G, s))
                end
              else inl (k, (G, s))
    end
  else inr (Ok s).
(** numbertheory.py:96-121. *)
Definition polynomial_exp_mod (base : list Z) (exponent : Z) (polymod : list Z) (p : Z) : res (list Z) :=
  if negb (exponent <? p) then Raise AssertionError
  else if exponent =? 0 then Ok [1]
  else match ploop (pexp_step polymod p) (Z.to_pos (Z.abs exponent + 1)) (exponent, (base, if exponent mod 2 =? 1 then base else [1])) with
       | inl _ => Raise RecursionError
       | inr r => r
       end.

(** numbertheory.py:176-182: [for b in range(2, p)]. *)
Definition root_step (a p : Z) (b : Z) : Z + res Z :=
  if b <? p then
    match jacobi (b * b - 4 * a) p with
    | Raise e => inr (Raise e)
    | Ok j => if j =? -1 then
                inr (let! ff := polynomial_exp_mod [0; 1] ((p + 1) / 2) [a; - b; 1] p in
                     match ff with
                     | [f0; f1] => if f1 =? 0 then Ok f0 else Raise AssertionError
                     | [_] | [] => Raise IndexError
                     | f0 :: f1 :: _ => if f1 =? 0 then Ok f0 else Raise AssertionError
                     end)
              else inl (b + 1)
    end
  else inr (Raise RuntimeError).
(** numbertheory.py:150-182. *)
Definition square_root_mod_prime (a p : Z) : res Z :=
  if negb ((0 <=? a) && (a <? p)) then Raise AssertionError
  else if negb (1 <? p) then Raise AssertionError
  else if a =? 0 then Ok 0
  else if p =? 2 then Ok a
  else
    let! jac := jacobi a p in
    if jac =? -1 then Raise SquareRootError
    else if p mod 4 =? 3 then modular_exp a ((p + 1) / 4) p
    else if p mod 8 =? 5 then
      let! d := modular_exp a ((p - 1) / 4) p in
      if d =? 1 then modular_exp a ((p + 3) / 8) p
      else if d =? p - 1 then let! r := modular_exp (4 * a) ((p - 5) / 8) p in Ok ((2 * a * r) mod p)
      else Raise RuntimeError
    else match ploop (root_step a p) (Z.to_pos p) 2 with
         | inl _ => Raise RecursionError
         | inr r => r
         end.
