(** Model of nbc/util/ecdsa/ellipticcurve.py and nbc/util/ecdsa/ecdsa.py:
    points of a curve, their addition and multiplication, signatures. *)
From Coq Require Import ZArith List Lia Bool.
From Verif Require Import PyBase PyLoop NtModel.
Import ListNotations.
Open Scope list_scope.
Open Scope Z_scope.

(** ** ellipticcurve.py *)
(** ellipticcurve.py:40-55 [CurveFp]; p is positive for every curve of the
    library. *)
Record curve : Type := mk_curve { c_p : Z; c_a : Z; c_b : Z }.
(** ellipticcurve.py:57-59. *)
Definition contains_point (c : curve) (x y : Z) : bool :=
  (y * y - (x * x * x + c_a c * x + c_b c)) mod c_p c =? 0.
(** ellipticcurve.py:63-71 [Point]: INFINITY (the point whose curve is None) or
    a point of the curve at hand with its order, 0 standing for None, which
    Python treats alike.  Points of different curves never meet in the
    library, so the curve is a parameter of the functions. *)
Inductive point : Type := PInf | PAff (x y order : Z).
(** ellipticcurve.py:66-74: the constructor.  The second assertion,
    [self * order == INFINITY], always holds: __mul__ first reduces its
    argument modulo the order of the point, which is the same number. *)
Definition point_new (c : curve) (x y order : Z) : res point :=
  if contains_point c x y then Ok (PAff x y order) else Raise AssertionError.
(** ellipticcurve.py:76-83: the order is not compared. *)
Definition point_eqb (P Q : point) : bool :=
  match P, Q with
  | PInf, PInf => true
  | PAff x y _, PAff x' y' _ => (x =? x') && (y =? y')
  | _, _ => false
  end.
(** [P == INFINITY], ellipticcurve.py:76-83, 181. *)
Definition is_inf (P : point) : bool := match P with PInf => true | _ => false end.
(** ellipticcurve.py:177-178; None is 0. *)
Definition p_order (P : point) : Z := match P with PInf => 0 | PAff _ _ o => o end.
(** ellipticcurve.py:149-166. *)
Definition ec_double (c : curve) (P : point) : res point :=
  match P with
  | PInf => Ok PInf
  | PAff x y _ =>
      let p := c_p c in
      let! i := inverse_mod (2 * y) p in
      let l := ((3 * x * x + c_a c) * i) mod p in
      let x3 := (l * l - 2 * x) mod p in
      let y3 := (l * (x - x3) - y) mod p in
      point_new c x3 y3 0
  end.
(** ellipticcurve.py:85-107. *)
Definition ec_add (c : curve) (P Q : point) : res point :=
  match Q with
  | PInf => Ok P
  | PAff x2 y2 _ =>
      match P with
      | PInf => Ok Q
      | PAff x1 y1 _ =>
          let p := c_p c in
          if x1 =? x2 then
            if (y1 + y2) mod p =? 0 then Ok PInf else ec_double c P
          else
            let! i := inverse_mod (x2 - x1) p in
            let l := ((y2 - y1) * i) mod p in
            let x3 := (l * l - x1 - x2) mod p in
            let y3 := (l * (x1 - x3) - y1) mod p in
            point_new c x3 y3 0
      end
  end.
(** ellipticcurve.py:112-116: the loop doubles until it exceeds x. *)
Definition leftmost_step (x : Z) (r : Z) : Z + Z := if r <=? x then inl (2 * r) else inr (r / 2).
(** ellipticcurve.py:112-116. *)
Definition leftmost_bit (x : Z) : res Z :=
  if negb (0 <? x) then Raise AssertionError
  else match ploop (leftmost_step x) (Z.to_pos (x + 1)) 1 with inl _ => Raise RecursionError | inr r => Ok r end.
(** ellipticcurve.py:131-136: one turn of the loop on (i, result). *)
Definition mul_step (c : curve) (P N : point) (e e3 : Z) (s : Z * point) : Z * point + res point :=
  let (i, result) := s in
  if 1 <? i then
    match (let! r := ec_double c result in
           let! r := (if negb (Z.land e3 i =? 0) && (Z.land e i =? 0) then ec_add c r P else Ok r) in
           if (Z.land e3 i =? 0) && negb (Z.land e i =? 0) then ec_add c r N else Ok r) with
    | Raise x => inr (Raise x)
    | Ok r => inl (i / 2, r)
    end
  else inr (Ok result).
(** ellipticcurve.py:109-138. *)
Definition ec_mul (c : curve) (P : point) (other : Z) : res point :=
  let e := if p_order P =? 0 then other else other mod p_order P in
  if e =? 0 then Ok PInf
  else match P with
       | PInf => Ok PInf
       | PAff x y order =>
           if negb (0 <? e) then Raise AssertionError
           else
             let e3 := 3 * e in
             let! N := point_new c x (- y) order in
             let! b := leftmost_bit e3 in
             match ploop (mul_step c P N e e3) (Z.to_pos (b + 1)) (b / 2, P) with
             | inl _ => Raise RecursionError
             | inr r => r
             end
       end.

(** ** ecdsa.py *)
(** A generator: its curve and coordinates with the order. *)
Record generator : Type := mk_generator { g_curve : curve; g_x : Z; g_y : Z; g_order : Z }.
(** ecdsa.py:208-278: the generator as a Point with its order. *)
Definition gen_point (G : generator) : point := PAff (g_x G) (g_y G) (g_order G).
(** ecdsa.py:76-90 [Public_key.__init__]; comparing the coordinates of
    INFINITY, which are None, with a number is a TypeError.  The object keeps
    the generator and the point. *)
Definition public_key (G : generator) (P : point) : res point :=
  let n := g_order G in
  if n =? 0 then Raise RuntimeError
  else let! nP := ec_mul (g_curve G) P n in
       if negb (is_inf nP) then Raise RuntimeError
       else match P with
            | PInf => Raise TypeError
            | PAff x y _ => if (x <? 0) || (n <=? x) || (y <? 0) || (n <=? y) then Raise RuntimeError else Ok P
            end.
(** ecdsa.py:93-111 [Public_key.verifies]. *)
Definition verifies (G : generator) (Q : point) (hash r s : Z) : res bool :=
  let n := g_order G in
  if (r <? 1) || (n - 1 <? r) then Ok false
  else if (s <? 1) || (n - 1 <? s) then Ok false
  else
    let! c := inverse_mod s n in
    let u1 := (hash * c) mod n in
    let u2 := (r * c) mod n in
    let! A := ec_mul (g_curve G) (gen_point G) u1 in
    let! B := ec_mul (g_curve G) Q u2 in
    let! xy := ec_add (g_curve G) A B in
    match xy with
    | PInf => Raise TypeError
    | PAff x _ _ => Ok (x mod n =? r)
    end.
(** ecdsa.py:127-151 [Private_key.sign]; inverse_mod is evaluated before the
    product with r. *)
Definition private_sign (G : generator) (secret hash random_k : Z) : res (Z * Z) :=
  let n := g_order G in
  let k := random_k mod n in
  let! p1 := ec_mul (g_curve G) (gen_point G) k in
  match p1 with
  | PInf => let! _ := inverse_mod k n in Raise TypeError
  | PAff r _ _ =>
      if r =? 0 then Raise RuntimeError
      else let! i := inverse_mod k n in
           let s := (i * (hash + (secret * r) mod n)) mod n in
           if s =? 0 then Raise RuntimeError else Ok (r, s)
  end.
(** ecdsa.py:190-204 [point_is_valid]. *)
Definition point_is_valid (G : generator) (x y : Z) : res bool :=
  let n := g_order G in
  if (x <? 0) || (n <=? x) || (y <? 0) || (n <=? y) then Ok false
  else if negb (contains_point (g_curve G) x y) then Ok false
  else let! P := point_new (g_curve G) x y 0 in
       let! nP := ec_mul (g_curve G) P n in Ok (is_inf nP).

(** ecdsa.py:208-278: the curves.  [point_new] holds for each generator
    (EcParams.v). *)
Definition generator_192 : generator :=
  mk_generator (mk_curve 6277101735386680763835789423207666416083908700390324961279 (-3) 0x64210519e59c80e70fa7e9ab72243049feb8deecc146b9b1)
    0x188da80eb03090f67cbf20eb43a18800f4ff0afd82ff1012 0x07192b95ffc8da78631011ed6b24cdd573f977a11e794811
    6277101735386680763835789423176059013767194773182842284081.
(** ecdsa.py:221-231. *)
Definition generator_224 : generator :=
  mk_generator (mk_curve 26959946667150639794667015087019630673557916260026308143510066298881 (-3) 0xb4050a850c04b3abf54132565044b0b7d7bfd8ba270b39432355ffb4)
    0xb70e0cbd6bb4bf7f321390b94a03c1d356c21122343280d6115c1d21 0xbd376388b5f723fb4c22dfe6cd4375a05a07476444d5819985007e34
    26959946667150639794667015087019625940457807714424391721682722368061.
(** ecdsa.py:233-243. *)
Definition generator_256 : generator :=
  mk_generator (mk_curve 115792089210356248762697446949407573530086143415290314195533631308867097853951 (-3) 0x5ac635d8aa3a93e7b3ebbd55769886bc651d06b0cc53b0f63bce3c3e27d2604b)
    0x6b17d1f2e12c4247f8bce6e563a440f277037d812deb33a0f4a13945d898c296 0x4fe342e2fe1a7f9b8ee7eb4a7c0f9e162bce33576b315ececbb6406837bf51f5
    115792089210356248762697446949407573529996955224135760342422259061068512044369.
(** ecdsa.py:245-255. *)
Definition generator_384 : generator :=
  mk_generator (mk_curve 39402006196394479212279040100143613805079739270465446667948293404245721771496870329047266088258938001861606973112319 (-3) 0xb3312fa7e23ee7e4988e056be3f82d19181d9c6efe8141120314088f5013875ac656398d8a2ed19d2a85c8edd3ec2aef)
    0xaa87ca22be8b05378eb1c71ef320ad746e1d3b628ba79b9859f741e082542a385502f25dbf55296c3a545e3872760ab7 0x3617de4a96262c6f5d9e98bf9292dc29f8f41dbd289a147ce9da3113b5f0b8c00a60b1ce1d7e819d7a431d7c90ea0e5f
    39402006196394479212279040100143613805079739270465446667946905279627659399113263569398956308152294913554433653942643.
(** ecdsa.py:257-267. *)
Definition generator_521 : generator :=
  mk_generator (mk_curve 6864797660130609714981900799081393217269435300143305409394463459185543183397656052122559640661454554977296311391480858037121987999716643812574028291115057151 (-3) 0x051953eb9618e1c9a1f929a21a0b68540eea2da725b99b315f3b8b489918ef109e156193951ec7e937b1652c0bd3bb1bf073573df883d2c34f1ef451fd46b503f00)
    0xc6858e06b70404e9cd9e3ecb662395b4429c648139053fb521f828af606b4d3dbaa14b5e77efe75928fe1dc127a2ffa8de3348b3c1856a429bf97e7e31c2e5bd66 0x11839296a789a3bc0045c8a5fb42c7d1bd998f54449579b446817afbd17273e662c97ee72995ef42640c550b9013fad0761353c7086a272c24088be94769fd16650
    6864797660130609714981900799081393217269435300143305409394463459185543183397655394245057746333217197532963996371363321113864768612440380340372808892707005449.
(** ecdsa.py:269-278. *)
Definition generator_secp256k1 : generator :=
  mk_generator (mk_curve 0xfffffffffffffffffffffffffffffffffffffffffffffffffffffffefffffc2f 0 7)
    0x79be667ef9dcbbac55a06295ce870b07029bfcdb2dce28d959f2815b16f81798 0x483ada7726a3c4655da4fbfc0e1108a8fd17b448a68554199c47d08ffb10d4b8
    0xfffffffffffffffffffffffffffffffebaaedce6af48a03bbfd25e8cd0364141.
