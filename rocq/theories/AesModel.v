(** Model of nbc/util/pyaes/aes.py: the AES block cipher, the counter and the
    modes of operation.  Words are Python integers: the key words come from
    struct '>i' and may be negative; shifts and masks are those of Python
    (arithmetic shift, two's complement), which are those of [Z]. *)
From Coq Require Import ZArith List Lia Bool.
From Verif Require Import PyBase PyVal AesTables.
Import ListNotations.
Open Scope list_scope.
Open Scope Z_scope.

(** [T[i]] for an index that is a masked byte. *)
Definition tab (T : list Z) (i : Z) : Z := nth (Z.to_nat i) T 0.
Infix "^^" := Z.lxor (at level 50, left associativity).
(** [(w >> k) & 0xFF]. *)
Definition byte_at (k w : Z) : Z := Z.land (Z.shiftr w k) 255.

(** aes.py:61-62. *)
Definition compact_word (b0 b1 b2 b3 : Z) : Z :=
  Z.lor (Z.lor (Z.lor (Z.shiftl b0 24) (Z.shiftl b1 16)) (Z.shiftl b2 8)) b3.
(** [[_compact_word(l[4*i:4*i+4]) for i in range(4)]]; also used for the key. *)
Fixpoint words_of (f : Z -> Z -> Z -> Z -> Z) (l : bytes) : list Z :=
  match l with
  | b0 :: b1 :: b2 :: b3 :: r => f b0 b1 b2 b3 :: words_of f r
  | _ => []
  end.
(** [struct.unpack('>i', key[i:i+4])[0]]. *)
Definition signed_word (b0 b1 b2 b3 : Z) : Z :=
  let u := b0 * 2 ^ 24 + b1 * 2 ^ 16 + b2 * 2 ^ 8 + b3 in
  if 2 ^ 31 <=? u then u - 2 ^ 32 else u.

(** ** Key schedule *)

(** aes.py:147-152: what is xored into tk[0]. *)
Definition rot_sub (tt : Z) (rc : Z) : Z :=
  Z.shiftl (tab tab_S (byte_at 16 tt)) 24 ^^ Z.shiftl (tab tab_S (byte_at 8 tt)) 16 ^^
  Z.shiftl (tab tab_S (byte_at 0 tt)) 8 ^^ tab tab_S (byte_at 24 tt) ^^ Z.shiftl rc 24.
(** aes.py:163-168. *)
Definition sub_word (tt : Z) : Z :=
  tab tab_S (byte_at 0 tt) ^^ Z.shiftl (tab tab_S (byte_at 8 tt)) 8 ^^
  Z.shiftl (tab tab_S (byte_at 16 tt)) 16 ^^ Z.shiftl (tab tab_S (byte_at 24 tt)) 24.
(** [for i in ...: tk[i] ^= tk[i-1]], [prev] being the updated tk[i-1]. *)
Fixpoint xor_chain (prev : Z) (l : list Z) : list Z :=
  match l with
  | [] => []
  | x :: r => let y := x ^^ prev in y :: xor_chain y r
  end.
(** aes.py:145-171: one turn of the while loop on tk (KC = length). *)
Definition expand_block (rp : nat) (tk : list Z) : list Z :=
  match tk with
  | [] => []
  | x0 :: r =>
      let y0 := x0 ^^ rot_sub (last tk 0) (nth rp tab_rcon 0) in
      if negb (Nat.eqb (List.length tk) 8) then y0 :: xor_chain y0 r
      else
        let first := y0 :: xor_chain y0 (firstn 3 r) in
        match skipn 3 r with
        | [] => first
        | x4 :: r4 => let y4 := x4 ^^ sub_word (last first 0) in first ++ y4 :: xor_chain y4 r4
        end
  end.
(** aes.py:142-179: the while loop; [todo] is round_key_count - t.  The words
    stored in _Ke are returned in storage order (the entry 4*r+i is
    _Ke[r][i]; the loop stores them in increasing order).  The fuel bounds the
    number of turns. *)
Fixpoint expand_loop (fuel : nat) (rp : nat) (todo : nat) (tk : list Z) : list Z :=
  match fuel with
  | O => []
  | S k => match todo with
           | O => []
           | _ => let tk' := expand_block rp tk in
                  firstn todo tk' ++ expand_loop k (S rp) (todo - List.length tk') tk'
           end
  end.

(** aes.py:91. *)
Definition rounds_of (keylen : Z) : nat := if keylen =? 16 then 10 else if keylen =? 24 then 12 else 14.

(** The attributes of an AES object: _Ke and _Kd, flattened. *)
Record aes : Type := mk_aes { a_rounds : nat; a_Ke : list Z; a_Kd : list Z }.

(** aes.py:184-188. *)
Definition inv_key_word (tt : Z) : Z :=
  tab tab_U1 (byte_at 24 tt) ^^ tab tab_U2 (byte_at 16 tt) ^^ tab tab_U3 (byte_at 8 tt) ^^ tab tab_U4 (byte_at 0 tt).
(** Python: rows of four elements, [K[4*r:4*r+4]]; aes.py:184-188. *)
Definition row (K : list Z) (r : nat) : list Z := firstn 4 (skipn (4 * r) K).
(** aes.py:140, 177, 181-188: row r of _Kd is row rounds-r of _Ke, transformed
    unless it is the first or the last. *)
Definition decrypt_keys (rounds : nat) (Ke : list Z) : list Z :=
  flat_map (fun r => let w := row Ke (rounds - r) in
                     if Nat.eqb r 0 || Nat.eqb r rounds then w else map inv_key_word w) (seq 0 (S rounds)).

(** aes.py:118-188 [AES.__init__].  On Python 3, [KC / 2] is a float and
    [xrange(1, KC / 2)] a TypeError, reached for 32-byte keys only. *)
Definition aes_init (py2 : bool) (key : bytes) : res aes :=
  if negb ((zlen key =? 16) || (zlen key =? 24) || (zlen key =? 32)) then Raise ValueError
  else if (zlen key =? 32) && negb py2 then Raise TypeError
  else
    let rounds := rounds_of (zlen key) in
    let count := ((rounds + 1) * 4)%nat in
    let tk := words_of signed_word key in
    let Ke := tk ++ expand_loop count 0 (count - List.length tk) tk in
    Ok (mk_aes rounds Ke (decrypt_keys rounds Ke)).

(** ** Block cipher *)

(** aes.py:206-209, 240-243: [t[(i + s) % 4]]. *)
Definition pick (t : list Z) (i : nat) : Z := nth (i mod 4) t 0.
(** aes.py:204-211, 238-245: one round on the four words. *)
Definition table_round (A B C D : list Z) (s1 s2 s3 : nat) (k t : list Z) : list Z :=
  map (fun i => tab A (byte_at 24 (pick t i)) ^^ tab B (byte_at 16 (pick t (i + s1))) ^^
                tab C (byte_at 8 (pick t (i + s2))) ^^ tab D (byte_at 0 (pick t (i + s3))) ^^ nth i k 0)
      [0; 1; 2; 3]%nat.
(** aes.py:214-220, 248-254. *)
Definition last_round (A : list Z) (s1 s2 s3 : nat) (k t : list Z) : bytes :=
  flat_map (fun i => let tt := nth i k 0 in
    [ Z.land (tab A (byte_at 24 (pick t i)) ^^ Z.shiftr tt 24) 255;
      Z.land (tab A (byte_at 16 (pick t (i + s1))) ^^ Z.shiftr tt 16) 255;
      Z.land (tab A (byte_at 8 (pick t (i + s2))) ^^ Z.shiftr tt 8) 255;
      Z.land (tab A (byte_at 0 (pick t (i + s3))) ^^ tt) 255 ]) [0; 1; 2; 3]%nat.
(** [[a ^ b for (a, b) in zip(l, m)]]. *)
Fixpoint xor_zip (l m : list Z) : list Z :=
  match l, m with
  | x :: l', y :: m' => x ^^ y :: xor_zip l' m'
  | _, _ => []
  end.
(** aes.py:190-222 [AES.encrypt]. *)
Definition aes_encrypt (a : aes) (plaintext : bytes) : res bytes :=
  if negb (zlen plaintext =? 16) then Raise ValueError
  else
    let t := xor_zip (words_of compact_word plaintext) (row (a_Ke a) 0) in
    let t := fold_left (fun t r => table_round tab_T1 tab_T2 tab_T3 tab_T4 1 2 3 (row (a_Ke a) r) t)
               (seq 1 (a_rounds a - 1)) t in
    Ok (last_round tab_S 1 2 3 (row (a_Ke a) (a_rounds a)) t).
(** aes.py:224-256 [AES.decrypt]. *)
Definition aes_decrypt (a : aes) (ciphertext : bytes) : res bytes :=
  if negb (zlen ciphertext =? 16) then Raise ValueError
  else
    let t := xor_zip (words_of compact_word ciphertext) (row (a_Kd a) 0) in
    let t := fold_left (fun t r => table_round tab_T5 tab_T6 tab_T7 tab_T8 3 2 1 (row (a_Kd a) r) t)
               (seq 1 (a_rounds a - 1)) t in
    Ok (last_round tab_Si 3 2 1 (row (a_Kd a) (a_rounds a)) t).
