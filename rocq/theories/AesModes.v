(** Model of the modes of operation (nbc/util/pyaes/aes.py:259-563), of the
    padding helpers (nbc/util/pyaes/util.py), of the block feeders
    (nbc/util/pyaes/blockfeeder.py) and of the wallet's use of them
    (nbc/wallet/address.py:15-48).  A mode object is its AES object, which no
    method changes, and a state.  After an exception the object is not used
    again, so its state is not modelled. *)
From Coq Require Import ZArith List Lia Bool.
From Verif Require Import PyBase PyVal AesTables AesModel.
Import ListNotations.
Open Scope list_scope.
Open Scope Z_scope.

(** aes.py:265-268 [Counter.__init__]. *)
Definition counter_init (v : Z) : bytes :=
  map (fun i => Z.shiftr v i mod 256) [120; 112; 104; 96; 88; 80; 72; 64; 56; 48; 40; 32; 24; 16; 8; 0].
(** aes.py:275-280: the loop, on the list from its end; running off its front
    leaves zeros everywhere, which is also what the else branch (282-284)
    stores. *)
Fixpoint increment_rev (l : list Z) : list Z :=
  match l with
  | [] => []
  | x :: r => if x + 1 <? 256 then x + 1 :: r else 0 :: increment_rev r
  end.
(** aes.py:272-284 [Counter.increment]. *)
Definition counter_increment (c : bytes) : bytes := rev (increment_rev (rev c)).

(** The state of a mode object: ECB, none; CBC, _last_cipherblock; CFB,
    _segment_bytes and _shift_register; OFB, _remaining_block and
    _last_precipherblock; CTR, the counter's value and _remaining_counter. *)
Inductive mode : Type :=
| ECB
| CBC (last : bytes)
| CFB (seg : Z) (reg : bytes)
| OFB (rem last : bytes)
| CTR (counter rem : bytes).

(** aes.py:363-368, 411-416, 479-484: the initialization vector; None is 16
    zeros. *)
Definition iv_block (iv : option bytes) : res bytes :=
  match iv with
  | None => Ok (repeat 0 16)
  | Some v => if negb (zlen v =? 16) then Raise ValueError else Ok v
  end.
(** The constructors: aes.py:290-291, 362-370, 408-420, 478-488, 538-545.  A
    segment size below 1 other than 0 is outside the model. *)
Inductive mode_args : Type :=
| NewECB
| NewCBC (iv : option bytes)
| NewCFB (iv : option bytes) (segment_size : Z)
| NewOFB (iv : option bytes)
| NewCTR (initial_value : Z).
(** aes.py:290-291, 362-370, 408-420, 478-488, 538-545 [__init__]. *)
Definition mode_init (py2 : bool) (key : bytes) (args : mode_args) : res (aes * mode) :=
  match args with
  | NewECB => let! a := aes_init py2 key in Ok (a, ECB)
  | NewCBC iv => let! b := iv_block iv in let! a := aes_init py2 key in Ok (a, CBC b)
  | NewCFB iv n => let! b := iv_block iv in let! a := aes_init py2 key in Ok (a, CFB (if n =? 0 then 1 else n) b)
  | NewOFB iv => let! b := iv_block iv in let! a := aes_init py2 key in Ok (a, OFB [] b)
  | NewCTR v => let! a := aes_init py2 key in Ok (a, CTR (counter_init v) [])
  end.

(** aes.py:430-438 and 448-456: the loop over the segments; [enc] says which
    of the two methods.  Encryption shifts in the (possibly truncated)
    cipher segment it computed, decryption the one it was given. *)
Fixpoint cfb_loop (fuel : nat) (enc : bool) (a : aes) (seg : Z) (reg : bytes) (data : bytes) : res (bytes * bytes) :=
  match data with
  | [] => Ok ([], reg)
  | _ =>
    match fuel with
    | O => Ok ([], reg)
    | S k =>
        let segment := ztake seg data in
        let! x := aes_encrypt a reg in
        let out := xor_zip segment (ztake (zlen segment) x) in
        let cipher_segment := if enc then out else segment in
        let! r := cfb_loop k enc a seg (zdrop (zlen cipher_segment) reg ++ cipher_segment) (zdrop seg data) in
        Ok (out ++ fst r, snd r)
    end
  end.
(** aes.py:492-499. *)
Fixpoint ofb_loop (a : aes) (rem last : bytes) (data : bytes) : res (bytes * (bytes * bytes)) :=
  match data with
  | [] => Ok ([], (rem, last))
  | c :: r =>
      let! s := (match rem with
                 | [] => let! b := aes_encrypt a last in Ok (b, [])
                 | _ => Ok (rem, last)
                 end) in
      match fst s with
      | [] => Raise IndexError
      | p :: rem' =>
          let! o := ofb_loop a rem' (snd s ++ [p]) r in
          Ok (c ^^ p :: fst o, snd o)
      end
  end.
(** aes.py:548-550: the while loop; every turn adds 16 bytes, so the fuel, one
    more than the wanted length, is not reached. *)
Fixpoint ctr_fill (fuel : nat) (a : aes) (counter rem : bytes) (want : Z) : res (bytes * bytes) :=
  if zlen rem <? want then
    match fuel with
    | O => Ok (counter, rem)
    | S k => let! b := aes_encrypt a counter in ctr_fill k a (counter_increment counter) (rem ++ b) want
    end
  else Ok (counter, rem).
(** aes.py:547-555. *)
Definition ctr_crypt (a : aes) (counter rem : bytes) (data : bytes) : res (bytes * mode) :=
  let! s := ctr_fill (S (List.length data)) a counter rem (zlen data) in
  let out := xor_zip data (snd s) in
  Ok (out, CTR (fst s) (zdrop (zlen out) (snd s))).

(** The encrypt methods: aes.py:327-331, 372-379, 424-440, 490-501, 547-555. *)
Definition mode_encrypt (a : aes) (m : mode) (data : bytes) : res (bytes * mode) :=
  match m with
  | ECB => if negb (zlen data =? 16) then Raise ValueError else let! c := aes_encrypt a data in Ok (c, ECB)
  | CBC last =>
      if negb (zlen data =? 16) then Raise ValueError
      else let! c := aes_encrypt a (xor_zip data last) in Ok (c, CBC c)
  | CFB seg reg =>
      if negb (zlen data mod seg =? 0) then Raise ValueError
      else let! r := cfb_loop (List.length data) true a seg reg data in Ok (fst r, CFB seg (snd r))
  | OFB rem last => let! r := ofb_loop a rem last data in Ok (fst r, OFB (fst (snd r)) (snd (snd r)))
  | CTR counter rem => ctr_crypt a counter rem data
  end.
(** The decrypt methods: aes.py:333-337, 381-391, 442-458, 503-505, 557-559. *)
Definition mode_decrypt (a : aes) (m : mode) (data : bytes) : res (bytes * mode) :=
  match m with
  | ECB => if negb (zlen data =? 16) then Raise ValueError else let! p := aes_decrypt a data in Ok (p, ECB)
  | CBC last =>
      if negb (zlen data =? 16) then Raise ValueError
      else let! p := aes_decrypt a data in Ok (xor_zip p last, CBC data)
  | CFB seg reg =>
      if negb (zlen data mod seg =? 0) then Raise ValueError
      else let! r := cfb_loop (List.length data) false a seg reg data in Ok (fst r, CFB seg (snd r))
  | OFB rem last => mode_encrypt a m data
  | CTR counter rem => mode_encrypt a m data
  end.

(** ** Padding (util.py:26-39) *)
Definition append_padding (data : bytes) : bytes :=
  let pad := 16 - zlen data mod 16 in data ++ repeat pad (Z.to_nat pad).
(** [ord(data[-1])]: on Python 3 data[-1] is an int and ord a TypeError;
    [data[:-0]] is empty. *)
Definition strip_padding (py2 : bool) (data : bytes) : res bytes :=
  if negb (zlen data mod 16 =? 0) then Raise ValueError
  else match rev data with
       | [] => Raise IndexError
       | pad :: _ =>
           if negb py2 then Raise TypeError
           else if 16 <? pad then Raise ValueError
           else Ok (if pad =? 0 then [] else ztake (zlen data - pad) data)
       end.

(** ** Feeders (blockfeeder.py) *)
(** blockfeeder.py:47-49, 69-70, 90-91. *)
Definition can_consume (m : mode) (size : Z) : Z :=
  match m with
  | ECB | CBC _ => if 16 <=? size then 16 else 0
  | CFB seg _ => seg * (size / seg)
  | OFB _ _ | CTR _ _ => size
  end.
(** [self._mode._can_consume] etc. look at the mode's current state, of which
    only the class and the segment size matter. *)
Record feeder : Type := mk_feeder { f_enc : bool; f_aes : aes; f_mode : mode; f_buffer : option bytes }.
(** blockfeeder.py:47-97: [self.encrypt] or [self.decrypt], by the class of the feeder. *)
Definition feeder_call (f : feeder) (data : bytes) : res (bytes * mode) :=
  if f_enc f then mode_encrypt (f_aes f) (f_mode f) data else mode_decrypt (f_aes f) (f_mode f) data.
(** blockfeeder.py:110-114: the attribute [_mode]. *)
Definition with_mode (f : feeder) (m : mode) : feeder := mk_feeder (f_enc f) (f_aes f) m (f_buffer f).
(** blockfeeder.py:110-114: the attribute [_buffer]. *)
Definition with_buffer (f : feeder) (b : option bytes) : feeder := mk_feeder (f_enc f) (f_aes f) (f_mode f) b.
(** blockfeeder.py:52-59, 73-80, 93-97: the final methods. *)
Definition feeder_final (py2 : bool) (f : feeder) (data : bytes) : res bytes :=
  match f_mode f with
  | ECB | CBC _ =>
      if f_enc f then
        let padded := append_padding data in
        if zlen padded =? 32 then
          let! x := feeder_call f (ztake 16 padded) in
          let! y := feeder_call (with_mode f (snd x)) (zdrop 16 padded) in
          Ok (fst x ++ fst y)
        else let! x := feeder_call f padded in Ok (fst x)
      else let! x := feeder_call f data in strip_padding py2 (fst x)
  | CFB seg _ =>
      let! x := feeder_call f (data ++ repeat 0 (Z.to_nat (seg - zlen data mod seg))) in
      Ok (ztake (zlen data) (fst x))
  | OFB _ _ | CTR _ _ => let! x := feeder_call f data in Ok (fst x)
  end.
(** blockfeeder.py:137-141: the while loop (a turn removes at least one byte). *)
Fixpoint feed_loop (fuel : nat) (f : feeder) (buffer : bytes) : res (bytes * (mode * bytes)) :=
  if 16 <? zlen buffer then
    let n := can_consume (f_mode f) (zlen buffer - 16) in
    if n =? 0 then Ok ([], (f_mode f, buffer))
    else match fuel with
         | O => Ok ([], (f_mode f, buffer))
         | S k =>
             let! x := feeder_call f (ztake n buffer) in
             let! r := feed_loop k (with_mode f (snd x)) (zdrop n buffer) in
             Ok (fst x ++ fst r, snd r)
         end
  else Ok ([], (f_mode f, buffer)).
(** blockfeeder.py:116-143 [feed]; data = [] stands for None or the empty string.  On
    Python 3 the buffer starts as the str "", so that adding bytes to it is a
    TypeError, as is padding it; flushing at once gives b'' for a stream mode,
    and decrypting "" is a ValueError for a block mode. *)
Definition feeder_feed (py2 : bool) (f : feeder) (data : bytes) : res (bytes * feeder) :=
  match f_buffer f with
  | None => Raise ValueError
  | Some buffer =>
      if negb py2 then
        match data, f_mode f with
        | [], (OFB _ _ | CTR _ _) => Ok ([], with_buffer f None)
        | [], (ECB | CBC _) => Raise (if f_enc f then TypeError else ValueError)
        | _, _ => Raise TypeError
        end
      else match data with
           | [] => let! r := feeder_final py2 f buffer in Ok (r, with_buffer f None)
           | _ => let! r := feed_loop (List.length (buffer ++ data)) f (buffer ++ data) in
                  Ok (fst r, mk_feeder (f_enc f) (f_aes f) (fst (snd r)) (Some (snd (snd r))))
           end
  end.
(** blockfeeder.py:110-114, 146-157. *)
Definition feeder_init (enc : bool) (a : aes) (m : mode) : feeder := mk_feeder enc a m (Some []).

(** ** Wallet encryption (address.py) *)
(** address.py:18 and 41: [passphrase[:16].ljust(16, b'\x00')]. *)
Definition pass_key (passphrase : bytes) : bytes :=
  let p := ztake 16 passphrase in p ++ repeat 0 (16 - List.length p).
(** address.py:27-29 and 45-47: one call per 16 bytes. *)
Fixpoint by_blocks (m : nat) (call : aes -> mode -> bytes -> res (bytes * mode)) (a : aes) (st : mode) (data : bytes) : res bytes :=
  match m with
  | O => Ok []
  | S k => let! r := call a st (ztake 16 data) in
           let! o := by_blocks k call a (snd r) (zdrop 16 data) in Ok (fst r ++ o)
  end.
(** address.py:15-30 [_aesEncrypt], for a passphrase of type bytes (otherwise
    ValueError). *)
Definition wallet_encrypt (data passphrase : bytes) : res bytes :=
  let! s := mode_init false (pass_key passphrase) (NewCBC None) in
  let m := zlen data / 16 in
  let n := zlen data mod 16 in
  if n =? 0 then by_blocks (Z.to_nat m) mode_encrypt (fst s) (snd s) data
  else by_blocks (Z.to_nat (m + 1)) mode_encrypt (fst s) (snd s) (data ++ repeat 0 (Z.to_nat (16 - n))).
(** address.py:32-48 [_aesDecrypt], for a nonempty passphrase (an empty one is
    replaced by what the user types at the prompt). *)
Definition wallet_decrypt (data passphrase : bytes) : res bytes :=
  let m := zlen data / 16 in
  let n := zlen data mod 16 in
  if (m =? 0) || (16 <=? m) || negb (n =? 0) then Raise ValueError
  else let! s := mode_init false (pass_key passphrase) (NewCBC None) in
       by_blocks (Z.to_nat m) mode_decrypt (fst s) (snd s) data.
