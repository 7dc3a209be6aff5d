(** Proofs about DER, number conversions and nonces. *)
From Coq Require Import ZArith List Lia Bool.
From Verif Require Import PyBase PyVal UtilModel Base58Proofs DerModel.
Import ListNotations.
Open Scope list_scope.
Open Scope Z_scope.

(** ** Bits of a byte *)
Definition all_bytes : list Z := map Z.of_nat (seq 0 256).
Lemma all_bytes_in x : 0 <= x < 256 -> In x all_bytes.
Proof. intro H. apply in_map_iff. exists (Z.to_nat x). split; [lia|apply in_seq; lia]. Qed.
Lemma byte_bits x : 0 <= x < 256 ->
  (x < 128 -> Z.land x 0x80 = 0 /\ Z.land x 0x7f = x /\ Z.lor 0x80 x = 128 + x /\ Z.lor x 0x80 = x + 128) /\
  (128 <= x -> Z.land x 0x80 = 128 /\ Z.land x 0x7f = x - 128).
Proof.
  intro H. set (f := fun x => if x <? 128 then (Z.land x 0x80 =? 0) && (Z.land x 0x7f =? x) && (Z.lor 0x80 x =? 128 + x) && (Z.lor x 0x80 =? x + 128)
                              else (Z.land x 0x80 =? 128) && (Z.land x 0x7f =? x - 128)).
  assert (forallb f all_bytes = true) as G by (vm_compute; reflexivity).
  rewrite forallb_forall in G. specialize (G x (all_bytes_in x H)). unfold f in G. clear f.
  destruct (Z.ltb_spec x 128); repeat rewrite andb_true_iff in G; repeat rewrite Z.eqb_eq in G; split; intro; try lia; tauto.
Qed.

(** ** Shortest big-endian bytes *)
Lemma hex_len_spec x : 0 <= x -> 1 <= hex_len x /\ x < 16 ^ hex_len x /\ (0 < x -> 16 ^ (hex_len x - 1) <= x).
Proof.
  intro H. unfold hex_len. destruct (Z.leb_spec x 0); [assert (x = 0) by lia; subst; cbn; lia|].
  pose proof (Z.log2_nonneg x) as N. pose proof (Z.log2_spec x ltac:(lia)) as [L U]. pose proof (Z.div_pos (Z.log2 x) 4 N ltac:(lia)) as D.
  pose proof (Z.div_mod (Z.log2 x) 4 ltac:(lia)) as DM. pose proof (Z.mod_pos_bound (Z.log2 x) 4 ltac:(lia)) as M.
  split; [lia|]. change 16 with (2 ^ 4). rewrite <- !Z.pow_mul_r by lia. split.
  - apply Z.lt_le_trans with (1 := U). apply Z.pow_le_mono_r; lia.
  - intros _. apply Z.le_trans with (2 := L). apply Z.pow_le_mono_r; lia.
Qed.
Lemma min_bytes_spec x : 0 <= x -> exists n, min_bytes x = be_bytes (S n) x /\ x < 256 ^ Z.of_nat (S n) /\ (n = 0%nat \/ 256 ^ Z.of_nat n <= x).
Proof.
  intro H. destruct (hex_len_spec x H) as (A & B & C). unfold min_bytes.
  pose proof (Z.div_mod (hex_len x + 1) 2 ltac:(lia)) as D. pose proof (Z.mod_pos_bound (hex_len x + 1) 2 ltac:(lia)) as M.
  set (q := (hex_len x + 1) / 2) in *. exists (Z.to_nat (q - 1)).
  replace (S (Z.to_nat (q - 1))) with (Z.to_nat q) by lia. rewrite !Z2Nat.id by lia. split; [reflexivity|].
  assert (q - 1 = 0 \/ 256 ^ (q - 1) <= x) as P.
  { destruct (Z.eq_dec (q - 1) 0); [now left|right]. change 256 with (16 ^ 2). rewrite <- Z.pow_mul_r by lia.
    assert (0 < x) as Hx. { destruct (Z.eq_dec x 0) as [E|]; [|lia]. exfalso. subst x. unfold hex_len in *. cbn in *. lia. }
    apply Z.le_trans with (2 := C Hx). apply Z.pow_le_mono_r; lia. }
  split.
  - apply Z.lt_le_trans with (1 := B). change 256 with (16 ^ 2). rewrite <- Z.pow_mul_r by lia. apply Z.pow_le_mono_r; lia.
  - destruct P; [left; lia|now right].
Qed.
Lemma be_bytes_cons n x : be_bytes (S n) x = (x / 256 ^ Z.of_nat n) mod 256 :: be_bytes n x.
Proof.
  revert x. induction n as [|n IH]; intro x; [now rewrite Z.div_1_r|].
  unfold be_bytes in *. cbn [le_bytes rev] in *. rewrite (IH (x / 256)). cbn [app]. f_equal.
  rewrite pow256_S, <- Z.div_div by (pose proof (pow256_pos n); lia). reflexivity.
Qed.
Lemma min_bytes_len x : 0 <= x -> forall k, 0 <= k -> x < 256 ^ (k + 1) -> zlen (min_bytes x) <= k + 1.
Proof.
  intros H k Hk Hx. destruct (min_bytes_spec x H) as (n & E & _ & [->|L]); rewrite E, zlen_be_bytes; [lia|].
  assert (Z.of_nat n < k + 1); [|lia]. apply (Z.pow_lt_mono_r_iff 256); lia.
Qed.
Lemma min_bytes_val x : 0 <= x -> be_val (min_bytes x) = x.
Proof. intro H. destruct (min_bytes_spec x H) as (n & E & U & _). rewrite E. apply be_val_be_bytes_small. lia. Qed.
Lemma min_bytes_hd x : 0 <= x -> exists h r, min_bytes x = h :: r /\ 0 <= h < 256.
Proof. intro H. destruct (min_bytes_spec x H) as (n & E & _). rewrite E, be_bytes_cons. eexists _, _. split; [reflexivity|]. apply Z.mod_pos_bound. lia. Qed.

(** ** Lengths and bodies *)
Definition max_length : Z := 256 ^ 127.
Lemma read_encode_length l s : 0 <= l < max_length -> exists h, encode_length l = Ok h /\ read_length (h ++ s) = Ok (l, zlen h) /\ wf_bytes h.
Proof.
  intro H. unfold encode_length. destruct (Z.ltb_spec l 0); [lia|]. destruct (Z.ltb_spec l 0x80) as [L|L].
  - exists [l]. unfold int2byte, is_byteb. destruct (Z.leb_spec 0 l); [|lia]. destruct (Z.ltb_spec l 256); [|lia]. cbn [andb]. split; [reflexivity|].
    cbn [app read_length]. destruct (proj1 (byte_bits l ltac:(lia)) ltac:(lia)) as (A & B & _). rewrite A, B. split; [reflexivity|]. constructor; [unfold is_byte; lia|constructor].
  - pose proof (min_bytes_len l ltac:(lia) 126 ltac:(lia) ltac:(unfold max_length in H; lia)) as Len.
    destruct (min_bytes_hd l ltac:(lia)) as (h0 & r0 & E & _). assert (1 <= zlen (min_bytes l)) as Len1 by (rewrite E, zlen_cons; pose proof (zlen_nonneg r0); lia).
    destruct (proj1 (byte_bits (zlen (min_bytes l)) ltac:(lia)) ltac:(lia)) as (_ & _ & A & _). rewrite A.
    unfold int2byte, is_byteb. destruct (Z.leb_spec 0 (128 + zlen (min_bytes l))); [|lia]. destruct (Z.ltb_spec (128 + zlen (min_bytes l)) 256); [|lia]. cbn [andb bind].
    eexists. split; [reflexivity|]. cbn [app read_length]. destruct (proj2 (byte_bits (128 + zlen (min_bytes l)) ltac:(lia)) ltac:(lia)) as [B C]. rewrite B, C.
    change (128 =? 0) with false. cbn match. replace (128 + zlen (min_bytes l) - 128) with (zlen (min_bytes l)) by lia.
    destruct (Z.ltb_spec (zlen (min_bytes l ++ s)) (zlen (min_bytes l))) as [X|_]; [rewrite zlen_app in X; pose proof (zlen_nonneg s); lia|].
    rewrite ztake_app_exact by reflexivity. unfold bytes_int. rewrite E. rewrite <- E. cbn [bind]. rewrite min_bytes_val by lia. split; [rewrite zlen_cons; reflexivity|].
    constructor; [unfold is_byte; lia|]. unfold min_bytes. apply wf_be_bytes.
Qed.
Lemma body_rest_enc tag body rest : zlen body < max_length -> exists h, encode_length (zlen body) = Ok h /\ body_rest (tag :: h ++ body ++ rest) = Ok (body, rest) /\ wf_bytes h.
Proof.
  intro H. destruct (read_encode_length (zlen body) (body ++ rest)) as (h & E & R & W); [pose proof (zlen_nonneg body); lia|]. exists h. split; [exact E|]. split; [|exact W].
  unfold body_rest. change (zdrop 1 (tag :: h ++ body ++ rest)) with (zdrop 0 (h ++ body ++ rest)). rewrite zdrop_0, R. cbn [bind fst snd]. do 2 f_equal.
  - change (tag :: h ++ body ++ rest) with ((tag :: h) ++ body ++ rest). apply slice_app_mid; rewrite zlen_cons; lia.
  - replace (tag :: h ++ body ++ rest) with ((tag :: h ++ body) ++ rest) by (cbn [app]; now rewrite <- app_assoc). apply zdrop_app_exact. rewrite zlen_cons, zlen_app. lia.
Qed.

(** ** Integers *)
Definition max_integer : Z := 2 ^ 1015.
Lemma integer_content r : 0 <= r < max_integer -> exists c h t, c = h :: t /\ h < 128 /\ be_val c = r /\ wf_bytes c /\ zlen c < 128 /\ encode_integer r = Ok (2 :: zlen c :: c).
Proof.
  intro H. unfold encode_integer. destruct (Z.ltb_spec r 0); [lia|].
  pose proof (min_bytes_len r ltac:(lia) 126 ltac:(lia) ltac:(unfold max_integer in H; change (256 ^ (126 + 1)) with (2 ^ 1015 * 2); lia)) as Len.
  destruct (min_bytes_hd r ltac:(lia)) as (h & t & E & Hh). pose proof (min_bytes_val r ltac:(lia)) as V.
  assert (wf_bytes (min_bytes r)) as W by (unfold min_bytes; apply wf_be_bytes). pose proof (zlen_nonneg (min_bytes r)) as N.
  rewrite E in *. cbn [hd]. destruct (Z.leb_spec h 0x7f).
  - exists (h :: t), h, t. unfold int2byte, is_byteb. destruct (Z.leb_spec 0 (zlen (h :: t))); [|lia]. destruct (Z.ltb_spec (zlen (h :: t)) 256); [|lia]. cbn [andb bind app].
    split; [reflexivity|]. split; [lia|]. split; [exact V|]. split; [exact W|]. split; [lia|reflexivity].
  - assert (zlen (h :: t) <= 126) as L2.
    { assert (zlen (h :: t) <> 127); [|lia]. intro E127. rewrite zlen_cons in E127. rewrite be_val_cons in V. replace (zlen t) with 126 in V by lia.
      inversion W as [|? ? _ Wt]; subst. pose proof (be_val_bound t Wt) as Bt. unfold max_integer in H. change (2 ^ 1015) with (128 * 256 ^ 126) in H. nia. }
    exists (0 :: h :: t), 0, (h :: t). unfold int2byte, is_byteb. destruct (Z.leb_spec 0 (zlen (h :: t) + 1)); [|lia]. destruct (Z.ltb_spec (zlen (h :: t) + 1) 256); [|lia]. cbn [andb bind app].
    split; [reflexivity|]. split; [lia|]. split; [rewrite be_val_cons, V; lia|]. split; [constructor; [unfold is_byte; lia|exact W]|]. split; [rewrite zlen_cons; lia|]. rewrite (zlen_cons 0). do 3 f_equal. lia.
Qed.
Lemma read_short c rest : zlen c < 128 -> body_rest (2 :: zlen c :: c ++ rest) = Ok (c, rest).
Proof.
  intro H. pose proof (zlen_nonneg c) as N. assert (zlen c < max_length) as Hm by (apply Z.lt_le_trans with (1 := H); unfold max_length; lia).
  destruct (body_rest_enc 2 c rest Hm) as (h & E & R & _). unfold encode_length in E. destruct (Z.ltb_spec (zlen c) 0); [lia|]. destruct (Z.ltb_spec (zlen c) 0x80); [|lia].
  unfold int2byte, is_byteb in E. destruct (Z.leb_spec 0 (zlen c)); [|lia]. destruct (Z.ltb_spec (zlen c) 256); [|lia]. cbn [andb] in E. assert (h = [zlen c]) as -> by congruence. exact R.
Qed.
Lemma remove_encode_integer r rest : 0 <= r < max_integer -> exists e, encode_integer r = Ok e /\ remove_integer (e ++ rest) = Ok (r, rest) /\ ecc_remove_integer (e ++ rest) = Ok (r, rest) /\ zlen e <= 129 /\ wf_bytes e.
Proof.
  intro H. destruct (integer_content r H) as (c & h & t & Ec & Hh & V & W & L & E). eexists. split; [exact E|]. cbn [app].
  unfold remove_integer, ecc_remove_integer. cbn [expect]. change (2 =? 2) with true. cbn [bind]. rewrite read_short by exact L. cbn [bind fst snd].
  rewrite Ec. destruct (Z.ltb_spec h 0x80); [|lia]. cbn [negb]. unfold bytes_int. rewrite <- Ec, V. cbn [bind]. split; [reflexivity|]. split; [reflexivity|]. rewrite !zlen_cons. pose proof (zlen_nonneg c). split; [lia|].
  constructor; [unfold is_byte; lia|]. constructor; [unfold is_byte; lia|exact W].
Qed.

(** ** Base-128 numbers *)
Lemma b128_digits fuel : forall n acc, 0 <= n -> b128 fuel n acc = map (fun d => d + 128) (digits 128 fuel n) ++ acc.
Proof.
  induction fuel as [|k IH]; intros n acc Hn; cbn [b128 digits]; [destruct (n =? 0); reflexivity|].
  destruct (Z.eqb_spec n 0); [reflexivity|]. rewrite IH by (apply Z.shiftr_nonneg; exact Hn). rewrite Z.shiftr_div_pow2 by lia. change (2 ^ 7) with 128.
  rewrite map_app, <- app_assoc. cbn [map app]. do 2 f_equal. change 0x7f with (Z.ones 7). rewrite Z.land_ones by lia. change (2 ^ 7) with 128.
  pose proof (Z.mod_pos_bound n 128 ltac:(lia)). apply (byte_bits (n mod 128)); lia.
Qed.
Lemma encode_number_spec n : 0 <= n -> exists l d, encode_number n = map (fun d => d + 128) l ++ [d] /\ Forall (fun d => 0 <= d < 128) (l ++ [d]) /\ val 128 (l ++ [d]) = n.
Proof.
  intro H. unfold encode_number. rewrite b128_digits by exact H. rewrite app_nil_r.
  destruct (digits_canonical 128 ltac:(lia) (S (Z.to_nat (Z.log2 n))) n) as [[F C] V].
  { split; [exact H|]. pose proof (fuel_ok 128 ltac:(lia) n H) as U. now rewrite Nat.add_1_r in U. }
  destruct (digits 128 _ n) as [|x l0] eqn:E.
  - exists [], 0. split; [reflexivity|]. split; [constructor; [lia|constructor]|]. rewrite <- V. reflexivity.
  - destruct (@exists_last _ (x :: l0) ltac:(discriminate)) as (l & d & E1). rewrite E1 in *. exists l, d. split; [|split; [exact F|exact V]].
    assert (forall m : bytes, m <> [] -> match m with [] => [0] | _ :: _ => m end = m) as -> by (intros [|? ?] ?; congruence || reflexivity).
    2:{ destruct l; discriminate. }
    rewrite map_app. cbn [map]. unfold clear_last. rewrite removelast_last, last_last. f_equal. f_equal.
    apply Forall_app in F. destruct F as [_ F]. apply Forall_inv in F. rewrite (proj2 (proj2 (byte_bits (d + 128) ltac:(lia)) ltac:(lia))). lia.
Qed.
Lemma read_number_loop_spec l : forall d rest num k, Forall (fun d => 0 <= d < 128) (l ++ [d]) ->
  read_number_loop (map (fun d => d + 128) l ++ [d] ++ rest) num k = Ok (val_from 128 num (l ++ [d]), k + zlen l + 1).
Proof.
  induction l as [|x l IH]; intros d rest num k F.
  - cbn [map app read_number_loop]. cbn in F. apply Forall_inv in F. destruct (proj1 (byte_bits d ltac:(lia)) ltac:(lia)) as (A & B & _). rewrite A, B. change (0 =? 0) with true. cbn match.
    rewrite Z.shiftl_mul_pow2 by lia. unfold val_from. cbn [fold_left]. do 2 f_equal. change (zlen (@nil Z)) with 0. lia.
  - cbn [map app read_number_loop]. cbn in F. inversion F as [|? ? Fx Fl]; subst. destruct (proj2 (byte_bits (x + 128) ltac:(lia)) ltac:(lia)) as [A B]. rewrite A, B. change (128 =? 0) with false. cbn match.
    change (d :: rest) with ([d] ++ rest). rewrite IH by exact Fl. rewrite Z.shiftl_mul_pow2 by lia. unfold val_from. cbn [app fold_left]. change (2 ^ 7) with 128. rewrite zlen_cons.
    replace (x + 128 - 128) with x by lia. do 2 f_equal. lia.
Qed.
Lemma read_encode_number n rest : 0 <= n -> read_number (encode_number n ++ rest) = Ok (n, zlen (encode_number n)) /\ encode_number n <> [] /\ wf_bytes (encode_number n).
Proof.
  intro H. destruct (encode_number_spec n H) as (l & d & E & F & V). rewrite E. unfold read_number. rewrite <- app_assoc, read_number_loop_spec by exact F.
  split; [|split].
  - rewrite zlen_app, zlen_map. change (zlen [d]) with 1. fold (val 128 (l ++ [d])). rewrite V. reflexivity.
  - destruct l; discriminate.
  - apply Forall_app in F. destruct F as [F1 F2]. apply Forall_app. split.
    + apply Forall_map. eapply Forall_impl; [|exact F1]. cbv beta. unfold is_byte. intros; lia.
    + eapply Forall_impl; [|exact F2]. cbv beta. unfold is_byte. intros; lia.
Qed.
Lemma read_numbers_spec ns : Forall (fun n => 0 <= n) ns -> forall fuel, (List.length (concat (map encode_number ns)) <= fuel)%nat -> read_numbers fuel (concat (map encode_number ns)) = Ok ns.
Proof.
  induction ns as [|n ns IH]; intros F fuel Hf; [destruct fuel; reflexivity|]. inversion F as [|? ? Fn Fs]; subst.
  destruct (read_encode_number n (concat (map encode_number ns)) Fn) as (R & NE & _). cbn [map concat] in *.
  destruct (encode_number n ++ concat (map encode_number ns)) as [|b l] eqn:E; [destruct (encode_number n); [congruence|discriminate E]|].
  destruct fuel as [|fuel]; [cbn in Hf; lia|]. cbn [read_numbers]. rewrite R. cbn [bind fst snd]. rewrite <- E. rewrite zdrop_app_exact by reflexivity.
  rewrite IH; [reflexivity|exact Fs|]. rewrite <- E, app_length in Hf. destruct (encode_number n); [congruence|]. cbn in Hf. lia.
Qed.

(** ** Fixed-size numbers *)
Lemma orderlen_spec order : 0 < order -> 1 <= orderlen order /\ order < 256 ^ orderlen order /\ (orderlen order = 1 \/ 256 ^ (orderlen order - 1) <= order).
Proof.
  intro H. destruct (min_bytes_spec order ltac:(lia)) as (n & E & U & L). assert (orderlen order = Z.of_nat (S n)) as ->.
  { apply (f_equal zlen) in E. rewrite zlen_be_bytes in E. unfold min_bytes in E. rewrite zlen_be_bytes in E. unfold orderlen.
    replace (1 + hex_len order) with (hex_len order + 1) by lia. rewrite <- E. symmetry. apply Z2Nat.id. apply Z.div_pos; [|lia]. pose proof (hex_len_spec order ltac:(lia)). lia. }
  split; [lia|]. split; [exact U|]. destruct L as [->|L]; [left; reflexivity|right]. now replace (Z.of_nat (S n) - 1) with (Z.of_nat n) by lia.
Qed.
Lemma hex_len_le x k : 0 <= x < 16 ^ k -> 1 <= k -> hex_len x <= k.
Proof.
  intros H Hk. destruct (hex_len_spec x ltac:(lia)) as (A & B & C). destruct (Z.eq_dec x 0) as [->|]; [cbn; lia|].
  assert (hex_len x - 1 < k); [|lia]. apply (Z.pow_lt_mono_r_iff 16); lia.
Qed.
Lemma pow_16_256 k : 0 <= k -> 16 ^ (2 * k) = 256 ^ k.
Proof. intro H. rewrite Z.pow_mul_r by lia. reflexivity. Qed.
Lemma unhex_small num l : 1 <= l -> 0 <= num < 256 ^ l -> unhex_padded num l = Ok (be_bytes (Z.to_nat l) num).
Proof.
  intros Hl H. unfold unhex_padded. destruct (Z.ltb_spec num 0); [lia|]. rewrite Z.max_l by (apply hex_len_le; [rewrite pow_16_256 by lia; exact H|lia]).
  rewrite Z.mul_comm, Z.mod_mul, Z.div_mul by lia. reflexivity.
Qed.
Lemma number_to_string_spec num order : 0 < order -> number_to_string num order =
  (if num <? 0 then Raise ValueError
   else if num <? 256 ^ orderlen order then Ok (be_bytes (Z.to_nat (orderlen order)) num)
   else if hex_len num mod 2 =? 1 then Raise ValueError else Raise AssertionError).
Proof.
  intro H. destruct (orderlen_spec order H) as (A & B & C). unfold number_to_string. set (l := orderlen order) in *.
  destruct (Z.ltb_spec num 0); [unfold unhex_padded; destruct (Z.ltb_spec num 0); [reflexivity|lia]|].
  destruct (Z.ltb_spec num (256 ^ l)) as [L|L].
  - rewrite unhex_small by lia. cbn [bind]. rewrite zlen_be_bytes, Z2Nat.id by lia. rewrite Z.eqb_refl. reflexivity.
  - unfold unhex_padded. destruct (Z.ltb_spec num 0); [lia|]. destruct (hex_len_spec num ltac:(lia)) as (A1 & B1 & C1).
    assert (2 * l < hex_len num) as Hh. { apply (Z.pow_lt_mono_r_iff 16); [lia|lia|]. rewrite pow_16_256 by lia. lia. }
    rewrite Z.max_r by lia. destruct (Z.eqb_spec (hex_len num mod 2) 1); [reflexivity|]. cbn [bind]. rewrite zlen_be_bytes.
    pose proof (Z.div_mod (hex_len num) 2 ltac:(lia)). pose proof (Z.mod_pos_bound (hex_len num) 2 ltac:(lia)). rewrite Z2Nat.id by lia.
    destruct (Z.eqb_spec (hex_len num / 2) l); [lia|reflexivity].
Qed.
Lemma string_to_number_spec s : s <> [] -> string_to_number s = Ok (be_val s).
Proof. destruct s; [congruence|reflexivity]. Qed.
