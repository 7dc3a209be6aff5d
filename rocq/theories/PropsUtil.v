(** Properties of the block-header, Merkle, target, version and hexadecimal
    helpers (C53, C54, C55, C66, C67). *)
From Coq Require Import String ZArith List Lia Bool.
From Verif Require Import PyBase PyVal FormatModel FormatSpec FormatProofs FormatProofs2 UtilModel UtilProofs.
Import ListNotations.
Open Scope string_scope.
Open Scope list_scope.
Open Scope Z_scope.

(** ** C53: Merkle root.  [merkle_root] and [level] (UtilProofs.v) are the
    protocol's definition of the tree. *)

Theorem C53_merkle_root : forall sha256d hashes, hashes <> [] ->
  exists r, get_merkle_root sha256d hashes = Ok r /\ merkle_root sha256d hashes r /\
    forall r', merkle_root sha256d hashes r' -> r' = r.
Proof.
  intros H l Hn. destruct (merkle_loop_spec H (List.length l) l Hn (le_n _)) as (r & R1 & R2).
  exists r. split; [exact R1|]. split; [exact R2|]. intros r' R'. eapply merkle_root_fun; eauto.
Qed.
Theorem C53_merkle_empty : forall sha256d, get_merkle_root sha256d [] = Raise IndexError.
Proof. reflexivity. Qed.
(** Equal roots of lists of the same length: equal lists or a hash collision. *)
Theorem C53_merkle_injective_partial : forall sha256d n l1 l2 r,
  (forall x, List.length (sha256d x) = n) ->
  Forall (fun h => List.length h = n) l1 -> Forall (fun h => List.length h = n) l2 ->
  List.length l1 = List.length l2 ->
  get_merkle_root sha256d l1 = Ok r -> get_merkle_root sha256d l2 = Ok r ->
  l1 = l2 \/ exists x y, x <> y /\ sha256d x = sha256d y.
Proof.
  intros H n l1 l2 r Hn F1 F2 L G1 G2.
  assert (l1 <> []) as N1 by (intros ->; discriminate G1).
  assert (l2 <> []) as N2 by (intros ->; discriminate G2).
  destruct (merkle_loop_spec H _ l1 N1 (le_n _)) as (r1 & R1 & M1).
  destruct (merkle_loop_spec H _ l2 N2 (le_n _)) as (r2 & R2 & M2).
  unfold get_merkle_root in *. rewrite R1 in G1. rewrite R2 in G2. inv G1. inv G2.
  exact (merkle_root_inj H n l1 r Hn M1 l2 L F1 F2 M2).
Qed.
(** Lists of different lengths can share a root with no collision involved:
    repeating the last hash of an odd level changes nothing. *)
Theorem C53_merkle_injective_refuted : forall sha256d a b c,
  get_merkle_root sha256d [a; b; c] = get_merkle_root sha256d [a; b; c; c].
Proof. reflexivity. Qed.
Example C53_nonvacuous : get_merkle_root (fun x => x) [[1]; [2]; [3]; [4]; [5]] =
  Ok [1;2;3;4; 5;5;5;5].
Proof. reflexivity. Qed.

(** ** C54: proof-of-work target *)

(** The target mantissa * 256^(exponent - 3) may be a fraction; both sides of
    the comparison are multiplied by 256^3. *)
Definition mantissa (bits : Z) : Z := bits mod 2 ^ 23.
Definition exponent (bits : Z) : Z := bits / 2 ^ 24.
Definition scaled_target (bits : Z) : Z := mantissa bits * 256 ^ exponent bits.

Lemma target_number_spec bits : 0 <= bits -> target_number bits = scaled_target bits / 256 ^ 3.
Proof.
  intro Hb. unfold target_number, scaled_target, mantissa, exponent.
  assert (Z.shiftr bits 24 = bits / 2 ^ 24) as -> by (apply Z.shiftr_div_pow2; lia).
  assert (Z.land bits 0x7fffff = bits mod 2 ^ 23) as -> by (apply (Z.land_ones bits 23); lia).
  pose proof (Z.div_pos bits (2 ^ 24) Hb ltac:(lia)). set (m := bits mod 2 ^ 23). set (e := bits / 2 ^ 24) in *. cbv zeta.
  change 256 with (2 ^ 8). rewrite <- !Z.pow_mul_r by lia.
  destruct (Z.ltb_spec (e - 3) 0).
  - replace (8 * 3) with (8 * - (e - 3) + 8 * e) by lia. rewrite Z.pow_add_r by lia.
    rewrite Z.div_mul_cancel_r; [reflexivity| |]; apply Z.pow_nonzero; lia.
  - replace (8 * e) with (8 * (e - 3) + 8 * 3) by lia. rewrite Z.pow_add_r, Z.mul_assoc by lia.
    rewrite Z.div_mul; [reflexivity|]. apply Z.pow_nonzero; lia.
Qed.
Lemma hex_len_eq t d : 0 < d -> 16 ^ (d - 1) <= t < 16 ^ d -> hex_len t = d.
Proof.
  intros Hd [H1 H2]. assert (0 < 16 ^ (d - 1)) by (apply Z.pow_pos_nonneg; lia). unfold hex_len. destruct (Z.leb_spec t 0); [lia|].
  change 16 with (2 ^ 4) in *. rewrite <- Z.pow_mul_r in H1, H2 by lia.
  apply Z.log2_le_pow2 in H1; [|lia]. apply Z.log2_lt_pow2 in H2; [|lia].
  assert (Z.log2 t / 4 = d - 1); [|lia]. symmetry. apply (Z.div_unique _ _ _ (Z.log2 t - 4 * (d - 1))); lia.
Qed.

Theorem C54_verify_target_partial : forall c pow_fn header bits, co_pow c = Some pow_fn ->
  0 <= bits -> scaled_target bits < 2 ^ 256 * 256 ^ 3 ->
  wf_bytes (pow_fn (ztake 80 header)) -> zlen (pow_fn (ztake 80 header)) = 32 ->
  verify_target true c header bits = Ok (le_val (pow_fn (ztake 80 header)) * 256 ^ 3 <=? scaled_target bits).
Proof.
  intros c pow_fn header bits Hc Hb Ht Hw Hl. rewrite (verify_target_spec c pow_fn) by assumption. cbv zeta.
  rewrite target_number_spec by assumption. set (T := scaled_target bits) in *. set (h := le_val _).
  assert (0 <= T).
  { unfold T, scaled_target, mantissa. apply Z.mul_nonneg_nonneg; [apply Z.mod_pos_bound; lia|apply Z.pow_nonneg; lia]. }
  assert (0 <= T / 256 ^ 3) by (apply Z.div_pos; lia).
  assert (T / 256 ^ 3 < 2 ^ 256) by (apply Z.div_lt_upper_bound; lia).
  rewrite Z.max_l by (apply hex_len_small; lia).
  change (64 mod 2 =? 1) with false. cbv iota. f_equal. change (64 / 2 - 32) with 0. rewrite Z.pow_0_r, Z.div_1_r.
  pose proof (Z.div_mod T (256 ^ 3) ltac:(lia)). pose proof (Z.mod_pos_bound T (256 ^ 3) ltac:(lia)).
  destruct (Z.leb_spec h (T / 256 ^ 3)), (Z.leb_spec (h * 256 ^ 3) T); nia || reflexivity.
Qed.
(** Targets of 2^256 and more, d hexadecimal digits: an odd number of digits is
    an error, otherwise only the first 64 digits count. *)
Theorem C54_large : forall c pow_fn header bits d, co_pow c = Some pow_fn ->
  0 <= bits -> 64 < d -> 16 ^ (d - 1) <= scaled_target bits / 256 ^ 3 < 16 ^ d ->
  wf_bytes (pow_fn (ztake 80 header)) -> zlen (pow_fn (ztake 80 header)) = 32 ->
  verify_target true c header bits =
  if Z.odd d then Raise TypeError
  else Ok (le_val (pow_fn (ztake 80 header)) <=? scaled_target bits / 256 ^ 3 / 16 ^ (d - 64)).
Proof.
  intros c pow_fn header bits d Hc Hb Hd Ht Hw Hl. rewrite (verify_target_spec c pow_fn) by assumption. cbv zeta.
  rewrite target_number_spec by assumption. rewrite (hex_len_eq _ d) by (assumption || lia).
  rewrite Z.max_r by lia. rewrite Zmod_odd. destruct (Z.odd d) eqn:Eo; [reflexivity|]. change (0 =? 1) with false. cbv iota.
  f_equal. f_equal. f_equal. change 256 with (16 ^ 2). rewrite <- Z.pow_mul_r; [f_equal| |];
    pose proof (Z.div_mod d 2 ltac:(lia)); pose proof (Zmod_odd d) as Ed; rewrite Eo in Ed; lia.
Qed.
(** So a hash far below the target can be refused, and the check can raise. *)
Theorem C54_verify_target_refuted : forall c hash, hash = repeat 0xff 32 -> co_pow c = Some (fun _ => hash) ->
  (let bits := 0x217fffff in
   le_val hash * 256 ^ 3 <= scaled_target bits /\ verify_target true c [] bits = Ok false) /\
  verify_target true c [] 0x22010000 = Raise TypeError.
Proof.
  intros c hash -> Hc. unfold verify_target. rewrite Hc. split; [split|]; vm_compute; first [reflexivity | discriminate].
Qed.
(** No coin of the library has a proof-of-work function, and on Python 3 no
    coin at all gets an answer. *)
Theorem C54_no_coin_refuted : forall py2 c header bits, In c Coins -> verify_target py2 c header bits = Raise AttributeError.
Proof. intros py2 c header bits [<-|[]]. reflexivity. Qed.
Theorem C54_python3_refuted : forall c header bits r, verify_target false c header bits <> Ok r.
Proof. intros c header bits r. unfold verify_target. destruct (co_pow c); discriminate. Qed.
Example C54_nonvacuous :
  let c f := mk_coin [] [] (Some f) in
  scaled_target 0x1d00ffff = 0xffff * 256 ^ 29 /\ scaled_target 0x1d00ffff < 2 ^ 256 * 256 ^ 3 /\
  verify_target true (c (fun _ => repeat 255 28 ++ repeat 0 4)) [] 0x1d00ffff = Ok false /\
  verify_target true (c (fun _ => repeat 255 27 ++ repeat 0 5)) [] 0x1d00ffff = Ok true /\
  (* a target of 0x1234 + 0x56/256 *)
  verify_target true (c (fun _ => [0x34; 0x12] ++ repeat 0 30)) [] 0x02123456 = Ok true /\
  verify_target true (c (fun _ => [0x35; 0x12] ++ repeat 0 30)) [] 0x02123456 = Ok false.
Proof. cbv zeta. repeat split; vm_compute; first [reflexivity | discriminate]. Qed.

(** ** C55: version numbers *)

Theorem C55_get_make : forall M m r b v, make_version M m r b = Ok v -> get_version v = (M, m, r, b).
Proof. exact get_make_version. Qed.
Theorem C55_make_get : forall v, let '(M, m, r, b) := get_version v in make_version M m r b = Ok v.
Proof. exact make_get_version. Qed.
Theorem C55_make_domain : forall M m r b,
  (0 <= m < 100 /\ 0 <= r < 100 /\ 0 <= b < 100 -> exists v, make_version M m r b = Ok v) /\
  (~ (0 <= m < 100 /\ 0 <= r < 100 /\ 0 <= b < 100) -> make_version M m r b = Raise ValueError).
Proof.
  intros M m r b. unfold make_version. split; intro H.
  - replace ((0 <=? m) && _ && _ && _) with true by lia. cbn. eauto.
  - replace ((0 <=? m) && (m <? 100) && ((0 <=? r) && (r <? 100)) && ((0 <=? b) && (b <? 100))) with false by lia.
    reflexivity.
Qed.
Example C55_nonvacuous : make_version 7 0 2 15 = Ok 7000215 /\ get_version 7000215 = (7, 0, 2, 15).
Proof. split; reflexivity. Qed.

(** ** C66: hexadecimal block and transaction identifiers *)

Theorem C66_hex_roundtrip : forall b, wf_bytes b ->
  exists s, bin_to_hex true b = Ok s /\ zlen s = 2 * zlen b /\ Forall (fun c => 48 <= c <= 57 \/ 97 <= c <= 102) s /\
            hex_to_bin true s = Ok b.
Proof.
  intros b H. unfold hex_to_bin, bin_to_hex. cbn [negb]. exists (hex_encode (rev b)).
  assert (hex_decode (hex_encode (rev b)) = Ok (rev b)) as D by (apply hex_decode_encode; now apply wf_bytes_rev).
  split; [reflexivity|]. pose proof (hex_decode_inv _ _ D) as (_ & L & _). split; [rewrite L, zlen_rev; reflexivity|].
  split; [apply hex_encode_digits; now apply wf_bytes_rev|]. rewrite D. cbn [bind]. now rewrite rev_involutive.
Qed.
Theorem C66_hex_inverse : forall s b, hex_to_bin true s = Ok b ->
  zlen s = 2 * zlen b /\ wf_bytes b /\
  (Forall (fun c => 48 <= c <= 57 \/ 97 <= c <= 102) s -> bin_to_hex true b = Ok s).
Proof.
  intros s b H. unfold hex_to_bin in H. cbn [negb] in H. bind_inv H. inv H. apply hex_decode_inv in H0. destruct H0 as (W & L & E).
  split; [now rewrite zlen_rev|]. split; [now apply wf_bytes_rev|]. intro F. unfold bin_to_hex. cbn [negb]. rewrite rev_involutive. f_equal. auto.
Qed.
(** Exactly the texts of an even number of hexadecimal digits are accepted. *)
Theorem C66_hex_accepts : forall s,
  (Z.even (zlen s) = true /\ Forall (fun c => 48 <= c <= 57 \/ 97 <= c <= 102 \/ 65 <= c <= 70) s ->
   exists b, hex_to_bin true s = Ok b) /\
  (~ (Z.even (zlen s) = true /\ Forall (fun c => 48 <= c <= 57 \/ 97 <= c <= 102 \/ 65 <= c <= 70) s) ->
   hex_to_bin true s = Raise TypeError).
Proof.
  intro s. unfold hex_to_bin. cbn [negb]. destruct (hex_decode_total s) as [A B]. split; intro H.
  - destruct (A H) as [b ->]. cbn [bind]. eauto.
  - rewrite (B H). reflexivity.
Qed.
Theorem C66_python3_refuted : forall s b, hex_to_bin false s = Raise AttributeError /\ bin_to_hex false b = Raise AttributeError.
Proof. split; reflexivity. Qed.
Example C66_nonvacuous : bin_to_hex true [0x6f; 0xe2] = Ok (bs "e26f") /\ hex_to_bin true (bs "E26f") = Ok [0x6f; 0xe2].
Proof. split; reflexivity. Qed.

(** ** C67: get_block_header agrees with the BlockHeader object *)

Lemma pack_I_ok x : 0 <= x < 2 ^ 32 -> pack_I x = Ok (le_bytes 4 x).
Proof. intro H. unfold pack_I. replace ((0 <=? x) && (x <? 2 ^ 32)) with true by lia. reflexivity. Qed.
Lemma pack_s_exact n b : zlen b = n -> pack_s n b = b.
Proof. intros <-. unfold pack_s. rewrite ztake_all, Z.sub_diag by lia. apply app_nil_r. Qed.

Theorem C67_block_header : forall args kw fs b v p m t bi n c,
  Forall built args -> Forall built (map snd kw) ->
  construct "BlockHeader" BlockHeader_props args kw = Ok (VObj "BlockHeader" fs) ->
  fs = [("version", VInt v); ("prev_block", VBytes p); ("merkle_root", VBytes m); ("timestamp", VInt t);
        ("bits", VInt bi); ("nonce", VInt n); ("txn_count", c)] ->
  fields_binary BlockHeader_props fs = Ok b ->
  get_block_header v p m t bi n = Ok (ztake 80 b).
Proof.
  intros args kw fs b v p m t bi n c Ha Hk Hc Hf Hb. apply construct_wt in Hc.
  - destruct Hc as (fs' & E & Hw & _). injection E as <-. subst fs. cbn in Hw.
    destruct Hw as (_ & Hv & _ & (Hp & Lp) & _ & (Hm & Lm) & _ & Ht & _ & Hbi & _ & Hn & _).
    unfold get_block_header. rewrite !pack_I_ok by lia. cbn [bind]. rewrite !pack_s_exact by assumption.
    unfold BlockHeader_props in Hb. cbn [fields_binary assoc String.eqb Ascii.eqb Bool.eqb binary num_binary] in Hb.
    rewrite (struct_pack_in FI false v) in Hb by (cbn; lia).
    rewrite (struct_pack_in FI false t) in Hb by (cbn; lia).
    rewrite (struct_pack_in FI false bi) in Hb by (cbn; lia).
    rewrite (struct_pack_in FI false n) in Hb by (cbn; lia).
    cbn [bind nf_len] in Hb. destruct (match c with VInt z => _ | _ => _ end) as [y|]; [|discriminate]. cbn [bind] in Hb.
    match type of Hb with Ok ?x = _ => assert (b = x) as -> by congruence end. clear Hb. f_equal. symmetry.
    replace (le_bytes 4 v ++ p ++ m ++ le_bytes 4 t ++ le_bytes 4 bi ++ le_bytes 4 n ++ y ++ [])
      with ((le_bytes 4 v ++ p ++ m ++ le_bytes 4 t ++ le_bytes 4 bi ++ le_bytes 4 n) ++ y ++ [])
      by (now rewrite <- !app_assoc).
    apply ztake_app_exact.
    rewrite !zlen_app, !zlen_le_bytes. lia.
  - cbn. lia.
  - repeat constructor.
  - eapply Forall_impl; [apply built_vgood|assumption].
  - eapply Forall_impl; [apply built_vgood|assumption].
Qed.
Example C67_nonvacuous : exists fs b,
  construct "BlockHeader" BlockHeader_props
    [VInt 1; VBytes (repeat 7 32); VBytes (repeat 8 32); VInt 1231006505; VInt 486604799; VInt 5; VInt 1] []
    = Ok (VObj "BlockHeader" fs) /\ fields_binary BlockHeader_props fs = Ok b /\ zlen b = 81.
Proof. do 2 eexists. split; [vm_compute; reflexivity|]. split; [vm_compute; reflexivity|vm_compute; reflexivity]. Qed.

(** ** C85: finding a coin *)

(** Two texts that differ only in the case of ASCII letters. *)
Definition same_letter (a b : Z) : Prop :=
  a = b \/ (65 <= a <= 90 /\ b = a + 32) \/ (65 <= b <= 90 /\ a = b + 32).
Definition same_text (s t : text) : Prop := Forall2 same_letter s t.

Definition is_lower (c : Z) : Prop := 97 <= c <= 122.
Definition is_upper (c : Z) : Prop := 65 <= c <= 90.
Lemma lower_same m : forall t, Forall is_lower t -> (lower m = t <-> same_text m t).
Proof.
  unfold same_text. induction m as [|a m IH]; intros [|b t] F; cbn [lower map]; try (split; intro H; inversion H; fail).
  - split; [constructor|reflexivity].
  - inversion F as [|? ? Fb Ft]; subst. unfold is_lower in Fb. specialize (IH t Ft). fold (lower m). split; intro H.
    + injection H as Ha Hm. constructor; [|tauto]. unfold same_letter. destruct ((65 <=? a) && (a <=? 90)) eqn:E; lia.
    + inversion H as [|? ? ? ? Hl Hm]; subst. apply IH in Hm. rewrite Hm. f_equal. unfold same_letter in Hl.
      destruct ((65 <=? a) && (a <=? 90)) eqn:E; lia.
Qed.
Lemma upper_same m : forall t, Forall is_upper t -> (upper m = t <-> same_text m t).
Proof.
  unfold same_text. induction m as [|a m IH]; intros [|b t] F; cbn [upper map]; try (split; intro H; inversion H; fail).
  - split; [constructor|reflexivity].
  - inversion F as [|? ? Fb Ft]; subst. unfold is_upper in Fb. specialize (IH t Ft). fold (upper m). split; intro H.
    + injection H as Ha Hm. constructor; [|tauto]. unfold same_letter. destruct ((97 <=? a) && (a <=? 122)) eqn:E; lia.
    + inversion H as [|? ? ? ? Hl Hm]; subst. apply IH in Hm. rewrite Hm. f_equal. unfold same_letter in Hl.
      destruct ((97 <=? a) && (a <=? 122)) eqn:E; lia.
Qed.

Theorem C85_get_coin : forall name symbol c,
  get_coin name symbol = Some c <->
  c = newbitcoin /\ ((exists n, name = Some n /\ same_text n (bs "newbitcoin")) \/
                     (exists y, symbol = Some y /\ same_text y (bs "NBC"))).
Proof.
  intros name symbol c. unfold get_coin, Coins. cbn [find_coin].
  set (n := match name with None => [] | Some n => n end). set (y := match symbol with None => [] | Some y => y end).
  change (co_name newbitcoin) with (bs "newbitcoin"). change (co_symbols newbitcoin) with [bs "NBC"].
  assert ((match n with [] => false | _ :: _ => bytes_eqb (lower n) (bs "newbitcoin") end) = true <->
          exists m, name = Some m /\ same_text m (bs "newbitcoin")) as Hn.
  { subst n. destruct name as [m|].
    - transitivity (lower m = bs "newbitcoin").
      + destruct m as [|a m]; [split; discriminate|]. destruct (bytes_eqb_spec (lower (a :: m)) (bs "newbitcoin")); [tauto|split; [discriminate|tauto]].
      + rewrite (lower_same m (bs "newbitcoin")) by (apply Forall_forall; intros x Hx; cbn in Hx; unfold is_lower; lia).
        split; [eauto|]. intros (m' & E & H). injection E as <-. exact H.
    - split; [discriminate|]. intros (m' & E & _). discriminate. }
  assert (existsb (bytes_eqb (upper y)) [bs "NBC"] = true <-> exists m, symbol = Some m /\ same_text m (bs "NBC")) as Hy.
  { subst y. cbn [existsb]. rewrite orb_false_r. destruct symbol as [m|].
    - transitivity (upper m = bs "NBC").
      + destruct (bytes_eqb_spec (upper m) (bs "NBC")); [tauto|split; [discriminate|tauto]].
      + rewrite (upper_same m (bs "NBC")) by (apply Forall_forall; intros x Hx; cbn in Hx; unfold is_upper; lia).
        split; [eauto|]. intros (m' & E & H). injection E as <-. exact H.
    - split; [discriminate|]. intros (m' & E & _). discriminate. }
  destruct ((match n with [] => false | _ :: _ => bytes_eqb (lower n) (bs "newbitcoin") end) || existsb (bytes_eqb (upper y)) [bs "NBC"]) eqn:E.
  - apply orb_true_iff in E. rewrite Hn, Hy in E. split; [intro H; injection H as <-; auto|]. intros [-> _]. reflexivity.
  - apply orb_false_iff in E. destruct E as [E1 E2]. split; [discriminate|]. intros [_ [H|H]].
    + apply Hn in H. congruence.
    + apply Hy in H. congruence.
Qed.
Example C85_nonvacuous : get_coin (Some (bs "NewBitcoin")) None = Some newbitcoin /\ get_coin None (Some (bs "nbc")) = Some newbitcoin /\
  get_coin (Some (bs "bitcoin")) (Some (bs "BTC")) = None /\ get_coin None None = None.
Proof. repeat split; reflexivity. Qed.

(** ** Assumptions *)

Print Assumptions C53_merkle_root.
Print Assumptions C53_merkle_empty.
Print Assumptions C53_merkle_injective_partial.
Print Assumptions C53_merkle_injective_refuted.
Print Assumptions C54_verify_target_partial.
Print Assumptions C54_large.
Print Assumptions C54_verify_target_refuted.
Print Assumptions C54_no_coin_refuted.
Print Assumptions C54_python3_refuted.
Print Assumptions C55_get_make.
Print Assumptions C55_make_get.
Print Assumptions C55_make_domain.
Print Assumptions C66_hex_roundtrip.
Print Assumptions C66_hex_inverse.
Print Assumptions C66_hex_accepts.
Print Assumptions C66_python3_refuted.
Print Assumptions C67_block_header.
Print Assumptions C85_get_coin.
