(** Proofs about UtilModel.v, and the independent Merkle-tree specification. *)
From Coq Require Import String ZArith List Lia Bool.
From Verif Require Import PyBase PyVal UtilModel.
Import ListNotations.
Open Scope string_scope.
Open Scope list_scope.
Open Scope Z_scope.

(** ** Specification of the Bitcoin Merkle tree *)

(** One level up: neighbours are hashed together; a last lonely node is hashed
    with itself. *)
Fixpoint level (H : bytes -> bytes) (l : list bytes) : list bytes :=
  match l with
  | [] => []
  | [a] => [H (a ++ a)]
  | a :: b :: r => H (a ++ b) :: level H r
  end.
Inductive merkle_root (H : bytes -> bytes) : list bytes -> bytes -> Prop :=
| merkle_one a : merkle_root H [a] a
| merkle_up (l : list bytes) r : (2 <= List.length l)%nat -> merkle_root H (level H l) r -> merkle_root H l r.

Fixpoint list2_ind {A} (P : list A -> Prop) (H0 : P []) (H1 : forall a, P [a])
  (H2 : forall a b r, P r -> P (a :: b :: r)) (l : list A) : P l :=
  match l with
  | [] => H0
  | [a] => H1 a
  | a :: b :: r => H2 a b r (list2_ind P H0 H1 H2 r)
  end.

Section M.
Variable H : bytes -> bytes.

Lemma stride2_tl_cons {A} (a b : A) r : stride2 (tl (a :: b :: r)) = b :: stride2 (tl r).
Proof. cbn. f_equal. destruct r; reflexivity. Qed.

Lemma merkle_step_even l : zlen l mod 2 = 0 ->
  map (fun p => H (fst p ++ snd p)) (zip2 (stride2 l) (stride2 (tl l))) = level H l.
Proof.
  induction l as [|a|a b r IH] using list2_ind; intro E.
  - reflexivity.
  - vm_compute in E. discriminate.
  - rewrite stride2_tl_cons. cbn [stride2 zip2 map level fst snd]. f_equal. apply IH.
    unfold zlen in *. cbn [List.length] in E. rewrite !Nat2Z.inj_succ in E.
    replace (Z.succ (Z.succ (Z.of_nat (List.length r)))) with (Z.of_nat (List.length r) + 1 * 2) in E by lia.
    now rewrite Z.mod_add in E by lia.
Qed.
Lemma level_odd l : zlen l mod 2 = 1 -> level H (l ++ [last l []]) = level H l.
Proof.
  induction l as [|a|a b r IH] using list2_ind; intro E.
  - vm_compute in E. discriminate.
  - reflexivity.
  - assert (zlen r mod 2 = 1) as E'.
    { unfold zlen in *. cbn [List.length] in E. rewrite !Nat2Z.inj_succ in E.
      replace (Z.succ (Z.succ (Z.of_nat (List.length r)))) with (Z.of_nat (List.length r) + 1 * 2) in E by lia.
      now rewrite Z.mod_add in E by lia. }
    cbn [app level]. f_equal. rewrite <- (IH E'). destruct r as [|c r]; [vm_compute in E'; discriminate|].
    reflexivity.
Qed.
Lemma merkle_step_level l : merkle_step H l = level H l.
Proof.
  unfold merkle_step. pose proof (Z.mod_pos_bound (@zlen bytes l) 2 ltac:(lia)).
  destruct (Z.eqb_spec (@zlen bytes l mod 2) 1) as [E|E].
  - rewrite merkle_step_even; [now apply level_odd|].
    rewrite zlen_app. change (zlen [last l []]) with 1. change (@zlen (list Z) l) with (@zlen bytes l). generalize dependent (zlen l). clear.
    intros z _ E. rewrite Z.add_mod by lia. rewrite E. reflexivity.
  - apply merkle_step_even. change (@zlen (list Z) l) with (@zlen bytes l) in *. lia.
Qed.
Lemma level_length l : (List.length (level H l) <= List.length l)%nat /\
  ((2 <= List.length l)%nat -> (1 <= List.length (level H l) < List.length l)%nat).
Proof.
  induction l as [|a|a b r IH] using list2_ind; cbn [level List.length]; [lia|lia|].
  destruct r as [|c r]; cbn [level List.length] in *; [lia|]. lia.
Qed.

Lemma merkle_loop_spec fuel l : l <> [] -> (List.length l <= fuel)%nat ->
  exists r, merkle_loop H fuel l = Ok r /\ merkle_root H l r.
Proof.
  revert l. induction fuel as [|k IH]; intros l Hn Hl.
  - destruct l; [congruence|cbn in Hl; lia].
  - cbn [merkle_loop]. destruct (Z.ltb_spec 1 (zlen l)) as [L|L].
    + assert (2 <= List.length l)%nat as L2 by (unfold zlen in L; lia).
      destruct (level_length l) as (_ & LL). specialize (LL L2). rewrite merkle_step_level.
      destruct (IH (level H l)) as (r & R1 & R2).
      * destruct (level H l); [cbn in LL; lia|discriminate].
      * lia.
      * exists r. split; [exact R1|]. now constructor 2.
    + destruct l as [|a [|]]; [congruence| |unfold zlen in L; cbn [List.length] in L; lia].
      exists a. split; [reflexivity|constructor].
Qed.

Lemma merkle_root_fun l r1 : merkle_root H l r1 -> forall r2, merkle_root H l r2 -> r1 = r2.
Proof.
  induction 1 as [a|l r Hl Hr IH]; intros r2 H2; inversion H2; subst; try (cbn in *; lia); auto.
Qed.

Definition collision := exists x y : bytes, x <> y /\ H x = H y.

Lemma app_inj_len {A} (a b c d : list A) : List.length a = List.length c -> a ++ b = c ++ d -> a = c /\ b = d.
Proof.
  revert c. induction a as [|x a IH]; intros [|y c] L E; cbn in *; try discriminate; [auto|].
  injection E as -> E. destruct (IH c ltac:(lia) E). subst. auto.
Qed.

Lemma level_inj n l1 : Forall (fun h => List.length h = n) l1 -> forall l2, Forall (fun h => List.length h = n) l2 ->
  List.length l1 = List.length l2 -> level H l1 = level H l2 -> l1 = l2 \/ collision.
Proof.
  assert (forall a b c d : bytes, List.length a = n -> List.length c = n -> H (a ++ b) = H (c ++ d) ->
     (a = c /\ b = d) \/ collision) as G.
  { intros a b c d La Lc E. destruct (list_eq_dec Z.eq_dec (a ++ b) (c ++ d)) as [E'|E'].
    - left. apply app_inj_len; congruence.
    - right. now exists (a ++ b), (c ++ d). }
  induction l1 as [|a|a b r IH] using list2_ind; intros F1 [|c [|d s]] F2 L E; cbn in L; try lia; auto.
  - cbn in E. injection E as E. apply Forall_inv in F1. apply Forall_inv in F2.
    destruct (G _ _ _ _ F1 F2 E) as [[-> _]|]; auto.
  - cbn [level] in E. injection E as E1 E2.
    apply Forall_cons_iff in F1. destruct F1 as (A1 & A2). apply Forall_cons_iff in A2. destruct A2 as (A2 & A3).
    apply Forall_cons_iff in F2. destruct F2 as (B1 & B2). apply Forall_cons_iff in B2. destruct B2 as (B2 & B3).
    destruct (G _ _ _ _ A1 B1 E1) as [[-> ->]|]; auto.
    destruct (IH A3 s B3 ltac:(lia) E2) as [->|]; auto.
Qed.

Lemma level_len n l : (forall x, List.length (H x) = n) -> Forall (fun h => List.length h = n) (level H l).
Proof. intro Hn. induction l as [|a|a b r IH] using list2_ind; cbn; auto. Qed.
Lemma level_same_length l1 : forall l2, List.length l1 = List.length l2 ->
  List.length (level H l1) = List.length (level H l2).
Proof.
  induction l1 as [|a|a b r IH] using list2_ind; intros [|c [|d s]] L; cbn in *; try lia.
  f_equal. apply IH. lia.
Qed.

Lemma merkle_root_inj n l1 r : (forall x, List.length (H x) = n) -> merkle_root H l1 r ->
  forall l2, List.length l1 = List.length l2 ->
  Forall (fun h => List.length h = n) l1 -> Forall (fun h => List.length h = n) l2 ->
  merkle_root H l2 r -> l1 = l2 \/ collision.
Proof.
  intros Hn M1. induction M1 as [a|l r Hl Hr IH]; intros l2 L F1 F2 M; destruct M as [c|l2 r Hl2 Hr2].
  { now left. } { change (@List.length (list Z)) with (@List.length bytes) in *. cbn in L. lia. } { change (@List.length (list Z)) with (@List.length bytes) in *. cbn in L. lia. }
  destruct (IH (level H l2)) as [E|]; auto.
  - now apply level_same_length.
  - now apply level_len.
  - now apply level_len.
  - destruct (level_inj n l F1 l2 F2 L E); auto.
Qed.
End M.

(** ** Targets *)

Lemma bytes_leb_be a : forall b, wf_bytes a -> wf_bytes b -> List.length a = List.length b ->
  bytes_leb a b = (be_val a <=? be_val b).
Proof.
  induction a as [|x a IH]; intros [|y b] Ha Hb L; cbn [List.length] in L; try lia.
  - reflexivity.
  - inversion Ha; inversion Hb; subst. cbn [bytes_leb]. rewrite !be_val_cons.
    assert (zlen a = zlen b) as Lz by (unfold zlen; lia). rewrite <- Lz.
    pose proof (be_val_bound a ltac:(assumption)). pose proof (be_val_bound b ltac:(assumption)). rewrite <- Lz in *.
    destruct (Z.ltb_spec x y); [|destruct (Z.ltb_spec y x)].
    + symmetry. apply Z.leb_le. nia.
    + symmetry. apply Z.leb_gt. nia.
    + assert (x = y) by lia. subst. rewrite IH by (assumption || lia).
      destruct (Z.leb_spec (be_val a) (be_val b)), (Z.leb_spec (y * 256 ^ zlen a + be_val a) (y * 256 ^ zlen a + be_val b)); lia || reflexivity.
Qed.

Lemma hex_len_small x : 0 <= x < 2 ^ 256 -> hex_len x <= 64.
Proof.
  intro Hx. unfold hex_len. destruct (Z.leb_spec x 0); [lia|].
  assert (Z.log2 x < 256) by (apply Z.log2_lt_pow2; lia).
  assert (Z.log2 x / 4 < 64) by (apply Z.div_lt_upper_bound; lia). lia.
Qed.

(** Comparing with a longer byte string is comparing with its beginning. *)
Lemma bytes_leb_longer a : forall b c, List.length a = List.length b -> bytes_leb a (b ++ c) = bytes_leb a b.
Proof.
  induction a as [|x a IH]; intros [|y b] c L; cbn [List.length] in L; try lia; [reflexivity|].
  cbn [app bytes_leb]. rewrite IH by lia. reflexivity.
Qed.
Definition target_number (bits : Z) : Z :=
  let exponent := Z.shiftr bits 24 - 3 in
  if exponent <? 0 then Z.land bits 0x7fffff / 2 ^ (8 * - exponent) else Z.land bits 0x7fffff * 2 ^ (8 * exponent).
Lemma target_nonneg bits : 0 <= target_number bits.
Proof.
  unfold target_number. cbv zeta. assert (0 <= Z.land bits 0x7fffff) by (apply Z.land_nonneg; right; lia).
  destruct (Z.ltb_spec (Z.shiftr bits 24 - 3) 0).
  - apply Z.div_pos; [assumption|]. apply Z.pow_pos_nonneg; lia.
  - apply Z.mul_nonneg_nonneg; [assumption|]. apply Z.pow_nonneg. lia.
Qed.
Lemma hex_len_bound x : 0 <= x -> x < 16 ^ hex_len x.
Proof.
  intro Hx. unfold hex_len. destruct (Z.leb_spec x 0); [replace x with 0 by lia; reflexivity|].
  change 16 with (2 ^ 4). rewrite <- Z.pow_mul_r; [|lia|pose proof (Z.log2_nonneg x); pose proof (Z.div_pos (Z.log2 x) 4 ltac:(lia) ltac:(lia)); lia].
  apply Z.log2_lt_pow2; [lia|]. pose proof (Z.div_mod (Z.log2 x) 4 ltac:(lia)). pose proof (Z.mod_pos_bound (Z.log2 x) 4 ltac:(lia)). lia.
Qed.

(** The comparison for every target. *)
Lemma verify_target_spec c pow_fn header bits : co_pow c = Some pow_fn ->
  wf_bytes (pow_fn (ztake 80 header)) -> zlen (pow_fn (ztake 80 header)) = 32 ->
  verify_target true c header bits =
  let t := target_number bits in
  let digits := Z.max 64 (hex_len t) in
  if digits mod 2 =? 1 then Raise TypeError
  else Ok (le_val (pow_fn (ztake 80 header)) <=? t / 256 ^ (digits / 2 - 32)).
Proof.
  intros Hc Hw Hl. unfold verify_target, get_target. rewrite Hc. cbn [negb]. cbv zeta. fold (target_number bits).
  set (t := target_number bits). set (digits := Z.max 64 (hex_len t)).
  destruct (digits mod 2 =? 1) eqn:Ed; [reflexivity|]. cbn [bind]. f_equal.
  apply Z.eqb_neq in Ed. assert (64 <= digits) by (unfold digits; lia).
  assert (digits = 2 * (digits / 2)) as E2 by (pose proof (Z.div_mod digits 2 ltac:(lia)); pose proof (Z.mod_pos_bound digits 2 ltac:(lia)); lia).
  set (k := digits / 2) in *. assert (32 <= k) by lia.
  assert (0 <= t) by apply target_nonneg.
  assert (t < 256 ^ k) as Ht.
  { pose proof (hex_len_bound t ltac:(lia)) as B. change 256 with (16 ^ 2). rewrite <- Z.pow_mul_r, <- E2 by lia.
    eapply Z.lt_le_trans; [exact B|]. apply Z.pow_le_mono_r; unfold digits; lia. }
  set (B := be_bytes (Z.to_nat k) t).
  assert (zlen B = k) as LB by (unfold B; rewrite zlen_be_bytes; lia).
  assert (wf_bytes B) as WB by apply wf_be_bytes.
  assert (be_val B = t) as VB by (apply be_val_be_bytes_small; rewrite Z2Nat.id by lia; lia).
  rewrite <- (ztake_zdrop B 32). 
  assert (zlen (ztake 32 B) = 32) as L1 by (rewrite zlen_ztake; lia).
  assert (wf_bytes (ztake 32 B) /\ wf_bytes (zdrop 32 B)) as [W1 W2].
  { rewrite <- (ztake_zdrop B 32) in WB. apply Forall_app in WB. exact WB. }
  rewrite bytes_leb_longer; [|rewrite rev_length; unfold zlen in *; lia].
  rewrite bytes_leb_be; [|now apply wf_bytes_rev|assumption|rewrite rev_length; unfold zlen in *; lia].
  unfold be_val at 1. rewrite rev_involutive. f_equal.
  rewrite <- VB. rewrite <- (ztake_zdrop B 32) at 2. rewrite be_val_app.
  assert (zlen (zdrop 32 B) = k - 32) as -> by (rewrite zlen_zdrop; lia).
  pose proof (be_val_bound (zdrop 32 B) W2) as Bd. rewrite zlen_zdrop in Bd by lia. rewrite LB in Bd.
  symmetry. rewrite Z.div_add_l by lia. rewrite Z.div_small by (replace (Z.max 0 (k - 32)) with (k - 32) in Bd by lia; lia). lia.
Qed.

(** ** Versions *)

Lemma get_make_version M m r b v : make_version M m r b = Ok v -> get_version v = (M, m, r, b).
Proof.
  unfold make_version, get_version. intro H.
  destruct (_ && _) eqn:E in H; [|discriminate]. cbn in H. injection H as <-.
  repeat rewrite andb_true_iff in E.
  repeat (f_equal; []) || idtac.
  assert (0 <= m < 100 /\ 0 <= r < 100 /\ 0 <= b < 100) as (Hm & Hr & Hb) by lia. clear E.
  assert ((M * 1000000 + m * 10000 + r * 100 + b) / 1000000 = M) as ->.
  { symmetry. apply (Z.div_unique _ _ _ (m * 10000 + r * 100 + b)); lia. }
  assert ((M * 1000000 + m * 10000 + r * 100 + b) / 10000 = M * 100 + m) as ->.
  { symmetry. apply (Z.div_unique _ _ _ (r * 100 + b)); lia. }
  assert ((M * 1000000 + m * 10000 + r * 100 + b) / 100 = (M * 100 + m) * 100 + r) as ->.
  { symmetry. apply (Z.div_unique _ _ _ b); lia. }
  assert ((M * 1000000 + m * 10000 + r * 100 + b) mod 100 = b) as ->.
  { symmetry. apply (Z.mod_unique _ _ ((M * 100 + m) * 100 + r)); lia. }
  assert ((M * 100 + m) mod 100 = m) as -> by (symmetry; apply (Z.mod_unique _ _ M); lia).
  assert (((M * 100 + m) * 100 + r) mod 100 = r) as -> by (symmetry; apply (Z.mod_unique _ _ (M * 100 + m)); lia).
  reflexivity.
Qed.
Lemma make_get_version v : let '(M, m, r, b) := get_version v in make_version M m r b = Ok v.
Proof.
  unfold get_version, make_version.
  pose proof (Z.mod_pos_bound (v / 10000) 100 ltac:(lia)).
  pose proof (Z.mod_pos_bound (v / 100) 100 ltac:(lia)).
  pose proof (Z.mod_pos_bound v 100 ltac:(lia)).
  replace ((0 <=? _) && _ && _ && _) with true by lia. cbn [negb]. f_equal.
  pose proof (Z.div_mod v 100 ltac:(lia)). pose proof (Z.div_mod (v / 100) 100 ltac:(lia)).
  pose proof (Z.div_mod (v / 10000) 100 ltac:(lia)).
  rewrite Z.div_div in * by lia. change (100 * 100) with 10000 in *. change (10000 * 100) with 1000000 in *. lia.
Qed.

(** ** Hexadecimal *)

Lemma hex_value_digit d : 0 <= d < 16 -> hex_value (hex_digit d) = Some d.
Proof.
  intro Hd. unfold hex_digit. destruct (Z.ltb_spec d 10); unfold hex_value.
  - replace ((48 <=? 48 + d) && (48 + d <=? 57)) with true by lia. f_equal. lia.
  - replace ((48 <=? 87 + d) && (87 + d <=? 57)) with false by lia.
    replace ((97 <=? 87 + d) && (87 + d <=? 102)) with true by lia. f_equal. lia.
Qed.
Lemma hex_decode_encode b : wf_bytes b -> hex_decode (hex_encode b) = Ok b.
Proof.
  induction b as [|x b IH]; intro Hw; [reflexivity|]. inversion Hw as [|? ? Hx Hb]; subst. unfold is_byte in Hx.
  cbn [hex_encode flat_map app hex_decode]. fold (hex_encode b).
  rewrite !hex_value_digit.
  - rewrite (IH Hb). cbn [bind]. repeat f_equal. pose proof (Z.div_mod x 16 ltac:(lia)). lia.
  - apply Z.mod_pos_bound. lia.
  - split; [apply Z.div_pos; lia|apply Z.div_lt_upper_bound; lia].
Qed.
Lemma hex_decode_inv s b : hex_decode s = Ok b -> 
  wf_bytes b /\ zlen s = 2 * zlen b /\
  (Forall (fun c => 48 <= c <= 57 \/ 97 <= c <= 102) s -> hex_encode b = s).
Proof.
  revert b. induction s as [|a|a c r IH] using list2_ind; intros b H.
  - cbn in H. inv H. split; [constructor|]. split; reflexivity.
  - discriminate H.
  - cbn [hex_decode] in H. destruct (hex_value a) as [x|] eqn:X; [|discriminate].
    destruct (hex_value c) as [y|] eqn:Y; [|discriminate]. bind_inv H.
    assert (b = 16 * x + y :: x0) as -> by congruence. clear H.
    destruct (IH _ H0) as (W & L & E).
    assert (forall c v, hex_value c = Some v -> 0 <= v < 16 /\ ((48 <= c <= 57 \/ 97 <= c <= 102) -> hex_digit v = c)) as G.
    { clear. intros c v. unfold hex_value, hex_digit. 
      destruct ((48 <=? c) && (c <=? 57)) eqn:E1; [intro H; inv H; split; [lia|]; intro; destruct (Z.ltb_spec (c - 48) 10); lia|].
      destruct ((97 <=? c) && (c <=? 102)) eqn:E2; [intro H; inv H; split; [lia|]; intro; destruct (Z.ltb_spec (c - 87) 10); lia|].
      destruct ((65 <=? c) && (c <=? 70)) eqn:E3; [intro H; inv H; split; [lia|]; intro; lia|discriminate]. }
    destruct (G _ _ X) as (Gx & Gx'). destruct (G _ _ Y) as (Gy & Gy').
    split; [constructor; [unfold is_byte; lia|exact W]|].
    split; [unfold zlen in *; cbn [List.length]; lia|].
    intro F. inversion F as [|? ? F1 F2]; subst. inversion F2; subst.
    cbn [hex_encode flat_map app]. fold (hex_encode x0). rewrite E by assumption.
    assert ((16 * x + y) / 16 = x) as -> by (symmetry; apply (Z.div_unique _ _ _ y); lia).
    assert ((16 * x + y) mod 16 = y) as -> by (symmetry; apply (Z.mod_unique _ _ x); lia).
    rewrite Gx', Gy' by assumption. reflexivity.
Qed.

Lemma hex_digit_range d : 0 <= d < 16 -> 48 <= hex_digit d <= 57 \/ 97 <= hex_digit d <= 102.
Proof. unfold hex_digit. destruct (Z.ltb_spec d 10); lia. Qed.
Lemma hex_encode_digits b : wf_bytes b -> Forall (fun c => 48 <= c <= 57 \/ 97 <= c <= 102) (hex_encode b).
Proof.
  induction b as [|x b IH]; intro H; [constructor|]. inversion H as [|? ? Hx Hb]; subst. unfold is_byte in Hx. cbn [hex_encode flat_map app].
  constructor; [|constructor; [|now apply IH]]; apply hex_digit_range.
  - pose proof (Z.div_mod x 16 ltac:(lia)). pose proof (Z.mod_pos_bound x 16 ltac:(lia)). lia.
  - apply Z.mod_pos_bound. lia.
Qed.
Lemma hex_value_some c : 48 <= c <= 57 \/ 97 <= c <= 102 \/ 65 <= c <= 70 -> exists v, hex_value c = Some v.
Proof.
  intro H. unfold hex_value. destruct ((48 <=? c) && (c <=? 57)) eqn:E1; [eauto|].
  destruct ((97 <=? c) && (c <=? 102)) eqn:E2; [eauto|]. destruct ((65 <=? c) && (c <=? 70)) eqn:E3; [eauto|]. lia.
Qed.
Lemma hex_value_none c : ~ (48 <= c <= 57 \/ 97 <= c <= 102 \/ 65 <= c <= 70) -> hex_value c = None.
Proof.
  intro H. unfold hex_value. destruct ((48 <=? c) && (c <=? 57)) eqn:E1; [lia|].
  destruct ((97 <=? c) && (c <=? 102)) eqn:E2; [lia|]. destruct ((65 <=? c) && (c <=? 70)) eqn:E3; [lia|]. reflexivity.
Qed.
Lemma hex_decode_total s :
  let good := Z.even (zlen s) = true /\ Forall (fun c => 48 <= c <= 57 \/ 97 <= c <= 102 \/ 65 <= c <= 70) s in
  (good -> exists b, hex_decode s = Ok b) /\ (~ good -> hex_decode s = Raise TypeError).
Proof.
  cbv zeta. induction s as [|a|a c r IH] using list2_ind.
  - split; [intros _; exists []; reflexivity|]. intro N. exfalso. apply N. split; [reflexivity|constructor].
  - split; [intros [E _]; discriminate E|reflexivity].
  - destruct IH as [IH1 IH2]. cbn [hex_decode].
    assert (Z.even (zlen (a :: c :: r)) = Z.even (zlen r)) as Ee.
    { rewrite !zlen_cons. replace (1 + (1 + zlen r)) with (zlen r + 2 * 1) by lia. apply Z.even_add_mul_2. }
    rewrite Ee. split.
    + intros [He F]. inversion F as [|? ? Fa F']; subst. inversion F' as [|? ? Fc F'']; subst.
      destruct (hex_value_some a Fa) as [x ->]. destruct (hex_value_some c Fc) as [y ->].
      destruct (IH1 (conj He F'')) as [b ->]. cbn [bind]. eauto.
    + intro N. destruct (hex_value a) as [x|] eqn:Ea; [|reflexivity]. destruct (hex_value c) as [y|] eqn:Ec; [|reflexivity].
      rewrite IH2; [reflexivity|]. intros [He F]. apply N. split; [assumption|].
      assert (forall z v, hex_value z = Some v -> 48 <= z <= 57 \/ 97 <= z <= 102 \/ 65 <= z <= 70) as K.
      { intros z v. unfold hex_value. destruct ((48 <=? z) && (z <=? 57)) eqn:E1; [lia|].
        destruct ((97 <=? z) && (z <=? 102)) eqn:E2; [lia|]. destruct ((65 <=? z) && (z <=? 70)) eqn:E3; [lia|discriminate]. }
      constructor; [exact (K a x Ea)|]. constructor; [exact (K c y Ec)|assumption].
Qed.
