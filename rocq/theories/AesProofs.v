(** The table-driven cipher is FIPS-197. *)
From Coq Require Import ZArith List Lia Bool.
From Verif Require Import PyBase PyVal AesTables AesModel AesSpec.
Import ListNotations.
Open Scope list_scope.
Open Scope Z_scope.
Ltac Zify.zify_post_hook ::= Z.to_euclidean_division_equations.

(** ** Bytes of words *)
Lemma byte_range k w : 0 <= byte_at k w < 256.
Proof. unfold byte_at. change 255 with (Z.ones 8). rewrite Z.land_ones by lia. apply Z.mod_pos_bound. lia. Qed.
Lemma byte_is k w : 0 <= k -> byte_at k w = w / 2 ^ k mod 256.
Proof. intro. unfold byte_at. change 255 with (Z.ones 8). rewrite Z.land_ones, Z.shiftr_div_pow2 by lia. reflexivity. Qed.
Lemma land_lxor a b c : Z.land (a ^^ b) c = Z.land a c ^^ Z.land b c.
Proof. apply Z.bits_inj'. intros n Hn. rewrite !Z.land_spec, !Z.lxor_spec, !Z.land_spec. destruct (Z.testbit a n), (Z.testbit b n), (Z.testbit c n); reflexivity. Qed.
Lemma byte_lxor k a b : byte_at k (a ^^ b) = byte_at k a ^^ byte_at k b.
Proof. unfold byte_at. now rewrite Z.shiftr_lxor, land_lxor. Qed.
Lemma byte_lor k a b : byte_at k (Z.lor a b) = Z.lor (byte_at k a) (byte_at k b).
Proof. unfold byte_at. now rewrite Z.shiftr_lor, Z.land_lor_distr_l. Qed.
Lemma land_byte x : 0 <= x < 256 -> Z.land x 255 = x.
Proof. intro. change 255 with (Z.ones 8). rewrite Z.land_ones by lia. apply Z.mod_small. lia. Qed.
Lemma byte_small x : 0 <= x < 256 -> byte_at 0 x = x.
Proof. intro. unfold byte_at. rewrite Z.shiftr_0_r. now apply land_byte. Qed.
Lemma byte_high k x : 0 <= x < 256 -> 8 <= k -> byte_at k x = 0.
Proof.
  intros. unfold byte_at. rewrite Z.shiftr_div_pow2 by lia. assert (256 <= 2 ^ k) by (change 256 with (2 ^ 8); apply Z.pow_le_mono_r; lia).
  now rewrite Z.div_small by lia.
Qed.
Lemma byte_shl_lt k j x : 0 <= k -> k + 8 <= j -> byte_at k (Z.shiftl x j) = 0.
Proof.
  intros. unfold byte_at. rewrite Z.shiftr_shiftl_l by lia. change 255 with (Z.ones 8). rewrite Z.land_ones, Z.shiftl_mul_pow2 by lia.
  replace (j - k) with (8 + (j - k - 8)) by lia. rewrite Z.pow_add_r by lia. rewrite (Z.mul_comm (2 ^ 8)), Z.mul_assoc. apply Z.mod_mul. lia.
Qed.
Lemma byte_shl_ge k j x : 0 <= j <= k -> byte_at k (Z.shiftl x j) = byte_at (k - j) x.
Proof. intros. unfold byte_at. now rewrite Z.shiftr_shiftl_r by lia. Qed.
Lemma lxor_byte a b : 0 <= a < 256 -> 0 <= b < 256 -> 0 <= a ^^ b < 256.
Proof.
  intros Ha Hb. rewrite <- (land_byte a Ha), <- (land_byte b Hb), <- land_lxor. change 255 with (Z.ones 8). rewrite Z.land_ones by lia. apply Z.mod_pos_bound. lia.
Qed.

Definition wb (w : Z) : list Z := [byte_at 24 w; byte_at 16 w; byte_at 8 w; byte_at 0 w].
Lemma wb_lxor a b : wb (a ^^ b) = xor_bytes (wb a) (wb b).
Proof. unfold wb. cbn [xor_bytes]. now rewrite !byte_lxor. Qed.
Ltac shl := rewrite ?byte_shl_ge by lia; rewrite ?byte_shl_lt by lia; cbn [Z.sub Z.add Z.opp Z.pos_sub Pos.pred_double Pos.add];
  rewrite ?byte_small by assumption; rewrite ?byte_high by (assumption || lia).
Lemma wb_compact b0 b1 b2 b3 : is_byte b0 -> is_byte b1 -> is_byte b2 -> is_byte b3 -> wb (compact_word b0 b1 b2 b3) = [b0; b1; b2; b3].
Proof.
  unfold is_byte. intros. unfold wb, compact_word. rewrite !byte_lor.
  rewrite (byte_shl_ge 24 24), (byte_shl_ge 24 16), (byte_shl_ge 24 8), (byte_shl_lt 16 24), (byte_shl_ge 16 16), (byte_shl_ge 16 8),
    (byte_shl_lt 8 24), (byte_shl_lt 8 16), (byte_shl_ge 8 8), (byte_shl_lt 0 24), (byte_shl_lt 0 16), (byte_shl_lt 0 8) by lia.
  change (24 - 24) with 0. change (16 - 16) with 0. change (8 - 8) with 0. rewrite !byte_small by assumption.
  rewrite !byte_high by (assumption || lia). now rewrite ?Z.lor_0_r, ?Z.lor_0_l.
Qed.
Lemma wb_signed b0 b1 b2 b3 : is_byte b0 -> is_byte b1 -> is_byte b2 -> is_byte b3 -> wb (signed_word b0 b1 b2 b3) = [b0; b1; b2; b3].
Proof.
  unfold is_byte. intros. unfold wb, signed_word. rewrite !byte_is by lia. change (2 ^ 0) with 1. change (2 ^ 8) with 256. change (2 ^ 16) with 65536. change (2 ^ 24) with 16777216.
  change (2 ^ 31) with 2147483648. change (2 ^ 32) with 4294967296.
  destruct (_ <=? _); repeat (f_equal; [lia|]); f_equal; lia.
Qed.

(** ** Tables *)
Lemma sweep (P : Z -> bool) : forallb P all_bytes256 = true -> forall x, 0 <= x < 256 -> P x = true.
Proof.
  intros H x Hx. rewrite forallb_forall in H. apply H. unfold all_bytes256. apply in_map_iff. exists (Z.to_nat x). split; [lia|]. apply in_seq. lia.
Qed.
Definition eqb_list (a b : list Z) : bool := bytes_eqb a b.
Lemma eqb_list_eq a b : eqb_list a b = true -> a = b.
Proof. unfold eqb_list. now destruct (bytes_eqb_spec a b). Qed.
Lemma tab_S_spec : forall x, 0 <= x < 256 -> tab tab_S x = sbox x.
Proof. intros x Hx. apply Z.eqb_eq. revert x Hx. apply sweep. vm_compute. reflexivity. Qed.
Lemma tab_S_byte : forall x, 0 <= x < 256 -> 0 <= tab tab_S x < 256.
Proof.
  intros x Hx. assert ((0 <=? tab tab_S x) && (tab tab_S x <? 256) = true) as H; [|apply andb_true_iff in H; rewrite Z.leb_le, Z.ltb_lt in H; exact H].
  revert x Hx. apply sweep. vm_compute. reflexivity.
Qed.
Ltac table := intros x Hx; rewrite <- ?(tab_S_spec x Hx); apply eqb_list_eq; revert x Hx; apply sweep; vm_compute; reflexivity.
Lemma tab_T1_spec : forall x, 0 <= x < 256 -> wb (tab tab_T1 x) = let y := sbox x in [gmul 2 y; y; y; gmul 3 y]. Proof. table. Qed.
Lemma tab_T2_spec : forall x, 0 <= x < 256 -> wb (tab tab_T2 x) = let y := sbox x in [gmul 3 y; gmul 2 y; y; y]. Proof. table. Qed.
Lemma tab_T3_spec : forall x, 0 <= x < 256 -> wb (tab tab_T3 x) = let y := sbox x in [y; gmul 3 y; gmul 2 y; y]. Proof. table. Qed.
Lemma tab_T4_spec : forall x, 0 <= x < 256 -> wb (tab tab_T4 x) = let y := sbox x in [y; y; gmul 3 y; gmul 2 y]. Proof. table. Qed.
(** The inverse S-box, searched in the table instead of the definition. *)
Lemma find_ext {A} (f g : A -> bool) l : (forall x, In x l -> f x = g x) -> find f l = find g l.
Proof. induction l as [|a l IH]; intro H; [reflexivity|]. cbn. rewrite (H a) by now left. rewrite IH by (intros; apply H; now right). reflexivity. Qed.
Lemma in_bytes x : In x all_bytes256 <-> 0 <= x < 256.
Proof.
  unfold all_bytes256. rewrite in_map_iff. split.
  - intros (n & <- & H). apply in_seq in H. lia.
  - intro. exists (Z.to_nat x). split; [lia|]. apply in_seq. lia.
Qed.
Lemma inv_sbox_tab y : inv_sbox y = match find (fun x => tab tab_S x =? y) all_bytes256 with Some x => x | None => 0 end.
Proof.
  unfold inv_sbox. rewrite (find_ext _ (fun x => tab tab_S x =? y)); [reflexivity|].
  intros x Hx. now rewrite tab_S_spec by now apply in_bytes.
Qed.
Lemma tab_Si_spec : forall x, 0 <= x < 256 -> tab tab_Si x = inv_sbox x.
Proof. intros x Hx. rewrite inv_sbox_tab. apply Z.eqb_eq. revert x Hx. apply sweep. vm_compute. reflexivity. Qed.
Lemma tab_Si_byte : forall x, 0 <= x < 256 -> 0 <= tab tab_Si x < 256.
Proof.
  intros x Hx. assert ((0 <=? tab tab_Si x) && (tab tab_Si x <? 256) = true) as H; [|apply andb_true_iff in H; rewrite Z.leb_le, Z.ltb_lt in H; exact H].
  revert x Hx. apply sweep. vm_compute. reflexivity.
Qed.
Lemma sbox_byte x : 0 <= x < 256 -> 0 <= sbox x < 256.
Proof. intro. rewrite <- tab_S_spec by easy. now apply tab_S_byte. Qed.
Lemma inv_sbox_byte x : 0 <= x < 256 -> 0 <= inv_sbox x < 256.
Proof. intro. rewrite <- tab_Si_spec by easy. now apply tab_Si_byte. Qed.
Lemma inv_sbox_sbox x : 0 <= x < 256 -> inv_sbox (sbox x) = x.
Proof.
  intro Hx. rewrite <- tab_S_spec, <- tab_Si_spec by (try apply tab_S_byte; easy). apply Z.eqb_eq. revert x Hx. apply sweep. vm_compute. reflexivity.
Qed.
Lemma sbox_inv_sbox x : 0 <= x < 256 -> sbox (inv_sbox x) = x.
Proof.
  intro Hx. rewrite <- tab_Si_spec, <- tab_S_spec by (try apply tab_Si_byte; easy). apply Z.eqb_eq. revert x Hx. apply sweep. vm_compute. reflexivity.
Qed.
Ltac itable := intros x Hx; rewrite <- ?(tab_Si_spec x Hx); apply eqb_list_eq; revert x Hx; apply sweep; vm_compute; reflexivity.
Lemma tab_T5_spec : forall x, 0 <= x < 256 -> wb (tab tab_T5 x) = let y := inv_sbox x in [gmul 14 y; gmul 9 y; gmul 13 y; gmul 11 y]. Proof. itable. Qed.
Lemma tab_T6_spec : forall x, 0 <= x < 256 -> wb (tab tab_T6 x) = let y := inv_sbox x in [gmul 11 y; gmul 14 y; gmul 9 y; gmul 13 y]. Proof. itable. Qed.
Lemma tab_T7_spec : forall x, 0 <= x < 256 -> wb (tab tab_T7 x) = let y := inv_sbox x in [gmul 13 y; gmul 11 y; gmul 14 y; gmul 9 y]. Proof. itable. Qed.
Lemma tab_T8_spec : forall x, 0 <= x < 256 -> wb (tab tab_T8 x) = let y := inv_sbox x in [gmul 9 y; gmul 13 y; gmul 11 y; gmul 14 y]. Proof. itable. Qed.
Lemma tab_U1_spec : forall y, 0 <= y < 256 -> wb (tab tab_U1 y) = [gmul 14 y; gmul 9 y; gmul 13 y; gmul 11 y]. Proof. itable. Qed.
Lemma tab_U2_spec : forall y, 0 <= y < 256 -> wb (tab tab_U2 y) = [gmul 11 y; gmul 14 y; gmul 9 y; gmul 13 y]. Proof. itable. Qed.
Lemma tab_U3_spec : forall y, 0 <= y < 256 -> wb (tab tab_U3 y) = [gmul 13 y; gmul 11 y; gmul 14 y; gmul 9 y]. Proof. itable. Qed.
Lemma tab_U4_spec : forall y, 0 <= y < 256 -> wb (tab tab_U4 y) = [gmul 9 y; gmul 13 y; gmul 11 y; gmul 14 y]. Proof. itable. Qed.

(** ** Rounds *)
Definition wbs (t : list Z) : list Z := flat_map wb t.
Lemma gmul_1 y : gmul 1 y = y.
Proof. unfold gmul. cbn -[xtime]. now rewrite !Z.lxor_0_r. Qed.
#[local] Opaque gmul sbox inv_sbox tab Z.land Z.shiftr byte_at.
Lemma enc_round t0 t1 t2 t3 k0 k1 k2 k3 :
  wbs (table_round tab_T1 tab_T2 tab_T3 tab_T4 1 2 3 [k0; k1; k2; k3] [t0; t1; t2; t3]) =
  add_round_key (wbs [k0; k1; k2; k3]) (mix_columns (shift_rows (sub_bytes (wbs [t0; t1; t2; t3])))).
Proof.
  unfold table_round, wbs. cbn [map flat_map pick Nat.add nth Nat.modulo Nat.divmod fst snd Nat.sub app].
  unfold pick. cbn [Nat.modulo Nat.divmod fst snd Nat.sub nth].
  rewrite !wb_lxor, !tab_T1_spec, !tab_T2_spec, !tab_T3_spec, !tab_T4_spec by apply byte_range.
  cbn -[Z.lxor]. rewrite !gmul_1, !Z.lxor_0_r, !Z.lxor_assoc.
  reflexivity.
Qed.
Lemma dec_round t0 t1 t2 t3 k0 k1 k2 k3 :
  wbs (table_round tab_T5 tab_T6 tab_T7 tab_T8 3 2 1 [k0; k1; k2; k3] [t0; t1; t2; t3]) =
  add_round_key (wbs [k0; k1; k2; k3]) (inv_mix_columns (inv_sub_bytes (inv_shift_rows (wbs [t0; t1; t2; t3])))).
Proof.
  unfold table_round, wbs. cbn [map flat_map Nat.add].
  unfold pick. cbn [Nat.modulo Nat.divmod fst snd Nat.sub nth].
  rewrite !wb_lxor, !tab_T5_spec, !tab_T6_spec, !tab_T7_spec, !tab_T8_spec by apply byte_range.
  cbn -[Z.lxor]. rewrite !Z.lxor_0_r, !Z.lxor_assoc. reflexivity.
Qed.
Lemma last_byte T k x tt : 0 <= tab T x < 256 -> Z.land (tab T x ^^ Z.shiftr tt k) 255 = tab T x ^^ byte_at k tt.
Proof. intro. now rewrite land_lxor, land_byte. Qed.
Lemma last_byte0 T x tt : 0 <= tab T x < 256 -> Z.land (tab T x ^^ tt) 255 = tab T x ^^ byte_at 0 tt.
Proof. intro. rewrite <- (last_byte T 0) by easy. now rewrite Z.shiftr_0_r. Qed.
Lemma enc_last t0 t1 t2 t3 k0 k1 k2 k3 :
  last_round tab_S 1 2 3 [k0; k1; k2; k3] [t0; t1; t2; t3] =
  add_round_key (wbs [k0; k1; k2; k3]) (shift_rows (sub_bytes (wbs [t0; t1; t2; t3]))).
Proof.
  unfold last_round, wbs. cbn [map flat_map Nat.add]. unfold pick. cbn [Nat.modulo Nat.divmod fst snd Nat.sub nth].
  rewrite !last_byte, !last_byte0 by apply tab_S_byte, byte_range.
  rewrite !tab_S_spec by apply byte_range. cbn -[Z.lxor]. reflexivity.
Qed.
Lemma dec_last t0 t1 t2 t3 k0 k1 k2 k3 :
  last_round tab_Si 3 2 1 [k0; k1; k2; k3] [t0; t1; t2; t3] =
  add_round_key (wbs [k0; k1; k2; k3]) (inv_sub_bytes (inv_shift_rows (wbs [t0; t1; t2; t3]))).
Proof.
  unfold last_round, wbs. cbn [map flat_map Nat.add]. unfold pick. cbn [Nat.modulo Nat.divmod fst snd Nat.sub nth].
  rewrite !last_byte, !last_byte0 by apply tab_Si_byte, byte_range.
  rewrite !tab_Si_spec by apply byte_range. cbn -[Z.lxor]. reflexivity.
Qed.
Lemma inv_key_word_spec w0 w1 w2 w3 :
  wbs (map inv_key_word [w0; w1; w2; w3]) = inv_mix_columns (wbs [w0; w1; w2; w3]).
Proof.
  unfold wbs, inv_key_word. cbn [map flat_map].
  rewrite !wb_lxor, !tab_U1_spec, !tab_U2_spec, !tab_U3_spec, !tab_U4_spec by apply byte_range.
  cbn -[Z.lxor]. rewrite !Z.lxor_0_r, !Z.lxor_assoc. reflexivity.
Qed.

(** ** Key schedule *)
Lemma wb_shl24 s : 0 <= s < 256 -> wb (Z.shiftl s 24) = [s; 0; 0; 0].
Proof. intro. unfold wb. rewrite byte_shl_ge, !byte_shl_lt by lia. now rewrite byte_small. Qed.
Lemma wb_shl16 s : 0 <= s < 256 -> wb (Z.shiftl s 16) = [0; s; 0; 0].
Proof. intro. unfold wb. rewrite !byte_shl_ge, !byte_shl_lt by lia. rewrite byte_small, byte_high by lia. reflexivity. Qed.
Lemma wb_shl8 s : 0 <= s < 256 -> wb (Z.shiftl s 8) = [0; 0; s; 0].
Proof. intro. unfold wb. rewrite !byte_shl_ge, !byte_shl_lt by lia. rewrite byte_small, !byte_high by lia. reflexivity. Qed.
Lemma wb_small s : 0 <= s < 256 -> wb s = [0; 0; 0; s].
Proof. intro. unfold wb. rewrite byte_small, !byte_high by lia. reflexivity. Qed.
Lemma rot_sub_spec tt rc : 0 <= rc < 256 -> wb (rot_sub tt rc) = xor_bytes (sub_word_ (rot_word (wb tt))) [rc; 0; 0; 0].
Proof.
  intro. unfold rot_sub. rewrite !wb_lxor, !wb_shl24, wb_shl16, wb_shl8, wb_small by (easy || apply tab_S_byte, byte_range).
  rewrite !tab_S_spec by apply byte_range. cbn -[Z.lxor]. now rewrite ?Z.lxor_0_r, ?Z.lxor_0_l.
Qed.
Lemma sub_word_spec tt : wb (sub_word tt) = sub_word_ (wb tt).
Proof.
  unfold sub_word. rewrite !wb_lxor, !wb_shl24, wb_shl16, wb_shl8, wb_small by (apply tab_S_byte, byte_range).
  rewrite !tab_S_spec by apply byte_range. cbn -[Z.lxor]. now rewrite ?Z.lxor_0_r, ?Z.lxor_0_l.
Qed.
Lemma tab_rcon_spec n : (n < 30)%nat -> nth n tab_rcon 0 = x_power n /\ 0 <= x_power n < 256.
Proof.
  intro H. assert (forallb (fun n => (nth n tab_rcon 0 =? x_power n) && (0 <=? x_power n) && (x_power n <? 256)) (seq 0 30) = true) as E by (vm_compute; reflexivity).
  rewrite forallb_forall in E. specialize (E n). rewrite in_seq in E. specialize (E ltac:(lia)).
  rewrite !andb_true_iff, Z.eqb_eq, Z.leb_le, Z.ltb_lt in E. easy.
Qed.
(** The next word, from the last Nk ones. *)
Definition temp_of (Nk j q : nat) (temp : list Z) : list Z :=
  if Nat.eqb j 0 then xor_bytes (sub_word_ (rot_word temp)) [x_power q; 0; 0; 0]
  else if (Nat.ltb 6 Nk && Nat.eqb j 4)%bool then sub_word_ temp else temp.
Lemma next_word_window Nk q j pre x mid :
  (0 < Nk)%nat -> List.length (x :: mid) = Nk -> List.length pre = (Nk * q + j)%nat -> (j < Nk)%nat ->
  next_word Nk (pre ++ x :: mid) = xor_bytes x (temp_of Nk j q (last (x :: mid) [])).
Proof.
  intros H0 Hl Hp Hj. unfold next_word. rewrite app_length, Hl, Hp.
  replace (Nk * q + j + Nk)%nat with (j + (q + 1) * Nk)%nat by lia.
  rewrite Nat.mod_add, Nat.mod_small, Nat.div_add, Nat.div_small by lia. cbn [Nat.add].
  replace (nth (j + (q + 1) * Nk - 1) (pre ++ x :: mid) []) with (last (x :: mid) []).
  2:{ rewrite app_nth2 by nia. replace (j + (q + 1) * Nk - 1 - List.length pre)%nat with (List.length (x :: mid) - 1)%nat by nia.
      generalize (x :: mid). intro l. induction l as [|a l IH]; [reflexivity|]. destruct l as [|b l]; [reflexivity|].
      change (last (a :: b :: l) []) with (last (b :: l) []). rewrite IH. cbn [List.length]. rewrite !Nat.sub_succ, !Nat.sub_0_r. reflexivity. }
  replace (nth (j + (q + 1) * Nk - Nk) (pre ++ x :: mid) []) with x.
  2:{ rewrite app_nth2 by nia. replace (j + (q + 1) * Nk - Nk - List.length pre)%nat with 0%nat by nia. reflexivity. }
  unfold temp_of, rcon_word. rewrite Nat.add_sub. reflexivity.
Qed.
Lemma expand_step n Nk q j pre x mid :
  (0 < Nk)%nat -> List.length (x :: mid) = Nk -> List.length pre = (Nk * q + j)%nat -> (j < Nk)%nat ->
  expand_words (S n) Nk (pre ++ x :: mid) =
  expand_words n Nk ((pre ++ [x]) ++ mid ++ [xor_bytes x (temp_of Nk j q (last (x :: mid) []))]).
Proof. intros. cbn [expand_words]. rewrite (next_word_window Nk q j) by easy. rewrite <- !app_assoc. reflexivity. Qed.
Lemma xor_bytes_wb a b : xor_bytes (wb a) (wb b) = wb (a ^^ b).
Proof. now rewrite wb_lxor. Qed.
(** One turn of the loop is Nk steps of the standard's, or fewer at the end. *)
Lemma block4 q tk pre j :
  List.length tk = 4%nat -> List.length pre = (4 * q)%nat -> (q < 30)%nat -> (j <= 4)%nat ->
  expand_words j 4 (pre ++ map wb tk) = pre ++ map wb (tk ++ firstn j (expand_block q tk)).
Proof.
  intros Ht Hp Hq Hj. destruct tk as [|a [|b [|c [|d [|]]]]]; try discriminate Ht. clear Ht.
  destruct (tab_rcon_spec q Hq) as [Hr Hb].
  unfold expand_block. cbn [List.length Nat.eqb negb last map]. rewrite Hr.
  pose proof (rot_sub_spec d (x_power q) Hb) as R. set (y0 := a ^^ rot_sub d (x_power q)).
  assert (wb y0 = xor_bytes (wb a) (xor_bytes (sub_word_ (rot_word (wb d))) [x_power q; 0; 0; 0])) as Y by (unfold y0; now rewrite wb_lxor, R).
  cbn [xor_chain firstn skipn app last].
  destruct j as [|j]; [reflexivity|].
  rewrite (expand_step j 4 q 0) by (cbn [List.length]; lia). cbn [last temp_of Nat.eqb]. rewrite <- Y. cbn [app].
  destruct j as [|j]; [cbn [expand_words firstn map app]; now rewrite <- ?app_assoc|].
  rewrite (expand_step j 4 q 1) by (rewrite ?app_length; cbn [List.length]; lia). cbn [last app]. cbv [temp_of Nat.eqb Nat.ltb Nat.leb andb]. rewrite xor_bytes_wb.
  destruct j as [|j]; [cbn [expand_words firstn map app]; now rewrite <- ?app_assoc|].
  rewrite (expand_step j 4 q 2) by (rewrite ?app_length; cbn [List.length]; lia). cbn [last app]. cbv [temp_of Nat.eqb Nat.ltb Nat.leb andb]. rewrite xor_bytes_wb.
  destruct j as [|j]; [cbn [expand_words firstn map app]; now rewrite <- ?app_assoc|].
  rewrite (expand_step j 4 q 3) by (rewrite ?app_length; cbn [List.length]; lia). cbn [last app]. cbv [temp_of Nat.eqb Nat.ltb Nat.leb andb]. rewrite xor_bytes_wb.
  destruct j as [|j]; [|lia]. cbn [expand_words firstn map app]. now rewrite <- !app_assoc.
Qed.
Lemma block6 q tk pre j :
  List.length tk = 6%nat -> List.length pre = (6 * q)%nat -> (q < 30)%nat -> (j <= 6)%nat ->
  expand_words j 6 (pre ++ map wb tk) = pre ++ map wb (tk ++ firstn j (expand_block q tk)).
Proof.
  intros Ht Hp Hq Hj. destruct tk as [|a [|b [|c [|d [|e [|f [|]]]]]]]; try discriminate Ht. clear Ht.
  destruct (tab_rcon_spec q Hq) as [Hr Hb].
  unfold expand_block. cbn [List.length Nat.eqb negb last map]. rewrite Hr.
  pose proof (rot_sub_spec f (x_power q) Hb) as R. set (y0 := a ^^ rot_sub f (x_power q)).
  assert (wb y0 = xor_bytes (wb a) (xor_bytes (sub_word_ (rot_word (wb f))) [x_power q; 0; 0; 0])) as Y by (unfold y0; now rewrite wb_lxor, R).
  cbn [xor_chain firstn skipn app last].
  destruct j as [|j]; [reflexivity|].
  rewrite (expand_step j 6 q 0) by (cbn [List.length]; lia). cbn [last temp_of Nat.eqb]. rewrite <- Y. cbn [app].
  destruct j as [|j]; [cbn [expand_words firstn map app]; now rewrite <- ?app_assoc|].
  rewrite (expand_step j 6 q 1) by (rewrite ?app_length; cbn [List.length]; lia). cbn [last app]. cbv [temp_of Nat.eqb Nat.ltb Nat.leb andb]. rewrite xor_bytes_wb.
  destruct j as [|j]; [cbn [expand_words firstn map app]; now rewrite <- ?app_assoc|].
  rewrite (expand_step j 6 q 2) by (rewrite ?app_length; cbn [List.length]; lia). cbn [last app]. cbv [temp_of Nat.eqb Nat.ltb Nat.leb andb]. rewrite xor_bytes_wb.
  destruct j as [|j]; [cbn [expand_words firstn map app]; now rewrite <- ?app_assoc|].
  rewrite (expand_step j 6 q 3) by (rewrite ?app_length; cbn [List.length]; lia). cbn [last app]. cbv [temp_of Nat.eqb Nat.ltb Nat.leb andb]. rewrite xor_bytes_wb.
  destruct j as [|j]; [cbn [expand_words firstn map app]; now rewrite <- ?app_assoc|].
  rewrite (expand_step j 6 q 4) by (rewrite ?app_length; cbn [List.length]; lia). cbn [last app]. cbv [temp_of Nat.eqb Nat.ltb Nat.leb andb]. rewrite xor_bytes_wb.
  destruct j as [|j]; [cbn [expand_words firstn map app]; now rewrite <- ?app_assoc|].
  rewrite (expand_step j 6 q 5) by (rewrite ?app_length; cbn [List.length]; lia). cbn [last app]. cbv [temp_of Nat.eqb Nat.ltb Nat.leb andb]. rewrite xor_bytes_wb.
  destruct j as [|j]; [|lia]. cbn [expand_words firstn map app]. now rewrite <- !app_assoc.
Qed.
Lemma block8 q tk pre j :
  List.length tk = 8%nat -> List.length pre = (8 * q)%nat -> (q < 30)%nat -> (j <= 8)%nat ->
  expand_words j 8 (pre ++ map wb tk) = pre ++ map wb (tk ++ firstn j (expand_block q tk)).
Proof.
  intros Ht Hp Hq Hj. destruct tk as [|a [|b [|c [|d [|e [|f [|g [|h [|]]]]]]]]]; try discriminate Ht. clear Ht.
  destruct (tab_rcon_spec q Hq) as [Hr Hb].
  unfold expand_block. cbn [List.length Nat.eqb negb last map]. rewrite Hr.
  pose proof (rot_sub_spec h (x_power q) Hb) as R. set (y0 := a ^^ rot_sub h (x_power q)).
  assert (wb y0 = xor_bytes (wb a) (xor_bytes (sub_word_ (rot_word (wb h))) [x_power q; 0; 0; 0])) as Y by (unfold y0; now rewrite wb_lxor, R).
  cbn [xor_chain firstn skipn app last].
  destruct j as [|j]; [reflexivity|].
  rewrite (expand_step j 8 q 0) by (cbn [List.length]; lia). cbn [last temp_of Nat.eqb]. rewrite <- Y. cbn [app].
  destruct j as [|j]; [cbn [expand_words firstn map app]; now rewrite <- ?app_assoc|].
  rewrite (expand_step j 8 q 1) by (rewrite ?app_length; cbn [List.length]; lia). cbn [last app]. cbv [temp_of Nat.eqb Nat.ltb Nat.leb andb]. rewrite xor_bytes_wb.
  destruct j as [|j]; [cbn [expand_words firstn map app]; now rewrite <- ?app_assoc|].
  rewrite (expand_step j 8 q 2) by (rewrite ?app_length; cbn [List.length]; lia). cbn [last app]. cbv [temp_of Nat.eqb Nat.ltb Nat.leb andb]. rewrite xor_bytes_wb.
  destruct j as [|j]; [cbn [expand_words firstn map app]; now rewrite <- ?app_assoc|].
  rewrite (expand_step j 8 q 3) by (rewrite ?app_length; cbn [List.length]; lia). cbn [last app]. cbv [temp_of Nat.eqb Nat.ltb Nat.leb andb]. rewrite xor_bytes_wb.
  destruct j as [|j]; [cbn [expand_words firstn map app]; now rewrite <- ?app_assoc|].
  rewrite (expand_step j 8 q 4) by (rewrite ?app_length; cbn [List.length]; lia). cbn [last app]. cbv [temp_of Nat.eqb Nat.ltb Nat.leb andb]. rewrite <- sub_word_spec, xor_bytes_wb.
  destruct j as [|j]; [cbn [expand_words firstn map app]; now rewrite <- ?app_assoc|].
  rewrite (expand_step j 8 q 5) by (rewrite ?app_length; cbn [List.length]; lia). cbn [last app]. cbv [temp_of Nat.eqb Nat.ltb Nat.leb andb]. rewrite xor_bytes_wb.
  destruct j as [|j]; [cbn [expand_words firstn map app]; now rewrite <- ?app_assoc|].
  rewrite (expand_step j 8 q 6) by (rewrite ?app_length; cbn [List.length]; lia). cbn [last app]. cbv [temp_of Nat.eqb Nat.ltb Nat.leb andb]. rewrite xor_bytes_wb.
  destruct j as [|j]; [cbn [expand_words firstn map app]; now rewrite <- ?app_assoc|].
  rewrite (expand_step j 8 q 7) by (rewrite ?app_length; cbn [List.length]; lia). cbn [last app]. cbv [temp_of Nat.eqb Nat.ltb Nat.leb andb]. rewrite xor_bytes_wb.
  destruct j as [|j]; [|lia]. cbn [expand_words firstn map app]. now rewrite <- !app_assoc.
Qed.
Lemma xor_chain_length p l : List.length (xor_chain p l) = List.length l.
Proof. revert p; induction l; intro p; cbn; auto. Qed.
Lemma expand_block_length q tk : List.length (expand_block q tk) = List.length tk.
Proof.
  unfold expand_block. destruct tk as [|x r]; [reflexivity|]. destruct (Nat.eqb_spec (List.length (x :: r)) 8) as [E|E]; cbn [negb].
  - destruct r as [|a [|b [|c [|d r]]]]; try discriminate E. cbn. now rewrite xor_chain_length.
  - cbn. now rewrite xor_chain_length.
Qed.
Lemma expand_words_add a b Nk w : expand_words (a + b) Nk w = expand_words b Nk (expand_words a Nk w).
Proof. revert w; induction a; intro w; cbn; auto. Qed.
Lemma expand_loop_spec Nk (HN : Nk = 4%nat \/ Nk = 6%nat \/ Nk = 8%nat) : forall fuel q todo tk pre,
  List.length tk = Nk -> List.length pre = (Nk * q)%nat -> (todo <= fuel)%nat -> (todo <= Nk * (30 - q))%nat ->
  expand_words todo Nk (pre ++ map wb tk) = pre ++ map wb (tk ++ expand_loop fuel q todo tk).
Proof.
  assert (forall q tk pre j, List.length tk = Nk -> List.length pre = (Nk * q)%nat -> (q < 30)%nat -> (j <= Nk)%nat ->
    expand_words j Nk (pre ++ map wb tk) = pre ++ map wb (tk ++ firstn j (expand_block q tk))) as B.
  { destruct HN as [-> | [-> | ->]]; [apply block4 | apply block6 | apply block8]. }
  assert (0 < Nk)%nat as H0 by lia.
  induction fuel as [|fuel IH]; intros q todo tk pre Ht Hp Hf Hq.
  - assert (todo = 0)%nat as -> by lia. cbn. now rewrite app_nil_r.
  - destruct todo as [|m]; [cbn; now rewrite app_nil_r|]. set (todo := S m) in *.
    assert (q < 30)%nat as Hq' by (destruct (Nat.lt_ge_cases q 30) as [|G]; [easy|]; replace (30 - q)%nat with 0%nat in Hq by lia; lia).
    change (expand_loop (S fuel) q todo tk) with (firstn todo (expand_block q tk) ++ expand_loop fuel (S q) (todo - List.length (expand_block q tk)) (expand_block q tk)).
    rewrite expand_block_length, Ht. destruct (Nat.le_gt_cases todo Nk) as [Hle|Hgt].
    + replace (todo - Nk)%nat with 0%nat by lia. rewrite (B q) by easy.
      replace (expand_loop fuel (S q) 0 (expand_block q tk)) with (@nil Z) by (destruct fuel; reflexivity). now rewrite app_nil_r.
    + replace todo with (Nk + (todo - Nk))%nat at 1 by lia. rewrite expand_words_add, (B q) by easy.
      rewrite (firstn_all2 (n := Nk)) by (rewrite expand_block_length; lia). rewrite map_app, app_assoc.
      rewrite (IH (S q)); [| rewrite expand_block_length; lia | rewrite app_length, map_length; lia | lia | nia ].
      rewrite (firstn_all2 (n := todo)) by (rewrite expand_block_length; lia).
      rewrite !map_app, !app_assoc. reflexivity.
Qed.
Lemma split_words_signed key : Forall is_byte key -> forall n, List.length key = (4 * n)%nat -> split_words key = map wb (words_of signed_word key) /\ List.length (words_of signed_word key) = n.
Proof.
  intros H n. revert key H. induction n as [|n IH]; intros key H L.
  - destruct key; [now split|]. cbn in L; lia.
  - destruct key as [|a [|b [|c [|d r]]]]; try (cbn in L; lia). inversion H as [|? ? Ha H1]; subst. inversion H1 as [|? ? Hb H2]; subst.
    inversion H2 as [|? ? Hc H3]; subst. inversion H3 as [|? ? Hd H4]; subst. cbn [split_words words_of map].
    destruct (IH r H4) as [E F]; [cbn in L; lia|]. rewrite wb_signed by easy. rewrite E. split; [reflexivity|]. cbn. now rewrite F.
Qed.
Definition key_ok (key : bytes) : Prop := Forall is_byte key /\ (List.length key = 16%nat \/ List.length key = 24%nat \/ List.length key = 32%nat).
(** The words computed by the constructor are those of the standard. *)
Lemma schedule_spec key (H : key_ok key) :
  let tk := words_of signed_word key in
  let rounds := rounds_of (zlen key) in
  let count := ((rounds + 1) * 4)%nat in
  let Ke := tk ++ expand_loop count 0 (count - List.length tk) tk in
  map wb Ke = key_expansion key /\ rounds = (List.length key / 4 + 6)%nat /\ List.length Ke = count.
Proof.
  destruct H as [Hb Hl]. intros tk rounds count Ke.
  set (Nk := (List.length key / 4)%nat).
  assert (Nk = 4%nat \/ Nk = 6%nat \/ Nk = 8%nat) as HN by (unfold Nk; destruct Hl as [-> | [-> | ->]]; [left | right; left | right; right]; reflexivity).
  assert (List.length key = (4 * Nk)%nat) as Hk by (unfold Nk; destruct Hl as [-> | [-> | ->]]; reflexivity).
  destruct (split_words_signed key Hb Nk Hk) as [Hs Ht]. fold tk in Hs, Ht.
  assert (rounds = (Nk + 6)%nat) as HR.
  { unfold rounds, rounds_of, zlen. rewrite Hk. destruct HN as [-> | [-> | ->]]; reflexivity. }
  assert (map wb Ke = key_expansion key) as E.
  { unfold Ke, key_expansion. fold Nk. rewrite Hs, Ht. pose proof (expand_loop_spec Nk HN count 0 (count - Nk) tk []) as P. cbn [app] in P.
    replace (4 * (Nk + 7) - Nk)%nat with (count - Nk)%nat by (unfold count; lia). symmetry. apply P; [easy | cbn; lia | lia | unfold count; rewrite HR; lia]. }
  split; [exact E|]. split; [exact HR|].
  rewrite <- (map_length wb), E. unfold key_expansion. fold Nk.
  assert (forall n w, List.length (expand_words n Nk w) = (n + List.length w)%nat) as L.
  { induction n as [|n IH]; intro w; cbn [expand_words]; [reflexivity|]. rewrite IH, app_length. cbn. lia. }
  rewrite L, Hs, map_length, Ht. unfold count. lia.
Qed.
Lemma row_spec K r : wbs (row K r) = round_key (map wb K) r.
Proof. unfold row, round_key, wbs. now rewrite skipn_map, firstn_map, flat_map_concat_map. Qed.
Lemma row_four K r : (4 * r + 4 <= List.length K)%nat -> exists a b c d, row K r = [a; b; c; d].
Proof.
  intro H. assert (List.length (row K r) = 4%nat) as L by (unfold row; rewrite firstn_length, skipn_length; lia).
  destruct (row K r) as [|a [|b [|c [|d [|]]]]]; try discriminate L. now exists a, b, c, d.
Qed.

(** ** The block cipher *)
Lemma xor_zip_spec : forall a b, xor_zip a b = xor_bytes a b.
Proof. induction a as [|x a IH]; intros [|y b]; cbn; [easy..|]. now rewrite IH. Qed.
Definition block_ok (b : bytes) : Prop := Forall is_byte b /\ List.length b = 16%nat.
Lemma load_spec block K : block_ok block -> (exists a b c d, K = [a; b; c; d]) ->
  wbs (xor_zip (words_of compact_word block) K) = add_round_key (wbs K) block /\
  exists a b c d, xor_zip (words_of compact_word block) K = [a; b; c; d].
Proof.
  intros [Hb Hl] (k0 & k1 & k2 & k3 & ->).
  do 16 (destruct block as [|? block]; [discriminate Hl|]). destruct block; [|discriminate Hl].
  repeat match goal with H : Forall is_byte (_ :: _) |- _ => inversion H; clear H; subst end.
  split; [|cbn; eauto]. cbn [words_of xor_zip wbs flat_map]. rewrite !wb_lxor, !wb_compact by assumption. reflexivity.
Qed.
Lemma table_round_four A B C D s1 s2 s3 k t : exists a b c d, table_round A B C D s1 s2 s3 k t = [a; b; c; d].
Proof. unfold table_round. cbn [map]. eauto. Qed.
Lemma fold_rounds {S T} (f : T -> nat -> T) (g : S -> nat -> S) (R : T -> S -> Prop) l :
  (forall r t s, In r l -> R t s -> R (f t r) (g s r)) -> forall t s, R t s -> R (fold_left f l t) (fold_left g l s).
Proof. induction l as [|a l IH]; intros H t s HR; [easy|]. cbn. apply IH; [intros; apply H; [now right|easy]|]. apply H; [now left|easy]. Qed.
Definition four (t : list Z) : Prop := exists a b c d, t = [a; b; c; d].
Theorem encrypt_spec key a block : key_ok key -> block_ok block -> forall py2, aes_init py2 key = Ok a -> aes_encrypt a block = Ok (cipher key block).
Proof.
  intros Hk Hb py2 H. unfold aes_init in H. destruct (negb _); [discriminate|]. destruct (_ && _)%bool; [discriminate|].
  pose proof (schedule_spec key Hk) as S. cbv zeta in S. cbv zeta in H.
  set (Ke := _ ++ _) in *. destruct S as (E & HR & L). injection H as <-. unfold aes_encrypt. cbn [a_rounds a_Ke].
  assert (zlen block = 16) as Z16 by (unfold zlen; destruct Hb as [_ ->]; reflexivity). rewrite Z16. cbn [Z.eqb Pos.eqb negb].
  unfold cipher. cbv zeta. rewrite <- E, <- HR. set (rounds := rounds_of (zlen key)) in *.
  assert (0 < rounds)%nat as R0 by lia.
  destruct (load_spec block (row Ke 0) Hb) as [E0 F0]; [apply row_four; lia|].
  set (t0 := xor_zip (words_of compact_word block) (row Ke 0)) in *.
  pose proof (fold_rounds (fun t r => table_round tab_T1 tab_T2 tab_T3 tab_T4 1 2 3 (row Ke r) t)
    (fun s r => add_round_key (round_key (map wb Ke) r) (mix_columns (shift_rows (sub_bytes s))))
    (fun t s => four t /\ wbs t = s) (seq 1 (rounds - 1))) as P.
  specialize (P ltac:(intros r t s Hr [(u0 & u1 & u2 & u3 & ->) <-]; apply in_seq in Hr; destruct (row_four Ke r) as (k0 & k1 & k2 & k3 & Ek); [lia|];
    split; [apply table_round_four|]; rewrite <- row_spec, Ek; apply enc_round)).
  specialize (P t0 (add_round_key (round_key (map wb Ke) 0) block)). rewrite <- row_spec in P. specialize (P (conj F0 E0)).
  destruct P as [(u0 & u1 & u2 & u3 & Eu) P2]. rewrite <- !row_spec, <- P2, Eu.
  destruct (row_four Ke rounds) as (k0 & k1 & k2 & k3 & Ek); [lia|]. rewrite Ek. now rewrite enc_last.
Qed.

(** ** The inverse cipher *)
(** Multiplication by a constant is linear. *)
Lemma xtime_lin a b : 0 <= a < 256 -> 0 <= b < 256 -> xtime (a ^^ b) = xtime a ^^ xtime b.
Proof.
  intros Ha Hb.
  assert (forall x, 0 <= x < 256 -> xtime x = Z.shiftl x 1 ^^ (if Z.testbit x 7 then 0x11b else 0)) as E.
  { intros x Hx. apply Z.eqb_eq. revert x Hx. apply sweep. vm_compute. reflexivity. }
  rewrite !E by (try apply lxor_byte; easy). rewrite Z.shiftl_lxor, Z.lxor_spec.
  destruct (Z.testbit a 7), (Z.testbit b 7); cbn [xorb]; apply Z.bits_inj'; intros n Hn; rewrite ?Z.lxor_spec, ?Z.bits_0;
    repeat match goal with |- context [Z.testbit ?x n] => destruct (Z.testbit x n) end; reflexivity.
Qed.
Lemma xtime_byte x : 0 <= x < 256 -> 0 <= xtime x < 256.
Proof.
  intros Hx. assert ((0 <=? xtime x) && (xtime x <? 256) = true) as H; [|apply andb_true_iff in H; rewrite Z.leb_le, Z.ltb_lt in H; exact H].
  revert x Hx. apply sweep. vm_compute. reflexivity.
Qed.
#[local] Transparent gmul.
Lemma lxor_4 a b c d : a ^^ b ^^ (c ^^ d) = a ^^ c ^^ (b ^^ d).
Proof. rewrite !Z.lxor_assoc. f_equal. rewrite <- !Z.lxor_assoc. f_equal. apply Z.lxor_comm. Qed.
Lemma gmul_bits_lin n : forall m a b, 0 <= a < 256 -> 0 <= b < 256 -> gmul_bits n m (a ^^ b) = gmul_bits n m a ^^ gmul_bits n m b.
Proof.
  induction n as [|n IH]; intros m a b Ha Hb; [reflexivity|]. cbn [gmul_bits]. rewrite xtime_lin by easy. rewrite IH by now apply xtime_byte.
  destruct (Z.odd m); [apply lxor_4|]. now rewrite !Z.lxor_0_l.
Qed.
Lemma gmul_lin m a b : 0 <= a < 256 -> 0 <= b < 256 -> gmul m (a ^^ b) = gmul m a ^^ gmul m b.
Proof. apply gmul_bits_lin. Qed.
Lemma gmul_bits_byte n : forall m a, 0 <= a < 256 -> 0 <= gmul_bits n m a < 256.
Proof.
  induction n as [|n IH]; intros m a Ha; cbn [gmul_bits]; [lia|]. apply lxor_byte; [destruct (Z.odd m); lia|]. apply IH. now apply xtime_byte.
Qed.
Lemma gmul_byte m a : 0 <= a < 256 -> 0 <= gmul m a < 256.
Proof. apply gmul_bits_byte. Qed.
#[local] Opaque gmul.
Ltac fbytes := repeat (apply Forall_cons; [first [assumption | repeat apply lxor_byte; assumption]|]); apply Forall_nil.
(** One column. *)
Definition col (m0 m1 m2 m3 : Z) (a b c d : Z) : list Z :=
  [ gmul m0 a ^^ (gmul m1 b ^^ (gmul m2 c ^^ gmul m3 d)); gmul m3 a ^^ (gmul m0 b ^^ (gmul m1 c ^^ gmul m2 d));
    gmul m2 a ^^ (gmul m3 b ^^ (gmul m0 c ^^ gmul m1 d)); gmul m1 a ^^ (gmul m2 b ^^ (gmul m3 c ^^ gmul m0 d)) ].
Lemma mul_columns_col m0 m1 m2 m3 s0 s1 s2 s3 s4 s5 s6 s7 s8 s9 sa sb sc sd se sf :
  mul_columns [m0; m1; m2; m3] [s0; s1; s2; s3; s4; s5; s6; s7; s8; s9; sa; sb; sc; sd; se; sf] =
  col m0 m1 m2 m3 s0 s1 s2 s3 ++ col m0 m1 m2 m3 s4 s5 s6 s7 ++ col m0 m1 m2 m3 s8 s9 sa sb ++ col m0 m1 m2 m3 sc sd se sf.
Proof. unfold mul_columns, build, at_. cbn -[Z.lxor]. rewrite !Z.lxor_0_r. reflexivity. Qed.
Lemma col_lin m0 m1 m2 m3 a b c d a' b' c' d' :
  Forall is_byte [a; b; c; d] -> Forall is_byte [a'; b'; c'; d'] ->
  col m0 m1 m2 m3 (a ^^ a') (b ^^ b') (c ^^ c') (d ^^ d') = xor_bytes (col m0 m1 m2 m3 a b c d) (col m0 m1 m2 m3 a' b' c' d').
Proof.
  intros H H'. repeat match goal with H : Forall is_byte (_ :: _) |- _ => inversion H; clear H; subst end.
  unfold col. cbn [xor_bytes]. rewrite !gmul_lin by assumption.
  assert (forall p p' q q' r r' s s', p ^^ p' ^^ (q ^^ q' ^^ (r ^^ r' ^^ (s ^^ s'))) = p ^^ (q ^^ (r ^^ s)) ^^ (p' ^^ (q' ^^ (r' ^^ s')))) as X.
  { intros. rewrite (lxor_4 r), (lxor_4 q), (lxor_4 p). reflexivity. }
  now rewrite !X.
Qed.
Lemma inv_mix_lin s k : block_ok s -> block_ok k -> inv_mix_columns (xor_bytes s k) = xor_bytes (inv_mix_columns s) (inv_mix_columns k).
Proof.
  intros [Hs Ls] [Hk Lk].
  do 16 (destruct s as [|? s]; [discriminate Ls|]). destruct s; [|discriminate Ls].
  do 16 (destruct k as [|? k]; [discriminate Lk|]). destruct k; [|discriminate Lk]. clear Ls Lk.
  repeat match goal with H : Forall is_byte (_ :: _) |- _ => inversion H; clear H; subst end.
  cbn [xor_bytes]. unfold inv_mix_columns. rewrite !mul_columns_col. rewrite !col_lin by fbytes. reflexivity.
Qed.
(** The two matrices are inverse: by linearity it is enough to look at columns
    with one nonzero byte. *)
Lemma col_split m0 m1 m2 m3 a b c d : Forall is_byte [a; b; c; d] ->
  col m0 m1 m2 m3 a b c d = xor_bytes (col m0 m1 m2 m3 a 0 0 0) (xor_bytes (col m0 m1 m2 m3 0 b 0 0) (xor_bytes (col m0 m1 m2 m3 0 0 c 0) (col m0 m1 m2 m3 0 0 0 d))).
Proof.
  intro H. repeat match goal with H : Forall is_byte (_ :: _) |- _ => inversion H; clear H; subst end.
  assert (is_byte 0) by (unfold is_byte; lia).
  rewrite <- (col_lin _ _ _ _ 0 0 c 0), <- (col_lin _ _ _ _ 0 b 0 0), <- (col_lin _ _ _ _ a 0 0 0) by fbytes.
  now rewrite ?Z.lxor_0_l, ?Z.lxor_0_r.
Qed.
Definition on_col (f : Z -> Z -> Z -> Z -> list Z) (l : list Z) : list Z := match l with [a; b; c; d] => f a b c d | _ => [] end.
Lemma col_inverse m0 m1 m2 m3 n0 n1 n2 n3 :
  (forall x, 0 <= x < 256 ->
     on_col (col m0 m1 m2 m3) (col n0 n1 n2 n3 x 0 0 0) = [x; 0; 0; 0] /\ on_col (col m0 m1 m2 m3) (col n0 n1 n2 n3 0 x 0 0) = [0; x; 0; 0] /\
     on_col (col m0 m1 m2 m3) (col n0 n1 n2 n3 0 0 x 0) = [0; 0; x; 0] /\ on_col (col m0 m1 m2 m3) (col n0 n1 n2 n3 0 0 0 x) = [0; 0; 0; x]) ->
  forall a b c d, Forall is_byte [a; b; c; d] -> on_col (col m0 m1 m2 m3) (col n0 n1 n2 n3 a b c d) = [a; b; c; d].
Proof.
  intros H a b c d F. rewrite col_split by exact F.
  assert (forall x y, Forall is_byte x -> Forall is_byte y -> List.length x = 4%nat -> List.length y = 4%nat ->
    on_col (col m0 m1 m2 m3) (xor_bytes x y) = xor_bytes (on_col (col m0 m1 m2 m3) x) (on_col (col m0 m1 m2 m3) y)) as L.
  { intros x y Fx Fy Lx Ly. destruct x as [|? [|? [|? [|? [|]]]]]; try discriminate Lx. destruct y as [|? [|? [|? [|? [|]]]]]; try discriminate Ly.
    cbn [xor_bytes on_col]. now apply col_lin. }
  assert (forall a b c d, Forall is_byte [a; b; c; d] -> Forall is_byte (col n0 n1 n2 n3 a b c d)) as B.
  { intros p q r s G. repeat match goal with H : Forall is_byte (_ :: _) |- _ => inversion H; clear H; subst end. unfold col, is_byte in *.
    repeat (apply Forall_cons; [repeat apply lxor_byte; apply gmul_byte; assumption|]); apply Forall_nil. }
  assert (forall x y, Forall is_byte x -> Forall is_byte y -> List.length x = 4%nat -> List.length y = 4%nat -> Forall is_byte (xor_bytes x y) /\ List.length (xor_bytes x y) = 4%nat) as X.
  { intros x y Fx Fy Lx Ly. destruct x as [|? [|? [|? [|? [|]]]]]; try discriminate Lx. destruct y as [|? [|? [|? [|? [|]]]]]; try discriminate Ly.
    repeat match goal with H : Forall is_byte (_ :: _) |- _ => inversion H; clear H; subst end. split; [|reflexivity]. cbn. repeat (apply Forall_cons; [now apply lxor_byte|]); apply Forall_nil. }
  inversion F as [|? ? Ha F1]; subst. inversion F1 as [|? ? Hb F2]; subst. inversion F2 as [|? ? Hc F3]; subst. inversion F3 as [|? ? Hd _]; subst.
  assert (is_byte 0) as H0 by (unfold is_byte; lia).
  assert (forall x, is_byte x -> Forall is_byte (col n0 n1 n2 n3 x 0 0 0) /\ Forall is_byte (col n0 n1 n2 n3 0 x 0 0) /\ Forall is_byte (col n0 n1 n2 n3 0 0 x 0) /\ Forall is_byte (col n0 n1 n2 n3 0 0 0 x)) as C.
  { intros x Hx. repeat split; apply B; fbytes. }
  pose proof (proj1 (C a Ha)) as Ca. pose proof (proj1 (proj2 (C b Hb))) as Cb. pose proof (proj1 (proj2 (proj2 (C c Hc)))) as Cc. pose proof (proj2 (proj2 (proj2 (C d Hd)))) as Cd.
  destruct (X _ _ Cc Cd eq_refl eq_refl) as [F5 L5]. destruct (X _ _ Cb F5 eq_refl L5) as [F6 L6].
  rewrite !L by (assumption || reflexivity).
  rewrite (proj1 (H a Ha)), (proj1 (proj2 (H b Hb))), (proj1 (proj2 (proj2 (H c Hc)))), (proj2 (proj2 (proj2 (H d Hd)))).
  cbn -[Z.lxor]. now rewrite !Z.lxor_0_r, !Z.lxor_0_l.
Qed.
Lemma inv_col_col a b c d : Forall is_byte [a; b; c; d] -> on_col (col 14 11 13 9) (col 2 3 1 1 a b c d) = [a; b; c; d].
Proof. apply col_inverse. intros x Hx. repeat split; apply eqb_list_eq; revert x Hx; apply sweep; vm_compute; reflexivity. Qed.
Lemma col_inv_col a b c d : Forall is_byte [a; b; c; d] -> on_col (col 2 3 1 1) (col 14 11 13 9 a b c d) = [a; b; c; d].
Proof. apply col_inverse. intros x Hx. repeat split; apply eqb_list_eq; revert x Hx; apply sweep; vm_compute; reflexivity. Qed.

Lemma block_cases (P : list Z -> Prop) :
  (forall s0 s1 s2 s3 s4 s5 s6 s7 s8 s9 sa sb sc sd se sf,
     is_byte s0 -> is_byte s1 -> is_byte s2 -> is_byte s3 -> is_byte s4 -> is_byte s5 -> is_byte s6 -> is_byte s7 ->
     is_byte s8 -> is_byte s9 -> is_byte sa -> is_byte sb -> is_byte sc -> is_byte sd -> is_byte se -> is_byte sf ->
     P [s0; s1; s2; s3; s4; s5; s6; s7; s8; s9; sa; sb; sc; sd; se; sf]) -> forall s, block_ok s -> P s.
Proof.
  intros H s [Hs Ls]. do 16 (destruct s as [|? s]; [discriminate Ls|]). destruct s; [|discriminate Ls]. clear Ls.
  repeat match goal with H : Forall is_byte (_ :: _) |- _ => inversion H; clear H; subst end. now apply H.
Qed.
Lemma on_col_app f g a b c d : on_col f (g a b c d) = [a; b; c; d] -> (exists p q r s, g a b c d = [p; q; r; s] /\ f p q r s = [a; b; c; d]).
Proof. intro H. destruct (g a b c d) as [|p [|q [|r [|s [|]]]]]; try discriminate H. now exists p, q, r, s. Qed.
Lemma inv_mix_mix : forall s, block_ok s -> inv_mix_columns (mix_columns s) = s.
Proof. apply (block_cases (fun s => inv_mix_columns (mix_columns s) = s)). intros. unfold mix_columns, inv_mix_columns. rewrite mul_columns_col.
  destruct (on_col_app _ _ _ _ _ _ (inv_col_col s0 s1 s2 s3 ltac:(fbytes))) as (p0 & q0 & r0 & t0 & -> & F0).
  destruct (on_col_app _ _ _ _ _ _ (inv_col_col s4 s5 s6 s7 ltac:(fbytes))) as (p1 & q1 & r1 & t1 & -> & F1).
  destruct (on_col_app _ _ _ _ _ _ (inv_col_col s8 s9 sa sb ltac:(fbytes))) as (p2 & q2 & r2 & t2 & -> & F2).
  destruct (on_col_app _ _ _ _ _ _ (inv_col_col sc sd se sf ltac:(fbytes))) as (p3 & q3 & r3 & t3 & -> & F3).
  cbn [app]. rewrite mul_columns_col, F0, F1, F2, F3. reflexivity.
Qed.
Lemma mix_inv_mix : forall s, block_ok s -> mix_columns (inv_mix_columns s) = s.
Proof. apply (block_cases (fun s => mix_columns (inv_mix_columns s) = s)). intros. unfold mix_columns, inv_mix_columns. rewrite mul_columns_col.
  destruct (on_col_app _ _ _ _ _ _ (col_inv_col s0 s1 s2 s3 ltac:(fbytes))) as (p0 & q0 & r0 & t0 & -> & F0).
  destruct (on_col_app _ _ _ _ _ _ (col_inv_col s4 s5 s6 s7 ltac:(fbytes))) as (p1 & q1 & r1 & t1 & -> & F1).
  destruct (on_col_app _ _ _ _ _ _ (col_inv_col s8 s9 sa sb ltac:(fbytes))) as (p2 & q2 & r2 & t2 & -> & F2).
  destruct (on_col_app _ _ _ _ _ _ (col_inv_col sc sd se sf ltac:(fbytes))) as (p3 & q3 & r3 & t3 & -> & F3).
  cbn [app]. rewrite mul_columns_col, F0, F1, F2, F3. reflexivity.
Qed.
Lemma inv_shift_shift s : block_ok s -> inv_shift_rows (shift_rows s) = s.
Proof. revert s. apply block_cases. intros. reflexivity. Qed.
Lemma shift_inv_shift s : block_ok s -> shift_rows (inv_shift_rows s) = s.
Proof. revert s. apply block_cases. intros. reflexivity. Qed.
Lemma map_inverse (f g : Z -> Z) s : Forall is_byte s -> (forall x, 0 <= x < 256 -> g (f x) = x) -> map g (map f s) = s.
Proof. intros H E. induction H as [|x l Hx Hl IH]; [reflexivity|]. cbn. now rewrite IH, E. Qed.
Lemma inv_sub_sub s : block_ok s -> inv_sub_bytes (sub_bytes s) = s.
Proof. intros [H _]. apply map_inverse; [easy|apply inv_sbox_sbox]. Qed.
Lemma sub_inv_sub s : block_ok s -> sub_bytes (inv_sub_bytes s) = s.
Proof. intros [H _]. apply map_inverse; [easy|apply sbox_inv_sbox]. Qed.
Lemma xor_xor : forall s k, List.length k = List.length s -> xor_bytes (xor_bytes s k) k = s.
Proof.
  induction s as [|x s IH]; intros [|y k] H; try discriminate H; [reflexivity|]. cbn. rewrite Z.lxor_assoc, Z.lxor_nilpotent, Z.lxor_0_r.
  rewrite IH by (cbn in H; lia). reflexivity.
Qed.
(** Every transformation keeps a block a block. *)
Lemma block_map f s : (forall x, 0 <= x < 256 -> 0 <= f x < 256) -> block_ok s -> block_ok (map f s).
Proof. intros F [H L]. split; [|now rewrite map_length]. clear L. induction H as [|x l Hx Hl IH]; cbn; constructor; [now apply F|exact IH]. Qed.
Lemma block_shift s : block_ok s -> block_ok (shift_rows s).
Proof. revert s. apply block_cases. intros. split; [|reflexivity]. cbn. fbytes. Qed.
Lemma block_inv_shift s : block_ok s -> block_ok (inv_shift_rows s).
Proof. revert s. apply block_cases. intros. split; [|reflexivity]. cbn. fbytes. Qed.
Lemma block_mul m0 m1 m2 m3 s : block_ok s -> block_ok (mul_columns [m0; m1; m2; m3] s).
Proof.
  revert s. apply block_cases. intros. rewrite mul_columns_col. split; [|reflexivity]. unfold col. cbn [app].
  repeat (apply Forall_cons; [repeat apply lxor_byte; apply gmul_byte; assumption|]); apply Forall_nil.
Qed.
Lemma xor_bytes_ok : forall s k, Forall is_byte s -> Forall is_byte k -> List.length k = List.length s -> Forall is_byte (xor_bytes s k) /\ List.length (xor_bytes s k) = List.length s.
Proof.
  induction s as [|x s IH]; intros [|y k] Hs Hk L; try discriminate L; [split; [constructor|reflexivity]|].
  inversion Hs; inversion Hk; subst. destruct (IH k) as [A B]; [easy|easy|cbn in L; lia|]. cbn. split; [constructor; [now apply lxor_byte|easy]|now rewrite B].
Qed.
Lemma block_xor s k : block_ok s -> block_ok k -> block_ok (xor_bytes s k).
Proof. intros [Hs Ls] [Hk Lk]. destruct (xor_bytes_ok s k) as [A B]; [easy|easy|lia|]. split; [easy|lia]. Qed.
Lemma block_wbs t : four t -> block_ok (wbs t).
Proof.
  intros (a & b & c & d & ->). split; [|reflexivity]. unfold wbs, wb. cbn [flat_map app].
  repeat (apply Forall_cons; [apply byte_range|]); apply Forall_nil.
Qed.

Lemma round_key_ok key r : key_ok key -> (r <= List.length key / 4 + 6)%nat -> block_ok (round_key (key_expansion key) r).
Proof.
  intros Hk Hr. pose proof (schedule_spec key Hk) as S. cbv zeta in S. destruct S as (E & HR & L).
  rewrite <- E, <- row_spec. apply block_wbs, row_four. rewrite L, HR. lia.
Qed.
Lemma fold_left_map {A B C} (g : A -> B -> A) (h : C -> B) l : forall s, fold_left g (map h l) s = fold_left (fun s r => g s (h r)) l s.
Proof. induction l; intro s; cbn; auto. Qed.
Lemma rev_seq n : forall k, rev (seq k n) = map (fun r => (k + k + n - 1 - r)%nat) (seq k n).
Proof.
  induction n as [|n IH]; intro k; [reflexivity|].
  replace (S n) with (n + 1)%nat at 1 by lia. rewrite seq_app, rev_app_distr, IH. cbn [seq rev app map]. f_equal; [lia|].
  rewrite <- seq_shift, map_map. apply map_ext. intro. lia.
Qed.
Theorem decrypt_spec key a block : key_ok key -> block_ok block -> forall py2, aes_init py2 key = Ok a -> aes_decrypt a block = Ok (inv_cipher key block).
Proof.
  intros Hk Hb py2 H. unfold aes_init in H. destruct (negb _); [discriminate|]. destruct (_ && _)%bool; [discriminate|].
  pose proof (fun r => round_key_ok key r Hk) as RK.
  pose proof (schedule_spec key Hk) as S. cbv zeta in S. cbv zeta in H.
  set (Ke := _ ++ _) in *. destruct S as (E & HR & L). injection H as <-. unfold aes_decrypt. cbn [a_rounds a_Kd].
  assert (zlen block = 16) as Z16 by (unfold zlen; destruct Hb as [_ ->]; reflexivity). rewrite Z16. cbn [Z.eqb Pos.eqb negb].
  unfold inv_cipher. cbv zeta. rewrite <- E, <- HR. rewrite <- E, <- HR in RK. set (rounds := rounds_of (zlen key)) in *.
  assert (0 < rounds)%nat as R0 by lia.
  (* rows of the decryption keys *)
  assert (forall r, (r <= rounds)%nat -> row (decrypt_keys rounds Ke) r =
     let w := row Ke (rounds - r) in if (Nat.eqb r 0 || Nat.eqb r rounds)%bool then w else map inv_key_word w) as Hrow.
  { set (f := fun r => let w := row Ke (rounds - r) in if (Nat.eqb r 0 || Nat.eqb r rounds)%bool then w else map inv_key_word w).
    assert (forall r, List.length (f r) = 4%nat) as Lf.
    { intro r. unfold f. cbv zeta. destruct (row_four Ke (rounds - r)) as (a & b & c & d & Er); [lia|]. rewrite Er. destruct (_ || _)%bool; reflexivity. }
    assert (forall l r, (r < List.length l)%nat -> row (flat_map f l) r = f (nth r l 0%nat)) as G.
    { induction l as [|x l IH]; intros r Hr; [cbn in Hr; lia|]. unfold row in *. cbn [flat_map]. destruct r as [|r].
      - rewrite Nat.mul_0_r. cbn [skipn nth]. rewrite firstn_app, Lf, Nat.sub_diag, firstn_O, app_nil_r, firstn_all2 by (rewrite Lf; lia). reflexivity.
      - rewrite skipn_app, Lf. rewrite skipn_all2 by (rewrite Lf; lia). cbn [app nth]. replace (4 * S r - 4)%nat with (4 * r)%nat by lia.
        apply IH. cbn in Hr. lia. }
    intros r Hr. unfold decrypt_keys. fold f. rewrite G by (rewrite seq_length; lia). now rewrite seq_nth by lia. }
  pose proof (Hrow 0%nat ltac:(lia)) as Row0. cbv zeta in Row0. rewrite Nat.sub_0_r in Row0. cbn [Nat.eqb orb] in Row0. rewrite Row0.
  destruct (load_spec block (row Ke rounds) Hb) as [E0 F0]; [apply row_four; lia|].
  set (t0 := xor_zip (words_of compact_word block) (row Ke rounds)) in *.
  rewrite rev_seq, fold_left_map.
  pose proof (fold_rounds (fun t r => table_round tab_T5 tab_T6 tab_T7 tab_T8 3 2 1 (row (decrypt_keys rounds Ke) r) t)
    (fun s r => inv_mix_columns (add_round_key (round_key (map wb Ke) (1 + 1 + (rounds - 1) - 1 - r)) (inv_sub_bytes (inv_shift_rows s))))
    (fun t s => four t /\ wbs t = s) (seq 1 (rounds - 1))) as P.
  specialize (P ltac:(intros r t s Hr [(u0 & u1 & u2 & u3 & ->) <-]; apply in_seq in Hr;
    replace (1 + 1 + (rounds - 1) - 1 - r)%nat with (rounds - r)%nat by lia;
    rewrite Hrow by lia; cbv zeta;
    destruct (Nat.eqb_spec r 0) as [?|_]; [lia|]; destruct (Nat.eqb_spec r rounds) as [?|_]; [lia|]; cbn [orb];
    destruct (row_four Ke (rounds - r)) as (k0 & k1 & k2 & k3 & Ek); [lia|];
    split; [apply table_round_four|]; rewrite <- row_spec, Ek; cbn [map]; rewrite dec_round; unfold add_round_key;
    rewrite (inv_mix_lin _ (wbs [k0; k1; k2; k3])); [ now rewrite <- inv_key_word_spec |
      apply block_map; [exact inv_sbox_byte|]; apply block_inv_shift, block_wbs; unfold four; eauto |
      apply block_wbs; unfold four; eauto ] )).
  specialize (P t0 (add_round_key (round_key (map wb Ke) rounds) block)). rewrite <- row_spec in P. specialize (P (conj F0 E0)).
  destruct P as [(u0 & u1 & u2 & u3 & Eu) P2]. rewrite <- !row_spec, <- P2, Eu.
  rewrite Hrow by lia. cbv zeta. rewrite Nat.sub_diag, Nat.eqb_refl, orb_true_r.
  destruct (row_four Ke 0) as (k0 & k1 & k2 & k3 & Ek); [lia|]. rewrite Ek. now rewrite dec_last.
Qed.

(** ** The standard's cipher and inverse cipher are inverse to each other. *)
Section Inverse.
  Variable k : nat -> list Z.
  Let E s r := add_round_key (k r) (mix_columns (shift_rows (sub_bytes s))).
  Let D s r := inv_mix_columns (add_round_key (k r) (inv_sub_bytes (inv_shift_rows s))).
  Let G s := shift_rows (sub_bytes s).
  Let F s := inv_sub_bytes (inv_shift_rows s).
  Lemma okG s : block_ok s -> block_ok (G s).
  Proof. intro H. unfold G. apply block_shift, block_map; [exact sbox_byte|exact H]. Qed.
  Lemma okF s : block_ok s -> block_ok (F s).
  Proof. intro H. unfold F. apply block_map; [exact inv_sbox_byte|]. now apply block_inv_shift. Qed.
  Lemma FG s : block_ok s -> F (G s) = s.
  Proof. intro H. unfold F, G. rewrite inv_shift_shift by (apply block_map; [exact sbox_byte|exact H]). now apply inv_sub_sub. Qed.
  Lemma GF s : block_ok s -> G (F s) = s.
  Proof. intro H. unfold F, G. rewrite sub_inv_sub by now apply block_inv_shift. now apply shift_inv_shift. Qed.
  Lemma ark_ark s r : block_ok s -> block_ok (k r) -> add_round_key (k r) (add_round_key (k r) s) = s.
  Proof. intros [_ H] [_ H']. unfold add_round_key. apply xor_xor. lia. Qed.
  Lemma rounds_inverse l : (forall r, In r l -> block_ok (k r)) -> forall s, block_ok s -> fold_left D (rev l) (G (fold_left E l s)) = G s.
  Proof.
    induction l as [|a l IH]; intros K s Hs; [reflexivity|]. cbn [rev fold_left]. rewrite fold_left_app. cbn [fold_left].
    assert (block_ok (k a)) as Ka by (apply K; now left). pose proof (okG s Hs) as Gs.
    assert (block_ok (mix_columns (G s))) as Ms by (now apply block_mul).
    assert (block_ok (E s a)) as Es by (now apply block_xor).
    rewrite IH; [|intros; apply K; now right|exact Es]. unfold D. fold (F (G (E s a))). rewrite FG by exact Es. unfold E. fold (G s).
    rewrite ark_ark by easy. now apply inv_mix_mix.
  Qed.
  Lemma okD l : (forall r, In r l -> block_ok (k r)) -> forall s, block_ok s -> block_ok (fold_left D l s).
  Proof.
    induction l as [|a l IH]; intros K s Hs; [exact Hs|]. cbn [fold_left]. apply IH; [intros; apply K; now right|].
    unfold D. apply block_mul, block_xor; [now apply okF|]. apply K. now left.
  Qed.
  Lemma okE l : (forall r, In r l -> block_ok (k r)) -> forall s, block_ok s -> block_ok (fold_left E l s).
  Proof.
    induction l as [|a l IH]; intros K s Hs; [exact Hs|]. cbn [fold_left]. apply IH; [intros; apply K; now right|].
    unfold E. apply block_xor; [|apply K; now left]. apply block_mul. now apply okG.
  Qed.
  Lemma rounds_inverse2 l : (forall r, In r l -> block_ok (k r)) -> forall s, block_ok s -> fold_left E l (F (fold_left D (rev l) s)) = F s.
  Proof.
    induction l as [|a l IH]; intros K s Hs; [reflexivity|]. cbn [rev fold_left]. rewrite fold_left_app. cbn [fold_left].
    assert (block_ok (k a)) as Ka by (apply K; now left).
    assert (forall r, In r l -> block_ok (k r)) as K' by (intros; apply K; now right).
    assert (block_ok (fold_left D (rev l) s)) as Ys by (apply okD; [intros r Hr; apply K', in_rev, Hr|exact Hs]).
    set (y := fold_left D (rev l) s) in *. pose proof (okF y Ys) as Fy.
    assert (block_ok (add_round_key (k a) (F y))) as Ay by (now apply block_xor).
    assert (block_ok (D y a)) as Dy by (now apply block_mul).
    assert (E (F (D y a)) a = F y) as ->; [|now apply IH].
    unfold E. fold (G (F (D y a))). rewrite GF by exact Dy. unfold D. fold (F y). rewrite mix_inv_mix by exact Ay. now apply ark_ark.
  Qed.
End Inverse.
Lemma cipher_ok key block : key_ok key -> block_ok block -> block_ok (cipher key block).
Proof.
  intros Hk Hb. pose proof (fun r => round_key_ok key r Hk) as RK. unfold cipher. cbv zeta. apply block_xor; [|apply RK; lia].
  apply okG. apply okE; [intros r Hr; apply in_seq in Hr; apply RK; lia|]. apply block_xor; [easy|]. apply RK. lia.
Qed.
Lemma inv_cipher_ok key block : key_ok key -> block_ok block -> block_ok (inv_cipher key block).
Proof.
  intros Hk Hb. pose proof (fun r => round_key_ok key r Hk) as RK. unfold inv_cipher. cbv zeta. apply block_xor; [|apply RK; lia].
  apply okF. apply okD; [intros r Hr; apply in_rev, in_seq in Hr; apply RK; lia|]. apply block_xor; [easy|]. apply RK. lia.
Qed.
Theorem inv_cipher_cipher key block : key_ok key -> block_ok block -> inv_cipher key (cipher key block) = block.
Proof.
  intros Hk Hb. pose proof (fun r => round_key_ok key r Hk) as RK. unfold inv_cipher, cipher. cbv zeta.
  set (w := key_expansion key) in *. set (Nr := (List.length key / 4 + 6)%nat) in *.
  set (s0 := add_round_key (round_key w 0) block).
  assert (block_ok s0) as S0 by (apply block_xor; [easy|]; apply RK; lia).
  assert (forall r, In r (seq 1 (Nr - 1)) -> block_ok (round_key w r)) as K by (intros r Hr; apply in_seq in Hr; apply RK; lia).
  pose proof (okE (round_key w) _ K s0 S0) as SN. cbv beta in SN.
  rewrite (ark_ark (round_key w)) by (try (now apply okG); apply RK; lia).
  pose proof (rounds_inverse (round_key w) _ K s0 S0) as P. cbv beta in P. rewrite P.
  rewrite (FG s0) by exact S0. unfold s0. apply (ark_ark (round_key w)); [easy|]. apply RK. lia.
Qed.
Theorem cipher_inv_cipher key block : key_ok key -> block_ok block -> cipher key (inv_cipher key block) = block.
Proof.
  intros Hk Hb. pose proof (fun r => round_key_ok key r Hk) as RK. unfold inv_cipher, cipher. cbv zeta.
  set (w := key_expansion key) in *. set (Nr := (List.length key / 4 + 6)%nat) in *.
  set (s0 := add_round_key (round_key w Nr) block).
  assert (block_ok s0) as S0 by (apply block_xor; [easy|]; apply RK; lia).
  assert (forall r, In r (seq 1 (Nr - 1)) -> block_ok (round_key w r)) as K by (intros r Hr; apply in_seq in Hr; apply RK; lia).
  assert (forall r, In r (rev (seq 1 (Nr - 1))) -> block_ok (round_key w r)) as K' by (intros r Hr; apply K, in_rev, Hr).
  pose proof (okD (round_key w) _ K' s0 S0) as SN. cbv beta in SN.
  rewrite (ark_ark (round_key w)) by (try (now apply okF); apply RK; lia).
  pose proof (rounds_inverse2 (round_key w) _ K s0 S0) as P. cbv beta in P. rewrite P.
  rewrite (GF s0) by exact S0. unfold s0. apply (ark_ark (round_key w)); [easy|]. apply RK. lia.
Qed.
