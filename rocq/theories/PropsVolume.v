(** C162: how long the lines are that messages leave in the log
    (nbc/node/connection.py, nbc/protocol/format.py). *)
From Coq Require Import String ZArith List Lia Bool.
From Verif Require Import PyBase PyVal FormatModel FormatSpec FormatProofs FormatProofs2 MessagesModel MessagesProofs UtilModel SeedModel NodeModel NodeProofs NodeProofs2 NodeProofs3 LogModel LogProofs TextModel TextProofs PropsProtocol PropsNode PropsText PropsSize PropsComplaint.
Import ListNotations.
Open Scope string_scope.
Open Scope list_scope.
Open Scope Z_scope.

(** *** Lengths of texts *)
Lemma ok_inj {A} (x y : A) : Ok x = Ok y -> x = y.
Proof. congruence. Qed.
Lemma digits_len base : 2 <= base -> forall f m x acc, (0 < m)%nat -> 0 <= x < base ^ Z.of_nat m -> zlen (digits_aux f base x acc) <= Z.of_nat m + zlen acc.
Proof.
  intro B. induction f as [|f IH]; intros m x acc Hm Hx; [cbn; lia|]. cbn [digits_aux]. destruct (Z.ltb_spec x base); [rewrite zlen_cons; lia|].
  destruct m as [|m]; [lia|]. destruct m as [|m]; [change (Z.of_nat 1) with 1 in Hx; lia|].
  assert (0 <= x / base < base ^ Z.of_nat (S m)) as D.
  { rewrite Nat2Z.inj_succ, Z.pow_succ_r in Hx by lia. split; [apply Z.div_pos; lia|]. apply Z.div_lt_upper_bound; lia. }
  specialize (IH (S m) (x / base) (digit_char (x mod base) :: acc) ltac:(lia) D). rewrite zlen_cons in IH. lia.
Qed.
Lemma text_len base m x : 2 <= base -> (0 < m)%nat -> 0 <= x < base ^ Z.of_nat m -> zlen (text_of_int base x) <= Z.of_nat m.
Proof. intros B M H. pose proof (digits_len base B (S (Z.to_nat (Z.log2 x))) m x [] M H) as L. unfold text_of_int. change (zlen []) with 0 in L. lia. Qed.
Lemma int_len m z : (0 < m)%nat -> - 10 ^ Z.of_nat m < z < 10 ^ Z.of_nat m -> zlen (int_text z) <= 1 + Z.of_nat m.
Proof.
  intros M H. unfold int_text. destruct (Z.ltb_spec z 0).
  - rewrite zlen_cons. pose proof (text_len 10 m (- z) ltac:(lia) M ltac:(lia)). lia.
  - pose proof (text_len 10 m z ltac:(lia) M ltac:(lia)). lia.
Qed.
Lemma le_val_below s : wf_bytes s -> 0 <= le_val s < 256 ^ zlen s.
Proof.
  induction 1 as [|c r Hc _ IH]; [cbn; lia|]. unfold is_byte in Hc. cbn [le_val]. rewrite zlen_cons. pose proof (zlen_nonneg r). rewrite Z.add_comm, Z.pow_add_r by lia. change (256 ^ 1) with 256. nia.
Qed.
Lemma P1 : 256 ^ Z.of_nat 1 = 256. Proof. reflexivity. Qed.
Lemma P2 : 256 ^ Z.of_nat 2 = 65536. Proof. reflexivity. Qed.
Lemma P4 : 256 ^ Z.of_nat 4 = 4294967296. Proof. reflexivity. Qed.
Lemma P8 : 256 ^ Z.of_nat 8 = 18446744073709551616. Proof. reflexivity. Qed.
Lemma T3 : 10 ^ Z.of_nat 3 = 1000. Proof. reflexivity. Qed.
Lemma T5 : 10 ^ Z.of_nat 5 = 100000. Proof. reflexivity. Qed.
Lemma T10 : 10 ^ Z.of_nat 10 = 10000000000. Proof. reflexivity. Qed.
Lemma T20 : 10 ^ Z.of_nat 20 = 100000000000000000000. Proof. reflexivity. Qed.
Lemma number_len f big data z : wf_bytes data -> struct_unpack f big data = Ok z -> zlen (int_text z) <= 4 * Z.of_nat (nf_len f).
Proof.
  intros W H. unfold struct_unpack in H. destruct (Z.eqb_spec (zlen data) (Z.of_nat (nf_len f))) as [E|]; [|discriminate].
  assert (0 <= (if big then be_val data else le_val data) < 256 ^ Z.of_nat (nf_len f)) as R.
  { rewrite <- E. destruct big; [now apply be_val_bound|now apply le_val_below]. }
  set (u := if big then be_val data else le_val data) in *. clearbody u. cbv zeta in H. injection H as <-.
  assert (forall m x, (0 < m)%nat -> - 10 ^ Z.of_nat m < x < 10 ^ Z.of_nat m -> 1 + Z.of_nat m <= 4 * Z.of_nat (nf_len f) -> zlen (int_text x) <= 4 * Z.of_nat (nf_len f)) as G.
  { intros m x M X L. pose proof (int_len m x M X). lia. }
  destruct f; cbn [nf_len nf_signed andb] in *; rewrite ?P1, ?P2, ?P4, ?P8 in *;
    match goal with
    | |- _ <= 4 * Z.of_nat 1 => apply (G 3%nat); [lia|rewrite T3|lia]
    | |- _ <= 4 * Z.of_nat 2 => apply (G 5%nat); [lia|rewrite T5|lia]
    | |- _ <= 4 * Z.of_nat 4 => apply (G 10%nat); [lia|rewrite T10|lia]
    | |- _ <= 4 * Z.of_nat 8 => apply (G 20%nat); [lia|rewrite T20|lia]
    end; clear G; try (destruct (_ <=? u)); rewrite ?P1, ?P2, ?P4, ?P8; lia.
Qed.
Lemma join_len c (l : list text) m : 0 <= m -> Forall (fun t => zlen t <= m) l -> zlen (join_with c l) <= (m + 1) * zlen l.
Proof.
  intros M. induction 1 as [|x l Hx Hl IH]; [cbn; lia|]. cbn [join_with]. destruct l as [|y l]; [rewrite zlen_cons; change (zlen []) with 0; lia|].
  rewrite zlen_app. cbn [app]. rewrite !zlen_cons in *. pose proof (zlen_nonneg l). nia.
Qed.
Lemma be16_len : forall s, wf_bytes s -> Forall (fun t => zlen t <= 4) (map (text_of_int 16) (be16s s)).
Proof.
  fix IH 1. intros [|a [|b r]] W; [constructor|constructor|]. cbn [be16s map]. inversion W as [|? ? Ha W1]. inversion W1 as [|? ? Hb W2]. subst. unfold is_byte in *.
  constructor; [|exact (IH r W2)]. apply (text_len 16 4); [lia|lia|]. change (16 ^ Z.of_nat 4) with 65536. lia.
Qed.
Lemma be16_half : forall s : bytes, 2 * zlen (be16s s) <= zlen s.
Proof. fix IH 1. intros [|a [|b r]]; [cbn; lia|cbn; lia|]. cbn [be16s]. rewrite !zlen_cons. specialize (IH r). lia. Qed.
Lemma map_zlen {A B} (f : A -> B) l : zlen (map f l) = zlen l.
Proof. unfold zlen. now rewrite map_length. Qed.
Lemma ip_len data n v : wf_bytes data -> ip_parse data = Ok (n, v) -> n = 16 /\ 16 <= zlen data /\ exists s, v = VStr s /\ zlen s <= 64.
Proof.
  intros W H. unfold ip_parse in H. destruct (_ && _).
  - destruct (Z.eqb_spec (zlen (slice 12 16 data)) 4) as [E|]; [|discriminate]. injection H as <- <-. split; [reflexivity|].
    assert (16 <= zlen data) as L. { unfold slice in E. pose proof (zlen_zdrop data 12 ltac:(lia)) as D. rewrite zlen_ztake in E by lia. lia. }
    split; [exact L|]. eexists. split; [reflexivity|]. pose proof (join_len 46 (map (text_of_int 10) (slice 12 16 data)) 3 ltac:(lia)) as J. rewrite map_zlen, E in J.
    etransitivity; [apply J|lia]. assert (wf_bytes (slice 12 16 data)) as Ws by now apply Forall_slice. clear - Ws. induction Ws as [|c r Hc _ IH]; [constructor|]. cbn [map]. constructor; [|exact IH]. unfold is_byte in Hc. apply (text_len 10 3); [lia|lia|]. change (10 ^ Z.of_nat 3) with 1000. lia.
  - destruct (Z.eqb_spec (zlen (ztake 16 data)) 16) as [E|]; [|discriminate]. injection H as <- <-. split; [reflexivity|].
    split; [pose proof (zlen_nonneg data); rewrite zlen_ztake in E by lia; lia|]. eexists. split; [reflexivity|].
    pose proof (join_len 58 (map (text_of_int 16) (be16s (ztake 16 data))) 4 ltac:(lia) (be16_len (ztake 16 data) (Forall_ztake is_byte 16 data W))) as J. rewrite map_zlen in J. pose proof (be16_half (ztake 16 data)). lia.
Qed.
Lemma hex_len_eq b : zlen (hex_encode b) = 2 * zlen b.
Proof. induction b as [|c r IH]; [reflexivity|]. unfold hex_encode in *. cbn [flat_map]. rewrite zlen_app, IH, (zlen_cons c r). change (zlen [hex_digit (c / 16); hex_digit (c mod 16)]) with 2. lia. Qed.
Definition tame (c : Z) : Prop := 48 <= c <= 57 \/ 97 <= c <= 122.
Lemma tame_repr l : Forall tame l -> zlen (repr_bytes l) = zlen l + 3.
Proof.
  intro F. unfold repr_bytes. pose proof (PropsSeed.repr_quote_cases l) as Q. set (q := repr_quote l) in *. clearbody q. rewrite !zlen_cons, zlen_app. change (zlen [q]) with 1.
  assert (zlen (flat_map (repr_byte q) l) = zlen l) as ->; [|lia]. induction F as [|c r Hc _ IH]; [reflexivity|]. cbn [flat_map]. rewrite zlen_app, IH, (zlen_cons c r). unfold tame in Hc.
  unfold repr_byte. destruct (Z.eqb_spec c q); [lia|]. destruct (Z.eqb_spec c 92); [lia|]. cbn [orb]. destruct (Z.eqb_spec c 9); [lia|]. destruct (Z.eqb_spec c 10); [lia|]. destruct (Z.eqb_spec c 13); [lia|]. destruct (Z.ltb_spec c 32); [lia|]. destruct (Z.leb_spec 127 c); [lia|]. cbn [orb]. change (zlen [c]) with 1. lia.
Qed.
Lemma hex_tame b : wf_bytes b -> Forall tame (bs "0x" ++ hex_encode b).
Proof.
  intro W. apply Forall_app. split; [constructor; [unfold tame; cbn; lia|constructor; [unfold tame; cbn; lia|constructor]]|].
  induction W as [|c r Hc _ IH]; [constructor|]. unfold hex_encode in *. cbn [flat_map]. unfold is_byte in Hc. apply Forall_app. split; [|exact IH].
  assert (0 <= c / 16 < 16) by (split; [apply Z.div_pos; lia|apply Z.div_lt_upper_bound; lia]). pose proof (Z.mod_pos_bound c 16 ltac:(lia)).
  constructor; [|constructor; [|constructor]]; unfold tame, hex_digit; destruct (Z.ltb_spec (c / 16) 10), (Z.ltb_spec (c mod 16) 10); lia.
Qed.
Lemma bytes_len py2 b : wf_bytes b -> zlen (render py2 (PBytes (bs "0x" ++ hex_encode b))) <= 5 + 2 * zlen b.
Proof.
  intro W. unfold render, repr_of. destruct py2.
  - rewrite zlen_app, hex_len_eq. change (zlen (bs "0x")) with 2. lia.
  - rewrite (tame_repr _ (hex_tame b W)), zlen_app, hex_len_eq. change (zlen (bs "0x")) with 2. lia.
Qed.

(** *** What a type costs *)
(** The bytes that reading a value of the type takes at least. *)
Fixpoint least (t : ft) : Z :=
  match t with
  | FNumber f _ _ => Z.of_nat (nf_len f)
  | FVarInt | FVarStr | FArray _ _ _ => 1
  | FIP => 16
  | FBytes _ | FOptional _ _ => 0
  | FCompound _ ps => (fix go ps := match ps with [] => 0 | (_, t) :: r => least t + go r end) ps
  | FCompoundNoTs _ ps => (fix go ps := match ps with [] => 0 | (_, t) :: r => least t + go r end) ps - 4
  end.
(** The names and labels in its text. *)
Fixpoint over (t : ft) : Z :=
  match t with
  | FNumber _ _ _ | FIP => 0
  | FVarInt => 16
  | FBytes _ => 5
  | FVarStr => 3
  | FArray _ _ _ => 2
  | FOptional _ _ => 32
  | FCompound c ps => 2 + zlen (bs c) + (fix go ps := match ps with [] => 0 | (k, t) :: r => 2 + zlen (bs k) + over t + go r end) ps
  | FCompoundNoTs c ps => 18 + zlen (bs c) + (fix go ps := match ps with [] => 0 | (k, t) :: r => 2 + zlen (bs k) + over t + go r end) ps
  end.
Fixpoint leasts (ps : list (string * ft)) : Z := match ps with [] => 0 | (_, t) :: r => least t + leasts r end.
Fixpoint overs (ps : list (string * ft)) : Z := match ps with [] => 0 | (k, t) :: r => 2 + zlen (bs k) + over t + overs r end.
Lemma least_go ps : (fix go ps := match ps with [] => 0 | (_, t) :: r => least t + go r end) ps = leasts ps.
Proof. induction ps as [|(k, t) r IH]; cbn; congruence. Qed.
Lemma over_go ps : (fix go ps := match ps with [] => 0 | (k, t) :: r => 2 + zlen (bs k) + over t + go r end) ps = overs ps.
Proof. induction ps as [|(k, t) r IH]; [reflexivity|]. cbn [overs]. rewrite IH. reflexivity. Qed.
(** The items of arrays take enough bytes for their labels; on Python 3 a list of
    byte strings has no text unless it is empty. *)
Fixpoint lean (py2 : bool) (t : ft) : bool :=
  match t with
  | FArray t _ _ => (match t with FBytes _ => negb py2 | _ => false end || (over t + 2 <=? 11 * least t)) && lean py2 t
  | FCompound _ ps | FCompoundNoTs _ ps => (fix go ps := match ps with [] => true | (_, t) :: r => lean py2 t && go r end) ps
  | FOptional t d => match t, d with FNumber _ _ _, VBool _ => true | _, _ => false end
  | _ => true
  end.
Fixpoint leans (py2 : bool) (ps : list (string * ft)) : bool := match ps with [] => true | (_, t) :: r => lean py2 t && leans py2 r end.
Lemma lean_go py2 ps : (fix go ps := match ps with [] => true | (_, t) :: r => lean py2 t && go r end) ps = leans py2 ps.
Proof. induction ps as [|(k, t) r IH]; cbn; congruence. Qed.

Section Volume.
Variable py2 : bool.
Variable odd : pyval -> text.
Notation ftt := (ft_text py2 odd).
Notation fst_ := (fields_text py2 odd).
Notation rnd := (render py2).

Definition cost (o l w : Z) : Z := o + 4 * w + 11 * (w - l).
Definition terse (t : ft) : Prop := wf_ft t -> lean py2 t = true -> forall data n v, wf_bytes data -> parse t data = Ok (n, v) ->
  0 <= n /\ exists w, least t <= w <= Z.min n (zlen data) /\ forall p, ftt t v = Ok p -> zlen (rnd p) <= cost (over t) (least t) w.

Fixpoint join_sum (l : list text) : Z := match l with [] => 0 | x :: r => zlen x + 2 + join_sum r end.
Lemma join_text_len l : zlen (join_text (bs ", ") l) <= join_sum l.
Proof.
  induction l as [|x l IH]; [cbn; lia|]. cbn [join_text join_sum]. destruct l as [|y l]; [cbn [join_sum]; lia|]. rewrite !zlen_app. change (zlen (bs ", ")) with 2. lia.
Qed.
Lemma items_terse t : (forall data n v, wf_bytes data -> parse t data = Ok (n, v) -> 0 <= n /\ exists w, least t <= w <= Z.min n (zlen data) /\ forall p, ftt t v = Ok p -> zlen (rnd p) <= cost (over t) (least t) w) ->
  over t + 2 <= 11 * least t ->
  forall k data off n l, wf_bytes data -> 0 <= off -> parse_items (parse t) k data off = Ok (n, l) ->
  off <= n /\ exists w, 0 <= w <= Z.min n (zlen data) - Z.min off (zlen data) /\ forall ps, sequence (map (ftt t) l) = Ok ps -> join_sum (map rnd ps) <= 15 * w.
Proof.
  intros Ht C. induction k as [|k IH]; intros data off n l Hw Ho H; cbn in H.
  - inv H. split; [lia|]. exists 0. split; [lia|]. intros ps E. injection E as <-. cbn. lia.
  - bind_inv H. destruct x as (len, x). bind_inv H. destruct x0 as (off', xs). inv H.
    apply Ht in H0; [|now apply Forall_zdrop]. destruct H0 as (Hlen & w & Hw1 & Hx). rewrite zlen_zdrop in Hw1 by lia.
    apply IH in H1; [|assumption|lia]. destruct H1 as (Hoff & w' & Hw2 & Hxs). assert (0 <= Z.max 0 w) by lia. split; [lia|]. exists (Z.max 0 w + w'). split; [lia|].
    intros ps E. cbn [map sequence] in E. bind_inv E. bind_inv E. injection E as <-. cbn [map join_sum]. specialize (Hx _ H0). specialize (Hxs _ H1). unfold cost in Hx. lia.
Qed.
Lemma fields_terse ps : Forall (fun e => terse (snd e)) ps -> wf_fts ps -> leans py2 ps = true ->
  forall data off n fs, wf_bytes data -> 0 <= off -> fields_parse ps off data = Ok (n, fs) ->
  off <= n /\ exists w, leasts ps <= w <= Z.min n (zlen data) - Z.min off (zlen data) /\
    forall all s, (forall k, In k (map fst ps) -> assoc k all = assoc k fs) -> NoDup (map fst ps) -> fst_ ps all = Ok s -> zlen s <= cost (overs ps) (leasts ps) w.
Proof.
  induction 1 as [|(k, t) r Ht Hr IH]; intros Hwf Hf data off n fs Hw Ho H; cbn [fields_parse] in H.
  - inv H. split; [lia|]. exists 0. split; [cbn; lia|]. intros all s _ _ E. cbn in E. injection E as <-. cbn. lia.
  - destruct (parse t (zdrop off data)) as [(len, x)|] eqn:E; [|discriminate].
    bind_inv H. destruct x0 as (off', xs). inv H. cbn in Hwf. destruct Hwf as (Hwt & Hwr). cbn [leans] in Hf. apply andb_true_iff in Hf. destruct Hf as (Hft & Hfr).
    apply Ht in E; [|assumption|assumption|now apply Forall_zdrop]. destruct E as (Hlen & w & Hw1 & Hx). cbn [snd] in Hx, Hw1. rewrite zlen_zdrop in Hw1 by lia.
    apply IH in H0; [|assumption|assumption|assumption|lia]. destruct H0 as (Hoff & w' & Hw2 & Hxs). split; [lia|]. exists (w + w'). cbn [leasts overs map fst]. split; [lia|].
    intros all s A N E. cbn [fields_text] in E. rewrite (A k (or_introl eq_refl)) in E. cbn [assoc] in E. rewrite String.eqb_refl in E. bind_inv E. bind_inv E. apply NoDup_cons_iff in N. destruct N as (N1 & N2).
    assert (s = bs " " ++ bs k ++ bs "=" ++ rnd x0 ++ x1) as -> by congruence. specialize (Hx _ H).
    specialize (Hxs all x1). rewrite !zlen_app. change (zlen (bs " ")) with 1. change (zlen (bs "=")) with 1. unfold cost in *. apply Hxs in H0; [lia| |exact N2].
    intros k0 I. rewrite (A k0 (or_intror I)). cbn [assoc]. destruct (String.eqb_spec k0 k) as [Ek|_]; [rewrite Ek in I; contradiction|reflexivity].
Qed.
Lemma ftt_comp c ps c' fs : ftt (FCompound c ps) (VObj c' fs) = let! s := fst_ ps fs in Ok (PText (bs "<" ++ bs c' ++ s ++ bs ">")).
Proof.
  cbn [ft_text]. assert (forall a b : res text, a = b -> (let! s := a in Ok (PText (bs "<" ++ bs c' ++ s ++ bs ">"))) = (let! s := b in Ok (PText (bs "<" ++ bs c' ++ s ++ bs ">")))) as F by (now intros a b ->). apply F. clear F. induction ps as [|(k, t) r IH]; cbn [fields_text]; [reflexivity|]. destruct (assoc k fs); [|reflexivity].
  destruct (ftt t p); cbn [bind]; [|reflexivity]. now rewrite IH.
Qed.
Lemma parse_terse t : terse t.
Proof.
  induction t using ft_ind'; unfold terse; intros Hwf Hf data n0 v Hw H0; cbn [parse] in H0.
  - unfold num_parse in H0. bind_inv H0. inv H0. split; [lia|]. exists (Z.of_nat (nf_len f)). cbn [least over].
    assert (Z.of_nat (nf_len f) <= zlen data) as L. { unfold struct_unpack in H. destruct (Z.eqb_spec (zlen (ztake (Z.of_nat (nf_len f)) data)) (Z.of_nat (nf_len f))) as [E|]; [|discriminate]. rewrite zlen_ztake in E by lia. lia. }
    split; [lia|]. intros p E. injection E as <-. cbn [render value_text]. apply number_len in H; [|now apply Forall_ztake]. unfold cost. lia.
  - bind_inv H0. destruct x as (n', z). inv H0. apply varint_parse_ok in H; [|assumption]. split; [lia|]. exists 1. cbn [least over]. split; [lia|]. intros p E. injection E as <-. cbn [render value_text].
    pose proof (int_len 10 z ltac:(lia) ltac:(change (10 ^ Z.of_nat 10) with 10000000000; lia)). unfold cost. lia.
  - apply ip_len in H0; [|assumption]. destruct H0 as (-> & L & s & -> & Ls). split; [lia|]. exists 16. cbn [least over]. split; [lia|]. intros p E. injection E as <-. cbn [render value_text]. unfold cost. lia.
  - inv H0. cbn [wf_ft] in Hwf. split; [assumption|]. exists (zlen (ztake n0 data)). cbn [least over]. pose proof (zlen_nonneg (ztake n0 data)). pose proof (zlen_nonneg data). split; [rewrite zlen_ztake by lia; lia|].
    intros p E. cbn [ft_text] in E. assert (p = PBytes (bs "0x" ++ hex_encode (ztake n0 data))) as -> by congruence. pose proof (bytes_len py2 (ztake n0 data) ltac:(now apply Forall_ztake)). unfold cost. lia.
  - unfold varstr_parse in H0. bind_inv H0. destruct x as (vl, len). inv H0. apply varint_parse_ok in H; [|assumption].
    pose proof (zlen_nonneg (slice vl (vl + len) data)). split; [lia|]. exists (1 + zlen (slice vl (vl + len) data)). cbn [least over].
    assert (zlen (slice vl (vl + len) data) <= zlen data - vl /\ zlen (slice vl (vl + len) data) <= len). { unfold slice. pose proof (zlen_zdrop data vl ltac:(lia)). rewrite zlen_ztake by lia. lia. }
    split; [lia|]. intros p E. injection E as <-. cbn [render repr_text]. pose proof (repr_of_len py2 (slice vl (vl + len) data)). unfold cost. lia.
  - cbn [wf_ft] in Hwf. destruct Hwf as (Hwf & _). cbn [lean] in Hf. apply andb_true_iff in Hf. destruct Hf as (Hs & Hf). bind_inv H0. destruct x as (off, l). inv H0.
    unfold parse_var_set in H. bind_inv H. destruct x as (o, c). apply varint_parse_ok in H0; [|assumption].
    apply orb_true_iff in Hs. destruct Hs as [Hs|Hs].
    { destruct t; try discriminate Hs. cbn [wf_ft] in Hwf. assert (o <= n0) as Hoff.
      { revert H. generalize (Z.to_nat c). intro k. clear - Hwf. revert o l n0. induction k as [|k IH]; intros o0 l n0 E; cbn in E; [injection E as <- <-; lia|]. bind_inv E. destruct x as (o', l'). injection E as <- <-. apply IH in H. lia. }
      split; [lia|]. exists 1. cbn [least over]. split; [lia|]. intros p E. cbn [ft_text] in E. bind_inv E. bind_inv E. assert (p = PText (bs "[" ++ x0 ++ bs "]")) as -> by congruence.
      assert (x = []) as ->.
      { destruct l as [|y l]; [cbn in H1; congruence|]. cbn [map sequence] in H1. bind_inv H1. bind_inv H1. injection H1 as <-. destruct y; try discriminate. apply ok_inj in H3. subst x1. unfold join_pieces in H2. rewrite Hs in H2. cbn in H2. discriminate. }
      unfold join_pieces in H2. cbn [existsb map join_text] in H2. rewrite andb_false_r in H2. assert (x0 = []) as -> by congruence. cbn [render]. rewrite !zlen_app. change (zlen (bs "[")) with 1. change (zlen (bs "]")) with 1. change (zlen (@nil Z)) with 0. unfold cost. lia. }
    apply Z.leb_le in Hs.
    apply (items_terse t) in H; [|intros d n' v' Wd Ed; exact (IHt Hwf Hf d n' v' Wd Ed)|exact Hs|assumption|lia].
    destruct H as (Ho & w & Hw1 & Hx). split; [lia|]. exists (1 + w). cbn [least over]. split; [lia|].
    intros p E. cbn [ft_text] in E. bind_inv E. bind_inv E. assert (p = PText (bs "[" ++ x0 ++ bs "]")) as -> by congruence. cbn [render]. rewrite !zlen_app. change (zlen (bs "[")) with 1. change (zlen (bs "]")) with 1.
    specialize (Hx _ H). unfold join_pieces in H1. destruct (_ && _); [discriminate|]. assert (x0 = join_text (bs ", ") (map rnd x)) as -> by congruence. pose proof (join_text_len (map rnd x)). unfold cost. lia.
  - cbn [wf_ft] in Hwf. destruct Hwf as (Hnd & Hwf). rewrite wf_fts_go in Hwf. cbn [lean] in Hf. rewrite lean_go in Hf.
    change (parse (FCompound c ps) data = Ok (n0, v)) in H0.
    rewrite parse_compound in H0. bind_inv H0. destruct x as (off, fs). inv H0.
    apply fields_terse in H1; auto; [|lia]. destruct H1 as (Ho & w & Hw1 & Hx). pose proof (zlen_nonneg data). split; [lia|]. exists w. cbn [least over]. rewrite least_go, over_go. split; [lia|].
    intros p E. rewrite ftt_comp in E. bind_inv E. assert (p = PText (bs "<" ++ bs c ++ x ++ bs ">")) as -> by congruence. specialize (Hx fs x (fun _ _ => eq_refl) Hnd H1).
    cbn [render]. rewrite !zlen_app. change (zlen (bs "<")) with 1. change (zlen (bs ">")) with 1. unfold cost in *. lia.
  - cbn [wf_ft] in Hwf. destruct Hwf as (Hnd & (k & a & r & Hps) & Hwf). rewrite wf_fts_go in Hwf. cbn [lean] in Hf. rewrite lean_go in Hf.
    change (parse (FCompoundNoTs c ps) data = Ok (n0, v)) in H0.
    rewrite parse_compoundnots in H0. bind_inv H0. destruct x as (off, fs). injection H0 as <- <-.
    assert (wf_bytes ([0;0;0;0] ++ data)) as Hw'.
    { apply wf_bytes_app. split; [repeat constructor; unfold is_byte; lia|assumption]. }
    assert (4 <= off) as H4.
    { subst ps. cbn [fields_parse] in H1. destruct (parse (FNumber FI false a) (zdrop 0 ([0;0;0;0] ++ data))) as [(len, x)|] eqn:E; [|discriminate].
      assert (len = 4) as ->. { cbn [parse] in E. unfold num_parse in E. bind_inv E. now inv E. }
      bind_inv H1. destruct x0 as (off', xs). inv H1. inv H. cbn [wf_fts] in Hwf. cbn [leans] in Hf. apply andb_true_iff in Hf.
      apply (fields_terse r H4 (proj2 Hwf) (proj2 Hf)) in H0; [|exact Hw'|lia]. lia. }
    apply (fields_terse ps H Hwf Hf) in H1; [|exact Hw'|lia]. destruct H1 as (Ho & w & Hw1 & Hx). rewrite zlen_app in Hw1. change (zlen [0;0;0;0]) with 4 in Hw1. pose proof (zlen_nonneg data).
    split; [lia|]. exists (w - 4). cbn [least over]. rewrite least_go, over_go. split; [lia|].
    intros p E. change (ftt (FCompound c ps) (VObj c fs) = Ok p) in E. rewrite ftt_comp in E. bind_inv E. assert (p = PText (bs "<" ++ bs c ++ x ++ bs ">")) as -> by congruence. specialize (Hx fs x (fun _ _ => eq_refl) Hnd H1).
    cbn [render]. rewrite !zlen_app. change (zlen (bs "<")) with 1. change (zlen (bs ">")) with 1. unfold cost in *. lia.
  - cbn [lean] in Hf. destruct t; try discriminate Hf. destruct d; try discriminate Hf. cbn [least over].
    destruct (parse (FNumber f big allow_float) data) as [r|] eqn:E; inv H0.
    + cbn [parse] in E. unfold num_parse in E. bind_inv E. inv E. split; [lia|]. exists 0. split; [pose proof (zlen_nonneg data); lia|]. intros p E. injection E as <-. cbn [render value_text]. apply number_len in H; [|now apply Forall_ztake]. unfold cost. destruct f; cbn in H; lia.
    + split; [lia|]. exists 0. split; [pose proof (zlen_nonneg data); lia|]. intros p E2. injection E2 as <-. cbn [render value_text]. destruct b; cbn; unfold cost; lia.
Qed.
End Volume.

(** ** C162 *)
(** The messages whose lines are compared with the bytes they came in: not the
    alert, and on Python 2 not the three with lists of hashes (C138). *)
Definition brief (py2 : bool) (m : message) : Prop :=
  mt_command (m_type m) <> "alert" /\ (py2 = true -> ~ In (mt_command (m_type m)) hash_lists).
Definition thrifty (py2 : bool) (t : msg_type) : bool :=
  String.eqb (mt_command t) "alert" || (py2 && existsb (String.eqb (mt_command t)) hash_lists) ||
  (leans py2 (mt_props t) && (2 + zlen (bs (class_name (mt_id t))) + overs (mt_props t) - 11 * leasts (mt_props t) <=? 18)).
Lemma registry_thrifty py2 : forallb (thrifty py2) registry = true.
Proof. destruct py2; vm_compute; reflexivity. Qed.
Lemma registry_alerts : forallb (fun t => Bool.eqb (String.eqb (mt_command t) "alert") (String.eqb (mt_id t) "Alert")) registry = true.
Proof. vm_compute. reflexivity. Qed.

(** A line of the most detailed log has at most fifteen characters for every
    byte of the message. *)
Theorem C162_bounded_partial : forall sha256 py2 odd data magic m source level t, wf_bytes data -> msg_parse sha256 data magic = Ok m -> brief py2 m ->
  level <= LOG_LEVEL_PROTOCOL -> log_text sha256 py2 odd (bs "<<< ") level m = Ok (Some t) -> zlen source <= 256 ->
  zlen (text_line source t) <= 15 * zlen data.
Proof.
  intros sha py2 odd data magic m source level t W P (NA & NH) L H S. unfold log_text in H. rewrite (proj2 (Z.leb_le _ _) L) in H. bind_inv H. assert (t = bs "<<< " ++ x) as -> by congruence. clear H L.
  apply msg_parse_inv in P. cbn zeta in P. destruct P as (_ & Hl & _ & Ht & _ & n & Hf). set (p := slice _ _ _) in Hf.
  assert (wf_bytes p) as Hp by (unfold p; now apply Forall_slice).
  assert (zlen p <= Z.max 0 (zlen data - 24)) as Hz. { unfold p, slice. etransitivity; [apply zlen_ztake_le|]. rewrite zlen_zdrop by lia. lia. }
  clearbody p.
  assert (20 <= zlen data) as H20. { unfold slice in Hl. pose proof (zlen_zdrop data 16 ltac:(lia)). rewrite zlen_ztake in Hl by lia. lia. }
  pose proof (registry_thrifty py2) as T. rewrite forallb_forall in T. specialize (T _ Ht). unfold thrifty in T.
  pose proof registry_alerts as A. rewrite forallb_forall in A. specialize (A _ Ht). apply eqb_prop in A.
  destruct (registry_wf _ Ht) as (WF & ND & _).
  unfold message_text in H0. rewrite <- A in H0. destruct (String.eqb_spec (mt_command (m_type m)) "alert") as [|_]; [contradiction|]. cbn [orb] in T.
  assert (py2 && existsb (String.eqb (mt_command (m_type m))) hash_lists = false) as E.
  { destruct py2; [|reflexivity]. cbn [andb]. destruct (existsb _ hash_lists) eqn:E; [|reflexivity]. exfalso. apply (NH eq_refl). apply existsb_exists in E. destruct E as (c & I & E). apply String.eqb_eq in E. now rewrite E. }
  rewrite E in T. cbn [orb] in T. apply andb_true_iff in T. destruct T as (T1 & T2). apply Z.leb_le in T2.
  apply (fields_terse py2 odd) in Hf; [|apply Forall_forall; intros; apply parse_terse|assumption|assumption|assumption|lia]. destruct Hf as (_ & w & Hw & Hx).
  unfold compound_text in H0. bind_inv H0. assert (x = bs "<" ++ bs (class_name (mt_id (m_type m))) ++ x0 ++ bs ">") as -> by congruence.
  specialize (Hx (m_fields m) x0 (fun _ _ => eq_refl) ND H). unfold text_line. rewrite !zlen_app.
  change (zlen (bs "<")) with 1. change (zlen (bs ">")) with 1. change (zlen (bs "(")) with 1. change (zlen (bs ") ")) with 2. change (zlen (bs "<<< ")) with 4. change (zlen [10]) with 1. unfold cost in Hx. clear - Hx T2 Hw Hz H20 S. pose proof (zlen_nonneg p). lia.
Qed.

(** What the messages received on connection [i] have left in the log of a node
    that logs all of them (connection.py:187-191), leaving out those above. *)
Definition briefb (py2 : bool) (m : message) : bool :=
  negb (String.eqb (mt_command (m_type m)) "alert") && negb (py2 && existsb (String.eqb (mt_command (m_type m))) hash_lists).
Definition shown_lines (sha256 : bytes -> bytes) (py2 : bool) (odd : pyval -> text) (source : text) (i : nat) (trace : list action) : text :=
  flat_map (fun a => match a with
                     | AMsg j m => if Nat.eqb j i && briefb py2 m
                                   then match log_text sha256 py2 odd (bs "<<< ") LOG_LEVEL_PROTOCOL m with Ok (Some t) => text_line source t | _ => [] end
                                   else []
                     | _ => []
                     end) trace.
Lemma briefb_ok py2 m : briefb py2 m = true -> brief py2 m.
Proof.
  unfold briefb, brief. intro H. apply andb_true_iff in H. destruct H as (A & B). split.
  - intro E. rewrite E in A. discriminate A.
  - intros -> I. cbn [andb] in B. apply negb_true_iff in B. rewrite <- not_true_iff_false in B. apply B. apply existsb_exists. exists (mt_command (m_type m)). split; [exact I|apply String.eqb_refl].
Qed.
Lemma shown_outcomes sha py2 odd source cf i fs : zlen source <= 256 -> Forall is_frame fs -> Forall wf_bytes fs -> zlen (shown_lines sha py2 odd source i (map (outcome sha cf i) fs)) <= 15 * zlen (concat fs).
Proof.
  intros S. induction 1 as [|f fs (L & _) _ IH]; intro W; [cbn; lia|]. apply Forall_cons_iff in W. destruct W as (Wf & W). specialize (IH W). cbn [map concat]. rewrite zlen_app. unfold shown_lines in *. cbn [flat_map]. rewrite zlen_app.
  match goal with |- zlen ?x + _ <= _ => assert (zlen x <= 15 * zlen f); [|lia] end. unfold outcome. destruct (msg_parse sha f (cf_magic cf)) as [m|e] eqn:P; [|destruct (is_invalid e); change (zlen (@nil Z)) with 0; lia].
  rewrite Nat.eqb_refl. cbn [andb]. destruct (briefb py2 m) eqn:B; [|change (zlen (@nil Z)) with 0; lia]. destruct (log_text sha py2 odd (bs "<<< ") LOG_LEVEL_PROTOCOL m) as [[t|]|] eqn:T; [|change (zlen (@nil Z)) with 0; lia|change (zlen (@nil Z)) with 0; lia].
  exact (C162_bounded_partial sha py2 odd f _ m source LOG_LEVEL_PROTOCOL t Wf P (briefb_ok _ _ B) (Z.le_refl _) T S).
Qed.
Lemma shown_frames sha py2 odd source i tr : shown_lines sha py2 odd source i tr = shown_lines sha py2 odd source i (frames_of i tr).
Proof.
  unfold shown_lines, frames_of. induction tr as [|a tr IH]; [reflexivity|]. cbn [flat_map filter]. rewrite IH. destruct a; try reflexivity; destruct (Nat.eqb i0 i) eqn:E; cbn [flat_map]; rewrite ?E; reflexivity.
Qed.
(** Over the life of a node the messages received on a connection leave at most
    fifteen characters for each byte received on it. *)
Theorem C162_history_partial : forall sha256 py2 odd cf es i c source, Forall wf_event es -> get_conn i (history sha256 py2 cf es) = Some c -> zlen source <= 256 ->
  zlen (shown_lines sha256 py2 odd source i (n_trace (history sha256 py2 cf es))) <= 15 * c_rx c.
Proof.
  intros sha py2 odd cf es i c source W G S. destruct (stream_inv_history sha py2 cf es W) as (I & _). specialize (I i). rewrite G in I. destruct I as ((fs & R & F & E) & WR & _ & X & _).
  rewrite shown_frames, E. assert (Forall wf_bytes fs) as Wfs. { rewrite R in WR. clear - WR. apply Forall_app in WR. destruct WR as (WR & _). induction fs as [|f fs IH]; [constructor|]. cbn [concat] in WR. apply Forall_app in WR. destruct WR as (A & B). constructor; [exact A|exact (IH B)]. }
  pose proof (shown_outcomes sha py2 odd source cf i fs S F Wfs). rewrite X, R, zlen_app. pose proof (zlen_nonneg (c_recv c)). lia.
Qed.

(** On Python 2 this is not so of the three: a frame of 33 bytes may leave a line
    of any length up to sixteen thousand million characters. *)
Lemma empty_hashes py2 odd n : map (ft_text py2 odd (FBytes 32)) (repeat (VBytes []) n) = repeat (Ok (PBytes (bs "0x"))) n.
Proof. induction n as [|n IH]; [reflexivity|]. cbn [repeat map]. rewrite IH. reflexivity. Qed.
Lemma sequence_repeat {A} (x : A) n : sequence (repeat (Ok x) n) = Ok (repeat x n).
Proof. induction n as [|n IH]; [reflexivity|]. cbn [repeat sequence bind]. rewrite IH. reflexivity. Qed.
Lemma join_repeat x n : zlen (join_text (bs ", ") (repeat x n)) >= zlen x * Z.of_nat n + 2 * (Z.of_nat n - 1).
Proof.
  induction n as [|n IH]; [cbn; lia|]. cbn [repeat join_text]. destruct n as [|n]; [cbn [repeat]; lia|]. change (repeat x (S n)) with (x :: repeat x n) at 1. cbn iota. rewrite !zlen_app. change (zlen (bs ", ")) with 2. lia.
Qed.
Lemma map_rep {A B} (f : A -> B) x n : map f (repeat x n) = repeat (f x) n.
Proof. induction n as [|n IH]; [reflexivity|]. cbn [repeat map]. now rewrite IH. Qed.
Theorem C162_bounded_refuted : forall sha256 odd magic n source, (forall x, 4 <= zlen (sha256 x)) -> zlen magic = 4 -> 0 <= n < 2 ^ 32 ->
  exists data m t, zlen data = 33 /\ msg_parse sha256 data magic = Ok m /\ log_text sha256 true odd (bs "<<< ") LOG_LEVEL_PROTOCOL m = Ok (Some t) /\ 4 * n <= zlen (text_line source t).
Proof.
  intros sha odd magic n source Hs Hm Hn. destruct (C138_bounded_refuted sha magic n Hs Hm Hn) as (data & m & Hd & P & C & A & _).
  assert (In (m_type m) registry) as R by (apply msg_parse_inv in P; cbn zeta in P; tauto).
  assert (m_type m = t_getblocks) as T.
  { clear - R C. destruct m as (ty, fs). cbn [m_type] in *. vm_compute in R. repeat (destruct R as [<-|R]; [solve [discriminate C|reflexivity]|]). destruct R. }
  apply msg_parse_inv in P as Q. cbn zeta in Q. destruct Q as (_ & _ & _ & _ & _ & q & Q).
  destruct m as (ty, fs). cbn [m_type m_fields] in *. subst ty.
  assert (exists v h, assoc "version" fs = Some (VInt v) /\ assoc "hash_stop" fs = Some (VBytes h)) as (v & h & Av & Ah).
  { clear - Q. cbn [t_getblocks mt_props fields_parse] in Q. destruct (parse (FNumber FI false false) _) as [(l1, v1)|] eqn:E1; [|discriminate]. bind_inv Q. destruct x as (o1, f1). destruct (parse (FArray _ _ _) _) as [(l2, v2)|] eqn:E2; [|discriminate]. bind_inv H. destruct x as (o2, f2). destruct (parse (FBytes 32) _) as [(l3, v3)|] eqn:E3; [|discriminate]. cbn [bind] in H0.
    apply ok_inj in Q, H, H0. cbn [parse] in E1, E3. unfold num_parse in E1. bind_inv E1. apply ok_inj in E1, E3. assert (fs = ("version", v1) :: f1) as -> by congruence. assert (f1 = ("block_locator_hashes", v2) :: f2) as -> by congruence. assert (f2 = [("hash_stop", v3)]) as -> by congruence.
    injection E1 as _ <-. injection E3 as _ <-. do 2 eexists. split; reflexivity. }
  set (k := Z.to_nat n) in *.
  exists data, (mk_message t_getblocks fs).
  eexists. split; [exact Hd|]. split; [exact P|]. split.
  - unfold log_text. change (LOG_LEVEL_PROTOCOL <=? LOG_LEVEL_PROTOCOL) with true. cbn iota. unfold message_text. cbn [m_type m_fields]. change (mt_id t_getblocks) with "GetBlocks". change (mt_props t_getblocks) with [ ("version", FNumber FI false false); ("block_locator_hashes", FArray (FBytes 32) (Some 1) None); ("hash_stop", FBytes 32) ].
    change (String.eqb "GetBlocks" "Alert") with false. cbn iota. unfold compound_text. cbn [fields_text]. rewrite Av, A, Ah.
    assert (ft_text true odd (FArray (FBytes 32) (Some 1) None) (VList (repeat (VBytes []) k)) = Ok (PText (bs "[" ++ join_text (bs ", ") (repeat (bs "0x") k) ++ bs "]"))) as ->.
    { transitivity (let! ps := sequence (map (ft_text true odd (FBytes 32)) (repeat (VBytes []) k)) in let! s := join_pieces true ps in Ok (PText (bs "[" ++ s ++ bs "]"))); [reflexivity|]. rewrite empty_hashes, sequence_repeat. cbn [bind]. unfold join_pieces. cbn [negb andb bind]. rewrite map_rep. reflexivity. }
    cbn [ft_text bind render]. reflexivity.
  - unfold text_line. rewrite !zlen_app. pose proof (join_repeat (bs "0x") k) as J. change (zlen (bs "0x")) with 2 in J. assert (Z.of_nat k = n) as K by (exact (Z2Nat.id n (proj1 Hn))). rewrite K in J. change (zlen (bs "[")) with 1. change (zlen (bs "]")) with 1.
    repeat match goal with |- context [zlen ?x] => lazymatch x with join_text _ _ => fail | _ => let q := fresh in pose proof (zlen_nonneg x) as q; generalize dependent (zlen x); intros end end.
    match goal with |- context [zlen (join_text ?a ?b)] => assert (zlen (join_text a b) >= 2 * n + 2 * (n - 1)) as J' by exact J; clear J; generalize dependent (zlen (join_text a b)); intros end. clear - J' H H0 H1 H2 H3 H4 H5 H6 H7 H8 H9 H10 H11 H12 H13 H14 H15. lia.
Qed.

(** A ping and a list of five addresses in the life of a node: 207 bytes that leave
    two lines of 416 characters. *)
Definition vx_life : list event := [EvAccept nx_a (1000 * SEC) nx_env; EvRead 0 (RData (nx_ping ++ nx_addrs 1 5)) 0 nx_clock].
Example C162_applies : forall odd, Forall wf_event vx_life /\ (exists c, get_conn 0 (history nx_sha false nx_cf vx_life) = Some c /\ c_rx c = 207) /\
  (exists m, msg_parse nx_sha nx_ping nx_magic = Ok m /\ brief false m) /\
  let s := shown_lines nx_sha false odd (bs "10.0.0.1:4000") 0 (n_trace (history nx_sha false nx_cf vx_life)) in
  firstn 46 s = bs "(10.0.0.1:4000) <<< <Ping nonce=b'0x0807060504" /\ zlen s = 416.
Proof.
  intro odd. assert (wf_bytes (nx_ping ++ nx_addrs 1 5)) as W by (apply wf_all; vm_compute; reflexivity).
  split; [constructor; [exact I|constructor; [exact W|constructor]]|]. split; [eexists; split; vm_compute; reflexivity|].
  split; [eexists; split; [vm_compute; reflexivity|split; [vm_compute; discriminate|discriminate]]|].
  cbv zeta. split; vm_compute; reflexivity.
Qed.

(** ** Assumptions *)

Print Assumptions C162_bounded_partial.
Print Assumptions C162_history_partial.
Print Assumptions C162_bounded_refuted.
