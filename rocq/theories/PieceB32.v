(** Base 32: the texts that [b32encode] writes are read back with the right
    padding, and only with that. *)
From Coq Require Import String ZArith List Lia Bool.
From Verif Require Import PyBase PyVal Base58Model PieceModel.
Import ListNotations.
Open Scope string_scope.
Open Scope list_scope.
Open Scope Z_scope.

Definition digit (d : Z) : Prop := 0 <= d < 32.
Lemma index_chr d : digit d -> index_of (b32_chr d) b32_alphabet 0 = Some d.
Proof.
  intro H. unfold digit in H. assert (forallb (fun d => match index_of (b32_chr d) b32_alphabet 0 with Some e => e =? d | None => false end) (map Z.of_nat (seq 0 32)) = true) as F by (vm_compute; reflexivity).
  rewrite forallb_forall in F. specialize (F d). assert (In d (map Z.of_nat (seq 0 32))) as I. { apply in_map_iff. exists (Z.to_nat d). split; [lia|]. apply in_seq. lia. }
  specialize (F I). destruct (index_of (b32_chr d) b32_alphabet 0) as [e|]; [|discriminate]. f_equal. now apply Z.eqb_eq.
Qed.
Lemma chr_not_pad d : digit d -> b32_chr d <> 61.
Proof. intros H E. pose proof (index_chr d H) as I. rewrite E in I. vm_compute in I. discriminate I. Qed.
Lemma digits_ok v : Forall digit (b32_digits v).
Proof. unfold b32_digits. cbn [map]. repeat (constructor; [apply Z.mod_pos_bound; lia|]). constructor. Qed.
(** One quantum. *)
Lemma digits_value v : 0 <= v < 2 ^ 40 ->
  exists d7 d6 d5 d4 d3 d2 d1 d0, b32_digits v = [d7; d6; d5; d4; d3; d2; d1; d0] /\
    v = d7 * 2 ^ 35 + d6 * 2 ^ 30 + d5 * 2 ^ 25 + d4 * 2 ^ 20 + d3 * 2 ^ 15 + d2 * 2 ^ 10 + d1 * 2 ^ 5 + d0.
Proof.
  intro H. unfold b32_digits. cbn [map]. do 8 eexists. split; [reflexivity|].
  assert (forall i, 0 <= i -> v / 32 ^ i = 32 * (v / 32 ^ (i + 1)) + v / 32 ^ i mod 32) as L. { intros i Hi. rewrite Z.pow_add_r by lia. rewrite <- Z.div_div by (try apply Z.pow_nonzero; lia). apply Z.div_mod. lia. }
  pose proof (L 0 ltac:(lia)) as L0. pose proof (L 1 ltac:(lia)) as L1. pose proof (L 2 ltac:(lia)) as L2. pose proof (L 3 ltac:(lia)) as L3. pose proof (L 4 ltac:(lia)) as L4. pose proof (L 5 ltac:(lia)) as L5. pose proof (L 6 ltac:(lia)) as L6. pose proof (L 7 ltac:(lia)) as L7.
  change (0 + 1) with 1 in *. change (1 + 1) with 2 in *. change (2 + 1) with 3 in *. change (3 + 1) with 4 in *. change (4 + 1) with 5 in *. change (5 + 1) with 6 in *. change (6 + 1) with 7 in *. change (7 + 1) with 8 in *.
  assert (v / 32 ^ 8 = 0) as L8 by (apply Z.div_small; exact H). assert (v / 32 ^ 0 = v) as LV by (apply Z.div_1_r). clear L.
  set (x0 := v / 32 ^ 0) in *. set (x1 := v / 32 ^ 1) in *. set (x2 := v / 32 ^ 2) in *. set (x3 := v / 32 ^ 3) in *. set (x4 := v / 32 ^ 4) in *. set (x5 := v / 32 ^ 5) in *. set (x6 := v / 32 ^ 6) in *. set (x7 := v / 32 ^ 7) in *. set (x8 := v / 32 ^ 8) in *.
  change (2 ^ 35) with 34359738368. change (2 ^ 30) with 1073741824. change (2 ^ 25) with 33554432. change (2 ^ 20) with 1048576. change (2 ^ 15) with 32768. change (2 ^ 10) with 1024. change (2 ^ 5) with 32.
  generalize dependent (x0 mod 32). generalize dependent (x1 mod 32). generalize dependent (x2 mod 32). generalize dependent (x3 mod 32). generalize dependent (x4 mod 32). generalize dependent (x5 mod 32). generalize dependent (x6 mod 32). generalize dependent (x7 mod 32).
  clearbody x0 x1 x2 x3 x4 x5 x6 x7 x8. intros. lia.
Qed.
Lemma read_step sh' d s acc sh out : digit d -> sh' = sh - 5 -> 0 <= sh' -> b32_read (b32_chr d :: s) acc sh out = b32_read s (acc + d * 2 ^ sh) sh' out.
Proof. intros H -> H'. cbn [b32_read]. rewrite index_chr by assumption. cbv zeta. destruct (Z.ltb_spec (sh - 5) 0); [lia|reflexivity]. Qed.
Lemma read_last d s acc out : digit d -> b32_read (b32_chr d :: s) acc 0 out = b32_read s 0 35 (out ++ be_bytes 5 (acc + d)).
Proof. intros H. cbn [b32_read]. rewrite index_chr by assumption. cbv zeta. destruct (Z.ltb_spec (0 - 5) 0); [|lia]. now rewrite Z.pow_0_r, Z.mul_1_r. Qed.
Lemma read_quantum v r out : 0 <= v < 2 ^ 40 -> b32_read (map b32_chr (b32_digits v) ++ r) 0 35 out = b32_read r 0 35 (out ++ be_bytes 5 v).
Proof.
  intro H. destruct (digits_value v H) as (d7 & d6 & d5 & d4 & d3 & d2 & d1 & d0 & E & V). pose proof (digits_ok v) as F. rewrite E in *.
  repeat match goal with F : Forall digit (_ :: _) |- _ => let A := fresh "D" in let B := fresh "F" in apply Forall_cons_iff in F; destruct F as (A & B) end.
  cbn [map app]. rewrite (read_step 30), (read_step 25), (read_step 20), (read_step 15), (read_step 10), (read_step 5), (read_step 0), read_last by (assumption || lia). do 3 f_equal. lia.
Qed.
(** The first digits, when the others are zero. *)
Lemma read_part v m out : 0 <= v < 2 ^ 40 -> 0 <= m < 8 -> v mod 32 ^ (8 - m) = 0 -> b32_read (map b32_chr (ztake m (b32_digits v))) 0 35 out = Ok (v, out).
Proof.
  intros H Hm Hz. destruct (digits_value v H) as (d7 & d6 & d5 & d4 & d3 & d2 & d1 & d0 & E & V). pose proof (digits_ok v) as F. rewrite E in *.
  repeat match goal with F : Forall digit (_ :: _) |- _ => let A := fresh "D" in let B := fresh "F" in apply Forall_cons_iff in F; destruct F as (A & B) end. unfold digit in *.
  change (2 ^ 35) with 34359738368 in V. change (2 ^ 30) with 1073741824 in V. change (2 ^ 25) with 33554432 in V. change (2 ^ 20) with 1048576 in V. change (2 ^ 15) with 32768 in V. change (2 ^ 10) with 1024 in V. change (2 ^ 5) with 32 in V.
  apply Z.mod_divide in Hz; [|apply Z.pow_nonzero; lia]. destruct Hz as (q & Hz).
  assert (m = 0 \/ m = 1 \/ m = 2 \/ m = 3 \/ m = 4 \/ m = 5 \/ m = 6 \/ m = 7) as C by lia.
  destruct C as [->|[->|[->|[->|[->|[->|[->| ->]]]]]]]; cbn [ztake map Z.leb Z.compare Z.sub Z.add Z.opp Z.pos_sub Pos.pred_double Pos.compare Pos.compare_cont];
    rewrite ?(read_step 30), ?(read_step 25), ?(read_step 20), ?(read_step 15), ?(read_step 10), ?(read_step 5), ?(read_step 0) by (assumption || (unfold digit; lia)); cbn [b32_read]; f_equal; f_equal;
    change (2 ^ 35) with 34359738368; change (2 ^ 30) with 1073741824; change (2 ^ 25) with 33554432; change (2 ^ 20) with 1048576; change (2 ^ 15) with 32768; change (2 ^ 10) with 1024; change (2 ^ 5) with 32;
    match type of Hz with _ = _ * ?e => let e' := eval vm_compute in e in change e with e' in Hz end; lia.
Qed.

Lemma be5_range s : wf_bytes s -> zlen s = 5 -> 0 <= be_val s < 2 ^ 40.
Proof. intros W L. pose proof (be_val_bound s W) as B. rewrite L in B. exact B. Qed.
Lemma be5_back s : wf_bytes s -> zlen s = 5 -> be_bytes 5 (be_val s) = s.
Proof. intros W L. rewrite <- (be_bytes_be_val s W) at 2. f_equal. unfold zlen in L. lia. Qed.
Lemma quanta_read q s r out : wf_bytes s -> zlen s = 5 * Z.of_nat q -> b32_read (b32_quanta q s ++ r) 0 35 out = b32_read r 0 35 (out ++ s).
Proof.
  revert s out. induction q as [|q IH]; intros s out W L; [destruct s; [now rewrite app_nil_r|rewrite zlen_cons in L; pose proof (zlen_nonneg s); lia]|]. cbn [b32_quanta].
  assert (ztake 5 s ++ zdrop 5 s = s) as E by apply ztake_zdrop. assert (wf_bytes (ztake 5 s)) as W1 by now apply Forall_ztake. assert (wf_bytes (zdrop 5 s)) as W2 by now apply Forall_zdrop.
  assert (zlen (ztake 5 s) = 5) as L1 by (rewrite zlen_ztake by lia; lia). assert (zlen (zdrop 5 s) = 5 * Z.of_nat q) as L2 by (rewrite zlen_zdrop by lia; lia).
  rewrite <- app_assoc, read_quantum by now apply be5_range. rewrite be5_back by assumption. rewrite IH by assumption. now rewrite <- app_assoc, E.
Qed.
Lemma digits_len v : zlen (map b32_chr (b32_digits v)) = 8. Proof. reflexivity. Qed.
Lemma quanta_len q s : zlen (b32_quanta q s) = 8 * Z.of_nat q.
Proof. revert s. induction q as [|q IH]; intro s; [reflexivity|]. cbn [b32_quanta]. rewrite zlen_app, digits_len, IH. lia. Qed.
Definition no_pad (t : bytes) : Prop := Forall (fun ch => ch <> 61) t.
Lemma chrs_no_pad ds : Forall digit ds -> no_pad (map b32_chr ds).
Proof. induction 1; [constructor|]. cbn [map]. constructor; [now apply chr_not_pad|assumption]. Qed.
Lemma quanta_no_pad q s : no_pad (b32_quanta q s).
Proof. revert s. induction q as [|q IH]; intro s; [constructor|]. cbn [b32_quanta]. apply Forall_app. split; [apply chrs_no_pad, digits_ok|apply IH]. Qed.
Lemma quanta_snoc q s s' : zlen s = 5 * Z.of_nat q -> zlen s' = 5 -> b32_quanta (S q) (s ++ s') = b32_quanta q s ++ map b32_chr (b32_digits (be_val s')).
Proof.
  revert s. induction q as [|q IH]; intros s L L'.
  - destruct s; [|rewrite zlen_cons in L; pose proof (zlen_nonneg s); lia]. cbn [b32_quanta app]. rewrite ztake_all by lia. now rewrite app_nil_r.
  - change (b32_quanta (S (S q)) (s ++ s')) with (map b32_chr (b32_digits (be_val (ztake 5 (s ++ s')))) ++ b32_quanta (S q) (zdrop 5 (s ++ s'))).
    assert (ztake 5 (s ++ s') = ztake 5 s) as ->. { rewrite <- (ztake_zdrop s 5) at 1. rewrite <- app_assoc. apply ztake_app_exact. rewrite zlen_ztake by lia. lia. }
    assert (zdrop 5 (s ++ s') = zdrop 5 s ++ s') as ->. { rewrite <- (ztake_zdrop s 5) at 1. rewrite <- app_assoc. apply zdrop_app_exact. rewrite zlen_ztake by lia. lia. }
    rewrite IH; [|rewrite zlen_zdrop by lia; lia|exact L']. cbn [b32_quanta]. now rewrite app_assoc.
Qed.
Lemma lstrip_no_pad t : no_pad t -> lstrip 61 t = t.
Proof. destruct 1 as [|ch t N F]; [reflexivity|]. cbn [lstrip]. destruct (Z.eqb_spec ch 61); [contradiction|reflexivity]. Qed.
Lemma lstrip_pads k t : no_pad t -> lstrip 61 (repeat 61 k ++ t) = t.
Proof. intro N. induction k as [|k IH]; [now apply lstrip_no_pad|]. exact IH. Qed.
Lemma repeat_rev {A} (x : A) k : rev (repeat x k) = repeat x k.
Proof. induction k as [|k IH]; [reflexivity|]. cbn [repeat rev]. rewrite IH. symmetry. exact (repeat_cons k x). Qed.
Lemma rstrip_pads k t : no_pad t -> rev (lstrip 61 (rev (t ++ repeat 61 k))) = t.
Proof. intro N. rewrite rev_app_distr, repeat_rev, lstrip_pads by now apply Forall_rev. apply rev_involutive. Qed.
Lemma strip_pads k t : no_pad t -> strip_pad (t ++ repeat 61 k) = t.
Proof.
  intro N. unfold strip_pad. destruct t as [|ch t].
  - cbn [app]. rewrite <- (app_nil_r (repeat 61 k)), lstrip_pads by constructor. reflexivity.
  - inversion N as [|? ? Nc N']; subst. change ((ch :: t) ++ repeat 61 k) with (ch :: (t ++ repeat 61 k)). cbn [lstrip]. destruct (Z.eqb_spec ch 61); [contradiction|]. exact (rstrip_pads k (ch :: t) N).
Qed.

Lemma be_val_zeros k : be_val (repeat 0 k) = 0.
Proof. induction k as [|k IH]; [reflexivity|]. cbn [repeat]. rewrite be_val_cons, IH. lia. Qed.
(** The text of [s] and the padding it needs. *)
Theorem b32_text s : wf_bytes s -> exists t, strip_pad (b32encode s) = t /\ zlen t = (8 * zlen s + 4) / 5 /\ no_pad t /\
  forall p, b32decode (t ++ repeat 61 p) = if Z.of_nat p =? (- zlen t) mod 8 then Ok s else Raise TypeError.
Proof.
  intro W. pose proof (zlen_nonneg s) as Nn. set (q := Z.to_nat (zlen s / 5)). set (l := zlen s mod 5). assert (zlen s = 5 * Z.of_nat q + l) as L. { unfold q, l. rewrite Z2Nat.id by (apply Z.div_pos; lia). apply Z.div_mod. lia. }
  pose proof (Z.mod_pos_bound (zlen s) 5 ltac:(lia)) as Hl. fold l in Hl.
  set (s1 := ztake (5 * Z.of_nat q) s). set (s2 := zdrop (5 * Z.of_nat q) s). assert (s = s1 ++ s2) as Es by (symmetry; apply ztake_zdrop).
  assert (zlen s1 = 5 * Z.of_nat q) as L1 by (unfold s1; rewrite zlen_ztake by lia; lia). assert (zlen s2 = l) as L2 by (unfold s2; rewrite zlen_zdrop by lia; lia).
  assert (wf_bytes s1) as W1 by now apply Forall_ztake. assert (wf_bytes s2) as W2 by now apply Forall_zdrop.
  (* the text, with m digits for the last l bytes *)
  assert (exists m v, m = (8 * l + 4) / 5 /\ strip_pad (b32encode s) = b32_quanta q s1 ++ map b32_chr (ztake m (b32_digits v)) /\ (l <> 0 -> 0 <= v < 2 ^ 40 /\ v mod 32 ^ (8 - m) = 0 /\ ztake l (be_bytes 5 v) = s2)) as (m & v & Em & Et & Hv).
  { unfold b32encode. fold l. cbv zeta. destruct (Z.eqb_spec l 0) as [Hz|Hz].
    - exists 0, 0. rewrite Hz in *. split; [reflexivity|]. split; [|congruence]. change (Z.to_nat 0) with 0%nat. cbn [repeat]. rewrite app_nil_r. fold q. cbn [Z.eqb]. rewrite Z.sub_0_r, ztake_all by lia. change (repeat 61 (Z.to_nat 0)) with (@nil Z).
      assert (s = s1) as <- by (rewrite Es; destruct s2; [now rewrite app_nil_r|rewrite zlen_cons in L2; pose proof (zlen_nonneg s2); lia]). transitivity (b32_quanta q s); [rewrite !app_nil_r; fold q; rewrite <- (app_nil_r (b32_quanta q s)) at 1; exact (strip_pads 0 _ (quanta_no_pad q s))|]. assert (ztake 0 (b32_digits 0) = []) as -> by reflexivity. symmetry. apply app_nil_r.
    - set (z := repeat 0 (Z.to_nat (5 - l))). assert (zlen z = 5 - l) as Lz by (unfold z; rewrite zlen_repeat; lia). assert (wf_bytes z) as Wz by (apply Forall_forall; intros b Hb; apply repeat_spec in Hb; rewrite Hb; unfold is_byte; lia).
      assert (zlen (s2 ++ z) = 5) as L5 by (rewrite zlen_app; lia). assert (wf_bytes (s2 ++ z)) as W5 by (apply wf_bytes_app; now split).
      exists ((8 * l + 4) / 5), (be_val (s2 ++ z)). split; [reflexivity|]. split.
      + assert (s ++ z = s1 ++ s2 ++ z) as -> by (rewrite Es at 1; now rewrite <- app_assoc). assert (Z.to_nat (zlen (s1 ++ s2 ++ z) / 5) = S q) as ->. { rewrite zlen_app, L1, L5. replace (5 * Z.of_nat q + 5) with ((Z.of_nat q + 1) * 5) by lia. rewrite Z.div_mul by lia. lia. }
        rewrite quanta_snoc by assumption. set (Q := b32_quanta q s1). set (D := b32_digits (be_val (s2 ++ z))).
        set (dr := if l =? 1 then 6 else if l =? 2 then 4 else if l =? 3 then 3 else if l =? 4 then 1 else 0).
        assert (8 - dr = (8 * l + 4) / 5) as Edr. { assert (l = 1 \/ l = 2 \/ l = 3 \/ l = 4) as C by lia. unfold dr. destruct C as [->|[->|[->| ->]]]; reflexivity. }
        assert (0 <= dr <= 8) as Hdr by (unfold dr; repeat destruct (_ =? _); lia).
        assert (ztake (zlen (Q ++ map b32_chr D) - dr) (Q ++ map b32_chr D) = Q ++ map b32_chr (ztake ((8 * l + 4) / 5) D)) as ->.
        { rewrite <- Edr. rewrite zlen_app. change (zlen (map b32_chr D)) with 8. rewrite <- (ztake_zdrop D (8 - dr)) at 1. rewrite map_app, app_assoc. apply ztake_app_exact. rewrite zlen_app. unfold zlen at 3. rewrite map_length. change (Z.of_nat (List.length (ztake (8 - dr) D))) with (zlen (ztake (8 - dr) D)). rewrite zlen_ztake by lia. change (zlen D) with 8. lia. }
        apply strip_pads. apply Forall_app. split; [apply quanta_no_pad|]. apply chrs_no_pad. apply Forall_ztake. apply digits_ok.
      + intros _. split; [now apply be5_range|]. split.
        * rewrite be_val_app, Lz. assert (be_val z = 0) as -> by (unfold z; apply be_val_zeros). rewrite Z.add_0_r. assert (l = 1 \/ l = 2 \/ l = 3 \/ l = 4) as C by lia. apply Z.mod_divide; [apply Z.pow_nonzero; [lia|destruct C as [->|[->|[->| ->]]]; discriminate]|].
          destruct C as [->|[->|[->| ->]]]; [exists (be_val s2 * 4)|exists (be_val s2 * 16)|exists (be_val s2 * 2)|exists (be_val s2 * 8)]; rewrite <- Z.mul_assoc; f_equal.
        * rewrite be5_back by assumption. apply ztake_app_exact. lia. }
  exists (strip_pad (b32encode s)). split; [reflexivity|]. rewrite Et. set (t := b32_quanta q s1 ++ map b32_chr (ztake m (b32_digits v))).
  assert (0 <= m < 8) as Hm by (rewrite Em; split; [apply Z.div_pos; lia|apply Z.div_lt_upper_bound; lia]).
  assert (zlen t = 8 * Z.of_nat q + m) as Lt. { unfold t. rewrite zlen_app, quanta_len. f_equal. unfold zlen. rewrite map_length. change (Z.of_nat (List.length (ztake m (b32_digits v)))) with (zlen (ztake m (b32_digits v))). rewrite zlen_ztake by lia. change (zlen (b32_digits v)) with 8. lia. }
  assert (no_pad t) as Np. { unfold t. apply Forall_app. split; [apply quanta_no_pad|]. apply chrs_no_pad. apply Forall_ztake. apply digits_ok. }
  split; [rewrite Lt, L, Em; replace (8 * (5 * Z.of_nat q + l) + 4) with (8 * l + 4 + (8 * Z.of_nat q) * 5) by lia; rewrite Z.div_add by lia; lia|]. split; [exact Np|]. intro p.
  assert ((- zlen t) mod 8 = if m =? 0 then 0 else 8 - m) as ->.
  { rewrite Lt. replace (- (8 * Z.of_nat q + m)) with (- m + (- Z.of_nat q) * 8) by lia. rewrite Z.mod_add by lia. destruct (Z.eqb_spec m 0) as [->|]; [reflexivity|]. symmetry. apply (Z.mod_unique _ _ (-1)); lia. }
  unfold b32decode. rewrite rstrip_pads by exact Np. assert (b32_read t 0 35 [] = Ok (if m =? 0 then 0 else v, s1)) as ->.
  { unfold t. rewrite quanta_read by assumption. cbn [app]. destruct (Z.eqb_spec m 0) as [->|Nm]; [destruct (b32_digits v); reflexivity|]. destruct (Hv ltac:(intros ->; apply Nm; exact Em)) as (Rv & Zv & _). now apply read_part. }
  rewrite zlen_app, zlen_repeat. cbv zeta. cbn [bind fst snd]. replace (zlen t + Z.of_nat p - zlen t) with (Z.of_nat p) by lia.
  assert (l = 0 /\ m = 0 \/ l = 1 /\ m = 2 \/ l = 2 /\ m = 4 \/ l = 3 /\ m = 5 \/ l = 4 /\ m = 7) as Cm. { assert (l = 0 \/ l = 1 \/ l = 2 \/ l = 3 \/ l = 4) as C by lia. rewrite Em. clear - C. destruct C as [->|[->|[->|[->| ->]]]]; vm_compute; tauto. }
  rewrite Lt. destruct (Z.eqb_spec (Z.of_nat p) (if m =? 0 then 0 else 8 - m)) as [Hp|Hp].
  - assert ((8 * Z.of_nat q + m + Z.of_nat p) mod 8 = 0) as ->. { apply Z.mod_divide; [lia|]. destruct (Z.eqb_spec m 0); [exists (Z.of_nat q)|exists (Z.of_nat q + 1)]; lia. }
    cbn [Z.eqb negb]. rewrite Hp. destruct (Z.eq_dec l 0) as [Hz|Hz].
    + destruct Cm as [(_ & ->)|Cm]; [|exfalso; lia]. cbn [Z.eqb]. f_equal. rewrite Es. destruct s2; [symmetry; apply app_nil_r|rewrite zlen_cons in L2; pose proof (zlen_nonneg s2); lia].
    + destruct (Hv Hz) as (_ & _ & T). rewrite Es. destruct Cm as [(? & _)|[(El & Eq)|[(El & Eq)|[(El & Eq)|(El & Eq)]]]]; [contradiction| | | |]; rewrite El in T; rewrite Eq; cbn [Z.eqb Z.sub Z.add Z.opp Z.pos_sub Pos.pred_double Pos.eqb]; rewrite T; reflexivity.
  - destruct (Z.eqb_spec ((8 * Z.of_nat q + m + Z.of_nat p) mod 8) 0) as [H8|H8]; [|reflexivity]. cbn [negb]. apply Z.mod_divide in H8; [|lia]. destruct H8 as (g & Hg).
    assert (Z.of_nat p <> 0 /\ Z.of_nat p <> 1 /\ Z.of_nat p <> 3 /\ Z.of_nat p <> 4 /\ Z.of_nat p <> 6) as (A0 & A1 & A3 & A4 & A6) by (destruct (Z.eqb_spec m 0); lia).
    apply Z.eqb_neq in A0, A1, A3, A4, A6. rewrite A0, A1, A3, A4, A6. reflexivity.
Qed.
