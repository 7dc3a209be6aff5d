(** Proofs about format.py's codecs. *)
From Coq Require Import String ZArith List Lia Bool.
From Verif Require Import PyBase PyVal PyTextProofs FormatModel FormatSpec.
Import ListNotations.
Open Scope string_scope.
Open Scope list_scope.
Open Scope Z_scope.

(** * Induction over field types *)
Section FtInd.
  Variable P : ft -> Prop.
  Hypothesis Hnum : forall f b a, P (FNumber f b a).
  Hypothesis Hvi : P FVarInt.
  Hypothesis Hip : P FIP.
  Hypothesis Hby : forall n, P (FBytes n).
  Hypothesis Hvs : P FVarStr.
  Hypothesis Harr : forall c a b, P c -> P (FArray c a b).
  Hypothesis Hcomp : forall c ps, Forall (fun e => P (snd e)) ps -> P (FCompound c ps).
  Hypothesis Hcompn : forall c ps, Forall (fun e => P (snd e)) ps -> P (FCompoundNoTs c ps).
  Hypothesis Hopt : forall c d, P c -> P (FOptional c d).
  Fixpoint ft_ind' (t : ft) : P t :=
    let props := fix props (ps : list (string * ft)) : Forall (fun e => P (snd e)) ps :=
      match ps with
      | [] => Forall_nil _
      | e :: r => Forall_cons e (ft_ind' (snd e)) (props r)
      end in
    match t with
    | FNumber f b a => Hnum f b a
    | FVarInt => Hvi
    | FIP => Hip
    | FBytes n => Hby n
    | FVarStr => Hvs
    | FArray c a b => Harr c a b (ft_ind' c)
    | FCompound c ps => Hcomp c ps (props ps)
    | FCompoundNoTs c ps => Hcompn c ps (props ps)
    | FOptional c d => Hopt c d (ft_ind' c)
    end.
End FtInd.

(** * Nested fixpoints are the named ones *)
Lemma binary_compound c ps c' fs : binary (FCompound c ps) (VObj c' fs) = fields_binary ps fs.
Proof.
  cbn [binary]. induction ps as [|(k, vt) r IH]; [reflexivity|].
  cbn [fields_binary]. destruct (assoc k fs); [|reflexivity].
  destruct (binary vt p); [|reflexivity]. cbn [bind]. rewrite IH; reflexivity.
Qed.
Lemma binary_compoundnots c ps c' fs :
  binary (FCompoundNoTs c ps) (VObj c' fs) = (let! b := fields_binary ps fs in Ok (zdrop 4 b)).
Proof. rewrite <- (binary_compound c ps c' fs). reflexivity. Qed.

Lemma parse_compound c ps data :
  parse (FCompound c ps) data = (let! (off, fs) := fields_parse ps 0 data in Ok (off, VObj c fs)).
Proof.
  cbn [parse]. match goal with |- bind (?f _ _ _) _ = _ => assert (forall ps off, f ps off data = fields_parse ps off data) as E end.
  { clear ps. induction ps as [|(k, vt) r IH]; intro off; [reflexivity|].
    cbn [fields_parse]. destruct (parse vt (zdrop off data)) as [(len, x)|]; [|reflexivity].
    rewrite IH; reflexivity. }
  now rewrite E.
Qed.
Lemma parse_compoundnots c ps data :
  parse (FCompoundNoTs c ps) data =
  (let! (off, fs) := fields_parse ps 0 ([0;0;0;0] ++ data) in Ok (off - 4, VObj c fs)).
Proof.
  cbn [parse]. match goal with |- bind (?f _ _ _) _ = _ => assert (forall d ps off, f ps off d = fields_parse ps off d) as E end.
  { clear. intro d. induction ps as [|(k, vt) r IH]; intro off; [reflexivity|].
    cbn [fields_parse]. destruct (parse vt (zdrop off d)) as [(len, x)|]; [|reflexivity].
    rewrite IH; reflexivity. }
  now rewrite E.
Qed.
Lemma canon_compound c ps c' fs : canon (FCompound c ps) (VObj c' fs) = VObj c (canon_fields ps fs).
Proof. reflexivity. Qed.
Lemma canon_compoundnots c ps c' fs :
  canon (FCompoundNoTs c ps) (VObj c' fs) =
  match canon_fields ps fs with (k, _) :: r => VObj c ((k, VInt 0) :: r) | [] => VObj c [] end.
Proof. reflexivity. Qed.
Lemma wt_compound_go ps fs :
  (fix go ps fs := match ps, fs with
            | [], [] => True
            | (k, vt) :: ps', (k', x) :: fs' => k' = k /\ wt vt x /\ go ps' fs'
            | _, _ => False
            end) ps fs <-> wt_fields ps fs.
Proof.
  revert fs. induction ps as [|(k, vt) r IH]; intros [|(k', x) fs]; cbn; try tauto; specialize (IH fs); tauto.
Qed.
Lemma wt_compound c ps v : wt (FCompound c ps) v <-> exists fs, v = VObj c fs /\ wt_fields ps fs.
Proof.
  split.
  - destruct v; cbn; try contradiction. intros (-> & H). exists fields. split; [reflexivity|]. now apply wt_compound_go in H.
  - intros (fs & -> & H). cbn. split; [reflexivity|]. now apply wt_compound_go.
Qed.
Lemma wt_compoundnots c ps v : wt (FCompoundNoTs c ps) v <-> exists fs, v = VObj c fs /\ wt_fields ps fs.
Proof. exact (wt_compound c ps v). Qed.
Lemma ok_varints_compound l c ps c' fs :
  ok_varints l (FCompound c ps) (VObj c' fs) <-> ok_varints_fields l ps fs.
Proof.
  cbn [ok_varints]. revert fs. induction ps as [|(k, vt) r IH]; intros [|(k', x) fs]; cbn; try tauto; specialize (IH fs); tauto.
Qed.

(** * struct *)
Lemma struct_pack_ok f big x b : struct_pack f big x = Ok b ->
  fst (struct_range f) <= x < snd (struct_range f) /\
  b = (if big then be_bytes (nf_len f) x else le_bytes (nf_len f) x).
Proof.
  unfold struct_pack. destruct (struct_range f) as (lo, hi). cbn [fst snd].
  destruct (_ && _) eqn:E; [|discriminate]. intro H; inv H. split; [lia|reflexivity].
Qed.
Lemma struct_pack_in f big x : fst (struct_range f) <= x < snd (struct_range f) ->
  struct_pack f big x = Ok (if big then be_bytes (nf_len f) x else le_bytes (nf_len f) x).
Proof.
  unfold struct_pack. destruct (struct_range f) as (lo, hi). cbn [fst snd]. intro.
  replace (_ && _) with true by lia. reflexivity.
Qed.
Lemma zlen_pack f big x b : struct_pack f big x = Ok b -> zlen b = Z.of_nat (nf_len f).
Proof.
  intro H. apply struct_pack_ok in H. destruct H as (_ & ->).
  destruct big; [apply zlen_be_bytes|apply zlen_le_bytes].
Qed.
Lemma struct_range_cases f :
  struct_range f = (if nf_signed f then - (256 ^ Z.of_nat (nf_len f) / 2) else 0,
                    if nf_signed f then 256 ^ Z.of_nat (nf_len f) / 2 else 256 ^ Z.of_nat (nf_len f)).
Proof. unfold struct_range. destruct (nf_signed f); reflexivity. Qed.

Lemma mod_signed m x : 0 < m -> - (m / 2) <= x < m / 2 -> (2 | m) ->
  (if m / 2 <=? x mod m then x mod m - m else x mod m) = x.
Proof.
  intros Hm Hx (k & ->). rewrite Z.div_mul in * by lia.
  destruct (Z_lt_le_dec x 0).
  - replace (x mod (k * 2)) with (x + k * 2).
    + destruct (Z.leb_spec k (x + k * 2)); lia.
    + symmetry. rewrite <- (Z.mod_add x 1 (k*2)) by lia. rewrite Z.mod_small; lia.
  - rewrite Z.mod_small by lia. destruct (Z.leb_spec k x); lia.
Qed.

Lemma struct_unpack_pack f big x b : struct_pack f big x = Ok b -> struct_unpack f big b = Ok x.
Proof.
  intro H. pose proof (zlen_pack _ _ _ _ H) as Hl. apply struct_pack_ok in H. destruct H as (Hr & ->).
  unfold struct_unpack. rewrite Hl, Z.eqb_refl.
  assert ((if big then be_val (if big then be_bytes (nf_len f) x else le_bytes (nf_len f) x)
           else le_val (if big then be_bytes (nf_len f) x else le_bytes (nf_len f) x))
          = x mod 256 ^ Z.of_nat (nf_len f)) as ->.
  { destruct big; [unfold be_val, be_bytes; rewrite rev_involutive|]; apply le_val_le_bytes. }
  rewrite struct_range_cases in Hr. cbn [fst snd] in Hr. f_equal.
  destruct (nf_signed f) eqn:S.
  - cbn [andb]. apply mod_signed; [apply pow256_pos|lia|].
    destruct f; cbn in S; try discriminate; cbn [nf_len].
    + exists 128; reflexivity. + exists 32768; reflexivity.
    + exists 2147483648; reflexivity. + exists 9223372036854775808; reflexivity.
  - cbn [andb]. apply Z.mod_small. lia.
Qed.

Lemma struct_unpack_in f big d x : wf_bytes d -> struct_unpack f big d = Ok x ->
  fst (struct_range f) <= x < snd (struct_range f) /\ struct_pack f big x = Ok d.
Proof.
  intros Hw. unfold struct_unpack. destruct (Z.eqb_spec (zlen d) (Z.of_nat (nf_len f))) as [Hl|]; [|discriminate].
  intro H; injection H as H.
  set (u := if big then be_val d else le_val d) in *.
  assert (0 <= u < 256 ^ Z.of_nat (nf_len f)) as Hu.
  { rewrite <- Hl. unfold u. destruct big; [now apply be_val_bound|now apply le_val_bound]. }
  assert (fst (struct_range f) <= x < snd (struct_range f)) as Hr.
  { rewrite struct_range_cases. cbn [fst snd].
    assert (0 < 256 ^ Z.of_nat (nf_len f) /\ 2 * (256 ^ Z.of_nat (nf_len f) / 2) = 256 ^ Z.of_nat (nf_len f)) as (Hp & H2)
      by (destruct f; cbn; lia).
    destruct (nf_signed f); cbn [andb] in H; [|lia].
    destruct (Z.leb_spec (256 ^ Z.of_nat (nf_len f) / 2) u); lia. }
  split; [assumption|]. rewrite struct_pack_in by assumption. f_equal.
  assert (x mod 256 ^ Z.of_nat (nf_len f) = u) as Hx.
  { rewrite <- H. destruct (_ && _).
    - replace (u - 256 ^ Z.of_nat (nf_len f)) with (u + (-1) * 256 ^ Z.of_nat (nf_len f)) by lia.
      rewrite Z.mod_add by (pose proof (pow256_pos (nf_len f)); lia). now apply Z.mod_small.
    - now apply Z.mod_small. }
  assert (nf_len f = List.length d) as Hn by (unfold zlen in Hl; lia).
  assert (forall n y z, y mod 256 ^ Z.of_nat n = z mod 256 ^ Z.of_nat n -> le_bytes n y = le_bytes n z) as Hcong.
  { intros n y z E. apply le_val_inj; try apply wf_le_bytes.
    - now rewrite !zlen_le_bytes. - now rewrite !le_val_le_bytes. }
  assert (le_bytes (nf_len f) x = le_bytes (nf_len f) u) as Hb.
  { apply Hcong. rewrite Hx. symmetry. now apply Z.mod_small. }
  unfold be_bytes. rewrite Hb, Hn. unfold u. destruct big.
  - apply be_bytes_be_val in Hw. exact Hw.
  - now apply le_bytes_le_val.
Qed.

Lemma nf_range_struct f : nf_range f = struct_range f.
Proof. destruct f; reflexivity. Qed.

(** * Variable-length integers *)
Lemma varint_binary_len x b : varint_binary x = Ok b -> 1 <= zlen b <= 9.
Proof.
  unfold varint_binary.
  destruct (x <? 0xfd); [intro H; apply zlen_pack in H; cbn in H; lia|].
  destruct (x <? 0xffff); [|destruct (x <? 0xffffffff)];
    (intro H; bind_inv H; apply zlen_pack in H0; cbn in H0; inv H; rewrite zlen_cons; lia).
Qed.

Lemma varint_roundtrip x b rest : x < 0xffffffff -> varint_binary x = Ok b ->
  varint_parse (b ++ rest) = Ok (zlen b, x).
Proof.
  intros Hx. unfold varint_binary.
  destruct (Z.ltb_spec x 0xfd).
  - intro E. apply struct_pack_ok in E. destruct E as (Hr & ->). cbn in Hr.
    cbn [nf_len le_bytes app varint_parse].
    rewrite Z.mod_small by lia. change (zlen [x]) with 1.
    replace (x =? 0xfd) with false by lia. replace (x =? 0xfe) with false by lia. reflexivity.
  - destruct (Z.ltb_spec x 0xffff).
    + intro E. bind_inv E. inv E. pose proof (zlen_pack _ _ _ _ H1) as Hl. cbn in Hl.
      cbn [varint_parse app]. rewrite Z.eqb_refl.
      rewrite (slice_app_mid [0xfd] x0 rest) by (try reflexivity; change (zlen [0xfd]) with 1; lia).
      rewrite (struct_unpack_pack _ _ _ _ H1). cbn [bind]. rewrite zlen_cons, Hl. reflexivity.
    + destruct (Z.ltb_spec x 0xffffffff); [|lia].
      intro E. bind_inv E. inv E. pose proof (zlen_pack _ _ _ _ H2) as Hl. cbn in Hl.
      cbn [varint_parse app]. change (0xfe =? 0xfd) with false. rewrite Z.eqb_refl.
      rewrite (slice_app_mid [0xfe] x0 rest) by (try reflexivity; change (zlen [0xfe]) with 1; lia).
      rewrite (struct_unpack_pack _ _ _ _ H2). cbn [bind]. rewrite zlen_cons, Hl. reflexivity.
Qed.

Lemma varint_binary_ok x : 0 <= x < 2^64 -> exists b, varint_binary x = Ok b.
Proof.
  intro Hx. unfold varint_binary.
  destruct (Z.ltb_spec x 0xfd); [eexists; apply struct_pack_in; cbn; lia|].
  destruct (Z.ltb_spec x 0xffff); [rewrite struct_pack_in by (cbn; lia); eexists; reflexivity|].
  destruct (Z.ltb_spec x 0xffffffff); [rewrite struct_pack_in by (cbn; lia); eexists; reflexivity|].
  rewrite struct_pack_in by (cbn; lia); eexists; reflexivity.
Qed.

Lemma varint_binary_nonneg x b : varint_binary x = Ok b -> 0 <= x < 2^64.
Proof.
  unfold varint_binary.
  destruct (Z.ltb_spec x 0xfd); [intro E; apply struct_pack_ok in E; cbn in E; lia|].
  destruct (Z.ltb_spec x 0xffff); [lia|].
  destruct (Z.ltb_spec x 0xffffffff); [lia|].
  intro E. bind_inv E. apply struct_pack_ok in H2. cbn in H2. lia.
Qed.

(** The nine-byte form is never understood: it reads as the single byte 255. *)
Lemma varint_big x b rest : 0xffffffff <= x -> varint_binary x = Ok b ->
  varint_parse (b ++ rest) = Ok (1, 255).
Proof.
  intros Hx. unfold varint_binary.
  replace (x <? 0xfd) with false by lia. replace (x <? 0xffff) with false by lia.
  replace (x <? 0xffffffff) with false by lia.
  intro E. bind_inv E. inv E. reflexivity.
Qed.

(** * Addresses *)
Lemma ipv4_groups_len s g : ipv4_groups s = Some g -> zlen g = 4 /\ wf_bytes g.
Proof.
  unfold ipv4_groups. destruct (map_int 10 (split_on 46 s)) as [gs|]; [|discriminate].
  destruct (Z.eqb_spec (zlen gs) 4); cbn [negb]; [|discriminate].
  destruct (forallb _ gs) eqn:F; [|discriminate]. intro H; inv H. split; [assumption|].
  rewrite forallb_forall in F. apply Forall_forall. intros x Hx. apply F in Hx. unfold is_byte. lia.
Qed.

Lemma zlen4_inv {A} (l : list A) : zlen l = 4 -> exists a b c d, l = [a;b;c;d].
Proof.
  unfold zlen. intro H. destruct l as [|a [|b [|c [|d [|e r]]]]]; cbn in H; try lia. eauto.
Qed.
Lemma zlen8_inv {A} (l : list A) : zlen l = 8 -> exists a b c d e f g h, l = [a;b;c;d;e;f;g;h].
Proof.
  unfold zlen. intro H. destruct l as [|a [|b [|c [|d [|e [|f [|g [|h [|i r]]]]]]]]]; cbn in H; try lia.
  do 8 eexists; reflexivity.
Qed.
Lemma zlen16_inv {A} (l : list A) : zlen l = 16 ->
  exists a b c d e f g h i j k l' m n o p, l = [a;b;c;d;e;f;g;h;i;j;k;l';m;n;o;p].
Proof.
  unfold zlen. intro H.
  do 16 (destruct l as [|?x l]; [cbn in H; lia|]). destruct l; [|cbn in H; lia].
  do 16 eexists; reflexivity.
Qed.

Lemma pack_groups_ok g b : pack_groups g = Ok b ->
  zlen b = 16 /\ wf_bytes b /\ be16s b = g /\ zlen g = 8.
Proof.
  unfold pack_groups. destruct (Z.eqb_spec (zlen g) 8) as [Hl|]; cbn [andb]; [|discriminate].
  destruct (forallb _ g) eqn:F; [|discriminate]. intro H; inv H.
  assert (Forall (fun x => 0 <= x < 65536) g) as Hg.
  { rewrite forallb_forall in F. apply Forall_forall. intros x Hx. apply F in Hx. lia. }
  assert (zlen (concat (map (be_bytes 2) g)) = 2 * zlen g /\ wf_bytes (concat (map (be_bytes 2) g)) /\
          be16s (concat (map (be_bytes 2) g)) = g) as (H1 & H2 & H3).
  { clear F Hl. induction Hg as [|x r Hx Hr (I1 & I2 & I3)].
    - repeat split; constructor.
    - cbn [map concat]. rewrite zlen_app, zlen_be_bytes, zlen_cons. split; [lia|]. split.
      + apply wf_bytes_app. split; [apply wf_be_bytes|assumption].
      + change (be_bytes 2 x) with [x / 256 mod 256; x mod 256]. cbn [app be16s].
        rewrite I3. f_equal. rewrite (Z.mod_small (x / 256)).
        * pose proof (Z.div_mod x 256). lia.
        * split; [apply Z.div_pos; lia|apply Z.div_lt_upper_bound; lia]. }
  repeat split; auto; lia.
Qed.

Lemma ip_binary_len v b : ip_binary v = Ok b -> zlen b = 16 /\ wf_bytes b.
Proof.
  destruct v; cbn [ip_binary]; try discriminate.
  destruct (ipv4_groups s) as [g|] eqn:E4.
  - intro H; injection H as <-. apply ipv4_groups_len in E4. destruct E4 as (H4 & Hw).
    split; [rewrite !zlen_cons; lia|].
    repeat (constructor; [unfold is_byte; lia|]). assumption.
  - intro H. bind_inv H. destruct x as [g|]; [|discriminate].
    apply pack_groups_ok in H. tauto.
Qed.

Lemma ip_text_v4 a b c d : ip_text (ip_head_str ++ [a;b;c;d]) = join_with 46 (map (text_of_int 10) [a;b;c;d]).
Proof. reflexivity. Qed.

Definition v4_mapped (b : bytes) : bool :=
  bytes_eqb (ztake 10 b) zero_str10 && bytes_eqb (slice 10 12 b) [0xff; 0xff].

Lemma v4_mapped_spec b : zlen b = 16 -> v4_mapped b = true <-> exists w x y z, b = ip_head_str ++ [w;x;y;z].
Proof.
  intro Hl. apply zlen16_inv in Hl. destruct Hl as (a&b'&c&d&e&f&g&h&i&j&k&l&w&x&y&z&->).
  unfold v4_mapped.
  change (ztake 10 [a;b';c;d;e;f;g;h;i;j;k;l;w;x;y;z]) with [a;b';c;d;e;f;g;h;i;j].
  change (slice 10 12 [a;b';c;d;e;f;g;h;i;j;k;l;w;x;y;z]) with [k;l].
  split.
  - destruct (bytes_eqb_spec [a;b';c;d;e;f;g;h;i;j] zero_str10) as [E|E]; [|discriminate].
    destruct (bytes_eqb_spec [k;l] [255;255]) as [E2|E2]; [|discriminate].
    intros _. cbn in E. inv E. inv E2. do 4 eexists. reflexivity.
  - intros (?&?&?&?&Heq). cbn in Heq. inv Heq. reflexivity.
Qed.

Lemma ip_text_v6 b : zlen b = 16 -> v4_mapped b = false ->
  ip_text b = join_with 58 (map (text_of_int 16) (be16s b)).
Proof.
  intros Hl Hm. assert (~ exists w x y z, b = ip_head_str ++ [w;x;y;z]) as Hn.
  { rewrite <- v4_mapped_spec by assumption. congruence. }
  apply zlen16_inv in Hl. destruct Hl as (a&b'&c&d&e&f&g&h&i&j&k&l&w&x&y&z&->).
  assert (ip_text [a;b';c;d;e;f;g;h;i;j;k;l;w;x;y;z] =
      text_of_int 16 (a*256+b') ++ [58] ++ text_of_int 16 (c*256+d) ++ [58] ++
      text_of_int 16 (e*256+f) ++ [58] ++ text_of_int 16 (g*256+h) ++ [58] ++
      text_of_int 16 (i*256+j) ++ [58] ++ text_of_int 16 (k*256+l) ++ [58] ++
      text_of_int 16 (w*256+x) ++ [58] ++ text_of_int 16 (y*256+z)) as ->; [|reflexivity].
  unfold ip_text.
  destruct a; try reflexivity. destruct b'; try reflexivity. destruct c; try reflexivity.
  destruct d; try reflexivity. destruct e; try reflexivity. destruct f; try reflexivity.
  destruct g; try reflexivity. destruct h; try reflexivity. destruct i; try reflexivity.
  destruct j; try reflexivity.
  destruct (Z.eq_dec k 255) as [->|Hk].
  - destruct (Z.eq_dec l 255) as [->|Hl].
    + exfalso. apply Hn. do 4 eexists. reflexivity.
    + destruct l as [|p|p]; try reflexivity. do 8 (destruct p as [p|p|]; try reflexivity). lia.
  - destruct k as [|p|p]; try reflexivity. do 8 (destruct p as [p|p|]; try reflexivity). lia.
Qed.

Lemma ip_parse_spec b rest : zlen b = 16 -> ip_parse (b ++ rest) = Ok (16, VStr (ip_text b)).
Proof.
  intro Hl. unfold ip_parse.
  assert (ztake 10 (b ++ rest) = ztake 10 b) as -> by (apply ztake_app_le; lia).
  assert (slice 10 12 (b ++ rest) = slice 10 12 b) as ->.
  { unfold slice. rewrite zdrop_app_le by lia. apply ztake_app_le. rewrite zlen_zdrop by lia. lia. }
  fold (v4_mapped b). destruct (v4_mapped b) eqn:E.
  - apply (v4_mapped_spec b Hl) in E. destruct E as (w&x&y&z&->). rewrite ip_text_v4.
    rewrite <- app_assoc. rewrite slice_app_mid by reflexivity. reflexivity.
  - rewrite ztake_app_exact by lia. rewrite Hl. cbn [Z.eqb Pos.eqb].
    now rewrite ip_text_v6.
Qed.

Lemma ip_roundtrip v b rest : ip_binary v = Ok b -> ip_parse (b ++ rest) = Ok (16, canon FIP v).
Proof.
  intro H. cbn [canon]. rewrite H. apply ip_parse_spec. now apply ip_binary_len in H.
Qed.

(** Text of an address: digits of the groups. *)
Lemma map_int_text base l : base = 10 \/ base = 16 -> Forall (fun x => 0 <= x) l ->
  map_int base (map (text_of_int base) l) = Some l.
Proof.
  intros Hb. induction 1 as [|x r Hx Hr IH]; [reflexivity|]. cbn [map map_int].
  rewrite int_of_text_of_int by assumption. now rewrite IH.
Qed.
Lemma text_of_int_no base x c : base = 10 \/ base = 16 -> 0 <= x -> c = 46 \/ c = 58 ->
  Forall (fun y => y <> c) (text_of_int base x).
Proof.
  intros Hb Hx Hc. destruct (text_of_int_spec base x) as (_ & Hd & _); [lia|assumption|].
  eapply Forall_impl; [|exact Hd]. intros y Hy. apply digitc_facts in Hy; lia.
Qed.
Lemma ipv6_fill_text n l : Forall (fun x => 0 <= x) l -> ipv6_fill n (map (text_of_int 16) l) = Some l.
Proof.
  induction 1 as [|x r Hx Hr IH]; [reflexivity|]. cbn [map ipv6_fill].
  destruct (text_of_int 16 x) eqn:E.
  - destruct (text_of_int_spec 16 x) as (Hne & _); [lia|assumption|]. contradiction.
  - rewrite <- E, int_of_text_of_int by auto. now rewrite IH.
Qed.

Lemma int_of_text_bad base s c : base = 10 -> In c s -> c = 58 -> int_of_text base s = None.
Proof.
  intros -> Hin ->. unfold int_of_text.
  assert (In 58 (drop_spaces s)) as H1.
  { induction s as [|x r IH]; [contradiction|]. cbn [drop_spaces].
    destruct (is_space x) eqn:E; [|assumption]. destruct Hin as [->|Hin]; [discriminate|auto]. }
  destruct (drop_spaces s) as [|c r] eqn:E1; [contradiction|].
  assert (In 58 (snd (take_sign (c :: r)))) as H2.
  { unfold take_sign. destruct (Z.eqb_spec c 43); [subst; destruct H1 as [H1|H1]; [lia|auto]|].
    destruct (Z.eqb_spec c 45); [subst; destruct H1 as [H1|H1]; [lia|auto]|]. assumption. }
  destruct (take_sign (c :: r)) as (neg, s2). cbn [snd] in H2.
  change (10 =? 16) with false. cbv iota zeta.
  assert (forall t acc last, In 58 t -> int_digits 10 t acc last = None) as Hno.
  { induction t as [|y t IH]; intros acc last Ht; [contradiction|]. cbn [int_digits].
    destruct (digit_value y <? 10) eqn:Ed.
    - apply IH. destruct Ht as [->|Ht]; [discriminate|assumption].
    - destruct ((y =? 95) && last) eqn:Eu.
      + apply IH. destruct Ht as [->|Ht]; [discriminate|assumption].
      + destruct (last && forallb is_space (y :: t)) eqn:El; [|reflexivity].
        apply andb_true_iff in El. destruct El as (_ & El). rewrite forallb_forall in El.
        specialize (El 58 Ht). discriminate. }
  now rewrite Hno.
Qed.

Lemma be16s_range b : wf_bytes b -> Forall (fun x => 0 <= x < 65536) (be16s b).
Proof.
  assert (forall n b, (List.length b <= n)%nat -> wf_bytes b -> Forall (fun x => 0 <= x < 65536) (be16s b)) as H.
  { induction n as [|n IH]; intros [|x [|y r]] Hl Hw; cbn in *; try lia; constructor.
    - inv Hw. inv H2. unfold is_byte in *. lia.
    - apply IH; [lia|]. inv Hw. inv H2. assumption. }
  intro Hw. now apply (H (List.length b)).
Qed.

Lemma be16s_pack b : wf_bytes b -> zlen b = 16 -> pack_groups (be16s b) = Ok b.
Proof.
  intros Hw Hl. pose proof (be16s_range b Hw) as Hr. unfold pack_groups.
  replace (forallb _ (be16s b)) with true.
  2:{ symmetry. apply forallb_forall. rewrite Forall_forall in Hr. intros x Hx. apply Hr in Hx. lia. }
  apply zlen16_inv in Hl. destruct Hl as (a&b'&c&d&e&f&g&h&i&j&k&l&w&x&y&z&->).
  cbn [be16s]. change (zlen _ =? 8) with true. cbn [andb]. f_equal.
  repeat match goal with H : wf_bytes (_ :: _) |- _ => inv H end.
  assert (forall p q, is_byte p -> is_byte q -> be_bytes 2 (p * 256 + q) = [p; q]) as E.
  { unfold is_byte. intros p q Hp Hq. change (be_bytes 2 (p*256+q)) with [(p*256+q) / 256 mod 256; (p*256+q) mod 256].
    replace ((p * 256 + q) / 256) with p by (apply Z.div_unique with q; lia).
    replace ((p * 256 + q) mod 256) with q by (apply Z.mod_unique with p; lia).
    rewrite Z.mod_small by lia. reflexivity. }
  cbn [map concat]. unfold wf_bytes in *.
  repeat match goal with H : Forall is_byte (_ :: _) |- _ => inv H end.
  rewrite !E by assumption. reflexivity.
Qed.

Lemma ip_binary_text b : wf_bytes b -> zlen b = 16 ->
  ip_binary (VStr (ip_text b)) = Ok b /\ ip_validate (VStr (ip_text b)) = Ok (Some (VStr (ip_text b))).
Proof.
  intros Hw Hl. cbn [ip_binary ip_validate]. destruct (v4_mapped b) eqn:E.
  - apply (v4_mapped_spec b Hl) in E. destruct E as (w&x&y&z&->). rewrite ip_text_v4.
    apply wf_bytes_app in Hw. destruct Hw as (_ & Hw).
    assert (ipv4_groups (join_with 46 (map (text_of_int 10) [w;x;y;z])) = Some [w;x;y;z]) as ->; [|auto].
    unfold ipv4_groups. assert (Forall (fun x => 0 <= x) [w;x;y;z]) as Hp.
    { eapply Forall_impl; [|exact Hw]. unfold is_byte; intros; lia. }
    rewrite split_join.
    + rewrite map_int_text by auto. cbn [zlen List.length Z.of_nat Pos.of_succ_nat Pos.succ Z.eqb Pos.eqb negb].
      replace (forallb _ [w;x;y;z]) with true; [reflexivity|].
      symmetry. apply forallb_forall. unfold wf_bytes in Hw. rewrite Forall_forall in Hw. intros q Hq. apply Hw in Hq. unfold is_byte in Hq. lia.
    + discriminate.
    + apply Forall_map. eapply Forall_impl; [|exact Hp]. intros q Hq. apply text_of_int_no; auto.
  - rewrite ip_text_v6 by assumption.
    pose proof (be16s_range b Hw) as Hr.
    assert (Forall (fun x => 0 <= x) (be16s b)) as Hp.
    { eapply Forall_impl; [|exact Hr]. cbv beta; intros; lia. }
    assert (zlen (be16s b) = 8) as H8.
    { apply zlen16_inv in Hl. destruct Hl as (a&b'&c&d&e&f&g&h&i&j&k&l&w&x&y&z&->). reflexivity. }
    assert (be16s b <> []) as Hne by (intro N; rewrite N in H8; discriminate).
    assert (ipv4_groups (join_with 58 (map (text_of_int 16) (be16s b))) = None) as ->.
    { unfold ipv4_groups. rewrite split_on_plain.
      - cbn [map_int]. rewrite (int_of_text_bad 10 _ 58); [reflexivity|reflexivity| |reflexivity].
        apply zlen8_inv in H8. destruct H8 as (a&b'&c&d&e&f&g&h&->).
        cbn [map join_with]. apply in_or_app. right. left; reflexivity.
      - apply Forall_forall. intros q Hq ->.
        assert (forall parts, Forall (Forall (fun y => y <> 46)) parts -> ~ In 46 (join_with 58 parts)) as Hj.
        { induction 1 as [|p r Hp' Hr' IH]; [intros []|]. destruct r as [|p2 r].
          - cbn. intro Hin. rewrite Forall_forall in Hp'. now apply Hp' in Hin.
          - change (join_with 58 (p :: p2 :: r)) with (p ++ 58 :: join_with 58 (p2 :: r)).
            intro Hin. apply in_app_or in Hin. destruct Hin as [Hin|[Hin|Hin]].
            + rewrite Forall_forall in Hp'. now apply Hp' in Hin.
            + discriminate.
            + auto. }
        revert Hq. apply Hj. apply Forall_map. eapply Forall_impl; [|exact Hp].
        intros q Hq. apply text_of_int_no; auto. }
    assert (ipv6_groups (join_with 58 (map (text_of_int 16) (be16s b))) = Ok (Some (be16s b))) as ->.
    { unfold ipv6_groups. rewrite split_join.
      - rewrite zlen_map, H8. change (8 <? 2) with false. cbv iota zeta.
        assert (forall x, 0 <= x -> text_of_int 16 x <> []) as Hnn.
        { intros x Hx. apply text_of_int_spec; lia. }
        assert (ipv6_trim (map (text_of_int 16) (be16s b)) = map (text_of_int 16) (be16s b)) as ->.
        { apply zlen8_inv in H8. destruct H8 as (a&b'&c&d&e&f&g&h&E8). rewrite E8 in *. cbn [map].
          unfold wf_bytes in *.
          repeat match goal with H : Forall (fun x => 0 <= x) (_ :: _) |- _ => inv H end.
          unfold ipv6_trim. cbn [rev app].
          destruct (text_of_int 16 a) eqn:Ea; [exfalso; now apply (Hnn a)|].
          destruct (text_of_int 16 h) eqn:Eh; [exfalso; now apply (Hnn h)|]. reflexivity. }
        rewrite zlen_map, H8.
        assert (count_empty (map (text_of_int 16) (be16s b)) = 0) as ->.
        { unfold count_empty. clear - Hp Hnn. induction Hp as [|x r Hx Hr IH]; [reflexivity|].
          cbn [map filter]. destruct (text_of_int 16 x) eqn:Ex; [exfalso; now apply (Hnn x)|]. assumption. }
        change ((1 <? 0) || (8 <? 8)) with false. cbv iota.
        rewrite ipv6_fill_text by assumption.
        replace (forallb _ (be16s b)) with true; [reflexivity|].
        symmetry. apply forallb_forall. rewrite Forall_forall in Hr. intros q Hq. apply Hr in Hq. lia.
      - destruct (be16s b); [contradiction|discriminate].
      - apply Forall_map. eapply Forall_impl; [|exact Hp]. intros q Hq. apply text_of_int_no; auto. }
    cbn [bind]. split; [now apply be16s_pack|reflexivity].
Qed.

(** * Well-formed type descriptors *)
Fixpoint min_size (t : ft) : Z :=
  match t with
  | FNumber f _ _ => Z.of_nat (nf_len f)
  | FVarInt => 1
  | FIP => 16
  | FBytes n => n
  | FVarStr => 1
  | FArray _ _ _ => 1
  | FCompound _ ps => fold_right (fun e acc => min_size (snd e) + acc) 0 ps
  | FCompoundNoTs _ ps => fold_right (fun e acc => min_size (snd e) + acc) 0 ps - 4
  | FOptional c _ => min_size c
  end.

Fixpoint wf_ft (t : ft) : Prop :=
  match t with
  | FBytes n => 0 <= n
  | FArray c _ mx => wf_ft c /\ 0 < min_size c /\ mx <> Some 0
  | FCompound _ ps => NoDup (map fst ps) /\
      (fix go ps := match ps with [] => True | (_, t) :: r => wf_ft t /\ go r end) ps
  | FCompoundNoTs _ ps => NoDup (map fst ps) /\
      (exists k a r, ps = (k, FNumber FI false a) :: r) /\
      (fix go ps := match ps with [] => True | (_, t) :: r => wf_ft t /\ go r end) ps
  | FOptional c d => wf_ft c /\ wt c d /\ bounds_ok c d
  | _ => True
  end.
Fixpoint wf_fts (ps : list (string * ft)) : Prop :=
  match ps with [] => True | (_, t) :: r => wf_ft t /\ wf_fts r end.
Lemma wf_fts_go ps : (fix go ps := match ps with [] => True | (_, t) :: r => wf_ft t /\ go r end) ps <-> wf_fts ps.
Proof. induction ps as [|(k,t) r IH]; cbn; tauto. Qed.

(** Strings, arrays and variable-length integers below the 32-bit limit. *)
Fixpoint small (t : ft) (v : pyval) {struct t} : Prop :=
  match t with
  | FVarInt => match num_value v with Some z => z < 0xffffffff | None => True end
  | FVarStr => match v with VBytes s | VStr s => zlen s < 0xffffffff | _ => True end
  | FArray child _ _ =>
      match v with VList l | VTuple l => zlen l < 0xffffffff /\ Forall (small child) l | _ => True end
  | FCompound _ props | FCompoundNoTs _ props =>
      match v with
      | VObj _ fs => (fix go ps fs := match ps, fs with
          | (_, vt) :: ps', (_, x) :: fs' => small vt x /\ go ps' fs'
          | _, _ => True
          end) props fs
      | _ => True
      end
  | FOptional child _ => small child v
  | _ => True
  end.
Fixpoint small_fields (ps : list (string * ft)) (fs : list (string * pyval)) : Prop :=
  match ps, fs with
  | (_, vt) :: ps', (_, x) :: fs' => small vt x /\ small_fields ps' fs'
  | _, _ => True
  end.
Lemma small_compound c ps c' fs : small (FCompound c ps) (VObj c' fs) <-> small_fields ps fs.
Proof.
  cbn [small]. revert fs. induction ps as [|(k, vt) r IH]; intros [|(k', x) fs]; cbn; try tauto; specialize (IH fs); tauto.
Qed.

Lemma fields_binary_skip ps k x fs : ~ In k (map fst ps) ->
  fields_binary ps ((k, x) :: fs) = fields_binary ps fs.
Proof.
  induction ps as [|(k', vt) r IH]; intro H; [reflexivity|].
  cbn [fields_binary assoc map fst] in *. destruct (String.eqb_spec k' k) as [->|]; [exfalso; apply H; now left|].
  rewrite IH; [reflexivity|]. intro Hin; apply H; now right.
Qed.

Lemma sequence_ok {A} (l : list (res A)) xs : sequence l = Ok xs -> Forall2 (fun m x => m = Ok x) l xs.
Proof.
  revert xs. induction l as [|m r IH]; intros xs H; cbn in H.
  - inv H. constructor.
  - bind_inv H. bind_inv H. inv H. constructor; auto.
Qed.

Lemma concat_len_ge (items : list bytes) n : 0 <= n -> Forall (fun b => n <= zlen b) items ->
  n * zlen items <= zlen (concat items).
Proof.
  intro Hn. induction 1 as [|b r Hb Hr IH]; [cbn; lia|].
  cbn [concat]. rewrite zlen_app, zlen_cons. lia.
Qed.

(** Round trip of one field followed by anything. *)
Definition rt (t : ft) : Prop :=
  wf_ft t -> forall v b, wt t v -> binary t v = Ok b ->
  min_size t <= zlen b /\
  (small t v -> forall rest, parse t (b ++ rest) = Ok (zlen b, canon t v)).

Lemma fields_rt ps : Forall (fun e => rt (snd e)) ps -> wf_fts ps -> NoDup (map fst ps) ->
  forall fs b, wt_fields ps fs -> fields_binary ps fs = Ok b ->
  fold_right (fun e acc => min_size (snd e) + acc) 0 ps <= zlen b /\
  (small_fields ps fs -> forall pre rest,
     fields_parse ps (zlen pre) (pre ++ b ++ rest) = Ok (zlen pre + zlen b, canon_fields ps fs)).
Proof.
  induction 1 as [|(k, t) r Ht Hr IH]; intros Hwf Hnd fs b Hwt Hb.
  - destruct fs; [|contradiction]. cbn in Hb. inv Hb. split; [cbn; lia|].
    intros _ pre rest. cbn. change (zlen (@nil Z)) with 0. now rewrite Z.add_0_r.
  - destruct fs as [|(k', x) fs]; [contradiction|]. cbn in Hwt. destruct Hwt as (-> & Hx & Hfs).
    cbn [wf_fts] in Hwf. destruct Hwf as (Hwt & Hwr). cbn [map fst] in Hnd. inv Hnd.
    cbn [fields_binary assoc] in Hb. rewrite String.eqb_refl in Hb.
    rewrite fields_binary_skip in Hb by assumption. bind_inv Hb. bind_inv Hb. inv Hb.
    cbn [snd] in Ht. destruct (Ht Hwt _ _ Hx H) as (Hmin & Hp).
    destruct (IH Hwr H2 _ _ Hfs H0) as (Hmin2 & Hp2).
    split; [cbn [fold_right snd]; rewrite zlen_app; lia|].
    cbn [small_fields]. intros (Hs1 & Hs2) pre rest. cbn [fields_parse].
    rewrite zdrop_app_exact by reflexivity. rewrite <- app_assoc.
    rewrite Hp by assumption.
    specialize (Hp2 Hs2 (pre ++ x0) rest). rewrite zlen_app in Hp2.
    replace (pre ++ x0 ++ x1 ++ rest) with ((pre ++ x0) ++ x1 ++ rest) by (now rewrite <- app_assoc).
    rewrite Hp2. cbn [bind canon_fields]. rewrite zlen_app. do 2 f_equal. lia.
Qed.

Lemma parse_items_rt t l items :
  Forall2 (fun v b => forall rest, parse t (b ++ rest) = Ok (zlen b, canon t v)) l items ->
  forall pre rest, parse_items (parse t) (List.length l) (pre ++ concat items ++ rest) (zlen pre) =
    Ok (zlen pre + zlen (concat items), map (canon t) l).
Proof.
  induction 1 as [|v b l items Hvb Hrest IH]; intros pre rest.
  - cbn. change (zlen (@nil Z)) with 0. now rewrite Z.add_0_r.
  - cbn [List.length parse_items concat map]. rewrite zdrop_app_exact by reflexivity.
    rewrite <- app_assoc, Hvb. cbn [bind].
    specialize (IH (pre ++ b) rest). rewrite zlen_app in IH.
    replace (pre ++ b ++ concat items ++ rest) with ((pre ++ b) ++ concat items ++ rest) by (now rewrite <- app_assoc).
    rewrite IH. cbn [bind]. rewrite zlen_app. do 2 f_equal. lia.
Qed.

Lemma roundtrip_ft t : rt t.
Proof.
  induction t using ft_ind'; unfold rt; intros Hwf v bb Hwt Hb.
  - (* number *)
    cbn [min_size canon binary parse] in *.
    assert (exists z, num_value v = Some z /\ struct_pack f b z = Ok bb) as (z & Hz & Hpk).
    { destruct v as [|z|b0|x| | | | | |]; cbn in Hwt; try contradiction; cbn [num_binary] in Hb.
      1, 2: eexists; split; [reflexivity|exact Hb].
      destruct x as [m e|neg|]; cbn [float_trunc bind] in Hb; try discriminate.
      eexists; split; [reflexivity|exact Hb]. }
    pose proof (zlen_pack _ _ _ _ Hpk) as Hl. split; [lia|]. intros _ rest.
    unfold num_parse. rewrite ztake_app_exact by lia.
    rewrite (struct_unpack_pack _ _ _ _ Hpk). cbn [bind]. rewrite Hz, Hl. reflexivity.
  - (* varint *)
    cbn [min_size canon binary parse small] in *.
    assert (exists z, num_value v = Some z /\ varint_binary z = Ok bb) as (z & Hz & Hpk).
    { destruct v; try contradiction; eexists; (split; [reflexivity|exact Hb]). }
    split; [apply varint_binary_len in Hpk; lia|]. rewrite Hz. intros Hs rest.
    rewrite (varint_roundtrip z) by assumption. reflexivity.
  - (* ip *)
    cbn [min_size binary parse] in *. pose proof (ip_binary_len _ _ Hb) as (Hl & _).
    split; [lia|]. intros _ rest. rewrite (ip_roundtrip v) by assumption. now rewrite Hl.
  - (* bytes *)
    cbn [min_size canon binary parse wt] in *. destruct v; try contradiction. inv Hb.
    destruct Hwt as (Hw & Hl). split; [lia|]. intros _ rest.
    rewrite ztake_app_exact by lia. now rewrite Hl.
  - (* varstr *)
    cbn [min_size canon binary parse wt small] in *.
    assert (exists s n, (v = VBytes s \/ v = VStr s) /\ varint_binary (zlen s) = Ok n /\ bb = n ++ s) as (s & n & Hv & Hn & ->).
    { unfold varstr_binary in Hb. destruct v; try contradiction; cbn [bind] in Hb.
      - unfold latin1 in Hb. destruct (forallb _ s); [|discriminate]. cbn [bind] in Hb. bind_inv Hb. inv Hb. eauto 6.
      - bind_inv Hb. inv Hb. eauto 6. }
    pose proof (varint_binary_len _ _ Hn) as Hnl. pose proof (zlen_nonneg s).
    split; [rewrite zlen_app; lia|]. intros Hs rest.
    assert (zlen s < 0xffffffff) as Hs' by (destruct Hv; subst; assumption).
    unfold varstr_parse. rewrite <- app_assoc. rewrite (varint_roundtrip (zlen s)) by assumption. cbn [bind].
    rewrite slice_app_mid by lia. rewrite zlen_app. do 2 f_equal.
    destruct Hv; subst; reflexivity.
  - (* array *)
    cbn [min_size wf_ft] in *. destruct Hwf as (Hwc & Hmin & _). cbn [wt] in Hwt.
    assert (exists l, (v = VList l \/ v = VTuple l) /\ Forall (wt t) l) as (l & Hv & Hl).
    { destruct v; try contradiction; eauto. }
    assert ((let! n := varint_binary (zlen l) in
             let! items := sequence (map (binary t) l) in Ok (n ++ concat items)) = Ok bb) as Hb'.
    { destruct Hv; subst; exact Hb. }
    clear Hb. rename Hb' into Hb. bind_inv Hb. bind_inv Hb. inv Hb.
    apply sequence_ok in H0.
    pose proof (varint_binary_len _ _ H) as Hnl.
    split; [rewrite zlen_app; pose proof (zlen_nonneg (concat x0)); lia|].
    intros Hsm rest. assert (zlen l < 0xffffffff /\ Forall (small t) l) as (Hs & Hsl).
    { destruct Hv; subst; exact Hsm. }
    assert (canon (FArray t a b) v = VList (map (canon t) l)) as -> by (destruct Hv; subst; reflexivity).
    cbn [parse]. unfold parse_var_set.
    rewrite <- app_assoc. rewrite (varint_roundtrip (zlen l)) by assumption. cbn [bind].
    unfold zlen at 1. rewrite Nat2Z.id.
    rewrite (parse_items_rt t l x0); [cbn [bind]; now rewrite zlen_app|].
    clear - IHt Hwc Hl Hsl H0. revert x0 H0. induction Hl as [|v l Hv Hl IH]; intros items Hseq; inv Hseq; constructor.
    + inv Hsl. apply IHt; assumption.
    + apply IH; [now inv Hsl|assumption].
  - (* compound *)
    cbn [wf_ft] in Hwf. destruct Hwf as (Hnd & Hwf). rewrite wf_fts_go in Hwf.
    apply wt_compound in Hwt. destruct Hwt as (fs & -> & Hwt).
    rewrite binary_compound in Hb.
    destruct (fields_rt ps H Hwf Hnd fs bb Hwt Hb) as (Hmin & Hp).
    split; [exact Hmin|]. rewrite small_compound. intros Hs rest.
    rewrite parse_compound. specialize (Hp Hs [] rest). cbn [app] in Hp.
    change (zlen (@nil Z)) with 0 in Hp. rewrite Hp. cbn [bind]. now rewrite canon_compound.
  - (* compound without timestamp *)
    cbn [wf_ft] in Hwf. destruct Hwf as (Hnd & (k & a & r & ->) & Hwf). rewrite wf_fts_go in Hwf.
    apply wt_compoundnots in Hwt. destruct Hwt as (fs & -> & Hwt).
    rewrite binary_compoundnots in Hb. bind_inv Hb. inv Hb.
    destruct fs as [|(k', x0) fs]; [contradiction|]. cbn [wt_fields] in Hwt. destruct Hwt as (-> & Hx & Hfs).
    inv H. cbn [wf_fts] in Hwf. destruct Hwf as (_ & Hwf). cbn [map fst] in Hnd. inv Hnd.
    cbn [fields_binary assoc] in H0. rewrite String.eqb_refl in H0.
    rewrite fields_binary_skip in H0 by assumption. bind_inv H0. bind_inv H0. inv H0.
    assert (zlen x1 = 4) as Hx1.
    { cbn [binary] in H. destruct x0; cbn [num_binary] in H; try discriminate; try (now apply zlen_pack in H).
      bind_inv H. now apply zlen_pack in H. }
    rewrite zdrop_app_exact by lia.
    destruct (fields_rt r H4 Hwf H5 fs x2 Hfs H1) as (Hmin & Hp).
    split; [cbn [min_size fold_right snd nf_len]; lia|].
    intros Hs rest. apply (small_compound "" ((k, FNumber FI false a) :: r) c ((k, x0) :: fs)) in Hs.
    cbn [small_fields] in Hs. destruct Hs as (_ & Hs).
    rewrite parse_compoundnots, canon_compoundnots. cbn [fields_parse canon_fields].
    rewrite zdrop_le0 by lia.
    replace (parse (FNumber FI false a) ([0;0;0;0] ++ x2 ++ rest)) with (Ok (4, VInt 0) : res (Z * pyval)).
    2:{ cbn [parse]. unfold num_parse. rewrite ztake_app_exact by reflexivity. reflexivity. }
    specialize (Hp Hs [0;0;0;0] rest). change (zlen [0;0;0;0]) with 4 in Hp.
    change (0 + 4) with 4. rewrite Hp. cbn [bind]. do 2 f_equal. lia.
  - (* optional *)
    cbn [wf_ft] in Hwf. destruct Hwf as (Hwf & _). cbn [wt binary min_size small canon parse] in *.
    destruct (IHt Hwf v bb Hwt Hb) as (Hmin & Hp). split; [exact Hmin|].
    intros Hs rest. now rewrite Hp.
Qed.
