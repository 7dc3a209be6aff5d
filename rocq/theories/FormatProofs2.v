(** More proofs about format.py: what constructors guarantee, what can be
    written, what parsers guarantee. *)
From Coq Require Import String ZArith List Lia Bool.
From Verif Require Import PyBase PyVal PyTextProofs FormatModel FormatSpec FormatProofs.
Import ListNotations.
Open Scope string_scope.
Open Scope list_scope.
Open Scope Z_scope.

(** * Constructors *)

(** Every compound inside a descriptor is one of format.py's classes. *)
Fixpoint classes_ok (t : ft) : Prop :=
  match t with
  | FArray c _ _ | FOptional c _ => classes_ok c
  | FCompound c ps | FCompoundNoTs c ps => In (c, ps) format_classes
  | _ => True
  end.
Lemma format_classes_wf c ps : In (c, ps) format_classes ->
  wf_fts ps /\ NoDup (map fst ps) /\ Forall (fun e => classes_ok (snd e)) ps.
Proof.
  intro H. cbn in H.
  repeat (destruct H as [H|H]; [inv H|]); try contradiction;
  (split; [cbn; repeat split; try lia; try discriminate; repeat constructor; cbn; intuition discriminate|];
   split; [repeat constructor; cbn; intuition discriminate|]; repeat constructor; cbn; tauto).
Qed.

Lemma format_classes_fun c ps qs : In (c, ps) format_classes -> In (c, qs) format_classes -> ps = qs.
Proof.
  cbn. intros H1 H2.
  repeat (destruct H1 as [H1|H1]; [inv H1; repeat (destruct H2 as [H2|H2]; [inv H2; try reflexivity|]); contradiction|]).
  contradiction.
Qed.

Section BuiltInd.
  Variable P : pyval -> Prop.
  Hypothesis Hnone : P VNone.
  Hypothesis Hint : forall z, P (VInt z).
  Hypothesis Hbool : forall z, P (VBool z).
  Hypothesis Hfloat : forall z, P (VFloat z).
  Hypothesis Hstr : forall s, Forall (fun c => 0 <= c <= 0x10ffff) s -> P (VStr s).
  Hypothesis Hbytes : forall s, wf_bytes s -> P (VBytes s).
  Hypothesis Hlist : forall l, Forall built l -> Forall P l -> P (VList l).
  Hypothesis Htup : forall l, Forall built l -> Forall P l -> P (VTuple l).
  Hypothesis Hother : forall n, P (VOther n).
  Hypothesis Hobj : forall c props args kw v, In (c, props) format_classes ->
    Forall P args -> Forall P (map snd kw) -> construct c props args kw = Ok v -> P v.
  Fixpoint built_ind' v (H : built v) {struct H} : P v :=
    let go := fix go l (H : Forall built l) {struct H} : Forall P l :=
      match H with
      | Forall_nil _ => Forall_nil _
      | Forall_cons x Hx Hr => Forall_cons x (built_ind' x Hx) (go _ Hr)
      end in
    match H with
    | built_none => Hnone
    | built_int z => Hint z
    | built_bool z => Hbool z
    | built_float z => Hfloat z
    | built_str s h => Hstr s h
    | built_bytes s h => Hbytes s h
    | built_list l h => Hlist l h (go l h)
    | built_tuple l h => Htup l h (go l h)
    | built_other n => Hother n
    | built_obj c props args kw v h1 h2 h3 h4 => Hobj c props args kw v h1 (go _ h2) (go _ h3) h4
    end.
End BuiltInd.

(** The values for which validation yields well-typed results. *)
Definition vgood (v : pyval) : Prop :=
  forall t v', wf_ft t -> classes_ok t -> validate t v = Ok (Some v') -> wt t v' /\ bounds_ok t v'.

Lemma bounds_ok_compound c ps c' fs : bounds_ok (FCompound c ps) (VObj c' fs) <-> bounds_ok_fields ps fs.
Proof.
  cbn [bounds_ok]. revert fs. induction ps as [|(k, vt) r IH]; intros [|(k', x) fs]; cbn; try tauto; specialize (IH fs); tauto.
Qed.
Lemma writable_compound c ps c' fs : writable (FCompound c ps) (VObj c' fs) <-> writable_fields ps fs.
Proof.
  cbn [writable]. revert fs. induction ps as [|(k, vt) r IH]; intros [|(k', x) fs]; cbn; try tauto; specialize (IH fs); tauto.
Qed.

Lemma assoc_in {A} k (l : list (string * A)) v : assoc k l = Some v -> In v (map snd l).
Proof.
  induction l as [|(k', x) r IH]; cbn; [discriminate|].
  destruct (String.eqb k k'); [intro H; inv H; now left|right; auto].
Qed.

Lemma validate_props_wt ps params fs :
  wf_fts ps -> Forall (fun e => classes_ok (snd e)) ps -> Forall vgood (map snd params) ->
  validate_props ps params = Ok fs -> wt_fields ps fs /\ bounds_ok_fields ps fs.
Proof.
  intros Hwf Hc Hp. revert fs. induction ps as [|(k, t) r IH]; intros fs H.
  - cbn in H. inv H. split; exact I.
  - cbn [validate_props] in H. destruct (assoc k params) as [x|] eqn:E; [|discriminate].
    bind_inv H. destruct x0 as [y|]; [|discriminate]. bind_inv H. inv H.
    cbn [wf_fts] in Hwf. destruct Hwf as (Hwt & Hwr). inv Hc.
    assert (vgood x) as Hx. { rewrite Forall_forall in Hp. apply Hp. eapply assoc_in; eauto. }
    destruct (Hx t y Hwt H3 H0) as (W & B). destruct (IH Hwr H4 _ H1) as (W' & B').
    cbn. tauto.
Qed.

Lemma zip_snd_in {A B} (a : list A) (b : list B) x : In x (map snd (zip a b)) -> In x b.
Proof.
  revert b. induction a as [|y a IH]; intros [|z b]; cbn; try contradiction.
  intros [->|H]; [now left|right; auto].
Qed.

Lemma construct_wt c ps args kw v :
  wf_fts ps -> Forall (fun e => classes_ok (snd e)) ps ->
  Forall vgood args -> Forall vgood (map snd kw) ->
  construct c ps args kw = Ok v ->
  exists fs, v = VObj c fs /\ wt_fields ps fs /\ bounds_ok_fields ps fs.
Proof.
  intros Hwf Hc Ha Hk. unfold construct.
  destruct (existsb _ kw); [discriminate|]. destruct (existsb _ kw); [discriminate|].
  destruct (negb _); [discriminate|]. intro H. bind_inv H. inv H.
  exists x. split; [reflexivity|]. eapply validate_props_wt; [assumption|assumption| |exact H0].
  rewrite map_app. apply Forall_app. split; [|assumption].
  rewrite Forall_forall in *. intros y Hy. apply Ha. eapply zip_snd_in; eauto.
Qed.

Lemma float_in_range lo hi x : lo <= 0 < hi -> z_le_float lo x && float_lt_z x hi = true ->
  exists z, num_value (VFloat x) = Some z /\ lo <= z < hi.
Proof.
  intros Hr H. apply andb_true_iff in H. destruct H as (H1 & H2).
  destruct x as [m e|neg|]; cbn in *; [|destruct neg; discriminate|discriminate].
  eexists. split; [reflexivity|].
  destruct (Z.leb_spec 0 e).
  - lia.
  - assert (0 < 2 ^ (- e)) as Hp by (apply Z.pow_pos_nonneg; lia).
    set (d := 2 ^ (- e)) in *. clearbody d.
    apply Z.leb_le in H1. apply Z.ltb_lt in H2.
    destruct (Z_lt_le_dec m 0).
    + replace (Z.quot m d) with (- ((- m) / d)).
      * split.
        -- assert ((- m) / d <= - lo). { apply Z.div_le_upper_bound; nia. } lia.
        -- assert (0 <= (- m) / d) by (apply Z.div_pos; lia). lia.
      * rewrite <- Z.quot_div_nonneg by lia. rewrite Z.quot_opp_l by lia. lia.
    + rewrite Z.quot_div_nonneg by lia. split.
      * assert (0 <= m / d) by (apply Z.div_pos; lia). lia.
      * apply Z.div_lt_upper_bound; lia.
Qed.

Lemma struct_range_ok f : fst (struct_range f) <= 0 /\ 1 < snd (struct_range f).
Proof. destruct f; cbn; lia. Qed.

Lemma num_validate_wt f big af v v' : num_validate f af v = Some v' -> wt (FNumber f big af) v'.
Proof.
  unfold num_validate. rewrite nf_range_struct.
  pose proof (struct_range_ok f). destruct (struct_range f) as (lo, hi) eqn:E. cbn [fst snd] in *.
  destruct v; try discriminate.
  - destruct (_ && _) eqn:R; [|discriminate]. intro H0; inv H0. cbn [wt]. rewrite E. cbn. lia.
  - destruct (_ && _) eqn:R; [|discriminate]. intro H0; inv H0. exact I.
  - destruct af; [|discriminate]. destruct (_ && _) eqn:R; [|discriminate].
    intro H0; inv H0. cbn [wt]. split; [reflexivity|]. rewrite E. cbn [fst snd].
    apply float_in_range; [lia|assumption].
Qed.

Lemma bound_violated_min mn (l : list pyval) : bound_violated mn (fun m => zlen l <? m) = false ->
  forall m, mn = Some m -> m <= zlen l.
Proof.
  intros H m Em. subst mn. unfold bound_violated in H. destruct (Z.eqb_spec m 0) as [E0|E0].
  - subst m. apply zlen_nonneg. - cbn in H. lia.
Qed.
Lemma bound_violated_max mx (l : list pyval) : mx <> Some 0 -> bound_violated mx (fun m => m <? zlen l) = false ->
  forall m, mx = Some m -> zlen l <= m.
Proof.
  intros Hn H m Em. subst mx. unfold bound_violated in H. destruct (Z.eqb_spec m 0) as [E0|E0].
  - subst m. contradiction. - cbn in H. lia.
Qed.

Lemma all_some_ok {A} (l : list (option A)) xs : all_some l = Some xs -> l = map Some xs.
Proof.
  revert xs. induction l as [|[x|] r IH]; cbn; intros xs H; try discriminate.
  - inv H. reflexivity.
  - destruct (all_some r) as [ys|]; [|discriminate]. inv H. cbn. now rewrite (IH ys).
Qed.

Lemma array_vgood child mn mx l v' : wf_ft child -> mx <> Some 0 -> classes_ok child -> Forall vgood l ->
  (if bound_violated mn (fun m => zlen l <? m) then Ok None
   else if bound_violated mx (fun m => m <? zlen l) then Ok None
   else let! vs := sequence (map (validate child) l) in
        Ok (match all_some vs with Some vs => Some (VTuple vs) | None => None end)) = Ok (Some v') ->
  wt (FArray child mn mx) v' /\ bounds_ok (FArray child mn mx) v'.
Proof.
  intros Hwf Hmx Hc Hl H.
  destruct (bound_violated mn _) eqn:Emn; [discriminate|].
  destruct (bound_violated mx _) eqn:Emx; [discriminate|].
  bind_inv H. destruct (all_some x) as [vs|] eqn:Ea; [|discriminate]. inv H.
  apply all_some_ok in Ea. subst x. apply sequence_ok in H0.
  pose proof (bound_violated_min _ _ Emn) as Bmn. pose proof (bound_violated_max _ _ Hmx Emx) as Bmx.
  assert (Forall (fun v => wt child v /\ bounds_ok child v) vs /\ zlen vs = zlen l) as (Hvs & Hlen).
  { clear - Hl Hwf Hc H0. revert vs H0. induction Hl as [|v l Hv Hl IH]; intros [|y vs] H; inv H.
    - split; [constructor|reflexivity].
    - destruct (IH _ H5) as (I1 & I2). split; [constructor; [apply Hv; auto|assumption]|].
      rewrite !zlen_cons. lia. }
  cbn [wt bounds_ok]. rewrite Hlen. repeat split; auto.
  - eapply Forall_impl; [|exact Hvs]. cbv beta. intros ? (? & ?). assumption.
  - eapply Forall_impl; [|exact Hvs]. cbv beta. intros ? (? & ?). assumption.
Qed.

(** What a built value provides one level deep. *)
Definition vdeep (v : pyval) : Prop :=
  match v with
  | VStr s => Forall (fun c => 0 <= c) s
  | VBytes s => wf_bytes s
  | VList l | VTuple l => Forall vgood l
  | VObj c fs => forall ps, In (c, ps) format_classes -> wt_fields ps fs /\ bounds_ok_fields ps fs
  | _ => True
  end.

Lemma vdeep_vgood v : vdeep v -> vgood v.
Proof.
  intros Hd t. induction t using ft_ind'; intros v' Hwf Hc Hval; cbn [validate] in Hval.
  - injection Hval as Hval. split; [eapply num_validate_wt; exact Hval|exact I].
  - injection Hval as Hval. unfold varint_validate in Hval.
    destruct v; try discriminate; injection Hval as <-; cbn; tauto.
  - unfold ip_validate in Hval. destruct v; try discriminate. split; [|exact I]. cbn [wt].
    assert (v' = VStr s) as ->.
    { destruct (ipv4_groups s); [now inv Hval|]. bind_inv Hval. destruct x; now inv Hval. }
    cbn [ip_validate]. exact Hval.
  - injection Hval as Hval. unfold bytes_validate in Hval. destruct v; try discriminate.
    destruct (Z.eqb_spec (zlen s) n); [|discriminate]. injection Hval as <-. cbn. auto.
  - injection Hval as Hval. unfold varstr_validate in Hval.
    destruct v; try discriminate; injection Hval as <-; cbn; auto.
  - cbn [wf_ft classes_ok] in *. destruct Hwf as (Hwf & _ & Hmx).
    destruct v; try discriminate; eapply array_vgood; eauto.
  - destruct v; try discriminate. destruct (String.eqb_spec c cls); [|discriminate].
    subst cls. injection Hval as <-. cbn [classes_ok] in Hc. destruct (Hd _ Hc) as (W & B).
    split; [apply wt_compound; eauto|now apply bounds_ok_compound].
  - destruct v; try discriminate. destruct (String.eqb_spec c cls); [|discriminate].
    subst cls. injection Hval as <-. cbn [classes_ok] in Hc. destruct (Hd _ Hc) as (W & B).
    split; [apply wt_compoundnots; eauto|now apply (bounds_ok_compound c ps c)].
  - cbn [wf_ft classes_ok wt bounds_ok] in *. destruct Hwf as (Hwf & Hd1 & Hd2).
    destruct (validate t v) as [[y|]|] eqn:Ey; injection Hval as <-; auto.
Qed.

Lemma built_vgood v : built v -> vgood v.
Proof.
  intro H. apply vdeep_vgood. induction H using built_ind'; cbn; auto.
  - eapply Forall_impl; [|exact H]. cbv beta. intros; lia.
  - eapply Forall_impl; [|exact H0]. intros. now apply vdeep_vgood.
  - eapply Forall_impl; [|exact H0]. intros. now apply vdeep_vgood.
  - destruct (format_classes_wf _ _ H) as (W & N & C).
    destruct (construct_wt c props args kw v W C) as (fs & -> & Hw & Hb); auto.
    + eapply Forall_impl; [|exact H0]. intros. now apply vdeep_vgood.
    + eapply Forall_impl; [|exact H1]. intros. now apply vdeep_vgood.
    + cbn. intros ps Hin. rewrite (format_classes_fun _ _ _ Hin H). auto.
Qed.

(** * Sizes *)
Definition sm (t : ft) : Prop := wf_ft t -> forall v b, wt t v -> binary t v = Ok b ->
  zlen b <= 0xffffffff -> ok_varints 0xffffffff t v -> small t v.

Lemma fields_small ps : Forall (fun e => sm (snd e)) ps -> wf_fts ps -> NoDup (map fst ps) ->
  forall fs b, wt_fields ps fs -> fields_binary ps fs = Ok b -> zlen b <= 0xffffffff ->
  ok_varints_fields 0xffffffff ps fs -> small_fields ps fs.
Proof.
  induction 1 as [|(k, t) r Ht Hr IH]; intros Hwf Hnd fs b Hwt Hb Hl Hv; [exact I|].
  destruct fs as [|(k', x) fs]; [exact I|]. cbn in Hwt. destruct Hwt as (-> & Hx & Hfs).
  cbn [wf_fts] in Hwf. destruct Hwf as (Hwt & Hwr). cbn [map fst] in Hnd. inv Hnd.
  cbn [fields_binary assoc] in Hb. rewrite String.eqb_refl in Hb.
  rewrite fields_binary_skip in Hb by assumption. bind_inv Hb. bind_inv Hb. inv Hb.
  rewrite zlen_app in Hl. pose proof (zlen_nonneg x0). pose proof (zlen_nonneg x1).
  cbn in Hv. destruct Hv as (Hv1 & Hv2). cbn [small_fields]. split.
  - eapply Ht; eauto. lia.
  - eapply IH; eauto. lia.
Qed.

Lemma size_small t : sm t.
Proof.
  induction t using ft_ind'; unfold sm; intros Hwf v bb Hwt Hb Hl Hv; try exact I.
  - exact Hv.
  - cbn [small binary] in *. unfold varstr_binary in Hb.
    destruct v as [| | | |s|s| | | |]; try exact I; cbn [bind] in Hb.
    + unfold latin1 in Hb. destruct (forallb _ s); [|discriminate]. cbn [bind] in Hb. bind_inv Hb. inv Hb.
      apply varint_binary_len in H. rewrite zlen_app in Hl. lia.
    + bind_inv Hb. inv Hb. apply varint_binary_len in H. rewrite zlen_app in Hl. lia.
  - cbn [wf_ft] in Hwf. destruct Hwf as (Hwf & Hmin & _).
    assert (forall l, Forall (wt t) l -> Forall (ok_varints 0xffffffff t) l ->
      (let! n := varint_binary (zlen l) in
       let! items := sequence (map (binary t) l) in Ok (n ++ concat items)) = Ok bb ->
      zlen l < 0xffffffff /\ Forall (small t) l) as Hgen.
    { clear Hwt Hb Hv v. intros l Hwl Hvl Hb. bind_inv Hb. bind_inv Hb. inv Hb.
      apply varint_binary_len in H. rewrite zlen_app in Hl. apply sequence_ok in H0.
      assert (zlen x0 = zlen l /\ Forall (fun b => 1 <= zlen b) x0 /\
              (zlen (concat x0) <= 0xffffffff -> Forall (small t) l)) as (H1 & H2 & H3).
      { clear - IHt Hwf Hmin Hwl Hvl H0. revert x0 H0.
        induction Hwl as [|v l Hv Hl IH]; intros items Hs; inv Hs; inv Hvl.
        - repeat split; constructor.
        - destruct (IH H4 _ H3) as (I1 & I2 & I3). rewrite !zlen_cons.
          destruct (roundtrip_ft t Hwf v y Hv H1) as (Hge & _).
          repeat split; [lia|constructor; [lia|assumption]|].
          cbn [concat]. rewrite zlen_app. pose proof (zlen_nonneg (concat l')). intro.
          constructor; [eapply IHt; eauto; lia|apply I3; lia]. }
      split; [|apply H3; lia].
      pose proof (concat_len_ge x0 1 ltac:(lia) H2). lia. }
    destruct v; try exact I; cbn [small]; apply Hgen; auto.
  - cbn [wf_ft] in Hwf. destruct Hwf as (Hnd & Hwf). rewrite wf_fts_go in Hwf.
    apply wt_compound in Hwt. destruct Hwt as (fs & -> & Hwt). rewrite binary_compound in Hb.
    apply small_compound. apply ok_varints_compound in Hv. eapply fields_small; eauto.
  - cbn [wf_ft] in Hwf. destruct Hwf as (Hnd & (k & a & r & ->) & Hwf). rewrite wf_fts_go in Hwf.
    apply wt_compoundnots in Hwt. destruct Hwt as (fs & -> & Hwt).
    rewrite binary_compoundnots in Hb. bind_inv Hb. inv Hb.
    apply -> (ok_varints_compound 0xffffffff c ((k, FNumber FI false a) :: r) c fs) in Hv.
    apply (small_compound c ((k, FNumber FI false a) :: r) c fs).
    destruct fs as [|(k', x0) fs]; [contradiction|]. cbn [wt_fields] in Hwt. destruct Hwt as (-> & Hx & Hfs).
    inv H. cbn [wf_fts] in Hwf. destruct Hwf as (_ & Hwf). cbn [map fst] in Hnd. inv Hnd.
    cbn [fields_binary assoc] in H0. rewrite String.eqb_refl in H0.
    rewrite fields_binary_skip in H0 by assumption. bind_inv H0. bind_inv H0. inv H0.
    assert (zlen x1 = 4) as Hx1.
    { cbn [binary] in H. destruct x0; cbn [num_binary] in H; try discriminate; try (now apply zlen_pack in H).
      bind_inv H. now apply zlen_pack in H. }
    rewrite zdrop_app_exact in Hl by lia. cbn in Hv. destruct Hv as (_ & Hv).
    cbn [small_fields]. split; [exact I|]. eapply fields_small; eauto.
  - cbn [wf_ft] in Hwf. destruct Hwf as (Hwf & _). cbn [wt binary small ok_varints] in *. eapply IHt; eauto.
Qed.

(** * What can be written *)
Lemma sequence_total {A B} (f : A -> res B) l : Forall (fun x => exists y, f x = Ok y) l ->
  exists ys, sequence (map f l) = Ok ys.
Proof.
  induction 1 as [|x r (y & Hy) Hr (ys & IH)]; cbn; [eauto|]. rewrite Hy. cbn. rewrite IH. cbn. eauto.
Qed.

Lemma num_value_range f b a v : wt (FNumber f b a) v -> exists z, num_value v = Some z /\
  fst (struct_range f) <= z < snd (struct_range f).
Proof.
  pose proof (struct_range_ok f).
  destruct v; cbn [wt]; try contradiction.
  - intro Hz. eexists; split; [reflexivity|exact Hz].
  - intros _. eexists; split; [reflexivity|]. destruct b0; cbn; lia.
  - intros (_ & z & Hz). eauto.
Qed.

Lemma writable_ft t : wf_ft t -> forall v, wt t v -> (writable t v <-> exists b, binary t v = Ok b).
Proof.
  induction t using ft_ind'; intros Hwf v Hwt.
  - split; [intros _|intros _; exact I]. destruct (num_value_range _ _ _ _ Hwt) as (z & Hz & Hr).
    cbn [binary]. eexists. destruct v as [|z'|b'|x| | | | | |]; cbn in Hwt; try contradiction; cbn [num_binary].
    + injection Hz as ->. now apply struct_pack_in.
    + injection Hz as ->. now apply struct_pack_in.
    + destruct x as [m e|neg|]; try discriminate. cbn [float_trunc bind]. injection Hz as Hz.
      rewrite Hz. now apply struct_pack_in.
  - cbn [writable binary]. destruct v; cbn in Hwt; try contradiction; cbn [num_value];
      (split; [apply varint_binary_ok|intros (bb & Hb); eapply varint_binary_nonneg; exact Hb]).
  - cbn [writable binary]. destruct v; cbn in Hwt; try contradiction. cbn [ip_binary].
    destruct (ipv4_groups s) as [g|] eqn:E4; [split; [intros _; eauto|intros _; left; eauto]|].
    split.
    + intros [(g & H)|(g & Hg & Hl)]; [discriminate|]. rewrite Hg. cbn [bind]. unfold pack_groups. rewrite Hl. cbn [Z.eqb Pos.eqb andb].
      unfold ipv6_groups in Hg. destruct (_ <? 2); [discriminate|].
      destruct (_ || _); [discriminate|]. destruct (ipv6_fill _ _) as [gs|]; [|discriminate].
      destruct (forallb _ gs) eqn:F; [|discriminate]. inv Hg.
      replace (forallb _ g) with true; [eauto|]. symmetry. apply forallb_forall.
      rewrite forallb_forall in F. intros x Hx. apply F in Hx. lia.
    + intros (bb & Hb). right. bind_inv Hb. destruct x as [g|]; [|discriminate].
      apply pack_groups_ok in Hb. exists g. intuition.
  - cbn [wt] in Hwt. destruct v; try contradiction. cbn. split; [eauto|auto].
  - cbn [wt writable binary] in *. destruct v; try contradiction; unfold varstr_binary.
    + unfold latin1. split.
      * intros (Hl & Hc). replace (forallb _ s) with true.
        2:{ symmetry. apply forallb_forall. rewrite Forall_forall in Hc. intros x Hx. apply Hc in Hx. lia. }
        cbn [bind]. destruct (varint_binary_ok (zlen s)) as (n & ->); [pose proof (zlen_nonneg s); lia|]. cbn; eauto.
      * intros (bb & Hb). destruct (forallb _ s) eqn:F; [|discriminate]. cbn [bind] in Hb. bind_inv Hb.
        apply varint_binary_nonneg in H. split; [lia|]. rewrite forallb_forall in F.
        apply Forall_forall. intros x0 Hx. apply F in Hx. lia.
    + cbn [bind]. split.
      * intro Hl. destruct (varint_binary_ok (zlen s)) as (n & ->); [pose proof (zlen_nonneg s); lia|]. cbn; eauto.
      * intros (bb & Hb). bind_inv Hb. apply varint_binary_nonneg in H. lia.
  - cbn [wf_ft] in Hwf. destruct Hwf as (Hwf & _). specialize (IHt Hwf).
    assert (forall l, Forall (wt t) l -> (zlen l < 2 ^ 64 /\ Forall (writable t) l <-> exists bb,
      (let! n := varint_binary (zlen l) in
       let! items := sequence (map (binary t) l) in Ok (n ++ concat items)) = Ok bb)) as Hgen.
    { clear v Hwt. intros l Hl. split.
      - intros (Hlen & Hw). destruct (varint_binary_ok (zlen l)) as (n & ->); [pose proof (zlen_nonneg l); lia|].
        cbn [bind]. destruct (sequence_total (binary t) l) as (ys & ->); [|cbn; eauto].
        rewrite Forall_forall in *. intros x Hx. apply IHt; auto.
      - intros (bb & Hb). bind_inv Hb. bind_inv Hb. apply varint_binary_nonneg in H. split; [lia|].
        apply sequence_ok in H0. clear - Hl IHt H0. revert x0 H0.
        induction Hl as [|v l Hv Hl IH]; intros ys Hs; inv Hs; constructor; eauto. apply IHt; eauto. }
    cbn [wt writable binary] in *. destruct v; try contradiction; apply Hgen; assumption.
  - cbn [wf_ft] in Hwf. destruct Hwf as (Hnd & Hwf). rewrite wf_fts_go in Hwf.
    apply wt_compound in Hwt. destruct Hwt as (fs & -> & Hwt).
    rewrite binary_compound, writable_compound. revert fs Hwt.
    induction H as [|(k, t) r Ht Hr IH]; intros fs Hwt.
    + destruct fs; [|contradiction]. cbn. split; eauto.
    + destruct fs as [|(k', x) fs]; [contradiction|]. cbn in Hwt. destruct Hwt as (-> & Hx & Hfs).
      cbn in Hwf. destruct Hwf as (Hwt & Hwr). cbn in Hnd. inv Hnd.
      cbn [fields_binary assoc writable_fields]. rewrite String.eqb_refl.
      rewrite fields_binary_skip by assumption. cbn [snd] in Ht. rewrite (Ht Hwt x Hx), (IH H2 Hwr fs Hfs).
      split.
      * intros ((b1 & H1') & (b2 & H2')). rewrite H1', H2'. cbn; eauto.
      * intros (bb & Hb). bind_inv Hb. bind_inv Hb. eauto.
  - cbn [wf_ft] in Hwf. destruct Hwf as (Hnd & _ & Hwf). rewrite wf_fts_go in Hwf.
    apply wt_compoundnots in Hwt. destruct Hwt as (fs & -> & Hwt).
    rewrite binary_compoundnots. change (writable (FCompoundNoTs c ps)) with (writable (FCompound c ps)).
    rewrite writable_compound.
    assert (writable_fields ps fs <-> exists b, fields_binary ps fs = Ok b) as ->.
    { revert fs Hwt. induction H as [|(k, t) r Ht Hr IH]; intros fs Hwt.
      + destruct fs; [|contradiction]. cbn. split; eauto.
      + destruct fs as [|(k', x) fs]; [contradiction|]. cbn in Hwt. destruct Hwt as (-> & Hx & Hfs).
        cbn in Hwf. destruct Hwf as (Hwt & Hwr). cbn in Hnd. inv Hnd.
        cbn [fields_binary assoc writable_fields]. rewrite String.eqb_refl.
        rewrite fields_binary_skip by assumption. cbn [snd] in Ht. rewrite (Ht Hwt x Hx), (IH H2 Hwr fs Hfs).
        split.
        * intros ((b1 & H1') & (b2 & H2')). rewrite H1', H2'. cbn; eauto.
        * intros (bb & Hb). bind_inv Hb. bind_inv Hb. eauto. }
    split; [intros (b & ->); cbn; eauto|intros (b & Hb); bind_inv Hb; eauto].
  - cbn [wf_ft] in Hwf. destruct Hwf as (Hwf & _). cbn [wt binary writable] in *. now apply IHt.
Qed.

Lemma writable_fields_iff ps : wf_fts ps -> NoDup (map fst ps) -> forall fs, wt_fields ps fs ->
  (writable_fields ps fs <-> exists b, fields_binary ps fs = Ok b).
Proof.
  intros Hwf Hnd fs Hwt. rewrite <- (writable_compound "" ps "" fs), <- (binary_compound "" ps "" fs).
  apply writable_ft.
  - cbn [wf_ft]. split; [assumption|now apply wf_fts_go].
  - apply wt_compound. eauto.
Qed.

(** * What parsers guarantee *)
Definition pw (t : ft) : Prop := wf_ft t -> forall data n v, wf_bytes data -> parse t data = Ok (n, v) ->
  0 <= n /\ (n <= zlen data -> wt t v).

Lemma varint_parse_ok data n z : wf_bytes data -> varint_parse data = Ok (n, z) ->
  1 <= n <= zlen data /\ 0 <= z < 2 ^ 32.
Proof.
  intros Hw H. destruct data as [|c r]; [discriminate|]. cbn [varint_parse] in H.
  assert (is_byte c) as Hc by (now inv Hw). unfold is_byte in Hc.
  assert (forall f k, struct_unpack f false (slice 1 (1 + Z.of_nat (nf_len f)) (c :: r)) = Ok k -> 1 + Z.of_nat (nf_len f) <= zlen (c :: r) /\ fst (struct_range f) <= k < snd (struct_range f)) as Hu.
  { intros f k Hk. pose proof Hk as Hk'. apply struct_unpack_in in Hk'; [|now apply Forall_slice].
    split; [|tauto]. unfold struct_unpack in Hk.
    destruct (Z.eqb_spec (zlen (slice 1 (1 + Z.of_nat (nf_len f)) (c :: r))) (Z.of_nat (nf_len f))) as [E|]; [|discriminate].
    unfold slice in E. rewrite zlen_ztake, zlen_zdrop in E by (destruct f; cbn; lia).
    assert (0 < Z.of_nat (nf_len f)) by (destruct f; cbn; lia). lia. }
  destruct (c =? 0xfd).
  - bind_inv H. inv H. destruct (Hu FH _ H0) as (A & B). change (1 + Z.of_nat (nf_len FH)) with 3 in A.
    change (fst (struct_range FH)) with 0 in B. change (snd (struct_range FH)) with 65536 in B. lia.
  - destruct (c =? 0xfe).
    + bind_inv H. inv H. destruct (Hu FI _ H0) as (A & B). change (1 + Z.of_nat (nf_len FI)) with 5 in A.
      change (fst (struct_range FI)) with 0 in B. change (snd (struct_range FI)) with 4294967296 in B. lia.
    + inv H. rewrite zlen_cons. pose proof (zlen_nonneg r). lia.
Qed.

Lemma parse_items_pw t : (forall data n v, wf_bytes data -> parse t data = Ok (n, v) -> 0 <= n /\ (n <= zlen data -> wt t v)) ->
  forall k data off n l, wf_bytes data -> 0 <= off -> parse_items (parse t) k data off = Ok (n, l) ->
  off <= n /\ (n <= zlen data -> Forall (wt t) l).
Proof.
  intros Ht. induction k as [|k IH]; intros data off n l Hw Ho H; cbn in H.
  - inv H. split; [lia|constructor].
  - bind_inv H. destruct x as (len, x). bind_inv H. destruct x0 as (off', xs). inv H.
    apply Ht in H0; [|now apply Forall_zdrop]. destruct H0 as (Hlen & Hx).
    apply IH in H1; [|assumption|lia]. destruct H1 as (Hoff & Hxs).
    split; [lia|]. intro Hn. constructor; auto. apply Hx. rewrite zlen_zdrop by lia. lia.
Qed.

Lemma fields_parse_pw ps : Forall (fun e => pw (snd e)) ps -> wf_fts ps ->
  forall data off n fs, wf_bytes data -> 0 <= off -> fields_parse ps off data = Ok (n, fs) ->
  off <= n /\ (n <= zlen data -> wt_fields ps fs).
Proof.
  induction 1 as [|(k, t) r Ht Hr IH]; intros Hwf data off n fs Hw Ho H; cbn [fields_parse] in H.
  - inv H. split; [lia|exact (fun _ => I)].
  - destruct (parse t (zdrop off data)) as [(len, x)|] eqn:E; [|discriminate].
    bind_inv H. destruct x0 as (off', xs). inv H. cbn in Hwf. destruct Hwf as (Hwt & Hwr).
    apply Ht in E; [|assumption|now apply Forall_zdrop]. destruct E as (Hlen & Hx).
    apply IH in H0; [|assumption|assumption|lia]. destruct H0 as (Hoff & Hxs).
    split; [lia|]. intro Hn. cbn. repeat split; auto. apply Hx. rewrite zlen_zdrop by lia. lia.
Qed.

Lemma parse_wt t : pw t.
Proof.
  induction t using ft_ind'; unfold pw; intros Hwf data n0 v Hw H0; cbn [parse] in H0.
  - unfold num_parse in H0. bind_inv H0. inv H0. split; [lia|]. intros _. cbn [wt].
    apply struct_unpack_in in H; [tauto|now apply Forall_ztake].
  - bind_inv H0. destruct x as (n', z). inv H0. apply varint_parse_ok in H; [|assumption]. cbn. split; [lia|auto].
  - unfold ip_parse in H0.
    assert (n0 = 16 /\ (16 <= zlen data -> exists rest, data = ztake 16 data ++ rest)) as (Hn & Hd).
    { split; [destruct (_ && _); destruct (_ =? _); now inv H0|]. intros _. exists (zdrop 16 data). symmetry; apply ztake_zdrop. }
    subst n0. split; [lia|]. intro Hl. fold (ip_parse data) in H0.
    destruct (Hd Hl) as (rest & Hrest). rewrite Hrest in H0.
    assert (zlen (ztake 16 data) = 16) as H16 by (rewrite zlen_ztake; lia).
    rewrite ip_parse_spec in H0 by assumption. inv H0. cbn [wt].
    apply ip_binary_text; [now apply Forall_ztake|assumption].
  - inv H0. cbn [wf_ft] in Hwf. split; [assumption|]. intro Hn. cbn [wt]. split; [now apply Forall_ztake|].
    rewrite zlen_ztake; lia.
  - unfold varstr_parse in H0. bind_inv H0. destruct x as (vl, len). inv H0. apply varint_parse_ok in H; [|assumption].
    pose proof (zlen_nonneg (slice vl (vl + len) data)). split; [lia|]. intros _. cbn. now apply Forall_slice.
  - cbn [wf_ft] in Hwf. destruct Hwf as (Hwf & _). bind_inv H0. destruct x as (off, l). inv H0.
    unfold parse_var_set in H. bind_inv H. destruct x as (o, c). apply varint_parse_ok in H0; [|assumption].
    apply (parse_items_pw t (IHt Hwf)) in H; [|assumption|lia]. cbn [wt]. split; [lia|tauto].
  - cbn [wf_ft] in Hwf. destruct Hwf as (Hnd & Hwf). rewrite wf_fts_go in Hwf.
    fold (parse (FCompound c ps) data) in H0. change (parse (FCompound c ps) data = Ok (n0, v)) in H0.
    rewrite parse_compound in H0. bind_inv H0. destruct x as (off, fs). inv H0.
    apply fields_parse_pw in H1; auto; [|lia]. destruct H1 as (Ho & Hf). split; [lia|].
    intro Hn. apply wt_compound. eauto.
  - cbn [wf_ft] in Hwf. destruct Hwf as (Hnd & (k & a & r & Hps) & Hwf). rewrite wf_fts_go in Hwf.
    change (parse (FCompoundNoTs c ps) data = Ok (n0, v)) in H0.
    rewrite parse_compoundnots in H0. bind_inv H0. destruct x as (off, fs). injection H0 as <- <-.
    assert (wf_bytes ([0;0;0;0] ++ data)) as Hw'.
    { apply wf_bytes_app. split; [repeat constructor; unfold is_byte; lia|assumption]. }
    pose proof H1 as H1'. subst ps. cbn [fields_parse] in H1'.
    destruct (parse (FNumber FI false a) (zdrop 0 ([0;0;0;0] ++ data))) as [(len, x)|] eqn:E; [|discriminate].
    assert (len = 4) as Hlen. { cbn [parse] in E. unfold num_parse in E. bind_inv E. now inv E. }
    bind_inv H1'. destruct x0 as (off', xs). inv H1'. inv H.
    cbn [wf_fts] in Hwf. destruct Hwf as (_ & Hwfr).
    assert (0 <= 0 + 4) as P4 by lia. assert (0 <= 0) as P0 by lia.
    pose proof (fields_parse_pw r H5 Hwfr _ _ _ _ Hw' P4 H0) as (Ho & _).
    assert (Forall (fun e => pw (snd e)) ((k, FNumber FI false a) :: r)) as Hall by (constructor; assumption).
    pose proof (fields_parse_pw _ Hall (conj I Hwfr) _ _ _ _ Hw' P0 H1) as (_ & Hf).
    split; [lia|]. intro Hn. apply wt_compoundnots. eexists; split; [reflexivity|].
    apply Hf. rewrite zlen_app. change (zlen [0;0;0;0]) with 4. lia.
  - cbn [wf_ft] in Hwf. destruct Hwf as (Hwf & Hd & _).
    destruct (parse t data) as [r|] eqn:E; inv H0.
    + apply IHt in E; auto.
    + split; [lia|]. cbn [wt]. auto.
Qed.
