(** Specification and proofs about the lazily parsed alert payload. *)
From Coq Require Import String ZArith List Lia Bool.
From Verif Require Import PyBase PyVal PyTextProofs FormatModel FormatSpec FormatProofs FormatProofs2 MessagesModel MessagesProofs.
Import ListNotations.
Open Scope string_scope.
Open Scope list_scope.
Open Scope Z_scope.

(** The alert payload of the Bitcoin protocol, field by field
    (https://en.bitcoin.it/wiki/Protocol_specification#alert). *)
Definition alert_props : list (string * ft) :=
  [ ("version", FNumber Fi false false);
    ("relay_until", FNumber Fq false false);
    ("expiration", FNumber Fq false false);
    ("id", FNumber Fi false false);
    ("cancel", FNumber Fi false false);
    ("set_cancel", FArray (FNumber Fi false false) None None);
    ("min_ver", FNumber Fi false false);
    ("max_ver", FNumber Fi false false);
    ("set_sub_ver", FArray FVarStr None None);
    ("priority", FNumber Fi false false);
    ("comment", FVarStr);
    ("status_bar", FVarStr);
    ("reserved", FVarStr) ].

(** A sequence of property reads on one Alert object. *)
Fixpoint alert_reads (payload : bytes) (cache : list (string * pyval)) (names : list string)
  : list (res pyval) :=
  match names with
  | [] => []
  | n :: r => let (o, cache') := alert_get payload cache n in o :: alert_reads payload cache' r
  end.

Lemma slice_slice {A} (l : list A) a b c : 0 <= a -> 0 <= b -> b <= c -> 
  slice a b (ztake c l) = slice a b l.
Proof.
  intros Ha Hb Hc. unfold slice.
  destruct (Z_le_gt_dec c (zlen l)) as [H|H].
  - rewrite <- (ztake_zdrop l c) at 2.
    assert (zlen (ztake c l) = c) by (rewrite zlen_ztake; lia).
    destruct (Z_le_gt_dec a c).
    + rewrite zdrop_app_le by lia. symmetry. apply ztake_app_le. rewrite zlen_zdrop; lia.
    + rewrite !ztake_le0 by lia. reflexivity.
  - rewrite (ztake_all l c) by lia. reflexivity.
Qed.

Lemma num_parse_inv f big data n v : num_parse f big data = Ok (n, v) ->
  n = Z.of_nat (nf_len f) /\ n <= zlen data /\ exists z, v = VInt z /\ struct_unpack f big (ztake (Z.of_nat (nf_len f)) data) = Ok z.
Proof.
  unfold num_parse. intro H. bind_inv H. inv H. repeat split; eauto.
  unfold struct_unpack in H0. destruct (Z.eqb_spec (zlen (ztake (Z.of_nat (nf_len f)) data)) (Z.of_nat (nf_len f))); [|discriminate].
  rewrite zlen_ztake in e by lia. lia.
Qed.

Lemma fields_parse_cons_inv k t r off data n fs : fields_parse ((k, t) :: r) off data = Ok (n, fs) ->
  exists len x xs, parse t (zdrop off data) = Ok (len, x) /\ fs = (k, x) :: xs /\
    fields_parse r (off + len) data = Ok (n, xs).
Proof.
  cbn [fields_parse]. destruct (parse t (zdrop off data)) as [(len, x)|]; [|discriminate].
  intro H. bind_inv H. destruct x0 as (o, xs). inv H. eauto 6.
Qed.

Lemma alert_fill_fields data n fs : wf_bytes data -> fields_parse alert_props 0 data = Ok (n, fs) -> alert_fill data = (fs, None).
Proof.
  intros Hw H. unfold alert_props in H.
  apply fields_parse_cons_inv in H. destruct H as (l1 & v1 & f1 & P1 & -> & H).
  apply num_parse_inv in P1. destruct P1 as (-> & L1 & z1 & -> & P1). cbn [nf_len] in *.
  apply fields_parse_cons_inv in H. destruct H as (l2 & v2 & f2 & P2 & -> & H).
  apply num_parse_inv in P2. destruct P2 as (-> & L2 & z2 & -> & P2). cbn [nf_len] in *.
  apply fields_parse_cons_inv in H. destruct H as (l3 & v3 & f3 & P3 & -> & H).
  apply num_parse_inv in P3. destruct P3 as (-> & L3 & z3 & -> & P3). cbn [nf_len] in *.
  apply fields_parse_cons_inv in H. destruct H as (l4 & v4 & f4 & P4 & -> & H).
  apply num_parse_inv in P4. destruct P4 as (-> & L4 & z4 & -> & P4). cbn [nf_len] in *.
  apply fields_parse_cons_inv in H. destruct H as (l5 & v5 & f5 & P5 & -> & H).
  apply num_parse_inv in P5. destruct P5 as (-> & L5 & z5 & -> & P5). cbn [nf_len] in *.
  change (Z.of_nat 4) with 4 in *. change (Z.of_nat 8) with 8 in *.
  change (0 + 4) with 4 in *. change (4 + 8) with 12 in *. change (12 + 8) with 20 in *.
  change (20 + 4) with 24 in *. change (24 + 4) with 28 in *.
  rewrite zlen_zdrop in L5 by lia.
  assert (alert_head (slice 0 28 data) = Ok (z1, z2, z3, z4, z5)) as HH.
  { unfold alert_head. unfold slice at 1. rewrite zdrop_0, zlen_ztake by lia.
    replace (Z.min (28 - 0) (zlen data)) with 28 by lia. cbn [Z.eqb Pos.eqb negb].
    replace (slice 0 28 data) with (ztake 28 data) by (unfold slice; now rewrite zdrop_0).
    rewrite !slice_slice by lia. unfold slice.
    change (4 - 0) with 4. change (12 - 4) with 8. change (20 - 12) with 8. change (24 - 20) with 4. change (28 - 24) with 4.
    rewrite P1. cbn [bind]. rewrite P2. cbn [bind]. rewrite P3. cbn [bind]. rewrite P4. cbn [bind]. rewrite P5. reflexivity. }
  apply fields_parse_cons_inv in H. destruct H as (l6 & v6 & f6 & P6 & -> & H).
  pose proof (parse_wt (FArray (FNumber Fi false false) None None)) as W6.
  unfold pw in W6. pose proof (W6 ltac:(cbn; repeat split; try lia; discriminate) _ _ _ (Forall_zdrop _ 28 _ Hw) P6) as (N6 & _).
  cbn [parse] in P6. bind_inv P6. destruct x as (o6, s6). injection P6 as <- <-. rename H0 into P6.
  apply fields_parse_cons_inv in H. destruct H as (l7 & v7 & f7 & P7 & -> & H).
  apply num_parse_inv in P7. destruct P7 as (-> & L7 & z7 & -> & P7). cbn [nf_len] in *. change (Z.of_nat 4) with 4 in *.
  apply fields_parse_cons_inv in H. destruct H as (l8 & v8 & f8 & P8 & -> & H).
  apply num_parse_inv in P8. destruct P8 as (-> & L8 & z8 & -> & P8). cbn [nf_len] in *. change (Z.of_nat 4) with 4 in *.
  replace (28 + o6 + 4 + 4) with (28 + o6 + 8) in * by lia.
  rewrite zlen_zdrop in L8 by lia.
  assert (alert_vers (slice (28 + o6) (28 + o6 + 8) data) = Ok (z7, z8)) as HV.
  { replace (slice (28 + o6) (28 + o6 + 8) data) with (ztake 8 (zdrop (28 + o6) data)) by (unfold slice; f_equal; lia).
    unfold alert_vers. rewrite zlen_ztake, zlen_zdrop by lia.
    replace (Z.min 8 (Z.max 0 (zlen data - (28 + o6)))) with 8 by lia. cbn [Z.eqb Pos.eqb negb].
    rewrite !slice_slice by lia.
    unfold slice. rewrite zdrop_0. change (4 - 0) with 4. change (8 - 4) with 4. rewrite P7. cbn [bind].
    rewrite zdrop_zdrop by lia. replace (4 + (28 + o6)) with (28 + o6 + 4) by lia. rewrite P8. reflexivity. }
  apply fields_parse_cons_inv in H. destruct H as (l9 & v9 & f9 & P9 & -> & H).
  pose proof (parse_wt (FArray FVarStr None None)) as W9.
  unfold pw in W9. pose proof (W9 ltac:(cbn; repeat split; try lia; discriminate) _ _ _ (Forall_zdrop _ _ _ Hw) P9) as (N9 & _).
  cbn [parse] in P9. bind_inv P9. destruct x as (o9, s9). injection P9 as <- <-. rename H0 into P9.
  apply fields_parse_cons_inv in H. destruct H as (l10 & v10 & f10 & P10 & -> & H).
  apply num_parse_inv in P10. destruct P10 as (-> & L10 & z10 & -> & P10). cbn [nf_len] in *. change (Z.of_nat 4) with 4 in *.
  apply fields_parse_cons_inv in H. destruct H as (l11 & v11 & f11 & P11 & -> & H).
  apply fields_parse_cons_inv in H. destruct H as (l12 & v12 & f12 & P12 & -> & H).
  apply fields_parse_cons_inv in H. destruct H as (l13 & v13 & f13 & P13 & -> & H).
  cbn in H. injection H as <- <-. cbn [parse] in P11, P12, P13.
  unfold alert_fill. rewrite HH.
  change (parse (FNumber Fi false false)) with (fun d => num_parse Fi false d).
  change (parse (FNumber Fi false false)) with (fun d => num_parse Fi false d) in P6.
  rewrite P6. rewrite HV.
  change (fun data : bytes => varstr_parse data) with (parse FVarStr) in P9. rewrite P9.
  replace (slice (28 + o6 + 8 + o9) (28 + o6 + 8 + o9 + 4) data) with (ztake 4 (zdrop (28 + o6 + 8 + o9) data)).
  2:{ unfold slice. f_equal. lia. }
  rewrite P10. rewrite P11, P12, P13. reflexivity.
Qed.

Lemma alert_props_wf : wf_fts alert_props /\ NoDup (map fst alert_props).
Proof.
  split; [cbn; repeat split; try lia; discriminate|].
  repeat constructor; cbn; intuition discriminate.
Qed.

Lemma wf_fields_binary ps fs b : (forall v t b, wt t v -> binary t v = Ok b -> wf_bytes b) ->
  NoDup (map fst ps) -> wt_fields ps fs -> fields_binary ps fs = Ok b -> wf_bytes b.
Proof.
  intros HB. revert fs b. induction ps as [|(k, t) r IH]; intros fs b Hn Hw H.
  - cbn in H. inv H. constructor.
  - destruct fs as [|(k', x) fs]; [contradiction|]. cbn in Hw. destruct Hw as (-> & Hx & Hfs). cbn in Hn. inv Hn.
    cbn [fields_binary assoc] in H. rewrite String.eqb_refl in H. rewrite fields_binary_skip in H by assumption.
    bind_inv H. bind_inv H. inv H. apply wf_bytes_app. eauto.
Qed.

Lemma wf_pack f big x b : struct_pack f big x = Ok b -> wf_bytes b.
Proof. intro H. apply struct_pack_ok in H. destruct H as (_ & ->). destruct big; [apply wf_be_bytes|apply wf_le_bytes]. Qed.
Lemma wf_varint x b : varint_binary x = Ok b -> wf_bytes b.
Proof.
  unfold varint_binary. destruct (x <? _); [apply wf_pack|].
  destruct (x <? _); [|destruct (x <? _)]; intro H; bind_inv H; inv H; constructor;
    (try (unfold is_byte; lia)); eapply wf_pack; eauto.
Qed.

Lemma wf_binary t : wf_ft t -> forall v b, wt t v -> binary t v = Ok b -> wf_bytes b.
Proof.
  induction t using ft_ind'; intros Hwf v bb Hwt Hb.
  - cbn [binary] in Hb. destruct v; cbn [num_binary] in Hb; try discriminate; try (eapply wf_pack; eauto; fail).
    bind_inv Hb. eapply wf_pack; eauto.
  - cbn [binary] in Hb. destruct v; try discriminate; eapply wf_varint; eauto.
  - now apply ip_binary_len in Hb.
  - cbn in *. destruct v; try discriminate. inv Hb. tauto.
  - cbn [binary wt] in *. unfold varstr_binary in Hb. destruct v; try contradiction.
    + unfold latin1 in Hb. destruct (forallb _ s) eqn:F; [|discriminate]. cbn [bind] in Hb. bind_inv Hb. inv Hb.
      apply wf_bytes_app. split; [eapply wf_varint; eauto|]. unfold wf_bytes, is_byte. rewrite forallb_forall in F. rewrite Forall_forall in *.
      intros y Hy. split; [auto|]. apply F in Hy. lia.
    + cbn [bind] in Hb. bind_inv Hb. inv Hb. apply wf_bytes_app. split; [eapply wf_varint; eauto|assumption].
  - cbn [wf_ft] in Hwf. destruct Hwf as (Hwf & _).
    assert (forall l, Forall (wt t) l -> (let! n := varint_binary (zlen l) in
       let! items := sequence (map (binary t) l) in Ok (n ++ concat items)) = Ok bb -> wf_bytes bb) as G.
    { clear Hb Hwt v. intros l Hl Hb. bind_inv Hb. bind_inv Hb. inv Hb. apply wf_bytes_app. split; [eapply wf_varint; eauto|].
      apply sequence_ok in H0. clear - Hl H0 IHt Hwf. revert x0 H0. induction Hl as [|v l Hv Hl IH]; intros it Hs; inv Hs; cbn; [constructor|].
      apply wf_bytes_app. eauto. }
    cbn [wt binary] in *. destruct v; try contradiction; eauto.
  - cbn [wf_ft] in Hwf. destruct Hwf as (Hnd & Hwf). rewrite wf_fts_go in Hwf.
    apply wt_compound in Hwt. destruct Hwt as (fs & -> & Hwt). rewrite binary_compound in Hb.
    revert fs bb Hwt Hb. induction H as [|(k, t) r Ht Hr IH]; intros fs bb Hwt Hb.
    + cbn in Hb. inv Hb. constructor.
    + destruct fs as [|(k', x) fs]; [contradiction|]. cbn in Hwt. destruct Hwt as (-> & Hx & Hfs). cbn in Hnd. inv Hnd.
      cbn in Hwf. destruct Hwf as (W1 & W2).
      cbn [fields_binary assoc] in Hb. rewrite String.eqb_refl in Hb. rewrite fields_binary_skip in Hb by assumption.
      bind_inv Hb. bind_inv Hb. inv Hb. apply wf_bytes_app. eauto.
  - cbn [wf_ft] in Hwf. destruct Hwf as (Hnd & _ & Hwf). rewrite wf_fts_go in Hwf.
    apply wt_compoundnots in Hwt. destruct Hwt as (fs & -> & Hwt). rewrite binary_compoundnots in Hb.
    bind_inv Hb. inv Hb. apply Forall_zdrop. rename H0 into Hb.
    revert fs x Hwt Hb. induction H as [|(k, t) r Ht Hr IH]; intros fs bb Hwt Hb.
    + cbn in Hb. inv Hb. constructor.
    + destruct fs as [|(k', x) fs]; [contradiction|]. cbn in Hwt. destruct Hwt as (-> & Hx & Hfs). cbn in Hnd. inv Hnd.
      cbn in Hwf. destruct Hwf as (W1 & W2).
      cbn [fields_binary assoc] in Hb. rewrite String.eqb_refl in Hb. rewrite fields_binary_skip in Hb by assumption.
      bind_inv Hb. bind_inv Hb. inv Hb. apply wf_bytes_app. split; [eapply Ht; eauto|exact (IH H2 W2 _ _ Hfs H0)].
  - cbn [wf_ft wt binary] in *. destruct Hwf as (Hwf & _). eauto.
Qed.

Lemma wf_fields ps fs b : wf_fts ps -> NoDup (map fst ps) -> wt_fields ps fs -> fields_binary ps fs = Ok b -> wf_bytes b.
Proof.
  intros W N T B. rewrite <- (binary_compound "" ps "" fs) in B. eapply wf_binary; [| |exact B].
  - cbn [wf_ft]. split; [assumption|now apply wf_fts_go].
  - apply wt_compound. eauto.
Qed.

Lemma no_varint limit t : has_varint t = false -> forall v, ok_varints limit t v.
Proof.
  induction t using ft_ind'; intros Hh v; try exact I; try discriminate Hh.
  - cbn [has_varint] in Hh. destruct v; try exact I; cbn; apply Forall_forall; auto.
  - destruct v as [ | | | | | | | |c' fs| ]; try exact I. apply ok_varints_compound. revert fs. cbn [has_varint] in Hh.
    induction H as [|(k, t) r Ht Hr IH]; intros [|(k', x) fs]; cbn; auto.
    cbn in Hh. apply orb_false_elim in Hh. destruct Hh. auto.
  - destruct v as [ | | | | | | | |c' fs| ]; try exact I. apply (ok_varints_compound limit c ps c' fs). revert fs. cbn [has_varint] in Hh.
    induction H as [|(k, t) r Ht Hr IH]; intros [|(k', x) fs]; cbn; auto.
    cbn in Hh. apply orb_false_elim in Hh. destruct Hh. auto.
  - cbn in *. auto.
Qed.
Lemma no_varint_fields limit ps fs : Forall (fun e => has_varint (snd e) = false) ps -> ok_varints_fields limit ps fs.
Proof.
  intro H. revert fs. induction H as [|(k, t) r Ht Hr IH]; intros [|(k', x) fs]; cbn; auto.
  split; [now apply no_varint|apply IH].
Qed.

Lemma alert_reads_spec fs payload names : wt_fields alert_props fs -> fields_binary alert_props fs = Ok payload ->
  zlen payload <= 0xffffffff ->
  forall rest, wf_bytes rest ->
  alert_reads (payload ++ rest) [] names =
  map (fun n => match assoc n (canon_fields alert_props fs) with Some v => Ok v | None => Raise KeyError end) names.
Proof.
  intros T B L rest Hr. destruct alert_props_wf as (W & N).
  assert (ok_varints_fields 0xffffffff alert_props fs) as V.
  { apply no_varint_fields. repeat constructor. }
  pose proof (fields_roundtrip _ _ _ W N T B L V rest) as R.
  assert (wf_bytes (payload ++ rest)) as Hw by (apply wf_bytes_app; split; [eapply wf_fields; eauto|assumption]).
  apply alert_fill_fields in R; [|assumption].
  assert (is_nil (canon_fields alert_props fs) = false) as Hnn.
  { destruct fs as [|(? & ?) fs]; [contradiction|reflexivity]. }
  assert (forall names, alert_reads (payload ++ rest) (canon_fields alert_props fs) names =
     map (fun n => match assoc n (canon_fields alert_props fs) with Some v => Ok v | None => Raise KeyError end) names) as G.
  { clear names. induction names as [|n r IH]; [reflexivity|]. cbn [alert_reads map]. unfold alert_get. rewrite Hnn. now rewrite IH. }
  destruct names as [|n r]; [reflexivity|]. cbn [alert_reads map]. unfold alert_get. cbn [is_nil]. rewrite R. now rewrite G.
Qed.
