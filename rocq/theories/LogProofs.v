(** Proofs about the rendering of messages, and about re-serialising what has
    been parsed. *)
From Coq Require Import String ZArith List Lia Bool.
From Verif Require Import PyBase PyVal FormatModel FormatSpec FormatProofs FormatProofs2 MessagesModel MessagesProofs AlertProofs NodeModel LogModel.
Import ListNotations.
Open Scope string_scope.
Open Scope list_scope.
Open Scope Z_scope.

(** Well-typed up to the length of fixed-length byte strings. *)
Fixpoint shaped (t : ft) (v : pyval) {struct t} : Prop :=
  match t with
  | FNumber _ _ _ | FVarInt | FVarStr => wt t v
  | FIP => exists s, v = VStr s
  | FBytes _ => exists s, v = VBytes s /\ wf_bytes s
  | FArray child _ _ => exists l, (v = VList l \/ v = VTuple l) /\ Forall (shaped child) l
  | FCompound c props | FCompoundNoTs c props =>
      exists fs, v = VObj c fs /\
          (fix go ps fs := match ps, fs with
            | [], [] => True
            | (k, vt) :: ps', (k', x) :: fs' => k' = k /\ shaped vt x /\ go ps' fs'
            | _, _ => False
            end) props fs
  | FOptional child _ => shaped child v
  end.
Fixpoint shaped_fields (ps : list (string * ft)) (fs : list (string * pyval)) : Prop :=
  match ps, fs with
  | [], [] => True
  | (k, vt) :: ps', (k', x) :: fs' => k' = k /\ shaped vt x /\ shaped_fields ps' fs'
  | _, _ => False
  end.
Lemma shaped_go ps fs :
  (fix go ps fs := match ps, fs with
            | [], [] => True
            | (k, vt) :: ps', (k', x) :: fs' => k' = k /\ shaped vt x /\ go ps' fs'
            | _, _ => False
            end) ps fs <-> shaped_fields ps fs.
Proof.
  revert fs. induction ps as [|(k, vt) r IH]; intros [|(k', x) fs]; cbn; try tauto; specialize (IH fs); tauto.
Qed.
Lemma shaped_compound c ps v : shaped (FCompound c ps) v <-> exists fs, v = VObj c fs /\ shaped_fields ps fs.
Proof. cbn [shaped]. split; intros (fs & -> & H); exists fs; (split; [reflexivity|]); now apply shaped_go. Qed.
Lemma shaped_compoundnots c ps v : shaped (FCompoundNoTs c ps) v <-> exists fs, v = VObj c fs /\ shaped_fields ps fs.
Proof. exact (shaped_compound c ps v). Qed.
Lemma shaped_assoc ps : NoDup (map fst ps) -> forall fs k t, shaped_fields ps fs -> In (k, t) ps -> exists v, assoc k fs = Some v /\ shaped t v.
Proof.
  induction ps as [|(k0, t0) r IH]; intros N fs k t H I; [contradiction|].
  cbn [map fst] in N. apply NoDup_cons_iff in N. destruct N as (N1 & N2).
  destruct fs as [|(k', x) fs]; [contradiction|]. cbn [shaped_fields] in H. destruct H as (-> & Hx & Hr).
  destruct I as [E|I].
  - injection E as -> ->. exists x. cbn [assoc]. rewrite String.eqb_refl. auto.
  - destruct (IH N2 fs k t Hr I) as (v & E & S). exists v. split; [|exact S]. cbn [assoc].
    destruct (String.eqb_spec k k0) as [->|]; [|exact E]. exfalso. apply N1. apply in_map_iff. exists (k0, t). auto.
Qed.

Lemma wt_shaped_fields ps : Forall (fun e => forall v, wt (snd e) v -> shaped (snd e) v) ps -> forall fs, wt_fields ps fs -> shaped_fields ps fs.
Proof.
  induction 1 as [|(k, t) r Ht _ IH]; intros [|(k', x) fs]; cbn; try tauto. intros (E & Hx & Hr). auto.
Qed.
Lemma wt_shaped t : forall v, wt t v -> shaped t v.
Proof.
  induction t using ft_ind'; intros v H'.
  - exact H'.
  - exact H'.
  - destruct v; try contradiction. cbn. eauto.
  - destruct v; try contradiction. destruct H' as (W & _). cbn. eauto.
  - exact H'.
  - cbn [wt] in H'. cbn [shaped]. destruct v; try contradiction; eexists; (split; [eauto|]); (eapply Forall_impl; [exact IHt|exact H']).
  - apply wt_compound in H'. destruct H' as (fs & -> & W). apply shaped_compound. exists fs. split; [reflexivity|]. eapply wt_shaped_fields; eauto.
  - apply wt_compoundnots in H'. destruct H' as (fs & -> & W). apply shaped_compoundnots. exists fs. split; [reflexivity|]. eapply wt_shaped_fields; eauto.
  - exact (IHt v H').
Qed.

(** *** Parsed values *)
(** The defaults of optional fields can be serialised. *)
Fixpoint defaults_ok (t : ft) : Prop :=
  match t with
  | FArray c _ _ => defaults_ok c
  | FCompound _ ps | FCompoundNoTs _ ps =>
      (fix go ps := match ps with [] => True | (_, t) :: r => defaults_ok t /\ go r end) ps
  | FOptional c d => defaults_ok c /\ exists b, binary c d = Ok b
  | _ => True
  end.
Fixpoint defaults_oks (ps : list (string * ft)) : Prop :=
  match ps with [] => True | (_, t) :: r => defaults_ok t /\ defaults_oks r end.
Lemma defaults_go ps : (fix go ps := match ps with [] => True | (_, t) :: r => defaults_ok t /\ go r end) ps <-> defaults_oks ps.
Proof. induction ps as [|(k,t) r IH]; cbn; tauto. Qed.

Definition back (t : ft) : Prop := wf_ft t -> defaults_ok t -> forall data n v, wf_bytes data -> parse t data = Ok (n, v) ->
  shaped t v /\ exists b, binary t v = Ok b.

Lemma items_back t : (forall data n v, wf_bytes data -> parse t data = Ok (n, v) -> shaped t v /\ exists b, binary t v = Ok b) ->
  forall k data off n l, wf_bytes data -> parse_items (parse t) k data off = Ok (n, l) ->
  zlen l = Z.of_nat k /\ Forall (shaped t) l /\ Forall (fun v => exists b, binary t v = Ok b) l.
Proof.
  intros Ht. induction k as [|k IH]; intros data off n l Hw H; cbn in H.
  - inv H. split; [reflexivity|]. split; constructor.
  - bind_inv H. destruct x as (len, x). bind_inv H. destruct x0 as (off', xs). inv H.
    apply Ht in H0; [|now apply Forall_zdrop]. apply IH in H1; [|assumption]. destruct H1 as (L & A & B).
    split; [rewrite zlen_cons; lia|]. split; constructor; tauto.
Qed.
Lemma fields_back ps : Forall (fun e => back (snd e)) ps -> wf_fts ps -> NoDup (map fst ps) -> defaults_oks ps ->
  forall data off n fs, wf_bytes data -> fields_parse ps off data = Ok (n, fs) ->
  shaped_fields ps fs /\ exists b, fields_binary ps fs = Ok b.
Proof.
  induction 1 as [|(k, t) r Ht Hr IH]; intros Hwf Nd Hd data off n fs Hw H; cbn [fields_parse] in H.
  - inv H. split; [exact I|]. now exists [].
  - destruct (parse t (zdrop off data)) as [(len, x)|] eqn:E; [|discriminate].
    bind_inv H. destruct x0 as (off', xs). inv H. cbn in Hwf, Hd. destruct Hwf as (Hwt & Hwr). destruct Hd as (Hd1 & Hd2).
    cbn [map fst] in Nd. apply NoDup_cons_iff in Nd. destruct Nd as (N1 & N2).
    apply Ht in E; [|assumption|assumption|now apply Forall_zdrop]. destruct E as (S & b & B). cbn [snd] in S, B.
    apply IH in H0; [|assumption|assumption|assumption|assumption]. destruct H0 as (Ss & bs & Bs).
    split; [cbn; auto|]. exists (b ++ bs). cbn [fields_binary assoc]. rewrite String.eqb_refl, B. cbn [bind].
    rewrite fields_binary_skip by assumption. now rewrite Bs.
Qed.

Lemma parse_back t : back t.
Proof.
  induction t using ft_ind'; unfold back; intros Hwf Hd data n0 v Hw H0; cbn [parse] in H0.
  - unfold num_parse in H0. bind_inv H0. inv H0.
    apply struct_unpack_in in H; [|now apply Forall_ztake]. split; [cbn; tauto|]. cbn [binary num_binary].
    destruct H as (H & _). rewrite struct_pack_in by exact H. eauto.
  - bind_inv H0. destruct x as (n', z). inv H0. apply varint_parse_ok in H; [|assumption]. split; [exact I|]. apply varint_binary_ok. lia.
  - unfold ip_parse in H0.
    assert (n0 = 16 /\ 16 <= zlen data) as (Hn & Hd').
    { destruct (_ && _); match type of H0 with (if ?a =? ?b then _ else _) = _ => destruct (Z.eqb_spec a b) as [e|] end; try discriminate; inv H0.
      - split; [reflexivity|]. unfold slice in e. change (16 - 12) with 4 in e. rewrite zlen_ztake, zlen_zdrop in e by lia. lia.
      - split; [reflexivity|]. rewrite zlen_ztake in e by lia. lia. }
    subst n0. fold (ip_parse data) in H0.
    assert (data = ztake 16 data ++ zdrop 16 data) as Hrest by (symmetry; apply ztake_zdrop). rewrite Hrest in H0.
    assert (zlen (ztake 16 data) = 16) as H16 by (rewrite zlen_ztake; lia).
    rewrite ip_parse_spec in H0 by assumption. inv H0. split; [cbn; eauto|].
    exists (ztake 16 data). cbn [binary]. apply ip_binary_text; [now apply Forall_ztake|assumption].
  - inv H0. split; [cbn; eexists; split; [reflexivity|now apply Forall_ztake]|cbn; eauto].
  - unfold varstr_parse in H0. bind_inv H0. destruct x as (vl, len). inv H0. apply varint_parse_ok in H; [|assumption].
    assert (wf_bytes (slice vl (vl + len) data)) as W by now apply Forall_slice.
    split; [exact W|]. cbn [binary]. unfold varstr_binary. cbn [bind].
    assert (zlen (slice vl (vl + len) data) <= len) as L.
    { unfold slice. rewrite zlen_ztake by lia. lia. }
    pose proof (zlen_nonneg (slice vl (vl + len) data)).
    destruct (varint_binary_ok (zlen (slice vl (vl + len) data))) as (b & ->); [lia|]. cbn. eauto.
  - cbn [wf_ft] in Hwf. destruct Hwf as (Hwf & _). bind_inv H0. destruct x as (off, l). inv H0.
    unfold parse_var_set in H. bind_inv H. destruct x as (o, c). apply varint_parse_ok in H0; [|assumption].
    apply (items_back t (IHt Hwf Hd)) in H; [|assumption]. destruct H as (L & A & B). split; [cbn; eauto|].
    cbn [binary]. destruct (varint_binary_ok (zlen l)) as (h & ->); [rewrite L; lia|]. cbn [bind].
    destruct (sequence_total (binary t) l B) as (bs & ->). cbn. eauto.
  - cbn [wf_ft] in Hwf. destruct Hwf as (Hnd & Hwf). rewrite wf_fts_go in Hwf.
    cbn [defaults_ok] in Hd. apply defaults_go in Hd.
    change (parse (FCompound c ps) data = Ok (n0, v)) in H0.
    rewrite parse_compound in H0. bind_inv H0. destruct x as (off, fs). inv H0.
    apply fields_back in H1; auto. destruct H1 as (S & b & B). split; [apply shaped_compound; eauto|].
    exists b. now rewrite binary_compound.
  - cbn [wf_ft] in Hwf. destruct Hwf as (Hnd & (k & a & r & Hps) & Hwf). rewrite wf_fts_go in Hwf.
    cbn [defaults_ok] in Hd. apply defaults_go in Hd.
    change (parse (FCompoundNoTs c ps) data = Ok (n0, v)) in H0.
    rewrite parse_compoundnots in H0. bind_inv H0. destruct x as (off, fs). injection H0 as <- <-.
    apply fields_back in H1; auto.
    + destruct H1 as (S & b & B). split; [apply shaped_compoundnots; eauto|]. exists (zdrop 4 b). rewrite binary_compoundnots, B. reflexivity.
    + apply wf_bytes_app. split; [repeat constructor; unfold is_byte; lia|assumption].
  - cbn [wf_ft] in Hwf. destruct Hwf as (Hwf & Hd1 & _). cbn [defaults_ok] in Hd. destruct Hd as (Hd & b & B).
    destruct (parse t data) as [r|] eqn:E; inv H0.
    + exact (IHt Hwf Hd _ _ _ Hw E).
    + split; [cbn [shaped]; now apply wt_shaped|]. exists b. exact B.
Qed.

Lemma registry_defaults : Forall (fun t => defaults_oks (mt_props t)) registry.
Proof.
  rewrite registry_all. let t := eval vm_compute in all_types in change all_types with t.
  repeat (constructor; [cbn; repeat split; try (eexists; reflexivity)|]). constructor.
Qed.
Lemma registry_wf t : In t registry -> wf_fts (mt_props t) /\ NoDup (map fst (mt_props t)) /\ defaults_oks (mt_props t).
Proof.
  intro H. pose proof registry_defaults as D. rewrite Forall_forall in D. specialize (D t H).
  rewrite registry_all in H. pose proof all_types_wf as W. rewrite Forall_forall in W. destruct (W t H) as (W1 & W2 & _). auto.
Qed.
Lemma message_back sha data magic m : wf_bytes data -> msg_parse sha data magic = Ok m ->
  In (m_type m) registry /\ shaped_fields (mt_props (m_type m)) (m_fields m) /\
  exists b, fields_binary (mt_props (m_type m)) (m_fields m) = Ok b.
Proof.
  intros W H. apply msg_parse_inv in H. destruct H as (_ & _ & _ & R & _ & n & P). split; [exact R|].
  destruct (registry_wf _ R) as (A & B & C). refine (fields_back _ _ A B C _ 0 n _ _ P).
  - apply Forall_forall. intros e _. apply parse_back.
  - now apply Forall_slice.
Qed.

(** *** Rendering *)
Lemma str_compound c ps c' fs : str_ft (FCompound c ps) (VObj c' fs) = str_fields ps fs.
Proof. cbn [str_ft]. induction ps as [|(k, t) r IH]; cbn; [reflexivity|]. destruct (assoc k fs); [|reflexivity]. destruct (str_ft t p); cbn; auto. Qed.
Fixpoint plain (t : ft) : bool :=
  match t with
  | FArray c _ _ => negb (str_is_bytes c) && plain c
  | FCompound _ ps | FCompoundNoTs _ ps => forallb (fun e => plain (snd e)) ps
  | FOptional c _ => plain c
  | _ => true
  end.
Lemma str_fields_skip ps k x fs : ~ In k (map fst ps) -> str_fields ps ((k, x) :: fs) = str_fields ps fs.
Proof.
  induction ps as [|(k', vt) r IH]; intro H; [reflexivity|].
  cbn [str_fields assoc map fst] in *. destruct (String.eqb_spec k' k) as [->|]; [exfalso; apply H; now left|].
  rewrite IH; [reflexivity|]. intro Hin; apply H; now right.
Qed.
Lemma str_fields_ok ps : Forall (fun e => wf_ft (snd e) -> plain (snd e) = true -> forall v, shaped (snd e) v -> str_ft (snd e) v = Ok tt) ps ->
  wf_fts ps -> NoDup (map fst ps) -> forallb (fun e => plain (snd e)) ps = true -> forall fs, shaped_fields ps fs -> str_fields ps fs = Ok tt.
Proof.
  induction 1 as [|(k, t) r Ht _ IH]; intros W N P [|(k', x) fs] S; try contradiction; [reflexivity|].
  cbn [wf_fts] in W. cbn [map fst] in N. apply NoDup_cons_iff in N. cbn [forallb snd] in P. apply andb_true_iff in P.
  cbn [shaped_fields] in S. destruct S as (-> & S1 & S2). cbn [str_fields assoc]. rewrite String.eqb_refl.
  cbn [snd] in Ht. rewrite Ht by tauto. cbn [bind]. rewrite str_fields_skip by tauto. apply IH; tauto.
Qed.
Lemma str_ok t : wf_ft t -> plain t = true -> forall v, shaped t v -> str_ft t v = Ok tt.
Proof.
  induction t using ft_ind'; intros W P v S; try reflexivity.
  - destruct S as (s & -> & _). reflexivity.
  - cbn [plain] in P. apply andb_true_iff in P. destruct P as (P1 & P2). apply negb_true_iff in P1.
    destruct W as (W & _). destruct S as (l & El & S). assert (sequence (map (str_ft t) l) = Ok (repeat tt (List.length l))) as E.
    { clear El. induction S as [|x l Sx _ IH]; [reflexivity|]. cbn. rewrite (IHt W P2 x Sx). cbn. now rewrite IH. }
    destruct El as [-> | ->]; cbn [str_ft]; rewrite E, P1; reflexivity.
  - destruct W as (N & W). apply wf_fts_go in W. apply shaped_compound in S. destruct S as (fs & -> & S). rewrite str_compound. exact (str_fields_ok ps H W N P fs S).
  - destruct W as (N & _ & W). apply wf_fts_go in W. apply shaped_compoundnots in S. destruct S as (fs & -> & S).
    change (str_ft (FCompound c ps) (VObj c fs) = Ok tt). rewrite str_compound. exact (str_fields_ok ps H W N P fs S).
  - destruct W as (W & _). exact (IHt W P v S).
Qed.

(** *** Parsed values are canonical *)
Fixpoint no_optional (t : ft) : bool :=
  match t with
  | FArray c _ _ => no_optional c
  | FCompound _ ps | FCompoundNoTs _ ps => forallb (fun e => no_optional (snd e)) ps
  | FOptional _ _ => false
  | _ => true
  end.
Definition stable (t : ft) : Prop := wf_ft t -> no_optional t = true -> forall data n v, wf_bytes data -> parse t data = Ok (n, v) -> canon t v = v.
Lemma items_stable t : (forall data n v, wf_bytes data -> parse t data = Ok (n, v) -> canon t v = v) ->
  forall k data off n l, wf_bytes data -> parse_items (parse t) k data off = Ok (n, l) -> map (canon t) l = l.
Proof.
  intros Ht. induction k as [|k IH]; intros data off n l Hw H; cbn in H.
  - inv H. reflexivity.
  - bind_inv H. destruct x as (len, x). bind_inv H. destruct x0 as (off', xs). inv H.
    apply Ht in H0; [|now apply Forall_zdrop]. apply IH in H1; [|assumption]. cbn. congruence.
Qed.
Lemma fields_stable ps : Forall (fun e => stable (snd e)) ps -> wf_fts ps -> forallb (fun e => no_optional (snd e)) ps = true ->
  forall data off n fs, wf_bytes data -> fields_parse ps off data = Ok (n, fs) -> canon_fields ps fs = fs.
Proof.
  induction 1 as [|(k, t) r Ht Hr IH]; intros Hwf Hd data off n fs Hw H; cbn [fields_parse] in H.
  - inv H. reflexivity.
  - destruct (parse t (zdrop off data)) as [(len, x)|] eqn:E; [|discriminate].
    bind_inv H. destruct x0 as (off', xs). inv H. cbn in Hwf. destruct Hwf as (Hwt & Hwr). cbn [forallb snd] in Hd. apply andb_true_iff in Hd. destruct Hd as (Hd1 & Hd2).
    apply Ht in E; [|assumption|assumption|now apply Forall_zdrop]. cbn [snd] in E.
    apply IH in H0; [|assumption|assumption|assumption]. cbn [canon_fields]. congruence.
Qed.
Lemma parse_stable t : stable t.
Proof.
  induction t using ft_ind'; unfold stable; intros Hwf Hd data n0 v Hw H0; cbn [parse] in H0.
  - unfold num_parse in H0. bind_inv H0. inv H0. reflexivity.
  - bind_inv H0. destruct x as (n', z). inv H0. reflexivity.
  - unfold ip_parse in H0.
    assert (n0 = 16 /\ 16 <= zlen data) as (Hn & Hd').
    { destruct (_ && _); match type of H0 with (if ?a =? ?b then _ else _) = _ => destruct (Z.eqb_spec a b) as [e|] end; try discriminate; inv H0.
      - split; [reflexivity|]. unfold slice in e. change (16 - 12) with 4 in e. rewrite zlen_ztake, zlen_zdrop in e by lia. lia.
      - split; [reflexivity|]. rewrite zlen_ztake in e by lia. lia. }
    subst n0. fold (ip_parse data) in H0.
    assert (data = ztake 16 data ++ zdrop 16 data) as Hrest by (symmetry; apply ztake_zdrop). rewrite Hrest in H0.
    assert (zlen (ztake 16 data) = 16) as H16 by (rewrite zlen_ztake; lia).
    rewrite ip_parse_spec in H0 by assumption. inv H0. cbn [canon].
    destruct (ip_binary_text (ztake 16 data) ltac:(now apply Forall_ztake) H16) as (E & _). now rewrite E.
  - inv H0. reflexivity.
  - unfold varstr_parse in H0. bind_inv H0. destruct x as (vl, len). inv H0. reflexivity.
  - cbn [wf_ft] in Hwf. destruct Hwf as (Hwf & _). bind_inv H0. destruct x as (off, l). inv H0.
    unfold parse_var_set in H. bind_inv H. destruct x as (o, c).
    apply (items_stable t (IHt Hwf Hd)) in H; [|assumption]. cbn [canon]. now rewrite H.
  - cbn [wf_ft] in Hwf. destruct Hwf as (Hnd & Hwf). rewrite wf_fts_go in Hwf. cbn [no_optional] in Hd.
    change (parse (FCompound c ps) data = Ok (n0, v)) in H0.
    rewrite parse_compound in H0. bind_inv H0. destruct x as (off, fs). inv H0.
    rewrite canon_compound. f_equal. eapply fields_stable; eauto.
  - cbn [wf_ft] in Hwf. destruct Hwf as (Hnd & (k & a & r & Hps) & Hwf). rewrite wf_fts_go in Hwf. cbn [no_optional] in Hd.
    change (parse (FCompoundNoTs c ps) data = Ok (n0, v)) in H0.
    rewrite parse_compoundnots in H0. bind_inv H0. destruct x as (off, fs). injection H0 as <- <-.
    rewrite canon_compoundnots.
    assert (canon_fields ps fs = fs) as E.
    { refine (fields_stable ps H Hwf Hd _ _ _ _ _ H1). apply wf_bytes_app. split; [repeat constructor; unfold is_byte; lia|assumption]. }
    rewrite E. clear E. subst ps. cbn [fields_parse] in H1.
    destruct (parse (FNumber FI false a) (zdrop 0 ([0;0;0;0] ++ data))) as [(len, x)|] eqn:E; [|discriminate].
    bind_inv H1. destruct x0 as (off', xs). inv H1. cbn [parse] in E. unfold num_parse in E. bind_inv E. inv E.
    change (Z.of_nat (nf_len FI)) with 4 in H1. rewrite zdrop_0 in H1. 
    replace (ztake 4 ([0;0;0;0] ++ data)) with [0;0;0;0] in H1 by (symmetry; apply (ztake_app_exact [0;0;0;0] data 4 eq_refl)). vm_compute in H1. inv H1. reflexivity.
  - discriminate.
Qed.
