(** C164: how malformed messages are refused. *)
From Coq Require Import String ZArith List Lia Bool.
From Verif Require Import PyBase PyVal UtilModel PyTextProofs FormatModel FormatProofs FormatProofs2 MessagesModel MessagesProofs NodeModel NodeProofs NodeProofs2 PropsNode PropsWire PropsRefuse.
Import ListNotations.
Open Scope list_scope.
Open Scope Z_scope.

(** Types without optional parts: what such a type reads does not depend on
    what follows. *)
Fixpoint steady (t : ft) : bool :=
  match t with
  | FArray c _ _ => steady c
  | FCompound _ ps | FCompoundNoTs _ ps => (fix go ps := match ps with [] => true | (_, t) :: r => steady t && go r end) ps
  | FOptional _ _ => false
  | _ => true
  end.
Fixpoint steadies (ps : list (string * ft)) : bool := match ps with [] => true | (_, t) :: r => steady t && steadies r end.
Lemma steadies_go ps : (fix go ps := match ps with [] => true | (_, t) :: r => steady t && go r end) ps = steadies ps.
Proof. induction ps as [|(k & t) r IH]; cbn; [reflexivity|]. now rewrite IH. Qed.
(** Only the last field may be optional. *)
Fixpoint tame (ps : list (string * ft)) : bool :=
  match ps with
  | [] => true
  | (_, t) :: r => match t, r with FOptional _ _, [] => true | _, _ => steady t && tame r end
  end.

Definition reads {A} (r : res A) : Prop := exists a, r = Ok a.
Definition grows (t : ft) : Prop := wf_ft t -> steady t = true -> forall d x n v, wf_bytes d -> parse t d = Ok (n, v) ->
  parse t (d ++ x) = Ok (n, v) \/ (zlen d <= n /\ reads (parse t (d ++ x))).

Lemma reads_bind {A B} (m : res A) (f : A -> res B) : reads m -> (forall a, reads (f a)) -> reads (bind m f).
Proof. intros (a & ->) H. apply H. Qed.
Lemma struct_grows f s : forall z, struct_unpack f false s = Ok z -> zlen s = Z.of_nat (nf_len f).
Proof. intros z H. unfold struct_unpack in H. destruct (Z.eqb_spec (zlen s) (Z.of_nat (nf_len f))); congruence. Qed.
Lemma ztake_more {A} (d x : list A) n : 0 <= n -> zlen (ztake n d) = n -> ztake n (d ++ x) = ztake n d.
Proof. intros P E. rewrite zlen_ztake in E by lia. apply ztake_app_le. lia. Qed.
Lemma slice_more {A} (d x : list A) a b : 0 <= a <= b -> zlen (slice a b d) = b - a -> 0 < b - a -> slice a b (d ++ x) = slice a b d.
Proof.
  intros P E Q. unfold slice in *. rewrite zlen_ztake in E by lia. pose proof (zlen_zdrop d a ltac:(lia)) as L. rewrite zdrop_app_le by lia. apply ztake_app_le. lia.
Qed.
Lemma varint_more d x r : varint_parse d = Ok r -> varint_parse (d ++ x) = Ok r.
Proof.
  destruct d as [|c d]; [discriminate|]. intro H. cbn [app varint_parse] in *. destruct (c =? 253).
  - destruct (struct_unpack FH false (slice 1 3 (c :: d))) as [z|] eqn:E; [|discriminate]. pose proof (struct_grows _ _ _ E) as L. cbn [nf_len] in L. change (c :: d ++ x) with ((c :: d) ++ x). rewrite slice_more by (rewrite ?L; lia). now rewrite E.
  - destruct (c =? 254); [|exact H].
    destruct (struct_unpack FI false (slice 1 5 (c :: d))) as [z|] eqn:E; [|discriminate]. pose proof (struct_grows _ _ _ E) as L. cbn [nf_len] in L. change (c :: d ++ x) with ((c :: d) ++ x). rewrite slice_more by (rewrite ?L; lia). now rewrite E.
Qed.
Lemma steady_empty t : grows t -> wf_ft t -> steady t = true -> reads (parse t []) -> forall d, reads (parse t d).
Proof.
  intros G W S ((n & v) & H) d. destruct (G W S [] d n v (Forall_nil _) H) as [E|(_ & E)]; [eexists; exact E|exact E].
Qed.

Lemma items_empty t : grows t -> wf_ft t -> steady t = true -> forall k d off r, wf_bytes d -> zlen d <= off -> parse_items (parse t) k d off = Ok r -> forall d' off', reads (parse_items (parse t) k d' off').
Proof.
  intros G W S. induction k as [|k IH]; intros d off r Wd L H d' off'; cbn [parse_items] in *; [eexists; reflexivity|].
  rewrite (zdrop_all d off L) in H. destruct (parse t []) as [(len & v)|] eqn:E; [|discriminate]. cbn [bind] in H.
  destruct (parse_items (parse t) k d (off + len)) as [r1|] eqn:E1; [|discriminate].
  pose proof (proj1 (parse_wt t W [] len v (Forall_nil _) E)) as P.
  destruct (steady_empty t G W S (ex_intro _ _ E) (zdrop off' d')) as ((l2 & v2) & E2). rewrite E2. cbn [bind].
  destruct (IH d (off + len) r1 Wd ltac:(lia) E1 d' (off' + l2)) as ((o3 & v3) & ->). cbn [bind]. eexists; reflexivity.
Qed.
Lemma items_grow t : grows t -> wf_ft t -> steady t = true -> forall k d x off n l, wf_bytes d -> 0 <= off -> parse_items (parse t) k d off = Ok (n, l) ->
  parse_items (parse t) k (d ++ x) off = Ok (n, l) \/ (zlen d <= n /\ reads (parse_items (parse t) k (d ++ x) off)).
Proof.
  intros G W S. induction k as [|k IH]; intros d x off n l Wd P H.
  - left. exact H.
  - assert (off <= n) as M. { apply (parse_items_pw t (fun data n v Hw Hp => parse_wt t W data n v Hw Hp)) in H; [tauto|assumption|lia]. }
    destruct (Z_le_gt_dec off (zlen d)) as [L|L].
    + cbn [parse_items] in *. destruct (parse t (zdrop off d)) as [(len & v)|] eqn:E; [|discriminate]. cbn [bind] in H.
      destruct (parse_items (parse t) k d (off + len)) as [(o1 & l1)|] eqn:E1; [|discriminate]. cbn [bind] in H. injection H as <- <-.
      pose proof (proj1 (parse_wt t W (zdrop off d) len v (Forall_zdrop _ _ _ Wd) E)) as Q.
      rewrite zdrop_app_le by exact L. destruct (G W S (zdrop off d) x len v (Forall_zdrop _ _ _ Wd) E) as [->|(F & ((l2 & v2) & ->))]; cbn [bind].
      * destruct (IH d x (off + len) o1 l1 Wd ltac:(lia) E1) as [->|(F & (r & ->))]; cbn [bind]; [left; reflexivity|]. right. split; [exact F|]. destruct r. eexists; reflexivity.
      * right. rewrite zlen_zdrop in F by lia. assert (off + len <= o1) as M1. { apply (parse_items_pw t (fun data n v Hw Hp => parse_wt t W data n v Hw Hp)) in E1; [tauto|assumption|lia]. }
        split; [lia|]. destruct (items_empty t G W S k d (off + len) _ Wd ltac:(lia) E1 (d ++ x) (off + l2)) as ((o3 & l3) & ->). eexists; reflexivity.
    + right. split; [lia|]. exact (items_empty t G W S (Datatypes.S k) d off _ Wd ltac:(lia) H (d ++ x) off).
Qed.

Lemma fields_mono ps : wf_fts ps -> forall d off n fs, wf_bytes d -> 0 <= off -> fields_parse ps off d = Ok (n, fs) -> off <= n.
Proof.
  intros W d off n fs Wd P H. apply (fields_parse_pw ps) in H; try assumption; [tauto|]. apply Forall_forall. intros e _. apply parse_wt.
Qed.
Definition ready (e : string * ft) : Prop := grows (snd e).
Lemma tame_cons k t r : tame ((k, t) :: r) = true -> (steady t = true /\ tame r = true) \/ (r = [] /\ exists c d, t = FOptional c d).
Proof.
  cbn [tame]. destruct t; try (intro H; left; apply andb_true_iff in H; exact H). destruct r; [intros _; right; split; [reflexivity|eauto]|intro H; apply andb_true_iff in H; left; exact H].
Qed.
Lemma optional_reads c v d : reads (parse (FOptional c v) d).
Proof. cbn [parse]. destruct (parse c d); eexists; reflexivity. Qed.
Lemma fields_empty ps : Forall ready ps -> wf_fts ps -> tame ps = true -> forall d off r, wf_bytes d -> zlen d <= off -> fields_parse ps off d = Ok r -> forall d' off', reads (fields_parse ps off' d').
Proof.
  induction 1 as [|(k & t) ps G _ IH]; intros W T d off r Wd L H d' off'; cbn [fields_parse] in *; [eexists; reflexivity|].
  destruct W as (W & Ws). unfold ready in G. cbn [snd] in G. rewrite (zdrop_all d off L) in H. destruct (parse t []) as [(len & v)|] eqn:E; [|discriminate].
  destruct (tame_cons _ _ _ T) as [(S & T')|(-> & c & dv & ->)].
  - destruct (fields_parse ps (off + len) d) as [r1|] eqn:E1; [|discriminate].
    pose proof (proj1 (parse_wt t W [] len v (Forall_nil _) E)) as P.
    destruct (steady_empty t G W S (ex_intro _ _ E) (zdrop off' d')) as ((l2 & v2) & ->).
    destruct (IH Ws T' d (off + len) r1 Wd ltac:(lia) E1 d' (off' + l2)) as ((o3 & v3) & ->). cbn [bind]. eexists; reflexivity.
  - destruct (optional_reads c dv (zdrop off' d')) as ((l2 & v2) & ->). cbn [fields_parse bind]. eexists; reflexivity.
Qed.
Lemma fields_read ps : Forall ready ps -> wf_fts ps -> tame ps = true -> forall d x off r, wf_bytes d -> 0 <= off -> fields_parse ps off d = Ok r -> reads (fields_parse ps off (d ++ x)).
Proof.
  induction 1 as [|(k & t) ps G Gs IH]; intros W T d x off r Wd P H; [eexists; reflexivity|].
  destruct (Z_le_gt_dec off (zlen d)) as [L|L]; [|exact (fields_empty ((k, t) :: ps) (Forall_cons (k, t) G Gs) W T d off r Wd ltac:(lia) H (d ++ x) off)].
  destruct W as (W & Ws). unfold ready in G. cbn [snd] in G. destruct (tame_cons _ _ _ T) as [(S & T')|(-> & c & dv & ->)]; cbn [fields_parse] in *.
  - destruct (parse t (zdrop off d)) as [(len & v)|] eqn:E; [|discriminate]. destruct (fields_parse ps (off + len) d) as [r1|] eqn:E1; [|discriminate].
    pose proof (proj1 (parse_wt t W (zdrop off d) len v (Forall_zdrop _ _ _ Wd) E)) as Q.
    rewrite zdrop_app_le by exact L. destruct (G W S (zdrop off d) x len v (Forall_zdrop _ _ _ Wd) E) as [->|(F & ((l2 & v2) & ->))].
    + destruct (IH Ws T' d x (off + len) r1 Wd ltac:(lia) E1) as ((o3 & v3) & ->). cbn [bind]. eexists; reflexivity.
    + rewrite zlen_zdrop in F by lia. destruct (fields_empty ps Gs Ws T' d (off + len) r1 Wd ltac:(lia) E1 (d ++ x) (off + l2)) as ((o3 & v3) & ->). eexists; reflexivity.
  - destruct (optional_reads c dv (zdrop off (d ++ x))) as ((l2 & v2) & ->). cbn [bind]. eexists; reflexivity.
Qed.
Lemma steadies_tame ps : steadies ps = true -> tame ps = true.
Proof.
  induction ps as [|(k & t) r IH]; [reflexivity|]. cbn [steadies]. intro H. apply andb_true_iff in H. destruct H as (S & R). cbn [tame]. destruct t; try discriminate S; rewrite S, (IH R); reflexivity.
Qed.
Lemma fields_grow ps : Forall ready ps -> wf_fts ps -> steadies ps = true -> forall d x off n fs, wf_bytes d -> 0 <= off -> fields_parse ps off d = Ok (n, fs) ->
  fields_parse ps off (d ++ x) = Ok (n, fs) \/ (zlen d <= n /\ reads (fields_parse ps off (d ++ x))).
Proof.
  intros G W T d x off n fs Wd P H. pose proof (fields_read ps G W (steadies_tame ps T) d x off _ Wd P H) as R. pose proof (fields_mono ps W d off n fs Wd P H) as M.
  enough (fields_parse ps off (d ++ x) = Ok (n, fs) \/ zlen d <= n) as [E|E] by tauto. clear R.
  revert W T off n fs P H M. induction G as [|(k & t) ps G Gs IH]; intros W T off n fs P H M; [left; exact H|].
  destruct (Z_le_gt_dec off (zlen d)) as [L|L]; [|right; lia]. destruct W as (W & Ws). unfold ready in G. cbn [snd] in G. cbn [steadies] in T. apply andb_true_iff in T. destruct T as (S & T). cbn [fields_parse] in *.
  destruct (parse t (zdrop off d)) as [(len & v)|] eqn:E; [|discriminate]. destruct (fields_parse ps (off + len) d) as [(n1 & fs1)|] eqn:E1; [|discriminate]. cbn [bind] in H. injection H as <- <-.
  pose proof (proj1 (parse_wt t W (zdrop off d) len v (Forall_zdrop _ _ _ Wd) E)) as Q. pose proof (fields_mono ps Ws d (off + len) n1 fs1 Wd ltac:(lia) E1) as M1.
  rewrite zdrop_app_le by exact L. destruct (G W S (zdrop off d) x len v (Forall_zdrop _ _ _ Wd) E) as [->|(F & _)].
  - destruct (IH Ws T (off + len) n1 fs1 ltac:(lia) E1 M1) as [->|F]; [left; reflexivity|right; exact F].
  - right. rewrite zlen_zdrop in F by lia. lia.
Qed.

Lemma all_grow t : grows t.
Proof.
  induction t using ft_ind'; try rename d into dv; unfold grows; intros W S d x n0 v Wd H0.
  - left. cbn [parse] in *. unfold num_parse in *. assert (0 <= Z.of_nat (nf_len f)) as P by lia.
    destruct (struct_unpack f _ (ztake (Z.of_nat (nf_len f)) d)) as [z|] eqn:E; [|discriminate].
    assert (zlen (ztake (Z.of_nat (nf_len f)) d) = Z.of_nat (nf_len f)) as L. { unfold struct_unpack in E. destruct (Z.eqb_spec (zlen (ztake (Z.of_nat (nf_len f)) d)) (Z.of_nat (nf_len f))); congruence. }
    rewrite (ztake_more d x _ P L), E. exact H0.
  - left. cbn [parse] in *. destruct (varint_parse d) as [r|] eqn:E; [|discriminate]. now rewrite (varint_more d x r E).
  - left. cbn [parse] in *. unfold ip_parse in *. destruct (bytes_eqb (ztake 10 d) zero_str10 && bytes_eqb (slice 10 12 d) [255; 255]) eqn:E.
    + destruct (Z.eqb_spec (zlen (slice 12 16 d)) 4) as [L|]; [|discriminate]. assert (16 <= zlen d) as L16. { unfold slice in L. rewrite zlen_ztake in L by lia. rewrite zlen_zdrop in L by lia. lia. }
      rewrite (ztake_app_le d x 10) by lia. rewrite (slice_more d x 10 12), (slice_more d x 12 16), E, L; try lia; [exact H0|]. unfold slice. rewrite zlen_ztake, zlen_zdrop by lia. lia.
    + destruct (Z.eqb_spec (zlen (ztake 16 d)) 16) as [L|]; [|discriminate]. rewrite zlen_ztake in L by lia.
      rewrite (ztake_app_le d x 10) by lia. rewrite (slice_more d x 10 12), (ztake_app_le d x 16), E by (try lia; unfold slice; rewrite zlen_ztake, zlen_zdrop by lia; lia).
      rewrite zlen_ztake by lia. destruct (Z.eqb_spec (Z.min 16 (zlen d)) 16); [exact H0|lia].
  - cbn [parse wf_ft] in *. injection H0 as <- <-. destruct (Z_le_gt_dec n (zlen d)) as [L|L]; [left; now rewrite ztake_app_le by exact L|right; split; [lia|eexists; reflexivity]].
  - cbn [parse] in *. unfold varstr_parse in *. destruct (varint_parse d) as [(vl & len)|] eqn:E; [|discriminate]. rewrite (varint_more d x _ E). cbn [bind] in *. injection H0 as <- <-.
    destruct (varint_parse_ok d vl len Wd E) as (A & B). destruct (Z_le_gt_dec (vl + len) (zlen d)) as [L|L].
    + left. replace (slice vl (vl + len) (d ++ x)) with (slice vl (vl + len) d); [reflexivity|]. unfold slice. rewrite zdrop_app_le by lia. rewrite ztake_app_le; [reflexivity|]. rewrite zlen_zdrop by lia. lia.
    + right. split; [|eexists; reflexivity]. unfold slice. rewrite zlen_ztake, zlen_zdrop by lia. lia.
  - cbn [parse wf_ft steady] in *. destruct W as (W & _). unfold parse_var_set in *. destruct (varint_parse d) as [(vl & len)|] eqn:E; [|discriminate]. rewrite (varint_more d x _ E). cbn [bind] in *.
    destruct (varint_parse_ok d vl len Wd E) as (A & B). destruct (parse_items (parse t) (Z.to_nat len) d vl) as [(o & l)|] eqn:E1; [|discriminate]. cbn [bind] in H0. injection H0 as <- <-.
    destruct (items_grow t IHt W S (Z.to_nat len) d x vl o l Wd ltac:(lia) E1) as [->|(F & ((o2 & l2) & ->))]; [left; reflexivity|right; split; [exact F|eexists; reflexivity]].
  - cbn [wf_ft steady] in *. destruct W as (_ & W). rewrite wf_fts_go in W. rewrite steadies_go in S. rewrite !parse_compound in *. destruct (fields_parse ps 0 d) as [(o & fs)|] eqn:E; [|discriminate]. cbn [bind] in H0. injection H0 as <- <-.
    destruct (fields_grow ps H W S d x 0 o fs Wd ltac:(lia) E) as [->|(F & ((o2 & l2) & ->))]; [left; reflexivity|right; split; [exact F|eexists; reflexivity]].
  - cbn [wf_ft steady] in *. destruct W as (_ & _ & W). rewrite wf_fts_go in W. rewrite steadies_go in S. rewrite !parse_compoundnots in *.
    assert (wf_bytes ([0;0;0;0] ++ d)) as Wd'. { apply wf_bytes_app. split; [repeat constructor; unfold is_byte; lia|assumption]. }
    destruct (fields_parse ps 0 ([0;0;0;0] ++ d)) as [(o & fs)|] eqn:E; [|discriminate]. cbn [bind] in H0. injection H0 as <- <-.
    replace ([0;0;0;0] ++ d ++ x) with (([0;0;0;0] ++ d) ++ x) by (symmetry; apply app_assoc).
    destruct (fields_grow ps H W S ([0;0;0;0] ++ d) x 0 o fs Wd' ltac:(lia) E) as [->|(F & ((o2 & l2) & ->))]; [left; reflexivity|right]. rewrite zlen_app in F. change (zlen [0;0;0;0]) with 4 in F. split; [lia|eexists; reflexivity].
  - discriminate S.
Qed.
Lemma registry_tame : Forall (fun t => tame (mt_props t) = true) registry.
Proof. apply Forall_forall. intros t H. assert (forallb (fun t => tame (mt_props t)) registry = true) as A by (vm_compute; reflexivity). rewrite forallb_forall in A. exact (A t H). Qed.

Lemma only_fields ps : forall off d, only [ParameterError] (fields_parse ps off d).
Proof.
  induction ps as [|(k & t) r IH]; intros off d; cbn [fields_parse]; [exact Logic.I|]. destruct (parse t (zdrop off d)) as [(len & v)|]; [|cbn; tauto].
  apply only_bind; [apply IH|]. intros (o & fs) _. exact Logic.I.
Qed.
Lemma lookup_none c : lookup_command c = None <-> forall t, In t registry -> bs (mt_command t) <> c.
Proof.
  unfold lookup_command. split.
  - intros H t I E. pose proof (find_none _ _ H t (proj1 (in_rev registry t) I)) as F. cbv beta in F. destruct (bytes_eqb_spec (bs (mt_command t)) c); congruence.
  - intro H. destruct (find _ _) as [t|] eqn:E; [|reflexivity]. exfalso. apply (H t); destruct (lookup_in c t E); assumption.
Qed.
Lemma size_read data : struct_unpack FI false (slice 16 20 data) = if 20 <=? zlen data then Ok (le_val (slice 16 20 data)) else Raise StructError.
Proof.
  unfold struct_unpack. change (Z.of_nat (nf_len FI)) with 4. change (nf_signed FI) with false. cbn [andb].
  assert (zlen (slice 16 20 data) = Z.min 4 (Z.max 0 (zlen data - 16))) as -> by (unfold slice; rewrite zlen_ztake, zlen_zdrop by lia; lia).
  destruct (Z.leb_spec 20 (zlen data)); destruct (Z.eqb_spec (Z.min 4 (Z.max 0 (zlen data - 16))) 4); try lia; reflexivity.
Qed.

Section WithHash.
Variable sha256 : bytes -> bytes.
Notation parse_message := (msg_parse sha256).

(** ** Specification *)
(** The payload that a frame announces, and whether its checksum fits. *)
Definition body (data : bytes) : bytes := slice 24 (24 + le_val (slice 16 20 data)) data.
Definition sealed (data : bytes) : Prop := slice 20 24 data = ztake 4 (sha256 (sha256 (body data))).
(** The frame bears the name of a known message. *)
Definition named (data : bytes) (t : msg_type) : Prop := In t registry /\ strip0 (slice 4 16 data) = bs (mt_command t).

Lemma parse_cases data magic : parse_message data magic =
  if negb (bytes_eqb (slice 0 4 data) magic) then Raise MsgFormatError
  else if 20 <=? zlen data then
    if negb (bytes_eqb (slice 20 24 data) (ztake 4 (sha256 (sha256 (body data))))) then Raise MsgFormatError
    else match lookup_command (strip0 (slice 4 16 data)) with
         | None => Raise UnknownMsgError
         | Some t => let! (_, fs) := fields_parse (mt_props t) 0 (body data) in Ok (mk_message t fs)
         end
  else Raise StructError.
Proof. unfold msg_parse. destruct (negb _); [reflexivity|]. rewrite size_read. destruct (20 <=? zlen data); reflexivity. Qed.

Ltac decided := solve [discriminate | congruence | tauto | lia | (exfalso; intuition (congruence || lia)) | intuition (congruence || lia)].

(** ** C164 *)
(** Whatever the bytes, a message comes out or one of four exceptions. *)
Theorem C164_errors data magic : only [MsgFormatError; StructError; UnknownMsgError; ParameterError] (parse_message data magic).
Proof.
  rewrite parse_cases. destruct (negb _); [cbn; tauto|]. destruct (_ <=? _); [|cbn; tauto]. destruct (negb _); [cbn; tauto|]. destruct (lookup_command _); [|cbn; tauto].
  apply only_bind; [|intros (o & fs) _; exact Logic.I]. eapply only_incl; [|apply only_fields]. intros e [<-|[]]; cbn; tauto.
Qed.
(** Which one says what is wrong: the first of these that applies. *)
Theorem C164_verdict data magic :
  (parse_message data magic = Raise StructError <-> slice 0 4 data = magic /\ zlen data < 20) /\
  (parse_message data magic = Raise MsgFormatError <-> slice 0 4 data <> magic \/ (20 <= zlen data /\ ~ sealed data)) /\
  (parse_message data magic = Raise UnknownMsgError <-> slice 0 4 data = magic /\ 20 <= zlen data /\ sealed data /\ forall t, ~ named data t) /\
  (parse_message data magic = Raise ParameterError <-> slice 0 4 data = magic /\ 20 <= zlen data /\ sealed data /\
     exists t, named data t /\ fields_parse (mt_props t) 0 (body data) = Raise ParameterError).
Proof.
  rewrite parse_cases. unfold sealed. destruct (bytes_eqb_spec (slice 0 4 data) magic) as [E|E]; cbn [negb]; [|split; [|split; [|split]]; split; intro H; decided].
  destruct (Z.leb_spec 20 (zlen data)) as [L|L]; [|split; [|split; [|split]]; split; intro H; decided].
  destruct (bytes_eqb_spec (slice 20 24 data) (ztake 4 (sha256 (sha256 (body data))))) as [C|C]; cbn [negb]; [|split; [|split; [|split]]; split; intro H; decided].
  destruct (lookup_command (strip0 (slice 4 16 data))) as [t|] eqn:K.
  - apply lookup_in in K. destruct K as (I & K). assert (named data t) as N by (split; [exact I|congruence]).
    assert (forall t', named data t' -> t' = t) as U.
    { intros t' (I' & K'). pose proof lookup_registered as G. rewrite Forall_forall in G. pose proof (G t I) as G1. pose proof (G t' I') as G2. rewrite <- K', <- K in G2. congruence. }
    pose proof (only_fields (mt_props t) 0 (body data)) as O. destruct (fields_parse (mt_props t) 0 (body data)) as [(o & fs)|e] eqn:F; cbn [bind].
    + split; [split; intro H; decided|]. split; [split; intro H; decided|]. split; split; intro H; try discriminate H.
      * exfalso. exact (proj2 (proj2 (proj2 H)) t N).
      * exfalso. destruct H as (_ & _ & _ & t' & N' & F'). rewrite (U t' N') in F'. congruence.
    + destruct O as [<-|[]]. split; [split; intro H; decided|]. split; [split; intro H; decided|]. split; split; intro H; try discriminate H.
      * exfalso. exact (proj2 (proj2 (proj2 H)) t N).
      * split; [exact E|]. split; [exact L|]. split; [exact C|]. exists t. split; [exact N|exact F].
      * reflexivity.
  - rewrite lookup_none in K. assert (forall t, ~ named data t) as N by (intros t (I & N); exact (K t I (eq_sym N))). split; [split; intro H; decided|]. split; [split; intro H; decided|]. split; split; intro H; try discriminate H.
    + split; [exact E|]. split; [exact L|]. split; [exact C|exact N].
    + reflexivity.
    + exfalso. destruct H as (_ & _ & _ & t & X & _). exact (N t X).
Qed.

Hypothesis sha_len : forall x, 4 <= zlen (sha256 x).
Lemma framed_read t magic p : In t registry -> zlen magic = 4 -> zlen p < 2 ^ 32 ->
  parse_message (framed sha256 magic (mt_command t) p) magic = let! (_, fs) := fields_parse (mt_props t) 0 p in Ok (mk_message t fs).
Proof.
  intros I M L. pose proof (zlen_nonneg p).
  assert (struct_pack FI false (zlen p) = Ok (le_bytes 4 (zlen p))) as P by (unfold struct_pack; change (struct_range FI) with (0, 4294967296); cbv beta iota; replace ((0 <=? zlen p) && (zlen p <? 4294967296)) with true by lia; reflexivity).
  pose proof (msg_parse_frame sha256 sha_len t magic p _ [] I M P) as R. rewrite app_nil_r in R. rewrite <- R. unfold framed, pad_command. rewrite bs_length. reflexivity.
Qed.
(** An intact frame of a known message is refused in one way only, and what is
    refused is refused as well when its payload is cut short. *)
Theorem C164_cut t magic p x e : In t registry -> zlen magic = 4 -> wf_bytes p -> zlen (p ++ x) < 2 ^ 32 ->
  parse_message (framed sha256 magic (mt_command t) (p ++ x)) magic = Raise e ->
  e = ParameterError /\ parse_message (framed sha256 magic (mt_command t) p) magic = Raise ParameterError.
Proof.
  intros I M W L H. pose proof (zlen_nonneg x). assert (zlen p < 2 ^ 32) as L' by (rewrite zlen_app in L; lia). rewrite (framed_read t magic (p ++ x) I M L) in H. rewrite (framed_read t magic p I M L').
  pose proof (only_fields (mt_props t) 0 (p ++ x)) as O. destruct (fields_parse (mt_props t) 0 (p ++ x)) as [(o & fs)|e1] eqn:E; [discriminate|]. cbn [bind] in H. destruct O as [<-|[]]. split; [congruence|].
  pose proof (only_fields (mt_props t) 0 p) as O. destruct (fields_parse (mt_props t) 0 p) as [r|e2] eqn:E2; [|destruct O as [<-|[]]; reflexivity].
  exfalso. pose proof registry_tame as T. rewrite Forall_forall in T. destruct (registry_wf t I) as (Wt & _).
  destruct (fields_read (mt_props t) ltac:(apply Forall_forall; intros; apply all_grow) Wt (T t I) p x 0 r W ltac:(lia) E2) as (r' & R). congruence.
Qed.
(** Bytes after those that a message needs do not make it refused. *)
Theorem C164_longer t magic p x m : In t registry -> zlen magic = 4 -> wf_bytes p -> zlen (p ++ x) < 2 ^ 32 ->
  parse_message (framed sha256 magic (mt_command t) p) magic = Ok m -> exists m', parse_message (framed sha256 magic (mt_command t) (p ++ x)) magic = Ok m' /\ m_type m' = m_type m.
Proof.
  intros I M W L H. destruct (parse_message (framed sha256 magic (mt_command t) (p ++ x)) magic) as [m'|e] eqn:E; [|destruct (C164_cut t magic p x e I M W L E); congruence].
  exists m'. split; [reflexivity|]. pose proof (zlen_nonneg x). assert (zlen p < 2 ^ 32) as L' by (rewrite zlen_app in L; lia). rewrite (framed_read t magic p I M L') in H. rewrite (framed_read t magic (p ++ x) I M L) in E.
  destruct (fields_parse (mt_props t) 0 p) as [(o & fs)|]; [|discriminate]. destruct (fields_parse (mt_props t) 0 (p ++ x)) as [(o' & fs')|]; [|discriminate]. cbn [bind] in *. injection H as <-. injection E as <-. reflexivity.
Qed.
(** The messages that are never refused, whatever their payload, and no
    others: all others are refused when their payload is empty. *)
Definition undemanding : list string := ["verack"; "getaddr"; "mempool"; "ping"; "pong"; "filterclear"]%string.
Theorem C164_undemanding t magic : In t registry -> zlen magic = 4 ->
  (In (mt_command t) undemanding <-> forall p, wf_bytes p -> zlen p < 2 ^ 32 -> exists m, parse_message (framed sha256 magic (mt_command t) p) magic = Ok m) /\
  (In (mt_command t) undemanding <-> exists m, parse_message (framed sha256 magic (mt_command t) []) magic = Ok m).
Proof.
  intros I M. assert (In (mt_command t) undemanding <-> is_ok (fields_parse (mt_props t) 0 []) = true) as U.
  { assert (forallb (fun t => Bool.eqb (existsb (String.eqb (mt_command t)) undemanding) (is_ok (fields_parse (mt_props t) 0 []))) registry = true) as A by (vm_compute; reflexivity).
    rewrite forallb_forall in A. specialize (A t I). apply Bool.eqb_prop in A. rewrite <- A. rewrite existsb_exists. split; [intro H; exists (mt_command t); split; [exact H|apply String.eqb_refl]|intros (c & H & E); apply String.eqb_eq in E; congruence]. }
  assert (In (mt_command t) undemanding <-> exists m, parse_message (framed sha256 magic (mt_command t) []) magic = Ok m) as V.
  { rewrite U, (framed_read t magic [] I M) by (change (zlen []) with 0; lia). destruct (fields_parse (mt_props t) 0 []) as [(o & fs)|]; cbn [bind is_ok]; split; try congruence; eauto; intros (m & E); discriminate. }
  split; [|exact V]. split.
  - intros H p W L. apply V in H. destruct H as (m & H). destruct (C164_longer t magic [] p m I M (Forall_nil _) L H) as (m' & H' & _). exists m'. exact H'.
  - intro H. apply V. apply (H []); [constructor|change (zlen []) with 0; lia].
Qed.
End WithHash.

(** What a node takes note of in any history: a frame that it complains about
    has a wrong magic number, a wrong checksum or an unknown command; one that it
    logs as failed is intact and bears a known command, and its payload cannot be
    read.  Struct errors do not occur in a node. *)
Theorem C164_node sha256 py2 cf es i f e : Forall wf_event es ->
  (In (AInvalid i f e) (n_trace (history sha256 py2 cf es)) -> (e = MsgFormatError /\ (slice 0 4 f <> cf_magic cf \/ ~ sealed sha256 f)) \/ (e = UnknownMsgError /\ slice 0 4 f = cf_magic cf /\ sealed sha256 f /\ forall t, ~ named f t)) /\
  (In (AParseError i f e) (n_trace (history sha256 py2 cf es)) -> e = ParameterError /\ slice 0 4 f = cf_magic cf /\ sealed sha256 f /\ exists t, named f t /\ ~ In (mt_command t) undemanding).
Proof.
  intro W. pose proof (stream_inv_history sha256 py2 cf es W) as (S & _). set (tr := n_trace _) in *.
  assert (forall a, (exists f e, a = AInvalid i f e \/ a = AParseError i f e) -> In a tr -> exists f, is_frame f /\ wf_bytes f /\ a = outcome sha256 cf i f) as B.
  { intros a (f0 & e0 & A) H. assert (In a (frames_of i tr)) as H' by (unfold frames_of; apply filter_In; split; [exact H|]; destruct A as [->| ->]; apply Nat.eqb_refl).
    specialize (S i). destruct (get_conn i _) as [c|].
    - destruct S as ((fs & R & F & E) & Wr & _). rewrite E in H'. apply in_map_iff in H'. destruct H' as (f1 & <- & I). rewrite Forall_forall in F. exists f1. split; [exact (F f1 I)|]. split; [|reflexivity].
      rewrite R in Wr. apply wf_bytes_app in Wr. destruct Wr as (Wr & _). clear -I Wr. induction fs as [|g fs IH]; [destruct I|]. cbn [concat] in Wr. apply wf_bytes_app in Wr. destruct Wr as (W1 & W2). destruct I as [<-|I]; [exact W1|exact (IH W2 I)].
    - destruct S as (_ & _ & _ & E). rewrite E in H'. destruct H'. }
  split; intro H.
  - destruct (B (AInvalid i f e) (ex_intro _ f (ex_intro _ e (or_introl eq_refl))) H) as (g & (L & _) & _ & E). unfold outcome in E. pose proof (C164_errors sha256 g (cf_magic cf)) as O. destruct (C164_verdict sha256 g (cf_magic cf)) as (_ & V2 & V3 & _).
    destruct (msg_parse sha256 g (cf_magic cf)) as [m|e1]; [discriminate|]. destruct (is_invalid e1) eqn:K; [|discriminate]. injection E as -> ->. destruct O as [<-|[<-|[<-|[<-|[]]]]]; try discriminate K.
    + left. split; [reflexivity|]. destruct (proj1 V2 eq_refl) as [X|(_ & X)]; [left|right]; exact X.
    + right. split; [reflexivity|]. destruct (proj1 V3 eq_refl) as (X & _ & Y & Z). tauto.
  - destruct (B (AParseError i f e) (ex_intro _ f (ex_intro _ e (or_intror eq_refl))) H) as (g & (L & _) & Wg & E). unfold outcome in E. pose proof (C164_errors sha256 g (cf_magic cf)) as O. destruct (C164_verdict sha256 g (cf_magic cf)) as (V1 & _ & _ & V4).
    destruct (msg_parse sha256 g (cf_magic cf)) as [m|e1]; [discriminate|]. destruct (is_invalid e1) eqn:K; [discriminate|]. injection E as -> ->. destruct O as [<-|[<-|[<-|[<-|[]]]]]; try discriminate K.
    + exfalso. pose proof (proj1 V1 eq_refl) as (_ & X). lia.
    + destruct (proj1 V4 eq_refl) as (X & _ & Y & t & (I & N) & F). split; [reflexivity|]. split; [exact X|]. split; [exact Y|]. exists t. split; [split; assumption|]. intro U.
      assert (exists r, fields_parse (mt_props t) 0 [] = Ok r) as (r & R).
      { assert (forallb (fun t => implb (existsb (String.eqb (mt_command t)) undemanding) (is_ok (fields_parse (mt_props t) 0 []))) registry = true) as A by (vm_compute; reflexivity).
        rewrite forallb_forall in A. specialize (A t I). assert (existsb (String.eqb (mt_command t)) undemanding = true) as Ex by (apply existsb_exists; exists (mt_command t); split; [exact U|apply String.eqb_refl]). rewrite Ex in A. cbn [implb] in A. destruct (fields_parse (mt_props t) 0 []) as [r|]; [eauto|discriminate]. }
      pose proof registry_tame as T. rewrite Forall_forall in T. destruct (registry_wf t I) as (Wt & _).
      destruct (fields_read (mt_props t) ltac:(apply Forall_forall; intros; apply all_grow) Wt (T t I) [] (body g) 0 r (Forall_nil _) ltac:(lia) R) as (r' & R'). cbn [app] in R'. congruence.
Qed.
(** A node that is sent a frame with a wrong magic number, one with an unknown
    command and an inventory without its entries. *)
Definition mx_events : list event := [EvAccept nx_a (1000 * SEC) nx_env;
  EvRead 0 (RData (nx_bad ++ framed nx_sha nx_magic "pang" [1] ++ framed nx_sha nx_magic "inv" [2; 0; 0])) 0 nx_clock].
Example C164_node_applies : Forall wf_event mx_events /\ let tr := n_trace (nx_hist mx_events) in
  frames_of 0 tr = [AInvalid 0 nx_bad MsgFormatError; AInvalid 0 (framed nx_sha nx_magic "pang" [1]) UnknownMsgError; AParseError 0 (framed nx_sha nx_magic "inv" [2; 0; 0]) ParameterError].
Proof.
  split; [|vm_compute; reflexivity]. assert (forallb (fun c => (0 <=? c) && (c <? 256)) (nx_bad ++ framed nx_sha nx_magic "pang" [1] ++ framed nx_sha nx_magic "inv" [2; 0; 0]) = true) as A by (vm_compute; reflexivity).
  constructor; [exact Logic.I|]. constructor; [|constructor]. cbn [wf_event]. apply Forall_forall. intros c H. rewrite forallb_forall in A. specialize (A c H). unfold is_byte. lia.
Qed.
(** A ping without its nonce is not refused, although a ping has eight bytes:
    that a payload is cut short is not always noticed. *)
Definition t_ping : msg_type := mk_msg_type "Ping" "ping" "ping" [("nonce", FBytes 8)].
Theorem C164_short_refuted sha256 magic : (forall x, 4 <= zlen (sha256 x)) -> zlen magic = 4 -> In t_ping registry /\
  msg_parse sha256 (framed sha256 magic "ping" [1;2;3;4;5;6;7;8]) magic = Ok (mk_message t_ping [("nonce"%string, VBytes [1;2;3;4;5;6;7;8])]) /\
  msg_parse sha256 (framed sha256 magic "ping" [1;2;3]) magic = Ok (mk_message t_ping [("nonce"%string, VBytes [1;2;3])]).
Proof.
  intros S M. assert (In t_ping registry) as I by (rewrite registry_all; vm_compute; tauto). split; [exact I|]. change "ping"%string with (mt_command t_ping).
  split; (rewrite (framed_read sha256 S t_ping magic _ I M) by (vm_compute; reflexivity)); reflexivity.
Qed.
(** An inventory that announces two entries and holds none is refused, and so
    is everything shorter. *)
Definition t_inv : option msg_type := find (fun t => String.eqb (mt_command t) "inv") registry.
Example C164_applies : exists t, t_inv = Some t /\ In t registry /\ forall sha256 magic, (forall x, 4 <= zlen (sha256 x)) -> zlen magic = 4 ->
  msg_parse sha256 (framed sha256 magic "inv" [2; 0; 0]) magic = Raise ParameterError /\ msg_parse sha256 (framed sha256 magic "inv" [2]) magic = Raise ParameterError /\
  msg_parse sha256 (framed sha256 magic "inv" []) magic = Raise ParameterError.
Proof.
  destruct t_inv as [t|] eqn:E; [|vm_compute in E; discriminate]. exists t. split; [reflexivity|]. pose proof E as E'. apply find_some in E'. destruct E' as (I & C). apply String.eqb_eq in C. split; [exact I|].
  intros sha256 magic S M. assert (msg_parse sha256 (framed sha256 magic "inv" [2; 0; 0]) magic = Raise ParameterError) as A.
  { rewrite <- C, (framed_read sha256 S t magic _ I M) by (vm_compute; reflexivity). vm_compute in E. injection E as <-. vm_compute. reflexivity. }
  split; [exact A|]. rewrite <- C in *. split.
  - apply (C164_cut sha256 S t magic [2] [0; 0] _ I M ltac:(repeat constructor; unfold is_byte; lia) ltac:(vm_compute; reflexivity) A).
  - apply (C164_cut sha256 S t magic [] [2; 0; 0] _ I M ltac:(constructor) ltac:(vm_compute; reflexivity) A).
Qed.

(** ** Assumptions *)

Print Assumptions C164_errors.
Print Assumptions C164_verdict.
Print Assumptions C164_cut.
Print Assumptions C164_longer.
Print Assumptions C164_undemanding.
Print Assumptions C164_node.
Print Assumptions C164_short_refuted.
