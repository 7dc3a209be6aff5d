(** Proofs about messages.py. *)
From Coq Require Import String ZArith List Lia Bool.
From Verif Require Import PyBase PyVal PyTextProofs FormatModel FormatSpec FormatProofs FormatProofs2 MessagesModel.
Import ListNotations.
Open Scope string_scope.
Open Scope list_scope.
Open Scope Z_scope.

Lemma all_types_wf : Forall (fun t => wf_fts (mt_props t) /\ NoDup (map fst (mt_props t)) /\
  Forall (fun e => classes_ok (snd e)) (mt_props t)) all_types.
Proof.
  let t := eval vm_compute in all_types in change all_types with t.
  repeat (constructor; [split; [cbn; repeat split; try lia; try discriminate; try (do 3 eexists; reflexivity); repeat constructor; cbn; intuition discriminate|
    split; [repeat constructor; cbn; intuition discriminate|repeat constructor; cbn; tauto]]|]).
  constructor.
Qed.

Lemma registry_all : registry = all_types.
Proof. vm_compute. reflexivity. Qed.

Lemma lookup_registered : Forall (fun t => lookup_command (bs (mt_command t)) = Some t) registry.
Proof.
  apply Forall_forall. intros t Ht. unfold registry in Ht. cbn in Ht.
  repeat (destruct Ht as [<-|Ht]; [vm_compute; reflexivity|]). contradiction.
Qed.

Lemma command_padded : Forall (fun t => strip0 (pad_command (bs (mt_command t))) = bs (mt_command t)
   /\ zlen (pad_command (bs (mt_command t))) = 12) registry.
Proof.
  apply Forall_forall. intros t Ht. unfold registry in Ht. cbn in Ht.
  repeat (destruct Ht as [<-|Ht]; [vm_compute; split; reflexivity|]). contradiction.
Qed.

Lemma lookup_in c t : lookup_command c = Some t -> In t registry /\ bs (mt_command t) = c.
Proof.
  unfold lookup_command. intro H. apply find_some in H. destruct H as (H1 & H2).
  split; [now apply in_rev|]. destruct (bytes_eqb_spec (bs (mt_command t)) c); congruence.
Qed.

Lemma new_message_wt t args kw m : In t registry -> Forall built args -> Forall built (map snd kw) ->
  new_message t args kw = Ok m ->
  m_type m = t /\ wt_fields (mt_props t) (m_fields m) /\ bounds_ok_fields (mt_props t) (m_fields m).
Proof.
  intros Ht Ha Hk H. unfold new_message in H. bind_inv H.
  rewrite registry_all in Ht. pose proof all_types_wf as W. rewrite Forall_forall in W.
  destruct (W t Ht) as (W1 & W2 & W3).
  assert (Forall vgood args) as Ga by (eapply Forall_impl; [|exact Ha]; apply built_vgood).
  assert (Forall vgood (map snd kw)) as Gk by (eapply Forall_impl; [|exact Hk]; apply built_vgood).
  destruct (construct_wt _ _ _ _ _ W1 W3 Ga Gk H0) as (fs & -> & Hw & Hb).
  inv H. auto.
Qed.

Section WithHash.
Variable sha256 : bytes -> bytes.
Hypothesis sha_len : forall x, 4 <= zlen (sha256 x).

Notation chk p := (ztake 4 (sha256d sha256 p)).

Lemma zlen_chk p : zlen (chk p) = 4.
Proof. rewrite zlen_ztake by lia. unfold sha256d. specialize (sha_len (sha256 p)). lia. Qed.

(** Slices of a frame. *)
Lemma frame_slices (magic cmd len ck payload rest : bytes) :
  zlen magic = 4 -> zlen cmd = 12 -> zlen len = 4 -> zlen ck = 4 ->
  let data := magic ++ cmd ++ len ++ ck ++ payload ++ rest in
  slice 0 4 data = magic /\ slice 4 16 data = cmd /\ slice 16 20 data = len /\
  slice 20 24 data = ck /\ slice 24 (24 + zlen payload) data = payload.
Proof.
  intros H1 H2 H3 H4 data. subst data. repeat split.
  - apply (slice_app_mid [] magic); [reflexivity|rewrite zlen_nil; lia].
  - apply slice_app_mid; lia.
  - rewrite (app_assoc magic cmd). apply slice_app_mid; rewrite zlen_app; lia.
  - rewrite (app_assoc magic cmd), (app_assoc (magic ++ cmd)). apply slice_app_mid; rewrite !zlen_app; lia.
  - rewrite (app_assoc magic cmd), (app_assoc (magic ++ cmd)), (app_assoc ((magic ++ cmd) ++ len)).
    apply slice_app_mid; rewrite !zlen_app; lia.
Qed.

Lemma msg_binary_frame m magic b : In (m_type m) registry -> zlen magic = 4 -> msg_binary sha256 m magic = Ok b ->
  exists payload len, fields_binary (mt_props (m_type m)) (m_fields m) = Ok payload /\
    struct_pack FI false (zlen payload) = Ok len /\
    b = magic ++ pad_command (bs (mt_command (m_type m))) ++ len ++ chk payload ++ payload.
Proof.
  intros Ht Hm H. unfold msg_binary in H. bind_inv H. bind_inv H. inv H. eauto.
Qed.

Lemma msg_binary_len m magic b : In (m_type m) registry -> zlen magic = 4 -> msg_binary sha256 m magic = Ok b ->
  forall rest, first_msg_len (b ++ rest) = Some (zlen b).
Proof.
  intros Ht Hm H rest. destruct (msg_binary_frame _ _ _ Ht Hm H) as (p & len & Hp & Hl & ->).
  pose proof command_padded as C. rewrite Forall_forall in C. destruct (C _ Ht) as (_ & Hc).
  pose proof (zlen_pack _ _ _ _ Hl) as Hll. cbn in Hll.
  rewrite <- !app_assoc.
  destruct (frame_slices magic (pad_command (bs (mt_command (m_type m)))) len (chk p) p rest Hm Hc Hll (zlen_chk p)) as (_ & _ & S3 & _).
  unfold first_msg_len. rewrite S3, (struct_unpack_pack _ _ _ _ Hl).
  rewrite !zlen_app, Hm, Hc, Hll, zlen_chk. pose proof (zlen_nonneg p). pose proof (zlen_nonneg rest).
  replace (_ <? 20) with false by lia. f_equal. lia.
Qed.

Lemma msg_parse_frame t magic payload len rest : In t registry -> zlen magic = 4 ->
  struct_pack FI false (zlen payload) = Ok len ->
  msg_parse sha256 (magic ++ pad_command (bs (mt_command t)) ++ len ++ chk payload ++ payload ++ rest) magic =
  (let! (_, fs) := fields_parse (mt_props t) 0 payload in Ok (mk_message t fs)).
Proof.
  intros Ht Hm Hl.
  pose proof command_padded as C. rewrite Forall_forall in C. destruct (C _ Ht) as (Hs & Hc).
  pose proof lookup_registered as L. rewrite Forall_forall in L. specialize (L _ Ht).
  pose proof (zlen_pack _ _ _ _ Hl) as Hll. cbn in Hll.
  destruct (frame_slices magic (pad_command (bs (mt_command t))) len (chk payload) payload rest Hm Hc Hll (zlen_chk payload)) as (S1 & S2 & S3 & S4 & S5).
  unfold msg_parse. rewrite S1, S2, S3, S4, bytes_eqb_refl. cbn [negb].
  rewrite (struct_unpack_pack _ _ _ _ Hl). cbn [bind]. rewrite S5, bytes_eqb_refl. cbn [negb].
  rewrite Hs, L. reflexivity.
Qed.

Lemma fields_roundtrip ps fs b : wf_fts ps -> NoDup (map fst ps) -> wt_fields ps fs ->
  fields_binary ps fs = Ok b -> zlen b <= 0xffffffff -> ok_varints_fields 0xffffffff ps fs ->
  forall rest, fields_parse ps 0 (b ++ rest) = Ok (zlen b, canon_fields ps fs).
Proof.
  intros W N T B L V rest.
  assert (Forall (fun e => rt (snd e)) ps) as R by (apply Forall_forall; intros; apply roundtrip_ft).
  assert (Forall (fun e => sm (snd e)) ps) as S by (apply Forall_forall; intros; apply size_small).
  pose proof (fields_small ps S W N fs b T B L V) as Hs.
  destruct (fields_rt ps R W N fs b T B) as (_ & Hp). specialize (Hp Hs [] rest). exact Hp.
Qed.

Lemma msg_roundtrip t args kw m magic b : In t registry -> Forall built args -> Forall built (map snd kw) ->
  new_message t args kw = Ok m -> zlen magic = 4 -> msg_binary sha256 m magic = Ok b ->
  ok_varints_fields 0xffffffff (mt_props t) (m_fields m) ->
  forall rest, msg_parse sha256 (b ++ rest) magic = Ok (mk_message t (canon_fields (mt_props t) (m_fields m))).
Proof.
  intros Ht Ha Hk Hn Hm Hb Hv rest.
  destruct (new_message_wt _ _ _ _ Ht Ha Hk Hn) as (E & Hw & _).
  assert (In (m_type m) registry) as Ht' by (now rewrite E).
  destruct (msg_binary_frame _ _ _ Ht' Hm Hb) as (p & len & Hp & Hl & ->). rewrite E in *.
  rewrite <- !app_assoc. rewrite (msg_parse_frame t magic p len rest Ht Hm Hl).
  pose proof all_types_wf as W. rewrite <- registry_all in W. rewrite Forall_forall in W.
  destruct (W t Ht) as (W1 & W2 & _).
  pose proof (fields_roundtrip _ _ _ W1 W2 Hw Hp) as R.
  apply struct_pack_ok in Hl. cbn in Hl.
  specialize (R ltac:(lia) Hv []). rewrite app_nil_r in R. rewrite R. reflexivity.
Qed.

Lemma msg_parse_inv data magic m : msg_parse sha256 data magic = Ok m ->
  slice 0 4 data = magic /\
  zlen (slice 16 20 data) = 4 /\
  let payload := slice 24 (24 + le_val (slice 16 20 data)) data in
  slice 20 24 data = ztake 4 (sha256 (sha256 payload)) /\
  In (m_type m) registry /\
  strip0 (slice 4 16 data) = bs (mt_command (m_type m)) /\
  exists n, fields_parse (mt_props (m_type m)) 0 payload = Ok (n, m_fields m).
Proof.
  unfold msg_parse. destruct (bytes_eqb_spec (slice 0 4 data) magic) as [E1|]; cbn [negb]; [|discriminate].
  intro H. bind_inv H.
  assert (zlen (slice 16 20 data) = 4 /\ x = le_val (slice 16 20 data)) as (Hz & ->).
  { unfold struct_unpack in H0. destruct (Z.eqb_spec (zlen (slice 16 20 data)) (Z.of_nat (nf_len FI))) as [E|]; [|discriminate].
    cbn [nf_signed andb] in H0. injection H0 as <-. split; [exact E|reflexivity]. }
  cbv zeta. set (p := slice 24 (24 + le_val (slice 16 20 data)) data) in *.
  destruct (bytes_eqb_spec (slice 20 24 data) (chk p)) as [E2|]; cbn [negb] in H; [|discriminate].
  destruct (lookup_command _) as [t|] eqn:L; [|discriminate]. bind_inv H. destruct x as (n, fs). inv H.
  apply lookup_in in L. destruct L as (L1 & L2). cbn [m_type m_fields]. repeat split; eauto.
Qed.

Lemma msg_parse_bad_magic data magic : slice 0 4 data <> magic -> msg_parse sha256 data magic = Raise MsgFormatError.
Proof. intro H. unfold msg_parse. destruct (bytes_eqb_spec (slice 0 4 data) magic); [contradiction|reflexivity]. Qed.

Lemma msg_parse_bad_checksum data magic : 24 <= zlen data ->
  slice 20 24 data <> ztake 4 (sha256 (sha256 (slice 24 (24 + le_val (slice 16 20 data)) data))) ->
  msg_parse sha256 data magic = Raise MsgFormatError.
Proof.
  intros Hl H. unfold msg_parse. destruct (bytes_eqb_spec (slice 0 4 data) magic); cbn [negb]; [|reflexivity].
  assert (zlen (slice 16 20 data) = 4) as Hz.
  { unfold slice. rewrite zlen_ztake, zlen_zdrop by lia. lia. }
  unfold struct_unpack. rewrite Hz. cbn [nf_len nf_signed andb Z.of_nat Pos.of_succ_nat Pos.succ Z.eqb Pos.eqb bind].
  unfold sha256d. match goal with |- context[bytes_eqb ?a ?b] => destruct (bytes_eqb_spec a b) end; [contradiction|reflexivity].
Qed.

Lemma msg_parse_total data magic e : wf_bytes data -> 24 <= zlen data -> msg_parse sha256 data magic = Raise e ->
  e = MsgFormatError \/ e = UnknownMsgError \/ e = ParameterError.
Proof.
  intros Hw Hl. unfold msg_parse. destruct (bytes_eqb _ magic); cbn [negb]; [|intro H; inv H; auto].
  assert (zlen (slice 16 20 data) = 4) as Hz.
  { unfold slice. rewrite zlen_ztake, zlen_zdrop by lia. lia. }
  unfold struct_unpack. rewrite Hz. cbn [nf_len nf_signed andb Z.of_nat Pos.of_succ_nat Pos.succ Z.eqb Pos.eqb bind].
  destruct (bytes_eqb _ _); cbn [negb]; [|intro H; inv H; auto].
  destruct (lookup_command _) as [t|]; [|intro H; inv H; auto].
  destruct (fields_parse _ _ _) as [(n, fs)|e'] eqn:F; cbn [bind]; [discriminate|].
  intro H. inv H. right; right. revert F. generalize 0. generalize (slice 24 (24 + le_val (slice 16 20 data)) data).
  induction (mt_props t) as [|(k, vt) r IH]; intros d off F; cbn [fields_parse] in F; [discriminate|].
  destruct (parse vt (zdrop off d)) as [(len, x)|]; [|now inv F].
  destruct (fields_parse r (off + len) d) as [(o, xs)|] eqn:F2; cbn in F; [discriminate|]. inv F. eauto.
Qed.

(** * Cached hashes *)
Lemma assoc_app_none {A} k (l : list (string * A)) m : assoc k l = None -> assoc k (l ++ m) = assoc k m.
Proof.
  induction l as [|(k', v) r IH]; cbn; [reflexivity|]. destruct (String.eqb k k'); [discriminate|auto].
Qed.
Lemma assoc_app_other {A} k k' (v : A) l : k <> k' -> assoc k (l ++ [(k', v)]) = assoc k l.
Proof.
  intro H. induction l as [|(k2, v2) r IH]; cbn.
  - destruct (String.eqb_spec k k'); [contradiction|reflexivity].
  - now rewrite IH.
Qed.
Lemma fields_binary_cache ps fs k v : ~ In k (map fst ps) -> fields_binary ps (fs ++ [(k, v)]) = fields_binary ps fs.
Proof.
  induction ps as [|(k', t) r IH]; intro H; [reflexivity|]. cbn [fields_binary]. cbn in H.
  rewrite assoc_app_other by (intro; subst; apply H; now left). rewrite IH by tauto. reflexivity.
Qed.

Definition expected_read (sha : bytes -> bytes) ps cut fs (r : obj_read) : res pyval :=
  let! b := fields_binary ps fs in
  Ok (VBytes (match r with RHash => sha (cut b) | RBinary => b end)).

Lemma obj_run_spec sha ps cut rs fs : ~ In "__hash" (map fst ps) -> assoc "__hash" fs = None ->
  obj_run sha ps cut rs fs = map (expected_read sha ps cut fs) rs.
Proof.
  intros Hps Hfs.
  assert (forall rs fs', (fs' = fs \/ exists b, fields_binary ps fs = Ok b /\ fs' = fs ++ [("__hash", VBytes (sha (cut b)))]) ->
    obj_run sha ps cut rs fs' = map (expected_read sha ps cut fs) rs) as G; [|apply G; auto].
  clear rs. induction rs as [|r rs IH]; intros fs' H; [reflexivity|]. cbn [obj_run map].
  assert (fields_binary ps fs' = fields_binary ps fs) as EB.
  { destruct H as [->|(b & Hb & ->)]; [reflexivity|now apply fields_binary_cache]. }
  assert (obj_step sha ps cut r fs' = (expected_read sha ps cut fs r, snd (obj_step sha ps cut r fs')) /\
    (snd (obj_step sha ps cut r fs') = fs \/ exists b, fields_binary ps fs = Ok b /\
       snd (obj_step sha ps cut r fs') = fs ++ [("__hash", VBytes (sha (cut b)))])) as (E1 & E2).
  { destruct r; cbn [obj_step].
    - unfold cached_hash, expected_read. destruct H as [->|(b & Hb & ->)].
      + rewrite Hfs. destruct (fields_binary ps fs) as [b|e]; cbn; split; eauto.
      + rewrite assoc_app_none by assumption. cbn. rewrite Hb. cbn. split; eauto.
    - unfold expected_read. rewrite EB. cbn [snd]. auto. }
  rewrite E1. f_equal. now apply IH.
Qed.
End WithHash.
