(** Property C105: the log level does not change what a node does; C106:
    received messages can be sent on. *)
From Coq Require Import String ZArith List Lia Bool.
From Verif Require Import PyBase PyVal FormatModel FormatSpec FormatProofs FormatProofs2 MessagesModel MessagesProofs AlertProofs NodeModel NodeProofs7 LogModel LogProofs PropsProtocol PropsNode.
Import ListNotations.
Open Scope string_scope.
Open Scope list_scope.
Open Scope Z_scope.

(** *** Alert payloads *)
Lemma fp_num k f big a r off data z : struct_unpack f big (slice off (off + Z.of_nat (nf_len f)) data) = Ok z ->
  fields_parse ((k, FNumber f big a) :: r) off data =
  let! (o, xs) := fields_parse r (off + Z.of_nat (nf_len f)) data in Ok (o, (k, VInt z) :: xs).
Proof.
  intro H. cbn [fields_parse parse]. unfold num_parse. unfold slice in H. replace (off + Z.of_nat (nf_len f) - off) with (Z.of_nat (nf_len f)) in H by lia.
  rewrite H. reflexivity.
Qed.
Lemma fp_step k t r off data len x : parse t (zdrop off data) = Ok (len, x) ->
  fields_parse ((k, t) :: r) off data = let! (o, xs) := fields_parse r (off + len) data in Ok (o, (k, x) :: xs).
Proof. intro H. cbn [fields_parse]. now rewrite H. Qed.
Lemma fill_complete data d : wf_bytes data -> alert_fill data = (d, None) -> exists n, fields_parse alert_props 0 data = Ok (n, d).
Proof.
  intros Hw H. unfold alert_fill in H.
  destruct (alert_head (slice 0 28 data)) as [((((v, r), e), i), c)|] eqn:HH; [|congruence].
  unfold alert_head in HH. destruct (Z.eqb_spec (zlen (slice 0 28 data)) 28) as [L|]; [|discriminate]. cbn [negb] in HH.
  replace (slice 0 28 data) with (ztake 28 data) in HH by (unfold slice; now rewrite zdrop_0).
  rewrite !slice_slice in HH by lia.
  bind_inv HH. rename H0 into E1. bind_inv HH. rename H0 into E2. bind_inv HH. rename H0 into E3. bind_inv HH. rename H0 into E4. bind_inv HH. rename H0 into E5.
  injection HH as <- <- <- <- <-.
  match type of H with match ?p with _ => _ end = _ => destruct p as [(vl, s)|] eqn:P6; [|congruence] end.
  destruct (alert_vers (slice (28 + vl) (28 + vl + 8) data)) as [(minv, maxv)|] eqn:HV; [|congruence].
  match type of H with match ?p with _ => _ end = _ => destruct p as [(vl9, s9)|] eqn:P9; [|congruence] end.
  match type of H with match ?p with _ => _ end = _ => destruct p as [z10|] eqn:P10; [|congruence] end.
  match type of H with match ?p with _ => _ end = _ => destruct p as [(l11, c11)|] eqn:P11; [|congruence] end.
  match type of H with match ?p with _ => _ end = _ => destruct p as [(l12, c12)|] eqn:P12; [|congruence] end.
  match type of H with match ?p with _ => _ end = _ => destruct p as [(l13, c13)|] eqn:P13; [|congruence] end.
  injection H as <-.
  assert (0 <= vl) as N6.
  { pose proof (parse_wt (FArray (FNumber Fi false false) None None)) as W6. unfold pw in W6.
    assert (parse (FArray (FNumber Fi false false) None None) (zdrop 28 data) = Ok (vl, VList s)) as P by (cbn [parse]; cbn [parse] in P6; now rewrite P6).
    apply (W6 ltac:(cbn; repeat split; try lia; discriminate) _ _ _ (Forall_zdrop _ 28 _ Hw) P). }
  unfold alert_vers in HV. destruct (Z.eqb_spec (zlen (slice (28 + vl) (28 + vl + 8) data)) 8) as [L8|]; [|discriminate]. cbn [negb] in HV.
  replace (slice (28 + vl) (28 + vl + 8) data) with (ztake 8 (zdrop (28 + vl) data)) in HV by (unfold slice; f_equal; lia).
  rewrite !slice_slice in HV by lia. bind_inv HV. rename H into E7. bind_inv HV. rename H into E8. injection HV as <- <-.
  unfold alert_props.
  rewrite (fp_num _ Fi false _ _ _ _ _ E1). cbn [nf_len]. change (0 + Z.of_nat 4) with 4.
  rewrite (fp_num _ Fq false _ _ _ _ _ E2). cbn [nf_len]. change (4 + Z.of_nat 8) with 12.
  rewrite (fp_num _ Fq false _ _ _ _ _ E3). cbn [nf_len]. change (12 + Z.of_nat 8) with 20.
  rewrite (fp_num _ Fi false _ _ _ _ _ E4). cbn [nf_len]. change (20 + Z.of_nat 4) with 24.
  rewrite (fp_num _ Fi false _ _ _ _ _ E5). cbn [nf_len]. change (24 + Z.of_nat 4) with 28.
  rewrite (fp_step "set_cancel" _ _ _ _ vl (VList s)) by (cbn [parse]; cbn [parse] in P6; now rewrite P6).
  rewrite (fp_num "min_ver" Fi false false _ _ _ x4).
  2:{ revert E7. unfold slice. cbn [nf_len]. rewrite zdrop_0. change (4 - 0) with 4. replace (28 + vl + Z.of_nat 4 - (28 + vl)) with 4 by lia. auto. }
  cbn [nf_len]. change (Z.of_nat 4) with 4.
  rewrite (fp_num "max_ver" Fi false false _ _ _ x5).
  2:{ revert E8. unfold slice. cbn [nf_len]. change (8 - 4) with 4. change (Z.of_nat 4) with 4. rewrite zdrop_zdrop by lia.
      replace (28 + vl + 4 + 4 - (28 + vl + 4)) with 4 by lia. replace (4 + (28 + vl)) with (28 + vl + 4) by lia. auto. }
  cbn [nf_len]. change (Z.of_nat 4) with 4. replace (28 + vl + 4 + 4) with (28 + vl + 8) by lia.
  rewrite (fp_step "set_sub_ver" _ _ _ _ vl9 (VList s9)) by (cbn [parse]; cbn [parse] in P9; now rewrite P9).
  rewrite (fp_num "priority" Fi false false _ _ _ z10) by exact P10. cbn [nf_len]. change (Z.of_nat 4) with 4.
  rewrite (fp_step "comment" _ _ _ _ l11 c11) by exact P11.
  rewrite (fp_step "status_bar" _ _ _ _ l12 c12) by exact P12.
  rewrite (fp_step "reserved" _ _ _ _ l13 c13) by exact P13.
  cbn [fields_parse bind app]. eexists. reflexivity.
Qed.

(** ** C105: log levels *)

(** *** What it takes to write a message to the log *)
Definition items_of (v : option pyval) : list pyval :=
  match v with Some (VList l) | Some (VTuple l) => l | _ => [] end.
Definition value_of (m : message) (k : string) : option pyval := assoc k (m_fields m).
Definition command_in (m : message) (l : list string) : Prop := In (mt_command (m_type m)) l.
(** The payload of an alert holds all the fields of the protocol. *)
Definition alert_content (m : message) (fs : list (string * pyval)) : Prop :=
  exists payload n, value_of m "payload" = Some (VBytes payload) /\ fields_parse alert_props 0 payload = Ok (n, fs).
(** Messages with a list of hashes, and the name of that list. *)
Definition hash_lists : list (string * string) :=
  [ ("getblocks", "block_locator_hashes"); ("getheaders", "block_locator_hashes"); ("merkleblock", "hashes") ].
Definition shows_protocol (m : message) : Prop :=
  (forall k, In (mt_command (m_type m), k) hash_lists -> items_of (value_of m k) = []) /\
  (command_in m ["alert"] -> exists fs, alert_content m fs /\ assoc "set_sub_ver" fs = Some (VList [])).
Definition serialisable (t : ft) (v : pyval) : Prop := exists b, binary t v = Ok b.
Definition shows_debug (m : message) : Prop :=
  (command_in m ["block"] -> (forall x, value_of m "timestamp" <> Some (VFloat x)) /\
     forall tx r, items_of (value_of m "txns") = tx :: r -> serialisable FtTxn tx) /\
  (command_in m ["headers"] -> forall h r, items_of (value_of m "headers") = h :: r -> serialisable FtBlockHeader h) /\
  (command_in m ["alert"] -> exists fs, alert_content m fs).
Definition shows (level : Z) (m : message) : Prop :=
  (level <= 0 -> shows_protocol m) /\ (level = 1 -> shows_debug m).

(** *** Proofs *)
Lemma alert_reads_ok fs data d : wf_bytes data -> assoc "payload" fs = Some (VBytes data) -> alert_fill data = (d, None) ->
  forall name, In name (map fst alert_props) -> exists v, assoc name d = Some v /\
    alert_read fs [] name = Ok (v, d) /\ alert_read fs d name = Ok (v, d).
Proof.
  intros W P F name I. destruct (fill_complete data d W F) as (n & H).
  assert (exists v, assoc name d = Some v /\ is_nil d = false) as (v & E & Nn).
  { unfold alert_props in H. repeat (apply fields_parse_cons_inv in H; destruct H as (? & ? & ? & _ & -> & H)).
    cbn in H. injection H as _ <-. cbn [map fst alert_props] in I.
    repeat (destruct I as [<-|I]; [eexists; split; reflexivity|]). contradiction. }
  exists v. split; [exact E|]. unfold alert_read, prop. rewrite P. cbn [bind]. unfold alert_get. cbn [is_nil]. rewrite F, Nn, E. split; reflexivity.
Qed.
Lemma alert_read_fail fs data d e : assoc "payload" fs = Some (VBytes data) -> alert_fill data = (d, Some e) ->
  forall name, alert_read fs [] name = Raise e.
Proof. intros P F name. unfold alert_read, prop. rewrite P. cbn [bind]. unfold alert_get. cbn [is_nil]. now rewrite F. Qed.

Definition alert_type : msg_type := mk_msg_type "Alert" "alert" "alert" [ ("payload", FVarStr); ("signature", FVarStr) ].
Lemma payload_cases fs : shaped_fields (mt_props alert_type) fs ->
  (exists data, assoc "payload" fs = Some (VBytes data) /\ wf_bytes data) \/ (exists s, assoc "payload" fs = Some (VStr s)).
Proof.
  intro S. destruct (shaped_assoc (mt_props alert_type) ltac:(cbn; repeat constructor; cbn; intuition discriminate) fs "payload" FVarStr S ltac:(cbn; auto)) as (v & E & T).
  cbn in T. destruct v; try contradiction; eauto.
Qed.
Lemma alert_str_iff fs : shaped_fields (mt_props alert_type) fs ->
  (alert_str fs = Ok tt <-> exists d, alert_content (mk_message alert_type fs) d /\ assoc "set_sub_ver" d = Some (VList [])).
Proof.
  intro S. unfold alert_content, value_of. cbn [m_fields]. destruct (payload_cases fs S) as [(data & P & W)|(s & P)].
  - destruct (alert_fill data) as (d, [e|]) eqn:F.
    + split.
      * intro H. exfalso. unfold alert_str in H. cbn [alert_read_all] in H. rewrite (alert_read_fail fs data d e P F) in H. discriminate.
      * intros (d' & (p & n & P' & H) & _). exfalso. rewrite P in P'. injection P' as <-. apply alert_fill_fields in H; [|exact W]. rewrite H in F. discriminate.
    + pose proof (alert_reads_ok fs data d W P F) as G.
      assert (alert_str fs = match assoc "set_sub_ver" d with Some (VList (_ :: _)) => Raise TypeError | _ => Ok tt end) as E.
      { unfold alert_str. cbn [alert_read_all].
        destruct (G "version" ltac:(cbn; tauto)) as (v0 & _ & -> & _). cbn [bind].
        destruct (G "relay_until" ltac:(cbn; tauto)) as (v1 & _ & _ & ->). cbn [bind].
        destruct (G "expiration" ltac:(cbn; tauto)) as (v2 & _ & _ & ->). cbn [bind].
        destruct (G "id" ltac:(cbn; tauto)) as (v3 & _ & _ & ->). cbn [bind].
        destruct (G "cancel" ltac:(cbn; tauto)) as (v4 & _ & _ & ->). cbn [bind].
        destruct (G "set_cancel" ltac:(cbn; tauto)) as (v5 & _ & _ & ->). cbn [bind].
        destruct (G "min_ver" ltac:(cbn; tauto)) as (v6 & _ & _ & ->). cbn [bind].
        destruct (G "max_ver" ltac:(cbn; tauto)) as (v7 & _ & _ & ->). cbn [bind].
        destruct (G "set_sub_ver" ltac:(cbn; tauto)) as (v8 & -> & _ & ->). cbn [bind].
        destruct (G "priority" ltac:(cbn; tauto)) as (v9 & _ & _ & ->). cbn [bind].
        destruct (G "comment" ltac:(cbn; tauto)) as (v10 & _ & _ & ->). cbn [bind].
        destruct (G "status_bar" ltac:(cbn; tauto)) as (v11 & _ & _ & ->). cbn [bind].
        destruct (G "reserved" ltac:(cbn; tauto)) as (v12 & _ & _ & ->). cbn [bind].
        destruct v8; try reflexivity. destruct l; reflexivity. }
      rewrite E. destruct (fill_complete data d W F) as (n & H). split.
      * intro K. exists d. split; [eauto|]. clear G E. unfold alert_props in H.
        do 8 (apply fields_parse_cons_inv in H; destruct H as (? & ? & ? & _ & -> & H)).
        apply fields_parse_cons_inv in H; destruct H as (? & y & ? & P9 & -> & H).
        repeat (apply fields_parse_cons_inv in H; destruct H as (? & ? & ? & _ & -> & H)).
        cbn in H. injection H as _ <-. cbn [assoc String.eqb Ascii.eqb Bool.eqb] in *. cbn [parse] in P9.
        match type of P9 with bind ?p _ = _ => destruct p as [(o, l)|]; [|discriminate] end. injection P9 as _ <-. destruct l; [reflexivity|discriminate].
      * intros (d' & (p & n' & P' & H') & A). rewrite P in P'. injection P' as <-. rewrite H in H'. injection H' as _ <-. now rewrite A.
  - split.
    + intro H. exfalso. unfold alert_str in H. cbn [alert_read_all] in H. unfold alert_read, prop in H. rewrite P in H. discriminate.
    + intros (d & (p & n & P' & _) & _). rewrite P in P'. discriminate.
Qed.
Lemma alert_debug_iff fs : shaped_fields (mt_props alert_type) fs ->
  ((let! _ := alert_read fs [] "status_bar" in Ok tt) = Ok tt <-> exists d, alert_content (mk_message alert_type fs) d).
Proof.
  intro S. unfold alert_content, value_of. cbn [m_fields]. destruct (payload_cases fs S) as [(data & P & W)|(s & P)].
  - destruct (alert_fill data) as (d, [e|]) eqn:F.
    + rewrite (alert_read_fail fs data d e P F). split; [discriminate|].
      intros (d' & p & n & P' & H). exfalso. rewrite P in P'. injection P' as <-. apply alert_fill_fields in H; [|exact W]. rewrite H in F. discriminate.
    + destruct (alert_reads_ok fs data d W P F "status_bar" ltac:(cbn; tauto)) as (v & _ & -> & _). cbn [bind].
      destruct (fill_complete data d W F) as (n & H). split; eauto 6.
  - unfold alert_read, prop. rewrite P. cbn [bind]. split; [discriminate|]. intros (d & p & n & P' & _). discriminate.
Qed.

Lemma str_fields_iff ps fs : str_fields ps fs = Ok tt <-> forall k t, In (k, t) ps -> exists v, assoc k fs = Some v /\ str_ft t v = Ok tt.
Proof.
  induction ps as [|(k, t) r IH]; cbn [str_fields].
  - split; [intros _ k t []|reflexivity].
  - split.
    + intros H k' t' [E|I].
      * injection E as -> ->. destruct (assoc k' fs) as [v|]; [|discriminate]. exists v. split; [reflexivity|]. destruct (str_ft t' v) as [[]|]; [reflexivity|discriminate].
      * apply IH; [|exact I]. destruct (assoc k fs) as [v|]; [|discriminate]. destruct (str_ft t v); [exact H|discriminate].
    + intro H. destruct (H k t (or_introl eq_refl)) as (v & -> & ->). cbn [bind]. apply IH. intros k' t' I. apply H. now right.
Qed.
Lemma hash_list_types : Forall (fun t => t = alert_type \/ (mt_id t <> "Alert" /\ mt_command t <> "alert" /\
  (forall k ft, In (k, ft) (mt_props t) -> plain ft = true \/ In (mt_command t, k) hash_lists /\ exists a b, ft = FArray (FBytes 32) a b) /\
  (forall k, In (mt_command t, k) hash_lists -> exists a b, In (k, FArray (FBytes 32) a b) (mt_props t)))) registry.
Proof.
  rewrite registry_all. let t := eval vm_compute in all_types in change all_types with t.
  repeat (constructor; [first [left; reflexivity |
    right; split; [cbn; discriminate|split; [cbn; discriminate|split;
      [cbn [mt_props mt_command]; intros k ft I; repeat (destruct I as [E|I]; [injection E as <- <-; first [left; reflexivity|right; split; [cbn; tauto|eauto]]|]); contradiction
      |cbn [mt_props mt_command]; intros k I; repeat (destruct I as [E|I]; [first [discriminate|injection E as <-; eexists; eexists; repeat (first [left; reflexivity|right])]|]); contradiction]]]]|]). constructor.
Qed.
Lemma bytes_items l : Forall (shaped (FBytes 32)) l -> sequence (map hexlify_ok l) = Ok (repeat tt (List.length l)).
Proof. induction 1 as [|x l (s & -> & _) _ IH]; [reflexivity|]. cbn. now rewrite IH. Qed.
Lemma bytes_array a b v : shaped (FArray (FBytes 32) a b) v -> (str_ft (FArray (FBytes 32) a b) v = Ok tt <-> items_of (Some v) = []).
Proof.
  intros (l & El & S). assert (sequence (map (str_ft (FBytes 32)) l) = Ok (repeat tt (List.length l))) as Q by exact (bytes_items l S).
  cbn [str_ft]. cbn [str_ft] in Q. destruct El as [->| ->]; rewrite Q; cbn [bind]; destruct l; cbn; split; intro; first [reflexivity|discriminate].
Qed.
Lemma wf_fts_in ps : wf_fts ps -> forall k t, In (k, t) ps -> wf_ft t.
Proof. induction ps as [|(k', t') r IH]; intros W k t I; [contradiction|]. destruct W as (W1 & W2). destruct I as [E|I]; [now injection E as <- <-|eauto]. Qed.
Lemma NoDup_fun {A} (ps : list (string * A)) k x y : NoDup (map fst ps) -> In (k, x) ps -> In (k, y) ps -> x = y.
Proof.
  induction ps as [|(k', z) r IH]; intros N I J; [contradiction|]. cbn in N. apply NoDup_cons_iff in N. destruct N as (N1 & N2).
  destruct I as [E|I], J as [F|J].
  - congruence.
  - injection E as -> ->. exfalso. apply N1. apply in_map_iff. exists (k, y). auto.
  - injection F as -> ->. exfalso. apply N1. apply in_map_iff. exists (k, x). auto.
  - eauto.
Qed.
Lemma protocol_iff m : In (m_type m) registry -> shaped_fields (mt_props (m_type m)) (m_fields m) ->
  (msg_str m = Ok tt <-> shows_protocol m).
Proof.
  intros R S. unfold shows_protocol, command_in, msg_str, value_of. destruct m as [t fs]. cbn [m_type m_fields] in *.
  pose proof hash_list_types as P. rewrite Forall_forall in P. destruct (registry_wf t R) as (W1 & W2 & _).
  destruct (P t R) as [->|(A & A' & B & C)].
  - cbn [mt_id mt_command alert_type String.eqb Ascii.eqb Bool.eqb]. rewrite (alert_str_iff fs S). split.
    + intro H. split; [intros k I; repeat (destruct I as [?|I]; [discriminate|]); contradiction|auto].
    + intros (_ & H). apply H. now left.
  - apply String.eqb_neq in A. rewrite A. rewrite str_fields_iff. split.
    + intro H. split; [|intros [H'|[]]; exfalso; apply A'; auto].
      intros k I. destruct (C k I) as (a & b & J). destruct (shaped_assoc _ W2 fs k _ S J) as (v & E & Sv). rewrite E.
      destruct (H k _ J) as (v' & E' & Q). rewrite E in E'. injection E' as <-. now apply (bytes_array a b v Sv).
    + intros (H & _) k ft I. destruct (shaped_assoc _ W2 fs k _ S I) as (v & E & Sv). exists v. split; [exact E|].
      destruct (B k ft I) as [Pl|(J & a & b & ->)].
      * apply str_ok; auto. exact (wf_fts_in _ W1 k ft I).
      * apply (bytes_array a b v Sv). rewrite <- E. now apply H.
Qed.

Lemma get_field ps fs k t : NoDup (map fst ps) -> shaped_fields ps fs -> In (k, t) ps -> exists v, prop k fs = Ok v /\ assoc k fs = Some v /\ shaped t v.
Proof. intros N S I. destruct (shaped_assoc ps N fs k t S I) as (v & E & Sv). exists v. unfold prop. rewrite E. auto. Qed.
Lemma dv_simple t v : match t with FNumber _ _ _ | FVarStr => True | _ => False end -> shaped t v -> debug_param v = Ok tt.
Proof. destruct t; try contradiction; intros _ S; cbn in S; destruct v; try contradiction; reflexivity. Qed.
Lemma dp_array t a b v : shaped (FArray t a b) v -> (forall x, shaped t x -> debug_value x = Ok tt) -> debug_param v = Ok tt.
Proof.
  intros (l & El & S) H. destruct l as [|x l]; [destruct El as [->| ->]; reflexivity|].
  apply Forall_inv in S. destruct El as [->| ->]; cbn; auto.
Qed.
Lemma dp_array_iff t a b v : shaped (FArray t a b) v -> (forall x, shaped t x -> (debug_value x = Ok tt <-> serialisable t x)) ->
  (debug_param v = Ok tt <-> forall x r, items_of (Some v) = x :: r -> serialisable t x).
Proof.
  intros (l & El & S) H. destruct l as [|x l].
  - destruct El as [->| ->]; (split; [intros _ x r E; discriminate|reflexivity]).
  - apply Forall_inv in S. specialize (H x S). destruct El as [->| ->]; cbn [debug_param items_of];
      (split; [intros Q y r E; injection E as <- <-; tauto|intro Q; apply H; eauto]).
Qed.
Lemma dv_address x : shaped FtNetworkAddress x -> debug_value x = Ok tt.
Proof.
  intro S. apply shaped_compound in S. destruct S as (fs & -> & S). cbn [debug_value String.eqb Ascii.eqb Bool.eqb].
  assert (NoDup (map fst NetworkAddress_props)) as N by (repeat constructor; cbn; intuition discriminate).
  destruct (get_field _ fs "address" FIP N S ltac:(cbn; tauto)) as (a & -> & _).
  destruct (get_field _ fs "port" (FNumber FH true false) N S ltac:(cbn; tauto)) as (p & -> & _ & T).
  cbn [bind]. cbn in T. destruct p; try contradiction; reflexivity.
Qed.
Lemma dv_inventory x : shaped FtInventoryVector x -> debug_value x = Ok tt.
Proof.
  intro S. apply shaped_compound in S. destruct S as (fs & -> & S). cbn [debug_value String.eqb Ascii.eqb Bool.eqb].
  assert (NoDup (map fst InventoryVector_props)) as N by (repeat constructor; cbn; intuition discriminate).
  destruct (get_field _ fs "object_type" (FNumber FI false false) N S ltac:(cbn; tauto)) as (a & -> & _ & T).
  destruct (get_field _ fs "hash" (FBytes 32) N S ltac:(cbn; tauto)) as (p & -> & _ & s & -> & _).
  cbn [bind]. cbn in T. destruct a; try contradiction.
  - replace (z <? -3) with false by (symmetry; apply Z.ltb_ge; lia). rewrite andb_false_r. reflexivity.
  - reflexivity.
  - destruct T as (T & _). discriminate.
Qed.
Lemma dv_txnin x : shaped FtTxnIn x -> debug_value x = Ok tt.
Proof.
  intro S. apply shaped_compound in S. destruct S as (fs & -> & S). cbn [debug_value String.eqb Ascii.eqb Bool.eqb].
  apply str_fields_ok; auto.
  - apply Forall_forall. intros e _. apply str_ok.
  - cbn. repeat split; try lia; repeat constructor; cbn; intuition discriminate.
  - repeat constructor; cbn; intuition discriminate.
Qed.
Lemma dv_txnout x : shaped FtTxnOut x -> debug_value x = Ok tt.
Proof.
  intro S. apply shaped_compound in S. destruct S as (fs & -> & S). cbn [debug_value String.eqb Ascii.eqb Bool.eqb].
  apply str_fields_ok; auto.
  - apply Forall_forall. intros e _. apply str_ok.
  - cbn. repeat split; try lia; repeat constructor; cbn; intuition discriminate.
  - repeat constructor; cbn; intuition discriminate.
Qed.
Lemma dv_txn x : shaped FtTxn x -> (debug_value x = Ok tt <-> serialisable FtTxn x).
Proof.
  intro S. apply shaped_compound in S. destruct S as (fs & -> & S). cbn [debug_value String.eqb Ascii.eqb Bool.eqb].
  unfold serialisable, FtTxn. rewrite binary_compound. destruct (fields_binary Txn_props fs); cbn; split; [eauto|reflexivity|discriminate|intros (b & H); discriminate].
Qed.
Lemma dv_header x : shaped FtBlockHeader x -> (debug_value x = Ok tt <-> serialisable FtBlockHeader x).
Proof.
  intro S. apply shaped_compound in S. destruct S as (fs & -> & S). cbn [debug_value String.eqb Ascii.eqb Bool.eqb].
  unfold serialisable, FtBlockHeader. rewrite binary_compound. destruct (fields_binary BlockHeader_props fs); cbn; split; [eauto|reflexivity|discriminate|intros (b & H); discriminate].
Qed.
Definition block_props : list (string * ft) :=
  [ ("version", FNumber FI false false); ("prev_block", FBytes 32); ("merkle_root", FBytes 32); ("timestamp", FNumber FI false true);
    ("bits", FNumber FI false false); ("nonce", FNumber FI false false); ("txns", FArray FtTxn None None) ].
Lemma pack_int_ok v : shaped (FNumber FI false false) v -> exists b, pack_int v = Ok b.
Proof.
  cbn [shaped wt]. destruct v; try contradiction; cbn [pack_int].
  - intro H. rewrite struct_pack_in by exact H. eauto.
  - intros _. destruct b; cbn; eauto.
  - intros (H & _). discriminate.
Qed.
Lemma pack_float_iff v : shaped (FNumber FI false true) v -> ((exists b, pack_int v = Ok b) <-> forall x, Some v <> Some (VFloat x)).
Proof.
  cbn [shaped wt]. destruct v; try contradiction; cbn [pack_int].
  - intro H. rewrite struct_pack_in by exact H. split; [intros _ x; discriminate|eauto].
  - intros _. split; [intros _ x; discriminate|]. destruct b; cbn; eauto.
  - intros _. split; [intros (b & H); discriminate|]. intro H. exfalso. exact (H f eq_refl).
Qed.
Lemma header_iff fs : shaped_fields block_props fs -> ((exists b, debug_header fs = Ok b) <-> forall x, assoc "timestamp" fs <> Some (VFloat x)).
Proof.
  intro S. assert (NoDup (map fst block_props)) as N by (repeat constructor; cbn; intuition discriminate).
  destruct (get_field _ fs "version" (FNumber FI false false) N S ltac:(cbn; tauto)) as (v1 & E1 & _ & S1).
  destruct (get_field _ fs "prev_block" (FBytes 32) N S ltac:(cbn; tauto)) as (v2 & E2 & _ & s2 & -> & _).
  destruct (get_field _ fs "merkle_root" (FBytes 32) N S ltac:(cbn; tauto)) as (v3 & E3 & _ & s3 & -> & _).
  destruct (get_field _ fs "timestamp" (FNumber FI false true) N S ltac:(cbn; tauto)) as (v4 & E4 & A4 & S4).
  destruct (get_field _ fs "bits" (FNumber FI false false) N S ltac:(cbn; tauto)) as (v5 & E5 & _ & S5).
  destruct (get_field _ fs "nonce" (FNumber FI false false) N S ltac:(cbn; tauto)) as (v6 & E6 & _ & S6).
  destruct (pack_int_ok v1 S1) as (b1 & P1). destruct (pack_int_ok v5 S5) as (b5 & P5). destruct (pack_int_ok v6 S6) as (b6 & P6).
  rewrite A4, <- (pack_float_iff v4 S4). unfold debug_header. rewrite E1, E2, E3, E4, E5, E6. cbn [bind]. rewrite P1. cbn [bind pack_bytes]. 
  destruct (pack_int v4); cbn [bind].
  - rewrite P5. cbn [bind]. rewrite P6. cbn [bind]. split; eauto.
  - split; intros (b & H); discriminate.
Qed.
Definition other_command (t : msg_type) : Prop := ~ In (mt_command t) ["block"; "headers"; "alert"].
Lemma shows_other m : other_command (m_type m) -> shows_debug m.
Proof. unfold other_command, shows_debug, command_in. cbn [In]. intro H. split; [|split]; (intros [E|[]]; exfalso; apply H; auto). Qed.
Ltac nodup := repeat constructor; cbn; intuition discriminate.
Lemma debug_iff m : In (m_type m) registry -> shaped_fields (mt_props (m_type m)) (m_fields m) ->
  (msg_debug m = Ok tt <-> shows_debug m).
Proof.
  destruct m as [t fs]. cbn [m_type m_fields]. intros R S.
  destruct (in_dec string_dec (mt_command t) ["block"; "headers"; "alert"]) as [I|I].
  - rewrite registry_all in R. revert R. let l := eval vm_compute in all_types in change all_types with l.
    intro R. repeat (destruct R as [<-|R]; [try (exfalso; cbn in I; intuition discriminate)|]); try contradiction; clear I; cbn [mt_props] in S.
    + (* block *) change (shaped_fields block_props fs) in S. unfold msg_debug. cbn [m_fields m_type mt_id existsb String.eqb Ascii.eqb Bool.eqb orb debug_params].
      destruct (get_field block_props fs "txns" (FArray FtTxn None None) ltac:(nodup) S ltac:(cbn; tauto)) as (v & E & A & Sv).
      pose proof (header_iff fs S) as HH. rewrite E. pose proof (dp_array_iff _ _ _ v Sv dv_txn) as HA. rewrite <- A in HA.
      unfold shows_debug, command_in, value_of. cbn [m_fields m_type mt_command In]. cbn [bind].
      destruct (debug_header fs) as [b|] eqn:D; cbn [bind].
      * split.
        -- intro H. split; [|split; intros [H0|[]]; discriminate]. intros _. split; [apply HH; eauto|]. apply HA. destruct (debug_param v) as [[]|]; [reflexivity|discriminate].
        -- intros (H & _). destruct (H (or_introl eq_refl)) as (_ & H'). apply HA in H'. rewrite H'. reflexivity.
      * split; [discriminate|]. intros (H & _). destruct (H (or_introl eq_refl)) as (H' & _). apply HH in H'. destruct H' as (b & H'). discriminate.
    + (* headers *) unfold msg_debug. cbn [m_fields m_type mt_id existsb String.eqb Ascii.eqb Bool.eqb orb debug_params].
      destruct (get_field [("headers", FArray FtBlockHeader None None)] fs "headers" (FArray FtBlockHeader None None) ltac:(nodup) S ltac:(cbn; tauto)) as (v & E & A & Sv). rewrite E. cbn [bind].
      pose proof (dp_array_iff _ _ _ v Sv dv_header) as HA. rewrite <- A in HA.
      unfold shows_debug, command_in, value_of. cbn [m_fields m_type mt_command In]. split.
      * intro H. split; [intros [H0|[]]; discriminate|]. split; [|intros [H0|[]]; discriminate]. intros _. apply HA. destruct (debug_param v) as [[]|]; [reflexivity|discriminate].
      * intros (_ & H & _). specialize (H (or_introl eq_refl)). apply HA in H. now rewrite H.
    + (* alert *) change (shaped_fields (mt_props alert_type) fs) in S. unfold msg_debug. cbn [m_fields m_type mt_id existsb String.eqb Ascii.eqb Bool.eqb orb].
      rewrite (alert_debug_iff fs S). unfold shows_debug, command_in. cbn [m_type mt_command In]. split.
      * intro H. split; [intros [H0|[]]; discriminate|]. split; [intros [H0|[]]; discriminate|]. intros _. exact H.
      * intros (_ & _ & H). apply H. auto.
  - split; [intros _; now apply shows_other|]. intros _. rewrite registry_all in R. revert R. let l := eval vm_compute in all_types in change all_types with l.
    intro R. repeat (destruct R as [<-|R]; [try (exfalso; cbn in I; intuition discriminate)|]); try contradiction; clear I; cbn [mt_props] in S;
      unfold msg_debug; cbn [m_fields m_type mt_id existsb String.eqb Ascii.eqb Bool.eqb orb debug_params];
      try reflexivity;
      try (repeat match goal with |- context [prop ?k fs] =>
             match type of S with shaped_fields ?ps fs =>
               let t := eval cbv in (match assoc k ps with Some t => t | None => FVarInt end) in
               destruct (get_field ps fs k t ltac:(nodup) S ltac:(cbv; tauto)) as (? & -> & _ & ?) end end; cbn [bind]).
    all: repeat match goal with H : shaped ?t ?x |- context [debug_param ?x] =>
      first [rewrite (dv_simple t x I H) | rewrite (dp_array _ _ _ x H dv_address) | rewrite (dp_array _ _ _ x H dv_inventory)
           | rewrite (dp_array _ _ _ x H dv_txnin) | rewrite (dp_array _ _ _ x H dv_txnout)]; cbn [bind] end; try reflexivity.
    all: match goal with H : shaped _ ?x |- _ => destruct H as (s & H & H') end; try (destruct H as [->| ->]); try subst; try reflexivity.
    all: rewrite (bytes_items s H'); reflexivity.
Qed.

Lemma log_iff level m : In (m_type m) registry -> shaped_fields (mt_props (m_type m)) (m_fields m) ->
  (log_message level m = Ok tt <-> shows level m).
Proof.
  intros R S. unfold log_message, shows, LOG_LEVEL_PROTOCOL, LOG_LEVEL_DEBUG.
  destruct (Z.leb_spec level 0); [|destruct (Z.leb_spec level 1)].
  - rewrite (protocol_iff m R S). split; [intro Q; split; [auto|lia]|intros (Q & _); auto].
  - rewrite (debug_iff m R S). assert (level = 1) as -> by lia. split; [intro Q; split; [lia|auto]|intros (_ & Q); auto].
  - split; [intros _; split; lia|reflexivity].
Qed.

(** *** The theorems *)

(** Messages built by a program: at a log level, the rendering succeeds exactly
    for the messages that [shows] describes. *)
Theorem C105_built : forall t args kw m level,
  In t registry -> Forall built args -> Forall built (map snd kw) -> new_message t args kw = Ok m ->
  (log_message level m = Ok tt <-> shows level m).
Proof.
  intros t args kw m level R A K H. destruct (new_message_wt t args kw m R A K H) as (E & W & _). apply log_iff; rewrite E; [exact R|].
  eapply wt_shaped_fields; [|exact W]. apply Forall_forall. intros e _. apply wt_shaped.
Qed.
(** Messages received from a peer. *)
Theorem C105_received : forall sha256 data magic m level,
  wf_bytes data -> msg_parse sha256 data magic = Ok m -> (log_message level m = Ok tt <-> shows level m).
Proof. intros sha data magic m level W H. destruct (message_back sha data magic m W H) as (R & S & _). now apply log_iff. Qed.

(** Whatever is shown is sent and handled as at the default level. *)
Theorem C105_send_partial : forall sha256 cf level i m n, log_message level m = Ok tt ->
  send_logged sha256 cf level i m n = send_message sha256 cf i m n.
Proof. intros sha cf level i m n H. unfold send_logged, bindM, liftM. now rewrite H. Qed.
Theorem C105_handle_partial : forall sha256 py2 cf level i m now n, log_message level m = Ok tt ->
  handle_logged sha256 py2 cf level i m now n = handle_message sha256 py2 cf i m now n.
Proof. intros sha py2 cf level i m now n H. unfold handle_logged, bindM, liftM. now rewrite H. Qed.

(** Every message of the other commands, at every level: in particular those a
    node sends on its own (version, verack, ping, pong, getaddr, addr). *)
Definition quiet_commands : list string :=
  ["version"; "verack"; "addr"; "inv"; "getdata"; "notfound"; "tx"; "getaddr"; "mempool"; "ping"; "pong"; "reject"].
Lemma quiet_shows level m : In (mt_command (m_type m)) quiet_commands -> shows level m.
Proof.
  intro Q. unfold shows, shows_protocol, shows_debug, command_in. destruct m as [t fs]. cbn [m_type] in *.
  assert (forall c, In c ["getblocks"; "getheaders"; "merkleblock"; "alert"; "block"; "headers"] -> mt_command t <> c) as Ne.
  { intros c Hc E. rewrite E in Q. unfold quiet_commands in Q. cbn [In] in Q, Hc.
    repeat (destruct Hc as [<-|Hc]; [repeat (destruct Q as [Q|Q]; [discriminate|]); contradiction|]). contradiction. }
  split; intros _.
  - split; [|intros [H|[]]; exfalso; revert H; intro H; symmetry in H; revert H; apply Ne; cbn; tauto].
    intros k I. exfalso. unfold hash_lists in I. cbn [In] in I.
    repeat (destruct I as [I|I]; [injection I as I _; symmetry in I; revert I; apply Ne; cbn; tauto|]). contradiction.
  - split; [|split]; intros [H|[]]; exfalso; symmetry in H; revert H; apply Ne; cbn; tauto.
Qed.
Theorem C105_quiet : forall sha256 py2 cf t args kw m level i now n,
  In t registry -> In (mt_command t) quiet_commands ->
  Forall built args -> Forall built (map snd kw) -> new_message t args kw = Ok m ->
  send_logged sha256 cf level i m n = send_message sha256 cf i m n /\
  handle_logged sha256 py2 cf level i m now n = handle_message sha256 py2 cf i m now n.
Proof.
  intros sha py2 cf t args kw m level i now n R Q A K H.
  assert (log_message level m = Ok tt) as L.
  { apply (C105_built t args kw m level R A K H). apply quiet_shows. destruct (new_message_wt t args kw m R A K H) as (-> & _). exact Q. }
  split; [now apply C105_send_partial|now apply C105_handle_partial].
Qed.
Lemma binary_in ps fs b : fields_binary ps fs = Ok b -> forall k t, In (k, t) ps -> exists v b', assoc k fs = Some v /\ binary t v = Ok b'.
Proof.
  revert b. induction ps as [|(k0, t0) r IH]; intros b H k t I; [contradiction|]. cbn [fields_binary] in H.
  destruct (assoc k0 fs) as [x|] eqn:E; [|discriminate]. bind_inv H. bind_inv H.
  destruct I as [J|I]; [injection J as <- <-; eauto|eauto].
Qed.
Lemma first_ok t a b v bin : binary (FArray t a b) v = Ok bin -> forall x r, items_of (Some v) = x :: r -> serialisable t x.
Proof.
  cbn [binary]. intros H x r E.
  assert (exists l, l = x :: r /\ exists n items, (let! n := n in let! items := items in Ok (n ++ concat items)) = Ok bin /\ items = sequence (map (binary t) l)) as (l & -> & n & items & Q & Ei).
  { destruct v; try discriminate; cbn [items_of] in E; subst l; eauto 8. }
  destruct n; [|discriminate]. cbn [bind] in Q. destruct items as [items|]; [|discriminate]. symmetry in Ei. cbn [map sequence] in Ei.
  bind_inv Ei. exists x0. exact H0.
Qed.
(** A message received from a peer, at level DEBUG: all but alerts; at level
    PROTOCOL: all but alerts and lists of hashes. *)
Theorem C105_received_partial : forall sha256 py2 cf data m level i now n,
  wf_bytes data -> msg_parse sha256 data (cf_magic cf) = Ok m -> mt_command (m_type m) <> "alert" ->
  (level <= 0 -> ~ In (mt_command (m_type m)) ["getblocks"; "getheaders"; "merkleblock"]) ->
  handle_logged sha256 py2 cf level i m now n = handle_message sha256 py2 cf i m now n.
Proof.
  intros sha py2 cf data m level i now n W H Na Nl. apply C105_handle_partial. apply (C105_received sha data _ m level W H).
  destruct (message_back sha data _ m W H) as (R & _ & b & B). apply msg_parse_inv in H. destruct H as (_ & _ & _ & _ & _ & nn & P).
  unfold shows, shows_protocol, shows_debug, command_in, value_of. split.
  - intro L. specialize (Nl L). split; [|intros [E|[]]; congruence]. intros k I. exfalso. apply Nl. unfold hash_lists in I. cbn [In] in *.
    repeat (destruct I as [I|I]; [injection I as I _; rewrite I in *; auto|]). contradiction.
  - intros _. clear Nl. assert (forall c, mt_command (m_type m) = c -> In c ["block"; "headers"] -> 
      (c = "block" /\ mt_props (m_type m) = block_props) \/ (c = "headers" /\ mt_props (m_type m) = [("headers", FArray FtBlockHeader None None)])) as T.
    { clear - R. rewrite registry_all in R. revert R. generalize (m_type m). intro t. let l := eval vm_compute in all_types in change all_types with l. intros R c <- I.
      repeat (destruct R as [<-|R]; [first [left; split; reflexivity|right; split; reflexivity|(exfalso; cbn in I; intuition discriminate)]|]). contradiction. }
    split; [|split; [|intros [E|[]]; congruence]].
    + intros [E|[]]. destruct (T "block" (eq_sym E) ltac:(cbn; auto)) as [(_ & Ep)|(? & _)]; [|discriminate]. rewrite Ep in *. split.
      * intros x Hx. destruct (NodeProofs7.fields_parse_assoc _ _ _ _ _ P "timestamp" (FNumber FI false true) eq_refl) as (d & l & y & Py & Ey).
        rewrite Hx in Ey. injection Ey as <-. cbn [parse] in Py. unfold num_parse in Py. bind_inv Py. discriminate.
      * destruct (binary_in _ _ _ B "txns" (FArray FtTxn None None) ltac:(cbn; tauto)) as (v & b' & Ev & Bv). rewrite Ev. exact (first_ok _ _ _ v b' Bv).
    + intros [E|[]]. destruct (T "headers" (eq_sym E) ltac:(cbn; auto)) as [(? & _)|(_ & Ep)]; [discriminate|]. rewrite Ep in *.
      destruct (binary_in _ _ _ B "headers" (FArray FtBlockHeader None None) ltac:(cbn; tauto)) as (v & b' & Ev & Bv). rewrite Ev. exact (first_ok _ _ _ v b' Bv).
Qed.

(** What changes with the level (Python 3).  Every getblocks or getheaders
    message that a program can build fails to be sent at level PROTOCOL. *)
Theorem C105_locators_refuted : forall sha256 cf t args kw m i n,
  In t registry -> mt_command t = "getblocks" \/ mt_command t = "getheaders" ->
  Forall built args -> Forall built (map snd kw) -> new_message t args kw = Ok m ->
  exists e, send_logged sha256 cf LOG_LEVEL_PROTOCOL i m n = (n, Raise e).
Proof.
  intros sha cf t args kw m i n R C A K H. destruct (new_message_wt t args kw m R A K H) as (E & W & B).
  unfold send_logged, bindM, liftM. destruct (log_message LOG_LEVEL_PROTOCOL m) as [[]|e] eqn:L; [|eauto]. exfalso.
  apply (C105_built t args kw m LOG_LEVEL_PROTOCOL R A K H) in L. destruct L as (L & _). destruct (L ltac:(discriminate)) as (Q & _). clear L.
  assert (mt_props t = [ ("version", FNumber FI false false); ("block_locator_hashes", FArray (FBytes 32) (Some 1) None); ("hash_stop", FBytes 32) ]) as Ep.
  { clear - R C. rewrite registry_all in R. revert R C. let l := eval vm_compute in all_types in change all_types with l. intros R C.
    repeat (destruct R as [<-|R]; [first [reflexivity|(exfalso; cbn in C; destruct C; discriminate)]|]). contradiction. }
  rewrite Ep in W, B. specialize (Q "block_locator_hashes"). rewrite E in Q. unfold value_of in Q.
  destruct (m_fields m) as [|(k1, v1) [|(k2, v2) [|(k3, v3) [|? ?]]]]; try (cbn in W; tauto).
  cbn in W. destruct W as (-> & _ & -> & W2 & _). cbn [bounds_ok_fields bounds_ok] in B. destruct B as (_ & B2 & _).
  assert (items_of (Some v2) = []) as Z. { apply Q. cbn [In hash_lists]. destruct C as [-> | ->]; auto. }
  destruct v2; try contradiction; cbn [items_of] in Z; subst l; destruct B2 as (_ & B2 & _); specialize (B2 1 eq_refl); cbn in B2; lia.
Qed.
(** At level DEBUG a block with a fractional timestamp, at level PROTOCOL an
    alert that names client versions: sent at the default level only. *)
Definition lx_block : res message :=
  new_message (type_of "Block") [VInt 1; VBytes (repeat 7 32); VBytes (repeat 8 32); VFloat (FFin 3 (-1)); VInt 5; VInt 6; VList []] [].
Definition lx_alert : res message :=
  let! payload := fields_binary alert_props ex_alert in new_message (type_of "Alert") [VBytes payload; VBytes [1; 2; 3]] [].
Theorem C105_level_refuted :
  (exists m b, lx_block = Ok m /\ msg_binary nx_sha m nx_magic = Ok b /\
     send_message nx_sha nx_cf 0 m nx_one = (queue 0 m b nx_one, Ok tt) /\
     send_logged nx_sha nx_cf LOG_LEVEL_DEBUG 0 m nx_one = (nx_one, Raise StructError)) /\
  (exists m b, lx_alert = Ok m /\ msg_binary nx_sha m nx_magic = Ok b /\
     send_logged nx_sha nx_cf LOG_LEVEL_DEBUG 0 m nx_one = (queue 0 m b nx_one, Ok tt) /\
     send_logged nx_sha nx_cf LOG_LEVEL_PROTOCOL 0 m nx_one = (nx_one, Raise TypeError)).
Proof.
  split.
  - do 2 eexists. split; [vm_compute; reflexivity|]. split; [vm_compute; reflexivity|]. split; vm_compute; reflexivity.
  - do 2 eexists. split; [vm_compute; reflexivity|]. split; [vm_compute; reflexivity|]. split; vm_compute; reflexivity.
Qed.
Example C105_applies : exists m, new_message (type_of "Ping") [VBytes [1;2;3;4;5;6;7;8]] [] = Ok m /\
  In (type_of "Ping") registry /\ In (mt_command (type_of "Ping")) quiet_commands /\
  (exists m', msg_parse nx_sha (nx_frame "GetHeaders" [VInt 1; VList [VBytes (repeat 7 32)]; VBytes (repeat 0 32)]) nx_magic = Ok m' /\
     log_message LOG_LEVEL_DEBUG m' = Ok tt /\ log_message LOG_LEVEL_PROTOCOL m' = Raise TypeError).
Proof.
  eexists. split; [vm_compute; reflexivity|]. split; [vm_compute; tauto|]. split; [vm_compute; tauto|].
  eexists. split; [vm_compute; reflexivity|]. split; vm_compute; reflexivity.
Qed.

(** ** C106: received messages can be sent on *)

(** A message accepted from the network can be serialised again, as long as it
    stays below 4 GiB. *)
Theorem C106_serialisable : forall sha256 data magic m magic',
  wf_bytes data -> msg_parse sha256 data magic = Ok m ->
  exists payload, fields_binary (mt_props (m_type m)) (m_fields m) = Ok payload /\
    (zlen payload < 2 ^ 32 -> exists b, msg_binary sha256 m magic' = Ok b).
Proof.
  intros sha data magic m magic' W H. destruct (message_back sha data magic m W H) as (_ & _ & p & P). exists p. split; [exact P|].
  intro L. unfold msg_binary. rewrite P. cbn [bind]. rewrite struct_pack_in; [cbn; eauto|]. pose proof (zlen_nonneg p). cbn. lia.
Qed.
(** The next node sees the same message: every field equal.  Hypotheses: the
    payload was not shorter than its fields, transaction counts of headers stay
    below 2^32-1 (C02), and the message is no [version] (see below). *)
Theorem C106_relay_partial : forall sha256, (forall x, 4 <= zlen (sha256 x)) -> forall data magic m magic' b n,
  wf_bytes data -> msg_parse sha256 data magic = Ok m ->
  fields_parse (mt_props (m_type m)) 0 (slice 24 (24 + le_val (slice 16 20 data)) data) = Ok (n, m_fields m) ->
  n <= zlen (slice 24 (24 + le_val (slice 16 20 data)) data) ->
  ok_varints_fields 0xffffffff (mt_props (m_type m)) (m_fields m) -> mt_command (m_type m) <> "version" ->
  zlen magic' = 4 -> msg_binary sha256 m magic' = Ok b ->
  forall rest, msg_parse sha256 (b ++ rest) magic' = Ok m.
Proof.
  intros sha Hs data magic m magic' b n W H P L V Nv Hm B rest.
  destruct (C04_parsed_well_typed_partial sha data magic m W H) as (n' & P' & _ & T). rewrite P in P'. injection P' as <-. specialize (T L).
  pose proof H as H'. apply msg_parse_inv in H'. destruct H' as (_ & _ & _ & R & _).
  destruct (registry_wf _ R) as (W1 & W2 & _).
  destruct (msg_binary_frame sha m magic' b R Hm B) as (p & len & Hp & Hl & ->).
  rewrite <- !app_assoc. rewrite (msg_parse_frame sha Hs (m_type m) magic' p len rest R Hm Hl).
  pose proof (fields_roundtrip _ _ _ W1 W2 T Hp) as Q. apply struct_pack_ok in Hl. cbn in Hl. specialize (Q ltac:(lia) V []).
  rewrite app_nil_r in Q. rewrite Q. cbn [bind].
  assert (canon_fields (mt_props (m_type m)) (m_fields m) = m_fields m) as ->; [|now destruct m].
  refine (fields_stable _ _ W1 _ _ 0 n _ _ P).
  - apply Forall_forall. intros e _. apply parse_stable.
  - clear - R Nv. revert R Nv. generalize (m_type m). intros t R Nv. rewrite registry_all in R. revert R. let l := eval vm_compute in all_types in change all_types with l. intro R.
    repeat (destruct R as [<-|R]; [first [reflexivity|(exfalso; apply Nv; reflexivity)]|]). contradiction.
  - now apply Forall_slice.
Qed.
(** A version message without the optional last byte stands for [relay = True]
    and is sent on with that byte. *)
Definition lx_version : bytes :=
  le_bytes 4 70001 ++ le_bytes 8 1 ++ le_bytes 8 5 ++ repeat 0 26 ++ repeat 0 26 ++ repeat 9 8 ++ [3; 97; 98; 99] ++ le_bytes 4 7.
Definition lx_short : bytes := nx_magic ++ pad_command (bs "version") ++ le_bytes 4 (zlen lx_version) ++ ztake 4 (nx_sha (nx_sha lx_version)) ++ lx_version.
Theorem C106_version_refuted : exists m b m', msg_parse nx_sha lx_short nx_magic = Ok m /\ msg_binary nx_sha m nx_magic = Ok b /\
  msg_parse nx_sha b nx_magic = Ok m' /\ zlen b = zlen lx_short + 1 /\ m' <> m /\
  value_of m "relay" = Some (VBool true) /\ value_of m' "relay" = Some (VInt 1).
Proof.
  do 3 eexists. split; [vm_compute; reflexivity|]. split; [vm_compute; reflexivity|]. split; [vm_compute; reflexivity|]. split; [reflexivity|].
  split; [intro H; apply (f_equal (fun m => value_of m "relay")) in H; vm_compute in H; discriminate|]. split; reflexivity.
Qed.
(** A header list whose transaction count is 2^32-1 arrives, but does not
    survive being sent on. *)
Definition lx_count : bytes := [1] ++ repeat 0 80 ++ [0xfe; 255; 255; 255; 255].
Definition lx_headers : bytes := nx_magic ++ pad_command (bs "headers") ++ le_bytes 4 (zlen lx_count) ++ ztake 4 (nx_sha (nx_sha lx_count)) ++ lx_count.
Theorem C106_count_refuted : exists m b m', msg_parse nx_sha lx_headers nx_magic = Ok m /\ msg_binary nx_sha m nx_magic = Ok b /\
  msg_parse nx_sha b nx_magic = Ok m' /\ m' <> m.
Proof.
  do 3 eexists. split; [vm_compute; reflexivity|]. split; [vm_compute; reflexivity|]. split; [vm_compute; reflexivity|].
  intro H. apply (f_equal m_fields) in H. vm_compute in H. discriminate.
Qed.
Example C106_applies : let data := nx_addrs 1 3 in exists m b, wf_bytes data /\ msg_parse nx_sha data nx_magic = Ok m /\
  fields_parse (mt_props (m_type m)) 0 (slice 24 (24 + le_val (slice 16 20 data)) data) = Ok (91, m_fields m) /\
  91 <= zlen (slice 24 (24 + le_val (slice 16 20 data)) data) /\ ok_varints_fields 0xffffffff (mt_props (m_type m)) (m_fields m) /\
  msg_binary nx_sha m ex_magic = Ok b /\ msg_parse nx_sha b ex_magic = Ok m.
Proof.
  cbv zeta. do 2 eexists. split; [apply all_bytes_wf; vm_compute; reflexivity|]. split; [vm_compute; reflexivity|].
  split; [vm_compute; reflexivity|]. split; [vm_compute; discriminate|]. split; [apply no_varint_fields; repeat constructor|].
  split; [vm_compute; reflexivity|]. vm_compute. reflexivity.
Qed.

(** ** Assumptions *)

Print Assumptions C105_built.
Print Assumptions C105_received.
Print Assumptions C105_send_partial.
Print Assumptions C105_handle_partial.
Print Assumptions C105_quiet.
Print Assumptions C105_received_partial.
Print Assumptions C105_locators_refuted.
Print Assumptions C105_level_refuted.
Print Assumptions C106_serialisable.
Print Assumptions C106_relay_partial.
Print Assumptions C106_version_refuted.
Print Assumptions C106_count_refuted.
