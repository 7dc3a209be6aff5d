(** C158: a peer cannot forge lines of the log. *)
From Coq Require Import String ZArith List Lia Bool.
From Verif Require Import PyBase PyVal FormatModel FormatSpec FormatProofs FormatProofs2 MessagesModel MessagesProofs AlertProofs UtilModel SeedModel NodeModel LogModel LogProofs TextModel TextProofs PropsProtocol PropsNode PropsLog.
Import ListNotations.
Open Scope string_scope.
Open Scope list_scope.
Open Scope Z_scope.

(** *** Alerts *)
Definition kept (cache : list (string * pyval)) : Prop := cache = [] \/ parsed_fields alert_props cache.
Lemma read_kept fs data cache name v cache' : prop "payload" fs = Ok (VBytes data) -> wf_bytes data -> kept cache ->
  alert_read fs cache name = Ok (v, cache') -> parsed_fields alert_props cache' /\ assoc name cache' = Some v.
Proof.
  intros P W K H. unfold alert_read in H. rewrite P in H. cbn [bind] in H. destruct (alert_get data cache name) as [o c'] eqn:G. bind_inv H. injection H as <- <-. subst o.
  unfold alert_get in G. assert (forall c, parsed_fields alert_props c -> is_nil c = false) as NN by (intros [|? ?] X; [contradiction X|reflexivity]).
  destruct K as [->|K].
  - cbn [is_nil] in G. destruct (alert_fill data) as [d [e|]] eqn:F; [discriminate|]. destruct (fill_complete data d W F) as (n & E).
    assert (parsed_fields alert_props d) as Pd by (refine (fields_parsed alert_props _ data 0 n d W E); apply Forall_forall; intros; apply parse_parsed).
    destruct (assoc name d) eqn:A; [|discriminate]. injection G as <- <-. auto.
  - rewrite (NN _ K) in G. destruct (assoc name cache) eqn:A; [|discriminate]. injection G as <- <-. auto.
Qed.
Lemma values_kept fs data : prop "payload" fs = Ok (VBytes data) -> wf_bytes data -> forall names cache vs cache', kept cache ->
  alert_values fs cache names = Ok (vs, cache') -> kept cache' /\ Forall2 (fun n v => forall t, In (n, t) alert_props -> parsed t v) names vs.
Proof.
  intros P W. induction names as [|n r IH]; intros cache vs cache' K H; cbn [alert_values] in H.
  - injection H as <- <-. split; [exact K|constructor].
  - bind_inv H. destruct x as [v c1]. bind_inv H. destruct x as [vs' c2]. injection H as <- <-.
    destruct (read_kept fs data cache n v c1 P W K H0) as (Pc & A). destruct (IH c1 vs' c2 (or_intror Pc) H1) as (K2 & F). split; [exact K2|]. constructor; [|exact F].
    intros t I. destruct (parsed_assoc alert_props n t I (proj2 alert_props_wf) c1 Pc) as (v' & A' & Pv). congruence.
Qed.
Section Py3.
Variable sha256 : bytes -> bytes.
Hypothesis sha_bytes : forall x, wf_bytes (sha256 x).
Variable odd : pyval -> text.

Lemma alert_neat fs data s : prop "payload" fs = Ok (VBytes data) -> wf_bytes data -> alert_text false odd fs = Ok s -> neat s.
Proof.
  intros P W H. unfold alert_text in H. bind_inv H. destruct x as [nums cache]. bind_inv H. destruct x as [subs cache2]. bind_inv H. bind_inv H. destruct x0 as [rest cache3].
  destruct (values_kept fs data P W _ _ _ _ (or_introl eq_refl) H0) as (K1 & F1).
  destruct (read_kept fs data _ _ _ _ P W K1 H1) as (K2 & A). destruct (values_kept fs data P W _ _ _ _ (or_intror K2) H3) as (_ & F3).
  assert (neat x) as Nx.
  { destruct (parsed_assoc alert_props "set_sub_ver" (FArray FVarStr None None) ltac:(cbn; tauto) (proj2 alert_props_wf) cache2 K2) as (v' & A' & Pv). assert (v' = subs) as -> by congruence.
    destruct Pv as (l & -> & Fl). unfold join_values, join_pieces in H2. destruct (_ && _); [discriminate|]. injection H2 as <-. apply neat_join; [apply neatb_ok; reflexivity|].
    clear - Fl. induction Fl as [|v l (b & -> & Wb) _ IH]; [constructor|]. cbn [map]. constructor; [exact (neat_repr_of false b Wb)|exact IH]. }
  clear H0 H1 H2 H3 K1 A.
  repeat match goal with F : Forall2 _ (_ :: _) _ |- _ => inversion F; clear F; subst | F : Forall2 _ [] _ |- _ => inversion F; clear F; subst end.
  injection H as <-.
  repeat match goal with X : forall t, In (?k, t) alert_props -> parsed t _ |- _ =>
    first [specialize (X (FNumber Fi false false) ltac:(cbn; tauto)) | specialize (X (FNumber Fq false false) ltac:(cbn; tauto)) | specialize (X FVarStr ltac:(cbn; tauto)) | specialize (X (FArray (FNumber Fi false false) None None) ltac:(cbn; tauto))] end.
  repeat match goal with X : parsed (FNumber _ _ _) _ |- _ => let z := fresh "z" in destruct X as (z & ->); pose proof (neat_int z) | X : parsed FVarStr _ |- _ => let b := fresh "b" in let Wb := fresh in destruct X as (b & -> & Wb); apply neat_repr in Wb end.
  match goal with X : parsed (FArray _ _ _) _ |- _ => destruct X as (lc & -> & Fc) end.
  assert (neat (join_text (bs ", ") (map (value_text false odd) lc))) as Nc.
  { apply neat_join; [apply neatb_ok; reflexivity|]. clear - Fc. induction Fc as [|v l (z & ->) _ IH]; [constructor|]. cbn [map]. constructor; [apply neat_int|exact IH]. }
  unfold labelled. cbn [flat_map fst snd value_text repr_text repr_of app]. repeat match goal with X : neat (repr_bytes ?b) |- _ => revert X; generalize (repr_bytes b) end. intros. nt.
Qed.

Lemma registry_names : Forall (fun t => neatb (bs (class_name (mt_id t))) = true /\ nameds (mt_props t) = true) registry.
Proof. rewrite registry_all. let t := eval vm_compute in all_types in change all_types with t. repeat (constructor; [split; vm_compute; reflexivity|]). constructor. Qed.
Lemma registry_alert t : In t registry -> mt_id t = "Alert" -> In ("payload", FVarStr) (mt_props t).
Proof.
  intros I E. rewrite registry_all in I. revert I. let t := eval vm_compute in all_types in change all_types with t. intro I.
  repeat (destruct I as [<-|I]; [try discriminate E; cbn; tauto|]). contradiction.
Qed.
Lemma text_neat m s : In (m_type m) registry -> parsed_fields (mt_props (m_type m)) (m_fields m) -> message_text false odd m = Ok s -> neat s.
Proof.
  intros R P H. destruct (registry_wf _ R) as (W & N & _). pose proof registry_names as G. rewrite Forall_forall in G. destruct (G _ R) as (G1 & G2).
  unfold message_text in H. destruct (String.eqb_spec (mt_id (m_type m)) "Alert") as [E|_].
  - destruct (parsed_assoc _ _ _ (registry_alert _ R E) N _ P) as (v & A & b & -> & Wb). refine (alert_neat _ b s _ Wb H). unfold prop. now rewrite A.
  - exact (compound_neat odd _ _ _ _ W N G1 G2 P H).
Qed.

Lemma registry_parts : wf_fts TxnIn_props /\ wf_fts TxnOut_props.
Proof. split; cbn; repeat split; try lia; try discriminate; try (repeat constructor; cbn; intuition discriminate). Qed.
Lemma entry_txnin mn mx : entry_type sha256 odd (FArray FtTxnIn mn mx).
Proof. apply array_entry. intros v P. exact (show_txnin sha256 odd v (proj1 registry_parts) P). Qed.
Lemma entry_txnout mn mx : entry_type sha256 odd (FArray FtTxnOut mn mx).
Proof. apply array_entry. intros v P. exact (show_txnout sha256 odd v (proj2 registry_parts) P). Qed.
Lemma entry_txn mn mx : entry_type sha256 odd (FArray FtTxn mn mx).
Proof. apply array_entry. intros v P. exact (show_txn sha256 sha_bytes odd v P). Qed.
Lemma entry_header mn mx : entry_type sha256 odd (FArray FtBlockHeader mn mx).
Proof. apply array_entry. intros v P. exact (show_header sha256 sha_bytes odd v P). Qed.
Lemma entry_inventory mn mx : entry_type sha256 odd (FArray FtInventoryVector mn mx).
Proof. apply array_entry. intros v P. exact (show_inventory sha256 odd v P). Qed.
Lemma entry_address mn mx : entry_type sha256 odd (FArray FtNetworkAddress mn mx).
Proof. apply array_entry. intros v P. exact (show_address sha256 odd v P). Qed.

Definition line_of (c : string) (ks : list (string * string)) (fs : list (string * pyval)) : res text :=
  let! params := debug_reads ks fs in debug_line sha256 false odd c params.
Lemma line_of_neat c ks ps fs s : neatb (bs c) = true -> NoDup (map fst ps) -> parsed_fields ps fs ->
  Forall (fun e => neatb (bs (fst e)) = true /\ exists t, In (snd e, t) ps /\ entry_type sha256 odd t) ks -> line_of c ks fs = Ok s -> neat s.
Proof. intros C N P F H. unfold line_of in H. bind_inv H. refine (line_neat sha256 odd c _ s C _ H). exact (reads_neat sha256 odd ps ks fs _ N P F H0). Qed.
Ltac known := (split; [reflexivity|]); eexists; (split; [cbn; tauto|]);
  first [apply number_entry | apply str_entry | apply entry_txnin | apply entry_txnout | apply entry_txn | apply entry_header | apply entry_inventory | apply entry_address].
Ltac lines N P H := match type of H with bind (debug_reads ?ks ?fs) (fun p => debug_line _ _ _ ?c p) = Ok ?s =>
  refine (line_of_neat c ks _ fs s eq_refl N P _ H); repeat (constructor; [known|]); constructor end.
Lemma hexlified_neat l hs : Forall (fun v => exists b, v = VBytes b /\ wf_bytes b) l -> sequence (map hexlify l) = Ok hs -> Forall wf_bytes hs.
Proof.
  intros F. revert hs. induction F as [|v r (b & -> & W) _ IH]; intros hs H; cbn [map sequence hexlify bind] in H; [injection H as <-; constructor|].
  bind_inv H. injection H as <-. constructor; [apply wf_neat; now apply neat_hex|now apply IH].
Qed.
Lemma header_bytes fs h : (forall k v, assoc k fs = Some v -> In k ["prev_block"; "merkle_root"] -> exists b, v = VBytes b /\ wf_bytes b) -> debug_header fs = Ok h -> wf_bytes h.
Proof.
  intros A H.
  assert (forall v b, pack_int v = Ok b -> wf_bytes b) as PI.
  { intros v b E. unfold pack_int in E. destruct v; try discriminate; apply struct_pack_ok in E; destruct E as (_ & ->); apply wf_le_bytes. }
  assert (forall k v b, In k ["prev_block"; "merkle_root"] -> prop k fs = Ok v -> pack_bytes v = Ok b -> wf_bytes b) as PB.
  { intros k v b I E G. unfold prop in E. destruct (assoc k fs) as [x|] eqn:Ak; [|discriminate]. injection E as <-. destruct (A k x Ak I) as (b0 & -> & E). injection G as <-. apply Forall_ztake. apply Forall_app. split; [exact E|]. repeat (constructor; [unfold is_byte; lia|]). constructor. }
  unfold debug_header in H. repeat (bind_inv H). injection H as <-. repeat (apply Forall_app; split). all: try (eapply PI; eassumption). exact (PB "prev_block" x0 x6 (or_introl eq_refl) H1 H7). exact (PB "merkle_root" x1 x7 (or_intror (or_introl eq_refl)) H2 H8).
Qed.
Lemma debug_neat m s : In (m_type m) registry -> parsed_fields (mt_props (m_type m)) (m_fields m) -> message_debug sha256 false odd m = Ok s -> neat s.
Proof.
  destruct m as [t fs]. cbn [m_type m_fields]. intros R P H. destruct (registry_wf _ R) as (_ & N & _).
  rewrite registry_all in R. revert R. let t := eval vm_compute in all_types in change all_types with t. intro R.
  unfold message_debug in H. cbn [m_type m_fields] in H.
  assert (forall c, neatb (bs c) = true -> debug_line sha256 false odd c [] = Ok s -> neat s) as Plain by (intros c C E; exact (line_neat sha256 odd c [] s C (Forall_nil _) E)).
  assert (forall c k v, neatb (bs c) = true -> neatb (bs k) = true -> (exists b, v = VBytes b /\ wf_bytes b) -> debug_line sha256 false odd c [(k, v)] = Ok s -> neat s) as One.
  { intros c k v C K (b & -> & Wb) E. refine (line_neat sha256 odd c _ s C _ E). constructor; [|constructor]. split; [now apply neatb_ok|]. cbn [snd entry_ok]. now apply show_bytes. }
  repeat (destruct R as [<-|R]; [cbn [mt_id mt_props existsb orb String.eqb Ascii.eqb Bool.eqb] in H, P, N;
    try (lines N P H; fail); try (match type of H with debug_line _ _ _ ?c [] = _ => exact (Plain c eq_refl H) end)|]); try contradiction.
  1,2: (bind_inv H; apply (prop_parsed _ "block_locator_hashes" (FArray (FBytes 32) (Some 1) None)) with (2 := N) (3 := P) in H0; [|cbn; tauto]; destruct H0 as (l & -> & Fl); bind_inv H;
    apply hexlified_neat in H0; [|exact Fl];
    match type of H with debug_line _ _ _ ?c ?ps = _ => refine (line_neat sha256 odd c ps s eq_refl _ H) end; constructor; [|constructor]; split; [apply neatb_ok; reflexivity|]; cbn [snd entry_ok];
    clear - H0; induction H0 as [|b r Wb _ IH]; [constructor|]; cbn [map]; constructor; [now apply show_bytes|exact IH]).
  - bind_inv H. rename H0 into Hh. bind_inv H. apply header_bytes in Hh.
    2:{ intros k v A I. destruct I as [<-|[<-|[]]]; [refine (prop_parsed _ "prev_block" (FBytes 32) fs v _ N P _)|refine (prop_parsed _ "merkle_root" (FBytes 32) fs v _ N P _)]; [cbn; tauto|unfold prop; now rewrite A|cbn; tauto|unfold prop; now rewrite A]. }
    refine (line_neat sha256 odd "Block" _ s eq_refl _ H). constructor; [split; [apply neatb_ok; reflexivity|]; cbn [snd entry_ok]; apply show_bytes, wf_neat; now apply neat_hex|].
    refine (reads_neat sha256 odd _ _ fs _ N P _ H0). constructor; [known|constructor].
  - bind_inv H. bind_inv H. apply (prop_parsed _ "nonce" (FBytes 8)) with (2 := N) (3 := P) in H0; [|cbn; tauto]. destruct H0 as (b & -> & Wb). injection H1 as <-.
    refine (One "Ping" "n" _ eq_refl eq_refl _ H). eexists. split; [reflexivity|]. apply wf_neat. now apply neat_hex.
  - bind_inv H. bind_inv H. apply (prop_parsed _ "nonce" (FBytes 8)) with (2 := N) (3 := P) in H0; [|cbn; tauto]. destruct H0 as (b & -> & Wb). injection H1 as <-.
    refine (One "Pong" "n" _ eq_refl eq_refl _ H). eexists. split; [reflexivity|]. apply wf_neat. now apply neat_hex.
  - bind_inv H. destruct x as [v c]. pose proof (fun I => parsed_assoc _ "payload" FVarStr I N fs P) as X. destruct X as (pv & A & b & -> & Wb); [cbn; tauto|].
    destruct (read_kept fs b [] "status_bar" v c ltac:(unfold prop; now rewrite A) Wb (or_introl eq_refl) H0) as (K & Ak).
    refine (One "Alert" "s" v eq_refl eq_refl _ H). destruct (parsed_assoc alert_props "status_bar" FVarStr ltac:(cbn; tauto) (proj2 alert_props_wf) c K) as (v' & A' & Pv). assert (v' = v) as -> by congruence. exact Pv.
Qed.
End Py3.

(** *** Agreement with LogModel.v *)
Definition ok {A} (r : res A) : Prop := exists x, r = Ok x.
Lemma ok_bind {A B} (r : res A) (f : A -> res B) : ok (bind r f) <-> exists x, r = Ok x /\ ok (f x).
Proof. destruct r as [x|e]; cbn [bind]; split; [eauto| |intros (y & E)|intros (y & E & _)]; try discriminate. intros (y & E & H). injection E as <-. exact H. Qed.
Lemma ok_raise {A} e : ~ ok (@Raise A e).
Proof. intros (x & E). discriminate. Qed.
Lemma ok_ok {A} (x : A) : ok (Ok x).
Proof. now exists x. Qed.
Lemma tt_bind {A} (r : res A) (g : A -> res unit) : bind r g = Ok tt <-> exists x, r = Ok x /\ g x = Ok tt.
Proof. destruct r as [x|e]; cbn [bind]; split; [eauto| |discriminate|intros (y & E & _); discriminate]. intros (y & E & H). now injection E as <-. Qed.
Definition isb (p : piece) : bool := match p with PBytes _ => true | PText _ => false end.
Definition agree (odd : pyval -> text) (t : ft) : Prop := forall v,
  (ok (ft_text false odd t v) <-> str_ft t v = Ok tt) /\ (forall p, ft_text false odd t v = Ok p -> isb p = str_is_bytes t).
Lemma fields_agree odd ps : Forall (fun e => agree odd (snd e)) ps -> forall fs, ok (fields_text false odd ps fs) <-> str_fields ps fs = Ok tt.
Proof.
  induction 1 as [|(k, t) r Ht _ IH]; intro fs; cbn [fields_text str_fields]; [split; [reflexivity|intros _; apply ok_ok]|].
  destruct (assoc k fs) as [x|]; [|split; [intro H; destruct (ok_raise _ H)|discriminate]]. rewrite ok_bind, tt_bind. cbn [snd] in Ht. specialize (Ht x). specialize (IH fs). split.
  - intros (p & E & H). apply ok_bind in H. destruct H as (s & Es & _). exists tt. split; [apply Ht; now exists p|apply IH; now exists s].
  - intros ([] & E & H). apply Ht in E. destruct E as (p & E). apply IH in H. destruct H as (s & Es). exists p. split; [exact E|]. rewrite Es. apply ok_ok.
Qed.
Lemma ft_agree odd t : agree odd t.
Proof.
  induction t using ft_ind'; intro v.
  - split; [split; [reflexivity|intros _; apply ok_ok]|]. intros p E. now injection E as <-.
  - split; [split; [reflexivity|intros _; apply ok_ok]|]. intros p E. now injection E as <-.
  - split; [split; [reflexivity|intros _; apply ok_ok]|]. intros p E. now injection E as <-.
  - cbn [ft_text str_ft hexlify_ok str_is_bytes]. destruct v; (split; [split; [intro H; first [reflexivity|destruct (ok_raise _ H)]|intro H; first [discriminate|apply ok_ok]]|]); intros p E; try discriminate. now injection E as <-.
  - split; [split; [reflexivity|intros _; apply ok_ok]|]. intros p E. now injection E as <-.
  - assert (forall l, ok (let! ps := sequence (map (ft_text false odd t) l) in let! s := join_pieces false ps in Ok (PText (bs "[" ++ s ++ bs "]"))) <->
      (let! _ := sequence (map (str_ft t) l) in if str_is_bytes t && negb (is_nil l) then Raise TypeError else Ok tt) = Ok tt) as L.
    { intro l. assert (forall ps, sequence (map (ft_text false odd t) l) = Ok ps -> existsb isb ps = str_is_bytes t && negb (is_nil l)) as B.
      { induction l as [|x l IHl]; intros ps E; cbn [map sequence] in E; [injection E as <-; now rewrite andb_false_r|]. bind_inv E. bind_inv E. injection E as <-.
        cbn [existsb is_nil negb]. rewrite (proj2 (IHt x) _ H), (IHl _ H0), andb_true_r. destruct (str_is_bytes t); reflexivity. }
      assert (ok (sequence (map (ft_text false odd t) l)) <-> ok (sequence (map (str_ft t) l))) as Q.
      { clear B. induction l as [|x l IHl]; cbn [map sequence]; [split; intros _; apply ok_ok|]. rewrite !ok_bind. split; intros (p & E & H); apply ok_bind in H; destruct H as (s & Es & _).
        - exists tt. split; [apply IHt; now exists p|]. apply ok_bind. destruct (proj1 IHl (ex_intro _ s Es)) as (u & Eu). exists u. split; [exact Eu|apply ok_ok].
        - destruct p. apply IHt in E. destruct E as (p & E). exists p. split; [exact E|]. apply ok_bind. destruct (proj2 IHl (ex_intro _ s Es)) as (u & Eu). exists u. split; [exact Eu|apply ok_ok]. }
      rewrite ok_bind, tt_bind. unfold join_pieces. cbn [negb andb]. fold isb. split.
      - intros (ps & E & H). destruct (proj1 Q (ex_intro _ ps E)) as (u & Eu). exists u. split; [exact Eu|]. rewrite <- (B ps E). change (existsb (fun p => match p with PText _ => false | PBytes _ => true end) ps) with (existsb isb ps) in H.
        destruct (existsb isb ps); [destruct (ok_raise _ H)|reflexivity].
      - intros (u & Eu & H). destruct (proj2 Q (ex_intro _ u Eu)) as (ps & E). exists ps. split; [exact E|]. rewrite <- (B ps E) in H. change (existsb (fun p => match p with PText _ => false | PBytes _ => true end) ps) with (existsb isb ps).
        destruct (existsb isb ps); [discriminate|apply ok_ok]. }
    split; [|intros p E; cbn [ft_text] in E; destruct v; try discriminate; bind_inv E; bind_inv E; now injection E as <-].
    cbn [ft_text str_ft]. destruct v; try (split; [intro H; destruct (ok_raise _ H)|discriminate]); apply L.
  - split; [|intros p E; cbn [ft_text] in E; destruct v; try (now injection E as <-); bind_inv E; now injection E as <-].
    destruct v; try (split; [reflexivity|intros _; apply ok_ok]). rewrite ftt_compound, str_compound, ok_bind, <- (fields_agree odd ps H fields). split; [intros (x & E & _); now exists x|intros (x & E); exists x; split; [exact E|apply ok_ok]].
  - split; [|intros p E; cbn [ft_text] in E; destruct v; try (now injection E as <-); bind_inv E; now injection E as <-].
    destruct v; try (split; [reflexivity|intros _; apply ok_ok]). change (ft_text false odd (FCompoundNoTs c ps)) with (ft_text false odd (FCompound c ps)). change (str_ft (FCompoundNoTs c ps)) with (str_ft (FCompound c ps)).
    rewrite ftt_compound, str_compound, ok_bind, <- (fields_agree odd ps H fields). split; [intros (x & E & _); now exists x|intros (x & E); exists x; split; [exact E|apply ok_ok]].
  - cbn [ft_text str_ft str_is_bytes]. apply IHt.
Qed.
Lemma compound_agree odd c ps fs : ok (compound_text false odd c ps fs) <-> str_fields ps fs = Ok tt.
Proof.
  unfold compound_text. rewrite ok_bind, <- (fields_agree odd ps). 2:{ apply Forall_forall. intros e _. apply ft_agree. }
  split; [intros (x & E & _); now exists x|intros (x & E); exists x; split; [exact E|apply ok_ok]].
Qed.
(** A transaction or a header whose hash has not been asked for. *)
Definition fresh (v : pyval) : Prop := match v with VObj _ fs => assoc "__hash" fs = None | _ => True end.
Definition fresh_entry (v : pyval) : Prop := match v with VList l | VTuple l => Forall fresh l | _ => fresh v end.
Lemma bind_ok {A B} (r : res A) (f : A -> B) : ok (bind r (fun x => Ok (f x))) <-> ok r.
Proof. rewrite ok_bind. split; [intros (x & E & _); now exists x|intros (x & E); exists x; split; [exact E|apply ok_ok]]. Qed.
Lemma hexlify_agree v : ok (hexlify v) <-> hexlify_ok v = Ok tt.
Proof. destruct v; cbn [hexlify hexlify_ok]; split; intro H; first [reflexivity|discriminate|apply ok_ok|destruct (ok_raise _ H)]. Qed.
Lemma hash_agree sha ps cut fs : assoc "__hash" fs = None ->
  ok (let! h := fst (cached_hash sha ps cut fs) in let! x := hexlify h in Ok (render false (PBytes x))) <-> (let! _ := fields_binary ps fs in Ok tt) = Ok tt.
Proof.
  intro F. unfold cached_hash. rewrite F, tt_bind. destruct (fields_binary ps fs) as [b|e]; cbn [fst bind hexlify].
  - split; [intros _; exists b; auto|intros _; apply ok_ok].
  - split; [intro H; destruct (ok_raise _ H)|intros (x & E & _); discriminate].
Qed.
Lemma value_agree sha odd v : fresh v -> (ok (debug_text sha false odd v) <-> debug_value v = Ok tt).
Proof.
  intro F. destruct v as [| | | | | | | |c fs|]; try (split; [reflexivity|intros _; apply ok_ok]). cbn [fresh] in F. unfold debug_text, debug_value.
  destruct (String.eqb c "NetworkAddress").
  { rewrite ok_bind, tt_bind. split; intros (a & E & H); exists a; (split; [exact E|]); [apply ok_bind in H; destruct H as (p & Ep & H); apply tt_bind; exists p|apply tt_bind in H; destruct H as (p & Ep & H); apply ok_bind; exists p];
      (split; [exact Ep|]); destruct p; try reflexivity; try discriminate; try apply ok_ok; destruct (ok_raise _ H). }
  destruct (String.eqb c "InventoryVector").
  { rewrite ok_bind, tt_bind.
    assert (forall t, ok (match t with
                  | VInt z => if z <=? 2 then match z with 0 | -3 => Ok (bs "error") | 1 | -2 => Ok (bs "tx") | 2 | -1 => Ok (bs "block") | _ => Raise IndexError end else Ok (bs "unknown")
                  | VBool b => Ok (bs (if b then "tx" else "error")) | _ => Raise TypeError end) <->
      match t with VInt z => if (z <=? 2) && (z <? -3) then Raise IndexError else Ok tt | VBool _ => Ok tt | _ => Raise TypeError end = Ok tt) as K.
    { intro t. destruct t; try (split; [intro H; destruct (ok_raise _ H)|discriminate]); [|split; [reflexivity|intros _; apply ok_ok]].
      destruct (Z.leb_spec z 2); cbn [andb]; [|split; [reflexivity|intros _; apply ok_ok]].
      destruct (Z.ltb_spec z (-3)) as [L|L].
      - split; [|discriminate]. intros (x & E). exfalso. destruct z as [|p|p]; try lia. destruct p as [[]|[]|]; try discriminate E; lia.
      - split; [reflexivity|]. intros _. assert (z = -3 \/ z = -2 \/ z = -1 \/ z = 0 \/ z = 1 \/ z = 2) as Z by lia. destruct Z as [->|[->|[->|[->|[->| ->]]]]]; apply ok_ok. }
    split; intros (t & E & H); exists t; (split; [exact E|]); [apply ok_bind in H; destruct H as (h & Eh & H); apply tt_bind; exists h|apply tt_bind in H; destruct H as (h & Eh & H); apply ok_bind; exists h]; (split; [exact Eh|]).
    - apply ok_bind in H. destruct H as (k & Ek & H). apply tt_bind. exists tt. split; [apply K; now exists k|]. rewrite bind_ok in H. now apply hexlify_agree.
    - apply tt_bind in H. destruct H as ([] & Ek & H). apply K in Ek. destruct Ek as (k & Ek). apply ok_bind. exists k. split; [exact Ek|]. rewrite bind_ok. now apply hexlify_agree. }
  destruct (String.eqb c "Txn"); [exact (hash_agree _ _ _ fs F)|]. destruct (String.eqb c "BlockHeader"); [exact (hash_agree _ _ _ fs F)|].
  destruct (String.eqb c "TxnIn"); [apply compound_agree|]. destruct (String.eqb c "TxnOut"); [apply compound_agree|]. destruct (String.eqb c "OutPoint"); [apply compound_agree|].
  split; [reflexivity|intros _; apply ok_ok].
Qed.
Lemma item_agree sha odd k v : fresh v -> (ok (debug_item sha false odd k v) <-> debug_value v = Ok tt).
Proof.
  intro F. unfold debug_item. destruct (truthy v) eqn:T; [rewrite bind_ok; now apply value_agree|]. split; [|intros _; apply ok_ok]. intros _. destruct v; try reflexivity. discriminate T.
Qed.
Lemma entry_agree sha odd k v : fresh_entry v -> (ok (debug_entry sha false odd k v) <-> debug_param v = Ok tt).
Proof.
  intro F. unfold debug_entry, debug_param. destruct v; try (now apply item_agree); (destruct l as [|x l]; [split; [reflexivity|intros _; apply ok_ok]|]); rewrite bind_ok; apply item_agree; now inversion F.
Qed.
Lemma line_agree sha odd c ks fs : (forall k v, In k (map snd ks) -> assoc k fs = Some v -> fresh_entry v) ->
  (ok (let! params := debug_reads ks fs in debug_line sha false odd c params) <-> debug_params (map snd ks) fs = Ok tt).
Proof.
  intro F. rewrite ok_bind. unfold debug_line. setoid_rewrite bind_ok. revert F. induction ks as [|(l, k) r IH]; intro F.
  - split; [reflexivity|]. intros _. exists []. split; [reflexivity|apply ok_ok].
  - cbn [map snd debug_reads debug_params]. unfold prop. destruct (assoc k fs) as [v|] eqn:A; cbn [bind].
    2:{ split; [intros (x & E & _); discriminate|discriminate]. }
    assert (fresh_entry v) as Fv by (apply (F k v); [now left|exact A]). specialize (IH (fun k0 v0 I => F k0 v0 (or_intror I))).
    rewrite tt_bind. split.
    + intros (ps & E & H). bind_inv E. injection E as <-. cbn [debug_entries] in H. apply ok_bind in H. destruct H as (s & Es & H). rewrite bind_ok in H.
      exists tt. split; [apply (entry_agree sha odd l v Fv); now exists s|]. apply IH. exists x. auto.
    + intros ([] & E & H). apply (entry_agree sha odd l v Fv) in E. destruct E as (s & Es). apply IH in H. destruct H as (ps & Ep & H). exists ((l, v) :: ps). rewrite Ep. split; [reflexivity|].
      cbn [debug_entries]. rewrite Es. cbn [bind]. now rewrite bind_ok.
Qed.
Lemma bytes_line sha odd c k b : ok (debug_line sha false odd c [(k, VBytes b)]).
Proof. unfold debug_line. cbn [debug_entries debug_entry]. unfold debug_item. destruct (truthy _); cbn [debug_text bind]; apply ok_ok. Qed.

(** Alerts. *)
Lemma read_all_values fs names : forall cache cache', alert_read_all fs cache names = Ok cache' <-> exists vs, alert_values fs cache names = Ok (vs, cache').
Proof.
  induction names as [|n r IH]; intros cache cache'; cbn [alert_read_all alert_values].
  - split; [intro E; injection E as <-; now exists []|intros (vs & E); congruence].
  - destruct (alert_read fs cache n) as [(v, c)|]; cbn [bind]; [|split; [discriminate|intros (vs & E); discriminate]]. rewrite IH. split; intros (vs & E).
    + exists (v :: vs). now rewrite E.
    + bind_inv E. destruct x as [vs' c']. injection E as <- <-. exists vs'. exact H.
Qed.
Lemma alert_agree odd fs data : prop "payload" fs = Ok (VBytes data) -> wf_bytes data -> (ok (alert_text false odd fs) <-> alert_str fs = Ok tt).
Proof.
  intros P W. unfold alert_text, alert_str. rewrite ok_bind, tt_bind. 
  assert (forall cache subs cache', kept cache -> alert_read fs cache "set_sub_ver" = Ok (subs, cache') ->
    ok (join_values false odd subs) <-> match subs with VList (_ :: _) => Raise TypeError | _ => Ok tt end = Ok tt) as J.
  { intros cache subs cache' K H. destruct (read_kept fs data cache _ subs cache' P W K H) as (Pc & A).
    destruct (parsed_assoc alert_props "set_sub_ver" (FArray FVarStr None None) ltac:(cbn; tauto) (proj2 alert_props_wf) cache' Pc) as (v' & A' & Pv). assert (v' = subs) as -> by congruence.
    destruct Pv as (l & -> & Fl). destruct l as [|x l]; [split; [reflexivity|intros _; apply ok_ok]|]. inversion Fl as [|? ? (b & -> & _) _]. split; [intro Q; destruct (ok_raise _ Q)|discriminate]. }
  split.
  - intros ((nums, cache) & E & H). exists cache. split; [apply read_all_values; eauto|]. destruct (values_kept fs data P W _ _ _ _ (or_introl eq_refl) E) as (K & _).
    apply ok_bind in H. destruct H as ((subs, cache2) & Es & H). apply tt_bind. exists (subs, cache2). split; [exact Es|]. apply ok_bind in H. destruct H as (j & Ej & H). apply tt_bind. exists tt. split; [apply (J cache subs cache2 K Es); now exists j|].
    apply ok_bind in H. destruct H as ((rest, cache3) & Er & _). apply tt_bind. exists cache3. split; [apply read_all_values; eauto|reflexivity].
  - intros (cache & E & H). apply read_all_values in E. destruct E as (nums & E). destruct (values_kept fs data P W _ _ _ _ (or_introl eq_refl) E) as (K & F1). exists (nums, cache). split; [exact E|].
    apply tt_bind in H. destruct H as ((subs, cache2) & Es & H). apply ok_bind. exists (subs, cache2). split; [exact Es|]. apply tt_bind in H. destruct H as ([] & Ej & H). apply (J cache subs cache2 K Es) in Ej. destruct Ej as (j & Ej). rewrite Ej. cbn [bind].
    apply tt_bind in H. destruct H as (cache3 & Er & _). apply read_all_values in Er. destruct Er as (rest & Er). rewrite Er. cbn [bind].
    destruct (values_kept fs data P W _ _ _ _ (or_intror (proj1 (read_kept fs data _ _ _ _ P W K Es))) Er) as (_ & F3).
    clear - F1 F3. repeat match goal with F : Forall2 _ (_ :: _) _ |- _ => inversion F; clear F; subst | F : Forall2 _ [] _ |- _ => inversion F; clear F; subst end. apply ok_ok.
Qed.

(** *** The theorems *)
Lemma fresh_array t mn mx v : (forall x, parsed t x -> fresh x) -> parsed (FArray t mn mx) v -> fresh_entry v.
Proof. intros H (l & -> & F). cbn [fresh_entry]. eapply Forall_impl; [exact H|exact F]. Qed.
Lemma fresh_compound c ps v : ~ In "__hash" (map fst ps) -> parsed (FCompound c ps) v -> fresh v.
Proof. intros N P. apply parsed_compound in P. destruct P as (fs & -> & P). cbn [fresh]. apply assoc_absent. now rewrite (parsed_keys ps fs P). Qed.
Lemma fresh_number f big a v : parsed (FNumber f big a) v -> fresh_entry v.
Proof. intros (z & ->). exact Logic.I. Qed.
Lemma fresh_str v : parsed FVarStr v -> fresh_entry v.
Proof. intros (b & -> & _). exact Logic.I. Qed.
Lemma item_bytes sha odd k b : ok (debug_item sha false odd k (VBytes b)).
Proof. unfold debug_item. destruct (truthy _); cbn [debug_text bind]; apply ok_ok. Qed.
Lemma list_line sha odd c k l : ok (debug_line sha false odd c [(k, VList (map VBytes l))]).
Proof.
  unfold debug_line. rewrite bind_ok. cbn [debug_entries debug_entry]. apply ok_bind. destruct l as [|b l]; cbn [map].
  - eexists. split; [reflexivity|apply ok_ok].
  - destruct (item_bytes sha odd (bs k ++ bs "[0]") b) as (s & ->). eexists. split; [reflexivity|apply ok_ok].
Qed.
Lemma cons_line sha odd c k b ps : ok (debug_line sha false odd c ((k, VBytes b) :: ps)) <-> ok (debug_line sha false odd c ps).
Proof.
  unfold debug_line. rewrite !bind_ok. cbn [debug_entries debug_entry]. destruct (item_bytes sha odd (bs k) b) as (s & ->). cbn [bind]. now rewrite bind_ok.
Qed.
Lemma debug_agree sha odd m : In (m_type m) registry -> parsed_fields (mt_props (m_type m)) (m_fields m) -> (ok (message_debug sha false odd m) <-> msg_debug m = Ok tt).
Proof.
  destruct m as [t fs]. cbn [m_type m_fields]. intros R P. destruct (registry_wf _ R) as (_ & N & _).
  rewrite registry_all in R. revert R. let t := eval vm_compute in all_types in change all_types with t. intro R.
  unfold message_debug, msg_debug. cbn [m_type m_fields].
  assert (forall c, ok (debug_line sha false odd c []) <-> Ok tt = Ok tt) as Plain by (intro c; split; [reflexivity|intros _; apply ok_ok]).
  repeat (destruct R as [<-|R]; [cbn [mt_id mt_props existsb orb String.eqb Ascii.eqb Bool.eqb] in P, N |- *; try (apply Plain);
    try (match goal with |- ok (bind (debug_reads ?ks _) (fun p => debug_line _ _ _ ?c p)) <-> _ => refine (line_agree sha odd c ks fs _) end;
         let k := fresh "k" in let v := fresh "v" in let I := fresh "I" in let A := fresh "A" in intros k v I A; cbn [map snd In] in I;
         repeat (destruct I as [<-|I]; [match type of A with assoc ?k0 _ = _ => pose proof (fun t I => parsed_assoc _ k0 t I N fs P) as Q end|]); try contradiction)|]); try contradiction.
  1-8,11,12,14,17,18: (edestruct Q as (v' & A' & Pv); [simpl; repeat (first [left; reflexivity|right])|]; assert (v' = v) as -> by congruence;
    first [exact (fresh_number _ _ _ _ Pv)|exact (fresh_str _ Pv)|(refine (fresh_array _ _ _ _ _ Pv); intro x; apply fresh_compound; cbn; intuition discriminate)]).
  1,2: (rewrite ok_bind, tt_bind; assert (forall l, ok (sequence (map hexlify l)) <-> ok (sequence (map hexlify_ok l))) as L by
      (induction l as [|x l IH]; cbn [map sequence]; [split; intros _; apply ok_ok|]; rewrite !ok_bind; split; intros (p & E & H); rewrite bind_ok in H;
        [exists tt; split; [apply hexlify_agree; now exists p|rewrite bind_ok; now apply IH]|destruct p; apply hexlify_agree in E; destruct E as (p & E); exists p; split; [exact E|rewrite bind_ok; now apply IH]]);
    split; intros (l & E & H); exists l; (split; [exact E|]); destruct l; try discriminate; try (destruct (ok_raise _ H));
    [apply ok_bind in H; destruct H as (hs & Eh & _); apply tt_bind; destruct (proj1 (L _) (ex_intro _ hs Eh)) as (u & Eu); exists u; auto
    |apply ok_bind in H; destruct H as (hs & Eh & _); apply tt_bind; destruct (proj1 (L _) (ex_intro _ hs Eh)) as (u & Eu); exists u; auto
    |apply tt_bind in H; destruct H as (u & Eu & _); apply ok_bind; destruct (proj2 (L _) (ex_intro _ u Eu)) as (hs & Eh); exists hs; split; [exact Eh|apply list_line]
    |apply tt_bind in H; destruct H as (u & Eu & _); apply ok_bind; destruct (proj2 (L _) (ex_intro _ u Eu)) as (hs & Eh); exists hs; split; [exact Eh|apply list_line]]).
  - rewrite ok_bind, tt_bind. assert (forall h, ok (let! params := debug_reads [("t", "txns")] fs in debug_line sha false odd "Block" (("h", VBytes (hex_encode h)) :: params)) <-> debug_params ["txns"] fs = Ok tt) as L.
    { intro h. rewrite <- (line_agree sha odd "Block" [("t", "txns")] fs).
      - rewrite !ok_bind. split; intros (ps & E & H); exists ps; (split; [exact E|]); first [exact (proj1 (cons_line _ _ _ _ _ _) H) | exact (proj2 (cons_line _ _ _ _ _ _) H)].
      - intros k v I A. cbn [map snd In] in I. destruct I as [<-|[]]. pose proof (fun t I => parsed_assoc _ "txns" t I N fs P) as Q. edestruct Q as (v' & A' & Pv); [simpl; repeat (first [left; reflexivity|right])|]. assert (v' = v) as -> by congruence.
        refine (fresh_array _ _ _ _ _ Pv); intro x; apply fresh_compound; cbn; intuition discriminate. }
    split; intros (h & E & H); exists h; (split; [exact E|]); now apply (L h).
  - rewrite ok_bind, tt_bind. split; intros (n & E & H); exists n; (split; [exact E|]); [apply ok_bind in H; destruct H as (h & Eh & _); apply hexlify_agree; now exists h|].
    apply hexlify_agree in H. destruct H as (h & Eh). apply ok_bind. exists h. split; [exact Eh|apply bytes_line].
  - rewrite ok_bind, tt_bind. split; intros (n & E & H); exists n; (split; [exact E|]); [apply ok_bind in H; destruct H as (h & Eh & _); apply hexlify_agree; now exists h|].
    apply hexlify_agree in H. destruct H as (h & Eh). apply ok_bind. exists h. split; [exact Eh|apply bytes_line].
  - rewrite ok_bind, tt_bind. split; intros ((v, c) & E & H); exists (v, c); (split; [exact E|]); [reflexivity|].
    pose proof (fun I => parsed_assoc _ "payload" FVarStr I N fs P) as X. destruct X as (pv & A & b & -> & Wb); [cbn; tauto|].
    destruct (read_kept fs b [] "status_bar" v c ltac:(unfold prop; now rewrite A) Wb (or_introl eq_refl) E) as (K & Ak).
    destruct (parsed_assoc alert_props "status_bar" FVarStr ltac:(cbn; tauto) (proj2 alert_props_wf) c K) as (v' & A' & Pv). assert (v' = v) as -> by congruence. destruct Pv as (s & -> & _). apply bytes_line.
Qed.

(** On Python 3, the log line of a received message can be written exactly when
    LogModel.v says so. *)
Theorem C158_agrees : forall sha256 odd data magic m arrow level, wf_bytes data -> msg_parse sha256 data magic = Ok m ->
  ((exists t, log_text sha256 false odd arrow level m = Ok t) <-> log_message level m = Ok tt).
Proof.
  intros sha odd data magic m arrow level W H. destruct (message_parsed sha data magic m W H) as (R & P). unfold log_text, log_message.
  destruct (level <=? LOG_LEVEL_PROTOCOL); [|destruct (level <=? LOG_LEVEL_DEBUG)].
  - change (ok (let! s := message_text false odd m in Ok (Some (arrow ++ s))) <-> msg_str m = Ok tt). rewrite bind_ok. unfold message_text, msg_str.
    destruct (String.eqb_spec (mt_id (m_type m)) "Alert") as [E|_]; [|apply compound_agree]. destruct (registry_wf _ R) as (_ & N & _).
    destruct (parsed_assoc _ _ _ (registry_alert _ R E) N _ P) as (v & A & b & -> & Wb). refine (alert_agree odd _ b _ Wb). unfold prop. now rewrite A.
  - change (ok (let! s := message_debug sha false odd m in Ok (Some (arrow ++ s))) <-> msg_debug m = Ok tt). rewrite bind_ok. now apply debug_agree.
  - split; [reflexivity|]. intros _. eauto.
Qed.

(** On Python 3, whatever a peer sends, every character of what is logged of it
    is printable, at every level. *)
Theorem C158_printable : forall sha256 odd data magic m level t, (forall x, wf_bytes (sha256 x)) -> wf_bytes data -> msg_parse sha256 data magic = Ok m ->
  log_text sha256 false odd (bs "<<< ") level m = Ok (Some t) -> Forall (fun c => 32 <= c <= 126) t.
Proof.
  intros sha odd data magic m level t S W H T. destruct (message_parsed sha data magic m W H) as (R & P). unfold log_text in T. change (neat t).
  destruct (level <=? LOG_LEVEL_PROTOCOL); [|destruct (level <=? LOG_LEVEL_DEBUG); [|discriminate]]; bind_inv T; injection T as <-.
  - pose proof (text_neat odd m _ R P H0). nt.
  - pose proof (debug_neat sha S odd m _ R P H0). nt.
Qed.
(** So a message makes exactly one line of the log. *)
Theorem C158_one_line : forall sha256 odd data magic m level t source, (forall x, wf_bytes (sha256 x)) -> wf_bytes data -> msg_parse sha256 data magic = Ok m ->
  log_text sha256 false odd (bs "<<< ") level m = Ok (Some t) -> ~ In 10 source ->
  exists line, text_line source t = line ++ [10] /\ ~ In 10 line.
Proof.
  intros sha odd data magic m level t source S W H T N. pose proof (C158_printable sha odd data magic m level t S W H T) as F. exists (bs "(" ++ source ++ bs ") " ++ t). split.
  - unfold text_line. now rewrite <- !app_assoc.
  - intro I. repeat (apply in_app_or in I; destruct I as [I|I]); [cbn in I; intuition discriminate|contradiction|cbn in I; intuition discriminate|]. rewrite Forall_forall in F. apply F in I. lia.
Qed.

Lemma entries_cons sha py2 odd k v r s : debug_entries sha py2 odd ((k, v) :: r) = Ok s ->
  exists a b, debug_entry sha py2 odd k v = Ok a /\ debug_entries sha py2 odd r = Ok b /\ s = a ++ b.
Proof. intro H. cbn [debug_entries] in H. bind_inv H. bind_inv H. injection H as <-. eauto. Qed.
(** On Python 2 the user agent of a peer is in the log as it is. *)
Theorem C158_agent_refuted : forall sha256 odd arrow m b t, mt_id (m_type m) = "Version" -> assoc "user_agent" (m_fields m) = Some (VBytes b) -> b <> [] ->
  log_text sha256 true odd arrow LOG_LEVEL_DEBUG m = Ok (Some t) -> exists before after, t = before ++ bs " ua=" ++ b ++ after.
Proof.
  intros sha odd arrow [ty fs] b t E A B T. cbn [m_type m_fields] in E, A. unfold log_text in T. change (LOG_LEVEL_DEBUG <=? LOG_LEVEL_PROTOCOL) with false in T. change (LOG_LEVEL_DEBUG <=? LOG_LEVEL_DEBUG) with true in T. bind_inv T. injection T as <-.
  unfold message_debug in H. cbn [m_type m_fields] in H. rewrite E in H. cbn [existsb orb String.eqb Ascii.eqb Bool.eqb] in H. bind_inv H. cbn [debug_reads] in H0. unfold prop in H0. rewrite A in H0.
  destruct (assoc "version" fs) as [v|]; [|discriminate]. destruct (assoc "services" fs) as [s|]; [|discriminate]. destruct (assoc "start_height" fs) as [h|]; [|discriminate]. cbn [bind] in H0. injection H0 as <-.
  unfold debug_line in H. bind_inv H. assert (x = bs "<" ++ bs (mt_id ty) ++ x0 ++ bs ">") as -> by (rewrite E; congruence). clear H.
  apply entries_cons in H0. destruct H0 as (a1 & r1 & _ & H0 & ->). apply entries_cons in H0. destruct H0 as (a2 & r2 & _ & H0 & ->). apply entries_cons in H0. destruct H0 as (a3 & r3 & H3 & _ & ->).
  unfold debug_entry, debug_item in H3. assert (truthy (VBytes b) = true) as Tb by (destruct b; [contradiction|reflexivity]). rewrite Tb in H3. cbn [debug_text bind value_text render] in H3.
  assert (a3 = bs " ua=" ++ b) as -> by (cbn in H3 |- *; congruence).
  exists (arrow ++ bs "<" ++ bs (mt_id ty) ++ a1 ++ a2), (r3 ++ bs ">"). now rewrite <- !app_assoc.
Qed.

Lemma wf_all l : forallb is_byteb l = true -> wf_bytes l.
Proof. intro H. rewrite forallb_forall in H. apply Forall_forall. intros x Hx. apply H in Hx. unfold is_byteb in Hx. apply andb_true_iff in Hx. unfold is_byte. lia. Qed.
(** A peer at 10.0.0.1 that writes another line into the log: there, 10.0.0.9
    has said verack. *)
Definition tx_agent : bytes := bs "x" ++ [10] ++ bs "(10.0.0.9) <<< <VersionAck>" ++ [10].
Definition tx_version : bytes :=
  match (let! r := network_address 0 (bs "8.8.8.8", 8333) in
         let! f := network_address 0 (bs "1.1.1.1", 8333) in
         let! m := new_message (type_of "Version") [] [("version", VInt 70001); ("services", VInt 1); ("timestamp", VInt 5); ("addr_recv", r); ("addr_from", f);
            ("nonce", VBytes (repeat 0 8)); ("user_agent", VBytes tx_agent); ("start_height", VInt 1); ("relay", VBool false)] in
         msg_binary nx_sha m nx_magic) with Ok b => b | Raise _ => [] end.
Theorem C158_forged_refuted : forall odd, exists m t v tv line,
  wf_bytes tx_version /\ msg_parse nx_sha tx_version nx_magic = Ok m /\ log_text nx_sha true odd (bs "<<< ") LOG_LEVEL_DEBUG m = Ok (Some t) /\
  msg_parse nx_sha (nx_frame "VersionAck" []) nx_magic = Ok v /\ log_text nx_sha true odd (bs "<<< ") LOG_LEVEL_DEBUG v = Ok (Some tv) /\
  text_line (bs "10.0.0.9") tv = line ++ [10] /\ In line (split_on 10 (text_line (bs "10.0.0.1") t)).
Proof.
  intro odd. do 5 eexists. split; [apply wf_all; vm_compute; reflexivity|]. split; [vm_compute; reflexivity|]. split; [vm_compute; reflexivity|]. split; [vm_compute; reflexivity|]. split; [vm_compute; reflexivity|].
  split; [instantiate (1 := bs "(10.0.0.9) <<< <VersionAck>"); vm_compute; reflexivity|]. vm_compute. right. left. reflexivity.
Qed.
(** On Python 3 the same message makes this one line. *)
Example C158_applies : exists m v, wf_bytes tx_version /\ msg_parse nx_sha tx_version nx_magic = Ok m /\
  msg_parse nx_sha (nx_frame "Address" [VList [nx_entry 1; nx_entry 2]]) nx_magic = Ok v /\ forall odd,
  log_text nx_sha false odd (bs "<<< ") LOG_LEVEL_DEBUG m = Ok (Some (bs "<<< <Version v=70001 s=1 ua=b'x\n(10.0.0.9) <<< <VersionAck>\n' sh=1>")) /\
  log_text nx_sha false odd (bs "<<< ") LOG_LEVEL_DEBUG v = Ok (Some (bs "<<< <Address len(a)=2 a[0]=2.0.0.1:1>")).
Proof.
  do 2 eexists. split; [apply wf_all; vm_compute; reflexivity|]. split; [vm_compute; reflexivity|]. split; [vm_compute; reflexivity|]. intro odd. split; vm_compute; reflexivity.
Qed.

(** At the level of the protocol, so do the client versions that an alert names,
    on Python 2. *)
Definition tx_alert : bytes :=
  let body := match fields_binary alert_props [("version", VInt 1); ("relay_until", VInt 2); ("expiration", VInt 3); ("id", VInt 4); ("cancel", VInt 5); ("set_cancel", VList [VInt 6; VInt 7]);
    ("min_ver", VInt 8); ("max_ver", VInt 9); ("set_sub_ver", VList [VBytes tx_agent]); ("priority", VInt 10); ("comment", VBytes []); ("status_bar", VBytes (bs "hi")); ("reserved", VBytes [])] with Ok b => b | Raise _ => [] end in
  nx_frame "Alert" [VBytes body; VBytes [1; 2; 3]].
Theorem C158_alert_refuted : forall odd, exists m t v tv line,
  wf_bytes tx_alert /\ msg_parse nx_sha tx_alert nx_magic = Ok m /\ log_text nx_sha true odd (bs "<<< ") LOG_LEVEL_PROTOCOL m = Ok (Some t) /\
  msg_parse nx_sha (nx_frame "VersionAck" []) nx_magic = Ok v /\ log_text nx_sha true odd (bs "<<< ") LOG_LEVEL_PROTOCOL v = Ok (Some tv) /\
  text_line (bs "10.0.0.9") tv = line ++ [10] /\ In line (split_on 10 (text_line (bs "10.0.0.1") t)).
Proof.
  intro odd. do 5 eexists. split; [apply wf_all; vm_compute; reflexivity|]. split; [vm_compute; reflexivity|]. split; [vm_compute; reflexivity|]. split; [vm_compute; reflexivity|]. split; [vm_compute; reflexivity|].
  split; [instantiate (1 := bs "(10.0.0.9) <<< <VersionAck>"); vm_compute; reflexivity|]. vm_compute. right. left. reflexivity.
Qed.

(** ** Assumptions *)

Print Assumptions C158_agrees.
Print Assumptions C158_printable.
Print Assumptions C158_one_line.
Print Assumptions C158_agent_refuted.
Print Assumptions C158_forged_refuted.
Print Assumptions C158_alert_refuted.
