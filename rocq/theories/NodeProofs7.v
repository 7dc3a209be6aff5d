(** Replies: getaddr, ping, version; the readable timer. *)
From Coq Require Import String ZArith List Lia Bool Permutation Sorting.Sorted.
From Verif Require Import PyBase PyVal FormatModel MessagesModel FormatSpec FormatProofs FormatProofs2 MessagesProofs
  NodeModel NodeProofs NodeProofs2 NodeProofs3 NodeProofs4 NodeProofs5 NodeProofs6.
Import ListNotations.
Open Scope string_scope.
Open Scope list_scope.
Open Scope Z_scope.

Lemma Forall2_length {A B} (P : A -> B -> Prop) l l' : Forall2 P l l' -> List.length l = List.length l'.
Proof. induction 1; cbn; auto. Qed.

(** ** getaddr *)
Notation entry := (addr * (pyval * option pyval))%type.
Definition known (e : entry) : bool := match snd (snd e) with Some _ => true | None => false end.
Definition entry_obj (e : entry) : res pyval :=
  match snd (snd e) with
  | Some sv => construct "NetworkAddress" NetworkAddress_props [fst (snd e); sv; VStr (fst (fst e)); VInt (snd (fst e))] []
  | None => Raise TypeError
  end.
Lemma collect_spec l : forall acc r, zlen acc < 1000 -> collect_addresses l acc = Ok r ->
  exists objs, r = acc ++ objs /\ Forall2 (fun e o => entry_obj e = Ok o) (firstn (Z.to_nat (1000 - zlen acc)) (filter known l)) objs.
Proof.
  induction l as [|((ip & port) & (ts & sv)) l IH]; intros acc r L H; cbn [collect_addresses] in H.
  - injection H as <-. exists []. rewrite app_nil_r. split; [reflexivity|]. cbn [filter]. rewrite firstn_nil. constructor.
  - destruct sv as [sv|].
    + bind_inv H. cbn [filter known snd]. replace (Z.to_nat (1000 - zlen acc)) with (S (Z.to_nat (1000 - zlen (acc ++ [x])))).
      2:{ unfold zlen in *. rewrite app_length. cbn [List.length]. lia. }
      cbn [firstn]. destruct (Z.geb_spec (zlen (acc ++ [x])) ADDRESSES_PER_ASK) as [G|G].
      * injection H as <-. exists [x]. split; [reflexivity|]. replace (Z.to_nat (1000 - zlen (acc ++ [x]))) with 0%nat by (unfold ADDRESSES_PER_ASK in G; lia).
        cbn [firstn]. constructor; [exact H0|constructor].
      * apply IH in H; [|exact G]. destruct H as (objs & -> & F). exists (x :: objs). split; [now rewrite <- app_assoc|].
        constructor; [exact H0|exact F].
    + cbn [filter known snd]. now apply IH.
Qed.
Lemma collect_total l : forall acc, Forall (fun e => known e = true -> exists o, entry_obj e = Ok o) l -> exists r, collect_addresses l acc = Ok r.
Proof.
  induction l as [|((ip & port) & (ts & sv)) l IH]; intros acc F; cbn [collect_addresses]; [eauto|]. apply Forall_cons_iff in F. destruct F as (F1 & F).
  destruct sv as [sv|]; [|now apply IH]. destruct (F1 eq_refl) as (o & E). unfold entry_obj in E. cbn [fst snd] in E. rewrite E. cbn [bind].
  destruct (_ >=? _); [eauto|now apply IH].
Qed.
Definition ts_newer (a b : entry) : Prop := ts_leb (fst (snd b)) (fst (snd a)) = true.
Definition num_of (v : pyval) : Z * Z :=
  match v with VFloat (FFin m e) => if 0 <=? e then (m * 2 ^ e, 1) else (m, 2 ^ (- e)) | VInt z => (z, 1) | _ => (0, 1) end.
Lemma num_pos v : 0 < snd (num_of v).
Proof.
  destruct v; cbn; try lia. destruct f; cbn; try lia. destruct (Z.leb_spec 0 e); cbn; [lia|]. apply Z.pow_pos_nonneg; lia.
Qed.
Lemma ts_leb_num a b : ts_leb a b = (fst (num_of a) * snd (num_of b) <=? fst (num_of b) * snd (num_of a)).
Proof. reflexivity. Qed.
Lemma entry_before_total x y : entry_before x y = true \/ entry_before y x = true.
Proof. unfold entry_before. rewrite !ts_leb_num. destruct (Z.leb_spec (fst (num_of (fst (snd y))) * snd (num_of (fst (snd x)))) (fst (num_of (fst (snd x))) * snd (num_of (fst (snd y))))); [now left|]. right. apply Z.leb_le. lia. Qed.
Lemma ts_leb_trans a b c : ts_leb a b = true -> ts_leb b c = true -> ts_leb a c = true.
Proof.
  rewrite !ts_leb_num, !Z.leb_le. pose proof (num_pos a). pose proof (num_pos b). pose proof (num_pos c).
  destruct (num_of a) as (x & u), (num_of b) as (y & v), (num_of c) as (z & w). cbn [fst snd] in *. intros H2 H3.
  apply (Z.mul_le_mono_pos_r _ _ v); [assumption|]. nia.
Qed.
Lemma entry_before_trans x y z : entry_before x y = true -> entry_before y z = true -> entry_before x z = true.
Proof. unfold entry_before. intros A B. eapply ts_leb_trans; eassumption. Qed.
Lemma StronglySorted_filter {A} (R : A -> A -> Prop) f l : StronglySorted R l -> StronglySorted R (filter f l).
Proof.
  induction 1 as [|x l S IH F]; cbn; [constructor|]. destruct (f x); [|exact IH]. constructor; [exact IH|].
  rewrite Forall_forall in *. intros y Hy. apply filter_In in Hy. now apply F.
Qed.
Lemma StronglySorted_firstn {A} (R : A -> A -> Prop) l : StronglySorted R l -> forall k, StronglySorted R (firstn k l) /\
  forall x y, In x (firstn k l) -> In y (skipn k l) -> R x y.
Proof.
  induction 1 as [|x l S IH F]; intro k.
  - rewrite firstn_nil. split; [constructor|]. intros ? ? [].
  - destruct k as [|k]; cbn [firstn skipn]; [split; [constructor|intros ? ? []]|]. destruct (IH k) as (A1 & A2). split.
    + constructor; [exact A1|]. rewrite Forall_forall in *. intros y Hy. apply F. rewrite <- (firstn_skipn k l). apply in_or_app. now left.
    + intros a b [<-|Ha] Hb; [|auto]. rewrite Forall_forall in F. apply F. rewrite <- (firstn_skipn k l). apply in_or_app. now right.
Qed.
Lemma entry_obj_class e o : entry_obj e = Ok o -> exists fs, o = VObj "NetworkAddress" fs.
Proof.
  unfold entry_obj. destruct (snd (snd e)); [|discriminate]. unfold construct. cbv zeta.
  do 3 match goal with |- (if ?c then _ else _) = _ -> _ => destruct c; [discriminate|] end.
  intro H. bind_inv H. injection H as <-. eauto.
Qed.
Definition t_addr : msg_type := mk_msg_type "Address" "addr" "address" [("addr_list", FArray FtNetworkAddress None (Some 1000))].
Lemma addr_accepts objs : Forall (fun o => exists fs, o = VObj "NetworkAddress" fs) objs -> zlen objs <= 1000 ->
  new_message (type_of "Address") [VList objs] [] = Ok (mk_message t_addr [("addr_list", VTuple objs)]).
Proof.
  intros F L. assert (type_of "Address" = t_addr) as -> by (vm_compute; reflexivity).
  assert (sequence (map (validate FtNetworkAddress) objs) = Ok (map Some objs)) as S.
  { clear L. induction F as [|o objs (fs & ->) F IH]; [reflexivity|]. cbn [map sequence].
    change (validate FtNetworkAddress (VObj "NetworkAddress" fs)) with (Ok (Some (VObj "NetworkAddress" fs))). cbn [bind]. now rewrite IH. }
  assert (all_some (map Some objs) = Some objs) as As.
  { clear. induction objs as [|o l IH]; [reflexivity|]. cbn. now rewrite IH. }
  unfold new_message, construct. cbn [mt_props t_addr map fst zip existsb app]. change (negb (zlen [("addr_list", VList objs)] =? zlen ["addr_list"])) with false.
  cbn iota. cbn [validate_props assoc String.eqb Ascii.eqb Bool.eqb]. cbn [validate]. cbn [bound_violated]. 
  assert ((1000 <? zlen objs) = false) as -> by (apply Z.ltb_ge; exact L).
  replace (negb (1000 =? 0) && false) with false by reflexivity. cbn iota. rewrite S. cbn [bind]. rewrite As. reflexivity.
Qed.
Lemma filter_perm {A} f (l l' : list A) : Permutation l l' -> Permutation (filter f l) (filter f l').
Proof.
  induction 1; cbn.
  - constructor.
  - destruct (f x); [now constructor|assumption].
  - destruct (f x), (f y); try constructor; reflexivity.
  - etransitivity; eassumption.
Qed.
(** [es] are the newest known entries of the book, at most 1000, newest first. *)
Definition newest (book es : list entry) : Prop :=
  zlen es <= 1000 /\ StronglySorted ts_newer es /\
  exists rest, Permutation (filter known book) (es ++ rest) /\
    (rest <> [] -> zlen es = 1000) /\ (forall x y, In x es -> In y rest -> ts_newer x y).
Lemma newest_first book : newest book (firstn 1000 (filter known (sort_by entry_before book))).
Proof.
  pose proof (sort_sorted entry_before entry_before_total entry_before_trans book) as S.
  apply (StronglySorted_filter _ known) in S. destruct (StronglySorted_firstn _ _ S 1000) as (S1 & S2).
  split; [unfold zlen; pose proof (firstn_le_length 1000 (filter known (sort_by entry_before book))); remember 1000%nat as q; rewrite firstn_length; lia|].
  split; [exact S1|]. exists (skipn 1000 (filter known (sort_by entry_before book))). split; [|split].
  - rewrite firstn_skipn. apply filter_perm, sort_perm.
  - intro H. unfold zlen. rewrite firstn_length. remember 1000%nat as q eqn:Eq. assert (q <= List.length (filter known (sort_by entry_before book)))%nat.
    { destruct (le_lt_dec q (List.length (filter known (sort_by entry_before book)))) as [|K]; [assumption|]. exfalso. apply H. apply skipn_all2. lia. }
    rewrite Nat.min_l by assumption. lia.
  - exact S2.
Qed.
Lemma reply_spec n m : get_address_reply true n = Ok m ->
  exists es objs, newest (n_book n) es /\ Forall2 (fun e o => entry_obj e = Ok o) es objs /\
    m = mk_message t_addr [("addr_list", VTuple objs)].
Proof.
  unfold get_address_reply. cbn [negb]. cbv iota. intro H. bind_inv H. apply collect_spec in H0; [|cbn; lia].
  destruct H0 as (objs & E & F). cbn [app] in E. subst x. change (Z.to_nat (1000 - zlen [])) with 1000%nat in F.
  eexists. exists objs. split; [apply newest_first|]. split; [exact F|].
  assert (zlen objs <= 1000) as L. { apply Forall2_length in F. unfold zlen. rewrite <- F. remember 1000%nat. rewrite firstn_length. lia. }
  rewrite addr_accepts in H; [now injection H as <-| |exact L]. clear - F.
  induction F; constructor; [eapply entry_obj_class; eassumption|assumption].
Qed.
Lemma reply_total n : Forall (fun e => known e = true -> exists o, entry_obj e = Ok o) (n_book n) -> exists m, get_address_reply true n = Ok m.
Proof.
  intro F. unfold get_address_reply. cbn [negb]. cbv iota.
  destruct (collect_total (sort_by entry_before (n_book n)) []) as (r & E).
  { eapply Permutation_Forall; [apply sort_perm|exact F]. }
  rewrite E. cbn [bind]. apply collect_spec in E; [|cbn; lia]. destruct E as (objs & -> & Fo). cbn [app]. eexists. apply addr_accepts.
  - clear - Fo. induction Fo; constructor; [eapply entry_obj_class; eassumption|assumption].
  - apply Forall2_length in Fo. change (Z.to_nat (1000 - zlen [])) with 1000%nat in Fo. unfold zlen. rewrite <- Fo. remember 1000%nat. rewrite firstn_length. lia.
Qed.

(** ** Replies *)
(** What has been queued for sending, with its connection. *)
Definition sends_of (tr : list action) : list (nat * message) :=
  flat_map (fun a => match a with AQueue i m _ => [(i, m)] | _ => [] end) tr.
Lemma sends_app a b : sends_of (a ++ b) = sends_of a ++ sends_of b. Proof. apply flat_map_app. Qed.
Definition silent (n n' : node) : Prop := sends_of (n_trace n') = sends_of (n_trace n).
Lemma sends_queue i m b n c : get_conn i n = Some c -> sends_of (n_trace (queue i m b n)) = sends_of (n_trace n) ++ [(i, m)].
Proof. intro G. unfold queue. rewrite G. unfold emit. cbn [n_trace set_n_trace upd set_n_conns]. now rewrite sends_app. Qed.
Lemma fields_parse_assoc ps : forall off data n fs, fields_parse ps off data = Ok (n, fs) ->
  forall k t, assoc k ps = Some t -> exists d l x, parse t d = Ok (l, x) /\ assoc k fs = Some x.
Proof.
  induction ps as [|(k0 & t0) ps IH]; intros off data n fs H k t E; [discriminate|]. cbn [fields_parse] in H.
  destruct (parse t0 (zdrop off data)) as [(l & x)|] eqn:P; [|discriminate]. bind_inv H. destruct x0 as (off' & xs). injection H as <- <-.
  cbn [assoc] in *. destruct (String.eqb k k0); [injection E as <-; eauto|eauto].
Qed.
Lemma addr_field d l v : parse FtNetworkAddressNoTimestamp d = Ok (l, v) -> exists fs s, v = VObj "NetworkAddress" fs /\ assoc "address" fs = Some (VStr s).
Proof.
  unfold FtNetworkAddressNoTimestamp. rewrite parse_compoundnots. intro H. bind_inv H. destruct x as (off & fs). injection H as <- <-.
  destruct (fields_parse_assoc _ _ _ _ _ H0 "address" FIP eq_refl) as (d' & l' & x & P & E). cbn [parse] in P. unfold ip_parse in P.
  repeat match type of P with context [if ?c then _ else _] => destruct c end; try (bind_inv P); try (injection P as <- <-); try discriminate; eauto.
Qed.
Definition has_version_fields (m : message) : Prop :=
  (forall k, In k ["services"; "start_height"; "user_agent"; "version"; "relay"] -> exists v, field k (m_fields m) = Ok v) /\
  exists v s, field "addr_recv" (m_fields m) = Ok v /\ attr "address" v = Ok (VStr s).
Definition t_version : msg_type := type_of "Version".
Section Replies.
Variable sha256 : bytes -> bytes.
Variable py2 : bool.
Variable cf : config.
Lemma parsed_version data magic m : msg_parse sha256 data magic = Ok m -> mt_command (m_type m) = "version" -> has_version_fields m /\ mt_name (m_type m) = "version".
Proof.
  intros H C. pose proof H as H'. apply msg_parse_inv in H. cbv zeta in H. destruct H as (_ & _ & _ & Ht & Hc & F).
  assert (m_type m = t_version) as Et.
  { assert (forall t, In t registry -> mt_command t = "version" -> t = t_version) as X; [|now apply X].
    intros t Hin. change registry with registry in Hin. vm_compute in Hin. intro E.
    repeat (destruct Hin as [<-|Hin]; [first [discriminate E|reflexivity]|]). destruct Hin. }
  destruct F as (n & F). rewrite Et in *. split; [|reflexivity].
  assert (forall k t, assoc k (mt_props t_version) = Some t -> exists d l x, parse t d = Ok (l, x) /\ field k (m_fields m) = Ok x) as A.
  { intros k t E. destruct (fields_parse_assoc _ _ _ _ _ F k t E) as (d & l & x & P & E'). exists d, l, x. unfold field. now rewrite E'. }
  split.
  - intros k Hk. assert (exists t, assoc k (mt_props t_version) = Some t) as (t & E).
    { repeat (destruct Hk as [<-|Hk]; [vm_compute; eauto|]). destruct Hk. }
    destruct (A k t E) as (d & l & x & _ & E'). eauto.
  - destruct (A "addr_recv" FtNetworkAddressNoTimestamp eq_refl) as (d & l & x & P & E). apply addr_field in P.
    destruct P as (fs & s & -> & Ea). exists (VObj "NetworkAddress" fs), s. split; [exact E|]. cbn [attr]. unfold field. now rewrite Ea.
Qed.
Lemma sends_upd i f n : sends_of (n_trace (upd i f n)) = sends_of (n_trace n). Proof. reflexivity. Qed.
Lemma sends_ext n : sends_of (n_trace (check_external_ip n)) = sends_of (n_trace n).
Proof. unfold check_external_ip. destruct (count_votes _ _ _); reflexivity. Qed.
Lemma get_ext i n : get_conn i (check_external_ip n) = get_conn i n.
Proof. unfold check_external_ip. destruct (count_votes _ _ _); reflexivity. Qed.
Definition t_pong : msg_type := type_of "Pong".
Definition t_verack : msg_type := type_of "VersionAck".
Definition note_version (m : message) (c : conn) : conn :=
  match field "services" (m_fields m), field "start_height" (m_fields m), field "user_agent" (m_fields m), field "version" (m_fields m),
        field "relay" (m_fields m), (let! v := field "addr_recv" (m_fields m) in attr "address" v) with
  | Ok sv, Ok sh, Ok ua, Ok ve, Ok re, Ok (VStr ip) =>
      set_c_services (Some sv) (set_c_start_height (Some sh)
             (set_c_user_agent (Some ua) (set_c_version (Some ve) (set_c_relay (Some re)
             (set_c_external_ip (Some ip) c)))))
  | _, _, _, _, _, _ => c
  end.
Lemma got_version_spec i m n : has_version_fields m -> got_version i m n = (check_external_ip (upd i (note_version m) n), Ok tt).
Proof.
  intros (A & v & s & Ev & Ea). unfold got_version, note_version. cbv zeta.
  destruct (A "services") as (sv & ->); [cbn; tauto|]. destruct (A "start_height") as (sh & ->); [cbn; tauto|].
  destruct (A "user_agent") as (ua & ->); [cbn; tauto|]. destruct (A "version") as (ve & ->); [cbn; tauto|]. destruct (A "relay") as (re & ->); [cbn; tauto|].
  rewrite Ev. cbn [bind]. unfold bindM, liftM, modM. cbv beta iota. rewrite Ea. cbn [as_text]. reflexivity.
Qed.
Lemma verack_binary : exists b, msg_binary sha256 (mk_message t_verack []) (cf_magic cf) = Ok b.
Proof. eexists. unfold msg_binary. cbn. reflexivity. Qed.
(** A version message: its data are recorded, the external IP is voted, and a
    verack is queued. *)
Lemma handle_version i m now n : mt_command (m_type m) = "version" -> mt_name (m_type m) = "version" -> has_version_fields m ->
  exists b, msg_binary sha256 (mk_message t_verack []) (cf_magic cf) = Ok b /\
  handle_message sha256 py2 cf i m now n = (queue i (mk_message t_verack []) b (check_external_ip (upd i (note_version m) n)), Ok tt).
Proof.
  intros C N F. destruct verack_binary as (b & E). exists b. split; [exact E|]. unfold handle_message. cbv zeta. rewrite C. cbn [String.eqb Ascii.eqb Bool.eqb].
  unfold bindM at 1. rewrite (got_version_spec i m n F), N.
  change (command sha256 py2 cf "version" i m now) with (Some (do! p := liftM (new_message (type_of "VersionAck") [] []) in send_message sha256 cf i p)).
  cbv iota. unfold bindM, liftM. change (new_message (type_of "VersionAck") [] []) with (Ok (mk_message t_verack [])). cbv iota.
  unfold send_message, bindM, liftM, modM. rewrite E. reflexivity.
Qed.
Lemma pong_binary nonce : zlen nonce = 8 -> exists b, msg_binary sha256 (mk_message t_pong [("nonce", VBytes nonce)]) (cf_magic cf) = Ok b.
Proof.
  intro L. unfold msg_binary. change (mt_props (m_type (mk_message t_pong [("nonce", VBytes nonce)]))) with [("nonce", FBytes 8)].
  cbn [m_fields fields_binary assoc String.eqb Ascii.eqb Bool.eqb binary bind]. cbn. rewrite app_nil_r. 
  eexists. unfold struct_pack. rewrite L. cbn. reflexivity.
Qed.
Lemma handle_ping i m now n nonce : mt_command (m_type m) = "ping" -> mt_name (m_type m) = "ping" ->
  field "nonce" (m_fields m) = Ok (VBytes nonce) -> zlen nonce = 8 ->
  exists b, msg_binary sha256 (mk_message t_pong [("nonce", VBytes nonce)]) (cf_magic cf) = Ok b /\
  handle_message sha256 py2 cf i m now n = (queue i (mk_message t_pong [("nonce", VBytes nonce)]) b n, Ok tt).
Proof.
  intros C N F L. destruct (pong_binary nonce L) as (b & E). exists b. split; [exact E|].
  unfold handle_message. cbv zeta. rewrite C. cbn [String.eqb Ascii.eqb Bool.eqb]. unfold bindM at 1, retM at 1. rewrite N.
  change (command sha256 py2 cf "ping" i m now) with (Some (do! nonce := liftM (field "nonce" (m_fields m)) in
     do! p := liftM (new_message (type_of "Pong") [nonce] []) in send_message sha256 cf i p)).
  cbv iota. unfold bindM, liftM. rewrite F. cbv iota.
  assert (new_message (type_of "Pong") [VBytes nonce] [] = Ok (mk_message t_pong [("nonce", VBytes nonce)])) as ->.
  { change (type_of "Pong") with (mk_msg_type "Pong" "pong" "pong" [("nonce", FBytes 8)]). unfold new_message, construct. cbn.
    rewrite L. cbn. reflexivity. }
  cbv iota. unfold send_message, bindM, liftM, modM. rewrite E. reflexivity.
Qed.
(** Every other message: at most one message is queued, on the same
    connection, and only in answer to ping, version and getaddr. *)
Lemma send_silent i p n : exists l, sends_of (n_trace (fst (send_message sha256 cf i p n))) = sends_of (n_trace n) ++ l /\ (l = [] \/ l = [(i, p)]).
Proof.
  unfold send_message, bindM, liftM, modM. destruct (msg_binary _ _ _) as [b|]; cbn [fst]; [|exists []; rewrite app_nil_r; auto].
  unfold queue. destruct (get_conn i n) as [c|]; [|exists []; rewrite app_nil_r; auto].
  exists [(i, p)]. split; [|auto]. unfold emit. cbn [n_trace set_n_trace upd set_n_conns]. now rewrite sends_app.
Qed.
Lemma learn_silent l n : silent n (fst (learn_addresses l n)).
Proof. apply (presR_learn silent); unfold silent; intros; first [reflexivity|congruence]. Qed.
Lemma got_version_silent i m n : silent n (fst (got_version i m n)).
Proof.
  apply (presR_got_version silent); unfold silent; intros; try congruence.
  - apply sends_ext.
  - reflexivity.
Qed.
Lemma handle_replies i m now n : exists l, sends_of (n_trace (fst (handle_message sha256 py2 cf i m now n))) = sends_of (n_trace n) ++ l /\
  (l = [] \/ exists p, l = [(i, p)] /\
     (mt_name (m_type m) = "ping" /\ (exists v, field "nonce" (m_fields m) = Ok v /\ new_message t_pong [v] [] = Ok p) \/
      mt_name (m_type m) = "version" /\ p = mk_message t_verack [] \/
      mt_name (m_type m) = "get_address" /\ exists n1, get_address_reply py2 n1 = Ok p /\ n_book n1 = n_book n)).
Proof.
  unfold handle_message. cbv zeta. unfold bindM at 1.
  match goal with |- context [(if ?c then got_version i m else ?y) n] => set (m1 := if c then got_version i m else y) end.
  assert (silent n (fst (m1 n))) as S1.
  { unfold m1. destruct (String.eqb (mt_command (m_type m)) "version"); [apply got_version_silent|]. destruct (String.eqb _ "verack"); reflexivity. }
  assert (n_book (fst (m1 n)) = n_book n) as B1.
  { unfold m1. destruct (String.eqb (mt_command (m_type m)) "version").
    - apply (presR_got_version (fun a b => n_book b = n_book a)); intros; try congruence; [|reflexivity].
      unfold check_external_ip. destruct (count_votes _ _ _); reflexivity.
    - destruct (String.eqb _ "verack"); reflexivity. }
  destruct (m1 n) as (n1 & [[]|er]); cbn [fst] in S1, B1; [|exists []; split; [rewrite app_nil_r; exact S1|auto]].
  unfold silent in S1. rewrite <- S1. clear S1.
  assert (forall X : Prop, (exists l, sends_of (n_trace n1) = sends_of (n_trace n1) ++ l /\ (l = [] \/ X)) ) as Triv by (intro; exists []; rewrite app_nil_r; auto).
  unfold command.
  destruct (String.eqb_spec (mt_name (m_type m)) "ping") as [E|].
  { unfold bindM, liftM. destruct (field "nonce" (m_fields m)) as [v|]; [|exists []; rewrite app_nil_r; auto]. destruct (new_message (type_of "Pong") [v] []) as [p|] eqn:Ep; [|exists []; rewrite app_nil_r; auto].
    destruct (send_silent i p n1) as (l & El & [->| ->]); [exists []; auto|]. exists [(i, p)]. split; [exact El|]. right. exists p. split; [reflexivity|]. left. split; [exact E|]. exists v. auto. }
  destruct (String.eqb_spec (mt_name (m_type m)) "pong"); [exists []; rewrite app_nil_r; auto|].
  destruct (String.eqb_spec (mt_name (m_type m)) "version") as [E|].
  { unfold bindM, liftM. change (new_message (type_of "VersionAck") [] []) with (Ok (mk_message t_verack [])). cbv iota.
    destruct (send_silent i (mk_message t_verack []) n1) as (l & El & [->| ->]); [exists []; auto|]. exists [(i, mk_message t_verack [])]. split; [exact El|]. right. eexists. split; [reflexivity|]. right. left. auto. }
  destruct (String.eqb_spec (mt_name (m_type m)) "version_ack").
  { exists []. rewrite app_nil_r. split; [|auto]. cbn. unfold record_peer. destruct (get_conn i n1); [|reflexivity]. destruct (_ <? _); reflexivity. }
  destruct (String.eqb_spec (mt_name (m_type m)) "get_address") as [E|].
  { unfold bindM, liftM, getM. cbv beta iota. destruct (get_address_reply py2 n1) as [p|] eqn:Ep; [|exists []; rewrite app_nil_r; auto].
    destruct (send_silent i p n1) as (l & El & [->| ->]); [exists []; auto|]. exists [(i, p)]. split; [exact El|]. right. exists p. split; [reflexivity|]. right. right. eauto. }
  destruct (String.eqb_spec (mt_name (m_type m)) "address").
  { exists []. rewrite app_nil_r. split; [|auto]. unfold bindM, liftM. destruct (field "addr_list" (m_fields m)) as [v|]; [|reflexivity].
    destruct v; try reflexivity; apply learn_silent. }
  exists []. rewrite app_nil_r. split; [|auto]. cbn. unfold no_handler, emit. cbn [n_trace set_n_trace]. rewrite sends_app. apply app_nil_r.
Qed.
End Replies.
