(** The version message that opens a connection, and the listener. *)
From Coq Require Import String ZArith List Lia Bool.
From Verif Require Import PyBase PyVal FormatModel MessagesModel FormatSpec FormatProofs MessagesProofs
  NodeModel NodeProofs NodeProofs2 NodeProofs3 NodeProofs4 NodeProofs5 NodeProofs6 NodeProofs7.
Import ListNotations.
Open Scope string_scope.
Open Scope list_scope.
Open Scope Z_scope.

(** An address that can be written in a message. *)
Definition usable (a : addr) : Prop := (exists b, ip_binary (VStr (fst a)) = Ok b) /\ 0 <= snd a < 65536.
Definition good_env (e : conn_env) : Prop := 0 <= ce_now e < 2 ^ 32 * SEC /\ zlen (ce_nonce e) = 8.
Definition good_config (cf : config) : Prop :=
  usable (cf_address cf) /\ 0 <= cf_protocol_version cf < 2 ^ 31 /\ 0 <= cf_height cf < 2 ^ 31 /\
  Forall (fun c => c < 256) (cf_user_agent cf) /\ zlen (cf_user_agent cf) < 65535.









Lemma ip_valid s b : ip_binary (VStr s) = Ok b -> ip_validate (VStr s) = Ok (Some (VStr s)) /\ zlen b = 16.
Proof.
  intro H. pose proof (ip_binary_len _ _ H) as (L & _). split; [|exact L].
  unfold ip_binary in H. unfold ip_validate. destruct (ipv4_groups s); [reflexivity|].
  destruct (ipv6_groups s) as [[g|]|]; try discriminate. reflexivity.
Qed.
Lemma pack_ok f big x : fst (struct_range f) <= x < snd (struct_range f) -> exists b, struct_pack f big x = Ok b /\ zlen b = Z.of_nat (nf_len f).
Proof.
  intro H. unfold struct_pack. destruct (struct_range f) as (lo, hi). cbn [fst snd] in H. replace ((lo <=? x) && (x <? hi)) with true by lia.
  eexists. split; [reflexivity|]. unfold zlen. destruct big; [now rewrite length_be_bytes|now rewrite length_le_bytes].
Qed.
Definition net_addr (now : Z) (a : addr) : pyval := VObj "NetworkAddress" [("timestamp", py_time now); ("services", VInt 1); ("address", VStr (fst a)); ("port", VInt (snd a))].
Lemma quot_range now : 0 <= now < 2 ^ 32 * SEC -> 0 <= Z.quot now (2 ^ 22) < 2 ^ 32.
Proof. intro H. rewrite Z.quot_div_nonneg by (try apply H; reflexivity). split; [apply Z.div_pos; [lia|reflexivity]|apply Z.div_lt_upper_bound; [reflexivity|unfold SEC in H; lia]]. Qed.
Lemma network_address_ok now a : usable a -> 0 <= now < 2 ^ 32 * SEC ->
  network_address now a = Ok (net_addr now a) /\ exists b, binary FtNetworkAddressNoTimestamp (net_addr now a) = Ok b /\ zlen b = 26.
Proof.
  intros ((b & B) & P) T. destruct (ip_valid _ _ B) as (V & L). split.
  - unfold network_address, construct. cbn -[ip_validate SEC Z.mul Z.pow]. replace ((0 * 2 ^ 22 <=? now) && (now <? 4294967296 * 2 ^ 22)) with true by (unfold SEC in T; lia).
    rewrite V. cbn [bind]. replace ((0 <=? snd a) && (snd a <? 65536)) with true by lia. reflexivity.
  - destruct (pack_ok FI false (Z.quot now (2 ^ 22)) (quot_range now T)) as (b1 & E1 & L1).
    destruct (pack_ok FH true (snd a) P) as (b2 & E2 & L2). cbn [nf_len] in L1, L2.
    assert (binary FtNetworkAddressNoTimestamp (net_addr now a) = Ok (zdrop 4 (b1 ++ [1;0;0;0;0;0;0;0] ++ b ++ b2 ++ []))) as E.
    { unfold net_addr, FtNetworkAddressNoTimestamp, NetworkAddress_props. cbn [binary assoc String.eqb Ascii.eqb Bool.eqb].
      change (num_binary FI false (py_time now)) with (struct_pack FI false (Z.quot now (2 ^ 22))). rewrite E1. cbn [bind].
      change (num_binary FQ false (VInt 1)) with (Ok [1;0;0;0;0;0;0;0]). cbn [bind]. rewrite B. cbn [bind]. cbn [num_binary]. rewrite E2. cbn [bind]. reflexivity. }
    eexists. split; [exact E|]. match goal with |- zlen (zdrop 4 ?x) = 26 => assert (zlen x = 30) as E30; [unfold zlen in *; rewrite !app_length; cbn [List.length]; lia|] end. rewrite zlen_zdrop; lia.
Qed.
Lemma user_agent_ok s : Forall (fun c => c < 256) s -> zlen s < 65535 -> exists b, varstr_binary (VStr s) = Ok b /\ zlen b <= zlen s + 3.
Proof.
  intros F L. unfold varstr_binary, latin1. replace (forallb (fun c => c <? 256) s) with true. 2:{ symmetry. apply forallb_forall. intros c Hc. rewrite Forall_forall in F. specialize (F c Hc). lia. }
  cbn [bind]. unfold varint_binary. pose proof (zlen_nonneg s). destruct (Z.ltb_spec (zlen s) 0xfd).
  - destruct (pack_ok FB false (zlen s)) as (b & E & Lb); [cbn; lia|]. rewrite E. cbn [bind]. eexists. split; [reflexivity|]. unfold zlen in *. rewrite app_length. cbn [nf_len] in Lb. lia.
  - destruct (Z.ltb_spec (zlen s) 0xffff); [|lia]. destruct (pack_ok FH false (zlen s)) as (b & E & Lb); [cbn; lia|]. rewrite E. cbn [bind]. eexists. split; [reflexivity|]. unfold zlen in *. rewrite app_length. cbn [List.length nf_len] in *. lia.
Qed.
Section Hello.
Variable sha256 : bytes -> bytes.
Variable cf : config.
Hypothesis Hcf : good_config cf.
Definition hello (now : Z) (nonce : bytes) (a : addr) (n : node) : message :=
  mk_message t_version [("version", VInt (cf_protocol_version cf)); ("services", VInt 1); ("timestamp", py_time now); ("addr_recv", net_addr now a); ("addr_from", net_addr now (external_ip n, snd (cf_address cf)));
    ("nonce", VBytes nonce); ("user_agent", VStr (cf_user_agent cf)); ("start_height", VInt (cf_height cf)); ("relay", VBool false)].
Lemma version_ok now nonce a n : usable a -> (exists b, ip_binary (VStr (external_ip n)) = Ok b) -> 0 <= now < 2 ^ 32 * SEC -> zlen nonce = 8 ->
  version_message cf now nonce a n = Ok (hello now nonce a n) /\ exists b, msg_binary sha256 (hello now nonce a n) (cf_magic cf) = Ok b.
Proof.
  intros U X T N. destruct Hcf as ((_ & Hp) & Hv & Hh & Hu & Hl). destruct (network_address_ok now a U T) as (A1 & b1 & B1 & L1).
  destruct (network_address_ok now (external_ip n, snd (cf_address cf)) (conj X Hp) T) as (A2 & b2 & B2 & L2). split.
  - unfold version_message. rewrite A1, A2. cbn [bind]. unfold new_message. 
    assert (construct (mt_id t_version) (mt_props t_version) []
    [ ("version", VInt (cf_protocol_version cf)); ("services", VInt 1); ("timestamp", py_time now);
      ("addr_recv", net_addr now a); ("addr_from", net_addr now (external_ip n, snd (cf_address cf))); ("nonce", VBytes nonce);
      ("user_agent", VStr (cf_user_agent cf)); ("start_height", VInt (cf_height cf));
      ("relay", VBool false) ] = Ok (VObj "Version" (m_fields (hello now nonce a n)))) as E; [|fold t_version; rewrite E; reflexivity].
    unfold construct. cbn -[zlen SEC Z.mul Z.pow net_addr].
    match goal with |- (if ?c then _ else _) = _ => change c with false end. cbv iota.
    replace ((-2147483648 <=? cf_protocol_version cf) && (cf_protocol_version cf <? 2147483648)) with true by lia.
    replace ((-9223372036854775808 * 2 ^ 22 <=? now) && (now <? 9223372036854775808 * 2 ^ 22)) with true by (unfold SEC in T; lia).
    replace (zlen nonce =? 8) with true by lia.
    replace ((-2147483648 <=? cf_height cf) && (cf_height cf <? 2147483648)) with true by lia.
    reflexivity.
  - destruct (pack_ok Fi false (cf_protocol_version cf)) as (b0 & E0 & L0); [cbn; lia|].
    destruct (pack_ok Fq false (Z.quot now (2 ^ 22))) as (b3 & E3 & L3); [pose proof (quot_range now T); change (fst (struct_range Fq)) with (-9223372036854775808); change (snd (struct_range Fq)) with 9223372036854775808; lia|].
    destruct (user_agent_ok _ Hu Hl) as (b4 & E4 & L4).
    destruct (pack_ok Fi false (cf_height cf)) as (b5 & E5 & L5); [cbn; lia|].
    assert (fields_binary (mt_props t_version) (m_fields (hello now nonce a n)) = Ok (b0 ++ [1;0;0;0;0;0;0;0] ++ b3 ++ b1 ++ b2 ++ nonce ++ b4 ++ b5 ++ [0] ++ [])) as E.
    { unfold hello. cbn [m_fields]. change (mt_props t_version) with [ ("version", FNumber Fi false false); ("services", FNumber FQ false false); ("timestamp", FNumber Fq false true);
        ("addr_recv", FtNetworkAddressNoTimestamp); ("addr_from", FtNetworkAddressNoTimestamp); ("nonce", FBytes 8); ("user_agent", FVarStr);
        ("start_height", FNumber Fi false false); ("relay", FOptional (FNumber FB false false) (VBool true)) ].
      cbn [fields_binary assoc String.eqb Ascii.eqb Bool.eqb]. rewrite B1, B2. cbn [binary num_binary].
      change (num_binary FQ false (VInt 1)) with (Ok [1;0;0;0;0;0;0;0]). rewrite E0. unfold py_time. cbn [num_binary]. change (float_trunc (FFin now (-22))) with (Ok (Z.quot now (2 ^ 22))). cbn [bind]. rewrite E3, E4, E5. reflexivity. }
    unfold msg_binary. change (mt_props (m_type (hello now nonce a n))) with (mt_props t_version). rewrite E. cbn [bind].
    match goal with |- context [struct_pack FI false ?x] => destruct (pack_ok FI false x) as (bl & El & _); [|rewrite El; cbn [bind]; eexists; reflexivity] end.
    cbn [nf_len] in *. pose proof (zlen_nonneg (cf_user_agent cf)). unfold zlen in *. rewrite !app_length. cbn [List.length]. cbn [struct_range nf_len nf_signed fst snd]. change (256 ^ Z.of_nat 4) with 4294967296. lia.
Qed.
End Hello.
(** ** Opening *)
Definition ipok (s : text) : Prop := exists b, ip_binary (VStr s) = Ok b.
Definition not_version (m : message) : Prop := mt_command (m_type m) <> "version".
(** The messages queued on connection [i], in order. *)
Definition msgs_of (i : nat) (tr : list action) : list message :=
  flat_map (fun a => match a with AQueue j m _ => if Nat.eqb j i then [m] else [] | _ => [] end) tr.
Lemma msgs_app i a b : msgs_of i (a ++ b) = msgs_of i a ++ msgs_of i b. Proof. apply flat_map_app. Qed.
(** Our version message to [a]. *)
Definition is_hello (cf : config) (a : addr) (m : message) : Prop := exists now nonce ip,
  m = mk_message t_version [("version", VInt (cf_protocol_version cf)); ("services", VInt 1); ("timestamp", py_time now); ("addr_recv", net_addr now a); ("addr_from", net_addr now (ip, snd (cf_address cf)));
    ("nonce", VBytes nonce); ("user_agent", VStr (cf_user_agent cf)); ("start_height", VInt (cf_height cf)); ("relay", VBool false)].
(** What has been queued on a connection: the version message first, then
    others; or, if dialling failed, nothing that reached the socket. *)
Definition opened (cf : config) (i : nat) (c : conn) (tr : list action) : Prop :=
  exists m r, msgs_of i tr = m :: r /\ is_hello cf (c_address c) m /\ Forall not_version r.
Definition failed (i : nat) (c : conn) (tr : list action) : Prop :=
  c_open c = false /\ wire_of i tr = [] /\ Forall not_version (msgs_of i tr).
Definition conn_ok (cf : config) (tr : list action) (i : nat) (c : conn) : Prop :=
  usable (c_address c) /\ (forall ip, c_external_ip c = Some ip -> ipok ip) /\ wf_bytes (c_recv c) /\ (opened cf i c tr \/ failed i c tr).
Definition book_usable (b : list (addr * (pyval * option pyval))) : Prop := Forall (fun kv => usable (fst kv)) b.
Record fine (cf : config) (n : node) : Prop := mk_fine {
  f_listener : n_listener n = true;
  f_ext : n_external_ip n = None;
  f_guess : ipok (n_guessed_ip n);
  f_book : book_usable (n_book n);
  f_conns : forall i c, get_conn i n = Some c -> conn_ok cf (n_trace n) i c;
  f_none : forall i, get_conn i n = None -> msgs_of i (n_trace n) = [] /\ wire_of i (n_trace n) = [] }.
Section Fine.
Variable sha256 : bytes -> bytes.
Variable py2 : bool.
Variable cf : config.
Hypothesis Hcf : good_config cf.
Hypothesis Hboot : Forall usable (cf_bootstrap cf).
Notation fine := (fine cf).
Definition F (n n' : node) : Prop := fine n -> fine n'.
Lemma F_refl n : F n n. Proof. exact (fun H => H). Qed.
Lemma F_trans a b c : F a b -> F b c -> F a c. Proof. unfold F. tauto. Qed.
Lemma fine_external n : fine n -> ipok (external_ip n).
Proof. intros [_ E G _ _ _]. unfold external_ip. now rewrite E. Qed.
Lemma F_upd i f n : (forall c, c_address (f c) = c_address c /\ (c_open (f c) = true -> c_open c = true) /\
    ((forall ip, c_external_ip c = Some ip -> ipok ip) -> forall ip, c_external_ip (f c) = Some ip -> ipok ip) /\ (wf_bytes (c_recv c) -> wf_bytes (c_recv (f c)))) -> F n (upd i f n).
Proof.
  intros Hf [L E G B C N]. constructor; try assumption.
  - intros j c. rewrite get_upd. destruct (Nat.eqb_spec i j) as [<-|Hne]; [|apply C]. destruct (get_conn i n) as [c0|] eqn:Ec; [|discriminate]. cbn [option_map]. intro H. injection H as <-.
    destruct (C i c0 Ec) as (A1 & A2 & A3 & A4). destruct (Hf c0) as (H1 & H2 & H3 & H4). split; [now rewrite H1|]. split; [now apply H3|]. split; [now apply H4|].
    destruct A4 as [(m & r & M & I & R)|(O & W & R)]; [left; exists m, r; split; [exact M|]; rewrite H1; now split|]. right. split; [|now split]. destruct (c_open (f c0)) eqn:Eo; [|reflexivity]. rewrite (H2 eq_refl) in O. discriminate O.
  - intros j Hj. rewrite get_upd in Hj. apply N. destruct (Nat.eqb i j); [|exact Hj]. destruct (get_conn j n); [discriminate Hj|reflexivity].
Qed.
Definition quiet_action (a : action) : Prop := match a with AQueue _ _ _ | AWire _ _ => False | _ => True end.
Lemma quiet_msgs a i tr : quiet_action a -> msgs_of i (tr ++ [a]) = msgs_of i tr /\ wire_of i (tr ++ [a]) = wire_of i tr.
Proof. intro Q. rewrite msgs_app, wire_app. destruct a; try destruct Q; cbn; now rewrite !app_nil_r. Qed.
Lemma F_emit a n : quiet_action a -> F n (emit a n).
Proof.
  intros Q [L E G B C N]. constructor; try assumption.
  - intros i c Hc. destruct (C i c Hc) as (A1 & A2 & A3 & A4). split; [exact A1|split; [exact A2|split; [exact A3|]]]. unfold opened, failed, emit. cbn [n_trace set_n_trace]. destruct (quiet_msgs a i (n_trace n) Q) as (-> & ->). exact A4.
  - intros i Hc. unfold emit. cbn [n_trace set_n_trace]. destruct (quiet_msgs a i (n_trace n) Q) as (-> & ->). now apply N.
Qed.
Lemma F_queue n i m b : not_version m -> F n (queue i m b n).
Proof.
  intros Nv [L E G B C N]. unfold queue. destruct (get_conn i n) as [c|] eqn:Ec; [|now constructor]. constructor; try assumption.
  - intros j cj. rewrite get_emit, get_upd. destruct (Nat.eqb_spec i j) as [<-|Hne].
    + rewrite Ec. cbn [option_map]. intro H. injection H as <-. destruct (C i c Ec) as (A1 & A2 & A3 & A4). split; [exact A1|split; [exact A2|split; [exact A3|]]].
      unfold opened, failed, emit. cbn [n_trace set_n_trace upd set_n_conns]. rewrite msgs_app, wire_app. cbn [msgs_of wire_of flat_map]. rewrite Nat.eqb_refl, app_nil_r. cbn [app].
      destruct A4 as [(m0 & r & M & I & R)|(O & W & R)]; [left; exists m0, (r ++ [m]); rewrite M; split; [reflexivity|]; split; [exact I|]; apply Forall_app; split; [exact R|now constructor]|].
      right. split; [exact O|]. split; [now rewrite app_nil_r|]. apply Forall_app; split; [exact R|now constructor].
    + intro Hj. destruct (C j cj Hj) as (A1 & A2 & A3 & A4). split; [exact A1|split; [exact A2|split; [exact A3|]]].
      unfold opened, failed, emit. cbn [n_trace set_n_trace upd set_n_conns]. rewrite msgs_app, wire_app. cbn [msgs_of wire_of flat_map]. destruct (Nat.eqb_spec i j) as [K|_]; [contradiction|]. cbn [app]. now rewrite !app_nil_r.
  - intros j Hj. rewrite get_emit, get_upd in Hj. destruct (Nat.eqb_spec i j) as [E0|Hne]; [rewrite <- E0, Ec in Hj; discriminate|].
    destruct (N j Hj) as (N1 & N2). unfold emit. cbn [n_trace set_n_trace upd set_n_conns]. rewrite msgs_app, wire_app, N1, N2. cbn. destruct (Nat.eqb_spec i j) as [K|_]; [contradiction|]. now split.
Qed.
Lemma F_book b n : (book_usable (n_book n) -> book_usable b) -> F n (set_n_book b n).
Proof. intros H [L E G B C N]. constructor; try assumption. now apply H. Qed.
Lemma F_same n n' : n_listener n' = n_listener n -> n_external_ip n' = n_external_ip n -> n_guessed_ip n' = n_guessed_ip n -> n_book n' = n_book n -> n_conns n' = n_conns n -> n_trace n' = n_trace n -> F n n'.
Proof.
  intros E1 E2 E3 E4 E5 E6 [L E G B C N]. constructor; try congruence.
  - intros i c. unfold get_conn. rewrite E5, E6. apply C.
  - intros i. unfold get_conn. rewrite E5, E6. apply N.
Qed.
Lemma F_shut n i : F n (shut i n).
Proof.
  unfold shut. destruct (get_conn i n) as [c|] eqn:E; [|apply F_refl]. eapply F_trans; [|unfold disconnected; destruct (book_mem _ _); [apply F_book|apply F_refl]].
  - eapply F_trans; [apply (F_upd i (set_c_open false))|apply F_emit; exact I]. intro c0. repeat split; auto. discriminate.
  - unfold book_usable, book_del. intro H. rewrite Forall_forall in *. intros kv Hk. apply filter_In in Hk. now apply H.
Qed.
Lemma F_add n i : F n (add_banscore i n).
Proof. unfold add_banscore. destruct (get_conn i n); [|apply F_refl]. apply F_upd. intro. repeat split; auto. Qed.
Lemma F_reduce n i : F n (reduce_banscore i n).
Proof. unfold reduce_banscore. destruct (get_conn i n); [|apply F_refl]. apply F_upd. intro. repeat split; auto. Qed.
Lemma F_pinged n i now now2 : F n (pinged i now now2 n).
Proof. unfold pinged. destruct (get_conn i n); [|apply F_refl]. eapply F_trans; [apply (F_upd i (set_c_last_ping now2))|apply F_emit; exact I]. intro. repeat split; auto. Qed.
Lemma F_ban n ip now : F n (ban ip now n).
Proof. unfold ban. eapply F_trans; [|apply F_emit; exact I]. now apply F_same. Qed.
Lemma F_beat n now : F n (beat now n).
Proof. unfold beat. eapply F_trans; [|apply F_emit; exact I]. now apply F_same. Qed.
Lemma book_set_usable a v b : usable a -> book_usable b -> book_usable (book_set a v b).
Proof.
  intros U. induction b as [|(k & w) b IH]; intro H; cbn [book_set]; [constructor; [exact U|constructor]|]. inversion H; subst. destruct (addr_eqb k a); constructor; auto. now apply IH.
Qed.
Lemma F_record n i now : F n (record_peer i now n).
Proof.
  unfold record_peer. destruct (get_conn i n) as [c|] eqn:E; [|apply F_refl]. destruct (_ <? _); [|apply F_refl]. intro H. apply F_book; [|exact H]. apply book_set_usable. now apply (f_conns _ _ H i c E).
Qed.
Lemma in_counter n ps : forall l a, In a (map fst (count_votes n ps l)) -> In a (map fst l) \/ exists i c, get_conn i n = Some c /\ c_external_ip c = Some a.
Proof.
  induction ps as [|i ps IH]; intros l a; cbn [count_votes]; [auto|]. intro H. apply IH in H. destruct H as [H|H]; [|auto].
  destruct (get_conn i n) as [c|] eqn:G; [|auto]. destruct (c_external_ip c) as [x|] eqn:X; [|auto].
  assert (a = x \/ In a (map fst l)) as [->|K]; [|right; eauto|auto]. clear - H. induction l as [|(k & v) l IH]; cbn in *; [destruct H as [H|[]]; auto|]. destruct (bytes_eqb k x); cbn in *; [tauto|]. destruct H as [H|H]; [auto|]. apply IH in H. tauto.
Qed.
Lemma F_vote n : F n (check_external_ip n).
Proof.
  intro H. unfold check_external_ip. destruct (count_votes n (peers n) []) as [|kv r] eqn:E; [exact H|].
  destruct H as [L X G B C N]. constructor; try assumption. cbn [n_guessed_ip set_n_guessed_ip].
  set (l := map (fun kv : text * Z => (snd kv, fst kv)) (kv :: r)). assert (sort_by vote_leb l <> []) as Ne. { intro K. assert (In (snd kv, fst kv) (sort_by vote_leb l)) as I; [|rewrite K in I; destruct I]. apply (Permutation.Permutation_in _ (sort_perm _ l)). now left. }
  assert (In (last (sort_by vote_leb l) (0, [])) l) as I. { apply (Permutation.Permutation_in _ (Permutation.Permutation_sym (sort_perm vote_leb l))). destruct (exists_last Ne) as (q & x & ->). rewrite last_last. apply in_or_app. right. now left. }
  apply in_map_iff in I. destruct I as (kw & <- & I). cbn [snd]. assert (In (fst kw) (map fst (count_votes n (peers n) []))) as K by (rewrite E; now apply in_map). apply in_counter in K. destruct K as [[]|(i & c & Gc & Ec)].
  exact (proj1 (proj2 (C i c Gc)) _ Ec).
Qed.

(** *** What a parsed message may contain *)
Lemma wf_drop k s : wf_bytes s -> wf_bytes (zdrop k s).
Proof. intro W. rewrite <- (ztake_zdrop s k) in W. apply wf_bytes_app in W. tauto. Qed.
Lemma wf_take k s : wf_bytes s -> wf_bytes (ztake k s).
Proof. intro W. rewrite <- (ztake_zdrop s k) in W. apply wf_bytes_app in W. tauto. Qed.
Lemma fields_parse_wf ps : forall off data n fs, wf_bytes data -> fields_parse ps off data = Ok (n, fs) ->
  forall k t, assoc k ps = Some t -> exists d l x, wf_bytes d /\ parse t d = Ok (l, x) /\ assoc k fs = Some x.
Proof.
  induction ps as [|(k0 & t0) ps IH]; intros off data n fs W H k t E; [discriminate|]. cbn [fields_parse] in H.
  destruct (parse t0 (zdrop off data)) as [(l & x)|] eqn:P; [|discriminate]. bind_inv H. destruct x0 as (off' & xs). injection H as <- <-.
  cbn [assoc] in *. destruct (String.eqb k k0); [injection E as <-; exists (zdrop off data), l, x; split; [now apply wf_drop|]; now split|].
  exact (IH _ _ _ _ W H0 k t E).
Qed.
Lemma ip_parse_ok d l x : wf_bytes d -> ip_parse d = Ok (l, x) -> exists s, x = VStr s /\ ipok s.
Proof.
  intros W H. assert (zlen (ztake 16 d) = 16) as L.
  { unfold ip_parse in H. destruct (_ && _).
    - destruct (Z.eqb_spec (zlen (slice 12 16 d)) 4) as [E|]; [|discriminate]. unfold slice in E. rewrite zlen_ztake, zlen_zdrop in E by lia. rewrite zlen_ztake; lia.
    - destruct (Z.eqb_spec (zlen (ztake 16 d)) 16) as [E|]; [exact E|discriminate]. }
  rewrite <- (ztake_zdrop d 16), (ip_parse_spec (ztake 16 d) (zdrop 16 d) L) in H. injection H as <- <-. eexists. split; [reflexivity|]. exists (ztake 16 d). now apply ip_binary_text; [apply wf_take|].
Qed.
(** A parsed network address is usable. *)
Definition usable_value (v : pyval) : Prop := forall av ip pv port,
  attr "address" v = Ok av -> as_text av = Ok ip -> attr "port" v = Ok pv -> as_int pv = Ok port -> usable (ip, port).
Lemma address_fields off data n fs c : wf_bytes data -> fields_parse NetworkAddress_props off data = Ok (n, fs) -> usable_value (VObj c fs).
Proof.
  intros W H av ip pv port Ha Ht Hp Hi. cbn [attr] in Ha, Hp. unfold field in Ha, Hp.
  destruct (fields_parse_wf _ _ _ _ _ W H "address" FIP eq_refl) as (d1 & l1 & x1 & W1 & P1 & E1). rewrite E1 in Ha. injection Ha as <-.
  destruct (fields_parse_wf _ _ _ _ _ W H "port" (FNumber FH true false) eq_refl) as (d2 & l2 & x2 & W2 & P2 & E2). rewrite E2 in Hp. injection Hp as <-.
  cbn [parse] in P1. apply ip_parse_ok in P1; [|exact W1]. destruct P1 as (s & -> & S). cbn [as_text] in Ht. injection Ht as <-. split; [exact S|]. cbn [snd].
  cbn [parse] in P2. unfold num_parse in P2. cbv zeta in P2. bind_inv P2. injection P2 as <- <-. cbn [as_int] in Hi. injection Hi as <-.
  unfold struct_unpack in H0. change (nf_len FH) with 2%nat in H0. destruct (Z.eqb_spec (zlen (ztake (Z.of_nat 2) d2)) (Z.of_nat 2)) as [L|]; [|discriminate]. cbv zeta in H0. change (nf_signed FH) with false in H0. cbn [andb] in H0. injection H0 as <-.
  pose proof (be_val_bound (ztake (Z.of_nat 2) d2) (wf_take _ _ W2)) as B. rewrite L in B. exact B.
Qed.
Lemma address_parse d l v : wf_bytes d -> parse FtNetworkAddress d = Ok (l, v) -> usable_value v.
Proof. intros W. unfold FtNetworkAddress. rewrite parse_compound. intro H. bind_inv H. destruct x as (off & fs). injection H as <- <-. exact (address_fields _ _ _ _ _ W H0). Qed.
Lemma items_usable k : forall d off n l, wf_bytes d -> parse_items (parse FtNetworkAddress) k d off = Ok (n, l) -> Forall usable_value l.
Proof.
  induction k as [|k IH]; intros d off n l W H; cbn [parse_items] in H; [injection H as <- <-; constructor|].
  bind_inv H. destruct x as (len & x). bind_inv H. destruct x0 as (off' & xs). injection H as <- <-. constructor; [exact (address_parse _ _ _ (wf_drop _ _ W) H0)|exact (IH _ _ _ _ W H1)].
Qed.
Lemma addr_recv_ok d l v : wf_bytes d -> parse FtNetworkAddressNoTimestamp d = Ok (l, v) -> forall av ip, attr "address" v = Ok av -> as_text av = Ok ip -> ipok ip.
Proof.
  intros W. unfold FtNetworkAddressNoTimestamp. rewrite parse_compoundnots. intro H. bind_inv H. destruct x as (off & fs). injection H as <- <-. intros av ip Ha Ht.
  assert (wf_bytes ([0; 0; 0; 0] ++ d)) as W' by (apply wf_bytes_app; split; [repeat constructor; lia|exact W]).
  cbn [attr] in Ha. unfold field in Ha. destruct (fields_parse_wf _ _ _ _ _ W' H0 "address" FIP eq_refl) as (d1 & l1 & x1 & W1 & P1 & E1). rewrite E1 in Ha. injection Ha as <-.
  cbn [parse] in P1. apply ip_parse_ok in P1; [|exact W1]. destruct P1 as (s & -> & S). cbn [as_text] in Ht. now injection Ht as <-.
Qed.
(** What the handlers rely on in a received message. *)
Definition sound (m : message) : Prop :=
  (mt_command (m_type m) = "version" -> forall v av ip, field "addr_recv" (m_fields m) = Ok v -> attr "address" v = Ok av -> as_text av = Ok ip -> ipok ip) /\
  (mt_name (m_type m) = "address" -> forall l, field "addr_list" (m_fields m) = Ok (VList l) \/ field "addr_list" (m_fields m) = Ok (VTuple l) -> Forall usable_value l).
Lemma parsed_sound data magic m : wf_bytes data -> msg_parse sha256 data magic = Ok m -> sound m.
Proof.
  intros W H. apply msg_parse_inv in H. cbv zeta in H. destruct H as (_ & _ & _ & Ht & _ & n & F).
  assert (wf_bytes (slice 24 (24 + le_val (slice 16 20 data)) data)) as W' by (unfold slice at 1; now apply wf_take, wf_drop).
  split.
  - intro C. assert (m_type m = t_version) as Et.
    { assert (forall t, In t registry -> mt_command t = "version" -> t = t_version) as X; [|now apply X].
      intros t Hin. vm_compute in Hin. intro E. repeat (destruct Hin as [<-|Hin]; [first [discriminate E|reflexivity]|]). destruct Hin. }
    rewrite Et in F. intros v av ip Hv. destruct (fields_parse_wf _ _ _ _ _ W' F "addr_recv" FtNetworkAddressNoTimestamp eq_refl) as (d & l & x & Wd & P & E). unfold field in Hv. rewrite E in Hv. injection Hv as <-. exact (addr_recv_ok d l x Wd P av ip).
  - intro C. assert (m_type m = type_of "Address") as Et.
    { assert (forall t, In t registry -> mt_name t = "address" -> t = type_of "Address") as X; [|now apply X].
      intros t Hin. vm_compute in Hin. intro E. repeat (destruct Hin as [<-|Hin]; [first [discriminate E|reflexivity]|]). destruct Hin. }
    rewrite Et in F. intros l0 Hv. destruct (fields_parse_wf _ _ _ _ _ W' F "addr_list" (FArray FtNetworkAddress None (Some 1000)) eq_refl) as (d & l & x & Wd & P & E). unfold field in Hv. rewrite E in Hv.
    cbn [parse] in P. bind_inv P. destruct x0 as (off & xs). injection P as <- <-. destruct Hv as [Hv|Hv]; [|discriminate]. injection Hv as <-.
    unfold parse_var_set in H. bind_inv H. destruct x as (o & c). exact (items_usable _ _ _ _ _ Wd H).
Qed.
(** *** The handlers *)
Notation pres := (presR F).
Lemma pF_ret {A} (a : A) : pres (retM a). Proof. apply presR_ret. exact F_refl. Qed.
Lemma pF_raise {A} e : pres (@raiseM A e). Proof. apply presR_raise. exact F_refl. Qed.
Lemma pF_lift {A} (r : res A) : pres (liftM r). Proof. apply presR_lift. exact F_refl. Qed.
Lemma pF_bind {A B} (m : M A) (k : A -> M B) : pres m -> (forall a, pres (k a)) -> pres (bindM m k). Proof. apply presR_bind. exact F_trans. Qed.
Lemma pF_try {A} (m : M A) h : pres m -> (forall e, pres (h e)) -> pres (tryM m h). Proof. apply presR_try. exact F_trans. Qed.
Lemma pF_bindlift {A B} (r : res A) (k : A -> M B) : (forall a, r = Ok a -> pres (k a)) -> pres (bindM (liftM r) k).
Proof. intros H n. unfold bindM, liftM. destruct r as [a|e]; [exact (H a eq_refl n)|apply F_refl]. Qed.
Lemma pF_send i m : not_version m -> pres (send_message sha256 cf i m).
Proof. intro N. unfold send_message. apply pF_bindlift. intros b _. apply presR_mod. intro n. now apply F_queue. Qed.
Lemma new_message_type t args kw m : new_message t args kw = Ok m -> m_type m = t.
Proof. unfold new_message. intro H. bind_inv H. destruct x; try discriminate. now injection H as <-. Qed.
Lemma pF_reply i name args kw : mt_command (type_of name) <> "version" -> pres (do! p := liftM (new_message (type_of name) args kw) in send_message sha256 cf i p).
Proof. intro N. apply pF_bindlift. intros p E. apply pF_send. unfold not_version. now rewrite (new_message_type _ _ _ _ E). Qed.
Lemma pF_got_version i m : sound m -> mt_command (m_type m) = "version" -> pres (got_version i m).
Proof.
  intros S C. unfold got_version. cbv zeta. do 5 (apply pF_bindlift; intros ? _). apply pF_bindlift. intros ar Ear. apply pF_bindlift. intros av Eav. apply pF_bindlift. intros ip Eip.
  pose proof (proj1 S C ar av ip Ear Eav Eip) as K. apply pF_bind; [|intros _; apply presR_mod; exact F_vote].
  apply presR_mod. intro n. apply F_upd. intro c. split; [reflexivity|]. split; [auto|]. split; [|auto]. intros _ ip' E. cbn in E. now injection E as <-.
Qed.
Lemma pF_learn l : Forall usable_value l -> pres (learn_addresses l).
Proof.
  induction 1 as [|v l U H IH]; cbn [learn_addresses]; [apply pF_ret|]. apply presR_get. intro n. destruct (_ >? _); [apply F_refl|].
  match goal with |- F n (fst (?m n)) => assert (pres m) as K; [|apply K] end.
  apply pF_bindlift. intros av Ea. apply pF_bindlift. intros ip Et. apply pF_bindlift. intros pv Ep. apply pF_bindlift. intros port Ei. do 2 (apply pF_bindlift; intros ? _).
  apply pF_bind; [|intros _; exact IH]. apply presR_mod. intro n'. apply F_book. apply book_set_usable. exact (U av ip pv port Ea Et Ep Ei).
Qed.
Lemma pF_command i m now f : sound m -> command sha256 py2 cf (mt_name (m_type m)) i m now = Some f -> pres f.
Proof.
  intros S. unfold command. cbv zeta.
  destruct (String.eqb _ "ping"). { intro H; injection H as <-. apply pF_bindlift. intros nonce _. apply pF_reply. vm_compute. discriminate. }
  destruct (String.eqb _ "pong"). { intro H; injection H as <-. apply pF_ret. }
  destruct (String.eqb _ "version"). { intro H; injection H as <-. apply pF_reply. vm_compute. discriminate. }
  destruct (String.eqb _ "version_ack"). { intro H; injection H as <-. apply presR_mod. intro n. apply F_record. }
  destruct (String.eqb _ "get_address").
  { intro H; injection H as <-. apply presR_get. intro n. match goal with |- F n (fst (?m n)) => assert (pres m) as K; [|apply K] end. apply pF_bindlift. intros p E. apply pF_send.
    unfold get_address_reply in E. destruct (negb py2); [discriminate|]. bind_inv E. apply new_message_type in E. unfold not_version. rewrite E. vm_compute. discriminate. }
  destruct (String.eqb_spec (mt_name (m_type m)) "address") as [C|]; [|discriminate]. intro H; injection H as <-. apply pF_bindlift. intros v E. pose proof (proj2 S C) as K.
  destruct v; try apply pF_raise; apply pF_learn, K; rewrite E; auto.
Qed.
Lemma pF_message i m now : sound m -> pres (handle_message sha256 py2 cf i m now).
Proof.
  intro S. unfold handle_message. cbv zeta. apply pF_bind.
  - destruct (String.eqb_spec (mt_command (m_type m)) "version"); [now apply pF_got_version|]. destruct (String.eqb _ "verack"); [|apply pF_ret]. apply presR_mod. intro n0. apply F_upd. intro c. repeat split; auto.
  - intros []. destruct (command _ _ _ _ i m now) as [f|] eqn:E; [exact (pF_command i m now f S E)|]. apply presR_mod. intro n. apply F_emit. exact I.
Qed.
Lemma pF_frame i payload now : wf_bytes payload -> pres (handle_frame sha256 py2 cf i payload now).
Proof.
  intro W. unfold handle_frame. destruct (msg_parse sha256 payload (cf_magic cf)) as [m|e] eqn:E.
  - apply pF_bind; [apply presR_mod; intro n; apply F_emit; exact I|]. intros _. apply pF_try; [apply pF_message; exact (parsed_sound _ _ _ W E)|]. intro e. apply presR_mod. intro n. apply F_emit. destruct (is_invalid e); exact I.
  - apply presR_mod. intro n. apply F_emit. destruct (is_invalid e); exact I.
Qed.
Lemma pF_read_loop fuel : forall i clock, pres (read_loop sha256 py2 cf fuel i clock).
Proof.
  induction fuel as [|k IH]; intros i clock; cbn [read_loop]; [apply pF_ret|]. intros n H. unfold bindM at 1, getM at 1. cbv beta iota.
  destruct (get_conn i n) as [c|] eqn:E; [|exact H]. destruct (first_msg_len (c_recv c)) as [len|]; [|exact H]. destruct (_ >? _); [exact H|]. cbv zeta.
  pose proof (proj1 (proj2 (proj2 (f_conns _ _ H i c E)))) as W.
  match goal with |- fine (fst (?m n)) => assert (pres m) as K; [|exact (K n H)] end.
  apply pF_bind; [|intros _; apply pF_bind; [apply pF_frame; now apply wf_take|intros _; apply IH]].
  apply presR_mod. intro n0. apply F_upd. intro c0. split; [reflexivity|]. split; [auto|]. split; [auto|]. intros _. cbn. now apply wf_drop.
Qed.
Lemma pF_read i r now clock : (match r with RData ch => wf_bytes ch | RError => True end) -> pres (handle_read sha256 py2 cf i r now clock).
Proof.
  intro W. destruct r as [[|x ch]|]; cbn [handle_read]; try (apply presR_close; exact F_shut); try (apply pF_bind; [|intros _]; apply presR_close; exact F_shut).
  apply pF_bind; [|intros _; apply presR_get; intro n; destruct (get_conn i n); [apply pF_read_loop|apply F_refl]].
  apply presR_mod. intro n. unfold received. destruct (get_conn i n) as [c|] eqn:E; [|apply F_refl]. eapply F_trans; [|apply F_emit; exact I]. match goal with |- F n (set_n_rx ?x (upd i ?g n)) => apply (F_trans n (upd i g n)); [|apply F_same; reflexivity] end.
  apply F_upd. intro c0. split; [reflexivity|]. split; [auto|]. split; [auto|]. intro W0. cbn. apply wf_bytes_app. now split.
Qed.
Lemma pF_readable i now now2 nonce : pres (readable sha256 cf i now now2 nonce).
Proof.
  unfold readable. apply presR_get. intro n. destruct (get_conn i n) as [c|]; [|apply F_refl]. cbv zeta. match goal with |- F n (fst (?m n)) => assert (pres m) as K; [|apply K] end.
  apply pF_bind.
  - destruct (_ && _); [|apply pF_ret]. apply pF_bindlift. intros m E. apply pF_bind; [apply pF_send; unfold not_version; rewrite (new_message_type _ _ _ _ E); vm_compute; discriminate|]. intros _. apply presR_mod. intro n0. apply F_pinged.
  - intros _. destruct (_ && _); [|apply pF_ret]. apply pF_bind; [apply presR_close; exact F_shut|intros _; apply pF_ret].
Qed.
Lemma fine_register n : fine n -> forall n2, let i := List.length (n_conns n) in
  n_listener n2 = n_listener n -> n_external_ip n2 = n_external_ip n -> n_guessed_ip n2 = n_guessed_ip n -> n_book n2 = n_book n ->
  (forall j, j <> i -> get_conn j n2 = get_conn j n /\ msgs_of j (n_trace n2) = msgs_of j (n_trace n) /\ wire_of j (n_trace n2) = wire_of j (n_trace n)) ->
  (exists c, get_conn i n2 = Some c /\ conn_ok cf (n_trace n2) i c) -> fine n2.
Proof.
  intros [L E G B C N] n2 i H1 H2 H3 H4 H5 (c & Hc & Hok). constructor; try congruence.
  - intros j cj Hj. destruct (Nat.eq_dec j i) as [->|Ne]; [congruence|]. destruct (H5 j Ne) as (A1 & A2 & A3). unfold conn_ok, opened, failed. rewrite A2, A3. rewrite A1 in Hj. exact (C j cj Hj).
  - intros j Hj. destruct (Nat.eq_dec j i) as [->|Ne]; [congruence|]. destruct (H5 j Ne) as (A1 & A2 & A3). rewrite A2, A3. rewrite A1 in Hj. exact (N j Hj).
Qed.
Lemma hello_is now nonce a n : is_hello cf a (hello cf now nonce a n).
Proof. exists now, nonce, (external_ip n). reflexivity. Qed.
Lemma fine_connect a inc e n : fine n -> usable a -> good_env e -> 
  fine (fst (new_connection sha256 cf a inc e n)) /\ (inc = true -> snd (new_connection sha256 cf a inc e n) = Ok tt).
Proof.
  intros H U (G1 & G2). unfold new_connection, handle_close, bindM, getM, modM, liftM, raiseM. cbv beta iota zeta.
  assert (get_conn (List.length (n_conns n)) n = None) as Gn by (apply nth_error_None; lia). destruct (f_none _ _ H _ Gn) as (M0 & W0).
  set (i := List.length (n_conns n)) in *. assert (get_conn i (register a inc n) = Some (fresh_conn a inc)) as Gr by (rewrite get_register; unfold i; now rewrite Nat.eqb_refl).
  destruct (negb inc && negb (ce_ok e)) eqn:Ei.
  - split; [|intros ->; discriminate Ei]. cbn [fst]. unfold shut. rewrite Gr.
    assert (fine (emit (AClose i) (upd i (set_c_open false) (register a inc n)))) as K.
    { apply (fine_register n H); try reflexivity.
      - intros j Ne. change (j <> i) in Ne. rewrite get_emit, get_upd, get_register. fold i. destruct (Nat.eqb_spec i j); [congruence|]. destruct (Nat.eqb_spec j i); [congruence|]. split; [reflexivity|].
        unfold emit, upd, register. cbn [n_trace set_n_trace set_n_conns emit]. rewrite !msgs_app, !wire_app. cbn. now rewrite !app_nil_r.
      - exists (set_c_open false (fresh_conn a inc)). split; [rewrite get_emit, get_upd; fold i; rewrite Nat.eqb_refl, Gr; reflexivity|]. split; [exact U|]. split; [discriminate|]. split; [constructor|]. right. split; [reflexivity|].
        unfold emit, upd, register. cbn [n_trace set_n_trace set_n_conns emit]. rewrite !msgs_app, !wire_app. fold i. rewrite M0, W0. cbn. split; [reflexivity|constructor]. }
    change (c_address (fresh_conn a inc)) with a. unfold disconnected. destruct (book_mem _ _); [|exact K]. apply F_book; [|exact K]. unfold book_usable, book_del. intro B. rewrite Forall_forall in *. intros kv Hk. apply filter_In in Hk. now apply B.
  - assert (exists b, ip_binary (VStr (external_ip (register a inc n))) = Ok b) as X by exact (fine_external n H).
    destruct (version_ok sha256 cf Hcf (ce_now e) (ce_nonce e) a (register a inc n) U X G1 G2) as (V & b & Eb).
    rewrite V. cbv iota. pose proof (hello_is (ce_now e) (ce_nonce e) a (register a inc n)) as Hm. set (hm := hello cf (ce_now e) (ce_nonce e) a (register a inc n)) in *. unfold send_message, bindM, liftM. rewrite Eb. cbn [fst snd modM]. split; [|reflexivity]. unfold queue. rewrite Gr.
    apply (fine_register n H); try reflexivity.
    + intros j Ne. change (j <> i) in Ne. rewrite get_emit, get_upd, get_register. fold i. destruct (Nat.eqb_spec i j); [congruence|]. destruct (Nat.eqb_spec j i); [congruence|]. split; [reflexivity|].
      unfold emit, upd, register. cbn [n_trace set_n_trace set_n_conns emit]. rewrite !msgs_app, !wire_app. cbn. destruct (Nat.eqb_spec i j); [congruence|]. now rewrite !app_nil_r.
    + eexists. split; [rewrite get_emit, get_upd; fold i; rewrite Nat.eqb_refl, Gr; reflexivity|]. split; [exact U|]. split; [discriminate|]. split; [constructor|]. left.
      exists hm, []. split; [|split; [exact Hm|constructor]].
      unfold emit, upd, register. cbn [n_trace set_n_trace set_n_conns emit]. fold i. rewrite !msgs_app. rewrite M0. cbn [msgs_of flat_map app]. rewrite Nat.eqb_refl. reflexivity.
Qed.
Lemma pF_add_peer a force e : usable a -> good_env e -> pres (add_peer sha256 cf a force e).
Proof.
  intros U G. unfold add_peer. apply presR_get. intros n H. destruct (_ && _); [exact H|]. destruct (address_in_use cf a n); [exact H|].
  pose proof (proj1 (fine_connect a false e n H U G)) as K. unfold tryM, bindM. destruct (new_connection sha256 cf a false e n) as (n' & [[]|er]); exact K.
Qed.
Lemma pF_add_any e : good_env (ae_conn e) -> pres (add_any_peer sha256 cf e).
Proof.
  intro G. unfold add_any_peer. apply presR_get. intros n H. destruct (_ || _).
  - destruct (cf_bootstrap cf) as [|s l] eqn:Eb; [exact H|]. cbv zeta. revert H. match goal with |- _ -> fine (fst (?m n)) => enough (pres m) as K by apply K end.
    apply pF_bind; [|intros; apply pF_ret]. apply pF_add_peer; [|exact G]. rewrite Forall_forall in Hboot. apply Hboot. apply nth_In. apply Nat.mod_upper_bound. discriminate.
  - cbv zeta. destruct (find _ (n_book n)) as [(a & v)|] eqn:Ef; [|exact H]. apply find_some in Ef. destruct Ef as (Ef & _).
    assert (usable a) as U. { pose proof (f_book _ _ H) as B. unfold book_usable in B. rewrite Forall_forall in B. exact (B _ Ef). }
    revert H. match goal with |- _ -> fine (fst (?m n)) => enough (pres m) as K by apply K end. apply pF_bind; [|intros; apply pF_ret]. now apply pF_add_peer.
Qed.
Lemma pF_for {A} (l : list A) f : (forall x, pres (f x)) -> pres (for_each l f). Proof. apply presR_for; [exact F_refl|exact F_trans]. Qed.
Lemma pF_items now envs pick : (forall k, good_env (ae_conn (envs k))) -> pres (items sha256 cf now envs pick).
Proof.
  intro G. unfold items. apply presR_get. intro n. destruct (_ >? _); [|apply F_refl]. match goal with |- F n (fst (?m n)) => enough (pres m) as K by apply K end.
  apply pF_bind; [apply presR_mod; intro; apply F_beat|]. intros _. unfold heartbeat. apply presR_get. intro n1. cbv zeta. match goal with |- F n1 (fst (?m n1)) => enough (pres m) as K by apply K end.
  apply pF_bind; [apply pF_for; intro; now apply pF_add_any|]. intros _. apply presR_get. intro n2. match goal with |- F n2 (fst (?m n2)) => enough (pres m) as K by apply K end.
  apply pF_bind.
  - destruct (peers n1); [apply pF_ret|]. destruct (_ <? _); [|apply pF_ret]. apply pF_reply. vm_compute. discriminate.
  - intros _. apply pF_for. intro. apply presR_mod. intro. apply F_reduce.
Qed.
Lemma pF_accept a now e : usable a -> good_env e -> pres (handle_accept sha256 cf a now e).
Proof.
  intros U G. unfold handle_accept. apply presR_get. intro n. cbv zeta.
  match goal with |- context [if negb (cf_listen cf) then ?x else ?y] => set (admit := if negb (cf_listen cf) then x else y) end.
  assert (pres admit) as Ha.
  { unfold admit. destruct (negb (cf_listen cf)); [apply presR_mod; intro; apply F_emit; exact I|]. intros n0 H. destruct (fine_connect a true e n0 H U G) as (K1 & K2). specialize (K2 eq_refl).
    unfold tryM. destruct (new_connection sha256 cf a true e n0) as (n' & r). cbn in K2. subst r. exact K1. }
  destruct (ban_lookup (KAddr a) (n_banned n)) as [t|]; [|apply Ha]. destruct (_ <? _); [apply F_emit; exact I|].
  match goal with |- F n (fst (?m n)) => enough (pres m) as K by apply K end. apply pF_bind; [|intros _; exact Ha]. apply presR_mod. intro. now apply F_same.
Qed.
Lemma F_wrote i k now n : (k = 0 \/ exists c, get_conn i n = Some c /\ c_open c = true) -> F n (wrote i k now n).
Proof.
  intros Ho H. unfold wrote. destruct (get_conn i n) as [c|] eqn:E; [|exact H]. cbv zeta. set (sent := Z.max 0 (Z.min k (zlen (c_send c)))).
  match goal with |- fine (emit ?a (set_n_tx ?t (upd i ?g n))) => assert (fine (set_n_tx t (upd i g n))) as K; [apply (F_same (upd i g n)); try reflexivity; apply (F_upd i g n); [intro c0; repeat split; auto|exact H]|] end.
  set (n1 := set_n_tx _ _) in *. assert (get_conn i n1 = option_map (fun c0 => set_c_send (zdrop sent (c_send c)) (set_c_tx (c_tx c0 + sent) (set_c_last_tx now c0))) (get_conn i n)) as E1.
  { unfold n1. change (get_conn i (set_n_tx ?t ?m)) with (get_conn i m). rewrite get_upd, Nat.eqb_refl, E. cbn [option_map]. reflexivity. }
  destruct K as [L X G B C N]. constructor; try assumption.
  - intros j cj. rewrite get_emit. intro Hj. destruct (C j cj Hj) as (A1 & A2 & A3 & A4). split; [exact A1|split; [exact A2|split; [exact A3|]]].
    unfold opened, failed, emit. cbn [n_trace set_n_trace]. rewrite msgs_app, wire_app. cbn [msgs_of wire_of flat_map]. rewrite !app_nil_r.
    destruct (Nat.eqb_spec i j) as [Ej|Ne]; [|now rewrite app_nil_r]. subst j.
    destruct A4 as [A4|(O & W & R)]; [left; exact A4|]. right. split; [exact O|]. split; [|exact R]. rewrite W. destruct Ho as [->|(c' & Hc' & Oc')].
    + assert (sent = 0) as -> by (pose proof (zlen_nonneg (c_send c)); unfold sent; lia). rewrite ztake_firstn. reflexivity.
    + exfalso. injection Hc' as <-. rewrite E1, E in Hj. cbn [option_map] in Hj. injection Hj as <-. cbn in O. congruence.
  - intros j Hj. rewrite get_emit in Hj. destruct (N j Hj) as (N1 & N2). unfold emit. cbn [n_trace set_n_trace]. rewrite msgs_app, wire_app, N1, N2. cbn [msgs_of wire_of flat_map app].
    destruct (Nat.eqb_spec i j) as [Ej|Ne]; [|now split]. subst j. rewrite E1, E in Hj. discriminate Hj.
Qed.
Lemma pF_write i r now n : is_open i n = true -> F n (fst (handle_write i r now n)).
Proof.
  intro O. apply is_open_get in O. destruct r; cbn [handle_write].
  - apply F_wrote. now right.
  - unfold bindM, handle_close, modM. cbn [fst]. eapply F_trans; [apply F_shut|apply F_wrote; now left].
  - apply F_shut.
Qed.
(** What the surroundings must do: addresses that can be written in a message,
    a clock below 2^32 seconds, 8 random bytes; and the application itself
    must not send version messages. *)
Definition good_event (e : event) : Prop := wf_event e /\
  match e with
  | EvLoop _ envs _ => forall k, good_env (ae_conn (envs k))
  | EvAccept a _ e | EvAddPeer a _ e => usable a /\ good_env e
  | EvSend _ m => not_version m
  | _ => True
  end.
Lemma fine_step n e : good_event e -> fine n -> fine (step sha256 py2 cf n e).
Proof.
  intros (Gw & G) H. destruct e; cbn [step good_event wf_event] in *; try (destruct (is_open i n) eqn:Eo; [|exact H]); unfold run.
  - now apply pF_items.
  - now apply pF_readable.
  - apply pF_read; [destruct r; exact Gw|exact H].
  - now apply pF_write.
  - now apply F_shut.
  - destruct (n_listener n); [|exact H]. apply pF_accept; tauto.
  - apply pF_add_peer; tauto.
  - apply (presR_remove F F_refl F_shut). exact H.
  - apply (presR_punish F F_refl F_trans F_shut F_add); [intros; apply F_ban|exact H].
  - now apply pF_send.
Qed.
Lemma fine_init : fine (init_node cf).
Proof.
  constructor; try reflexivity.
  - exact (proj1 (proj1 Hcf)).
  - constructor.
  - intros i c. unfold get_conn. cbn. destruct i; discriminate.
  - intros i _. now split.
Qed.
Theorem fine_history es : Forall good_event es -> fine (history sha256 py2 cf es).
Proof.
  intro G. unfold history. generalize fine_init. generalize (init_node cf). induction G as [|e es Ge _ IH]; intros n H; [exact H|]. cbn [fold_left]. apply IH. now apply fine_step.
Qed.
(** *** Bytes *)
Definition honest_action (a : action) : Prop := match a with AQueue _ m b => msg_binary sha256 m (cf_magic cf) = Ok b | _ => True end.
Lemma first_bytes i tr : Forall honest_action tr -> forall m r, msgs_of i tr = m :: r -> exists b rest, msg_binary sha256 m (cf_magic cf) = Ok b /\ queued_of i tr = b ++ rest.
Proof.
  induction 1 as [|a tr Ha _ IH]; intros m r E; [discriminate|]. rewrite (queued_app i [a] tr : queued_of i (a :: tr) = _). rewrite (msgs_app i [a] tr : msgs_of i (a :: tr) = _) in E.
  destruct a; try exact (IH m r E). cbn [msgs_of queued_of flat_map] in *. destruct (Nat.eqb i0 i); [|exact (IH m r E)]. cbn [app] in E. injection E as <- _. exists b, (queued_of i tr). split; [exact Ha|]. now rewrite app_nil_r.
Qed.
End Fine.
