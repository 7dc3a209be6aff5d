(** Statements and proofs for C148: the addresses that peers announce. *)
From Coq Require Import String ZArith List Lia Bool.
From Verif Require Import PyBase PyVal FormatModel MessagesModel FormatSpec FormatProofs MessagesProofs
  NodeModel NodeProofs NodeProofs2 NodeProofs3 NodeProofs4 NodeProofs5 NodeProofs6 NodeProofs7 NodeProofs8 NodeProofs9 NodeProofs10 NodeProofs11 NodeProofs12
  PropsNode PropsHello PropsTalk PropsMeet.
Import ListNotations.
Open Scope string_scope.
Open Scope list_scope.
Open Scope Z_scope.

(** ** Specification *)

(** What a node knows about the address [a]: time and services. *)
Definition knows (n : node) (a : addr) : option (pyval * option pyval) :=
  option_map snd (find (fun e => addr_eqb (fst e) a) (n_book n)).
(** One element of the list of an addr message, as the parser returns it. *)
Definition element (o : pyval) (e : addr * (pyval * pyval)) : Prop :=
  o = VObj "NetworkAddress" [("timestamp", fst (snd e)); ("services", snd (snd e)); ("address", VStr (fst (fst e))); ("port", VInt (snd (fst e)))].
(** The elements of an addr message. *)
Definition lists (m : message) (es : list (addr * (pyval * pyval))) : Prop :=
  cmd m = "addr" /\ exists l, m_fields m = [("addr_list", VList l)] /\ Forall2 element l es.
(** The last element about [a]. *)
Fixpoint latest (a : addr) (es : list (addr * (pyval * pyval))) : option (pyval * pyval) :=
  match es with
  | [] => None
  | e :: r => match latest a r with Some v => Some v | None => if addr_eqb (fst e) a then Some (snd e) else None end
  end.

(** ** Every addr message that is received lists elements *)
Lemma element_parse data n v : parse FtNetworkAddress data = Ok (n, v) -> exists e, element v e.
Proof.
  intro H. unfold FtNetworkAddress in H. rewrite parse_compound in H. bind_inv H. destruct x as (off & fs). injection H as <- <-.
  unfold NetworkAddress_props in H0. cbn [fields_parse] in H0.
  destruct (parse (FNumber FI false true) (zdrop 0 data)) as [(l1 & v1)|] eqn:E1; [|discriminate]. bind_inv H0. destruct x as (o1 & xs1). injection H0 as <- <-.
  destruct (parse (FNumber FQ false false) (zdrop (0 + l1) data)) as [(l2 & v2)|] eqn:E2; [|discriminate]. bind_inv H. destruct x as (o2 & xs2). injection H as <- <-.
  destruct (parse FIP (zdrop (0 + l1 + l2) data)) as [(l3 & v3)|] eqn:E3; [|discriminate]. bind_inv H0. destruct x as (o3 & xs3). injection H0 as <- <-.
  destruct (parse (FNumber FH true false) (zdrop (0 + l1 + l2 + l3) data)) as [(l4 & v4)|] eqn:E4; [|discriminate]. cbn [bind] in H. injection H as <- <-.
  cbn [parse] in E3, E4. unfold ip_parse in E3.
  assert (A : exists ip, v3 = VStr ip).
  { destruct (_ && _) in E3; match type of E3 with (if ?c then _ else _) = _ => destruct c end; try discriminate; injection E3 as <- <-; eexists; reflexivity. }
  destruct A as (ip & ->). unfold num_parse in E4. bind_inv E4. injection E4 as <- <-.
  exists ((ip, x), (v1, v2)). reflexivity.
Qed.
Lemma elements_parse k : forall data off n l, parse_items (parse FtNetworkAddress) k data off = Ok (n, l) -> exists es, Forall2 element l es.
Proof.
  induction k as [|k IH]; intros data off n l H; cbn [parse_items] in H.
  - injection H as <- <-. exists []. constructor.
  - bind_inv H. destruct x as (len & x). bind_inv H. destruct x0 as (off' & xs). injection H as <- <-.
    apply element_parse in H0. destruct H0 as (e & He). apply IH in H1. destruct H1 as (es & Hes). exists (e :: es). now constructor.
Qed.
Lemma received_lists sha256 data magic m : msg_parse sha256 data magic = Ok m -> cmd m = "addr" -> exists es, lists m es /\ mt_name (m_type m) = "address".
Proof.
  intros H C. apply msg_parse_inv in H. destruct H as (_ & _ & _ & R & _ & n & P).
  assert (T : m_type m = type_of "Address").
  { assert (forall t, In t registry -> mt_command t = "addr" -> t = type_of "Address") as X; [|now apply X].
    clear. intros t H E. vm_compute in H. repeat (destruct H as [<-|H]; [try discriminate E; reflexivity|]). contradiction. }
  rewrite T in P |- *. change (mt_props (type_of "Address")) with [("addr_list", FArray FtNetworkAddress None (Some 1000))] in P.
  cbn [fields_parse] in P. match type of P with match ?x with _ => _ end = _ => destruct x as [(len & v)|] eqn:E; [|discriminate] end.
  cbn [bind] in P. injection P as P1 P2. cbn [parse] in E. bind_inv E. destruct x as (off & l). injection E as <- <-.
  unfold parse_var_set in H. bind_inv H. destruct x as (o & count). apply elements_parse in H. destruct H as (es & Hes).
  exists es. split; [|reflexivity]. split; [exact C|]. exists l. now split.
Qed.

(** ** Learning *)
Definition learned (es : list (addr * (pyval * pyval))) (b : list (addr * (pyval * option pyval))) :=
  fold_left (fun b e => book_set (fst e) (fst (snd e), Some (snd (snd e))) b) es b.
Lemma learn_one o e l n : element o e -> learn_addresses (o :: l) n =
  if zlen (n_book n) >? MAX_ADDRESSES then (n, Ok tt) else learn_addresses l (set_n_book (book_set (fst e) (fst (snd e), Some (snd (snd e))) (n_book n)) n).
Proof.
  intros ->. cbn [learn_addresses]. unfold bindM at 1, getM at 1. cbv beta iota. destruct (zlen (n_book n) >? MAX_ADDRESSES); [reflexivity|].
  destruct e as ((ip & port) & (ts & sv)). reflexivity.
Qed.
Lemma learn_all l es : Forall2 element l es -> forall n, zlen (n_book n) + zlen l <= MAX_ADDRESSES + 1 ->
  learn_addresses l n = (set_n_book (learned es (n_book n)) n, Ok tt).
Proof.
  induction 1 as [|o e l es He Hes IH]; intros n L; [destruct n; reflexivity|].
  rewrite (learn_one o e l n He). assert (zlen (o :: l) = 1 + zlen l) as Z1 by (unfold zlen; cbn [List.length]; lia).
  assert (0 <= zlen l) by (unfold zlen; lia). destruct (Z.gtb_spec (zlen (n_book n)) MAX_ADDRESSES) as [G|G]; [lia|].
  rewrite IH; [reflexivity|]. cbn [n_book set_n_book]. pose proof (book_set_len (fst e) (fst (snd e), Some (snd (snd e))) (n_book n)). lia.
Qed.
Lemma find_set a v b k : find (fun e => addr_eqb (fst e) k) (book_set a v b) =
  if addr_eqb a k then match find (fun e => addr_eqb (fst e) k) b with Some (k', _) => Some (k', v) | None => Some (a, v) end
  else find (fun e => addr_eqb (fst e) k) b.
Proof.
  induction b as [|(k' & w) b IH]; cbn [book_set find fst]; [destruct (addr_eqb a k); reflexivity|].
  destruct (addr_eqb k' a) eqn:E; cbn [find fst].
  - apply addr_eqb_eq in E. subst k'. destruct (addr_eqb a k); reflexivity.
  - destruct (addr_eqb k' k) eqn:E'; [|exact IH]. apply addr_eqb_eq in E'. subst k'. destruct (addr_eqb a k) eqn:E'; [|reflexivity].
    apply addr_eqb_eq in E'. subst a. rewrite addr_eqb_refl in E. discriminate.
Qed.
Lemma knows_learned es : forall n a, knows (set_n_book (learned es (n_book n)) n) a =
  match latest a es with Some (ts, sv) => Some (ts, Some sv) | None => knows n a end.
Proof.
  induction es as [|((ip & port) & (ts & sv)) es IH]; intros n a; cbn [latest learned fold_left]; [reflexivity|].
  specialize (IH (set_n_book (book_set (ip, port) (ts, Some sv) (n_book n)) n) a). cbn [n_book set_n_book] in IH. unfold learned in IH.
  change (knows (set_n_book (fold_left (fun b e => book_set (fst e) (fst (snd e), Some (snd (snd e))) b) es (book_set (ip, port) (ts, Some sv) (n_book n))) n) a =
    match latest a es with Some (ts', sv') => Some (ts', Some sv') | None => knows (set_n_book (book_set (ip, port) (ts, Some sv) (n_book n)) n) a end) in IH.
  cbn [fst snd]. etransitivity; [exact IH|]. destruct (latest a es) as [(ts' & sv')|]; [reflexivity|].
  unfold knows. cbn [n_book set_n_book]. rewrite find_set. destruct (addr_eqb (ip, port) a) eqn:E; [|reflexivity].
  destruct (find _ (n_book n)) as [(k' & w)|]; reflexivity.
Qed.

(** What a node that hears an addr message with room for it in its book knows:
    every listed address, with the time and the services that were listed last;
    and all it knew of other addresses. *)
Theorem C148_learned sha256 py2 cf i now n m es : lists m es -> mt_name (m_type m) = "address" -> zlen (n_book n) + zlen es <= 2501 ->
  exists n', handle_message sha256 py2 cf i m now n = (n', Ok tt) /\
    (forall a, knows n' a = match latest a es with Some (ts, sv) => Some (ts, Some sv) | None => knows n a end) /\
    n' = set_n_book (n_book n') n.
Proof.
  intros (C & l & F & E) N L. exists (set_n_book (learned es (n_book n)) n). split; [|split; [apply knows_learned|reflexivity]].
  unfold cmd in C. unfold handle_message. rewrite C, N. cbv zeta. cbn. rewrite F. cbn.
  assert (zlen l = zlen es) as Zl by (unfold zlen; now rewrite (Forall2_length _ _ _ E)).
  apply learn_all; [exact E|]. unfold MAX_ADDRESSES. lia.
Qed.
Theorem C148_received sha256 py2 cf i now n data m : msg_parse sha256 data (cf_magic cf) = Ok m -> cmd m = "addr" ->
  exists es, lists m es /\ (zlen (n_book n) + zlen es <= 2501 ->
    exists n', handle_message sha256 py2 cf i m now n = (n', Ok tt) /\
      forall a, knows n' a = match latest a es with Some (ts, sv) => Some (ts, Some sv) | None => knows n a end).
Proof.
  intros P C. destruct (received_lists _ _ _ _ P C) as (es & Les & N). exists es. split; [exact Les|]. intro L.
  destruct (C148_learned sha256 py2 cf i now n m es Les N L) as (n' & H1 & H2 & _). exists n'. now split.
Qed.

(** ** Histories *)
Definition keys (n : node) : list addr := map fst (n_book n).
(** Connection with [a] ended. *)
Definition hung_up (t : list action) (n : node) (a : addr) : Prop := exists k c, In (AClose k) t /\ get_conn k n = Some c /\ c_address c = a.
Lemma keys_set a v b k : In k (map fst (book_set a v b)) <-> k = a \/ In k (map fst b).
Proof.
  induction b as [|(k' & w) b IH]; cbn [book_set map fst In]; [intuition|].
  destruct (addr_eqb k' a) eqn:E; cbn [map fst In]; [apply addr_eqb_eq in E; subst k'; intuition|rewrite IH; intuition].
Qed.
Lemma keys_del a b k : In k (map fst b) -> k = a \/ In k (map fst (book_del a b)).
Proof.
  intro H. destruct (addr_eqb k a) eqn:E; [left; now apply addr_eqb_eq|right].
  apply in_map_iff in H. destruct H as ((k' & w) & Ek & H). cbn [fst] in Ek. subst k'. apply (in_map fst _ (k, w)). apply filter_In. split; [exact H|]. cbn [fst]. now rewrite E.
Qed.

Section Kept.
  Variable sha256 : bytes -> bytes.
  Variable py2 : bool.
  Variable cf : config.

  (** Addresses leave the book only when a connection with them ends. *)
  Definition Kp (n n' : node) : Prop :=
    grow n n' /\ exists t, n_trace n' = n_trace n ++ t /\ forall a, In a (keys n) -> In a (keys n') \/ hung_up t n' a.
  Lemma Kp_refl n : Kp n n.
  Proof. split; [apply grow_refl|]. exists []. split; [now rewrite app_nil_r|]. auto. Qed.
  Lemma hung_grow t n n' a : grow n n' -> hung_up t n a -> hung_up t n' a.
  Proof. intros (_ & G) (k & c & I & Gc & E). destruct (G k c Gc) as (c' & Gc' & E' & _). exists k, c'. split; [exact I|split; [exact Gc'|congruence]]. Qed.
  Lemma hung_l t t' n a : hung_up t n a -> hung_up (t ++ t') n a.
  Proof. intros (k & c & I & H). exists k, c. split; [apply in_app_iff; now left|exact H]. Qed.
  Lemma hung_r t t' n a : hung_up t' n a -> hung_up (t ++ t') n a.
  Proof. intros (k & c & I & H). exists k, c. split; [apply in_app_iff; now right|exact H]. Qed.
  Lemma Kp_trans a b c : Kp a b -> Kp b c -> Kp a c.
  Proof.
    intros (G1 & t1 & E1 & K1) (G2 & t2 & E2 & K2). split; [eapply grow_trans; eassumption|]. exists (t1 ++ t2). split; [rewrite E2, E1; now rewrite app_assoc|].
    intros k I. destruct (K1 k I) as [H|H]; [destruct (K2 k H) as [H'|H']; [now left|right; now apply hung_r]|].
    right. apply hung_l. now apply (hung_grow _ b).
  Qed.
  Lemma Kp_prim n n' : prim sha256 cf n n' -> Kp n n'.
  Proof.
    intro P. pose proof (grow_prim sha256 cf n n' P) as Gr. split; [exact Gr|]. pose proof Gr as ((t & E) & _). exists t. split; [exact E|]. intros a I.
    destruct P as [n1 n2 H|n1 i c len G F L|n1 i chunk now _ W].
    - destruct H; unfold keys, queue, shut, register, add_banscore, reduce_banscore, pinged, check_external_ip, record_peer, wrote, ban, beat, disconnected in *;
        try (left; exact I); try (destruct (get_conn i n) as [c0|] eqn:G0; [|left; exact I]); try (left; exact I).
      + unfold hung_up. revert E. set (n2 := emit (AClose i) (upd i (set_c_open false) n)) in *. destruct (book_mem (c_address c0) (n_book n2)); [|intros _; left; exact I].
        change (n_trace (set_n_book (book_del (c_address c0) (n_book n2)) n2)) with (n_trace n ++ [AClose i]). intro E. apply app_inv_head in E. subst t.
        destruct (keys_del (c_address c0) (n_book n) a I) as [->|K]; [right|left; exact K].
        exists i, (set_c_open false c0). split; [now left|]. split; [|reflexivity].
        change (get_conn i (set_n_book (book_del (c_address c0) (n_book n2)) n2)) with (get_conn i (upd i (set_c_open false) n)). now rewrite get_upd, Nat.eqb_refl, G0.
      + destruct (count_votes _ _ _); left; exact I.
      + destruct (_ <? _); left; [|exact I]. cbn [n_book set_n_book]. apply keys_set. now right.
      + left. cbn [n_book set_n_book]. apply keys_set. now right.
    - left. exact I.
    - left. unfold keys, received in *. destruct (get_conn i n1); exact I.
  Qed.
  Lemma Kp_step n e : wf_event e -> Kp n (step sha256 py2 cf n e).
  Proof. intro W. pose proof (step_prims sha256 py2 cf n e W) as S0. induction S0 as [|? ? ? ? IH ?]; [apply Kp_refl|]. eapply Kp_trans; [exact IH|]. now apply Kp_prim. Qed.

  (** Nothing is received outside the reading of a socket. *)
  Definition Nm (n n' : node) : Prop := exists t, n_trace n' = n_trace n ++ t /\ forall i m, ~ In (AMsg i m) t.
  Lemma Nm_refl n : Nm n n. Proof. exists []. split; [now rewrite app_nil_r|]. auto. Qed.
  Lemma Nm_trans a b c : Nm a b -> Nm b c -> Nm a c.
  Proof. intros (t1 & E1 & H1) (t2 & E2 & H2). exists (t1 ++ t2). split; [rewrite E2, E1; now rewrite app_assoc|]. intros i m I. apply in_app_iff in I. destruct I; [now apply (H1 i m)|now apply (H2 i m)]. Qed.
  Lemma Nm_same n n' : n_trace n' = n_trace n -> Nm n n'. Proof. intro E. exists []. split; [now rewrite app_nil_r|]. auto. Qed.
  Lemma Nm_emit n n' x : n_trace n' = n_trace n ++ [x] -> (forall i m, x <> AMsg i m) -> Nm n n'.
  Proof. intros E H. exists [x]. split; [exact E|]. intros i m [I|[]]. now apply (H i m). Qed.
  Lemma Nm_prim0 n n' : prim0 sha256 cf n n' -> Nm n n'.
  Proof.
    intro H. destruct H; unfold queue, shut, register, add_banscore, reduce_banscore, pinged, check_external_ip, record_peer, wrote, ban, beat, disconnected;
      try (destruct (get_conn i n) as [c0|] eqn:G0; [|apply Nm_refl]); try (now apply Nm_same);
      try (eapply Nm_emit; [reflexivity|discriminate]).
    - set (n2 := emit (AClose i) (upd i (set_c_open false) n)). destruct (book_mem (c_address c0) (n_book n2)); (eapply Nm_emit; [reflexivity|discriminate]).
    - destruct (count_votes _ _ _); now apply Nm_same.
    - destruct (_ <? _); now apply Nm_same.
    - eapply Nm_emit; [reflexivity|]. intros i m ->. exact H.
  Qed.
  Lemma Nm_pres0 {A} (m : M A) n : pres0 sha256 cf m -> Nm n (run m n).
  Proof. intro H. specialize (H n). unfold run. induction H as [|? ? ? ? IH ?]; [apply Nm_refl|]. eapply Nm_trans; [exact IH|]. now apply Nm_prim0. Qed.

  (** The reading of a socket: nothing is forgotten, and what is announced is learned. *)
  Definition Hq (n n' : node) : Prop := Nm n n' /\ incl (keys n) (keys n') /\ zlen (n_book n) <= zlen (n_book n').
  Lemma Hq_refl n : Hq n n. Proof. split; [apply Nm_refl|]. split; [apply incl_refl|lia]. Qed.
  Lemma Hq_trans a b c : Hq a b -> Hq b c -> Hq a c.
  Proof. intros (A1 & A2 & A3) (B1 & B2 & B3). split; [eapply Nm_trans; eassumption|]. split; [eapply incl_tran; eassumption|lia]. Qed.
  Lemma Hq_set a v n : Hq n (set_n_book (book_set a v (n_book n)) n).
  Proof. split; [now apply Nm_same|]. split; [intros k I; apply keys_set; now right|apply book_set_len]. Qed.
  Lemma Hq_book n n' : Nm n n' -> n_book n' = n_book n -> Hq n n'.
  Proof. intros H E. split; [exact H|]. unfold keys. rewrite E. split; [apply incl_refl|lia]. Qed.
  Lemma Hq_handle i m now n : Hq n (fst (handle_message sha256 py2 cf i m now n)).
  Proof.
    apply presR_handle_message; intros.
    - apply Hq_refl.
    - eapply Hq_trans; eassumption.
    - apply Hq_book; [apply Nm_prim0; now constructor|]. unfold queue. destruct (get_conn i0 n0); reflexivity.
    - apply Hq_book; [apply Nm_prim0; constructor|]. unfold check_external_ip. destruct (count_votes _ _ _); reflexivity.
    - apply Hq_book; [now apply Nm_same|reflexivity].
    - unfold record_peer. destruct (get_conn i0 n0); [|apply Hq_refl]. destruct (_ <? _); [apply Hq_set|apply Hq_refl].
    - apply Hq_set.
    - apply Hq_book; [apply Nm_prim0; now constructor|reflexivity].
  Qed.
  Definition Ln (n n' : node) : Prop := incl (keys n) (keys n') /\ zlen (n_book n) <= zlen (n_book n') /\
    exists t, n_trace n' = n_trace n ++ t /\
      forall i m es a, In (AMsg i m) t -> lists m es -> In a (map fst es) -> zlen (n_book n') <= 2500 -> In a (keys n').
  Lemma Ln_trans a b c : Ln a b -> Ln b c -> Ln a c.
  Proof.
    intros (A1 & A2 & t1 & A3 & A4) (B1 & B2 & t2 & B3 & B4). split; [eapply incl_tran; eassumption|]. split; [lia|].
    exists (t1 ++ t2). split; [rewrite B3, A3; now rewrite app_assoc|]. intros i m es k I L K Z. apply in_app_iff in I. destruct I as [I|I].
    - apply B1. apply (A4 i m es k I L K). lia.
    - exact (B4 i m es k I L K Z).
  Qed.
  Lemma Ln_quiet n n' : Hq n n' -> Ln n n'.
  Proof. intros ((t & E & N) & H1 & H2). split; [exact H1|split; [exact H2|]]. exists t. split; [exact E|]. intros i m es a I. now apply N in I. Qed.
  Lemma learn_any l es : Forall2 element l es -> forall n, let n' := fst (learn_addresses l n) in
    n_trace n' = n_trace n /\ incl (keys n) (keys n') /\ zlen (n_book n) <= zlen (n_book n') /\ (zlen (n_book n') <= 2500 -> incl (map fst es) (keys n')).
  Proof.
    induction 1 as [|o e l es He Hes IH]; intro n; cbv zeta.
    - split; [reflexivity|split; [apply incl_refl|split; [cbn; lia|intros _ k []]]].
    - rewrite (learn_one o e l n He). destruct (Z.gtb_spec (zlen (n_book n)) MAX_ADDRESSES) as [G|G].
      + split; [reflexivity|split; [apply incl_refl|split; [cbn; lia|]]]. cbn [fst]. unfold MAX_ADDRESSES in G. lia.
      + set (n1 := set_n_book _ n). destruct (IH n1) as (H1 & H2 & H3 & H4). split; [exact H1|].
        destruct (Hq_set (fst e) (fst (snd e), Some (snd (snd e))) n) as (_ & K1 & K2). fold n1 in K1, K2.
        split; [eapply incl_tran; eassumption|]. split; [lia|]. intros Z k [<-|I]; [|now apply H4]. apply H2. unfold n1, keys. cbn [n_book set_n_book]. apply keys_set. now left.
  Qed.
  Lemma Ln_frame i c len now n :
    Ln n (fst (handle_frame sha256 py2 cf i (ztake len (c_recv c)) now (upd i (set_c_recv (zdrop len (c_recv c))) n))).
  Proof.
    set (n1 := upd i _ n). apply (Ln_trans n n1); [apply Ln_quiet, Hq_book; [now apply Nm_same|reflexivity]|]. clearbody n1.
    unfold handle_frame. destruct (msg_parse sha256 (ztake len (c_recv c)) (cf_magic cf)) as [m|e] eqn:P.
    2:{ unfold modM. cbn [fst]. apply Ln_quiet, Hq_book; [|reflexivity]. destruct (is_invalid e); (eapply Nm_emit; [reflexivity|discriminate]). }
    unfold bindM at 1, modM at 1. cbv beta iota. set (n2 := emit (AMsg i m) n1).
    assert (T : forall n3, Ln n3 (fst (tryM (handle_message sha256 py2 cf i m now) (fun e => modM (emit (if is_invalid e then AHandlerInvalid i (ztake len (c_recv c)) e else AHandlerError i e))) n3))).
    { intro n3. unfold tryM. pose proof (Hq_handle i m now n3) as H. destruct (handle_message sha256 py2 cf i m now n3) as (n4 & [[]|e]); cbn [fst] in H |- *; [now apply Ln_quiet|].
      apply Ln_quiet. eapply Hq_trans; [exact H|]. unfold modM. cbn [fst]. apply Hq_book; [|reflexivity]. destruct (is_invalid e); (eapply Nm_emit; [reflexivity|discriminate]). }
    destruct (String.eqb_spec (cmd m) "addr") as [C|C].
    - destruct (received_lists _ _ _ _ P C) as (es & Les & N). pose proof Les as (_ & l & F & E).
      assert (exists n3, fst (tryM (handle_message sha256 py2 cf i m now) (fun e => modM (emit (if is_invalid e then AHandlerInvalid i (ztake len (c_recv c)) e else AHandlerError i e))) n2) = n3 /\
        exists t, n_trace n3 = n_trace n2 ++ t /\ (forall i m, ~ In (AMsg i m) t) /\ incl (keys n2) (keys n3) /\ zlen (n_book n2) <= zlen (n_book n3) /\ (zlen (n_book n3) <= 2500 -> incl (map fst es) (keys n3))) as (n3 & -> & t & H1 & H2 & H3 & H4 & H5).
      { eexists. split; [reflexivity|]. assert (handle_message sha256 py2 cf i m now n2 = learn_addresses l n2) as Hm.
        { unfold cmd in C. unfold handle_message. rewrite C, N. cbv zeta. cbn. rewrite F. reflexivity. }
        unfold tryM. rewrite Hm. pose proof (learn_any l es E n2) as (L1 & L2 & L3 & L4). destruct (learn_addresses l n2) as (n4 & [[]|e]); cbn [fst] in *.
        - exists []. rewrite app_nil_r. split; [exact L1|]. auto.
        - unfold modM. cbn [fst]. eexists. split; [unfold emit; cbn [n_trace set_n_trace]; rewrite L1; reflexivity|]. split; [|auto].
          intros j x [I|[]]. destruct (is_invalid e); discriminate. }
      split; [exact H3|]. split; [exact H4|]. exists (AMsg i m :: t). split; [rewrite H1; unfold n2, emit; cbn [n_trace set_n_trace]; now rewrite <- app_assoc|].
      intros j m' es' a [I|I] L K Z; [|now apply H2 in I]. injection I as <- <-. destruct L as (_ & l' & F' & E').
      assert (l' = l) as -> by congruence. assert (es' = es) as ->; [|now apply H5].
      clear - E E'. revert es E. induction E' as [|o e' l es' He' _ IH]; intros es E; inversion E as [|? e ? es0 He Hes]; subst; [reflexivity|].
      f_equal; [|now apply IH]. unfold element in He, He'. rewrite He in He'. destruct e as ((? & ?) & (? & ?)), e' as ((? & ?) & (? & ?)). cbn [fst snd] in He'. congruence.
    - assert (Ln n1 n2) as L2. 
      { split; [apply incl_refl|]. split; [reflexivity|]. exists [AMsg i m]. split; [reflexivity|]. intros j m' es' a [I|[]] (L & _). injection I as <- <-. contradiction. }
      eapply Ln_trans; [exact L2|apply T].
  Qed.
  Lemma Ln_loop fuel : forall i clock n, Ln n (fst (read_loop sha256 py2 cf fuel i clock n)).
  Proof.
    induction fuel as [|k IH]; intros i clock n; [apply Ln_quiet, Hq_refl|].
    cbn [read_loop]. unfold bindM at 1, getM at 1. cbv beta iota.
    destruct (get_conn i n) as [c|] eqn:G; [|apply Ln_quiet, Hq_refl].
    destruct (first_msg_len (c_recv c)) as [len|] eqn:F; [|apply Ln_quiet, Hq_refl].
    destruct (Z.gtb_spec len (zlen (c_recv c))) as [L|L]; [apply Ln_quiet, Hq_refl|]. cbv zeta.
    unfold bindM at 1, modM at 1. cbv beta iota.
    pose proof (Ln_frame i c len (clock k) n) as H. pose proof (handle_frame_ok sha256 py2 cf i (ztake len (c_recv c)) (clock k) (upd i (set_c_recv (zdrop len (c_recv c))) n)) as Ho.
    unfold bindM at 1. destruct (handle_frame _ _ _ i _ _ _) as (n' & r). cbn in Ho, H. subst r.
    eapply Ln_trans; [exact H|apply IH].
  Qed.
  Lemma step_learns n e : wf_event e -> exists t, n_trace (step sha256 py2 cf n e) = n_trace n ++ t /\
    forall i m es a, In (AMsg i m) t -> lists m es -> In a (map fst es) -> zlen (n_book (step sha256 py2 cf n e)) <= 2500 -> In a (keys (step sha256 py2 cf n e)).
  Proof.
    intro W. assert (Q : Nm n (step sha256 py2 cf n e) -> exists t, n_trace (step sha256 py2 cf n e) = n_trace n ++ t /\
      forall i m es a, In (AMsg i m) t -> lists m es -> In a (map fst es) -> zlen (n_book (step sha256 py2 cf n e)) <= 2500 -> In a (keys (step sha256 py2 cf n e))).
    { intros (t & E & H). exists t. split; [exact E|]. intros i m es a I. now apply H in I. }
    assert (Up : forall A (m : M A), pres0 sha256 cf m -> Nm n (run m n)) by (intros; now apply Nm_pres0).
    destruct e; cbn [NodeModel.step] in *; try (destruct (is_open i n); [|apply Q, Nm_refl]).
    - apply Q, Up, pres0_items.
    - apply Q, Up, pres0_readable. exact W.
    - destruct r as [[|x chunk]|]; unfold run in *; cbn [handle_read] in *.
      + apply Q. apply (Up _ (bindM (handle_close i) (fun _ => handle_close i))). apply presR_bind; [apply star_trans|apply pres0_close|intros _; apply pres0_close].
      + clear Q Up.
        set (f := bindM (modM (received i (x :: chunk) now)) _). assert (Ln n (fst (f n))) as (_ & _ & H); [|exact H]. unfold f. clear f.
        unfold bindM at 1, modM at 1. cbv beta iota. unfold bindM, getM. cbv beta iota.
        apply (Ln_trans n (received i (x :: chunk) now n)).
        * apply Ln_quiet, Hq_book; unfold received; destruct (get_conn i n); try reflexivity; [eapply Nm_emit; [reflexivity|discriminate]|apply Nm_refl].
        * destruct (get_conn i (received i (x :: chunk) now n)) as [c|]; [apply Ln_loop|apply Ln_quiet, Hq_refl].
      + apply Q. apply (Up _ (handle_close i)). apply pres0_close.
    - apply Q, Up, pres0_write.
    - apply Q, Up, pres0_close.
    - destruct (n_listener n); [|apply Q, Nm_refl]. apply Q, Up, pres0_accept.
    - apply Q, Up, pres0_add_peer.
    - apply Q, Up, pres0_remove.
    - apply Q, Up, pres0_punish.
    - apply Q, Up, pres0_send.
  Qed.
End Kept.

(** As long as the book has not been full, every address that some peer has ever
    announced is known, unless a connection with that address has ended since. *)
Theorem C148_kept sha256 py2 cf es t1 i m t2 l a : Forall wf_event es ->
  (forall es1 es2, es = es1 ++ es2 -> zlen (n_book (history sha256 py2 cf es1)) <= 2500) ->
  let n := history sha256 py2 cf es in
  n_trace n = t1 ++ AMsg i m :: t2 -> lists m l -> In a (map fst l) ->
  (exists v, knows n a = Some v) \/ hung_up t2 n a.
Proof.
  intros W Hf n Ht Hl Ha. assert (In a (keys n) \/ hung_up t2 n a) as [K|K]; [|left|now right].
  2:{ unfold keys in K. apply in_map_iff in K. destruct K as ((k & v) & Ek & I). cbn [fst] in Ek. subst k. unfold knows.
      destruct (find (fun e => addr_eqb (fst e) a) (n_book n)) as [(k & w)|] eqn:F; [exists w; reflexivity|].
      apply (find_none _ _ F) in I. cbn [fst] in I. rewrite addr_eqb_refl in I. discriminate. }
  subst n. revert t2 Ht. induction es as [|e es IH] using rev_ind; intros t2 Ht; [destruct t1; discriminate|].
  apply Forall_app in W. destruct W as (W & We). apply Forall_cons_iff in We. destruct We as (We & _).
  unfold history in *. rewrite fold_left_app in *. cbn [fold_left] in *. set (n := fold_left _ es _) in *.
  destruct (step_learns sha256 py2 cf n e We) as (t & Et & Lt). destruct (Kp_step sha256 py2 cf n e We) as (G & t' & Et' & Kt).
  rewrite Et in Ht, Et'. apply app_inv_head in Et'. subst t'.
  assert (Z : zlen (n_book (step sha256 py2 cf n e)) <= 2500).
  { specialize (Hf (es ++ [e]) []). rewrite app_nil_r in Hf. specialize (Hf eq_refl). rewrite fold_left_app in Hf. exact Hf. }
  apply app_eq_app in Ht. destruct Ht as (s & [(H1 & H2)|(H1 & H2)]).
  - destruct s as [|x s]; [cbn in H2; left; apply (Lt i m l a); [rewrite <- H2; now left|exact Hl|exact Ha|exact Z]|].
    cbn [app] in H2. injection H2 as <- H2.
    destruct (IH W) with (t2 := s) as [K|K].
    + intros es1 es2 E. apply (Hf es1 (es2 ++ [e])). rewrite E. now rewrite app_assoc.
    + exact H1.
    + destruct (Kt a K) as [K'|K']; [now left|]. right. rewrite H2. now apply hung_r.
    + right. rewrite H2. apply hung_l. now apply (hung_grow _ n).
  - left. apply (Lt i m l a); [rewrite H2; apply in_app_iff; right; now left|exact Hl|exact Ha|exact Z].
Qed.

(** ** Between two nodes *)
(** The usual notation of the IP address that a text denotes. *)
Definition host (ip : text) : text := match ip_binary (VStr ip) with Ok b => ip_text b | Raise _ => ip end.
Lemma entry_element e o : entry_obj e = Ok o -> exists x, element (canon FtNetworkAddress o) (host (fst (fst e)), snd (fst e), x).
Proof.
  destruct e as ((ip & port) & (ts & [sv|])); unfold entry_obj; cbn [fst snd]; [|discriminate].
  unfold construct. cbn [map fst NetworkAddress_props zip existsb app]. change (zlen _ =? zlen _) with true. cbn [negb]. intro H. bind_inv H. injection H as <-.
  cbn -[validate] in H0.
  destruct (validate (FNumber FI false true) ts) as [[v1|]|] eqn:E1; cbn [bind] in H0; [|discriminate|discriminate].
  destruct (validate (FNumber FQ false false) sv) as [[v2|]|] eqn:E2; cbn [bind] in H0; [|discriminate|discriminate].
  destruct (validate FIP (VStr ip)) as [[v3|]|] eqn:E3; cbn [bind] in H0; [|discriminate|discriminate].
  destruct (validate (FNumber FH true false) (VInt port)) as [[v4|]|] eqn:E4; cbn [bind] in H0; [|discriminate|discriminate]. injection H0 as <-.
  assert (v3 = VStr ip) as ->.
  { cbn [validate] in E3. unfold ip_validate in E3. destruct (ipv4_groups ip); [congruence|]. destruct (ipv6_groups ip) as [[g|]|]; cbn [bind] in E3; congruence. }
  assert (v4 = VInt port) as ->.
  { cbn [validate] in E4. unfold num_validate in E4. destruct (nf_range FH) as (lo & hi). destruct ((lo <=? port) && (port <? hi)); congruence. }
  exists (canon (FNumber FI false true) v1, canon (FNumber FQ false false) v2). unfold element. cbn [fst snd].
  unfold FtNetworkAddress. rewrite canon_compound. unfold NetworkAddress_props. cbn [canon_fields]. unfold host. cbn [canon num_value].
  destruct (ip_binary (VStr ip)); reflexivity.
Qed.
Lemma reply_arrives n m : get_address_reply true n = Ok m ->
  exists es l, newest (n_book n) es /\ lists (arrived m) l /\ map fst l = map (fun e => (host (fst (fst e)), snd (fst e))) es.
Proof.
  intro H. destruct (reply_spec n m H) as (es & objs & N & F & ->). exists es.
  assert (exists l, Forall2 element (map (canon FtNetworkAddress) objs) l /\ map fst l = map (fun e => (host (fst (fst e)), snd (fst e))) es) as (l & L1 & L2).
  { clear - F. induction F as [|e o es objs He _ IH]; [exists []; split; [constructor|reflexivity]|]. destruct IH as (l & L1 & L2).
    destruct (entry_element e o He) as (x & Hx). exists ((host (fst (fst e)), snd (fst e), x) :: l). split; [now constructor|]. cbn [map fst]. now rewrite L2. }
  exists l. split; [exact N|]. split; [|exact L2]. split; [reflexivity|]. exists (map (canon FtNetworkAddress) objs). split; [reflexivity|exact L1].
Qed.
(** On Python 2 a node that hears getaddr says the answer. *)
Theorem C148_answers_partial sha256 cf i now n m reply b : mt_name (m_type m) = "get_address" -> mt_command (m_type m) = "getaddr" ->
  get_address_reply true n = Ok reply -> msg_binary sha256 reply (cf_magic cf) = Ok b ->
  handle_message sha256 true cf i m now n = (queue i reply b n, Ok tt).
Proof.
  intros N C R B. unfold handle_message. rewrite N, C. cbv zeta. cbn -[get_address_reply]. unfold bindM, getM, liftM. cbv beta iota. rewrite R.
  unfold send_message, bindM, liftM. rewrite B. reflexivity.
Qed.
(** What one node has said in answer to getaddr, the other node knows once it has
    read everything: each of the up to thousand most recent addresses of the book
    from which the answer was made, unless its connection with that address has
    ended since or its book has been full. *)
Theorem C148_spread_partial sha256 pyB cfA cfB esA esB i j n0 m :
  (forall x, 4 <= zlen (sha256 x)) -> cf_magic cfA = cf_magic cfB -> zlen (cf_magic cfA) = 4 ->
  Forall (fun c => 0 <= c) (cf_user_agent cfA) -> Forall ordinary_event esA -> Forall wf_event esB ->
  let A := history sha256 true cfA esA in
  let B := history sha256 pyB cfB esB in
  wire_of i (n_trace A) = queued_of i (n_trace A) -> recv_of j (n_trace B) = queued_of i (n_trace A) ->
  (forall es1 es2, esB = es1 ++ es2 -> zlen (n_book (history sha256 pyB cfB es1)) <= 2500) ->
  get_address_reply true n0 = Ok m -> In m (said (talk i (n_trace A))) ->
  exists es, newest (n_book n0) es /\ forall e, In e es ->
    let a := (host (fst (fst e)), snd (fst e)) in (exists v, knows B a = Some v) \/ hung_up (n_trace B) B a.
Proof.
  intros Hs Em Lm Hu OA WB A B Ew Er Hf R I. destruct (reply_arrives n0 m R) as (es & l & N & L & Ml). exists es. split; [exact N|]. intros e He a.
  destruct (C126_understood sha256 true pyB cfA cfB esA esB i j Hs Em Lm Hu OA WB) as (k & F & _ & All).
  { exists []. rewrite app_nil_r. fold A B. congruence. }
  fold A B in F, All. specialize (All Er).
  assert (M : In (AMsg j (arrived m)) (n_trace B)).
  { assert (In (arrived m) (heard (talk j (n_trace B)))) as H by (rewrite All; now apply in_map).
    clear - H. unfold heard in H. apply in_flat_map in H. destruct H as (x & H & Hx). unfold talk in H. apply in_flat_map in H. destruct H as (y & H & Hy).
    destruct y; cbn in Hy; try contradiction; match type of Hy with context [Nat.eqb ?p ?q] => destruct (Nat.eqb_spec p q) as [<-|]; [|destruct Hy] end;
      destruct Hy as [<-|[]]; cbn in Hx; try contradiction. destruct Hx as [<-|[]]. exact H. }
  apply in_split in M. destruct M as (t1 & t2 & Et).
  assert (In a (map fst l)) as Ha. { rewrite Ml. unfold a. apply (in_map (fun e => (host (fst (fst e)), snd (fst e))) es e He). }
  destruct (C148_kept sha256 pyB cfB esB t1 j (arrived m) t2 l a WB Hf Et L Ha) as [K|K]; [now left|right].
  fold B in Et, K. rewrite Et. change (AMsg j (arrived m) :: t2) with ([AMsg j (arrived m)] ++ t2). apply hung_r, hung_r. exact K.
Qed.
(** On Python 3 nothing is ever said in answer to getaddr. *)
Theorem C148_spread_refuted sha256 cf n i now m : mt_name (m_type m) = "get_address" -> mt_command (m_type m) = "getaddr" ->
  exists n', handle_message sha256 false cf i m now n = (n', Raise TypeError) /\ n' = n.
Proof. intros N C. exists n. split; [|reflexivity]. unfold handle_message. rewrite N, C. reflexivity. Qed.

(** ** An example: the first node was told of five addresses; asked by the
    second, it tells them. *)
Definition sp_ask : bytes :=
  match new_message (type_of "GetAddress") [] [] with Ok m => match msg_binary nx_sha m nx_magic with Ok b => b | _ => [] end | _ => [] end.
Definition spA0 : list event := [EvAccept nx_b (1000 * SEC) nx_env; EvRead 0 (RData (nx_addrs 1 5)) (1001 * SEC) nx_clock].
Definition spA : list event := spA0 ++ [EvRead 0 (RData sp_ask) (1002 * SEC) nx_clock; EvWrite 0 (STaken 5000) (1003 * SEC)].
Definition spB : list event := [EvAddPeer nx_a true nx_env; EvRead 0 (RData (wire_of 0 (n_trace (history nx_sha true nx_ship spA)))) (1005 * SEC) nx_clock].
Example C148_applies :
  let A0 := history nx_sha true nx_ship spA0 in let A := history nx_sha true nx_ship spA in let B := history nx_sha false nx_cfB spB in
  zlen (n_book A0) = 5 /\ wire_of 0 (n_trace A) = queued_of 0 (n_trace A) /\ recv_of 0 (n_trace B) = queued_of 0 (n_trace A) /\
  (exists m, get_address_reply true A0 = Ok m /\ In m (said (talk 0 (n_trace A)))) /\
  Forall ordinary_event spA /\ Forall wf_event spB /\
  (forall es1 es2, spB = es1 ++ es2 -> zlen (n_book (history nx_sha false nx_cfB es1)) <= 2500) /\
  map fst (n_book B) = map fst (n_book A0) /\ n_book (history nx_sha false nx_cfB [EvAddPeer nx_a true nx_env]) = [].
Proof.
  cbv zeta. split; [vm_compute; reflexivity|]. split; [vm_compute; reflexivity|]. split; [vm_compute; reflexivity|].
  split. { eexists. split; [vm_compute; reflexivity|]. vm_compute. right. left. reflexivity. }
  split; [|split; [|split; [|split; vm_compute; reflexivity]]].
  - assert (N : wf_bytes (ce_nonce nx_env)) by (apply all_bytes_wf; reflexivity).
    assert (W1 : wf_bytes (nx_addrs 1 5)) by (apply all_bytes_wf; vm_compute; reflexivity). assert (W2 : wf_bytes sp_ask) by (apply all_bytes_wf; vm_compute; reflexivity).
    unfold spA, spA0. generalize dependent (nx_addrs 1 5). intros w1 W1. generalize dependent sp_ask. intros w2 W2. cbn [app].
    apply Forall_cons; [split; [exact I|exact N]|]. apply Forall_cons; [exact (proj2 (fine_read w1 (1001 * SEC) W1))|]. apply Forall_cons; [exact (proj2 (fine_read w2 (1002 * SEC) W2))|]. apply Forall_cons; [split; exact I|constructor].
  - assert (W : wf_bytes (wire_of 0 (n_trace (history nx_sha true nx_ship spA)))) by (apply all_bytes_wf; vm_compute; reflexivity).
    unfold spB. apply Forall_cons; [exact I|]. apply Forall_cons; [exact W|constructor].
  - intros es1 es2 E. assert (H : exists k, es1 = firstn k spB /\ (k <= 2)%nat).
    { exists (List.length es1). split; [rewrite E, firstn_app, Nat.sub_diag, firstn_all; cbn; now rewrite app_nil_r|].
      apply (f_equal (@List.length event)) in E. rewrite app_length in E. change (List.length spB) with 2%nat in E. lia. }
    destruct H as (k & -> & L). assert (k = 0 \/ k = 1 \/ k = 2)%nat as [->|[->| ->]] by lia; vm_compute; discriminate.
Qed.

(** ** Assumptions *)

Print Assumptions C148_learned.
Print Assumptions C148_received.
Print Assumptions C148_kept.
Print Assumptions C148_answers_partial.
Print Assumptions C148_spread_partial.
Print Assumptions C148_spread_refuted.
