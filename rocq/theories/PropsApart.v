(** C130: connections do not interfere.

    A node serves all its peers from shared tables.  Here: what happens on one
    connection leaves the others exactly as they were, and what a connection
    does depends on its own events only - not on the other peers, the address
    book, the bans or the order in which the events of different connections
    arrive.  Modelled source: nbc/node/basenode.py, nbc/node/connection.py. *)
From Coq Require Import String ZArith List Lia Bool.
From Verif Require Import PyBase PyVal FormatModel MessagesModel FormatSpec FormatProofs FormatProofs2 MessagesProofs
  NodeModel NodeProofs NodeProofs2 NodeProofs3 NodeProofs4 NodeProofs5 NodeProofs6 NodeProofs7 NodeProofs8 NodeProofs9 NodeProofs10 NodeProofs12
  PropsNode PropsHello PropsTalk PropsMeet.
Import ListNotations.
Open Scope string_scope.
Open Scope list_scope.
Open Scope Z_scope.

(** ** Specification *)

(** The actions on connection [j] (exceptions of handlers are only logged). *)
Definition on (j : nat) (a : action) : bool :=
  match a with
  | AConnect i _ _ | AClose i | ARecv i _ | AMsg i _ | AInvalid i _ _ | AParseError i _ _ | ANoHandler i _
  | AQueue i _ _ | AWire i _ | APing i _ => Nat.eqb i j
  | _ => false
  end.
(** The connection to which an event belongs. *)
Definition owner (e : event) : option nat :=
  match e with
  | EvReadable i _ _ _ | EvRead i _ _ _ | EvWrite i _ _ | EvError i | EvPunish i _ | EvSend i _ => Some i
  | _ => None
  end.
Definition own (j : nat) (e : event) : bool := match owner e with Some i => Nat.eqb i j | None => false end.
(** Events that do not concern connection [j], which is to the peer [a]; the
    timer of the node is treated apart. *)
Definition elsewhere (j : nat) (a : addr) (e : event) : Prop :=
  match e with EvLoop _ _ _ => False | EvRemovePeer b => b <> a | _ => own j e = false end.

(** ** The other connections stay as they are *)

Section Frame.
Variable sha256 : bytes -> bytes.
Variable py2 : bool.
Variable cf : config.
Variable j : nat.
Definition Fr (n n' : node) : Prop :=
  (List.length (n_conns n) <= List.length (n_conns n'))%nat /\
  ((j < List.length (n_conns n))%nat -> get_conn j n' = get_conn j n /\ grows (fun l => filter (on j) l = []) n n').
Lemma Fr_refl n : Fr n n.
Proof. split; [lia|]. intros _. split; [reflexivity|]. now apply grows_refl. Qed.
Lemma Fr_trans a b c : Fr a b -> Fr b c -> Fr a c.
Proof.
  intros (L1 & H1) (L2 & H2). split; [lia|]. intro H. destruct (H1 H) as (G1 & T1). destruct (H2 ltac:(lia)) as (G2 & T2). split; [congruence|].
  eapply grows_trans; [|exact T1|exact T2]. intros x y Hx Hy. now rewrite filter_app, Hx, Hy.
Qed.
Lemma Fr_upd i f n : i <> j -> Fr n (upd i f n).
Proof.
  intro N. split; [unfold upd; cbn; now rewrite length_upd_nth|]. intros _. split; [rewrite get_upd; destruct (Nat.eqb_spec i j); [contradiction|reflexivity]|].
  now apply grows_same.
Qed.
Lemma Fr_same n n' : n_conns n' = n_conns n -> n_trace n' = n_trace n -> Fr n n'.
Proof. intros H1 H2. split; [rewrite H1; lia|]. intros _. unfold get_conn. rewrite H1. split; [reflexivity|]. now apply grows_same. Qed.
Lemma Fr_emitted a n n' : on j a = false -> n_conns n' = n_conns n -> n_trace n' = n_trace n ++ [a] -> Fr n n'.
Proof. intros H H1 H2. split; [rewrite H1; lia|]. intros _. unfold get_conn. rewrite H1. split; [reflexivity|]. exists [a]. split; [exact H2|]. cbn. now rewrite H. Qed.
Lemma Fr_emit a n : on j a = false -> Fr n (emit a n). Proof. intro H. now apply (Fr_emitted a). Qed.
Lemma neqb i : i <> j -> Nat.eqb i j = false. Proof. now apply Nat.eqb_neq. Qed.
Ltac via_upd := match goal with |- context [upd ?i ?f ?n] => apply (Fr_trans n (upd i f n)); [now apply Fr_upd|] end.
Lemma Fr_queue i m b n : i <> j -> Fr n (queue i m b n).
Proof.
  intro N. unfold queue. destruct (get_conn i n); [|apply Fr_refl]. via_upd. apply Fr_emit. now apply neqb.
Qed.
Lemma Fr_shut i n : i <> j -> Fr n (shut i n).
Proof.
  intro N. unfold shut. destruct (get_conn i n); [|apply Fr_refl]. via_upd. eapply Fr_trans; [apply (Fr_emit (AClose i)); now apply neqb|].
  unfold disconnected. destruct (book_mem _ _); [apply Fr_same; reflexivity|apply Fr_refl].
Qed.
Lemma Fr_register a inc n : Fr n (register a inc n).
Proof.
  unfold register. split; [cbn; rewrite app_length; lia|]. intro L. split; [unfold get_conn; cbn; now rewrite nth_error_app1|].
  eexists. split; [reflexivity|]. cbn [filter on]. destruct (Nat.eqb_spec (List.length (n_conns n)) j); [lia|reflexivity].
Qed.
Notation pres := (presR Fr).
Lemma pF_ret {A} (a : A) : pres (retM a). Proof. apply presR_ret. exact Fr_refl. Qed.
Lemma pF_raise {A} e : pres (@raiseM A e). Proof. apply presR_raise. exact Fr_refl. Qed.
Lemma pF_bind {A B} (m : M A) (k : A -> M B) : pres m -> (forall a, pres (k a)) -> pres (bindM m k). Proof. apply presR_bind. exact Fr_trans. Qed.
Lemma pF_bindlift {A B} (r : res A) (k : A -> M B) : (forall a, pres (k a)) -> pres (bindM (liftM r) k).
Proof. intros H n. unfold bindM, liftM. destruct r as [a|e]; [exact (H a n)|apply Fr_refl]. Qed.
Lemma pF_mod f : (forall n, Fr n (f n)) -> pres (modM f). Proof. intros H n. apply H. Qed.
Lemma pF_try {A} (m : M A) h : pres m -> (forall e, pres (h e)) -> pres (tryM m h). Proof. apply presR_try. exact Fr_trans. Qed.
Lemma pF_send i m : i <> j -> pres (send_message sha256 cf i m).
Proof. intro N. unfold send_message. apply pF_bindlift. intro b. apply pF_mod. intro. now apply Fr_queue. Qed.
Lemma pF_close i : i <> j -> pres (handle_close i). Proof. intro N. apply pF_mod. intro. now apply Fr_shut. Qed.
Lemma pF_learn l : pres (learn_addresses l).
Proof.
  induction l as [|x l IH]; cbn [learn_addresses]; [apply pF_ret|]. apply presR_get. intro n. destruct (_ >? _); [apply Fr_refl|].
  match goal with |- Fr ?x (fst (?m ?x)) => assert (pres m) as H; [|apply H] end. repeat (apply pF_bindlift; intro). apply pF_bind; [|intro; exact IH]. apply pF_mod. intro. apply Fr_same; reflexivity.
Qed.
Lemma pF_command name i m now f : i <> j -> command sha256 py2 cf name i m now = Some f -> pres f.
Proof.
  intro N. unfold command. cbv zeta.
  destruct (String.eqb name "ping"); [intro H; injection H as <-; repeat (first [now apply pF_send|apply pF_bindlift; intro])|].
  destruct (String.eqb name "pong"); [intro H; injection H as <-; apply pF_ret|].
  destruct (String.eqb name "version"); [intro H; injection H as <-; repeat (first [now apply pF_send|apply pF_bindlift; intro])|].
  destruct (String.eqb name "version_ack"); [intro H; injection H as <-; apply pF_mod; intro n; unfold record_peer; destruct (get_conn i n); [|apply Fr_refl]; destruct (_ <? _); [apply Fr_same; reflexivity|apply Fr_refl]|].
  destruct (String.eqb name "get_address"); [intro H; injection H as <-; apply presR_get; intro n; match goal with |- Fr ?x (fst (?m ?x)) => assert (pres m) as H; [|apply H] end; apply pF_bindlift; intro; now apply pF_send|].
  destruct (String.eqb name "address"); [|discriminate]. intro H; injection H as <-. apply pF_bindlift. intros v; destruct v; first [apply pF_learn|apply pF_raise].
Qed.
Lemma pF_message i m now : i <> j -> pres (handle_message sha256 py2 cf i m now).
Proof.
  intro N. unfold handle_message. apply pF_bind.
  - destruct (String.eqb _ "version"); [|destruct (String.eqb _ "verack"); [apply pF_mod; intro; now apply Fr_upd|apply pF_ret]].
    unfold got_version. cbv zeta. repeat (apply pF_bindlift; intro). apply pF_bind; [apply pF_mod; intro; now apply Fr_upd|intro]. apply pF_mod. intro n. unfold check_external_ip.
    destruct (count_votes _ _ _); [apply Fr_refl|apply Fr_same; reflexivity].
  - intro. destruct (command _ _ _ _ _ _ _) eqn:E; [exact (pF_command _ _ _ _ _ N E)|]. apply pF_mod. intro. apply Fr_emit. now apply neqb.
Qed.
Lemma pF_frame i payload now : i <> j -> pres (handle_frame sha256 py2 cf i payload now).
Proof.
  intro N. unfold handle_frame. destruct (msg_parse _ _ _) as [m|e].
  - apply pF_bind; [apply pF_mod; intro; apply Fr_emit; now apply neqb|intro]. apply pF_try; [now apply pF_message|]. intro x. apply pF_mod. intro. apply Fr_emit. destruct (is_invalid x); reflexivity.
  - apply pF_mod. intro. apply Fr_emit. destruct (is_invalid e); cbn [on]; now apply neqb.
Qed.
Lemma pF_read_loop fuel i clock : i <> j -> pres (read_loop sha256 py2 cf fuel i clock).
Proof.
  intro N. induction fuel as [|k IH]; cbn [read_loop]; [apply pF_ret|]. apply presR_get. intro n.
  destruct (get_conn i n) as [c|]; [|apply Fr_refl]. destruct (first_msg_len _); [|apply Fr_refl]. destruct (_ >? _); [apply Fr_refl|]. cbv zeta.
  match goal with |- Fr ?x (fst (?m ?x)) => assert (pres m) as H; [|apply H] end. apply pF_bind; [apply pF_mod; intro; now apply Fr_upd|intro]. apply pF_bind; [now apply pF_frame|intro; exact IH].
Qed.
Lemma pF_read i r now clock : i <> j -> pres (handle_read sha256 py2 cf i r now clock).
Proof.
  intro N. destruct r as [[|x ch]|]; cbn [handle_read]; [apply pF_bind; [|intro]; now apply pF_close| |now apply pF_close].
  apply pF_bind.
  - apply pF_mod. intro n. unfold received. destruct (get_conn i n); [|apply Fr_refl]. via_upd.
    apply (Fr_emitted (ARecv i (x :: ch))); [now apply neqb|reflexivity|reflexivity].
  - intro. apply presR_get. intro n. destruct (get_conn i n); [now apply pF_read_loop|apply Fr_refl].
Qed.
Lemma pF_wrote i k now n : i <> j -> Fr n (wrote i k now n).
Proof.
  intro N. unfold wrote. destruct (get_conn i n); [|apply Fr_refl]. cbv zeta. via_upd. eapply Fr_emitted; [|reflexivity|reflexivity]. now apply neqb.
Qed.
Lemma pF_write i r now : i <> j -> pres (handle_write i r now).
Proof.
  intro N. destruct r; cbn [handle_write]; [apply pF_mod; intro; now apply pF_wrote| |now apply pF_close]. apply pF_bind; [now apply pF_close|intro; apply pF_mod; intro; now apply pF_wrote].
Qed.
Lemma pF_readable i now now2 nonce : i <> j -> pres (readable sha256 cf i now now2 nonce).
Proof.
  intro N. unfold readable. apply presR_get. intro n. destruct (get_conn i n); [|apply Fr_refl]. cbv zeta.
  match goal with |- Fr ?x (fst (?m ?x)) => assert (pres m) as H; [|apply H] end. apply pF_bind.
  - destruct (_ && _); [|apply pF_ret]. apply pF_bindlift. intro. apply pF_bind; [now apply pF_send|intro]. apply pF_mod. intro n0. unfold pinged. destruct (get_conn i n0); [|apply Fr_refl].
    via_upd. apply Fr_emit. now apply neqb.
  - intro. destruct (_ && _); [|apply pF_ret]. apply pF_bind; [now apply pF_close|intro; apply pF_ret].
Qed.
Lemma pF_punish i now : i <> j -> pres (punish_peer i now).
Proof.
  intro N. unfold punish_peer. apply pF_bind.
  - apply pF_mod. intro n. unfold add_banscore. destruct (get_conn i n); [now apply Fr_upd|apply Fr_refl].
  - intro. apply presR_get. intro n. destruct (get_conn i n); [|apply Fr_refl]. destruct (_ >? _); [|apply Fr_refl].
    match goal with |- Fr ?x (fst (?m ?x)) => assert (pres m) as H; [|apply H] end. apply pF_bind; [|intro; now apply pF_close]. apply pF_mod. intro. apply (Fr_emitted (ABan (fst (c_address c)) now)); reflexivity.
Qed.
Lemma pF_new a inc e n : (j < List.length (n_conns n))%nat -> Fr n (fst (new_connection sha256 cf a inc e n)).
Proof.
  intro L. unfold new_connection. unfold bindM at 1, getM at 1. cbv beta iota zeta. unfold bindM at 1, modM at 1. cbv beta iota.
  assert (N : List.length (n_conns n) <> j) by lia. eapply Fr_trans; [apply (Fr_register a inc n)|].
  destruct (_ && _).
  - match goal with |- Fr ?x (fst (?m ?x)) => assert (pres m) as H; [|apply H] end. apply pF_bind; [now apply pF_close|intro; apply pF_raise].
  - match goal with |- Fr ?x (fst (?m ?x)) => assert (pres m) as H; [|apply H] end. apply presR_get. intro n0.
    match goal with |- Fr ?x (fst (?m ?x)) => assert (pres m) as H; [|apply H] end. apply pF_bindlift. intro. now apply pF_send.
Qed.
Lemma pF_add_peer a force e n : (j < List.length (n_conns n))%nat -> Fr n (fst (add_peer sha256 cf a force e n)).
Proof.
  intro L. unfold add_peer. unfold bindM at 1, getM at 1. cbv beta iota. destruct (_ && _); [apply Fr_refl|]. destruct (address_in_use _ _ _); [apply Fr_refl|].
  unfold tryM, bindM. pose proof (pF_new a false e n L) as H. destruct (new_connection sha256 cf a false e n) as (n' & [u|x]); exact H.
Qed.
Lemma pF_accept a now e n : (j < List.length (n_conns n))%nat -> Fr n (fst (handle_accept sha256 cf a now e n)).
Proof.
  intro L. unfold handle_accept. unfold bindM at 1, getM at 1. cbv beta iota zeta.
  match goal with |- context [if negb (cf_listen cf) then ?x else ?y] => set (adm := if negb (cf_listen cf) then x else y) end.
  assert (Ha : forall n, (j < List.length (n_conns n))%nat -> Fr n (fst (adm n))).
  { clear n L. intros n L. unfold adm. destruct (negb (cf_listen cf)); [apply Fr_emit; reflexivity|]. unfold tryM. pose proof (pF_new a true e n L) as H.
    destruct (new_connection sha256 cf a true e n) as (n' & [u|x]); [exact H|]. eapply Fr_trans; [exact H|]. apply Fr_same; reflexivity. }
  destruct (ban_lookup _ _) as [t|]; [|now apply Ha]. destruct (_ <? _); [apply Fr_emit; reflexivity|]. unfold bindM, modM. cbv beta iota.
  eapply Fr_trans; [|apply Ha; exact L]. apply Fr_same; reflexivity.
Qed.
Lemma find_peer_at a n l i : find_peer a n l = Some i -> exists c, get_conn i n = Some c /\ c_address c = a.
Proof.
  induction l as [|k l IH]; cbn [find_peer]; [discriminate|]. destruct (get_conn k n) as [c|] eqn:G; [|exact IH]. destruct (addr_eqb (c_address c) a) eqn:E; [|exact IH].
  intro H. assert (k = i) as <- by congruence. exists c. split; [exact G|]. now apply addr_eqb_eq.
Qed.
Lemma Fr_step n e c : elsewhere j (c_address c) e -> get_conn j n = Some c -> Fr n (step sha256 py2 cf n e).
Proof.
  intros O G. assert (L : (j < List.length (n_conns n))%nat) by (apply nth_error_Some; unfold get_conn in G; rewrite G; discriminate).
  destruct e; cbn [elsewhere] in O; try (destruct O; fail); unfold own in O; cbn [owner] in O; try (apply Nat.eqb_neq in O); cbn [step]; try (destruct (is_open i n); [|apply Fr_refl]); unfold run.
  - now apply pF_readable.
  - now apply pF_read.
  - now apply pF_write.
  - now apply Fr_shut.
  - destruct (n_listener n); [|apply Fr_refl]. now apply pF_accept.
  - now apply pF_add_peer.
  - unfold remove_peer. unfold bindM, getM. cbv beta iota. destruct (find_peer a n (peers n)) as [i|] eqn:F; [|apply Fr_refl]. apply pF_close. intros ->.
    apply find_peer_at in F. destruct F as (c' & G' & E). apply O. congruence.
  - now apply pF_punish.
  - now apply pF_send.
Qed.
End Frame.

(** Whatever state the node is in, an event of another connection, an incoming
    connection, a call of add_peer, or one of remove_peer for another address,
    leaves connection [j] as it is, and nothing happens on it. *)
Theorem C130_others : forall sha256 py2 cf n e j c,
  get_conn j n = Some c -> elsewhere j (c_address c) e ->
  get_conn j (step sha256 py2 cf n e) = Some c /\
  exists l, n_trace (step sha256 py2 cf n e) = n_trace n ++ l /\ filter (on j) l = [].
Proof.
  intros sha py2 cf n e j c G O.
  assert (L : (j < List.length (n_conns n))%nat) by (apply nth_error_Some; unfold get_conn in G; rewrite G; discriminate).
  destruct (Fr_step sha py2 cf j n e c O G) as (_ & H). destruct (H L) as (H1 & H2). split; [congruence|exact H2].
Qed.

(** ** Two runs *)

Section Two.
Variable sha256 : bytes -> bytes.
Variable py2 : bool.
Variable cf : config.
Variable j : nat.
Variable addr0 : addr.
Variable tr tr' : list action.
(** Connection [j] is the same in both nodes, and the same has happened on it
    since the traces were [tr] and [tr']. *)
Definition E (n n' : node) : Prop :=
  (exists c, get_conn j n = Some c /\ get_conn j n' = Some c /\ c_address c = addr0) /\
  exists l l', n_trace n = tr ++ l /\ n_trace n' = tr' ++ l' /\ filter (on j) l = filter (on j) l'.
Lemma E_irrel n n' m m' : E n n' -> get_conn j m = get_conn j n -> n_trace m = n_trace n -> get_conn j m' = get_conn j n' -> n_trace m' = n_trace n' -> E m m'.
Proof. intros (H & T) E0 E1 E2 E3. unfold E. rewrite E0, E1, E2, E3. split; assumption. Qed.
Lemma E_emit a n n' : E n n' -> E (emit a n) (emit a n').
Proof.
  intros (H & (l & l' & T1 & T2 & T3)). split; [exact H|]. exists (l ++ [a]), (l' ++ [a]). unfold emit. cbn [n_trace set_n_trace]. rewrite T1, T2, !app_assoc, !filter_app, T3. auto.
Qed.
Lemma E_off a b n n' : on j a = false -> on j b = false -> E n n' -> E (emit a n) (emit b n').
Proof.
  intros Ha Hb (H & (l & l' & T1 & T2 & T3)). split; [exact H|]. exists (l ++ [a]), (l' ++ [b]). unfold emit. cbn [n_trace set_n_trace]. rewrite T1, T2, !app_assoc, !filter_app, T3. cbn [filter]. rewrite Ha, Hb. auto.
Qed.
Lemma E_upd f n n' : (forall c, c_address (f c) = c_address c) -> E n n' -> E (upd j f n) (upd j f n').
Proof.
  intros Hf ((c & G & G' & A) & T). split; [|exact T]. exists (f c). rewrite !get_upd, Nat.eqb_refl, G, G', Hf. auto.
Qed.
Lemma E_get n n' : E n n' -> exists c, get_conn j n = Some c /\ get_conn j n' = Some c. Proof. intros ((c & G & G' & _) & _). eauto. Qed.
Definition rel {A} (m m' : M A) : Prop := forall n n', E n n' -> E (fst (m n)) (fst (m' n')) /\ snd (m n) = snd (m' n').
Definition relS {A} (m m' : M A) : Prop := forall n n', E n n' -> E (fst (m n)) (fst (m' n')).
Lemma rel_S {A} (m m' : M A) : rel m m' -> relS m m'. Proof. intros H n n' X. exact (proj1 (H n n' X)). Qed.
Lemma rel_ret {A} (a : A) : rel (retM a) (retM a). Proof. intros n n' X. now split. Qed.
Lemma rel_raise {A} e : rel (@raiseM A e) (raiseM e). Proof. intros n n' X. now split. Qed.
Lemma rel_mod f f' : (forall n n', E n n' -> E (f n) (f' n')) -> rel (modM f) (modM f'). Proof. intros H n n' X. split; [now apply H|reflexivity]. Qed.
Lemma rel_bind {A B} (m m' : M A) (k k' : A -> M B) : rel m m' -> (forall a, rel (k a) (k' a)) -> rel (bindM m k) (bindM m' k').
Proof.
  intros Hm Hk n n' X. unfold bindM. specialize (Hm n n' X). destruct (m n) as (n1 & r), (m' n') as (n1' & r'). cbn [fst snd] in Hm. destruct Hm as (X1 & <-).
  destruct r as [a|e]; [now apply Hk|split; [exact X1|reflexivity]].
Qed.
Lemma relS_bind {A B} (m m' : M A) (k k' : A -> M B) : rel m m' -> (forall a, relS (k a) (k' a)) -> relS (bindM m k) (bindM m' k').
Proof.
  intros Hm Hk n n' X. unfold bindM. specialize (Hm n n' X). destruct (m n) as (n1 & r), (m' n') as (n1' & r'). cbn [fst snd] in Hm. destruct Hm as (X1 & <-).
  destruct r as [a|e]; [now apply Hk|exact X1].
Qed.
Lemma rel_bindlift {A B} (r : res A) (k k' : A -> M B) : (forall a, r = Ok a -> rel (k a) (k' a)) -> rel (bindM (liftM r) k) (bindM (liftM r) k').
Proof. intros H n n' X. unfold bindM, liftM. destruct r as [a|e]; [now apply (H a eq_refl)|split; [exact X|reflexivity]]. Qed.
Lemma rel_get {B} (k k' : node -> M B) : (forall n n', E n n' -> E (fst (k n n)) (fst (k' n' n')) /\ snd (k n n) = snd (k' n' n')) -> rel (bindM getM k) (bindM getM k').
Proof. intros H n n' X. now apply H. Qed.
Ltac fields := intro; reflexivity.
Lemma rel_send m : rel (send_message sha256 cf j m) (send_message sha256 cf j m).
Proof.
  unfold send_message. apply rel_bindlift. intros b _. apply rel_mod. intros n n' X. unfold queue. destruct (E_get _ _ X) as (c & -> & ->). apply E_emit, E_upd; [fields|exact X].
Qed.
Lemma E_shut n n' : E n n' -> E (shut j n) (shut j n').
Proof.
  intro X. unfold shut. destruct (E_get _ _ X) as (c & -> & ->). apply (E_irrel (emit (AClose j) (upd j (set_c_open false) n)) (emit (AClose j) (upd j (set_c_open false) n'))).
  - apply E_emit, E_upd; [fields|exact X].
  - unfold disconnected. destruct (book_mem _ _); reflexivity.
  - unfold disconnected. destruct (book_mem _ _); reflexivity.
  - unfold disconnected. destruct (book_mem _ _); reflexivity.
  - unfold disconnected. destruct (book_mem _ _); reflexivity.
Qed.
Lemma rel_close : rel (handle_close j) (handle_close j). Proof. apply rel_mod. exact E_shut. Qed.
Lemma keeps (m m' : M unit) : (forall n, get_conn j (fst (m n)) = get_conn j n /\ n_trace (fst (m n)) = n_trace n) ->
  (forall n, get_conn j (fst (m' n)) = get_conn j n /\ n_trace (fst (m' n)) = n_trace n) -> relS m m'.
Proof. intros H H' n n' X. destruct (H n) as (A1 & A2), (H' n') as (B1 & B2). eapply E_irrel; eassumption. Qed.
Definition Kp (n n' : node) : Prop := get_conn j n' = get_conn j n /\ n_trace n' = n_trace n.
Lemma Kp_refl n : Kp n n. Proof. now split. Qed.
Lemma Kp_trans a b c : Kp a b -> Kp b c -> Kp a c. Proof. intros (H1 & H2) (H3 & H4). split; congruence. Qed.
Lemma learn_keeps l : presR Kp (learn_addresses l).
Proof.
  induction l as [|x l IH]; cbn [learn_addresses]; [apply presR_ret; exact Kp_refl|]. apply presR_get. intro n. destruct (_ >? _); [apply Kp_refl|].
  match goal with |- Kp ?x (fst (?m ?x)) => assert (presR Kp m) as H; [|apply H] end.
  repeat (apply presR_bind; [exact Kp_trans|apply presR_lift; exact Kp_refl|intro]). apply presR_bind; [exact Kp_trans| |intro; exact IH]. intro. split; reflexivity.
Qed.
Lemma relS_command name m now f : (py2 = true -> name <> "get_address") -> command sha256 py2 cf name j m now = Some f -> relS f f.
Proof.
  intro Hg. unfold command. cbv zeta.
  destruct (String.eqb name "ping"). { intro H. assert (f = do! nonce := liftM (field "nonce" (m_fields m)) in do! p := liftM (new_message (type_of "Pong") [nonce] []) in send_message sha256 cf j p) as -> by congruence. apply rel_S. apply rel_bindlift. intros v _. apply rel_bindlift. intros p _. apply rel_send. }
  destruct (String.eqb name "pong"). { intro H. assert (f = retM tt) as -> by congruence. apply rel_S, rel_ret. }
  destruct (String.eqb name "version"). { intro H. assert (f = do! p := liftM (new_message (type_of "VersionAck") [] []) in send_message sha256 cf j p) as -> by congruence. apply rel_S. apply rel_bindlift. intros p _. apply rel_send. }
  destruct (String.eqb name "version_ack"). { intro H. assert (f = modM (record_peer j now)) as -> by congruence. apply keeps; intro n; unfold modM, record_peer; cbn [fst]; (destruct (get_conn j n) eqn:G; [|split; [congruence|reflexivity]]); destruct (_ <? _); (split; [exact G|reflexivity]). }
  destruct (String.eqb_spec name "get_address") as [->|_].
  { intro H. destruct py2; [elim (Hg eq_refl eq_refl)|]. assert (f = do! n := getM in do! p := liftM (get_address_reply false n) in send_message sha256 cf j p) as -> by congruence.
    intros n n' X. exact X. }
  destruct (String.eqb name "address"); [|discriminate]. intro H. injection H as <-. apply relS_bind; [intros n n' X; now split|]. intro v.
  destruct v; first [apply keeps; apply learn_keeps|apply rel_S, rel_raise].
Qed.
Lemma relS_message m now : (py2 = true -> mt_name (m_type m) <> "get_address") -> relS (handle_message sha256 py2 cf j m now) (handle_message sha256 py2 cf j m now).
Proof.
  intro Hg. unfold handle_message. cbv zeta. apply relS_bind.
  - destruct (String.eqb _ "version").
    + unfold got_version. cbv zeta. repeat (apply rel_bindlift; intros ? _). apply rel_bind; [apply rel_mod; intros n n' X; apply E_upd; [fields|exact X]|]. intros _. apply rel_mod. intros n n' X.
      eapply E_irrel; [exact X| | | |]; unfold check_external_ip; destruct (count_votes _ _ _); reflexivity.
    + destruct (String.eqb _ "verack"); [|apply rel_ret]. apply rel_mod. intros n n' X. apply E_upd; [fields|exact X].
  - intros _. destruct (command _ _ _ _ _ _ _) eqn:C; [exact (relS_command _ _ _ _ Hg C)|]. apply rel_S, rel_mod. intros n n' X. now apply E_emit.
Qed.
Definition asks (m : message) : Prop := py2 = true /\ cmd m = "getaddr".
Lemma rel_frame payload now n n' : (forall m, msg_parse sha256 payload (cf_magic cf) = Ok m -> ~ asks m) -> E n n' ->
  E (fst (handle_frame sha256 py2 cf j payload now n)) (fst (handle_frame sha256 py2 cf j payload now n')) /\
  snd (handle_frame sha256 py2 cf j payload now n) = snd (handle_frame sha256 py2 cf j payload now n').
Proof.
  intros Hm X. unfold handle_frame. destruct (msg_parse sha256 payload (cf_magic cf)) as [m|e] eqn:P.
  2:{ split; [now apply E_emit|reflexivity]. }
  unfold bindM, modM. cbv beta iota.
  assert (Hg : py2 = true -> mt_name (m_type m) <> "get_address").
  { intros Hp Hn. apply (Hm m eq_refl). split; [exact Hp|]. pose proof (parsed_type sha256 _ _ _ P) as T. destruct (registry_names _ T) as (_ & _ & N3 & _). unfold cmd. now apply N3. }
  pose proof (relS_message m now Hg (emit (AMsg j m) n) (emit (AMsg j m) n') (E_emit _ _ _ X)) as R. unfold tryM.
  destruct (handle_message sha256 py2 cf j m now (emit (AMsg j m) n)) as (n1 & [[]|x]), (handle_message sha256 py2 cf j m now (emit (AMsg j m) n')) as (n1' & [[]|x']); cbn [fst snd] in *.
  - now split.
  - split; [|reflexivity]. destruct R as (H & (l & l' & T1 & T2 & T3)). split; [exact H|]. exists l, (l' ++ [if is_invalid x' then AHandlerInvalid j payload x' else AHandlerError j x']). cbn. rewrite T2, app_assoc, filter_app, T3. destruct (is_invalid x'); cbn; rewrite app_nil_r; auto.
  - split; [|reflexivity]. destruct R as (H & (l & l' & T1 & T2 & T3)). split; [exact H|]. exists (l ++ [if is_invalid x then AHandlerInvalid j payload x else AHandlerError j x]), l'. cbn. rewrite T1, app_assoc, filter_app, <- T3. destruct (is_invalid x); cbn; rewrite app_nil_r; auto.
  - split; [|reflexivity]. apply E_off; [destruct (is_invalid x); reflexivity|destruct (is_invalid x'); reflexivity|exact R].
Qed.
Lemma frame_in payload now m n c : msg_parse sha256 payload (cf_magic cf) = Ok m -> get_conn j n = Some c -> In (AMsg j m) (n_trace (fst (handle_frame sha256 py2 cf j payload now n))).
Proof.
  intros P G. unfold handle_frame. rewrite P. unfold bindM, modM. cbv beta iota.
  destruct (handle_answer sha256 py2 cf payload j m now (emit (AMsg j m) n) c P G) as (l & r & T & _).
  assert (H : In (AMsg j m) (n_trace (fst (handle_message sha256 py2 cf j m now (emit (AMsg j m) n))))) by (rewrite T; cbn [emit n_trace set_n_trace]; apply in_or_app; left; apply in_or_app; right; now left).
  unfold tryM. destruct (handle_message sha256 py2 cf j m now (emit (AMsg j m) n)) as (n1 & [u|x]); [exact H|]. cbn [fst emit n_trace set_n_trace] in *. apply in_or_app. now left.
Qed.
Lemma loop_grows fuel clock n : exists l, n_trace (fst (read_loop sha256 py2 cf fuel j clock n)) = n_trace n ++ l.
Proof. destruct (pD_read_loop sha256 py2 cf (fun _ _ => True) fuel j clock n) as (l & H & _). eauto. Qed.
Lemma rel_read_loop clock fuel : forall n n', (forall m, In (AMsg j m) (n_trace (fst (read_loop sha256 py2 cf fuel j clock n))) -> ~ asks m) -> E n n' ->
  E (fst (read_loop sha256 py2 cf fuel j clock n)) (fst (read_loop sha256 py2 cf fuel j clock n')).
Proof.
  induction fuel as [|k IH]; intros n n' Hm X; [exact X|]. cbn [read_loop] in *. unfold bindM at 1, getM at 1 in Hm. unfold bindM at 1 4, getM at 1 2. cbv beta iota in *.
  destruct (E_get _ _ X) as (c & G & G'). rewrite G in *. rewrite G'. destruct (first_msg_len (c_recv c)) as [len|]; [|exact X]. destruct (len >? zlen (c_recv c)); [exact X|]. cbv zeta in *.
  unfold bindM at 1, modM at 1 in Hm. unfold bindM at 1, modM at 1. unfold bindM at 2, modM at 1. cbv beta iota in *.
  set (u := upd j (set_c_recv (zdrop len (c_recv c))) n) in *. set (u' := upd j (set_c_recv (zdrop len (c_recv c))) n') in *.
  assert (X1 : E u u') by (apply E_upd; [fields|exact X]). destruct (E_get _ _ X1) as (c1 & G1 & _).
  unfold bindM in *.
  assert (Hf : forall m, msg_parse sha256 (ztake len (c_recv c)) (cf_magic cf) = Ok m -> ~ asks m).
  { intros m P. apply Hm. pose proof (frame_in (ztake len (c_recv c)) (clock k) m u c1 P G1) as I1. destruct (handle_frame sha256 py2 cf j (ztake len (c_recv c)) (clock k) u) as (n1 & [[]|x]); cbn [fst] in *; [|exact I1].
    destruct (loop_grows k clock n1) as (l & ->). apply in_or_app. now left. }
  pose proof (rel_frame (ztake len (c_recv c)) (clock k) u u' Hf X1) as (X2 & R).
  destruct (handle_frame sha256 py2 cf j (ztake len (c_recv c)) (clock k) u) as (n1 & r1), (handle_frame sha256 py2 cf j (ztake len (c_recv c)) (clock k) u') as (n1' & r1'). cbn [fst snd] in *. subst r1'.
  destruct r1 as [a|x]; [|exact X2]. now apply IH.
Qed.
Lemma rel_read r now clock n n' : (forall m, In (AMsg j m) (n_trace (fst (handle_read sha256 py2 cf j r now clock n))) -> ~ asks m) -> E n n' ->
  E (fst (handle_read sha256 py2 cf j r now clock n)) (fst (handle_read sha256 py2 cf j r now clock n')).
Proof.
  intros Hm X. destruct r as [[|x ch]|]; cbn [handle_read] in *.
  - apply rel_S; [|exact X]. apply rel_bind; [exact rel_close|intro; exact rel_close].
  - unfold bindM at 1, modM at 1 in Hm. unfold bindM at 1, modM at 1. unfold bindM at 2, modM at 1. cbv beta iota in *.
    assert (X1 : E (received j (x :: ch) now n) (received j (x :: ch) now n')).
    { unfold received. destruct (E_get _ _ X) as (c & -> & ->). apply E_emit. eapply E_irrel; [apply (E_upd (fun c0 => set_c_recv (c_recv c0 ++ x :: ch) (set_c_rx (c_rx c0 + zlen (x :: ch)) (set_c_last_rx now c0)))); [fields|exact X]| | | |]; reflexivity. }
    unfold bindM, getM in *. cbv beta iota in *. destruct (E_get _ _ X1) as (c & G & G'). rewrite G in *. rewrite G'. now apply rel_read_loop.
  - apply rel_S; [|exact X]. exact rel_close.
Qed.
Lemma E_wrote k now n n' : E n n' -> E (wrote j k now n) (wrote j k now n').
Proof.
  intro X. unfold wrote. destruct (E_get _ _ X) as (c & -> & ->). cbv zeta. apply E_emit. set (s := Z.max 0 (Z.min k (zlen (c_send c)))).
  eapply E_irrel; [apply (E_upd (fun c0 => set_c_send (zdrop s (c_send c0)) (set_c_tx (c_tx c0 + s) (set_c_last_tx now c0)))); [fields|exact X]| | | |]; reflexivity.
Qed.
Lemma rel_write r now : rel (handle_write j r now) (handle_write j r now).
Proof. destruct r; cbn [handle_write]; [apply rel_mod; intros; now apply E_wrote|apply rel_bind; [exact rel_close|intro; apply rel_mod; intros; now apply E_wrote]|exact rel_close]. Qed.
Lemma rel_readable now now2 nonce : rel (readable sha256 cf j now now2 nonce) (readable sha256 cf j now now2 nonce).
Proof.
  unfold readable. apply rel_get. intros n n' X. destruct (E_get _ _ X) as (c & -> & ->). cbv zeta.
  match goal with |- E (fst (?m n)) _ /\ _ => assert (rel m m) as R; [|exact (R n n' X)] end. apply rel_bind.
  - destruct (_ && _); [|apply rel_ret]. apply rel_bindlift. intros m _. apply rel_bind; [apply rel_send|intros _]. apply rel_mod. intros n1 n1' X1. unfold pinged. destruct (E_get _ _ X1) as (c1 & -> & ->). apply E_emit, E_upd; [fields|exact X1].
  - intros _. destruct (_ && _); [|apply rel_ret]. apply rel_bind; [exact rel_close|intros _; apply rel_ret].
Qed.
Lemma rel_punish now : rel (punish_peer j now) (punish_peer j now).
Proof.
  unfold punish_peer. apply rel_bind.
  - apply rel_mod. intros n n' X. unfold add_banscore. destruct (E_get _ _ X) as (c & -> & ->). apply E_upd; [fields|exact X].
  - intros _. apply rel_get. intros n n' X. destruct (E_get _ _ X) as (c & -> & ->). destruct (_ >? _); [|now split].
    match goal with |- E (fst (?m n)) _ /\ _ => assert (rel m m) as R; [|exact (R n n' X)] end. apply rel_bind; [|intros _; exact rel_close]. apply rel_mod. intros n1 n1' X1. unfold ban. apply E_emit. eapply E_irrel; [exact X1| | | |]; reflexivity.
Qed.
Lemma E_step e n n' : own j e = true -> (forall m, In (AMsg j m) (n_trace (step sha256 py2 cf n e)) -> ~ asks m) -> E n n' -> E (step sha256 py2 cf n e) (step sha256 py2 cf n' e).
Proof.
  intros O Hm X. assert (Op : is_open j n = is_open j n') by (unfold is_open; destruct (E_get _ _ X) as (c & -> & ->); reflexivity).
  destruct e; unfold own in O; cbn [owner] in O; try discriminate O; apply Nat.eqb_eq in O; subst i; cbn [step] in *; rewrite <- ?Op; try (destruct (is_open j n); [|exact X]); unfold run in *.
  - now apply rel_S; [apply rel_readable|].
  - now apply rel_read.
  - now apply rel_S; [apply rel_write|].
  - now apply E_shut.
  - now apply rel_S; [apply rel_punish|].
  - now apply rel_S; [apply rel_send|].
Qed.
Lemma E_left e n n' : elsewhere j addr0 e -> E n n' -> E (step sha256 py2 cf n e) n'.
Proof.
  intros O ((c & G & G' & A) & (l & l' & T1 & T2 & T3)). rewrite <- A in O. destruct (C130_others sha256 py2 cf n e j c G O) as (H1 & (k & H2 & H3)).
  split; [exists c; auto|]. exists (l ++ k), l'. rewrite H2, T1, app_assoc, filter_app, H3, app_nil_r. auto.
Qed.
Lemma E_right e n n' : elsewhere j addr0 e -> E n n' -> E n (step sha256 py2 cf n' e).
Proof.
  intros O ((c & G & G' & A) & (l & l' & T1 & T2 & T3)). rewrite <- A in O. destruct (C130_others sha256 py2 cf n' e j c G' O) as (H1 & (k & H2 & H3)).
  split; [exists c; auto|]. exists l, (l' ++ k). rewrite H2, T2, app_assoc, filter_app, H3, app_nil_r. auto.
Qed.
Definition concerns (e : event) : Prop := own j e = true \/ elsewhere j addr0 e.
Lemma elsewhere_own e : elsewhere j addr0 e -> own j e = false.
Proof. destruct e; cbn [elsewhere]; try tauto; intro; try assumption; reflexivity. Qed.
Lemma steps_grow l : forall n, exists k, n_trace (fold_left (step sha256 py2 cf) l n) = n_trace n ++ k.
Proof.
  induction l as [|e l IH]; intro n; cbn [fold_left]; [exists []; now rewrite app_nil_r|]. destruct (IH (step sha256 py2 cf n e)) as (k & ->).
  destruct (D_step sha256 py2 cf (fun _ _ => True) n e (fun _ _ _ => I)) as (k' & -> & _). exists (k' ++ k). now rewrite app_assoc.
Qed.
Lemma E_run : forall fs fs' n n', Forall concerns fs -> Forall concerns fs' -> filter (own j) fs = filter (own j) fs' ->
  (forall m, In (AMsg j m) (n_trace (fold_left (step sha256 py2 cf) fs n)) -> ~ asks m) -> E n n' ->
  E (fold_left (step sha256 py2 cf) fs n) (fold_left (step sha256 py2 cf) fs' n').
Proof.
  induction fs as [|e fs IH]; intros fs' n n' C C' F Hm X.
  - cbn [fold_left filter] in *. clear Hm. revert n' X. induction fs' as [|e fs' IH']; intros n' X; cbn [fold_left]; [exact X|]. apply Forall_cons_iff in C'. destruct C' as (C1 & C2). cbn [filter] in F.
    destruct C1 as [O|O]; [rewrite O in F; discriminate|]. rewrite (elsewhere_own _ O) in F. apply IH'; [exact C2|exact F|now apply E_right].
  - apply Forall_cons_iff in C. destruct C as (C1 & C2). cbn [filter] in F. destruct C1 as [O|O].
    2:{ cbn [fold_left]. apply IH; [exact C2|exact C'|rewrite (elsewhere_own _ O) in F; exact F|exact Hm|now apply E_left]. }
    rewrite O in F. revert n' X. induction fs' as [|e' fs' IH']; intros n' X; [discriminate F|]. apply Forall_cons_iff in C'. destruct C' as (D1 & D2). cbn [filter] in F. destruct D1 as [O'|O'].
    + rewrite O' in F. assert (e' = e) as -> by congruence. cbn [fold_left] in *. apply IH; [exact C2|exact D2|congruence|exact Hm|]. apply E_step; [exact O| |exact X].
      intros m Hin. apply Hm. destruct (steps_grow fs (step sha256 py2 cf n e)) as (k & ->). apply in_or_app. now left.
    + rewrite (elsewhere_own _ O') in F. change (fold_left (step sha256 py2 cf) (e' :: fs') n') with (fold_left (step sha256 py2 cf) fs' (step sha256 py2 cf n' e')). apply IH'; [exact D2|exact F|now apply E_right].
Qed.
End Two.

(** Two nodes with the same configuration and any pasts, in which connection [j]
    is in the same state; two continuations with the same events of connection
    [j], and otherwise any events of other connections, new connections, calls
    of add_peer and of remove_peer for other addresses, in any number and order.
    Then connection [j] ends in the same state, and the same has happened on it:
    the same bytes received, messages handled, messages and bytes sent, in the
    same order.  On Python 2 the answer to getaddr is made from the addresses
    that other peers have sent, and is excepted. *)
Theorem C130_isolated : forall sha256 py2 cf es es' fs fs' j c,
  let n := history sha256 py2 cf es in let n' := history sha256 py2 cf es' in
  get_conn j n = Some c -> get_conn j n' = Some c ->
  (forall e, In e fs \/ In e fs' -> owner e = Some j \/ elsewhere j (c_address c) e) ->
  filter (own j) fs = filter (own j) fs' ->
  (py2 = false \/ forall m, In m (heard (talk j (n_trace (history sha256 py2 cf (es ++ fs))))) -> cmd m <> "getaddr") ->
  get_conn j (history sha256 py2 cf (es ++ fs)) = get_conn j (history sha256 py2 cf (es' ++ fs')) /\
  exists l l', n_trace (history sha256 py2 cf (es ++ fs)) = n_trace n ++ l /\ n_trace (history sha256 py2 cf (es' ++ fs')) = n_trace n' ++ l' /\
    filter (on j) l = filter (on j) l'.
Proof.
  intros sha py2 cf es es' fs fs' j c n n' G G' C F Hg.
  assert (X : E j (c_address c) (n_trace n) (n_trace n') n n') by (split; [exists c; auto|exists [], []; rewrite !app_nil_r; auto]).
  assert (Q : forall e, owner e = Some j -> own j e = true) by (intros e H; unfold own; rewrite H; apply Nat.eqb_refl).
  assert (Y : E j (c_address c) (n_trace n) (n_trace n') (history sha py2 cf (es ++ fs)) (history sha py2 cf (es' ++ fs'))).
  { unfold history. rewrite !fold_left_app. apply (E_run sha py2 cf j); [| |exact F| |exact X].
    - apply Forall_forall. intros e He. destruct (C e (or_introl He)) as [H|H]; [left; auto|now right].
    - apply Forall_forall. intros e He. destruct (C e (or_intror He)) as [H|H]; [left; auto|now right].
    - intros m Hm (Hp & Hc). destruct Hg as [Hg|Hg]; [congruence|]. apply (Hg m); [|exact Hc]. unfold history. rewrite fold_left_app. clear - Hm.
      induction (n_trace _) as [|a l IH]; [destruct Hm|]. change (a :: l) with ([a] ++ l). rewrite talk_app, heard_app'. apply in_or_app. destruct Hm as [->|Hm]; [left; cbn; rewrite Nat.eqb_refl; now left|right; now apply IH]. }
  destruct Y as ((c1 & Y1 & Y2 & _) & T). split; [congruence|exact T].
Qed.

(** ** The timer of the node *)

(** The score after one heartbeat. *)
Definition lowered (c : conn) : conn := set_c_banscore (if c_banscore c - 1 <? 0 then 0 else c_banscore c - 1) c.
Section Timer.
Variable sha256 : bytes -> bytes.
Variable py2 : bool.
Variable cf : config.
Variable j : nat.
Notation there n := (j < List.length (n_conns n))%nat.
Lemma Fr_there n n' : Fr j n n' -> there n -> there n'. Proof. intros (H & _). lia. Qed.
Lemma for_F {A} (l : list A) (f : A -> M unit) : (forall x n, there n -> Fr j n (fst (f x n))) -> forall n, there n -> Fr j n (fst (for_each l f n)).
Proof.
  intro Hf. induction l as [|x l IH]; intros n L; cbn [for_each]; [apply Fr_refl|]. unfold bindM. pose proof (Hf x n L) as H. destruct (f x n) as (n1 & [u|e]); cbn [fst] in *; [|exact H].
  eapply Fr_trans; [exact H|]. apply IH. exact (Fr_there _ _ H L).
Qed.
Lemma F_add_any e n : there n -> Fr j n (fst (add_any_peer sha256 cf e n)).
Proof.
  intro L. unfold add_any_peer. unfold bindM at 1, getM at 1. cbv beta iota zeta. destruct (_ || _).
  - destruct (cf_bootstrap cf) as [|s l]; [apply Fr_refl|]. unfold bindM. match goal with |- context [add_peer sha256 cf ?a ?b ?c n] => pose proof (pF_add_peer sha256 cf j a b c n L) as H; destruct (add_peer sha256 cf a b c n) as (n1 & [u|x]) end; exact H.
  - destruct (find _ _) as [(a & v)|]; [|apply Fr_refl]. unfold bindM. match goal with |- context [add_peer sha256 cf ?a ?b ?c n] => pose proof (pF_add_peer sha256 cf j a b c n L) as H; destruct (add_peer sha256 cf a b c n) as (n1 & [u|x]) end; exact H.
Qed.
Lemma reduce_all ps : NoDup ps -> forall n c, get_conn j n = Some c ->
  get_conn j (fst (for_each ps (fun i => modM (reduce_banscore i)) n)) = Some (if existsb (Nat.eqb j) ps then lowered c else c) /\
  n_trace (fst (for_each ps (fun i => modM (reduce_banscore i)) n)) = n_trace n.
Proof.
  induction 1 as [|i ps Hi Hn IH]; intros n c G; [split; [exact G|reflexivity]|]. cbn [for_each]. unfold bindM, modM. cbv beta iota. cbn [existsb].
  assert (T : n_trace (reduce_banscore i n) = n_trace n) by (unfold reduce_banscore; destruct (get_conn i n); reflexivity).
  destruct (Nat.eqb_spec j i) as [<-|N]; cbn [orb].
  - assert (G1 : get_conn j (reduce_banscore j n) = Some (lowered c)) by (unfold reduce_banscore; rewrite G; cbv zeta; rewrite get_upd, Nat.eqb_refl, G; reflexivity).
    destruct (IH _ _ G1) as (H1 & H2). unfold modM in H1, H2. rewrite H1, H2, T. split; [|reflexivity]. destruct (existsb (Nat.eqb j) ps) eqn:X; [|reflexivity]. exfalso. apply existsb_exists in X. destruct X as (x & Hx & Q). apply Nat.eqb_eq in Q. subst x. contradiction.
  - assert (G1 : get_conn j (reduce_banscore i n) = Some c).
    { unfold reduce_banscore. destruct (get_conn i n); [|exact G]. cbv zeta. rewrite get_upd. destruct (Nat.eqb_spec i j); [congruence|exact G]. }
    destruct (IH _ _ G1) as (H1 & H2). unfold modM in H1, H2. rewrite H1, H2, T. split; reflexivity.
Qed.
Definition beat_of (c : conn) (c' : conn) (l : list action) : Prop :=
  c' = c /\ filter (on j) l = [] \/
  c_open c = true /\ c' = lowered c /\ filter (on j) l = [] \/
  c_open c = true /\ exists m b, cmd m = "getaddr" /\ c' = lowered (set_c_send (c_send c ++ b) c) /\ filter (on j) l = [AQueue j m b].
Definition beaten (n : node) (c : conn) (n' : node) : Prop := exists c' l, get_conn j n' = Some c' /\ n_trace n' = n_trace n ++ l /\ beat_of c c' l.
Lemma heartbeat_one envs pick n c : get_conn j n = Some c -> beaten n c (fst (heartbeat sha256 cf envs pick n)).
Proof.
  intro G. assert (L : there n) by (apply nth_error_Some; unfold get_conn in G; rewrite G; discriminate).
  unfold heartbeat. unfold bindM at 1, getM at 1. cbv beta iota zeta.
  assert (P : forall i, In i (peers n) -> i = j -> c_open c = true). { intros i Hi ->. apply peers_in in Hi. unfold is_open in Hi. rewrite G in Hi. exact Hi. }
  pose proof (peers_nodup n) as ND. set (ps := peers n) in *. clearbody ps.
  match goal with |- context [for_each ?s ?f] => pose proof (for_F s f (fun k m => F_add_any (envs k) m) n L) as H; set (pre := for_each s f) in *; clearbody pre end.
  unfold bindM at 1. destruct (pre n) as (n1 & [u|x]); cbn [fst] in *.
  2:{ destruct H as (_ & H). destruct (H L) as (H1 & (l & H2 & H3)). exists c, l. split; [congruence|]. split; [exact H2|]. left. now split. }
  destruct H as (_ & H). destruct (H L) as (H1 & (l & H2 & H3)). clear H. assert (G1 : get_conn j n1 = Some c) by congruence. clear G H1 pre.
  assert (Fin : forall n2 c2 l2, get_conn j n2 = Some c2 -> n_trace n2 = n_trace n1 ++ l2 ->
    (c2 = c /\ filter (on j) l2 = [] \/ c_open c = true /\ In j ps /\ exists m b, cmd m = "getaddr" /\ c2 = set_c_send (c_send c ++ b) c /\ filter (on j) l2 = [AQueue j m b]) ->
    beaten n c (fst (for_each ps (fun i => modM (reduce_banscore i)) n2))).
  { intros n2 c2 l2 G2 T2 O. destruct (reduce_all ps ND n2 c2 G2) as (R1 & R2). exists (if existsb (Nat.eqb j) ps then lowered c2 else c2), (l ++ l2).
    split; [exact R1|]. split; [rewrite R2, T2, H2; now rewrite app_assoc|]. unfold beat_of. rewrite filter_app, H3. cbn [app]. destruct (existsb (Nat.eqb j) ps) eqn:X.
    - apply existsb_exists in X. destruct X as (i & Hi & Q). apply Nat.eqb_eq in Q. destruct O as [(-> & O)|(Oc & _ & m & b & Em & -> & O)]; [right; left; split; [exact (P i Hi (eq_sym Q))|now split]|right; right; split; [exact Oc|exists m, b; auto]].
    - destruct O as [(-> & O)|(_ & Hin & _)]; [left; now split|]. exfalso. assert (existsb (Nat.eqb j) ps = true); [|congruence]. apply existsb_exists. exists j. split; [exact Hin|apply Nat.eqb_refl]. }
  unfold bindM at 1, getM at 1. cbv beta iota.
  assert (Stay : beaten n c n1) by (exists c, l; split; [exact G1|]; split; [exact H2|]; left; now split).
  destruct ps as [|p ps'] eqn:Eps; [apply (Fin n1 c []); [exact G1|now rewrite app_nil_r|left; now split]|]. rewrite <- Eps in *.
  unfold bindM at 1. destruct (_ <? _); [|cbv beta iota; unfold retM; cbv beta iota; apply (Fin n1 c []); [exact G1|now rewrite app_nil_r|left; now split]].
  unfold bindM at 1, liftM at 1. destruct (new_message (type_of "GetAddress") [] []) as [m|x] eqn:Nm; [|exact Stay]. unfold send_message. unfold bindM at 1, liftM at 1. destruct (msg_binary sha256 m (cf_magic cf)) as [b|x]; [|exact Stay].
  unfold modM at 1. cbv beta iota. set (q := nth (Nat.modulo pick (List.length ps)) ps p).
  assert (Hq : In q ps). { apply nth_In. apply Nat.mod_upper_bound. rewrite Eps. discriminate. }
  destruct (Nat.eq_dec q j) as [Q|Q].
  - rewrite Q. apply (Fin _ (set_c_send (c_send c ++ b) c) [AQueue j m b]).
    + unfold queue. rewrite G1, get_emit, get_upd, Nat.eqb_refl, G1. reflexivity.
    + unfold queue. rewrite G1. reflexivity.
    + right. split; [exact (P q Hq Q)|]. split; [rewrite <- Q; exact Hq|]. exists m, b. split; [unfold cmd; rewrite (new_message_type _ _ _ _ Nm); reflexivity|]. split; [reflexivity|]. cbn. now rewrite Nat.eqb_refl.
  - destruct (Fr_queue j q m b n1 Q) as (_ & H). destruct (H ltac:(apply nth_error_Some; unfold get_conn in G1; rewrite G1; discriminate)) as (Q1 & (l2 & Q2 & Q3)).
    apply (Fin _ c l2); [congruence|exact Q2|left; now split].
Qed.
End Timer.

(** The timer does one of three things to a connection: nothing, or lower the
    score of an open one, or that and send it one getaddr. *)
Theorem C130_timer : forall sha256 py2 cf n now envs pick j c,
  get_conn j n = Some c ->
  exists c' l, get_conn j (step sha256 py2 cf n (EvLoop now envs pick)) = Some c' /\ n_trace (step sha256 py2 cf n (EvLoop now envs pick)) = n_trace n ++ l /\
    (c' = c /\ filter (on j) l = [] \/
     c_open c = true /\ c' = lowered c /\ filter (on j) l = [] \/
     c_open c = true /\ exists m b, cmd m = "getaddr" /\ c' = lowered (set_c_send (c_send c ++ b) c) /\ filter (on j) l = [AQueue j m b]).
Proof.
  intros sha py2 cf n now envs pick j c G. cbn [step]. unfold run, items. unfold bindM, getM. cbv beta iota. destruct (_ >? _).
  - unfold modM. cbv beta iota. destruct (heartbeat_one sha cf j envs pick (beat now n) c G) as (c' & l & H1 & H2 & H3). exists c', (AHeartbeat now :: l). split; [exact H1|]. split; [rewrite H2; unfold beat; cbn; now rewrite <- app_assoc|exact H3].
  - exists c, []. split; [exact G|]. split; [now rewrite app_nil_r|]. left. now split.
Qed.

(** A connection that is dialled and reads a version message, in two nodes: in
    the second another peer connects before and sends garbage, is punished and
    closed meanwhile. *)
Definition nz_read : event := EvRead 0 (RData (wire_of 0 (n_trace (history nx_sha false nx_cfB nxB1)))) (1005 * SEC) nx_clock.
Definition nz_write : event := EvWrite 0 (STaken 1000) (1006 * SEC).
Definition nz_other : addr := (bs "10.0.0.9", 4009).
Definition nz_es : list event := nxA1 ++ [EvAccept nz_other (1002 * SEC) nx_env].
Definition nz_fs : list event := [EvRead 1 (RData [1; 2; 3]) (1003 * SEC) nx_clock; nz_read; EvPunish 1 (1004 * SEC); EvRemovePeer nz_other; nz_write; EvError 1].
Example C130_applies :
  let n := history nx_sha false nx_ship nxA1 in let n' := history nx_sha false nx_ship nz_es in
  (exists c, get_conn 0 n = Some c /\ get_conn 0 n' = Some c /\
     forall e, In e [nz_read; nz_write] \/ In e nz_fs -> owner e = Some 0%nat \/ elsewhere 0 (c_address c) e) /\
  filter (own 0) [nz_read; nz_write] = filter (own 0) nz_fs /\
  map item_name (talk 0 (n_trace (history nx_sha false nx_ship (nxA1 ++ [nz_read; nz_write])))) = [("said", "version"); ("heard", "version"); ("said", "verack"); ("heard", "verack")] /\
  map item_name (talk 1 (n_trace (history nx_sha false nx_ship (nz_es ++ nz_fs)))) = [("said", "version")] /\
  is_open 1 n' = true /\ is_open 1 (history nx_sha false nx_ship (nz_es ++ nz_fs)) = false.
Proof.
  cbv zeta. split.
  { destruct (get_conn 0 (history nx_sha false nx_ship nxA1)) as [c|] eqn:G; [|exfalso; revert G; vm_compute; discriminate]. exists c. split; [reflexivity|].
    assert (G' : get_conn 0 (history nx_sha false nx_ship nz_es) = Some c) by (rewrite <- G; vm_compute; reflexivity). split; [exact G'|].
    assert (A : c_address c = nx_b) by (apply (f_equal (option_map c_address)) in G; cbn [option_map] in G; assert (Some nx_b = Some (c_address c)) as Q by (rewrite <- G; vm_compute; reflexivity); congruence). rewrite A. clear.
    unfold nz_fs, nz_read, nz_write. cbn [In]. intros e [H|H]; repeat (destruct H as [<-|H]; [first [left; reflexivity|right; reflexivity|right; intro Q; discriminate Q]|]); destruct H. }
  split; [reflexivity|]. repeat (split; [vm_compute; reflexivity|]). vm_compute. reflexivity.
Qed.

(** ** Assumptions *)

Print Assumptions C130_others.
Print Assumptions C130_isolated.
Print Assumptions C130_timer.
