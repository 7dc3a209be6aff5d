(** Every event of the node is a sequence of primitive updates; invariants are
    proved once per primitive. *)
From Coq Require Import String ZArith List Lia Bool.
From Verif Require Import PyBase PyVal FormatModel MessagesModel NodeModel.
Import ListNotations.
Open Scope string_scope.
Open Scope list_scope.
Open Scope Z_scope.

(** ** Updating one element *)

Lemma length_upd_nth {A} i (f : A -> A) l : List.length (upd_nth i f l) = List.length l.
Proof. revert i. induction l as [|x l IH]; intros [|i]; cbn; auto. Qed.
Lemma nth_upd_same {A} i (f : A -> A) l : nth_error (upd_nth i f l) i = option_map f (nth_error l i).
Proof. revert i. induction l as [|x l IH]; intros [|i]; cbn; auto. Qed.
Lemma nth_upd_other {A} i j (f : A -> A) l : i <> j -> nth_error (upd_nth i f l) j = nth_error l j.
Proof. revert i j. induction l as [|x l IH]; intros [|i] [|j] H; cbn; auto. congruence. Qed.
Lemma upd_nth_none {A} i (f : A -> A) l : nth_error l i = None -> upd_nth i f l = l.
Proof. revert i. induction l as [|x l IH]; intros [|i] H; cbn in *; auto; [discriminate|]. now rewrite IH. Qed.

Lemma get_upd i j f n : get_conn j (upd i f n) = if Nat.eqb i j then option_map f (get_conn j n) else get_conn j n.
Proof.
  unfold get_conn, upd. cbn [n_conns set_n_conns]. destruct (Nat.eqb_spec i j) as [->|N].
  - apply nth_upd_same.
  - now apply nth_upd_other.
Qed.
Lemma get_emit j a n : get_conn j (emit a n) = get_conn j n. Proof. reflexivity. Qed.

Section Proofs.
Variable sha256 : bytes -> bytes.
Variable py2 : bool.
Variable cf : config.

(** The outcome of one frame, as an action. *)
Definition outcome (i : nat) (f : bytes) : action :=
  match msg_parse sha256 f (cf_magic cf) with
  | Ok m => AMsg i m
  | Raise e => if is_invalid e then AInvalid i f e else AParseError i f e
  end.

Definition inert (a : action) : Prop :=
  match a with
  | AHandlerError _ _ | AHandlerInvalid _ _ _ | ANoHandler _ _ | ARefuse _ => True
  | _ => False
  end.

(** Fields of a connection that the version and verack messages never touch. *)
Definition core (c : conn) :=
  (c_address c, c_incoming c, c_open c, c_send c, c_recv c, (c_tx c, c_rx c, c_last_tx c, c_last_ping c, c_last_rx c, c_banscore c)).

(** Primitive updates that do not consume or receive bytes. *)
Inductive prim0 : node -> node -> Prop :=
| p_queue n i m b : msg_binary sha256 m (cf_magic cf) = Ok b -> prim0 n (queue i m b n)
| p_shut n i : prim0 n (shut i n)
| p_register n a inc : inc = true \/ address_in_use cf a n = false -> prim0 n (register a inc n)
| p_add n i : prim0 n (add_banscore i n)
| p_reduce n i : prim0 n (reduce_banscore i n)
| p_ping n i now now2 c : get_conn i n = Some c -> c_last_tx c <> 0 ->
    now - c_last_tx c > 1800 * SEC -> now - c_last_ping c > 300 * SEC -> now <= now2 -> prim0 n (pinged i now now2 n)
| p_ext n : prim0 n (check_external_ip n)
| p_info n i f : (forall c, core (f c) = core c) -> prim0 n (upd i f n)
| p_record n i now : prim0 n (record_peer i now n)
| p_learn n a v : zlen (n_book n) <= MAX_ADDRESSES -> prim0 n (set_n_book (book_set a v (n_book n)) n)
| p_note n a : inert a -> prim0 n (emit a n)
| p_wrote n i k now : prim0 n (wrote i k now n)
| p_ban n i c now : get_conn i n = Some c -> c_banscore c > 5 -> prim0 n (ban (fst (c_address c)) now n)
| p_unban n k : prim0 n (set_n_banned (filter (fun kv => negb (ban_key_eqb (fst kv) k)) (n_banned n)) n)
| p_beat n now : now - n_last_heartbeat n > 10 * SEC -> prim0 n (beat now n)
| p_unlisten n : prim0 n (set_n_listener false n).

Definition take_frame (i : nat) (len : Z) (c : conn) (n : node) : node :=
  emit (outcome i (ztake len (c_recv c))) (upd i (set_c_recv (zdrop len (c_recv c))) n).
Inductive prim : node -> node -> Prop :=
| p_prim0 n n' : prim0 n n' -> prim n n'
| p_frame n i c len : get_conn i n = Some c -> first_msg_len (c_recv c) = Some len -> len <= zlen (c_recv c) ->
    prim n (take_frame i len c n)
| p_recv n i chunk now : chunk <> [] -> wf_bytes chunk -> prim n (received i chunk now n).

Inductive star (R : node -> node -> Prop) : node -> node -> Prop :=
| star_refl n : star R n n
| star_step n1 n2 n3 : star R n1 n2 -> R n2 n3 -> star R n1 n3.
Lemma star_one (R : node -> node -> Prop) n n' : R n n' -> star R n n'. Proof. intro H. eapply star_step; [apply star_refl|exact H]. Qed.
Lemma star_trans (R : node -> node -> Prop) a b c : star R a b -> star R b c -> star R a c.
Proof. intros H1 H2. induction H2 as [|n1 n2 n3 H IH Hr]; [assumption|]. exact (star_step _ _ _ _ (IH H1) Hr). Qed.
Lemma star_mono (R S : node -> node -> Prop) a b : (forall x y, R x y -> S x y) -> star R a b -> star S a b.
Proof. intros H. induction 1; [apply star_refl|eapply star_step; eauto]. Qed.
Lemma star_inv (R : node -> node -> Prop) (P : node -> Prop) a b :
  (forall x y, R x y -> P x -> P y) -> star R a b -> P a -> P b.
Proof. intros H. induction 1; intros; eauto. Qed.

Lemma handle_frame_ok i f now n : snd (handle_frame sha256 py2 cf i f now n) = Ok tt.
Proof.
  unfold handle_frame. destruct (msg_parse sha256 f (cf_magic cf)) as [m|e]; [|reflexivity].
  unfold bindM, modM, tryM. cbv beta iota. destruct (handle_message sha256 py2 cf i m now _) as (n' & [[]|e]); reflexivity.
Qed.


(** A relation that contains the primitive updates contains every operation;
    each lemma below only needs the primitives that the operation uses. *)
Section Gen.
Variable R : node -> node -> Prop.
Hypothesis R_refl : forall n, R n n.
Hypothesis R_trans : forall a b c, R a b -> R b c -> R a c.
Hypothesis R_queue : forall n i m b, msg_binary sha256 m (cf_magic cf) = Ok b -> R n (queue i m b n).
Hypothesis R_shut : forall n i, R n (shut i n).
Hypothesis R_register : forall n a inc, inc = true \/ address_in_use cf a n = false -> R n (register a inc n).
Hypothesis R_add : forall n i, R n (add_banscore i n).
Hypothesis R_reduce : forall n i, R n (reduce_banscore i n).
Hypothesis R_ping : forall n i now now2 c, get_conn i n = Some c -> c_last_tx c <> 0 ->
    now - c_last_tx c > 1800 * SEC -> now - c_last_ping c > 300 * SEC -> now <= now2 -> R n (pinged i now now2 n).
Hypothesis R_ext : forall n, R n (check_external_ip n).
Hypothesis R_info : forall n i f, (forall c, core (f c) = core c) -> R n (upd i f n).
Hypothesis R_record : forall n i now, R n (record_peer i now n).
Hypothesis R_learn : forall n a v, zlen (n_book n) <= MAX_ADDRESSES -> R n (set_n_book (book_set a v (n_book n)) n).
Hypothesis R_note : forall n a, inert a -> R n (emit a n).
Hypothesis R_wrote : forall n i k now, R n (wrote i k now n).
Hypothesis R_ban : forall n i c now, get_conn i n = Some c -> c_banscore c > 5 -> R n (ban (fst (c_address c)) now n).
Hypothesis R_unban : forall n k, R n (set_n_banned (filter (fun kv => negb (ban_key_eqb (fst kv) k)) (n_banned n)) n).
Hypothesis R_beat : forall n now, now - n_last_heartbeat n > 10 * SEC -> R n (beat now n).
Hypothesis R_unlisten : forall n, R n (set_n_listener false n).

Definition presR {A} (m : M A) : Prop := forall n, R n (fst (m n)).
Lemma presR_ret {A} (a : A) : presR (retM a). Proof. intro n. apply R_refl. Qed.
Lemma presR_raise {A} e : presR (@raiseM A e). Proof. intro n. apply R_refl. Qed.
Lemma presR_lift {A} (r : res A) : presR (liftM r). Proof. intro n. apply R_refl. Qed.
Lemma presR_mod f : (forall n, R n (f n)) -> presR (modM f).
Proof. intros H n. apply H. Qed.
Lemma presR_bind {A B} (m : M A) (k : A -> M B) : presR m -> (forall a, presR (k a)) -> presR (bindM m k).
Proof.
  intros Hm Hk n. unfold bindM. specialize (Hm n). destruct (m n) as (n' & [a|e]); cbn [fst] in *; [|exact Hm].
  eapply R_trans; [exact Hm|apply Hk].
Qed.
Lemma presR_get {B} (k : node -> M B) : (forall n, R n (fst (k n n))) -> presR (bindM getM k).
Proof. intros H n. apply H. Qed.
Lemma presR_try {A} (m : M A) h : presR m -> (forall e, presR (h e)) -> presR (tryM m h).
Proof.
  intros Hm Hh n. unfold tryM. specialize (Hm n). destruct (m n) as (n' & [a|e]); cbn [fst] in *; [exact Hm|].
  eapply R_trans; [exact Hm|apply Hh].
Qed.
Lemma presR_for {A} (l : list A) f : (forall x, presR (f x)) -> presR (for_each l f).
Proof. intro H. induction l as [|x l IH]; cbn [for_each]; [apply presR_ret|]. apply presR_bind; auto. Qed.

Lemma presR_send i m : presR (send_message sha256 cf i m).
Proof.
  intro n. unfold send_message, bindM, liftM. destruct (msg_binary sha256 m (cf_magic cf)) as [b|e] eqn:E; cbn.
  - now apply R_queue.
  - apply R_refl.
Qed.
Lemma presR_close i : presR (handle_close i).
Proof. apply presR_mod. intro n. apply R_shut. Qed.

Lemma new_connection_prims a inc e n : inc = true \/ address_in_use cf a n = false ->
  R n (fst (new_connection sha256 cf a inc e n)).
Proof.
  intro H. unfold new_connection. unfold bindM at 1, getM at 1. cbv beta iota zeta.
  unfold bindM at 1, modM at 1. cbv beta iota.
  eapply R_trans; [apply (R_register n a inc H)|].
  set (n1 := register a inc n). set (i := List.length (n_conns n)).
  destruct (negb inc && negb (ce_ok e)).
  - apply (presR_bind (handle_close i)); [apply presR_close|intro; apply presR_raise].
  - unfold bindM at 1, getM at 1. cbv beta iota. apply (presR_bind (liftM _)); [apply presR_lift|intro; apply presR_send].
Qed.

Ltac pres :=
  repeat first
    [ apply presR_ret | exact (fun n => R_refl n) | apply presR_raise | apply presR_lift | apply presR_send | apply presR_close
    | apply presR_bind; [|intro] ].

Lemma presR_readable i now now2 nonce : now <= now2 -> presR (readable sha256 cf i now now2 nonce).
Proof.
  intro Hn. apply presR_get. intro n. destruct (get_conn i n) as [c|] eqn:G; [|apply R_refl].
  cbv zeta.
  match goal with |- R n (fst (bindM ?m ?k n)) =>
    assert (R n (fst (m n)) /\ forall a, presR (k a)) as (H1 & H2) end.
  { split.
    - destruct (negb (c_last_tx c =? 0) && (now - c_last_tx c >? 1800 * SEC) && (now - c_last_ping c >? 300 * SEC)) eqn:E; [|apply R_refl].
      apply andb_prop in E. destruct E as (E & E3). apply andb_prop in E. destruct E as (E1 & E2).
      unfold bindM, liftM. destruct (new_message (type_of "Ping") [VBytes nonce] []) as [m|]; [|apply R_refl].
      unfold send_message, bindM, liftM. destruct (msg_binary sha256 m (cf_magic cf)) as [b|] eqn:Eb; [|apply R_refl].
      cbn. eapply R_trans; [apply (R_queue n i m b Eb)|].
      apply (R_ping _ i now now2 (set_c_send (c_send c ++ b) c)).
      + unfold queue. rewrite G. rewrite get_emit, get_upd, Nat.eqb_refl, G. reflexivity.
      + change (c_last_tx (set_c_send (c_send c ++ b) c)) with (c_last_tx c). intro Z0. rewrite Z0 in E1. discriminate E1.
      + change (c_last_tx (set_c_send (c_send c ++ b) c)) with (c_last_tx c). apply Z.gtb_lt in E2. now apply Z.lt_gt.
      + change (c_last_ping (set_c_send (c_send c ++ b) c)) with (c_last_ping c). apply Z.gtb_lt in E3. now apply Z.lt_gt.
      + exact Hn.
    - intro. destruct (negb (c_last_rx c =? 0) && (now - c_last_rx c >? 10800 * SEC)); pres. }
  revert H1. unfold bindM. match goal with |- context [let (n', r) := ?mm in _] => destruct mm as (n' & [a|er]) end; cbn [fst]; intro H1.
  - eapply R_trans; [exact H1|]. exact (H2 a n').
  - exact H1.
Qed.

Lemma presR_got_version i m : presR (got_version i m).
Proof.
  unfold got_version. pres.
  - apply presR_mod. intro n. apply R_info. intro c. reflexivity.
  - apply presR_mod. intro n. apply R_ext.
Qed.

Lemma presR_learn l : presR (learn_addresses l).
Proof.
  induction l as [|x l IH]; cbn [learn_addresses]; [apply presR_ret|].
  apply presR_get. intro n. destruct (Z.gtb_spec (zlen (n_book n)) MAX_ADDRESSES) as [G|G]; [apply R_refl|].
  unfold bindM at 1, liftM at 1. destruct (attr "address" x) as [av|]; [|apply R_refl].
  unfold bindM at 1, liftM at 1. destruct (as_text av) as [ip|]; [|apply R_refl].
  unfold bindM at 1, liftM at 1. destruct (attr "port" x) as [pv|]; [|apply R_refl].
  unfold bindM at 1, liftM at 1. destruct (as_int pv) as [port|]; [|apply R_refl].
  unfold bindM at 1, liftM at 1. destruct (attr "timestamp" x) as [ts|]; [|apply R_refl].
  unfold bindM at 1, liftM at 1. destruct (attr "services" x) as [sv|]; [|apply R_refl].
  unfold bindM at 1, modM at 1. cbv beta iota.
  eapply R_trans; [apply (R_learn n (ip, port) (ts, Some sv) G)|]. apply IH.
Qed.

Lemma presR_command name i m now f : command sha256 py2 cf name i m now = Some f -> presR f.
Proof.
  unfold command.
  repeat match goal with |- (if ?c then _ else _) = _ -> _ => destruct c; [intro H; injection H as <-; pres|] end; [| |discriminate].
  - apply presR_mod. intro n. apply R_record.
  - destruct a; try apply presR_raise; apply presR_learn.
Qed.
Lemma presR_handle_message i m now : presR (handle_message sha256 py2 cf i m now).
Proof.
  unfold handle_message. apply presR_bind.
  - destruct (String.eqb _ "version"); [apply presR_got_version|]. destruct (String.eqb _ "verack"); [|apply presR_ret].
    apply presR_mod. intro n. apply R_info. intro c. reflexivity.
  - intros []. destruct (command _ _ _ _ i m now) as [f|] eqn:E.
    + eapply presR_command; exact E.
    + apply presR_mod. intro n. apply R_note. exact I.
Qed.

Lemma presR_add_peer a force e : presR (add_peer sha256 cf a force e).
Proof.
  apply presR_get. intro n. destruct (negb force && (map_len n >=? cf_max_peers cf)); [apply R_refl|].
  destruct (address_in_use cf a n) eqn:U; [apply R_refl|].
  assert (R n (fst (bindM (new_connection sha256 cf a false e) (fun _ => retM true) n))) as H.
  { unfold bindM at 1. pose proof (new_connection_prims a false e n (or_intror U)) as H.
    destruct (new_connection sha256 cf a false e n) as (n' & [[]|er]); exact H. }
  unfold tryM. destruct (bindM _ _ n) as (n' & [b|er]); exact H.
Qed.
Lemma presR_remove a : presR (remove_peer a).
Proof. apply presR_get. intro n. destruct (find_peer a n (peers n)); [apply presR_close|apply R_refl]. Qed.
Lemma presR_punish i now : presR (punish_peer i now).
Proof.
  unfold punish_peer. apply presR_bind; [apply presR_mod; intro; apply R_add|]. intros [].
  apply presR_get. intro n. destruct (get_conn i n) as [c|] eqn:G; [|apply R_refl].
  destruct (Z.gtb_spec (c_banscore c) 5) as [H|]; [|apply R_refl].
  unfold bindM, modM. cbv beta iota. cbn [fst].
  eapply R_trans; [apply (R_ban n i c now G); lia|]. apply presR_close.
Qed.
Lemma presR_add_any e : presR (add_any_peer sha256 cf e).
Proof.
  apply presR_get. intro n. destruct (_ || _).
  - destruct (cf_bootstrap cf) as [|s l] eqn:E; [apply R_refl|]. cbv zeta.
    match goal with |- R n (fst (?m n)) => assert (presR m) as H by (apply presR_bind; [apply presR_add_peer|intro; apply presR_ret]); apply H end.
  - cbv zeta. destruct (find _ (n_book n)) as [(a & v)|]; [|apply R_refl].
    match goal with |- R n (fst (?m n)) => assert (presR m) as H by (apply presR_bind; [apply presR_add_peer|intro; apply presR_ret]); apply H end.
Qed.
Lemma presR_heartbeat envs pick : presR (heartbeat sha256 cf envs pick).
Proof.
  apply presR_get. intro n. cbv zeta.
  match goal with |- R n (fst (?m n)) => assert (presR m) as H; [|apply H] end.
  apply presR_bind; [apply presR_for; intro; apply presR_add_any|]. intros [].
  apply presR_get. intro n2.
  match goal with |- R n2 (fst (?m n2)) => assert (presR m) as H; [|apply H] end.
  apply presR_bind.
  - destruct (peers n); [apply presR_ret|]. destruct (zlen (n_book n2) <? 50); pres.
  - intros []. apply presR_for. intro. apply presR_mod. intro. apply R_reduce.
Qed.
Lemma presR_items now envs pick : presR (items sha256 cf now envs pick).
Proof.
  apply presR_get. intro n. destruct (Z.gtb_spec (now - n_last_heartbeat n) (10 * SEC)) as [G|]; [|apply R_refl].
  unfold bindM, modM. cbv beta iota.
  eapply R_trans; [apply (R_beat n now); lia|]. apply presR_heartbeat.
Qed.
Lemma presR_write i r now : presR (handle_write i r now).
Proof.
  destruct r; cbn [handle_write]; pres; apply presR_mod; intro; apply R_wrote.
Qed.
Lemma presR_accept a now e : presR (handle_accept sha256 cf a now e).
Proof.
  apply presR_get. intro n. cbv zeta.
  match goal with |- context [if negb (cf_listen cf) then ?x else ?y] => set (admit := if negb (cf_listen cf) then x else y) end.
  assert (presR admit) as Ha.
  { unfold admit. destruct (negb (cf_listen cf)); [apply presR_mod; intro; apply R_note; exact I|].
    apply presR_try.
    - intro n'. apply new_connection_prims. now left.
    - intro. apply presR_mod. intro. apply R_unlisten. }
  destruct (ban_lookup (KAddr a) (n_banned n)) as [t|]; [|apply Ha].
  destruct (now - t <? 3600 * SEC).
  - apply R_note. exact I.
  - match goal with |- R n (fst (?m n)) => assert (presR m) as H; [|apply H] end.
    apply presR_bind; [|intros []; exact Ha]. apply presR_mod. intro. apply R_unban.
Qed.


(** [handle_frame] after the cut: the outcome, then primitives. *)
Lemma handle_frame_R i c len now n :
  R (take_frame i len c n)
    (fst (handle_frame sha256 py2 cf i (ztake len (c_recv c)) now (upd i (set_c_recv (zdrop len (c_recv c))) n))).
Proof.
  unfold handle_frame, take_frame, outcome. destruct (msg_parse sha256 (ztake len (c_recv c)) (cf_magic cf)) as [m|e].
  - unfold bindM, modM. cbv beta iota.
    match goal with |- R ?a (fst (?m ?a)) => assert (presR m) as H; [|apply H] end.
    apply presR_try; [apply presR_handle_message|]. intro e. apply presR_mod. intro. apply R_note. destruct (is_invalid e); exact I.
  - cbn. apply R_refl.
Qed.
Hypothesis R_frame : forall n i c len, get_conn i n = Some c -> first_msg_len (c_recv c) = Some len -> len <= zlen (c_recv c) ->
    R n (take_frame i len c n).
Lemma read_loop_R fuel : forall i clock n, R n (fst (read_loop sha256 py2 cf fuel i clock n)).
Proof.
  induction fuel as [|k IH]; intros i clock n; [apply R_refl|].
  cbn [read_loop]. unfold bindM at 1, getM at 1. cbv beta iota.
  destruct (get_conn i n) as [c|] eqn:G; [|apply R_refl].
  destruct (first_msg_len (c_recv c)) as [len|] eqn:F; [|apply R_refl].
  destruct (Z.gtb_spec len (zlen (c_recv c))) as [L|L]; [apply R_refl|]. cbv zeta.
  unfold bindM at 1, modM at 1. cbv beta iota. 
  eapply R_trans; [apply (R_frame n i c len G F L)|].
  pose proof (handle_frame_R i c len (clock k) n) as H. pose proof (handle_frame_ok i (ztake len (c_recv c)) (clock k) (upd i (set_c_recv (zdrop len (c_recv c))) n)) as Ho.
  unfold bindM at 1. destruct (handle_frame _ _ _ i _ _ _) as (n' & r). cbn in Ho, H. subst r.
  eapply R_trans; [exact H|apply IH].
Qed.
End Gen.

Definition pres0 {A} (m : M A) : Prop := presR (star prim0) m.
Ltac side := intros; first [assumption | apply star_refl | eapply star_trans; eassumption | apply star_one; econstructor; eassumption | apply star_one; econstructor].
Lemma pres0_try {A} (m : M A) h : pres0 m -> (forall e, pres0 (h e)) -> pres0 (tryM m h).
Proof. apply presR_try; side. Qed.
Lemma pres0_mod f : (forall n, prim0 n (f n)) -> pres0 (modM f).
Proof. intro H. apply presR_mod. intro n. apply star_one, H. Qed.
Lemma pres0_send i m : pres0 (send_message sha256 cf i m). Proof. apply presR_send; side. Qed.
Lemma pres0_close i : pres0 (handle_close i). Proof. apply presR_close; side. Qed.
Lemma pres0_readable i now now2 nonce : now <= now2 -> pres0 (readable sha256 cf i now now2 nonce).
Proof. intro H. apply presR_readable; try assumption; side. Qed.
Lemma pres0_handle_message i m now : pres0 (handle_message sha256 py2 cf i m now).
Proof. apply presR_handle_message; side. Qed.
Lemma pres0_add_peer a force e : pres0 (add_peer sha256 cf a force e). Proof. apply presR_add_peer; side. Qed.
Lemma pres0_remove a : pres0 (remove_peer a). Proof. apply presR_remove; side. Qed.
Lemma pres0_punish i now : pres0 (punish_peer i now). Proof. apply presR_punish; side. Qed.
Lemma pres0_items now envs pick : pres0 (items sha256 cf now envs pick). Proof. apply presR_items; side. Qed.
Lemma pres0_write i r now : pres0 (handle_write i r now). Proof. apply presR_write; side. Qed.
Lemma pres0_accept a now e : pres0 (handle_accept sha256 cf a now e). Proof. apply presR_accept; side. Qed.

(** ** Reading *)

Lemma handle_frame_prims i c len now n :
  star prim0 (take_frame i len c n)
    (fst (handle_frame sha256 py2 cf i (ztake len (c_recv c)) now (upd i (set_c_recv (zdrop len (c_recv c))) n))).
Proof. apply handle_frame_R; side. Qed.
Lemma read_loop_prims fuel : forall i clock n, star prim n (fst (read_loop sha256 py2 cf fuel i clock n)).
Proof.
  intros. apply read_loop_R; intros;
    first [apply star_refl | eapply star_trans; eassumption
          | apply star_one; apply p_prim0; econstructor; eassumption | apply star_one; apply p_prim0; econstructor
          | apply star_one; econstructor; eassumption].
Qed.

Definition wf_event (e : event) : Prop :=
  match e with EvRead _ (RData chunk) _ _ => wf_bytes chunk | EvReadable _ now now2 _ => now <= now2 | _ => True end.

Lemma handle_read_prims i r now clock n : (match r with RData c => wf_bytes c | _ => True end) ->
  star prim n (fst (handle_read sha256 py2 cf i r now clock n)).
Proof.
  intro W. assert (forall m : M unit, pres0 m -> star prim n (fst (m n))) as Up.
  { intros m H. eapply star_mono; [|apply H]. intros. now apply p_prim0. }
  destruct r as [[|x chunk]|]; cbn [handle_read]; try (apply Up; apply pres0_close); try (apply Up; apply presR_bind; [apply star_trans|apply pres0_close|intros _; apply pres0_close]).
  unfold bindM at 1, modM at 1. cbv beta iota. unfold bindM, getM. cbv beta iota.
  eapply star_trans; [apply star_one; apply (p_recv n i (x :: chunk) now); [discriminate|exact W]|].
  destruct (get_conn i (received i (x :: chunk) now n)) as [c|]; [apply read_loop_prims|apply star_refl].
Qed.

Notation step := (step sha256 py2 cf).
Lemma step_prims n e : wf_event e -> star prim n (step n e).
Proof.
  intro W. assert (forall A (m : M A), pres0 m -> star prim n (run m n)) as Up.
  { intros A m H. eapply star_mono; [|apply H]. intros. now apply p_prim0. }
  destruct e; cbn [NodeModel.step]; try (destruct (is_open i n); [|apply star_refl]).
  - apply Up, pres0_items.
  - apply Up, pres0_readable. exact W.
  - apply handle_read_prims. destruct r; exact W.
  - apply Up, pres0_write.
  - apply Up, pres0_close.
  - destruct (n_listener n); [|apply star_refl]. apply Up, pres0_accept.
  - apply Up, pres0_add_peer.
  - apply Up, pres0_remove.
  - apply Up, pres0_punish.
  - apply Up, pres0_send.
Qed.

Lemma history_inv (P : node -> Prop) : P (init_node cf) ->
  (forall n n', prim n n' -> P n -> P n') ->
  forall es, Forall wf_event es -> P (history sha256 py2 cf es).
Proof.
  intros H0 Hp es. unfold history. generalize (init_node cf) H0. clear H0.
  induction es as [|e es IH]; intros n H0 W; cbn [fold_left]; [exact H0|].
  inversion W; subst. apply IH; [|assumption]. eapply star_inv; [exact Hp|apply step_prims; assumption|exact H0].
Qed.
End Proofs.
