(** Whole conversations: what is said on a connection, in answer to what; and
    what a connection reports of its peer. *)
From Coq Require Import String ZArith List Lia Bool.
From Verif Require Import PyBase PyVal FormatModel MessagesModel FormatSpec FormatProofs MessagesProofs
  NodeModel NodeProofs NodeProofs2 NodeProofs3 NodeProofs4 NodeProofs5 NodeProofs6 NodeProofs7 NodeProofs8 NodeProofs9.
Import ListNotations.
Open Scope string_scope.
Open Scope list_scope.
Open Scope Z_scope.

(** ** Conversations *)

Inductive item : Type := Heard (m : message) | Said (m : message).
(** What happened on connection [i], in order. *)
Definition talk (i : nat) (tr : list action) : list item :=
  flat_map (fun a => match a with
                     | AMsg j m => if Nat.eqb j i then [Heard m] else []
                     | AQueue j m _ => if Nat.eqb j i then [Said m] else []
                     | _ => [] end) tr.
Definition cmd (m : message) : string := mt_command (m_type m).
Definition verack_message : message := mk_message t_verack [].
Definition pong_message (nonce : bytes) : message := mk_message t_pong [("nonce", VBytes nonce)].

(** The messages that answer a message: a verack for a version, a pong with the
    same nonce for a ping that has an 8-byte nonce, on Python 2 at most one addr
    for a getaddr, nothing for anything else. *)
Definition answered (py2 : bool) (m : message) (r : list message) : Prop :=
  if String.eqb (cmd m) "version" then r = [verack_message]
  else if String.eqb (cmd m) "ping" then
    exists nonce, assoc "nonce" (m_fields m) = Some (VBytes nonce) /\
      r = if zlen nonce =? 8 then [pong_message nonce] else []
  else if String.eqb (cmd m) "getaddr" then r = [] \/ py2 = true /\ exists a, r = [a] /\ cmd a = "addr"
  else r = [].
(** Conversations: messages of our own accord - version, ping, getaddr and what
    the application asked for - and messages heard, each directly followed by
    its answer. *)
Inductive dialogue (py2 : bool) (asked : message -> Prop) : list item -> Prop :=
| d_start : dialogue py2 asked []
| d_own l m : dialogue py2 asked l -> In (cmd m) ["version"; "ping"; "getaddr"] \/ asked m -> dialogue py2 asked (l ++ [Said m])
| d_heard l m r : dialogue py2 asked l -> answered py2 m r -> dialogue py2 asked (l ++ Heard m :: map Said r).

Lemma dialogue_app py2 asked a b : dialogue py2 asked a -> dialogue py2 asked b -> dialogue py2 asked (a ++ b).
Proof.
  intros Ha Hb. induction Hb as [|l m Hl IH Hm|l m r Hl IH Hr]; [now rewrite app_nil_r| |]; rewrite app_assoc; now constructor.
Qed.
Lemma dialogue_mono py2 (p q : message -> Prop) l : (forall m, p m -> q m) -> dialogue py2 p l -> dialogue py2 q l.
Proof. intros H. induction 1; constructor; auto. destruct H1; auto. Qed.
Lemma talk_app i a b : talk i (a ++ b) = talk i a ++ talk i b. Proof. apply flat_map_app. Qed.

Definition not_msg (a : action) : Prop := match a with AMsg _ _ => False | _ => True end.
Definition mute (a : action) : Prop := match a with AMsg _ _ | AQueue _ _ _ => False | _ => True end.
Lemma talk_sends i l : Forall not_msg l ->
  talk i l = map (fun p => Said (snd p)) (filter (fun p => Nat.eqb (fst p) i) (sends_of l)).
Proof.
  induction 1 as [|a l Ha Hl IH]; [reflexivity|]. change (a :: l) with ([a] ++ l). rewrite talk_app, sends_app, filter_app, map_app, <- IH. f_equal.
  destruct a; try reflexivity; [destruct Ha|]. cbn. destruct (Nat.eqb i0 i); reflexivity.
Qed.
Lemma talk_mute i l : Forall mute l -> talk i l = [].
Proof. induction 1 as [|a l Ha Hl IH]; [reflexivity|]. cbn. fold (talk i l). rewrite IH. destruct a; try reflexivity; destruct Ha. Qed.

(** What the registry says of the commands with handlers. *)
Lemma registry_names t : In t registry ->
  (mt_name t = "ping" <-> mt_command t = "ping") /\ (mt_name t = "version" <-> mt_command t = "version") /\
  (mt_name t = "get_address" <-> mt_command t = "getaddr") /\ (mt_name t = "version_ack" <-> mt_command t = "verack") /\
  (mt_command t = "ping" -> mt_props t = [("nonce", FBytes 8)]).
Proof.
  intros H. vm_compute in H.
  repeat (destruct H as [<-|H]; [cbn; repeat split; intro X; try discriminate X; reflexivity|]). destruct H.
Qed.

Section Talk.
Variable sha256 : bytes -> bytes.
Variable py2 : bool.
Variable cf : config.

Definition grows (P : list action -> Prop) (n n' : node) : Prop := exists l, n_trace n' = n_trace n ++ l /\ P l.
Lemma grows_refl (P : list action -> Prop) n : P [] -> grows P n n. Proof. exists []. now rewrite app_nil_r. Qed.
Lemma grows_trans (P : list action -> Prop) a b c : (forall x y, P x -> P y -> P (x ++ y)) -> grows P a b -> grows P b c -> grows P a c.
Proof. intros H (x & E & Px) (y & E' & Py). exists (x ++ y). rewrite E', E, app_assoc. auto. Qed.
Lemma grows_same (P : list action -> Prop) n n' : P [] -> n_trace n' = n_trace n -> grows P n n'. Proof. exists []. now rewrite app_nil_r. Qed.
Lemma grows_emit (P : list action -> Prop) a n : P [a] -> grows P n (emit a n). Proof. exists [a]. auto. Qed.

(** No primitive but [take_frame] makes an [AMsg]. *)
Notation G0 := (grows (Forall not_msg)).
Lemma G0_refl n : G0 n n. Proof. apply grows_refl. constructor. Qed.
Lemma G0_trans a b c : G0 a b -> G0 b c -> G0 a c. Proof. apply grows_trans. intros. now apply Forall_app. Qed.
Lemma G0_emit a n : not_msg a -> G0 n (emit a n). Proof. intro. apply grows_emit. auto. Qed.
Lemma G0_queue n i m b : G0 n (queue i m b n).
Proof. unfold queue. destruct (get_conn i n); [|apply G0_refl]. exists [AQueue i m b]. split; [reflexivity|]. constructor; [exact I|constructor]. Qed.
Lemma G0_handle i m now n : G0 n (fst (handle_message sha256 py2 cf i m now n)).
Proof.
  apply (presR_handle_message sha256 py2 cf (grows (Forall not_msg)) G0_refl G0_trans).
  - intros. apply G0_queue.
  - intro n0. apply grows_same; [constructor|]. unfold check_external_ip. destruct (count_votes _ _ _); reflexivity.
  - intros. apply grows_same; [constructor|reflexivity].
  - intros n0 j t. apply grows_same; [constructor|]. unfold record_peer. destruct (get_conn j n0); [|reflexivity]. destruct (_ <? _); reflexivity.
  - intros. apply grows_same; [constructor|reflexivity].
  - intros n0 a Ha. apply G0_emit. destruct a; try destruct Ha; exact I.
Qed.

Lemma parsed_type data magic m : msg_parse sha256 data magic = Ok m -> In (m_type m) registry.
Proof. intro H. apply msg_parse_inv in H. cbv zeta in H. tauto. Qed.
Lemma parsed_ping data magic m : msg_parse sha256 data magic = Ok m -> cmd m = "ping" ->
  exists nonce, assoc "nonce" (m_fields m) = Some (VBytes nonce).
Proof.
  intros H C. pose proof (parsed_type _ _ _ H) as T. apply msg_parse_inv in H. cbv zeta in H. destruct H as (_ & _ & _ & _ & _ & n & F).
  destruct (registry_names _ T) as (_ & _ & _ & _ & P). rewrite (P C) in F.
  destruct (fields_parse_assoc _ _ _ _ _ F "nonce" (FBytes 8) eq_refl) as (d & l & x & Q & E). cbn [parse] in Q. injection Q as <- <-. eauto.
Qed.
Lemma short_pong nonce : zlen nonce <> 8 -> forall p, new_message t_pong [VBytes nonce] [] <> Ok p.
Proof.
  intros L p. change t_pong with (mk_msg_type "Pong" "pong" "pong" [("nonce", FBytes 8)]). unfold new_message, construct. cbn.
  destruct (Z.eqb_spec (zlen nonce) 8) as [E|_]; [contradiction|]. cbn. discriminate.
Qed.

(** One message: its answer. *)
Lemma handle_answer data i m now n c : msg_parse sha256 data (cf_magic cf) = Ok m -> get_conn i n = Some c ->
  exists l r, n_trace (fst (handle_message sha256 py2 cf i m now n)) = n_trace n ++ l /\ answered py2 m r /\
    talk i l = map Said r /\ forall j, j <> i -> talk j l = [].
Proof.
  intros P G. pose proof (parsed_type _ _ _ P) as T. destruct (registry_names _ T) as (N1 & N2 & N3 & N4 & N5).
  destruct (G0_handle i m now n) as (l & E & F). exists l.
  assert (S : sends_of (n_trace (fst (handle_message sha256 py2 cf i m now n))) = sends_of (n_trace n) ++ sends_of l) by now rewrite E, sends_app.
  assert (K : forall r, answered py2 m r -> sends_of l = map (fun p => (i, p)) r ->
    exists r, n_trace (fst (handle_message sha256 py2 cf i m now n)) = n_trace n ++ l /\ answered py2 m r /\ talk i l = map Said r /\ forall j, j <> i -> talk j l = []).
  { intros r A Sr. exists r. split; [exact E|]. split; [exact A|]. split.
    - rewrite (talk_sends i l F), Sr. clear. induction r as [|x r IH]; [reflexivity|]. cbn. rewrite Nat.eqb_refl. cbn. now rewrite <- IH.
    - intros j Hj. rewrite (talk_sends j l F), Sr. clear - Hj. induction r as [|x r IH]; [reflexivity|]. cbn. destruct (Nat.eqb_spec i j); [congruence|]. exact IH. }
  unfold cmd in *. unfold answered, cmd in K. unfold cmd.
  destruct (String.eqb_spec (mt_command (m_type m)) "version") as [C|NV].
  { destruct (parsed_version sha256 _ _ m P C) as (HV & EN).
    destruct (handle_version sha256 py2 cf i m now n C EN HV) as (pb & _ & H). rewrite H in S. cbn [fst] in S.
    erewrite sends_queue in S by (rewrite get_ext, get_upd, Nat.eqb_refl, G; reflexivity).
    rewrite sends_ext, sends_upd in S. apply app_inv_head in S.
    destruct (K [verack_message] eq_refl) as (r & A); [now rewrite <- S|]. exists r. unfold answered, cmd. rewrite C. exact A. }
  destruct (handle_replies sha256 py2 cf i m now n) as (l' & H1 & H2). rewrite H1 in S. apply app_inv_head in S. subst l'.
  unfold answered, cmd. rewrite (proj2 (String.eqb_neq _ _) NV).
  destruct (String.eqb_spec (mt_command (m_type m)) "ping") as [C|NP].
  { destruct (parsed_ping _ _ _ P C) as (nonce & En). destruct (Z.eq_dec (zlen nonce) 8) as [L|L].
    - destruct (handle_ping sha256 py2 cf i m now n nonce C (proj2 N1 C)) as (pb & _ & H); [unfold field; now rewrite En|exact L|].
      rewrite H in H1. cbn [fst] in H1. erewrite sends_queue in H1 by exact G. apply app_inv_head in H1.
      apply (K [pong_message nonce]); [|now rewrite <- H1]. exists nonce. split; [exact En|]. now rewrite (proj2 (Z.eqb_eq _ _) L).
    - apply (K []); [exists nonce; split; [exact En|]; now rewrite (proj2 (Z.eqb_neq _ _) L)|].
      destruct H2 as [->|(p & -> & H2)]; [reflexivity|]. exfalso. destruct H2 as [(_ & v & Hv & Hp)|[(Hn & _)|(Hn & _)]].
      + unfold field in Hv. rewrite En in Hv. injection Hv as <-. exact (short_pong nonce L p Hp).
      + apply N2 in Hn. congruence.
      + apply N3 in Hn. rewrite C in Hn. discriminate. }
  destruct (String.eqb_spec (mt_command (m_type m)) "getaddr") as [C|NG].
  { destruct H2 as [El|(p & El & H2)]; [apply (K []); [now left|now rewrite El]|]. apply (K [p]); [|now rewrite El]. right.
    destruct H2 as [(Hn & _)|[(Hn & _)|(_ & n1 & R & _)]]; [apply N1 in Hn; congruence|apply N2 in Hn; congruence|].
    unfold get_address_reply in R. destruct py2; cbn [negb] in R; [|discriminate]. split; [reflexivity|]. exists p. split; [reflexivity|].
    bind_inv R. apply new_message_type in R. unfold cmd. rewrite R. reflexivity. }
  apply (K []); [reflexivity|]. destruct H2 as [->|(p & -> & H2)]; [reflexivity|]. exfalso.
  destruct H2 as [(Hn & _)|[(Hn & _)|(Hn & _)]]; [apply N1 in Hn|apply N2 in Hn|apply N3 in Hn]; contradiction.
Qed.

(** Histories. *)
Section Dialogue.
Variable asked : nat -> message -> Prop.
Definition D : node -> node -> Prop := grows (fun l => forall i, dialogue py2 (asked i) (talk i l)).
Lemma D_refl n : D n n. Proof. apply grows_refl. constructor. Qed.
Lemma D_trans a b c : D a b -> D b c -> D a c.
Proof. apply grows_trans. intros x y Hx Hy i. rewrite talk_app. now apply dialogue_app. Qed.
Lemma D_same n n' : n_trace n' = n_trace n -> D n n'. Proof. apply grows_same. constructor. Qed.
Lemma D_emit a n : mute a -> D n (emit a n).
Proof. intro M. apply grows_emit. intro i. rewrite talk_mute; constructor; auto. Qed.
Lemma D_emitted a n n' : mute a -> n_trace n' = n_trace n ++ [a] -> D n n'.
Proof. intros M E. exists [a]. split; [exact E|]. intro i. rewrite talk_mute; constructor; auto. Qed.
Lemma D_queue n i m b : In (cmd m) ["version"; "ping"; "getaddr"] \/ asked i m -> D n (queue i m b n).
Proof.
  intro O. unfold queue. destruct (get_conn i n) as [c|]; [|apply D_refl]. exists [AQueue i m b]. split; [reflexivity|].
  intro j. cbn. destruct (Nat.eqb_spec i j) as [E|]; [|constructor]. subst j. apply (d_own _ _ []); [constructor|exact O].
Qed.
Lemma D_shut n i : D n (shut i n).
Proof.
  unfold shut. destruct (get_conn i n) as [c|]; [|apply D_refl]. apply (D_emitted (AClose i)); [exact I|].
  unfold disconnected. destruct (book_mem _ _); reflexivity.
Qed.
Lemma D_add n i : D n (add_banscore i n).
Proof. unfold add_banscore. destruct (get_conn i n); apply D_same; reflexivity. Qed.
Lemma D_reduce n i : D n (reduce_banscore i n).
Proof. unfold reduce_banscore. destruct (get_conn i n); apply D_same; reflexivity. Qed.
Notation pres := (presR D).
Lemma pD_ret {A} (a : A) : pres (retM a). Proof. apply presR_ret. exact D_refl. Qed.
Lemma pD_raise {A} e : pres (@raiseM A e). Proof. apply presR_raise. exact D_refl. Qed.
Lemma pD_bind {A B} (m : M A) (k : A -> M B) : pres m -> (forall a, pres (k a)) -> pres (bindM m k). Proof. apply presR_bind. exact D_trans. Qed.
Lemma pD_bindlift {A B} (r : res A) (k : A -> M B) : (forall a, r = Ok a -> pres (k a)) -> pres (bindM (liftM r) k).
Proof. intros H n. unfold bindM, liftM. destruct r as [a|e]; [exact (H a eq_refl n)|apply D_refl]. Qed.
Lemma pD_send i m : In (cmd m) ["version"; "ping"; "getaddr"] \/ asked i m -> pres (send_message sha256 cf i m).
Proof. intro N. unfold send_message. apply pD_bindlift. intros b _. apply presR_mod. intro n. now apply D_queue. Qed.
Lemma pD_own i name args kw : In (mt_command (type_of name)) ["version"; "ping"; "getaddr"] ->
  pres (do! p := liftM (new_message (type_of name) args kw) in send_message sha256 cf i p).
Proof. intro N. apply pD_bindlift. intros p E. apply pD_send. left. unfold cmd. now rewrite (new_message_type _ _ _ _ E). Qed.
Lemma pD_for {A} (l : list A) f : (forall x, pres (f x)) -> pres (for_each l f). Proof. apply presR_for; [exact D_refl|exact D_trans]. Qed.

Lemma pD_frame i payload now n c : get_conn i n = Some c -> D n (fst (handle_frame sha256 py2 cf i payload now n)).
Proof.
  intro G. unfold handle_frame. destruct (msg_parse sha256 payload (cf_magic cf)) as [m|e] eqn:P.
  - unfold bindM at 1, modM at 1. cbv beta iota.
    destruct (handle_answer payload i m now (emit (AMsg i m) n) c P G) as (l & r & E & A & T1 & T2).
    assert (X : D n (fst (handle_message sha256 py2 cf i m now (emit (AMsg i m) n)))).
    { exists ([AMsg i m] ++ l). split; [rewrite E; unfold emit; cbn [n_trace set_n_trace]; now rewrite <- app_assoc|].
      intro j. rewrite talk_app. cbn [talk flat_map app]. destruct (Nat.eqb_spec i j) as [Ej|Hne].
      - subst j. rewrite T1. apply (d_heard _ _ []); [constructor|exact A].
      - rewrite T2 by congruence. constructor. }
    unfold tryM. destruct (handle_message sha256 py2 cf i m now (emit (AMsg i m) n)) as (n' & [u|x]); [exact X|]. cbn [fst] in *.
    eapply D_trans; [exact X|]. unfold modM. cbn [fst]. apply D_emit. destruct (is_invalid x); exact I.
  - apply D_emit. destruct (is_invalid e); exact I.
Qed.
Lemma pD_read_loop fuel : forall i clock, pres (read_loop sha256 py2 cf fuel i clock).
Proof.
  induction fuel as [|k IH]; intros i clock; cbn [read_loop]; [apply pD_ret|]. apply presR_get. intro n.
  destruct (get_conn i n) as [c|] eqn:E; [|apply D_refl]. destruct (first_msg_len (c_recv c)) as [len|]; [|apply D_refl]. destruct (_ >? _); [apply D_refl|]. cbv zeta.
  unfold bindM at 1, modM at 1. cbv beta iota.
  apply (D_trans n (upd i (set_c_recv (zdrop len (c_recv c))) n)); [apply D_same; reflexivity|]. unfold bindM.
  assert (Gc : exists c', get_conn i (upd i (set_c_recv (zdrop len (c_recv c))) n) = Some c') by (rewrite get_upd, Nat.eqb_refl, E; eexists; reflexivity).
  destruct Gc as (c' & Gc). pose proof (pD_frame i (ztake len (c_recv c)) (clock k) _ c' Gc) as X.
  destruct (handle_frame sha256 py2 cf i (ztake len (c_recv c)) (clock k) (upd i (set_c_recv (zdrop len (c_recv c))) n)) as (n' & [u|x]); cbn [fst] in *; [|exact X].
  eapply D_trans; [exact X|apply IH].
Qed.
Lemma pD_read i r now clock : pres (handle_read sha256 py2 cf i r now clock).
Proof.
  destruct r as [[|x ch]|]; cbn [handle_read]; try (apply presR_close; exact D_shut); try (apply pD_bind; [|intros _]; apply presR_close; exact D_shut).
  apply pD_bind; [|intros _; apply presR_get; intro n; destruct (get_conn i n); [apply pD_read_loop|apply D_refl]].
  apply presR_mod. intro n. unfold received. destruct (get_conn i n) as [c|] eqn:E; [|apply D_refl]. apply (D_emitted (ARecv i (x :: ch))); [exact I|reflexivity].
Qed.
Lemma pD_readable i now now2 nonce : pres (readable sha256 cf i now now2 nonce).
Proof.
  unfold readable. apply presR_get. intro n. destruct (get_conn i n) as [c|]; [|apply D_refl]. cbv zeta. match goal with |- D n (fst (?m n)) => assert (pres m) as K; [|apply K] end.
  apply pD_bind.
  - destruct (_ && _); [|apply pD_ret]. apply pD_bindlift. intros m E. apply pD_bind; [apply pD_send; left; unfold cmd; rewrite (new_message_type _ _ _ _ E); cbn; tauto|].
    intros _. apply presR_mod. intro n0. unfold pinged. destruct (get_conn i n0); [|apply D_refl]. apply (D_emitted (APing i now)); [exact I|reflexivity].
  - intros _. destruct (_ && _); [|apply pD_ret]. apply pD_bind; [apply presR_close; exact D_shut|intros _; apply pD_ret].
Qed.
Lemma pD_connect a inc e : pres (new_connection sha256 cf a inc e).
Proof.
  unfold new_connection. apply presR_get. intro n. cbv zeta. match goal with |- D n (fst (?m n)) => assert (pres m) as K; [|apply K] end.
  apply pD_bind; [apply presR_mod; intro n0; apply (D_emitted (AConnect (List.length (n_conns n0)) a inc)); [exact I|reflexivity]|]. intros _.
  destruct (_ && _).
  - apply pD_bind; [apply presR_close; exact D_shut|intros _; apply pD_raise].
  - apply presR_get. intro n1. match goal with |- D n1 (fst (?m n1)) => assert (pres m) as K; [|apply K] end.
    apply pD_bindlift. intros m E. apply pD_send. left. unfold version_message in E. bind_inv E. bind_inv E. unfold cmd. rewrite (new_message_type _ _ _ _ E). cbn. tauto.
Qed.
Lemma pD_try {A} (m : M A) h : pres m -> (forall e, pres (h e)) -> pres (tryM m h). Proof. apply presR_try. exact D_trans. Qed.
Lemma pD_add_peer a force e : pres (add_peer sha256 cf a force e).
Proof.
  unfold add_peer. apply presR_get. intro n. destruct (_ && _); [apply D_refl|]. destruct (address_in_use cf a n); [apply D_refl|].
  match goal with |- D n (fst (?m n)) => assert (pres m) as K; [|apply K] end. apply pD_try; [|intro; apply pD_ret]. apply pD_bind; [apply pD_connect|intros; apply pD_ret].
Qed.
Lemma pD_add_any e : pres (add_any_peer sha256 cf e).
Proof.
  unfold add_any_peer. apply presR_get. intro n. destruct (_ || _).
  - destruct (cf_bootstrap cf) as [|s l]; [apply D_refl|]. cbv zeta. match goal with |- D n (fst (?m n)) => assert (pres m) as K; [|apply K] end.
    apply pD_bind; [apply pD_add_peer|intros; apply pD_ret].
  - cbv zeta. destruct (find _ (n_book n)) as [(a & v)|]; [|apply D_refl]. match goal with |- D n (fst (?m n)) => assert (pres m) as K; [|apply K] end.
    apply pD_bind; [apply pD_add_peer|intros; apply pD_ret].
Qed.
Lemma pD_items now envs pick : pres (items sha256 cf now envs pick).
Proof.
  unfold items. apply presR_get. intro n. destruct (_ >? _); [|apply D_refl]. match goal with |- D n (fst (?m n)) => assert (pres m) as K; [|apply K] end.
  apply pD_bind; [apply presR_mod; intro n0; apply (D_emitted (AHeartbeat now)); [exact I|reflexivity]|]. intros _. unfold heartbeat. apply presR_get. intro n1. cbv zeta.
  match goal with |- D n1 (fst (?m n1)) => assert (pres m) as K; [|apply K] end.
  apply pD_bind; [apply pD_for; intro; apply pD_add_any|]. intros _. apply presR_get. intro n2. match goal with |- D n2 (fst (?m n2)) => assert (pres m) as K; [|apply K] end.
  apply pD_bind.
  - destruct (peers n1); [apply pD_ret|]. destruct (_ <? _); [|apply pD_ret]. apply pD_own. cbn. tauto.
  - intros _. apply pD_for. intro. apply presR_mod. intro. apply D_reduce.
Qed.
Lemma pD_accept a now e : pres (handle_accept sha256 cf a now e).
Proof.
  unfold handle_accept. apply presR_get. intro n. cbv zeta.
  match goal with |- context [if negb (cf_listen cf) then ?x else ?y] => set (admit := if negb (cf_listen cf) then x else y) end.
  assert (pres admit) as Ha.
  { unfold admit. destruct (negb (cf_listen cf)); [apply presR_mod; intro; apply D_emit; exact I|]. apply pD_try; [apply pD_connect|]. intro. apply presR_mod. intro. apply D_same. reflexivity. }
  destruct (ban_lookup (KAddr a) (n_banned n)) as [t|]; [|apply Ha]. destruct (_ <? _); [apply D_emit; exact I|].
  match goal with |- D n (fst (?m n)) => assert (pres m) as K; [|apply K] end. apply pD_bind; [|intros _; exact Ha]. apply presR_mod. intro. apply D_same. reflexivity.
Qed.
Lemma D_wrote i k now n : D n (wrote i k now n).
Proof.
  unfold wrote. destruct (get_conn i n) as [c|] eqn:E; [|apply D_refl]. cbv zeta. eapply D_emitted; [|reflexivity]. exact I.
Qed.
Lemma D_step n e : (forall i m, e = EvSend i m -> asked i m) -> D n (step sha256 py2 cf n e).
Proof.
  intros S. destruct e; cbn [step]; try (destruct (is_open i n); [|apply D_refl]); unfold run.
  - apply pD_items.
  - apply pD_readable.
  - apply pD_read.
  - apply (presR_write D D_trans D_shut). intros. apply D_wrote.
  - apply D_shut.
  - destruct (n_listener n); [|apply D_refl]. apply pD_accept.
  - apply pD_add_peer.
  - apply (presR_remove D D_refl D_shut).
  - apply (presR_punish D D_refl D_trans D_shut D_add). intros. apply (D_emitted (ABan (fst (c_address c)) now0)); [exact I|reflexivity].
  - apply pD_send. right. now apply S.
Qed.
End Dialogue.

Theorem history_dialogue es i : dialogue py2 (fun m => In (EvSend i m) es) (talk i (n_trace (history sha256 py2 cf es))).
Proof.
  assert (H : D (fun i m => In (EvSend i m) es) (init_node cf) (history sha256 py2 cf es)).
  { unfold history. assert (X : forall l, incl l es -> forall n, D (fun i m => In (EvSend i m) es) n (fold_left (step sha256 py2 cf) l n)).
    - induction l as [|e l IH]; intros Hl n; cbn [fold_left]; [apply D_refl|]. eapply D_trans; [|apply IH; intros x Hx; apply Hl; now right].
      apply D_step. intros j m ->. apply Hl. now left.
    - apply X. apply incl_refl. }
  destruct H as (l & E & H). rewrite E. cbn [init_node n_trace app]. apply H.
Qed.
End Talk.

(** ** What a connection reports of its peer *)

Definition heard_on (i : nat) (tr : list action) : list message :=
  flat_map (fun a => match a with AMsg j m => if Nat.eqb j i then [m] else [] | _ => [] end) tr.
Definition is_cmd (s : string) (m : message) : bool := String.eqb (cmd m) s.
(** The properties [version], [services], [user_agent], [start_height], [relay],
    [external_ip] and [verack] of a Connection. *)
Definition details (c : conn) : list (option pyval) * bool :=
  ([c_version c; c_services c; c_user_agent c; c_start_height c; c_relay c; option_map VStr (c_external_ip c)], c_verack c).
(** [addr_recv.address] of a version message. *)
Definition announced_ip (m : message) : option pyval :=
  match assoc "addr_recv" (m_fields m) with Some (VObj _ fs) => assoc "address" fs | _ => None end.
(** What they should be after the messages [h]. *)
Definition report (h : list message) : list (option pyval) * bool :=
  (match find (is_cmd "version") (rev h) with
   | None => [None; None; None; None; None; None]
   | Some m => map (fun k => assoc k (m_fields m)) ["version"; "services"; "user_agent"; "start_height"; "relay"] ++ [announced_ip m]
   end, existsb (is_cmd "verack") h).

Lemma heard_app i a b : heard_on i (a ++ b) = heard_on i a ++ heard_on i b. Proof. apply flat_map_app. Qed.
Lemma report_other h m : cmd m <> "version" -> cmd m <> "verack" -> report (h ++ [m]) = report h.
Proof.
  intros H1 H2. unfold report. rewrite rev_app_distr, existsb_app. cbn [rev app find existsb].
  assert (is_cmd "version" m = false) as -> by (now apply String.eqb_neq). assert (is_cmd "verack" m = false) as -> by (now apply String.eqb_neq).
  now rewrite !orb_false_r.
Qed.

Section Report.
Variable sha256 : bytes -> bytes.
Variable py2 : bool.
Variable cf : config.

Definition reported (n : node) : Prop := forall i,
  match get_conn i n with
  | Some c => details c = report (heard_on i (n_trace n))
  | None => heard_on i (n_trace n) = []
  end.
(** Steps that change neither. *)
Definition K (n n' : node) : Prop :=
  (forall i, option_map details (get_conn i n') = option_map details (get_conn i n)) /\ grows (Forall not_msg) n n'.
Lemma K_refl n : K n n. Proof. split; [reflexivity|apply G0_refl]. Qed.
Lemma K_trans a b c : K a b -> K b c -> K a c.
Proof. intros (A1 & A2) (B1 & B2). split; [intro i; now rewrite B1|exact (G0_trans _ _ _ A2 B2)]. Qed.
Lemma heard_not_msg i l : Forall not_msg l -> heard_on i l = [].
Proof. induction 1 as [|a l Ha Hl IH]; [reflexivity|]. cbn. fold (heard_on i l). rewrite IH. destruct a; try reflexivity; destruct Ha. Qed.
Lemma K_heard n n' i : K n n' -> heard_on i (n_trace n') = heard_on i (n_trace n).
Proof. intros (_ & l & E & F). rewrite E, heard_app, (heard_not_msg i l F). apply app_nil_r. Qed.
Lemma K_reported n n' : K n n' -> reported n -> reported n'.
Proof.
  intros Hk H i. specialize (H i). rewrite (K_heard n n' i Hk). destruct Hk as (E & _). specialize (E i).
  destruct (get_conn i n) as [c|], (get_conn i n') as [c'|]; cbn in E; try discriminate; [|exact H]. congruence.
Qed.
Lemma K_same n n' : n_conns n' = n_conns n -> n_trace n' = n_trace n -> K n n'.
Proof. intros E1 E2. split; [intro i; unfold get_conn; now rewrite E1|]. apply grows_same; [constructor|exact E2]. Qed.
Lemma K_emit a n : not_msg a -> K n (emit a n).
Proof. intro M. split; [reflexivity|]. now apply G0_emit. Qed.
Lemma K_upd i f n : (forall c, details (f c) = details c) -> K n (upd i f n).
Proof.
  intro H. split; [|apply grows_same; [constructor|reflexivity]]. intro j. rewrite get_upd. destruct (Nat.eqb i j); [|reflexivity].
  destruct (get_conn j n); [|reflexivity]. cbn. now rewrite H.
Qed.
Lemma K_queue n i m b : K n (queue i m b n).
Proof. unfold queue. destruct (get_conn i n); [|apply K_refl]. eapply K_trans; [apply K_upd|apply K_emit]; [reflexivity|exact I]. Qed.
Lemma K_shut n i : K n (shut i n).
Proof.
  unfold shut. destruct (get_conn i n) as [c|]; [|apply K_refl]. apply (K_trans n (emit (AClose i) (upd i (set_c_open false) n))).
  { eapply K_trans; [apply K_upd|apply K_emit]; [reflexivity|exact I]. }
  unfold disconnected. destruct (book_mem _ _); [|apply K_refl]. apply K_same; reflexivity.
Qed.
Lemma K_add n i : K n (add_banscore i n).
Proof. unfold add_banscore. destruct (get_conn i n); [|apply K_refl]. apply K_upd. reflexivity. Qed.
Lemma K_reduce n i : K n (reduce_banscore i n).
Proof. unfold reduce_banscore. destruct (get_conn i n); [|apply K_refl]. apply K_upd. reflexivity. Qed.
Lemma K_record n i now : K n (record_peer i now n).
Proof. unfold record_peer. destruct (get_conn i n); [|apply K_refl]. destruct (_ <? _); [|apply K_refl]. apply K_same; reflexivity. Qed.
Lemma K_ext n : K n (check_external_ip n).
Proof. unfold check_external_ip. destruct (count_votes _ _ _); [apply K_refl|]. apply K_same; reflexivity. Qed.
Lemma K_pinged n i now now2 : K n (pinged i now now2 n).
Proof. unfold pinged. destruct (get_conn i n); [|apply K_refl]. eapply K_trans; [apply K_upd|apply K_emit]; [reflexivity|exact I]. Qed.
Lemma K_wrote n i k now : K n (wrote i k now n).
Proof.
  unfold wrote. destruct (get_conn i n) as [c|]; [|apply K_refl]. cbv zeta. eapply K_trans; [|apply K_emit; exact I].
  match goal with |- K n (set_n_tx ?t (upd i ?g n)) => apply (K_trans n (upd i g n)); [|apply K_same; reflexivity] end. apply K_upd. reflexivity.
Qed.
Definition J (n n' : node) : Prop := reported n -> reported n'.
Lemma J_refl n : J n n. Proof. exact (fun H => H). Qed.
Lemma J_trans a b c : J a b -> J b c -> J a c. Proof. unfold J. tauto. Qed.
Lemma J_K n n' : K n n' -> J n n'. Proof. intros Hk H. exact (K_reported n n' Hk H). Qed.
Lemma J_register n a inc : J n (register a inc n).
Proof.
  intros H i. rewrite get_register. unfold register, emit. cbn [n_trace set_n_trace set_n_conns]. rewrite heard_app. cbn [heard_on flat_map]. rewrite app_nil_r. fold (heard_on i (n_trace n)).
  destruct (Nat.eqb_spec i (List.length (n_conns n))) as [->|Hne]; [|apply H].
  assert (N : get_conn (List.length (n_conns n)) n = None) by (apply nth_error_None; lia).
  specialize (H (List.length (n_conns n))). rewrite N in H. now rewrite H.
Qed.
(** One received message. *)
Lemma handled data i m now n c : msg_parse sha256 data (cf_magic cf) = Ok m -> get_conn i n = Some c ->
  reported n -> reported (fst (handle_message sha256 py2 cf i m now (emit (AMsg i m) n))).
Proof.
  intros P G H. pose proof (parsed_type _ _ _ _ P) as T. destruct (registry_names _ T) as (N1 & N2 & N3 & N4 & _).
  set (n0 := emit (AMsg i m) n).
  assert (H0 : forall j, j <> i -> heard_on j (n_trace n0) = heard_on j (n_trace n)).
  { intros j Hj. unfold n0, emit. cbn [n_trace set_n_trace]. rewrite heard_app. cbn. destruct (Nat.eqb_spec i j); [congruence|]. apply app_nil_r. }
  assert (H1 : heard_on i (n_trace n0) = heard_on i (n_trace n) ++ [m]).
  { unfold n0, emit. cbn [n_trace set_n_trace]. rewrite heard_app. cbn. now rewrite Nat.eqb_refl. }
  assert (X : forall n1, (forall j, j <> i -> get_conn j n1 = get_conn j n) -> n_trace n1 = n_trace n0 ->
      (forall c1, get_conn i n1 = Some c1 -> details c1 = report (heard_on i (n_trace n) ++ [m])) -> (exists c1, get_conn i n1 = Some c1) -> reported n1).
  { intros n1 A B C (c1 & E) j. rewrite B. destruct (Nat.eq_dec j i) as [->|Hj]; [rewrite E, H1; now apply C|]. rewrite (A j Hj), (H0 j Hj). apply H. }
  pose proof (H i) as Hi. rewrite G in Hi.
  destruct (String.eqb_spec (mt_command (m_type m)) "version") as [C|NV].
  { destruct (parsed_version sha256 _ _ m P C) as (HV & EN). destruct (handle_version sha256 py2 cf i m now n0 C EN HV) as (pb & _ & E). rewrite E. cbn [fst].
    apply (J_K _ _ (K_queue _ _ _ _)). apply (J_K _ _ (K_ext _)). apply X.
    - intros j Hj. rewrite get_upd. destruct (Nat.eqb_spec i j); [congruence|reflexivity].
    - reflexivity.
    - intros c1. rewrite get_upd, Nat.eqb_refl. unfold n0. rewrite get_emit, G. cbn [option_map]. intro E1. assert (c1 = note_version m c) as -> by congruence. clear E1.
      unfold report. rewrite rev_app_distr, existsb_app. cbn [rev app find existsb].
      assert (is_cmd "version" m = true) as -> by (unfold is_cmd, cmd; now rewrite C). assert (is_cmd "verack" m = false) as -> by (unfold is_cmd, cmd; now rewrite C).
      unfold report in Hi. rewrite !orb_false_r. destruct HV as (A & v & s & Ev & Ea).
      unfold note_version. destruct (A "services") as (sv & Es); [cbn; tauto|]. destruct (A "start_height") as (sh & Eh); [cbn; tauto|].
      destruct (A "user_agent") as (ua & Eu); [cbn; tauto|]. destruct (A "version") as (ve & Ee); [cbn; tauto|]. destruct (A "relay") as (re & Er); [cbn; tauto|].
      rewrite Es, Eh, Eu, Ee, Er, Ev. cbn [bind]. rewrite Ea.
      unfold details at 1. cbn [c_version c_services c_user_agent c_start_height c_relay c_external_ip c_verack set_c_services set_c_start_height set_c_user_agent set_c_version set_c_relay set_c_external_ip option_map].
      assert (F : forall k x, field k (m_fields m) = Ok x -> assoc k (m_fields m) = Some x) by (intros k x; unfold field; destruct (assoc k (m_fields m)); congruence).
      apply F in Es, Eh, Eu, Ee, Er, Ev. cbn [map]. rewrite Es, Eh, Eu, Ee, Er. unfold announced_ip. rewrite Ev.
      destruct v; cbn [attr] in Ea; try discriminate Ea. assert (assoc "address" fields = Some (VStr s)) as -> by (unfold field in Ea; destruct (assoc "address" fields); congruence).
      cbn [app]. f_equal. unfold details in Hi. congruence.
    - rewrite get_upd, Nat.eqb_refl. unfold n0. rewrite get_emit, G. eexists. reflexivity. }
  unfold handle_message. cbv zeta. rewrite (proj2 (String.eqb_neq _ _) NV).
  assert (Y : forall n1, reported n1 -> reported (fst (match command sha256 py2 cf (mt_name (m_type m)) i m now with Some f => f | None => modM (no_handler i (mt_name (m_type m))) end n1))).
  { intros n1. apply J_K. destruct (command _ _ _ _ i m now) as [f|] eqn:E; [|apply K_emit; exact I].
    revert n1. apply (presR_command sha256 py2 cf K K_refl K_trans) with (name := mt_name (m_type m)) (i := i) (m := m) (now := now); [intros; apply K_queue|intros; apply K_record| |exact E].
    intros. apply K_same; reflexivity. }
  unfold bindM. destruct (String.eqb_spec (mt_command (m_type m)) "verack") as [C|NA].
  { unfold modM at 1. cbv beta iota. apply Y. apply X.
    - intros j Hj. rewrite get_upd. destruct (Nat.eqb_spec i j); [congruence|reflexivity].
    - reflexivity.
    - intros c1. rewrite get_upd, Nat.eqb_refl. unfold n0. rewrite get_emit, G. cbn [option_map]. intro E1. assert (c1 = set_c_verack true c) as -> by congruence.
      unfold report. rewrite rev_app_distr, existsb_app. cbn [rev app find existsb].
      assert (is_cmd "version" m = false) as -> by (unfold is_cmd, cmd; now rewrite C). assert (is_cmd "verack" m = true) as -> by (unfold is_cmd, cmd; now rewrite C). cbn [orb]. rewrite orb_true_r.
      unfold report, details in Hi. unfold details. cbn [c_version c_services c_user_agent c_start_height c_relay c_external_ip c_verack set_c_verack]. congruence.
    - rewrite get_upd, Nat.eqb_refl. unfold n0. rewrite get_emit, G. eexists. reflexivity. }
  unfold retM at 1. cbv beta iota. apply Y. apply X.
  - reflexivity.
  - reflexivity.
  - intros c1. unfold n0. rewrite get_emit, G. intro E1. assert (c1 = c) as -> by congruence. rewrite report_other by assumption. exact Hi.
  - exists c. exact G.
Qed.

Notation pres := (presR J).
Lemma pJ_ret {A} (a : A) : pres (retM a). Proof. apply presR_ret. exact J_refl. Qed.
Lemma pJ_raise {A} e : pres (@raiseM A e). Proof. apply presR_raise. exact J_refl. Qed.
Lemma pJ_bind {A B} (m : M A) (k : A -> M B) : pres m -> (forall a, pres (k a)) -> pres (bindM m k). Proof. apply presR_bind. exact J_trans. Qed.
Lemma pJ_K {A} (m : M A) : presR K m -> pres m. Proof. intros H n. apply J_K, H. Qed.
Lemma J_shut n i : J n (shut i n). Proof. apply J_K, K_shut. Qed.
Lemma pJ_frame i payload now n c : get_conn i n = Some c -> J n (fst (handle_frame sha256 py2 cf i payload now n)).
Proof.
  intros G H. unfold handle_frame. destruct (msg_parse sha256 payload (cf_magic cf)) as [m|e] eqn:P.
  - unfold bindM at 1, modM at 1. cbv beta iota. pose proof (handled payload i m now n c P G H) as X.
    unfold tryM. destruct (handle_message sha256 py2 cf i m now (emit (AMsg i m) n)) as (n' & [u|x]); [exact X|]. cbn [fst] in *.
    unfold modM. cbn [fst]. apply (J_K n'); [|exact X]. apply K_emit. destruct (is_invalid x); exact I.
  - apply (J_K n); [|exact H]. apply K_emit. destruct (is_invalid e); exact I.
Qed.
Lemma pJ_read_loop fuel : forall i clock, pres (read_loop sha256 py2 cf fuel i clock).
Proof.
  induction fuel as [|k IH]; intros i clock; cbn [read_loop]; [apply pJ_ret|]. apply presR_get. intro n.
  destruct (get_conn i n) as [c|] eqn:E; [|apply J_refl]. destruct (first_msg_len (c_recv c)) as [len|]; [|apply J_refl]. destruct (_ >? _); [apply J_refl|]. cbv zeta.
  unfold bindM at 1, modM at 1. cbv beta iota.
  apply (J_trans n (upd i (set_c_recv (zdrop len (c_recv c))) n)); [apply J_K, K_upd; reflexivity|]. unfold bindM.
  assert (Gc : exists c', get_conn i (upd i (set_c_recv (zdrop len (c_recv c))) n) = Some c') by (rewrite get_upd, Nat.eqb_refl, E; eexists; reflexivity).
  destruct Gc as (c' & Gc). pose proof (pJ_frame i (ztake len (c_recv c)) (clock k) _ c' Gc) as X.
  destruct (handle_frame sha256 py2 cf i (ztake len (c_recv c)) (clock k) (upd i (set_c_recv (zdrop len (c_recv c))) n)) as (n' & [u|x]); cbn [fst] in *; [|exact X].
  eapply J_trans; [exact X|apply IH].
Qed.
Lemma pJ_read i r now clock : pres (handle_read sha256 py2 cf i r now clock).
Proof.
  destruct r as [[|x ch]|]; cbn [handle_read]; try (apply presR_close; exact J_shut); try (apply pJ_bind; [|intros _]; apply presR_close; exact J_shut).
  apply pJ_bind; [|intros _; apply presR_get; intro n; destruct (get_conn i n); [apply pJ_read_loop|apply J_refl]].
  apply presR_mod. intro n. unfold received. destruct (get_conn i n) as [c|] eqn:E; [|apply J_refl]. apply J_K. eapply K_trans; [|apply K_emit; exact I].
  match goal with |- K n (set_n_rx ?x (upd i ?g n)) => apply (K_trans n (upd i g n)); [|apply K_same; reflexivity] end. apply K_upd. reflexivity.
Qed.
Lemma J_step n e : wf_event e -> J n (step sha256 py2 cf n e).
Proof.
  intros W.
  assert (Jq : forall n i m b, msg_binary sha256 m (cf_magic cf) = Ok b -> J n (queue i m b n)) by (intros; apply J_K, K_queue).
  assert (Ja : forall n i, J n (add_banscore i n)) by (intros; apply J_K, K_add).
  assert (Jr : forall n i, J n (reduce_banscore i n)) by (intros; apply J_K, K_reduce).
  assert (Jb : forall n now, now - n_last_heartbeat n > 10 * SEC -> J n (beat now n)).
  { intros n0 now _. apply J_K. unfold beat. eapply K_trans; [|apply K_emit; exact I]. apply K_same; reflexivity. }
  assert (Jn : forall n a, inert a -> J n (emit a n)) by (intros n0 a Ha; apply J_K, K_emit; destruct a; try destruct Ha; exact I).
  destruct e; cbn [step wf_event] in *; try (destruct (is_open i n); [|apply J_refl]); unfold run.
  - apply (presR_items sha256 cf J J_refl J_trans Jq J_shut); auto. intros. apply J_register.
  - apply (presR_readable sha256 cf J J_refl J_trans Jq J_shut); auto. intros. apply J_K, K_pinged.
  - apply pJ_read.
  - apply (presR_write J J_trans J_shut). intros. apply J_K, K_wrote.
  - apply J_shut.
  - destruct (n_listener n); [|apply J_refl]. apply (presR_accept sha256 cf J J_refl J_trans Jq J_shut); auto.
    + intros. apply J_register.
    + intros. apply J_K, K_same; reflexivity.
    + intros. apply J_K, K_same; reflexivity.
  - apply (presR_add_peer sha256 cf J J_refl J_trans Jq J_shut). intros. apply J_register.
  - apply (presR_remove J J_refl J_shut).
  - apply (presR_punish J J_refl J_trans J_shut Ja). intros. apply J_K. unfold ban. eapply K_trans; [|apply K_emit; exact I]. apply K_same; reflexivity.
  - apply (presR_send sha256 cf J J_refl Jq).
Qed.
Theorem history_reported es : Forall wf_event es -> reported (history sha256 py2 cf es).
Proof.
  intro W. unfold history. assert (reported (init_node cf)) as H0 by (intro i; unfold get_conn; cbn; destruct i; reflexivity).
  revert H0. generalize (init_node cf). induction W as [|e es We _ IH]; intros n H; [exact H|]. cbn [fold_left]. apply IH. now apply J_step.
Qed.
End Report.
