(** Single events: the timer, one frame, the external IP after a version. *)
From Coq Require Import String ZArith List Lia Bool.
From Verif Require Import PyBase PyVal FormatModel MessagesModel FormatSpec FormatProofs MessagesProofs
  NodeModel NodeProofs NodeProofs2 NodeProofs3 NodeProofs4 NodeProofs5 NodeProofs6 NodeProofs7.
Import ListNotations.
Open Scope string_scope.
Open Scope list_scope.
Open Scope Z_scope.

Section Events.
Variable sha256 : bytes -> bytes.
Variable py2 : bool.
Variable cf : config.
Notation step := (step sha256 py2 cf).
Notation history := (history sha256 py2 cf).

(** ** The timer *)
Definition t_ping_ : msg_type := type_of "Ping".
Definition ping_message (nonce : bytes) : message := mk_message t_ping_ [("nonce", VBytes nonce)].
Definition ping_due (c : conn) (now : Z) : bool :=
  negb (c_last_tx c =? 0) && (now - c_last_tx c >? 1800 * SEC) && (now - c_last_ping c >? 300 * SEC).
Definition close_due (c : conn) (now : Z) : bool := negb (c_last_rx c =? 0) && (now - c_last_rx c >? 10800 * SEC).
Lemma ping_binary nonce : zlen nonce = 8 -> exists b, msg_binary sha256 (ping_message nonce) (cf_magic cf) = Ok b.
Proof.
  intro L. unfold msg_binary. change (mt_props (m_type (ping_message nonce))) with [("nonce", FBytes 8)].
  cbn. rewrite app_nil_r. eexists. unfold struct_pack. rewrite L. cbn. reflexivity.
Qed.
Lemma readable_spec i now now2 nonce n c : get_conn i n = Some c -> c_open c = true -> zlen nonce = 8 ->
  exists b, msg_binary sha256 (ping_message nonce) (cf_magic cf) = Ok b /\
  step n (EvReadable i now now2 nonce) =
    (let n1 := if ping_due c now then pinged i now now2 (queue i (ping_message nonce) b n) else n in
     if close_due c now then shut i n1 else n1).
Proof.
  intros G O L. destruct (ping_binary nonce L) as (b & E). exists b. split; [exact E|]. cbn [NodeModel.step].
  assert (is_open i n = true) as -> by (apply is_open_get; eauto). unfold run, readable. unfold bindM at 1, getM at 1. cbv beta iota. rewrite G. cbv zeta.
  fold (ping_due c now). fold (close_due c now).
  assert (new_message (type_of "Ping") [VBytes nonce] [] = Ok (ping_message nonce)) as Em.
  { change (type_of "Ping") with (mk_msg_type "Ping" "ping" "ping" [("nonce", FBytes 8)]). unfold new_message, construct. cbn. rewrite L. cbn. reflexivity. }
  destruct (ping_due c now).
  - unfold bindM, liftM. rewrite Em. cbv iota. unfold send_message, bindM, liftM, modM. rewrite E. cbv iota. destruct (close_due c now); reflexivity.
  - unfold bindM, retM. cbv iota. destruct (close_due c now); reflexivity.
Qed.
Lemma shut_closes i n : is_open i (shut i n) = false.
Proof.
  unfold shut. destruct (get_conn i n) as [c|] eqn:G; [|unfold is_open; now rewrite G]. unfold disconnected.
  match goal with |- is_open i (if ?b then set_n_book ?v ?x else ?y) = false => assert (is_open i y = false) as H; [|destruct b; exact H] end.
  unfold is_open. rewrite get_emit, get_upd, Nat.eqb_refl, G. reflexivity.
Qed.
Lemma shut_sends i n : sends_of (n_trace (shut i n)) = sends_of (n_trace n).
Proof.
  unfold shut. destruct (get_conn i n) as [c|]; [|reflexivity]. unfold disconnected.
  assert (sends_of (n_trace (emit (AClose i) (upd i (set_c_open false) n))) = sends_of (n_trace n)) as H.
  { unfold emit. cbn [n_trace set_n_trace upd set_n_conns]. rewrite sends_app. apply app_nil_r. }
  destruct (book_mem _ _); exact H.
Qed.
Lemma readable_effects i now now2 nonce n c : get_conn i n = Some c -> c_open c = true -> zlen nonce = 8 ->
  sends_of (n_trace (step n (EvReadable i now now2 nonce))) = sends_of (n_trace n) ++ (if ping_due c now then [(i, ping_message nonce)] else []) /\
  is_open i (step n (EvReadable i now now2 nonce)) = negb (close_due c now).
Proof.
  intros G O L. destruct (readable_spec i now now2 nonce n c G O L) as (b & E & ->). cbv zeta.
  assert (forall n1, sends_of (n_trace (if close_due c now then shut i n1 else n1)) = sends_of (n_trace n1)) as S by (intro; destruct (close_due c now); [apply shut_sends|reflexivity]).
  rewrite S. destruct (ping_due c now).
  - assert (get_conn i (queue i (ping_message nonce) b n) = Some (set_c_send (c_send c ++ b) c)) as G1 by (unfold queue; rewrite G, get_emit, get_upd, Nat.eqb_refl, G; reflexivity).
    split.
    + unfold pinged. rewrite G1. unfold emit at 1. cbn [n_trace set_n_trace upd set_n_conns]. rewrite sends_app, (sends_queue _ _ _ _ c G). cbn. now rewrite app_nil_r.
    + destruct (close_due c now); [apply shut_closes|]. unfold pinged. rewrite G1. unfold is_open. rewrite get_emit, get_upd, Nat.eqb_refl, G1. exact O.
  - split; [now rewrite app_nil_r|]. destruct (close_due c now); [apply shut_closes|]. unfold is_open. rewrite G. exact O.
Qed.

(** ** One complete message arriving on an empty buffer *)
Lemma upd_upd i f g n : upd i g (upd i f n) = upd i (fun c => g (f c)) n.
Proof.
  unfold upd. cbn [n_conns set_n_conns]. unfold set_n_conns. cbn. f_equal. generalize (n_conns n) as l. revert i.
  induction i as [|i IH]; intros [|c l]; cbn; auto. now rewrite IH.
Qed.
Lemma upd_ext i f g n : (forall c, get_conn i n = Some c -> f c = g c) -> upd i f n = upd i g n.
Proof.
  unfold upd, get_conn. intro H. f_equal. revert i H. generalize (n_conns n) as l. induction l as [|c l IH]; intros [|i] H; cbn; auto.
  - f_equal. now apply H.
  - f_equal. apply IH. exact H.
Qed.
Lemma frame_len b : is_frame b -> first_msg_len b = Some (zlen b).
Proof.
  intros (L & F). destruct (first_msg_len b) as [len|] eqn:E.
  - apply first_msg_len_some in E. destruct E as (_ & ->). now rewrite F.
  - apply first_msg_len_none in E. lia.
Qed.
(** The node once the bytes of one frame have been read and cut off. *)
Definition delivered (i : nat) (b : bytes) (now : Z) (n : node) : node :=
  emit (ARecv i b) (set_n_rx (n_rx n + zlen b) (upd i (fun c => set_c_rx (c_rx c + zlen b) (set_c_last_rx now c)) n)).
Definition on_error (i : nat) (f : bytes) (e : exn) : M unit :=
  modM (emit (if is_invalid e then AHandlerInvalid i f e else AHandlerError i e)).
Lemma read_one i b now clock n c m : get_conn i n = Some c -> c_open c = true -> c_recv c = [] ->
  is_frame b -> msg_parse sha256 b (cf_magic cf) = Ok m ->
  step n (EvRead i (RData b) now clock) =
    fst (tryM (handle_message sha256 py2 cf i m (clock (List.length b - 1)%nat)) (on_error i b) (emit (AMsg i m) (delivered i b now n))).
Proof.
  intros G O R F P. destruct F as (L & F').
  assert (first_msg_len b = Some (zlen b)) as F by now apply frame_len.
  cbn [NodeModel.step]. assert (is_open i n = true) as -> by (apply is_open_get; eauto).
  destruct b as [|x b0]; [cbn in L; lia|]. remember (x :: b0) as b eqn:Eb. unfold run.
  assert (handle_read sha256 py2 cf i (RData b) now clock = 
     (do! _ := modM (received i b now) in do! n := getM in match get_conn i n with Some c => read_loop sha256 py2 cf (List.length (c_recv c)) i clock | None => retM tt end)) as -> by (subst b; reflexivity).
  clear x b0 Eb. unfold bindM at 1, modM at 1. cbv beta iota. unfold bindM at 1, getM at 1. cbv beta iota.
  set (n1 := received i b now n).
  assert (exists c1, get_conn i n1 = Some c1 /\ c_recv c1 = b /\ upd i (set_c_recv []) n1 = delivered i b now n) as (c1 & G1 & R1 & D1).
  { unfold n1, received. rewrite G. rewrite get_emit. change (get_conn i (set_n_rx ?v ?x)) with (get_conn i x). rewrite get_upd, Nat.eqb_refl, G. cbn [option_map].
    eexists. split; [reflexivity|]. split; [cbn; rewrite R; reflexivity|].
    unfold delivered. 
    match goal with |- upd i ?g (emit ?a (set_n_rx ?v ?y)) = _ => change (upd i g (emit a (set_n_rx v y))) with (emit a (set_n_rx v (upd i g y))) end.
    rewrite upd_upd. f_equal. f_equal. apply upd_ext. intros c' G'. assert (c' = c) as -> by congruence. cbn. unfold set_c_recv, set_c_rx, set_c_last_rx. cbn. now rewrite R. }
  rewrite G1, R1. destruct (List.length b) as [|k] eqn:El; [unfold zlen in L; lia|]. cbn [read_loop]. unfold bindM at 1, getM at 1. cbv beta iota. rewrite G1, R1.
  rewrite F. destruct (Z.gtb_spec (zlen b) (zlen b)) as [Hg|Hg]; [lia|]. clear Hg. cbv zeta.
  assert (ztake (zlen b) b = b) as -> by (rewrite ztake_firstn; unfold zlen; rewrite Nat2Z.id; apply firstn_all).
  assert (zdrop (zlen b) b = []) as -> by (rewrite zdrop_skipn; unfold zlen; rewrite Nat2Z.id; apply skipn_all).
  unfold bindM at 1, modM at 1. cbv beta iota. rewrite D1. replace (S k - 1)%nat with k by lia.
  unfold bindM at 1. unfold handle_frame. rewrite P. unfold bindM at 1, modM at 1. cbv beta iota. fold (on_error i b).
  set (n2 := emit (AMsg i m) (delivered i b now n)).
  assert (exists n3, tryM (handle_message sha256 py2 cf i m (clock k)) (on_error i b) n2 = (n3, Ok tt)) as (n3 & E3).
  { unfold tryM. destruct (handle_message _ _ _ i m _ n2) as (n' & [[]|er]); eexists; reflexivity. }
  rewrite E3. cbv iota. cbn [fst].
  (* the buffer is empty: the loop stops *)
  assert (exists c3, get_conn i n3 = Some c3 /\ c_recv c3 = []) as (c3 & G3 & R3).
  { assert (forall x y, (forall j c, get_conn j x = Some c -> exists c', get_conn j y = Some c' /\ c_recv c' = c_recv c) -> True) as _ by auto.
    set (keepr := fun x y : node => forall j c, get_conn j x = Some c -> exists c', get_conn j y = Some c' /\ c_recv c' = c_recv c).
    assert (keepr n2 n3) as K.
    { assert (forall x, keepr x x) as Kr by (intros x j cj Gj; eauto).
      assert (forall x y, n_conns y = n_conns x -> keepr x y) as Kf by (intros x y Hxy j cj Gj; unfold get_conn in *; rewrite Hxy; eauto).
      assert (forall i f x, (forall c, c_recv (f c) = c_recv c) -> keepr x (upd i f x)) as Ku.
      { intros i0 f x Hf j cj Gj. rewrite get_upd, Gj. destruct (Nat.eqb i0 j); cbn; [exists (f cj)|exists cj]; auto. }
      replace n3 with (fst (tryM (handle_message sha256 py2 cf i m (clock k)) (on_error i b) n2)) by now rewrite E3.
      apply (presR_try keepr).
      - intros x y z A B j cj Gj. destruct (A j cj Gj) as (c' & G' & E'). destruct (B j c' G') as (c'' & G'' & E''). exists c''. split; congruence.
      - apply presR_handle_message; intros.
        + apply Kr.
        + intros j cj Gj. destruct (H j cj Gj) as (c' & G' & E'). destruct (H0 j c' G') as (c'' & G'' & E''). exists c''. split; congruence.
        + unfold queue. destruct (get_conn i0 n0); [|apply Kr]. apply (Ku i0 (set_c_send (c_send c0 ++ b0))). reflexivity.
        + unfold check_external_ip. destruct (count_votes _ _ _); now apply Kf.
        + apply Ku. intro cc. specialize (H cc). unfold core in H. injection H as _ _ _ _ H _ _ _ _ _ _. exact H.
        + unfold record_peer. destruct (get_conn i0 n0); [|apply Kr]. destruct (_ <? _); now apply Kf.
        + now apply Kf.
        + now apply Kf.
      - intros er x. now apply Kf. }
    destruct (K i (set_c_rx (c_rx c + zlen b) (set_c_last_rx now c))) as (c3 & G3 & R3).
    { unfold n2, delivered. rewrite !get_emit. change (get_conn i (set_n_rx ?v ?x)) with (get_conn i x). rewrite get_upd, Nat.eqb_refl, G. reflexivity. }
    exists c3. split; [exact G3|]. rewrite R3. exact R. }
  destruct k as [|k]; [reflexivity|]. cbn [read_loop]. unfold bindM, getM. cbv beta iota. rewrite G3, R3. reflexivity.
Qed.
Lemma get_delivered i b now n m c : get_conn i n = Some c -> get_conn i (emit (AMsg i m) (delivered i b now n)) = Some (set_c_rx (c_rx c + zlen b) (set_c_last_rx now c)).
Proof.
  intro G. unfold delivered. rewrite !get_emit. change (get_conn i (set_n_rx ?v ?x)) with (get_conn i x). now rewrite get_upd, Nat.eqb_refl, G.
Qed.
Lemma sends_delivered i b now n m : sends_of (n_trace (emit (AMsg i m) (delivered i b now n))) = sends_of (n_trace n).
Proof. unfold delivered, emit. cbn [n_trace set_n_trace set_n_rx upd set_n_conns]. rewrite !sends_app. cbn. now rewrite !app_nil_r. Qed.

(** ** The external IP after a version message *)
Lemma plurality_same n n' g : peers n' = peers n -> (forall a i, reports n' a i = reports n a i) -> plurality n g -> plurality n' g.
Proof.
  intros P R. unfold plurality, votes. rewrite P. assert (forall a, filter (reports n' a) (peers n) = filter (reports n a) (peers n)) as E by (intro; apply filter_ext; apply R).
  intros (A & B). rewrite E. split; [exact A|]. intro a. rewrite E. apply B.
Qed.
Lemma peers_queue i m b n : peers (queue i m b n) = peers n.
Proof.
  unfold queue. destruct (get_conn i n) as [c|]; [|reflexivity]. unfold peers, emit, upd. cbn [n_conns set_n_trace set_n_conns].
  generalize 0%nat as k. revert i. generalize (n_conns n) as l. induction l as [|x l IH]; intros [|i] k; cbn; auto. now rewrite IH.
Qed.
Lemma reports_queue i m b n a j : reports (queue i m b n) a j = reports n a j.
Proof.
  unfold reports, queue. destruct (get_conn i n) as [c|] eqn:G; [|reflexivity]. rewrite get_emit, get_upd. destruct (Nat.eqb_spec i j) as [->|]; [|reflexivity].
  now rewrite G.
Qed.
Lemma version_votes i m now n c : get_conn i n = Some c -> c_open c = true ->
  mt_command (m_type m) = "version" -> mt_name (m_type m) = "version" -> has_version_fields m ->
  let n' := fst (handle_message sha256 py2 cf i m now n) in
  plurality n' (n_guessed_ip n').
Proof.
  intros G O C N F n'. destruct (handle_version sha256 py2 cf i m now n C N F) as (b & _ & E). unfold n'. rewrite E. cbn [fst].
  set (n1 := upd i (note_version m) n).
  assert (n_guessed_ip (queue i (mk_message t_verack []) b (check_external_ip n1)) = n_guessed_ip (check_external_ip n1)) as ->.
  { unfold queue. destruct (get_conn i (check_external_ip n1)); reflexivity. }
  assert (plurality n1 (n_guessed_ip (check_external_ip n1))) as P.
  { apply check_external_ip_spec. destruct F as (A & v & s & Ev & Ea). exists s.
    assert (reports n1 s i = true) as Hr.
    { unfold reports, n1. rewrite get_upd, Nat.eqb_refl, G. cbn [option_map]. unfold note_version.
      destruct (A "services") as (sv & ->); [cbn; tauto|]. destruct (A "start_height") as (sh & ->); [cbn; tauto|].
      destruct (A "user_agent") as (ua & ->); [cbn; tauto|]. destruct (A "version") as (ve & ->); [cbn; tauto|]. destruct (A "relay") as (re & ->); [cbn; tauto|].
      rewrite Ev. cbn [bind]. rewrite Ea. cbn. apply bytes_eqb_refl. }
    assert (In i (peers n1)) as Hp.
    { apply peers_in, is_open_get. exists (note_version m c). unfold n1. rewrite get_upd, Nat.eqb_refl, G. split; [reflexivity|].
      unfold note_version. repeat match goal with |- context [match ?x with _ => _ end] => destruct x end; exact O. }
    unfold votes. assert (In i (filter (reports n1 s) (peers n1))) as Hf by now apply filter_In.
    destruct (filter (reports n1 s) (peers n1)); [destruct Hf|]. unfold zlen. cbn [List.length]. lia. }
  revert P. apply plurality_same.
  - rewrite peers_queue. unfold check_external_ip. destruct (count_votes _ _ _); reflexivity.
  - intros a j. rewrite reports_queue. unfold reports. now rewrite get_ext.
Qed.
End Events.
