(** C147: two nodes that run keep their connection.

    Modelled source: nbc/node/connection.py:105-120 (the timers), 122-168. *)
From Coq Require Import String ZArith List Lia Bool.
From Verif Require Import PyBase PyVal FormatModel MessagesModel FormatSpec FormatProofs FormatProofs2 MessagesProofs
  NodeModel PollModel NodeProofs NodeProofs2 NodeProofs3 NodeProofs4 NodeProofs5 NodeProofs6 NodeProofs7 NodeProofs8 NodeProofs9 NodeProofs10 NodeProofs11 NodeProofs12
  PropsNode PropsHello PropsTalk PropsLife PropsMeet PropsApart PropsDeliver.
Import ListNotations.
Open Scope string_scope.
Open Scope list_scope.
Open Scope Z_scope.

(** ** The timers of one connection *)
Definition timers (i : nat) (n : node) : Z * Z * Z :=
  match get_conn i n with Some c => (c_last_tx c, c_last_ping c, c_last_rx c) | None => (0, 0, 0) end.
Section Frame.
  Variable sha256 : bytes -> bytes.
  Variable py2 : bool.
  Variable cf : config.
  Variable i : nat.
  Definition Tm (n n' : node) : Prop := timers i n' = timers i n.
  Lemma Tm_refl n : Tm n n. Proof. reflexivity. Qed.
  Lemma Tm_trans a b c : Tm a b -> Tm b c -> Tm a c. Proof. unfold Tm. congruence. Qed.
  Lemma Tm_upd k f n : (forall c, (c_last_tx (f c), c_last_ping (f c), c_last_rx (f c)) = (c_last_tx c, c_last_ping c, c_last_rx c)) -> Tm n (upd k f n).
  Proof. intro H. unfold Tm, timers. rewrite get_upd. destruct (Nat.eqb k i); [|reflexivity]. destruct (get_conn i n) as [c|]; [apply H|reflexivity]. Qed.
  Lemma Tm_other k f n : k <> i -> Tm n (upd k f n).
  Proof. intro H. unfold Tm, timers. rewrite get_upd. apply Nat.eqb_neq in H. now rewrite H. Qed.
  Lemma Tm_same n n' : n_conns n' = n_conns n -> Tm n n'. Proof. intro H. unfold Tm, timers, get_conn. now rewrite H. Qed.
  Lemma Tm_emit a n : Tm n (emit a n). Proof. now apply Tm_same. Qed.
  Lemma Tm_queue k m b n : Tm n (queue k m b n).
  Proof. unfold queue. destruct (get_conn k n) as [c|]; [|apply Tm_refl]. eapply Tm_trans; [apply (Tm_upd k (set_c_send (c_send c ++ b)) n); reflexivity|apply Tm_emit]. Qed.
  Lemma Tm_shut k n : Tm n (shut k n).
  Proof.
    unfold shut. destruct (get_conn k n) as [c|]; [|apply Tm_refl]. unfold disconnected. eapply Tm_trans; [apply (Tm_upd k (set_c_open false) n); reflexivity|].
    eapply Tm_trans; [apply Tm_emit|]. destruct (book_mem _ _); now apply Tm_same.
  Qed.
  Lemma Tm_register a inc n : Tm n (register a inc n).
  Proof.
    unfold Tm, timers. rewrite get_register. destruct (Nat.eqb_spec i (List.length (n_conns n))) as [->|]; [|reflexivity].
    assert (get_conn (List.length (n_conns n)) n = None) as -> by (apply nth_error_None; lia). reflexivity.
  Qed.
  Lemma Tm_add k n : Tm n (add_banscore k n). Proof. unfold add_banscore. destruct (get_conn k n); [now apply Tm_upd|apply Tm_refl]. Qed.
  Lemma Tm_reduce k n : Tm n (reduce_banscore k n). Proof. unfold reduce_banscore. destruct (get_conn k n); [now apply Tm_upd|apply Tm_refl]. Qed.
  Lemma Tm_ext n : Tm n (check_external_ip n). Proof. unfold check_external_ip. destruct (count_votes _ _ _); now apply Tm_same. Qed.
  Lemma Tm_info n k f : (forall c, core (f c) = core c) -> Tm n (upd k f n).
  Proof. intro H. apply Tm_upd. intro c. specialize (H c). unfold core in H. congruence. Qed.
  Lemma Tm_record n k now : Tm n (record_peer k now n).
  Proof. unfold record_peer. destruct (get_conn k n); [|apply Tm_refl]. destruct (_ <? _); now apply Tm_same. Qed.
  Lemma Tm_frame n k c len : Tm n (take_frame sha256 cf k len c n).
  Proof. unfold take_frame. eapply Tm_trans; [apply (Tm_upd k (set_c_recv (zdrop len (c_recv c))) n); reflexivity|apply Tm_emit]. Qed.
  Hint Resolve Tm_refl Tm_trans Tm_emit Tm_queue Tm_shut Tm_register Tm_add Tm_reduce Tm_ext Tm_info Tm_record Tm_frame : tm.
  Ltac tm := intros; first [now apply Tm_same | eauto with tm].
  Lemma Tm_items now envs pick : presR Tm (items sha256 cf now envs pick). Proof. apply presR_items; tm. Qed.
  Lemma Tm_accept a now e : presR Tm (handle_accept sha256 cf a now e). Proof. apply presR_accept; tm. Qed.
  Lemma Tm_add_peer a force e : presR Tm (add_peer sha256 cf a force e). Proof. apply presR_add_peer; tm. Qed.
  Lemma Tm_remove a : presR Tm (remove_peer a). Proof. apply presR_remove; tm. Qed.
  Lemma Tm_punish k now : presR Tm (punish_peer k now). Proof. apply presR_punish; tm. Qed.
  Lemma Tm_send k m : presR Tm (send_message sha256 cf k m). Proof. apply presR_send; tm. Qed.
  Lemma Tm_read_loop fuel k clock n : Tm n (fst (read_loop sha256 py2 cf fuel k clock n)). Proof. apply read_loop_R; tm. Qed.
  Notation step := (step sha256 py2 cf).
  (** Whose timers an event may touch. *)
  Definition timed (e : event) : bool :=
    match e with EvReadable k _ _ _ | EvRead k _ _ _ | EvWrite k _ _ => Nat.eqb k i | _ => false end.
  Lemma timers_untimed n e : timed e = false -> timers i (step n e) = timers i n.
  Proof.
    intro H. destruct e; cbn [NodeModel.step timed] in *; unfold run; try (destruct (is_open i0 n); [|reflexivity]).
    - apply Tm_items.
    - apply Nat.eqb_neq in H. unfold readable, bindM at 1, getM. cbv beta iota. destruct (get_conn i0 n) as [c|]; [|reflexivity]. cbv zeta.
      match goal with |- timers i (fst (?m n)) = _ => assert (presR Tm m) as X; [|apply X] end.
      apply presR_bind; [exact Tm_trans| |].
      + destruct (_ && _); [|apply presR_ret; exact Tm_refl]. apply presR_bind; [exact Tm_trans|apply presR_lift; exact Tm_refl|]. intro m. apply presR_bind; [exact Tm_trans|apply Tm_send|]. intros _.
        apply presR_mod. intro n0. unfold pinged. destruct (get_conn i0 n0); [|apply Tm_refl]. eapply Tm_trans; [exact (Tm_other i0 (set_c_last_ping now2) n0 H)|apply Tm_emit].
      + intros _. destruct (_ && _); [|apply presR_ret; exact Tm_refl]. apply presR_bind; [exact Tm_trans|apply presR_close; tm|]. intros _. apply presR_ret; exact Tm_refl.
    - apply Nat.eqb_neq in H. destruct r as [[|x chunk]|]; cbn [handle_read].
      + match goal with |- timers i (fst (?m n)) = _ => assert (presR Tm m) as X; [|apply X] end. apply presR_bind; [exact Tm_trans|apply presR_close; tm|]. intros _. apply presR_close; tm.
      + unfold bindM at 1, modM at 1. cbv beta iota. unfold bindM, getM. cbv beta iota.
        assert (Tm n (received i0 (x :: chunk) now n)) as X. { unfold received. destruct (get_conn i0 n); [|apply Tm_refl]. eapply Tm_trans; [apply Tm_other; exact H|]. now apply Tm_same. }
        destruct (get_conn i0 (received i0 (x :: chunk) now n)) as [c|]; [|exact X]. eapply Tm_trans; [exact X|apply Tm_read_loop].
      + match goal with |- timers i (fst (?m n)) = _ => assert (presR Tm m) as X; [|apply X] end. apply presR_close; tm.
    - apply Nat.eqb_neq in H.
      assert (forall k n, Tm n (wrote i0 k now n)) as X. { intros k n0. unfold wrote. destruct (get_conn i0 n0); [|apply Tm_refl]. eapply Tm_trans; [apply Tm_other; exact H|]. now apply Tm_same. }
      destruct r; cbn [handle_write]; unfold handle_close, bindM, modM; cbn [fst].
      + apply X.
      + eapply Tm_trans; [apply Tm_shut|apply X].
      + apply Tm_shut.
    - apply Tm_shut.
    - destruct (n_listener n); [|reflexivity]. apply Tm_accept.
    - apply Tm_add_peer.
    - apply Tm_remove.
    - apply Tm_punish.
    - apply Tm_send.
  Qed.
  Lemma timers_read n r now clock : is_open i n = true -> timers i (step n (EvRead i r now clock)) =
    match r with RData (_ :: _) => (fst (fst (timers i n)), snd (fst (timers i n)), now) | _ => timers i n end.
  Proof.
    intro O. cbn [NodeModel.step]. rewrite O. unfold run. destruct r as [[|x chunk]|]; cbn [handle_read].
    - match goal with |- timers i (fst (?m n)) = _ => assert (presR Tm m) as X; [|apply X] end. apply presR_bind; [exact Tm_trans|apply presR_close; tm|]. intros _. apply presR_close; tm.
    - unfold bindM at 1, modM at 1. cbv beta iota. unfold bindM, getM. cbv beta iota. apply is_open_get in O. destruct O as (c & G & O).
      assert (timers i (received i (x :: chunk) now n) = (c_last_tx c, c_last_ping c, now)) as X.
      { unfold received. rewrite G. unfold timers. rewrite get_emit. change (get_conn i (set_n_rx ?v ?y)) with (get_conn i y). rewrite get_upd, Nat.eqb_refl, G. reflexivity. }
      assert (timers i n = (c_last_tx c, c_last_ping c, c_last_rx c)) as -> by (unfold timers; now rewrite G). cbn [fst snd].
      destruct (get_conn i (received i (x :: chunk) now n)) as [c1|]; [|exact X]. rewrite (Tm_read_loop _ i clock _). exact X.
    - match goal with |- timers i (fst (?m n)) = _ => assert (presR Tm m) as X; [|apply X] end. apply presR_close; tm.
  Qed.
  Lemma timers_wrote n k now c : get_conn i n = Some c -> timers i (wrote i k now n) = (now, c_last_ping c, c_last_rx c).
  Proof. intro G. unfold wrote. rewrite G. unfold timers. rewrite get_emit. change (get_conn i (set_n_tx ?v ?y)) with (get_conn i y). rewrite get_upd, Nat.eqb_refl, G. reflexivity. Qed.
  Lemma timers_write n r now : is_open i n = true -> timers i (step n (EvWrite i r now)) =
    match r with SError => timers i n | _ => (now, snd (fst (timers i n)), snd (timers i n)) end.
  Proof.
    intro O. cbn [NodeModel.step]. rewrite O. unfold run. apply is_open_get in O. destruct O as (c & G & O).
    assert (timers i n = (c_last_tx c, c_last_ping c, c_last_rx c)) as E by (unfold timers; now rewrite G).
    destruct r; cbn [handle_write]; unfold handle_close, bindM, modM; cbn [fst].
    - rewrite E. now apply timers_wrote.
    - pose proof (Tm_shut i n) as X. unfold Tm in X. unfold timers at 2 in X. rewrite G in X. unfold timers in X. destruct (get_conn i (shut i n)) as [c1|] eqn:G1.
      + rewrite (timers_wrote _ 0 now c1 G1), E. cbn. congruence.
      + exfalso. unfold shut in G1. rewrite G in G1. unfold disconnected in G1. assert (get_conn i (emit (AClose i) (upd i (set_c_open false) n)) = None) as G2 by (destruct (book_mem _ _); exact G1). rewrite get_emit, get_upd, Nat.eqb_refl, G in G2. discriminate.
    - apply Tm_shut.
  Qed.
  Lemma timers_readable n now now2 nonce c : get_conn i n = Some c -> c_open c = true -> zlen nonce = 8 ->
    timers i (step n (EvReadable i now now2 nonce)) = (c_last_tx c, if ping_due c now then now2 else c_last_ping c, c_last_rx c) /\
    is_open i (step n (EvReadable i now now2 nonce)) = negb (close_due c now) /\
    (ping_due c now = true -> close_due c now = false -> writable i (step n (EvReadable i now now2 nonce)) = true).
  Proof.
    intros G O L. destruct (readable_effects sha256 py2 cf i now now2 nonce n c G O L) as (_ & B). destruct (readable_spec sha256 py2 cf i now now2 nonce n c G O L) as (b & E & Es). rewrite B. split; [|split; [reflexivity|]].
    - rewrite Es. cbv zeta. assert (forall x, timers i (if close_due c now then shut i x else x) = timers i x) as X by (intro x; destruct (close_due c now); [apply Tm_shut|reflexivity]). rewrite X. clear X.
      destruct (ping_due c now); [|unfold timers; now rewrite G].
      assert (get_conn i (queue i (ping_message nonce) b n) = Some (set_c_send (c_send c ++ b) c)) as G1 by (unfold queue; rewrite G, get_emit, get_upd, Nat.eqb_refl, G; reflexivity).
      unfold pinged. rewrite G1. unfold timers. rewrite get_emit, get_upd, Nat.eqb_refl, G1. reflexivity.
    - intros P C. rewrite Es. cbv zeta. rewrite P, C.
      assert (get_conn i (queue i (ping_message nonce) b n) = Some (set_c_send (c_send c ++ b) c)) as G1 by (unfold queue; rewrite G, get_emit, get_upd, Nat.eqb_refl, G; reflexivity).
      unfold pinged. rewrite G1. unfold writable. rewrite get_emit, get_upd, Nat.eqb_refl, G1. cbn [option_map c_open c_send set_c_last_ping set_c_send]. rewrite O. cbn [andb]. apply Z.ltb_lt. rewrite zlen_app.
      assert (0 < zlen b); [|pose proof (zlen_nonneg (c_send c)); lia].
      unfold msg_binary in E. destruct (fields_binary _ _) as [p|]; [|discriminate]. cbn [bind] in E. destruct (struct_pack _ _ _) as [l|]; [|discriminate]. cbn [bind] in E.
      assert (b = cf_magic cf ++ pad_command (bs "ping") ++ l ++ ztake 4 (sha256d sha256 p) ++ p) as -> by (change (Ok (cf_magic cf ++ pad_command (bs "ping") ++ l ++ ztake 4 (sha256d sha256 p) ++ p) = Ok b) in E; congruence).
      rewrite !zlen_app. assert (zlen (pad_command (bs "ping")) = 12) as -> by reflexivity. pose proof (zlen_nonneg (cf_magic cf)). pose proof (zlen_nonneg l). pose proof (zlen_nonneg (ztake 4 (sha256d sha256 p))). pose proof (zlen_nonneg p). lia.
  Qed.
End Frame.

(** ** One timed run *)
(** Every step of the run has a time; the calls of [time.time()] made for
    connection [i] answer it, the second one in [readable] at most [d] later; the
    connection is written only while it asks for it, and its socket then takes
    at least a byte; [os.urandom(8)] answers eight bytes. *)
Record keeps_time (sha256 : bytes -> bytes) (py2 : bool) (cf : config) (run : nat -> event) (clk : nat -> Z) (i : nat) (d : Z) : Prop := {
  kt_start : 0 < clk 0%nat;
  kt_mono : forall t, clk t <= clk (S t);
  kt_poll : forall t now now2 nonce, run t = EvReadable i now now2 nonce -> now = clk t /\ now <= now2 <= now + d /\ zlen nonce = 8;
  kt_read : forall t r now c, run t = EvRead i r now c -> now = clk t;
  kt_write : forall t r now, run t = EvWrite i r now -> now = clk t /\
    match r with STaken k => 1 <= k /\ writable i (after sha256 py2 cf run t) = true | _ => True end
}.
(** asyncore polls the connection at least every [d]. *)
Definition polled (run : nat -> event) (clk : nat -> Z) (i : nat) (d : Z) : Prop :=
  forall x, clk 0%nat <= x -> exists t now now2 nonce, run t = EvReadable i now now2 nonce /\ x < clk t <= x + d.
(** When the connection asks to write, its socket takes something within [d]. *)
Definition prompt (sha256 : bytes -> bytes) (py2 : bool) (cf : config) (run : nat -> event) (clk : nat -> Z) (i : nat) (d : Z) : Prop :=
  forall t, writable i (after sha256 py2 cf run (S t)) = true -> exists t' k now, (t < t')%nat /\ run t' = EvWrite i (STaken k) now /\ clk t' <= clk t + d.
(** When the socket of [i] takes something, the connection [j] at the other end reads something within [d]. *)
Definition carried (runA : nat -> event) (clkA : nat -> Z) (i : nat) (runB : nat -> event) (clkB : nat -> Z) (j : nat) (d : Z) : Prop :=
  forall t k now, runA t = EvWrite i (STaken k) now -> exists u x ch now' c, runB u = EvRead j (RData (x :: ch)) now' c /\ clkA t <= clkB u <= clkA t + d.
(** The connection is open after every step from [t0] on that happens no later than [x]. *)
Definition open_until (sha256 : bytes -> bytes) (py2 : bool) (cf : config) (run : nat -> event) (clk : nat -> Z) (i t0 : nat) (x : Z) : Prop :=
  forall t, (t0 <= t)%nat -> clk t <= x -> is_open i (after sha256 py2 cf run (S t)) = true.

Section Timed.
  Variable sha256 : bytes -> bytes.
  Variable py2 : bool.
  Variable cf : config.
  Variable run : nat -> event.
  Variable clk : nat -> Z.
  Variable i : nat.
  Variable d : Z.
  Hypothesis K : keeps_time sha256 py2 cf run clk i d.
  Notation after := (after sha256 py2 cf run).
  Lemma clk_le s t : (s <= t)%nat -> clk s <= clk t.
  Proof. induction 1 as [|t _ IH]; [lia|]. pose proof (kt_mono _ _ _ _ _ _ _ K t). lia. Qed.
  Lemma clk_lt s t : clk s < clk t -> (s < t)%nat.
  Proof. intro H. destruct (Nat.lt_ge_cases s t) as [|L]; [assumption|]. pose proof (clk_le t s L). lia. Qed.
  Lemma clk_pos t : 0 < clk t. Proof. pose proof (kt_start _ _ _ _ _ _ _ K). pose proof (clk_le 0 t ltac:(lia)). lia. Qed.
  Definition tx t := fst (fst (timers i (after t))).
  Definition pg t := snd (fst (timers i (after t))).
  Definition rx t := snd (timers i (after t)).
  Lemma closed_step n e : is_open i n = false -> timed i e = true -> step sha256 py2 cf n e = n.
  Proof. intros O T. destruct e; cbn [timed] in T; try discriminate; apply Nat.eqb_eq in T; subst; cbn [step]; now rewrite O. Qed.
  (** What one step does to the timers. *)
  Lemma timers_step t : let n := after t in
    timers i (after (S t)) = timers i n \/
    (is_open i n = true /\ ((exists r now, run t = EvWrite i r now /\ timers i (after (S t)) = (clk t, pg t, rx t)) \/
     (exists x ch now c, run t = EvRead i (RData (x :: ch)) now c /\ timers i (after (S t)) = (tx t, pg t, clk t)) \/
     (exists now2 nonce, run t = EvReadable i (clk t) now2 nonce /\ clk t <= now2 <= clk t + d /\ timers i (after (S t)) = (tx t, now2, rx t) /\
        (is_open i (after (S t)) = true -> writable i (after (S t)) = true)))).
  Proof.
    intro n. unfold n. rewrite after_S. destruct (timed i (run t)) eqn:T; [|left; now apply timers_untimed].
    destruct (is_open i (after t)) eqn:O; [|left; f_equal; now apply closed_step].
    destruct (run t) as [| k now now2 nonce | k r now c | k r now | | | | | |] eqn:E; cbn [timed] in T; try discriminate; apply Nat.eqb_eq in T; subst k.
    - destruct (kt_poll _ _ _ _ _ _ _ K _ _ _ _ E) as (-> & N2 & L). pose proof O as O'. apply is_open_get in O'. destruct O' as (c & G & Oc).
      destruct (timers_readable sha256 py2 cf i (after t) (clk t) now2 nonce c G Oc L) as (H1 & H2 & H3).
      destruct (ping_due c (clk t)) eqn:P; [right; split; [reflexivity|]; right; right; exists now2, nonce|left; rewrite H1; unfold timers; now rewrite G].
      split; [reflexivity|]. split; [exact N2|]. split; [rewrite H1; unfold tx, rx, timers; now rewrite G|]. intro X. rewrite H2 in X. apply H3; [reflexivity|now apply negb_true_iff].
    - pose proof (kt_read _ _ _ _ _ _ _ K _ _ _ _ E) as ->. rewrite timers_read by exact O. destruct r as [[|x ch]|]; [now left| |now left]. right. split; [reflexivity|]. right. left. exists x, ch, (clk t), c. split; reflexivity.
    - destruct (kt_write _ _ _ _ _ _ _ K _ _ _ E) as (-> & _). rewrite timers_write by exact O. destruct r; [| |now left]; right; (split; [reflexivity|]); left; eexists; eexists; (split; [reflexivity|reflexivity]).
  Qed.
  (** The timers never run backwards. *)
  Lemma tx_bound t : tx t <= clk t /\ rx t <= clk t.
  Proof.
    induction t as [|t (IH1 & IH2)].
    - unfold tx, rx. assert (timers i (after 0) = (0, 0, 0)) as -> by (unfold timers, get_conn; cbn; destruct i; reflexivity). pose proof (clk_pos 0). cbn. lia.
    - pose proof (kt_mono _ _ _ _ _ _ _ K t) as M. destruct (timers_step t) as [E|(_ & [(r & now & _ & E)|[(x & ch & now & c & _ & E)|(now2 & nonce & _ & _ & E & _)]])]; unfold tx, rx in *; rewrite E; cbn [fst snd]; unfold pg, rx, tx; lia.
  Qed.
  Lemma tx_grows s t : (s <= t)%nat -> tx s <= tx t /\ rx s <= rx t.
  Proof.
    induction 1 as [|t _ (IH1 & IH2)]; [lia|]. destruct (tx_bound t) as (B1 & B2).
    destruct (timers_step t) as [E|(_ & [(r & now & _ & E)|[(x & ch & now & c & _ & E)|(now2 & nonce & _ & _ & E & _)]])]; unfold tx, rx in *; rewrite E; cbn [fst snd]; unfold pg, rx, tx; lia.
  Qed.
  (** Where their values come from. *)
  Lemma tx_from t : is_open i (after t) = true -> tx t = 0 \/ exists s k, (s < t)%nat /\ run s = EvWrite i (STaken k) (clk s) /\ tx t = clk s.
  Proof.
    induction t as [|t IH]; intro O.
    - exfalso. apply is_open_get in O. destruct O as (c & G & _). unfold get_conn in G. cbn in G. destruct i; discriminate.
    - destruct (timers_step t) as [E|(Ot & [(r & now & Er & E)|[(x & ch & now & c & _ & E)|(now2 & nonce & _ & _ & E & _)]])].
      + destruct (get_conn i (after t)) as [c|] eqn:G; [|left; unfold tx; rewrite E; unfold timers; now rewrite G].
        assert (tx (S t) = tx t) as Et by (unfold tx; now rewrite E).
        destruct (IH (still_open sha256 py2 cf run i t (S t) ltac:(lia) O c G)) as [Z0|(s & k & Hs & Es & Ts)]; [left; congruence|right; exists s, k; repeat split; [lia|exact Es|congruence]].
      + right. destruct (kt_write _ _ _ _ _ _ _ K _ _ _ Er) as (-> & Hw). destruct r as [k| |].
        * exists t, k. split; [lia|]. split; [exact Er|]. unfold tx. now rewrite E.
        * exfalso. rewrite after_S, Er in O. cbn [step] in O. rewrite Ot in O. unfold NodeModel.run, handle_write, handle_close, bindM, modM in O. cbn [fst] in O.
          pose proof (shut_closes i (after t)) as Sc. unfold wrote in O. destruct (get_conn i (shut i (after t))) as [c|] eqn:G; [|congruence].
          unfold is_open in O, Sc. rewrite get_emit in O. change (get_conn i (set_n_tx ?v ?y)) with (get_conn i y) in O. rewrite get_upd, Nat.eqb_refl, G in O. rewrite G in Sc. cbn in O. congruence.
        * exfalso. rewrite after_S, Er in O. cbn [step] in O. rewrite Ot in O. unfold NodeModel.run, handle_write, handle_close, modM in O. cbn [fst] in O. rewrite shut_closes in O. discriminate.
      + assert (tx (S t) = tx t) as Et by (unfold tx; rewrite E; reflexivity). destruct (IH Ot) as [Z0|(s & k & Hs & Es & Ts)]; [left; congruence|right; exists s, k; repeat split; [lia|exact Es|congruence]].
      + assert (tx (S t) = tx t) as Et by (unfold tx; rewrite E; reflexivity). destruct (IH Ot) as [Z0|(s & k & Hs & Es & Ts)]; [left; congruence|right; exists s, k; repeat split; [lia|exact Es|congruence]].
  Qed.
  Lemma rx_from t : is_open i (after t) = true -> rx t = 0 \/ exists s, (s < t)%nat /\ is_open i (after s) = true /\ rx t = clk s /\ exists r c, run s = EvRead i r (clk s) c.
  Proof.
    induction t as [|t IH]; intro O.
    - exfalso. apply is_open_get in O. destruct O as (c & G & _). unfold get_conn in G. cbn in G. destruct i; discriminate.
    - assert (rx (S t) = rx t -> rx (S t) = 0 \/ exists s, (s < S t)%nat /\ is_open i (after s) = true /\ rx (S t) = clk s /\ exists r c, run s = EvRead i r (clk s) c) as Keep.
      { intro Et. destruct (get_conn i (after t)) as [c|] eqn:G.
        - destruct (IH (still_open sha256 py2 cf run i t (S t) ltac:(lia) O c G)) as [Z0|(s & Hs & Os & Ts & X)]; [left; congruence|right; exists s; repeat split; [lia|exact Os|congruence|exact X]].
        - left. rewrite Et. unfold rx, timers. now rewrite G. }
      destruct (timers_step t) as [E|(Ot & [(r & now & Er & E)|[(x & ch & now & c & Er & E)|(now2 & nonce & _ & _ & E & _)]])].
      + apply Keep. unfold rx. now rewrite E.
      + apply Keep. unfold rx at 1. now rewrite E.
      + right. exists t. split; [lia|]. split; [exact Ot|]. split; [unfold rx; now rewrite E|]. pose proof (kt_read _ _ _ _ _ _ _ K _ _ _ _ Er) as ->. eauto.
      + apply Keep. unfold rx at 1. now rewrite E.
  Qed.
  Lemma pg_from t : is_open i (after t) = true -> pg t = 0 \/ exists p, (p < t)%nat /\ clk p <= pg t <= clk p + d /\ is_open i (after p) = true /\ (is_open i (after (S p)) = true -> writable i (after (S p)) = true).
  Proof.
    induction t as [|t IH]; intro O.
    - exfalso. apply is_open_get in O. destruct O as (c & G & _). unfold get_conn in G. cbn in G. destruct i; discriminate.
    - assert (pg (S t) = pg t -> pg (S t) = 0 \/ exists p, (p < S t)%nat /\ clk p <= pg (S t) <= clk p + d /\ is_open i (after p) = true /\ (is_open i (after (S p)) = true -> writable i (after (S p)) = true)) as Keep.
      { intro Et. destruct (get_conn i (after t)) as [c|] eqn:G.
        - destruct (IH (still_open sha256 py2 cf run i t (S t) ltac:(lia) O c G)) as [Z0|(s & Hs & Ts & X)]; [left; congruence|right; exists s; split; [lia|]; split; [rewrite Et; exact Ts|exact X]].
        - left. rewrite Et. unfold pg, timers. now rewrite G. }
      destruct (timers_step t) as [E|(Ot & [(r & now & Er & E)|[(x & ch & now & c & Er & E)|(now2 & nonce & _ & N2 & E & Wr)]])].
      + apply Keep. unfold pg. now rewrite E.
      + apply Keep. unfold pg at 1. now rewrite E.
      + apply Keep. unfold pg at 1. now rewrite E.
      + right. exists t. split; [lia|]. split; [unfold pg; rewrite E; exact N2|]. split; [exact Ot|exact Wr].
  Qed.
  (** Something is written in every half hour and a little more. *)
  Hypothesis d_small : 0 <= d <= 1500 * SEC.
  Hypothesis P : polled run clk i d.
  Hypothesis Q : prompt sha256 py2 cf run clk i d.
  Variable t0 : nat.
  Hypothesis start : writable i (after (S t0)) = true.
  Lemma writes x y : clk t0 <= x -> x + 1800 * SEC + 2 * d <= y -> open_until sha256 py2 cf run clk i t0 y ->
    exists t k now, run t = EvWrite i (STaken k) now /\ x < clk t <= x + 1800 * SEC + 2 * d.
  Proof.
    intros Hx Hy Op. assert (SEC > 0) as HS by (unfold SEC; lia).
    destruct (P (x + 1800 * SEC)) as (t1 & now & now2 & nonce & E1 & B1). { pose proof (clk_le 0 t0 ltac:(lia)). lia. }
    destruct (kt_poll _ _ _ _ _ _ _ K _ _ _ _ E1) as (-> & N2 & L).
    assert (t0 < t1)%nat as L1 by (apply clk_lt; lia).
    assert (is_open i (after t1) = true) as O1. { destruct t1 as [|t1']; [lia|]. apply Op; [lia|]. pose proof (kt_mono _ _ _ _ _ _ _ K t1'). lia. }
    destruct (tx_from t1 O1) as [Z0|(s & k & Hs & Es & Ts)].
    - destruct (Q t0 start) as (t' & k & now & Ht' & E' & C'). exists t', k, now. split; [exact E'|].
      destruct (Z.lt_ge_cases x (clk t')) as [X|X]; [lia|]. exfalso. assert (t' < t1)%nat as L2 by (apply clk_lt; lia).
      assert (is_open i (after t') = true) as Ot'. { destruct (kt_write _ _ _ _ _ _ _ K _ _ _ E') as (_ & _ & Wr). unfold writable in Wr. unfold is_open. destruct (get_conn i (after t')); [|discriminate]. now apply andb_true_iff in Wr. }
      assert (tx (S t') = clk t') as Tx. { unfold tx. rewrite after_S, E'. destruct (kt_write _ _ _ _ _ _ _ K _ _ _ E') as (-> & _). rewrite timers_write by exact Ot'. reflexivity. }
      destruct (tx_grows (S t') t1 L2) as (G1 & _). pose proof (clk_pos t'). lia.
    - destruct (Z.lt_ge_cases x (clk s)) as [X|X]; [exists s, k, (clk s); split; [exact Es|]; pose proof (clk_le s t1 ltac:(lia)); lia|].
      pose proof O1 as O1'. apply is_open_get in O1'. destruct O1' as (c & G & Oc).
      assert (timers i (after t1) = (c_last_tx c, c_last_ping c, c_last_rx c)) as Tc by (unfold timers; now rewrite G).
      assert (c_last_tx c = clk s) as Hc by (rewrite <- Ts; unfold tx; rewrite Tc; reflexivity).
      destruct (timers_readable sha256 py2 cf i (after t1) (clk t1) now2 nonce c G Oc L) as (_ & H2 & H3). rewrite <- E1, <- after_S in H2, H3.
      assert (is_open i (after (S t1)) = true) as O2 by (apply Op; lia). rewrite O2 in H2. symmetry in H2. apply negb_true_iff in H2.
      destruct (ping_due c (clk t1)) eqn:Pd.
      + destruct (Q t1 (H3 eq_refl H2)) as (t' & k' & now' & Ht' & E' & C'). exists t', k', now'. split; [exact E'|]. pose proof (clk_le t1 t' ltac:(lia)). lia.
      + unfold ping_due in Pd. rewrite Hc in Pd. pose proof (clk_pos s) as Ps.
        replace (clk s =? 0) with false in Pd by (symmetry; apply Z.eqb_neq; lia). replace (clk t1 - clk s >? 1800 * SEC) with true in Pd by (symmetry; apply Z.gtb_lt; lia). cbn [negb andb] in Pd.
        assert (clk t1 - c_last_ping c <= 300 * SEC) as Pl. { destruct (Z.gtb_spec (clk t1 - c_last_ping c) (300 * SEC)); [discriminate|assumption]. }
        assert (pg t1 = c_last_ping c) as Hp by (unfold pg; rewrite Tc; reflexivity).
        destruct (pg_from t1 O1) as [Z0|(p & Hp1 & Hp2 & Op1 & Wp)].
        * exfalso. pose proof (clk_pos t0). lia.
        * assert (x < clk p) as Hxp by lia. pose proof (clk_le p t1 ltac:(lia)) as Hpt. assert (t0 < p)%nat as L3 by (apply clk_lt; lia).
          destruct (Q p (Wp (Op p ltac:(lia) ltac:(lia)))) as (t' & k' & now' & Ht' & E' & C'). exists t', k', now'. split; [exact E'|]. pose proof (clk_le p t' ltac:(lia)). lia.
  Qed.
End Timed.

(** ** Two timed runs *)
(** A poll of one end closes the connection only if the other end was closed before. *)
Theorem C147_side : forall sha256 pyA pyB cfA cfB runA runB clkA clkB i j t0 d,
  0 <= d <= 1500 * SEC ->
  keeps_time sha256 pyA cfA runA clkA i d -> polled runA clkA i d -> prompt sha256 pyA cfA runA clkA i d ->
  writable i (after sha256 pyA cfA runA (S t0)) = true ->
  keeps_time sha256 pyB cfB runB clkB j d -> carried runA clkA i runB clkB j d ->
  (forall u r now c, runB u = EvRead j r now c -> clkA t0 <= clkB u) ->
  forall u now now2 nonce x, runB u = EvReadable j now now2 nonce -> is_open j (after sha256 pyB cfB runB u) = true ->
  clkB u <= x + 1 -> open_until sha256 pyA cfA runA clkA i t0 x ->
  is_open j (after sha256 pyB cfB runB (S u)) = true.
Proof.
  intros sha pyA pyB cfA cfB runA runB clkA clkB i j t0 d Hd KA PA QA SA KB C Early u now now2 nonce x E O Hx Op. assert (SEC > 0) as HS by (unfold SEC; lia).
  destruct (kt_poll _ _ _ _ _ _ _ KB _ _ _ _ E) as (-> & N2 & L). pose proof O as O'. apply is_open_get in O'. destruct O' as (c & G & Oc).
  destruct (timers_readable sha pyB cfB j _ (clkB u) now2 nonce c G Oc L) as (_ & H2 & _). rewrite after_S, E, H2. apply negb_true_iff. unfold close_due.
  assert (rx sha pyB cfB runB j u = c_last_rx c) as Hr by (unfold rx, timers; now rewrite G).
  destruct (rx_from sha pyB cfB runB clkB j d KB u O) as [Z0|(u0 & Hu0 & O0 & Hu & (r & ck & E0))]; [rewrite <- Hr, Z0; reflexivity|].
  destruct (Z.gtb_spec (clkB u - c_last_rx c) (10800 * SEC)) as [B|B]; [exfalso|apply andb_false_r].
  pose proof (Early _ _ _ _ E0) as Er.
  destruct (writes sha pyA cfA runA clkA i d KA Hd PA QA t0 SA (clkB u0) x Er ltac:(lia) Op) as (t & k & nw & Et & Bt).
  destruct (C _ _ _ Et) as (u1 & y & ch & nw' & ck' & E1 & B1).
  assert (u0 < u1)%nat as L1 by (apply (clk_lt sha pyB cfB runB clkB j d KB); lia). assert (u1 < u)%nat as L2 by (apply (clk_lt sha pyB cfB runB clkB j d KB); lia).
  assert (is_open j (after sha pyB cfB runB u1) = true) as O1.
  { apply is_open_get in O0. destruct O0 as (c0 & G0 & _). destruct (get_conn j (after sha pyB cfB runB u1)) as [c1|] eqn:G1; [exact (still_open sha pyB cfB runB j u1 u ltac:(lia) O c1 G1)|].
    exfalso. pose proof (history_inv_life sha pyB cfB (map runB (seq 0 u0))) as V0. pose proof (history_inv_life sha pyB cfB (map runB (seq 0 u1))) as V1. fold (after sha pyB cfB runB u0) in V0. fold (after sha pyB cfB runB u1) in V1.
    destruct (inv_exists _ _ _ _ _ V0 G0) as (a & inc & X). destruct (after_le sha pyB cfB runB u0 u1 ltac:(lia)) as (l & El).
    assert (In (AConnect j a inc) (n_trace (after sha pyB cfB runB u1))) as X1 by (rewrite El; apply in_or_app; now left). apply (inv_conn _ _ _ _ _ _ V1) in X1. destruct X1 as (c1 & X1 & _). congruence. }
  destruct (tx_grows sha pyB cfB runB clkB j d KB (S u1) u L2) as (_ & Gr).
  assert (rx sha pyB cfB runB j (S u1) = clkB u1) as R1 by (unfold rx; rewrite after_S, E1, timers_read by exact O1; cbn [snd]; exact (kt_read _ _ _ _ _ _ _ KB _ _ _ _ E1)). lia.
Qed.

Lemma writable_open i n : writable i n = true -> is_open i n = true.
Proof. unfold writable, is_open. destruct (get_conn i n); [|discriminate]. intro H. now apply andb_true_iff in H. Qed.
Definition poll_of (i : nat) (e : event) : Prop := exists now now2 nonce, e = EvReadable i now now2 nonce.
(** Only its timers could close the connection. *)
Definition undisturbed (sha256 : bytes -> bytes) (py2 : bool) (cf : config) (run : nat -> event) (i t0 : nat) : Prop :=
  forall t, (t0 < t)%nat -> is_open i (after sha256 py2 cf run t) = true -> ~ poll_of i (run t) -> is_open i (after sha256 py2 cf run (S t)) = true.
(** Two connected nodes, each polled, writing and reading within 25 minutes, whose
    connection nothing else closes: neither ever closes it. *)
Theorem C147_kept : forall sha256 pyA pyB cfA cfB runA runB clkA clkB i j tA tB d,
  0 <= d <= 1500 * SEC ->
  keeps_time sha256 pyA cfA runA clkA i d -> polled runA clkA i d -> prompt sha256 pyA cfA runA clkA i d ->
  keeps_time sha256 pyB cfB runB clkB j d -> polled runB clkB j d -> prompt sha256 pyB cfB runB clkB j d ->
  carried runA clkA i runB clkB j d -> carried runB clkB j runA clkA i d ->
  writable i (after sha256 pyA cfA runA (S tA)) = true -> writable j (after sha256 pyB cfB runB (S tB)) = true ->
  (forall u r now c, runB u = EvRead j r now c -> clkA tA <= clkB u) -> (forall t r now c, runA t = EvRead i r now c -> clkB tB <= clkA t) ->
  undisturbed sha256 pyA cfA runA i tA -> undisturbed sha256 pyB cfB runB j tB ->
  (forall t, (tA < t)%nat -> is_open i (after sha256 pyA cfA runA t) = true) /\ (forall u, (tB < u)%nat -> is_open j (after sha256 pyB cfB runB u) = true).
Proof.
  intros sha pyA pyB cfA cfB runA runB clkA clkB i j tA tB d Hd KA PA QA KB PB QB CA CB SA SB EA EB UA UB.
  assert (One : forall py cf run clk k t0 x, keeps_time sha py cf run clk k d -> writable k (after sha py cf run (S t0)) = true -> undisturbed sha py cf run k t0 ->
    (forall t now now2 nonce, run t = EvReadable k now now2 nonce -> is_open k (after sha py cf run t) = true -> clk t <= x + 1 -> is_open k (after sha py cf run (S t)) = true) ->
    open_until sha py cf run clk k t0 (x + 1)).
  { intros py cf run clk k t0 x K Sk U H t Ht. induction Ht as [|t Ht IH]; intro C; [now apply writable_open|].
    assert (is_open k (after sha py cf run (S t)) = true) as O by (apply IH; pose proof (kt_mono _ _ _ _ _ _ _ K t); lia).
    destruct (run (S t)) as [| k' now now2 nonce | | | | | | | |] eqn:E; try (apply U; [lia|exact O|]; rewrite E; intros (? & ? & ? & X); discriminate).
    destruct (Nat.eq_dec k' k) as [->|N]; [exact (H (S t) now now2 nonce E O C)|]. apply U; [lia|exact O|]. rewrite E. intros (? & ? & ? & X). congruence. }
  assert (All : forall m, let x := Z.min (clkA tA) (clkB tB) - 1 + Z.of_nat m in open_until sha pyA cfA runA clkA i tA x /\ open_until sha pyB cfB runB clkB j tB x).
  { induction m as [|m (IHA & IHB)]; intro x.
    - split; intros t Ht C; exfalso; unfold x in C; [pose proof (clk_le _ _ _ _ _ _ _ KA tA t Ht)|pose proof (clk_le _ _ _ _ _ _ _ KB tB t Ht)]; lia.
    - assert (x = Z.min (clkA tA) (clkB tB) - 1 + Z.of_nat m + 1) as -> by (unfold x; lia). set (x' := Z.min (clkA tA) (clkB tB) - 1 + Z.of_nat m) in *. split.
      + apply One; [exact KA|exact SA|exact UA|]. intros t now now2 nonce E O C. exact (C147_side sha pyB pyA cfB cfA runB runA clkB clkA j i tB d Hd KB PB QB SB KA CB EB t now now2 nonce x' E O C IHB).
      + apply One; [exact KB|exact SB|exact UB|]. intros t now now2 nonce E O C. exact (C147_side sha pyA pyB cfA cfB runA runB clkA clkB i j tA d Hd KA PA QA SA KB CA EA t now now2 nonce x' E O C IHA). }
  split; intros t Ht; (destruct t as [|t]; [lia|]).
  - destruct (All (Z.to_nat (clkA t - (Z.min (clkA tA) (clkB tB) - 1)))) as (H & _). apply H; [lia|]. lia.
  - destruct (All (Z.to_nat (clkB t - (Z.min (clkA tA) (clkB tB) - 1)))) as (_ & H). apply H; [lia|]. lia.
Qed.

(** ** Two nodes that only ping each other, for ever *)
Definition ax_T : Z := 1000 * SEC.
Definition ax_nonce : bytes := [8;7;6;5;4;3;2;1].
Definition ax_pong : bytes := nx_frame "Pong" [VBytes ax_nonce].
Definition ax_write (now : Z) : event := EvWrite 0 (STaken 1000) now.
Definition ax_read (b : bytes) (now : Z) : event := EvRead 0 (RData b) now nx_clock.
(** They meet: the first dials, both exchange versions and veracks. *)
Definition axA0 : list event := [EvAddPeer nx_b true nx_env; ax_write ax_T].
Definition axB : list event :=
  [EvAccept nx_a ax_T nx_env; ax_read (wire_of 0 (n_trace (history nx_sha true nx_ship axA0))) ax_T; ax_write ax_T].
Definition axA : list event := axA0 ++ [ax_read (wire_of 0 (n_trace (history nx_sha false nx_cfB axB))) ax_T; ax_write ax_T].
Definition axB' : list event :=
  axB ++ [ax_read (skipn (List.length (wire_of 0 (n_trace (history nx_sha true nx_ship axA0)))) (wire_of 0 (n_trace (history nx_sha true nx_ship axA)))) ax_T].
(** Then in every 2000 seconds: an idle poll, a poll that pings, the ping is
    written, the peer's ping read, the pong written, the peer's pong read. *)
Definition ax_time (m : nat) : Z := ax_T + 2000 * SEC * Z.of_nat (m / 6) + (if Nat.eqb (m mod 6) 0 then 1000 * SEC else 2000 * SEC).
Definition ax_cycle (m : nat) : event :=
  let now := ax_time m in
  match (m mod 6)%nat with
  | 0%nat | 1%nat => EvReadable 0 now now ax_nonce
  | 2%nat | 4%nat => ax_write now
  | 3%nat => ax_read nx_ping now
  | _ => ax_read ax_pong now
  end.
Definition ax_run (pre : list event) (t : nat) : event := if (t <? 4)%nat then nth t pre (ax_write 0) else ax_cycle (t - 4).
Definition ax_clk (t : nat) : Z := if (t <? 4)%nat then ax_T else ax_time (t - 4).

Definition view (n : node) := option_map (fun c => (c_open c, c_recv c, c_send c, (c_last_tx c, c_last_ping c, c_last_rx c))) (get_conn 0 n).
Lemma view_get n o r s tm : view n = Some (o, r, s, tm) -> exists c, get_conn 0 n = Some c /\ c_open c = o /\ c_recv c = r /\ c_send c = s /\ (c_last_tx c, c_last_ping c, c_last_rx c) = tm.
Proof. unfold view. destruct (get_conn 0 n) as [c|]; [|discriminate]. cbn. intro H. exists c. repeat split; congruence. Qed.
Section View.
  Variable py2 : bool.
  Variable cf : config.
  Hypothesis M : cf_magic cf = nx_magic.
  Notation step := (step nx_sha py2 cf).
  Lemma view_idle n r s tx pg rx now : view n = Some (true, r, s, (tx, pg, rx)) -> now - tx <= 1800 * SEC -> now - rx <= 10800 * SEC -> view (step n (EvReadable 0 now now ax_nonce)) = view n.
  Proof.
    intros V H1 H2. destruct (view_get _ _ _ _ _ V) as (c & G & O & R & Sd & T). destruct (readable_spec nx_sha py2 cf 0 now now ax_nonce n c G O eq_refl) as (b & _ & ->). cbv zeta.
    assert (ping_due c now = false) as ->. { unfold ping_due. replace (now - c_last_tx c >? 1800 * SEC) with false; [now rewrite andb_false_r|]. symmetry. destruct (Z.gtb_spec (now - c_last_tx c) (1800 * SEC)); [|reflexivity]. assert (c_last_tx c = tx) by congruence. lia. }
    assert (close_due c now = false) as ->; [|reflexivity]. unfold close_due. replace (now - c_last_rx c >? 10800 * SEC) with false; [apply andb_false_r|]. symmetry. destruct (Z.gtb_spec (now - c_last_rx c) (10800 * SEC)); [|reflexivity]. assert (c_last_rx c = rx) by congruence. lia.
  Qed.
  Lemma view_ping n r tx pg rx now : view n = Some (true, r, [], (tx, pg, rx)) -> tx <> 0 -> now - tx > 1800 * SEC -> now - pg > 300 * SEC -> now - rx <= 10800 * SEC ->
    view (step n (EvReadable 0 now now ax_nonce)) = Some (true, r, nx_ping, (tx, now, rx)).
  Proof.
    intros V H0 H1 H2 H3. destruct (view_get _ _ _ _ _ V) as (c & G & O & R & Sd & T). destruct (readable_spec nx_sha py2 cf 0 now now ax_nonce n c G O eq_refl) as (b & Eb & ->). cbv zeta.
    assert (b = nx_ping) as ->. { rewrite M in Eb. assert (msg_binary nx_sha (ping_message ax_nonce) nx_magic = Ok nx_ping) as X by (vm_compute; reflexivity). congruence. }
    assert (ping_due c now = true) as ->.
    { unfold ping_due. assert (c_last_tx c = tx) as -> by congruence. assert (c_last_ping c = pg) as -> by congruence.
      replace (tx =? 0) with false by (symmetry; apply Z.eqb_neq; exact H0). replace (now - tx >? 1800 * SEC) with true by (symmetry; apply Z.gtb_lt; lia). replace (now - pg >? 300 * SEC) with true by (symmetry; apply Z.gtb_lt; lia). reflexivity. }
    assert (close_due c now = false) as ->. { unfold close_due. replace (now - c_last_rx c >? 10800 * SEC) with false; [apply andb_false_r|]. symmetry. destruct (Z.gtb_spec (now - c_last_rx c) (10800 * SEC)); [|reflexivity]. assert (c_last_rx c = rx) by congruence. lia. }
    assert (get_conn 0 (queue 0 (ping_message ax_nonce) nx_ping n) = Some (set_c_send (c_send c ++ nx_ping) c)) as G1 by (unfold queue; rewrite G, get_emit, get_upd, Nat.eqb_refl, G; reflexivity).
    unfold pinged. rewrite G1. unfold view. rewrite get_emit, get_upd, Nat.eqb_refl, G1. cbn [option_map c_open c_recv c_send c_last_tx c_last_ping c_last_rx set_c_last_ping set_c_send]. rewrite Sd, O, R. repeat f_equal; congruence.
  Qed.
  Lemma view_write n r s tx pg rx now : view n = Some (true, r, s, (tx, pg, rx)) -> zlen s <= 1000 -> view (step n (ax_write now)) = Some (true, r, [], (now, pg, rx)).
  Proof.
    intros V L. destruct (view_get _ _ _ _ _ V) as (c & G & O & R & Sd & T). unfold ax_write. cbn [NodeModel.step]. unfold is_open. rewrite G, O. unfold NodeModel.run, handle_write, modM. cbn [fst]. unfold wrote. rewrite G.
    unfold view. rewrite get_emit. change (get_conn 0 (set_n_tx ?v ?y)) with (get_conn 0 y). rewrite get_upd, Nat.eqb_refl, G. cbn [option_map c_open c_recv c_send c_last_tx c_last_ping c_last_rx set_c_last_tx set_c_tx set_c_send].
    rewrite Sd, O, R. replace (Z.max 0 (Z.min 1000 (zlen s))) with (zlen s) by (pose proof (zlen_nonneg s); lia).
    rewrite zdrop_skipn. unfold zlen. rewrite Nat2Z.id, skipn_all. repeat f_equal; congruence.
  Qed.
  Lemma ax_frames : is_frame nx_ping /\ is_frame ax_pong. Proof. split; (split; [vm_compute; discriminate|vm_compute; reflexivity]). Qed.
  Lemma view_read_ping n tx pg rx now : view n = Some (true, [], [], (tx, pg, rx)) -> view (step n (ax_read nx_ping now)) = Some (true, [], ax_pong, (tx, pg, now)).
  Proof.
    intro V. destruct (view_get _ _ _ _ _ V) as (c & G & O & R & Sd & T).
    assert (msg_parse nx_sha nx_ping (cf_magic cf) = Ok (ping_message ax_nonce)) as P by (rewrite M; vm_compute; reflexivity).
    unfold ax_read. rewrite (read_one nx_sha py2 cf 0 nx_ping now nx_clock n c _ G O R (proj1 ax_frames) P).
    destruct (handle_ping nx_sha py2 cf 0 (ping_message ax_nonce) (nx_clock (List.length nx_ping - 1)%nat) (emit (AMsg 0 (ping_message ax_nonce)) (delivered 0 nx_ping now n)) ax_nonce eq_refl eq_refl eq_refl eq_refl) as (pb & Eb & H).
    unfold tryM. rewrite H. cbn [fst]. assert (pb = ax_pong) as ->. { rewrite M in Eb. assert (msg_binary nx_sha (mk_message t_pong [("nonce", VBytes ax_nonce)]) nx_magic = Ok ax_pong) as X by (vm_compute; reflexivity). congruence. }
    unfold queue. rewrite (get_delivered 0 nx_ping now n _ c G). unfold view. rewrite get_emit, get_upd, Nat.eqb_refl, (get_delivered 0 nx_ping now n _ c G).
    cbn [option_map c_open c_recv c_send c_last_tx c_last_ping c_last_rx set_c_rx set_c_last_rx set_c_send]. rewrite Sd, O, R. repeat f_equal; congruence.
  Qed.
  Lemma view_read_pong n tx pg rx now : view n = Some (true, [], [], (tx, pg, rx)) -> view (step n (ax_read ax_pong now)) = Some (true, [], [], (tx, pg, now)).
  Proof.
    intro V. destruct (view_get _ _ _ _ _ V) as (c & G & O & R & Sd & T). set (m := mk_message t_pong [("nonce", VBytes ax_nonce)]).
    assert (msg_parse nx_sha ax_pong (cf_magic cf) = Ok m) as P by (rewrite M; vm_compute; reflexivity).
    unfold ax_read. rewrite (read_one nx_sha py2 cf 0 ax_pong now nx_clock n c _ G O R (proj2 ax_frames) P).
    assert (handle_message nx_sha py2 cf 0 m (nx_clock (List.length ax_pong - 1)%nat) (emit (AMsg 0 m) (delivered 0 ax_pong now n)) = (emit (AMsg 0 m) (delivered 0 ax_pong now n), Ok tt)) as H by reflexivity.
    unfold tryM. rewrite H. cbn [fst]. unfold view. rewrite (get_delivered 0 ax_pong now n _ c G).
    cbn [option_map c_open c_recv c_send c_last_tx c_last_ping c_last_rx set_c_rx set_c_last_rx set_c_send]. rewrite Sd, O, R. repeat f_equal; congruence.
  Qed.
End View.
Lemma div6 k r : (r < 6)%nat -> ((6 * k + r) / 6 = k)%nat /\ ((6 * k + r) mod 6 = r)%nat.
Proof. intro H. rewrite (Nat.mul_comm 6 k), Nat.add_comm. split; [rewrite Nat.div_add by lia; rewrite Nat.div_small by lia; lia|rewrite Nat.mod_add by lia; now apply Nat.mod_small]. Qed.
Definition tau (k : nat) : Z := ax_T + 2000 * SEC * Z.of_nat k.
Lemma time6 k r : (r < 6)%nat -> ax_time (6 * k + r) = match r with O => tau k + 1000 * SEC | _ => tau (S k) end.
Proof. intro H. unfold ax_time. destruct (div6 k r H) as (-> & ->). unfold tau. destruct r as [|r]; cbn [Nat.eqb]; lia. Qed.
Lemma cycle6 k r : (r < 6)%nat -> ax_cycle (6 * k + r) = let now := match r with O => tau k + 1000 * SEC | _ => tau (S k) end in
  match r with 0%nat | 1%nat => EvReadable 0 now now ax_nonce | 2%nat | 4%nat => ax_write now | 3%nat => ax_read nx_ping now | _ => ax_read ax_pong now end.
Proof. intro H. unfold ax_cycle. destruct (div6 k r H) as (_ & ->). rewrite time6 by exact H. reflexivity. Qed.
Lemma split6 t : (4 <= t)%nat -> exists k r, (r < 6)%nat /\ t = (4 + (6 * k + r))%nat.
Proof. intro H. exists ((t - 4) / 6)%nat, ((t - 4) mod 6)%nat. split; [apply Nat.mod_upper_bound; lia|]. pose proof (Nat.div_mod (t - 4) 6 ltac:(lia)). lia. Qed.
Lemma run4 pre m : ax_run pre (4 + m) = ax_cycle m.
Proof. unfold ax_run. replace (4 + m <? 4)%nat with false by (symmetry; apply Nat.ltb_ge; lia). f_equal. lia. Qed.
Lemma clk4 m : ax_clk (4 + m) = ax_time m.
Proof. unfold ax_clk. replace (4 + m <? 4)%nat with false by (symmetry; apply Nat.ltb_ge; lia). f_equal. lia. Qed.
Lemma ax_mono t : ax_clk t <= ax_clk (S t).
Proof.
  assert (SEC > 0) as HS by (unfold SEC; lia). destruct (Nat.lt_ge_cases t 4) as [L|L].
  - unfold ax_clk. destruct (Nat.ltb_spec t 4); [|lia]. destruct (Nat.ltb_spec (S t) 4); [lia|]. replace (S t - 4)%nat with 0%nat by lia. unfold ax_time. cbn [Nat.div Nat.modulo Nat.eqb]. cbn. unfold ax_T. lia.
  - destruct (split6 t L) as (k & r & Hr & ->). destruct (Nat.eq_dec r 5) as [->|N].
    + replace (S (4 + (6 * k + 5)))%nat with (4 + (6 * S k + 0))%nat by lia. rewrite !clk4, !time6 by lia. lia.
    + replace (S (4 + (6 * k + r)))%nat with (4 + (6 * k + S r))%nat by lia. rewrite !clk4, !time6 by lia. destruct r; unfold tau; lia.
Qed.
Section Ever.
  Variable py2 : bool.
  Variable cf : config.
  Variable pre : list event.
  Hypothesis M : cf_magic cf = nx_magic.
  Notation run := (ax_run pre).
  Notation after := (after nx_sha py2 cf run).
  Hypothesis V4 : view (after 4) = Some (true, [], [], (ax_T, 0, ax_T)).
  Definition fit (t : nat) (e : event) : Prop :=
    match e with EvReadable 0 _ _ _ => False | EvRead 0 _ now _ => now = ax_T | EvWrite 0 r now => now = ax_T /\ r = STaken 1000 /\ writable 0 (after t) = true | _ => True end.
  Hypothesis Pre : forall t, (t < 4)%nat -> fit t (run t).
  Lemma cycle_from k pg : pg <= tau k -> view (after (4 + 6 * k)) = Some (true, [], [], (tau k, pg, tau k)) ->
    view (after (4 + (6 * k + 1))) = Some (true, [], [], (tau k, pg, tau k)) /\
    view (after (4 + (6 * k + 2))) = Some (true, [], nx_ping, (tau k, tau (S k), tau k)) /\
    view (after (4 + (6 * k + 3))) = Some (true, [], [], (tau (S k), tau (S k), tau k)) /\
    view (after (4 + (6 * k + 4))) = Some (true, [], ax_pong, (tau (S k), tau (S k), tau (S k))) /\
    view (after (4 + (6 * k + 5))) = Some (true, [], [], (tau (S k), tau (S k), tau (S k))) /\
    view (after (4 + (6 * S k))) = Some (true, [], [], (tau (S k), tau (S k), tau (S k))).
  Proof.
    intros Lp V0. assert (SEC > 0) as HS by (unfold SEC; lia). assert (tau k > 0) as Tp by (unfold tau, ax_T; lia). assert (tau (S k) = tau k + 2000 * SEC) as Ts by (unfold tau; lia).
    assert (forall r, (r < 6)%nat -> after (4 + (6 * k + S r)) = NodeModel.step nx_sha py2 cf (after (4 + (6 * k + r))) (ax_cycle (6 * k + r))) as E.
    { intros r Hr. replace (4 + (6 * k + S r))%nat with (S (4 + (6 * k + r))) by lia. rewrite after_S. now rewrite run4. }
    replace (4 + 6 * S k)%nat with (4 + (6 * k + 6))%nat by lia. replace (4 + 6 * k)%nat with (4 + (6 * k + 0))%nat in V0 by lia.
    assert (view (after (4 + (6 * k + 1))) = Some (true, [], [], (tau k, pg, tau k))) as V1 by (rewrite E, cycle6 by lia; cbv zeta; etransitivity; [eapply view_idle; [exact V0| |]|exact V0]; lia).
    assert (view (after (4 + (6 * k + 2))) = Some (true, [], nx_ping, (tau k, tau (S k), tau k))) as V2 by (rewrite E, cycle6 by lia; cbv zeta; eapply view_ping; [exact M|exact V1| | | |]; lia).
    assert (view (after (4 + (6 * k + 3))) = Some (true, [], [], (tau (S k), tau (S k), tau k))) as V3 by (rewrite E, cycle6 by lia; cbv zeta; eapply view_write; [exact V2|vm_compute; discriminate]).
    assert (view (after (4 + (6 * k + 4))) = Some (true, [], ax_pong, (tau (S k), tau (S k), tau (S k)))) as V5 by (rewrite E, cycle6 by lia; cbv zeta; eapply view_read_ping; [exact M|exact V3]).
    assert (view (after (4 + (6 * k + 5))) = Some (true, [], [], (tau (S k), tau (S k), tau (S k)))) as V6 by (rewrite E, cycle6 by lia; cbv zeta; eapply view_write; [exact V5|vm_compute; discriminate]).
    repeat (split; [assumption|]). rewrite E, cycle6 by lia. cbv zeta. eapply view_read_pong; [exact M|exact V6].
  Qed.
  Lemma cycle_view k : exists pg, pg <= tau k /\ view (after (4 + 6 * k)) = Some (true, [], [], (tau k, pg, tau k)).
  Proof.
    induction k as [|k (pg & Lp & V)].
    - exists 0. split; [unfold tau, ax_T, SEC; lia|]. change (4 + 6 * 0)%nat with 4%nat. rewrite V4. assert (tau 0 = ax_T) as -> by (unfold tau; lia). reflexivity.
    - exists (tau (S k)). split; [lia|]. apply (cycle_from k pg Lp V).
  Qed.
  Lemma writable_view n o r s tm : view n = Some (o, r, s, tm) -> writable 0 n = o && (0 <? zlen s).
  Proof. intro V. destruct (view_get _ _ _ _ _ V) as (c & G & O & _ & Sd & _). unfold writable. now rewrite G, O, Sd. Qed.
  Lemma open_view n r s tm : view n = Some (true, r, s, tm) -> is_open 0 n = true.
  Proof. intro V. destruct (view_get _ _ _ _ _ V) as (c & G & O & _). unfold is_open. now rewrite G, O. Qed.
  Lemma ever_open t : (4 <= t)%nat -> is_open 0 (after t) = true.
  Proof.
    intro H. destruct (split6 t H) as (k & r & Hr & ->). destruct (cycle_view k) as (pg & Lp & V0). destruct (cycle_from k pg Lp V0) as (V1 & V2 & V3 & V5 & V6 & V7).
    destruct r as [|[|[|[|[|[|r]]]]]]; [rewrite Nat.add_0_r| | | | | |lia]; eapply open_view; eassumption.
  Qed.
  Lemma ever_time : keeps_time nx_sha py2 cf run ax_clk 0 (1000 * SEC).
  Proof.
    assert (SEC > 0) as HS by (unfold SEC; lia). split.
    - unfold ax_clk. cbn. unfold ax_T. lia.
    - exact ax_mono.
    - intros t now now2 nonce E. destruct (Nat.lt_ge_cases t 4) as [L|L]; [specialize (Pre t L); rewrite E in Pre; contradiction|].
      destruct (split6 t L) as (k & r & Hr & ->). rewrite run4, cycle6 in E by exact Hr. rewrite clk4, time6 by exact Hr.
      destruct r as [|[|[|[|[|[|r]]]]]]; try discriminate E; cbv zeta in E; (split; [congruence|]); (split; [|assert (nonce = ax_nonce) as -> by congruence; reflexivity]); assert (now2 = now) as -> by congruence; lia.
    - intros t r0 now c E. destruct (Nat.lt_ge_cases t 4) as [L|L]; [specialize (Pre t L); rewrite E in Pre; cbn in Pre; unfold ax_clk; destruct (Nat.ltb_spec t 4); [exact Pre|lia]|].
      destruct (split6 t L) as (k & r & Hr & ->). rewrite run4, cycle6 in E by exact Hr. rewrite clk4, time6 by exact Hr.
      destruct r as [|[|[|[|[|[|r]]]]]]; try discriminate E; cbv zeta in E; unfold ax_read in E; congruence.
    - intros t r0 now E. destruct (Nat.lt_ge_cases t 4) as [L|L].
      + specialize (Pre t L). rewrite E in Pre. cbn in Pre. destruct Pre as (-> & -> & Wr). unfold ax_clk. destruct (Nat.ltb_spec t 4); [|lia]. repeat split; [lia|exact Wr].
      + destruct (split6 t L) as (k & r & Hr & ->). rewrite run4, cycle6 in E by exact Hr. rewrite clk4, time6 by exact Hr. destruct (cycle_view k) as (pg & Lp & V0). destruct (cycle_from k pg Lp V0) as (V1 & V2 & V3 & V5 & V6 & V7).
        destruct r as [|[|[|[|[|[|r]]]]]]; try discriminate E; cbv zeta in E; unfold ax_write in E; (split; [congruence|]); assert (r0 = STaken 1000) as -> by congruence; (split; [lia|]).
        * rewrite (writable_view _ _ _ _ _ V2). vm_compute. reflexivity.
        * rewrite (writable_view _ _ _ _ _ V5). vm_compute. reflexivity.
  Qed.
  Lemma ever_polled : polled run ax_clk 0 (1000 * SEC).
  Proof.
    assert (SEC > 0) as HS by (unfold SEC; lia). intros x Hx. assert (ax_T <= x) as Hx' by exact Hx. clear Hx.
    pose proof (Z.div_mod (x - ax_T) (1000 * SEC) ltac:(lia)) as D. pose proof (Z.mod_pos_bound (x - ax_T) (1000 * SEC) ltac:(lia)) as B. set (q := (x - ax_T) / (1000 * SEC)) in *.
    assert (0 <= q) as Hq by (apply Z.div_pos; lia).
    destruct (Z.Even_or_Odd q) as [(a & Ea)|(a & Ea)].
    - exists (4 + (6 * Z.to_nat a + 0))%nat, (tau (Z.to_nat a) + 1000 * SEC), (tau (Z.to_nat a) + 1000 * SEC), ax_nonce. rewrite run4, cycle6, clk4, time6 by lia. split; [reflexivity|]. unfold tau. rewrite Z2Nat.id by lia. nia.
    - exists (4 + (6 * Z.to_nat a + 1))%nat, (tau (S (Z.to_nat a))), (tau (S (Z.to_nat a))), ax_nonce. rewrite run4, cycle6, clk4, time6 by lia. split; [reflexivity|]. unfold tau. rewrite Nat2Z.inj_succ, Z2Nat.id by lia. nia.
  Qed.
  (** Each of the first four states is followed by a write in time, or does not ask for one. *)
  Hypothesis Soon : forall t, (t < 4)%nat -> writable 0 (after (S t)) = true -> exists t', (t < t' < 4)%nat /\ run t' = ax_write ax_T.
  Lemma ever_prompt : prompt nx_sha py2 cf run ax_clk 0 (1000 * SEC).
  Proof.
    assert (SEC > 0) as HS by (unfold SEC; lia). intros t Wr. destruct (Nat.lt_ge_cases t 4) as [L|L].
    - destruct (Soon t L Wr) as (t' & H & E). exists t', 1000, ax_T. split; [lia|]. split; [exact E|]. unfold ax_clk. destruct (Nat.ltb_spec t 4); [|lia]. destruct (Nat.ltb_spec t' 4); lia.
    - destruct (split6 t L) as (k & r & Hr & ->). destruct (cycle_view k) as (pg & Lp & V0). destruct (cycle_from k pg Lp V0) as (V1 & V2 & V3 & V5 & V6 & V7).
      assert (forall r', (r < r' < 6)%nat -> (r' = 2 \/ r' = 4)%nat -> exists t' k0 now, (4 + (6 * k + r) < t')%nat /\ run t' = EvWrite 0 (STaken k0) now /\ ax_clk t' <= ax_clk (4 + (6 * k + r)) + 1000 * SEC) as X.
      { intros r' H1 H2. exists (4 + (6 * k + r'))%nat, 1000, (tau (S k)). split; [lia|]. rewrite run4, cycle6, !clk4, !time6 by lia. destruct H2 as [-> | ->]; (split; [reflexivity|]); destruct r; unfold tau; lia. }
      destruct r as [|[|[|[|[|[|r]]]]]]; [apply (X 2%nat); lia|apply (X 2%nat); lia|apply (X 4%nat); lia|apply (X 4%nat); lia| | |lia]; exfalso.
      + replace (S (4 + (6 * k + 4)))%nat with (4 + (6 * k + 5))%nat in Wr by lia. rewrite (writable_view _ _ _ _ _ V6) in Wr. discriminate.
      + replace (S (4 + (6 * k + 5)))%nat with (4 + 6 * S k)%nat in Wr by lia. rewrite (writable_view _ _ _ _ _ V7) in Wr. discriminate.
  Qed.
End Ever.
Lemma ax_clk_ge t : ax_T <= ax_clk t. Proof. induction t as [|t IH]; [unfold ax_clk; cbn; lia|]. pose proof (ax_mono t). lia. Qed.
Lemma ever_carried preA preB : (forall t k now, (t < 4)%nat -> nth t preA (ax_write 0) = EvWrite 0 (STaken k) now -> exists u b, (u < 4)%nat /\ nth u preB (ax_write 0) = ax_read b ax_T /\ b <> []) ->
  carried (ax_run preA) ax_clk 0 (ax_run preB) ax_clk 0 (1000 * SEC).
Proof.
  assert (SEC > 0) as HS by (unfold SEC; lia). intros H t k now E. destruct (Nat.lt_ge_cases t 4) as [L|L].
  - unfold ax_run in E. destruct (Nat.ltb_spec t 4); [|lia]. destruct (H t k now L E) as (u & b & Hu & Eu & Nb). destruct b as [|x ch]; [now contradiction Nb|].
    exists u, x, ch, ax_T, nx_clock. unfold ax_run, ax_clk. destruct (Nat.ltb_spec u 4); [|lia]. destruct (Nat.ltb_spec t 4); [|lia]. split; [exact Eu|lia].
  - destruct (split6 t L) as (c & r & Hr & ->). rewrite run4, cycle6 in E by exact Hr.
    assert (exists x ch, nx_ping = x :: ch) as (x & ch & Ep) by (vm_compute; eauto). assert (exists y ch', ax_pong = y :: ch') as (y & ch' & Eq) by (vm_compute; eauto).
    destruct r as [|[|[|[|[|[|r]]]]]]; try discriminate E.
    + exists (4 + (6 * c + 3))%nat, x, ch, (tau (S c)), nx_clock. rewrite run4, cycle6, !clk4, !time6 by lia. cbv zeta. rewrite Ep. split; [reflexivity|lia].
    + exists (4 + (6 * c + 5))%nat, y, ch', (tau (S c)), nx_clock. rewrite run4, cycle6, !clk4, !time6 by lia. cbv zeta. rewrite Eq. split; [reflexivity|lia].
Qed.
Definition axrA : nat -> event := ax_run axA.
Definition axrB : nat -> event := ax_run axB'.
Lemma ax_V4 : view (after nx_sha true nx_ship axrA 4) = Some (true, [], [], (ax_T, 0, ax_T)) /\ view (after nx_sha false nx_cfB axrB 4) = Some (true, [], [], (ax_T, 0, ax_T)).
Proof. split; vm_compute; reflexivity. Qed.
Lemma ax_asks : map (fun t => writable 0 (after nx_sha true nx_ship axrA t)) [1; 2; 3; 4]%nat = [true; false; true; false] /\
  map (fun t => writable 0 (after nx_sha false nx_cfB axrB t)) [1; 2; 3; 4]%nat = [true; true; false; false].
Proof. split; vm_compute; reflexivity. Qed.
Lemma ax_opened : map (fun t => is_open 0 (after nx_sha true nx_ship axrA t)) [1; 2; 3]%nat = [true; true; true] /\ map (fun t => is_open 0 (after nx_sha false nx_cfB axrB t)) [1; 2; 3]%nat = [true; true; true].
Proof. split; vm_compute; reflexivity. Qed.
Lemma ax_said : wire_of 0 (n_trace (history nx_sha true nx_ship axA0)) <> [] /\ wire_of 0 (n_trace (history nx_sha false nx_cfB axB)) <> [] /\
  skipn (List.length (wire_of 0 (n_trace (history nx_sha true nx_ship axA0)))) (wire_of 0 (n_trace (history nx_sha true nx_ship axA))) <> [].
Proof. repeat split; vm_compute; discriminate. Qed.
Example C147_applies : let d := 1000 * SEC in 0 <= d <= 1500 * SEC /\
  keeps_time nx_sha true nx_ship axrA ax_clk 0 d /\ polled axrA ax_clk 0 d /\ prompt nx_sha true nx_ship axrA ax_clk 0 d /\
  keeps_time nx_sha false nx_cfB axrB ax_clk 0 d /\ polled axrB ax_clk 0 d /\ prompt nx_sha false nx_cfB axrB ax_clk 0 d /\
  carried axrA ax_clk 0 axrB ax_clk 0 d /\ carried axrB ax_clk 0 axrA ax_clk 0 d /\
  writable 0 (after nx_sha true nx_ship axrA 1) = true /\ writable 0 (after nx_sha false nx_cfB axrB 1) = true /\
  (forall u r now c, axrB u = EvRead 0 r now c -> ax_clk 0 <= ax_clk u) /\ (forall t r now c, axrA t = EvRead 0 r now c -> ax_clk 0 <= ax_clk t) /\
  undisturbed nx_sha true nx_ship axrA 0 0 /\ undisturbed nx_sha false nx_cfB axrB 0 0.
Proof.
  intro d. destruct ax_V4 as (VA & VB). destruct ax_asks as (WA & WB). cbn [map] in WA, WB. destruct ax_opened as (OA & OB). cbn [map] in OA, OB. destruct ax_said as (S1 & S2 & S3).
  assert (WA1 : writable 0 (after nx_sha true nx_ship axrA 1) = true) by congruence. assert (WA2 : writable 0 (after nx_sha true nx_ship axrA 2) = false) by congruence. assert (WA3 : writable 0 (after nx_sha true nx_ship axrA 3) = true) by congruence. assert (WA4 : writable 0 (after nx_sha true nx_ship axrA 4) = false) by congruence.
  assert (WB1 : writable 0 (after nx_sha false nx_cfB axrB 1) = true) by congruence. assert (WB2 : writable 0 (after nx_sha false nx_cfB axrB 2) = true) by congruence. assert (WB3 : writable 0 (after nx_sha false nx_cfB axrB 3) = false) by congruence. assert (WB4 : writable 0 (after nx_sha false nx_cfB axrB 4) = false) by congruence.
  assert (forall t, (t < 4)%nat -> fit true nx_ship axA t (axrA t)) as FA.
  { intros t Ht. destruct t as [|[|[|[|t]]]]; [exact I|split; [reflexivity|split; [reflexivity|exact WA1]]|reflexivity|split; [reflexivity|split; [reflexivity|exact WA3]]|lia]. }
  assert (forall t, (t < 4)%nat -> fit false nx_cfB axB' t (axrB t)) as FB.
  { intros t Ht. destruct t as [|[|[|[|t]]]]; [exact I|reflexivity|split; [reflexivity|split; [reflexivity|exact WB2]]|reflexivity|lia]. }
  split; [unfold d, SEC; lia|]. split; [exact (ever_time true nx_ship axA eq_refl VA FA)|]. split; [exact (ever_polled axA)|]. split.
  { apply (ever_prompt true nx_ship axA eq_refl VA). intros t Ht Wr. destruct t as [|[|[|[|t]]]]; [exists 1%nat; split; [lia|reflexivity]|exists 3%nat; split; [lia|reflexivity]|exists 3%nat; split; [lia|reflexivity]|fold axrA in Wr; congruence|lia]. }
  split; [exact (ever_time false nx_cfB axB' eq_refl VB FB)|]. split; [exact (ever_polled axB')|]. split.
  { apply (ever_prompt false nx_cfB axB' eq_refl VB). intros t Ht Wr. destruct t as [|[|[|[|t]]]]; [exists 2%nat; split; [lia|reflexivity]|exists 2%nat; split; [lia|reflexivity]|fold axrB in Wr; congruence|fold axrB in Wr; congruence|lia]. }
  split.
  { apply ever_carried. intros t k now Ht E. destruct t as [|[|[|[|t]]]]; try discriminate E; try lia.
    - exists 1%nat. eexists. split; [lia|]. split; [reflexivity|exact S1].
    - exists 3%nat. eexists. split; [lia|]. split; [reflexivity|exact S3]. }
  split.
  { apply ever_carried. intros t k now Ht E. destruct t as [|[|[|[|t]]]]; try discriminate E; try lia. exists 2%nat. eexists. split; [lia|]. split; [reflexivity|exact S2]. }
  split; [exact WA1|]. split; [exact WB1|]. split; [intros; apply ax_clk_ge|]. split; [intros; apply ax_clk_ge|].
  split.
  - intros t Ht _ _. destruct (Nat.lt_ge_cases t 3) as [L|L]; [|apply (ever_open true nx_ship axA eq_refl VA); lia]. destruct t as [|[|[|t]]]; [lia|congruence|congruence|lia].
  - intros t Ht _ _. destruct (Nat.lt_ge_cases t 3) as [L|L]; [|apply (ever_open false nx_cfB axB' eq_refl VB); lia]. destruct t as [|[|[|t]]]; [lia|congruence|congruence|lia].
Qed.

(** ** Assumptions *)

Print Assumptions C147_side.
Print Assumptions C147_kept.
