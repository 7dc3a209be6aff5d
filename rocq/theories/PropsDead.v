(** C149: a peer that has gone silent is noticed.

    Infinite timed runs as in PropsAlive.v.
    Modelled source: nbc/node/connection.py [Connection.readable]. *)
From Coq Require Import String ZArith List Lia Bool.
From Verif Require Import PyBase PyVal FormatModel MessagesModel FormatSpec FormatProofs FormatProofs2 MessagesProofs
  NodeModel PollModel NodeProofs NodeProofs2 NodeProofs3 NodeProofs4 NodeProofs5 NodeProofs6 NodeProofs7 NodeProofs8 NodeProofs9 NodeProofs10 NodeProofs11 NodeProofs12
  PropsNode PropsHello PropsTalk PropsLife PropsMeet PropsApart PropsDeliver PropsAlive.
Import ListNotations.
Open Scope string_scope.
Open Scope list_scope.
Open Scope Z_scope.

(** Step [t] of the run reads something from connection [i]. *)
Definition reads_data (run : nat -> event) (i t : nat) : Prop := exists x ch now c, run t = EvRead i (RData (x :: ch)) now c.

Section Dead.
  Variable sha256 : bytes -> bytes.
  Variable py2 : bool.
  Variable cf : config.
  Variable run : nat -> event.
  Variable clk : nat -> Z.
  Variable i : nat.
  Variable d : Z.
  Hypothesis K : keeps_time sha256 py2 cf run clk i d.
  Notation after := (after sha256 py2 cf run).
  Notation rx := (rx sha256 py2 cf run i).
  Lemma rx_kept t u : (t <= u)%nat -> (forall s, (t <= s < u)%nat -> ~ reads_data run i s) -> rx u = rx t.
  Proof.
    induction 1 as [|u L IH]; intro N; [reflexivity|]. rewrite <- IH by (intros s Hs; apply N; lia).
    destruct (timers_step sha256 py2 cf run clk i d K u) as [E|(_ & [(r & now & _ & E)|[(x & ch & now & c & Er & E)|(now2 & nonce & _ & _ & E & _)]])].
    - unfold PropsAlive.rx. now rewrite E.
    - unfold PropsAlive.rx at 1. now rewrite E.
    - exfalso. apply (N u); [lia|]. exists x, ch, now, c. exact Er.
    - unfold PropsAlive.rx at 1. now rewrite E.
  Qed.
  (** A poll and the time of the last reception. *)
  Lemma poll_closes u now now2 nonce : run u = EvReadable i now now2 nonce -> is_open i (after u) = true ->
    is_open i (after (S u)) = negb (negb (rx u =? 0) && (clk u - rx u >? 10800 * SEC)).
  Proof.
    intros E O. destruct (kt_poll _ _ _ _ _ _ _ K _ _ _ _ E) as (-> & N2 & L). pose proof O as O'. apply is_open_get in O'. destruct O' as (c & G & Oc).
    destruct (timers_readable sha256 py2 cf i (after u) (clk u) now2 nonce c G Oc L) as (_ & H2 & _). rewrite after_S, E, H2. unfold close_due.
    assert (rx u = c_last_rx c) as -> by (unfold PropsAlive.rx, timers; now rewrite G). reflexivity.
  Qed.
  Lemma closed_stays u v c : (u <= v)%nat -> get_conn i (after u) = Some c -> is_open i (after u) = false -> is_open i (after v) = false.
  Proof. intros L G O. destruct (is_open i (after v)) eqn:Ov; [|reflexivity]. rewrite (still_open sha256 py2 cf run i u v L Ov c G) in O. discriminate. Qed.
End Dead.

(** A connection on which something was read at some time and nothing ever after
    is closed within three hours and one polling interval of that time, and
    stays closed. *)
Theorem C149_noticed_partial : forall sha256 py2 cf run clk i d t,
  keeps_time sha256 py2 cf run clk i d -> polled run clk i d ->
  is_open i (after sha256 py2 cf run t) = true -> reads_data run i t ->
  (forall s, (t < s)%nat -> ~ reads_data run i s) ->
  exists u, (t < u)%nat /\ clk u <= clk t + 10800 * SEC + d /\ forall v, (u < v)%nat -> is_open i (after sha256 py2 cf run v) = false.
Proof.
  intros sha py2 cf run clk i d t K P O (x & ch & now & c & E) N. assert (SEC > 0) as HS by (unfold SEC; lia).
  destruct (P (clk t + 10800 * SEC)) as (u & now1 & now2 & nonce & Eu & Bu). { pose proof (clk_le sha py2 cf run clk i d K 0 t ltac:(lia)). lia. }
  assert (t < u)%nat as L by (apply (clk_lt sha py2 cf run clk i d K); lia). exists u. split; [exact L|]. split; [lia|].
  assert (rx sha py2 cf run i (S t) = clk t) as R1.
  { unfold rx. rewrite after_S, E, timers_read by exact O. cbn [snd]. exact (kt_read _ _ _ _ _ _ _ K _ _ _ _ E). }
  assert (rx sha py2 cf run i u = clk t) as Ru by (rewrite <- R1; apply (rx_kept sha py2 cf run clk i d K); [lia|intros s Hs; apply N; lia]).
  pose proof (clk_pos sha py2 cf run clk i d K t) as Ct.
  pose proof O as O'. apply is_open_get in O'. destruct O' as (c0 & G0 & _).
  assert (forall v, (t <= v)%nat -> exists c', get_conn i (after sha py2 cf run v) = Some c') as Ex.
  { intros v Hv. destruct (get_conn i (after sha py2 cf run v)) as [c'|] eqn:G; [eauto|exfalso].
    pose proof (history_inv_life sha py2 cf (map run (seq 0 t))) as V0. pose proof (history_inv_life sha py2 cf (map run (seq 0 v))) as V1. fold (after sha py2 cf run t) in V0. fold (after sha py2 cf run v) in V1.
    destruct (inv_exists _ _ _ _ _ V0 G0) as (a & inc & X). destruct (after_le sha py2 cf run t v Hv) as (l & El).
    assert (In (AConnect i a inc) (n_trace (after sha py2 cf run v))) as X1 by (rewrite El; apply in_or_app; now left). apply (inv_conn _ _ _ _ _ _ V1) in X1. destruct X1 as (c1 & X1 & _). congruence. }
  assert (is_open i (after sha py2 cf run (S u)) = false) as Cl.
  { destruct (is_open i (after sha py2 cf run u)) eqn:Ou.
    - rewrite (poll_closes sha py2 cf run clk i d K u now1 now2 nonce Eu Ou), Ru. replace (clk t =? 0) with false by (symmetry; apply Z.eqb_neq; lia).
      replace (clk u - clk t >? 10800 * SEC) with true by (symmetry; apply Z.gtb_lt; lia). reflexivity.
    - destruct (Ex u ltac:(lia)) as (c' & G'). exact (closed_stays sha py2 cf run i u (S u) c' ltac:(lia) G' Ou). }
  intros v Hv. destruct (Ex (S u) ltac:(lia)) as (c' & G'). exact (closed_stays sha py2 cf run i (S u) v c' ltac:(lia) G' Cl).
Qed.

(** A connection on which nothing was ever read is never closed by a poll. *)
Theorem C149_mute_refuted : forall sha256 py2 cf run clk i d,
  keeps_time sha256 py2 cf run clk i d -> (forall s, ~ reads_data run i s) ->
  forall u now now2 nonce, run u = EvReadable i now now2 nonce -> is_open i (after sha256 py2 cf run u) = true -> is_open i (after sha256 py2 cf run (S u)) = true.
Proof.
  intros sha py2 cf run clk i d K N u now now2 nonce E O. rewrite (poll_closes sha py2 cf run clk i d K u now now2 nonce E O).
  rewrite (rx_kept sha py2 cf run clk i d K 0 u); [|lia|intros s _; apply N]. unfold rx. assert (timers i (after sha py2 cf run 0) = (0, 0, 0)) as -> by (unfold timers, get_conn; cbn; destruct i; reflexivity). reflexivity.
Qed.

(** ** Two endless runs: a peer connects and is polled every second; the one
    never says anything, the other says something once. *)
Definition dd_clk (t : nat) : Z := (1000 + Z.of_nat t) * SEC.
Definition dd_poll (t : nat) : event := EvReadable 0 (dd_clk t) (dd_clk t) (repeat 1 8).
Definition dd_mute (t : nat) : event := match t with O => EvAccept nx_a (dd_clk 0) nx_env | _ => dd_poll t end.
Definition dd_once (t : nat) : event := match t with O => EvAccept nx_a (dd_clk 0) nx_env | 1%nat => EvRead 0 (RData nx_ping) (dd_clk 1) nx_clock | _ => dd_poll t end.
Lemma dd_time run : (forall t, (2 <= t)%nat -> run t = dd_poll t) -> run 0%nat = dd_mute 0 -> run 1%nat = dd_mute 1 \/ run 1%nat = dd_once 1 ->
  keeps_time nx_sha false nx_cf run dd_clk 0 (2 * SEC) /\ polled run dd_clk 0 (2 * SEC).
Proof.
  intros H2 H0 H1. assert (SEC > 0) as HS by (unfold SEC; lia).
  assert (C : forall t, run t = dd_poll t \/ t = 0%nat /\ run t = dd_mute 0 \/ t = 1%nat /\ run t = dd_once 1).
  { intro t. destruct t as [|[|t]]; [right; left; now split|destruct H1 as [H1|H1]; [left; exact H1|right; right; now split]|left; apply H2; lia]. }
  split; [split|].
  - unfold dd_clk. lia.
  - intro t. unfold dd_clk. nia.
  - intros t now now2 nonce E. destruct (C t) as [X|[(-> & X)|(-> & X)]]; rewrite X in E; try discriminate. unfold dd_poll in E.
    assert (now = dd_clk t) as -> by congruence. assert (now2 = dd_clk t) as -> by congruence. assert (nonce = repeat 1 8) as -> by congruence. split; [reflexivity|]. split; [lia|reflexivity].
  - intros t r now c E. destruct (C t) as [X|[(-> & X)|(-> & X)]]; rewrite X in E; try discriminate. unfold dd_once in E. congruence.
  - intros t r now E. destruct (C t) as [X|[(-> & X)|(-> & X)]]; rewrite X in E; discriminate.
  - intros x Hx. set (k := (x - 1000 * SEC) / SEC). assert (0 <= k) as Hk by (apply Z.div_pos; [unfold dd_clk in Hx; lia|lia]).
    pose proof (Z.div_mod (x - 1000 * SEC) SEC ltac:(lia)) as Dm. pose proof (Z.mod_pos_bound (x - 1000 * SEC) SEC ltac:(lia)) as Mb. fold k in Dm.
    exists (S (S (Z.to_nat k))), (dd_clk (S (S (Z.to_nat k)))), (dd_clk (S (S (Z.to_nat k)))), (repeat 1 8). split; [apply H2; lia|]. unfold dd_clk. rewrite !Nat2Z.inj_succ, Z2Nat.id by lia. nia.
Qed.
Example C149_applies : keeps_time nx_sha false nx_cf dd_once dd_clk 0 (2 * SEC) /\ polled dd_once dd_clk 0 (2 * SEC) /\
  is_open 0 (after nx_sha false nx_cf dd_once 1) = true /\ reads_data dd_once 0 1 /\ (forall s, (1 < s)%nat -> ~ reads_data dd_once 0 s).
Proof.
  destruct (dd_time dd_once) as (A & B); [intros [|[|t]] H; [lia|lia|reflexivity]|reflexivity|now right|].
  split; [exact A|]. split; [exact B|]. split; [vm_compute; reflexivity|].
  split. { assert (exists x ch, nx_ping = x :: ch) as (x & ch & E) by (vm_compute; eauto). exists x, ch, (dd_clk 1), nx_clock. unfold dd_once. now rewrite E. }
  intros [|[|s]] H (x & ch & now & c & E); [lia|lia|discriminate E].
Qed.
Example C149_mute_applies : keeps_time nx_sha false nx_cf dd_mute dd_clk 0 (2 * SEC) /\ polled dd_mute dd_clk 0 (2 * SEC) /\ (forall s, ~ reads_data dd_mute 0 s) /\
  forall t, is_open 0 (after nx_sha false nx_cf dd_mute (S t)) = true.
Proof.
  destruct (dd_time dd_mute) as (A & B); [intros [|[|t]] H; [lia|lia|reflexivity]|reflexivity|now left|].
  assert (N : forall s, ~ reads_data dd_mute 0 s) by (intros [|s] (x & ch & now & c & E); discriminate E).
  split; [exact A|]. split; [exact B|]. split; [exact N|]. induction t as [|t IH]; [vm_compute; reflexivity|].
  exact (C149_mute_refuted nx_sha false nx_cf dd_mute dd_clk 0 (2 * SEC) A N (S t) _ _ _ eq_refl IH).
Qed.

(** ** Assumptions *)

Print Assumptions C149_noticed_partial.
Print Assumptions C149_mute_refuted.
