(** C146: what is said is written in the end, and heard.

    Runs of nodes are infinite sequences of events here; a run is followed up to
    every moment.  Modelled source: nbc/node/connection.py, nbc/node/basenode.py. *)
From Coq Require Import String ZArith List Lia Bool.
From Verif Require Import PyBase PyVal FormatModel MessagesModel FormatSpec FormatProofs FormatProofs2 MessagesProofs
  NodeModel PollModel NodeProofs NodeProofs2 NodeProofs3 NodeProofs4 NodeProofs5 NodeProofs6 NodeProofs7 NodeProofs8 NodeProofs9 NodeProofs10 NodeProofs11 NodeProofs12
  PropsNode PropsHello PropsTalk PropsLife PropsMeet PropsApart.
Import ListNotations.
Open Scope string_scope.
Open Scope list_scope.
Open Scope Z_scope.

(** ** Specification *)
(** The state of a node after the first [t] events of a run. *)
Definition after (sha256 : bytes -> bytes) (py2 : bool) (cf : config) (run : nat -> event) (t : nat) : node :=
  history sha256 py2 cf (map run (seq 0 t)).
(** The socket takes at least a byte of connection [i]. *)
Definition takes (i : nat) (e : event) : Prop := exists k now, e = EvWrite i (STaken k) now /\ 1 <= k.
(** Whenever the connection asks to write, its socket takes something sooner or later. *)
Definition fair (sha256 : bytes -> bytes) (py2 : bool) (cf : config) (run : nat -> event) (i : nat) : Prop :=
  forall t, writable i (after sha256 py2 cf run t) = true -> exists t', (t <= t')%nat /\ takes i (run t').
Definition begins_with {A} (l p : list A) : Prop := exists rest, l = p ++ rest.

(** ** One run *)
Section Run.
  Variable sha256 : bytes -> bytes.
  Variable py2 : bool.
  Variable cf : config.
  Variable run : nat -> event.
  Hypothesis W : forall t, wf_event (run t).
  Notation after := (after sha256 py2 cf run).
  Lemma wf_upto t : Forall wf_event (map run (seq 0 t)).
  Proof. apply Forall_forall. intros e H. apply in_map_iff in H. destruct H as (x & <- & _). apply W. Qed.
  Lemma after_S t : after (S t) = step sha256 py2 cf (after t) (run t).
  Proof. unfold PropsDeliver.after, history. rewrite seq_S, map_app, fold_left_app. reflexivity. Qed.
  Lemma after_grows t d : exists l, n_trace (after (t + d)) = n_trace (after t) ++ l.
  Proof.
    induction d as [|d (l & IH)]; [exists []; now rewrite Nat.add_0_r, app_nil_r|]. rewrite Nat.add_succ_r, after_S.
    destruct (D_step sha256 py2 cf (fun _ _ => True) (after (t + d)) (run (t + d)) (fun _ _ _ => I)) as (k & -> & _). exists (l ++ k). now rewrite IH, app_assoc.
  Qed.
  Lemma after_le t t' : (t <= t')%nat -> exists l, n_trace (after t') = n_trace (after t) ++ l.
  Proof. intro H. replace t' with (t + (t' - t))%nat by lia. apply after_grows. Qed.
  Lemma still_open i t t' : (t <= t')%nat -> is_open i (after t') = true -> forall c, get_conn i (after t) = Some c -> is_open i (after t) = true.
  Proof.
    intros L O c G. pose proof (history_inv_life sha256 py2 cf (map run (seq 0 t))) as V. pose proof (history_inv_life sha256 py2 cf (map run (seq 0 t'))) as V'. fold (after t) in V. fold (after t') in V'.
    destruct (inv_live _ _ _ _ V' O) as (_ & N). apply is_open_get. exists c. split; [exact G|]. destruct (c_open c) eqn:E; [reflexivity|]. exfalso. apply N.
    destruct (after_le t t' L) as (l & ->). apply in_or_app. left. apply (iv_closed _ _ _ V). now exists c.
  Qed.
  Lemma queue_split i t : is_open i (after t) = true -> exists c, get_conn i (after t) = Some c /\ queued_of i (n_trace (after t)) = wire_of i (n_trace (after t)) ++ c_send c.
  Proof. intro O. apply is_open_get in O. destruct O as (c & G & _). exists c. split; [exact G|]. exact (C15_outgoing_fifo sha256 py2 cf _ i c (wf_upto t) G). Qed.
  (** A connection asks to write exactly while something said is not written. *)
  Theorem C146_asks i t : is_open i (after t) = true -> (writable i (after t) = true <-> wire_of i (n_trace (after t)) <> queued_of i (n_trace (after t))).
  Proof.
    intro O. destruct (queue_split i t O) as (c & G & Q). unfold writable. rewrite G. apply is_open_get in O. destruct O as (c' & G' & O). assert (c' = c) as -> by congruence. rewrite O, Q. cbn [andb].
    rewrite Z.ltb_lt. split.
    - intros L E. apply (f_equal zlen) in E. rewrite zlen_app in E. lia.
    - intro N. destruct (c_send c) as [|x s]; [exfalso; apply N; now rewrite app_nil_r|]. rewrite zlen_cons. pose proof (zlen_nonneg s). lia.
  Qed.
  Lemma write_step i t k now c : is_open i (after t) = true -> get_conn i (after t) = Some c -> run t = EvWrite i (STaken k) now ->
    wire_of i (n_trace (after (S t))) = wire_of i (n_trace (after t)) ++ ztake (Z.max 0 (Z.min k (zlen (c_send c)))) (c_send c).
  Proof.
    intros O G E. rewrite after_S, E. cbn [step]. rewrite O. unfold NodeModel.run, handle_write, modM. cbn [fst]. unfold wrote. rewrite G. unfold emit. cbn [n_trace set_n_trace set_n_tx upd set_n_conns].
    rewrite wire_app. cbn. now rewrite Nat.eqb_refl, app_nil_r.
  Qed.
  Lemma wire_le i t t' : (t <= t')%nat -> zlen (wire_of i (n_trace (after t))) <= zlen (wire_of i (n_trace (after t'))).
  Proof. intro L. destruct (after_le t t' L) as (l & ->). rewrite wire_app, zlen_app. pose proof (zlen_nonneg (wire_of i l)). lia. Qed.
  (** Everything said on a connection that stays open is written in the end. *)
  Theorem C146_written i t0 : (forall t, (t0 <= t)%nat -> is_open i (after t) = true) -> fair sha256 py2 cf run i ->
    forall t, (t0 <= t)%nat -> exists t', (t <= t')%nat /\ begins_with (wire_of i (n_trace (after t'))) (queued_of i (n_trace (after t))).
  Proof.
    intros O F t Ht. set (T := zlen (queued_of i (n_trace (after t)))).
    assert (forall m u, (t <= u)%nat -> T - zlen (wire_of i (n_trace (after u))) <= Z.of_nat m -> exists t', (u <= t')%nat /\ T <= zlen (wire_of i (n_trace (after t')))) as P.
    { induction m as [|m IH]; intros u Hu L; [exists u; split; [lia|lia]|].
      destruct (Z.le_gt_cases T (zlen (wire_of i (n_trace (after u))))) as [|B]; [exists u; split; [lia|assumption]|].
      assert (exists v, (u <= v)%nat /\ takes i (run v)) as (v & Hv & (k & now & E & K)).
      { apply F. apply C146_asks; [apply O; lia|]. intro X. destruct (after_le t u Hu) as (l & El). apply (f_equal zlen) in X. rewrite El in X at 2. rewrite queued_app, zlen_app in X. fold T in X. pose proof (zlen_nonneg (queued_of i l)). lia. }
      destruct (queue_split i v (O v ltac:(lia))) as (c & G & Q). pose proof (write_step i v k now c (O v ltac:(lia)) G E) as Wr. pose proof (wire_le i u v Hv) as Lv.
      destruct (Z.le_gt_cases T (zlen (wire_of i (n_trace (after v))))) as [|Bv]; [exists v; split; assumption|].
      assert (0 < zlen (c_send c)) as Sp. { destruct (after_le t v ltac:(lia)) as (l & El). apply (f_equal zlen) in Q. rewrite El in Q at 1. rewrite queued_app, !zlen_app in Q. fold T in Q. pose proof (zlen_nonneg (queued_of i l)). lia. }
      destruct (IH (S v) ltac:(lia)) as (t' & Ht' & Hl).
      - rewrite Wr, zlen_app, zlen_ztake by lia. lia.
      - exists t'. split; [lia|exact Hl]. }
    destruct (P (Z.to_nat T) t (le_n t)) as (t' & Ht' & L). { pose proof (zlen_nonneg (wire_of i (n_trace (after t)))). unfold T. pose proof (zlen_nonneg (queued_of i (n_trace (after t)))). lia. }
    exists t'. split; [exact Ht'|]. destruct (queue_split i t' (O t' ltac:(lia))) as (c & G & Q). destruct (after_le t t' Ht') as (l & El). rewrite El in Q at 1. rewrite queued_app in Q.
    destruct (app_eq_app _ _ _ _ Q) as (r & [(A & _)|(A & _)]); [|now exists r]. exists []. rewrite app_nil_r. fold T in L. unfold T in L. rewrite A, zlen_app in L. destruct r as [|x r]; [now rewrite A, app_nil_r|]. rewrite zlen_cons in L. pose proof (zlen_nonneg r). lia.
  Qed.
End Run.

(** ** Two runs *)
Lemma framed_begins bs : Forall is_frame bs -> forall rest fs r, framed (concat bs ++ rest) fs r -> begins_with fs bs.
Proof.
  induction 1 as [|b bs Hb F IH]; intros rest fs r (E & Ff & I); [now exists fs|]. cbn [concat] in E. rewrite <- app_assoc in E. destruct Hb as (Lb & Nb). destruct fs as [|f fs].
  - exfalso. cbn [concat app] in E. subst r. destruct I as [I|I].
    + rewrite zlen_app in I. pose proof (zlen_nonneg (concat bs ++ rest)). lia.
    + rewrite field_app in I by lia. rewrite zlen_app in I. pose proof (zlen_nonneg (concat bs ++ rest)). lia.
  - apply Forall_cons_iff in Ff. destruct Ff as ((Lf & Nf) & Ff). cbn [concat] in E. rewrite <- app_assoc in E.
    assert (zlen b = zlen f) as L. { rewrite Nb, Nf. rewrite <- (field_app b (concat bs ++ rest)), <- (field_app f (concat fs ++ r)) by lia. now rewrite E. }
    assert (b = f) as <-. { rewrite <- (ztake_app_exact b (concat bs ++ rest) (zlen b)), <- (ztake_app_exact f (concat fs ++ r) (zlen b)) by lia. now rewrite E. }
    apply app_inv_head in E. destruct (IH rest fs r) as (q & ->); [split; [exact E|split; assumption]|]. now exists q.
Qed.
Lemma heard_of_frames j tr : heard (talk j tr) = flat_map (fun a => match a with AMsg _ m => [m] | _ => [] end) (frames_of j tr).
Proof.
  rewrite heard_talk. unfold heard_on, frames_of. induction tr as [|a tr IH]; [reflexivity|]. cbn [flat_map filter]. destruct a; try exact IH; destruct (Nat.eqb _ j) eqn:E; cbn [flat_map app]; now rewrite IH.
Qed.
(** What has been written at one end and read at the other has been heard. *)
Lemma heard_when_read sha256 (Hs : forall x, 4 <= zlen (sha256 x)) cfA cfB pyB esB i j trA : cf_magic cfA = cf_magic cfB -> zlen (cf_magic cfA) = 4 ->
  Forall (honest_action sha256 cfA) trA -> Forall speakable (msgs_of i trA) -> Forall wf_event esB ->
  let trB := n_trace (history sha256 pyB cfB esB) in
  begins_with (recv_of j trB) (queued_of i trA) -> begins_with (heard (talk j trB)) (map arrived (msgs_of i trA)).
Proof.
  intros Em Lm HA SA WB trB (rest & E). destruct (queued_concat sha256 cfA i trA HA) as (bs & Eb & F2). rewrite Eb in E.
  assert (Fb : Forall is_frame bs).
  { clear E Eb. revert SA. induction F2 as [|m b l bs H _ IH]; intro SA; [constructor|]. apply Forall_cons_iff in SA. destruct SA as ((T & _) & SA). constructor; [exact (binary_is_frame sha256 Hs _ _ _ T Lm H)|exact (IH SA)]. }
  assert (exists fs r', framed (recv_of j trB) fs r' /\ frames_of j trB = map (outcome sha256 cfB j) fs) as (fs & r' & Fr' & Hf).
  { destruct (get_conn j (history sha256 pyB cfB esB)) as [c|] eqn:G.
    - destruct (handled_by_received sha256 cfB j _ c (good_history sha256 pyB cfB esB WB) G) as (fs & H1 & H2). exists fs, (c_recv c). now split.
    - pose proof (stream_inv_history sha256 pyB cfB esB WB) as (I1 & _). specialize (I1 j). rewrite G in I1. destruct I1 as (R & _ & _ & F). exists [], []. fold trB in R, F. rewrite R, F. split; [|reflexivity]. split; [reflexivity|]. split; [constructor|left; reflexivity]. }
  rewrite E in Fr'. destruct (framed_begins bs Fb rest fs r' Fr') as (q & ->). rewrite heard_of_frames, Hf, map_app, flat_map_app. eexists. f_equal.
  clear - F2 SA Em Lm Hs. induction F2 as [|m b l bs H _ IH]; [reflexivity|]. apply Forall_cons_iff in SA. destruct SA as (S1 & SA). cbn [map flat_map]. rewrite (IH SA).
  unfold outcome at 1. rewrite <- Em. pose proof (speakable_parse sha256 Hs m _ b S1 Lm H []) as P. rewrite app_nil_r in P. now rewrite P.
Qed.
(** If the connection stays open and the network delivers in the end what is
    written, then everything that one node says the other hears in the end. *)
Theorem C146_heard : forall sha256 pyA pyB cfA cfB runA runB i j t0,
  (forall x, 4 <= zlen (sha256 x)) -> cf_magic cfA = cf_magic cfB -> zlen (cf_magic cfA) = 4 ->
  Forall (fun c => 0 <= c) (cf_user_agent cfA) -> (forall t, ordinary_event (runA t)) -> (forall t, wf_event (runB t)) ->
  (forall t, (t0 <= t)%nat -> is_open i (after sha256 pyA cfA runA t) = true) -> fair sha256 pyA cfA runA i ->
  (forall t, exists u, begins_with (recv_of j (n_trace (after sha256 pyB cfB runB u))) (wire_of i (n_trace (after sha256 pyA cfA runA t)))) ->
  forall t, (t0 <= t)%nat -> exists u, forall u', (u <= u')%nat ->
    begins_with (heard (talk j (n_trace (after sha256 pyB cfB runB u')))) (map arrived (said (talk i (n_trace (after sha256 pyA cfA runA t))))).
Proof.
  intros sha pyA pyB cfA cfB runA runB i j t0 Hs Em Lm Hu OA WB Op F D t Ht.
  assert (WA : forall t, wf_event (runA t)) by (intro x; exact (proj1 (OA x))).
  destruct (C146_written sha pyA cfA runA WA i t0 Op F t Ht) as (t' & Ht' & (r1 & E1)). destruct (D t') as (u & (r2 & E2)). exists u. intros u' Hu'. rewrite said_talk.
  apply (heard_when_read sha Hs cfA cfB pyB _ i j); [exact Em|exact Lm|apply traces_honest, wf_upto, WA| |apply wf_upto, WB|].
  - apply Forall_forall. intros m Hm. apply (history_speakable sha pyA cfA Hu (map runA (seq 0 t)) i m); [|exact Hm]. apply Forall_forall. intros e He. apply in_map_iff in He. destruct He as (x & <- & _). apply ordinary_real, OA.
  - destruct (after_le sha pyB cfB runB u u' Hu') as (l & El). fold (after sha pyB cfB runB u'). rewrite El, recv_app, E2, E1, <- !app_assoc. now eexists.
Qed.
(** The two nodes of C126: the first dials, the second reads its version message in
    two pieces; then both only offer what they have to write. *)
Definition dx_write (now : Z) : event := EvWrite 0 (STaken 1000) now.
Definition dxA (t : nat) : event := nth t nxA1 (dx_write (2000 * SEC)).
Definition dxB (t : nat) : event := nth t nxB1 (dx_write (2000 * SEC)).
Lemma dx_idle sha py2 cf n now w : (exists c, get_conn 0 n = Some c /\ c_open c = true /\ c_send c = []) /\ wire_of 0 (n_trace n) = w ->
  (exists c, get_conn 0 (step sha py2 cf n (dx_write now)) = Some c /\ c_open c = true /\ c_send c = []) /\ wire_of 0 (n_trace (step sha py2 cf n (dx_write now))) = w.
Proof.
  intros ((c & G & O & E) & Ew). unfold dx_write. cbn [step]. unfold is_open. rewrite G, O. unfold NodeModel.run, handle_write, modM. cbn [fst]. unfold wrote. rewrite G. split.
  - exists (set_c_send (zdrop (Z.max 0 (Z.min 1000 (zlen (c_send c)))) (c_send c)) (set_c_tx (c_tx c + Z.max 0 (Z.min 1000 (zlen (c_send c)))) (set_c_last_tx now c))).
    split; [|split; [exact O|rewrite E; reflexivity]]. unfold emit, get_conn, upd, set_n_tx in *. cbn [n_conns set_n_conns set_n_trace]. destruct (n_conns n) as [|c0 cs]; [discriminate|]. cbn in G. injection G as ->. reflexivity.
  - unfold emit. cbn [n_trace set_n_trace set_n_tx upd set_n_conns]. rewrite wire_app, E, Ew. cbn. now rewrite app_nil_r.
Qed.
Definition dx_w : bytes := wire_of 0 (n_trace (history nx_sha true nx_ship nxA1)).
Lemma dx_later d : (exists c, get_conn 0 (after nx_sha true nx_ship dxA (2 + d)) = Some c /\ c_open c = true /\ c_send c = []) /\ wire_of 0 (n_trace (after nx_sha true nx_ship dxA (2 + d))) = dx_w.
Proof.
  induction d as [|d IH].
  - split; [|reflexivity]. destruct (get_conn 0 (after nx_sha true nx_ship dxA (2 + 0))) as [c|] eqn:G; [|vm_compute in G; discriminate]. exists c. split; [reflexivity|].
    assert (option_map (fun c => (c_open c, c_send c)) (get_conn 0 (after nx_sha true nx_ship dxA (2 + 0))) = Some (true, [])) as H by (vm_compute; reflexivity). rewrite G in H. cbn in H. split; congruence.
  - rewrite Nat.add_succ_r, after_S. assert (dxA (2 + d) = dx_write (2000 * SEC)) as -> by (unfold dxA; rewrite nth_overflow; [reflexivity|cbn; lia]). now apply dx_idle.
Qed.
Lemma dx_open t : (1 <= t)%nat -> is_open 0 (after nx_sha true nx_ship dxA t) = true.
Proof.
  intro H. destruct t as [|[|d]]; [lia|vm_compute; reflexivity|]. destruct (dx_later d) as ((c & G & O & _) & _). apply is_open_get. exists c. split; [exact G|exact O].
Qed.
Example C146_applies : (forall t, ordinary_event (dxA t)) /\ (forall t, wf_event (dxB t)) /\
  (forall t, (1 <= t)%nat -> is_open 0 (after nx_sha true nx_ship dxA t) = true) /\ fair nx_sha true nx_ship dxA 0 /\
  (forall t, exists u, begins_with (recv_of 0 (n_trace (after nx_sha false nx_cfB dxB u))) (wire_of 0 (n_trace (after nx_sha true nx_ship dxA t)))) /\
  writable 0 (after nx_sha true nx_ship dxA 1) = true /\ List.length (said (talk 0 (n_trace (after nx_sha true nx_ship dxA 1)))) = 1%nat.
Proof.
  destruct nx_eventsA as (_ & OA). destruct nx_eventsB as (_ & OB). unfold nxA2 in OA. unfold nxB2 in OB. apply Forall_app in OA. apply Forall_app in OB. destruct OA as (OA & _). destruct OB as (OB & _).
  split; [|split; [|split; [exact dx_open|split; [|split; [|split; vm_compute; reflexivity]]]]].
  - intro t. unfold dxA. destruct (Nat.lt_ge_cases t (List.length nxA1)) as [L|L]; [|rewrite nth_overflow by exact L; split; exact I]. rewrite Forall_forall in OA. now apply OA, nth_In.
  - intro t. unfold dxB. destruct (Nat.lt_ge_cases t (List.length nxB1)) as [L|L]; [|rewrite nth_overflow by exact L; exact I]. rewrite Forall_forall in OB. now apply OB, nth_In.
  - intros t _. exists (S (S t)). split; [lia|]. exists 1000, (2000 * SEC). split; [|lia]. unfold dxA. rewrite nth_overflow; [reflexivity|cbn; lia].
  - intro t. exists 3%nat. assert (recv_of 0 (n_trace (after nx_sha false nx_cfB dxB 3)) = dx_w) as -> by (vm_compute; reflexivity).
    destruct (Nat.le_gt_cases 2 t) as [L|L]; [exists []; rewrite app_nil_r; replace t with (2 + (t - 2))%nat by lia; symmetry; exact (proj2 (dx_later (t - 2)))|].
    destruct t as [|[|t]]; [exists dx_w; reflexivity|exists dx_w; assert (wire_of 0 (n_trace (after nx_sha true nx_ship dxA 1)) = []) as -> by (vm_compute; reflexivity); reflexivity|lia].
Qed.

(** ** Assumptions *)

Print Assumptions C146_asks.
Print Assumptions C146_written.
Print Assumptions C146_heard.
