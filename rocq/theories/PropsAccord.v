(** C155: two connected nodes complete the handshake.

    Modelled source: nbc/node/connection.py, nbc/node/basenode.py,
    nbc/node/node.py. *)
From Coq Require Import String ZArith List Lia Bool.
From Verif Require Import PyBase PyVal FormatModel MessagesModel FormatSpec FormatProofs FormatProofs2 MessagesProofs
  NodeModel PollModel NodeProofs NodeProofs2 NodeProofs3 NodeProofs4 NodeProofs5 NodeProofs6 NodeProofs7 NodeProofs8 NodeProofs9 NodeProofs10 NodeProofs11 NodeProofs12
  PropsNode PropsHello PropsTalk PropsLife PropsMeet PropsApart PropsDeliver.
Import ListNotations.
Open Scope string_scope.
Open Scope list_scope.
Open Scope Z_scope.

(** ** Specification *)
(** A node and its run: usable configuration and bootstrap addresses, events as
    the operating system delivers them, and an application that sends no answers
    of its own (pong, verack and addr are sent by the node). *)
Definition sane (cf : config) (run : nat -> event) : Prop :=
  good_config cf /\ Forall (fun c => 0 <= c) (cf_user_agent cf) /\ Forall usable (cf_bootstrap cf) /\
  forall t, good_event (run t) /\ ordinary_event (run t) /\ forall n m, run t = EvSend n m -> ~ In (cmd m) ["pong"; "verack"; "addr"].
(** What one end reads comes from the other, in order and without gaps, and
    everything written arrives sooner or later.  [wrote t] is all that the one
    has written up to its moment [t], [read u] all that the other has read up to
    its moment [u]. *)
Definition carries (wrote read : nat -> bytes) : Prop :=
  (forall u, exists t, begins_with (wrote t) (read u)) /\ (forall t, exists u, begins_with (read u) (wrote t)).

Lemma sane_upto cf run t : sane cf run -> Forall good_event (map run (seq 0 t)) /\ Forall ordinary_event (map run (seq 0 t)) /\ Forall wf_event (map run (seq 0 t)) /\
  forall n m, In (EvSend n m) (map run (seq 0 t)) -> ~ In (cmd m) ["pong"; "verack"; "addr"].
Proof.
  intros (_ & _ & _ & H). repeat split; try (apply Forall_forall; intros e He; apply in_map_iff in He; destruct He as (x & <- & _); destruct (H x) as (H1 & H2 & _); first [exact H1|exact H2|exact (proj1 H2)]).
  intros n m He. apply in_map_iff in He. destruct He as (x & E & _). exact (proj2 (proj2 (H x)) n m E).
Qed.
Lemma begins_trans {A} (a b c : list A) : begins_with a b -> begins_with b c -> begins_with a c.
Proof. intros (r & ->) (s & ->). exists (s ++ r). now rewrite app_assoc. Qed.
Lemma wire_later sha py2 cf run i t t' : (t <= t')%nat -> begins_with (wire_of i (n_trace (after sha py2 cf run t'))) (wire_of i (n_trace (after sha py2 cf run t))).
Proof. intro L. destruct (after_le sha py2 cf run t t' L) as (l & ->). rewrite wire_app. now eexists. Qed.

Lemma grow_after sha py2 cf run t t' : (forall t, wf_event (run t)) -> (t <= t')%nat -> grow (after sha py2 cf run t) (after sha py2 cf run t').
Proof.
  intros W L. replace t' with (t + (t' - t))%nat by lia. generalize (t' - t)%nat. intro d. induction d as [|d IH]; [rewrite Nat.add_0_r; apply grow_refl|].
  rewrite Nat.add_succ_r, after_S. eapply grow_trans; [exact IH|]. apply grow_step, W.
Qed.

(** The first hears of the second's version, and so does the second of the
    acknowledgement. *)
Lemma hears_version sha pyA pyB cfA cfB runA runB i j t0 : (forall x, 4 <= zlen (sha x)) -> cf_magic cfA = cf_magic cfB -> zlen (cf_magic cfA) = 4 ->
  sane cfA runA -> sane cfB runB ->
  (forall t, (t0 <= t)%nat -> is_open i (after sha pyA cfA runA t) = true) -> fair sha pyA cfA runA i ->
  carries (fun t => wire_of i (n_trace (after sha pyA cfA runA t))) (fun u => recv_of j (n_trace (after sha pyB cfB runB u))) ->
  exists u, forall u', (u <= u')%nat -> exists m rest, heard (talk j (n_trace (after sha pyB cfB runB u'))) = m :: rest /\ is_cmd "version" m = true.
Proof.
  intros Hs Em Lm SA SB Op F (_ & D). pose proof SA as (Hc & Hu & Hb & EA). pose proof SB as (_ & _ & _ & EB).
  destruct (C146_heard sha pyA pyB cfA cfB runA runB i j t0 Hs Em Lm Hu (fun t => proj1 (proj2 (EA t))) (fun t => proj1 (proj1 (proj2 (EB t)))) Op F D t0 (le_n _)) as (u & H).
  exists u. intros u' L. specialize (H u' L). destruct H as (rest & H). pose proof (Op t0 (le_n _)) as O. apply is_open_get in O. destruct O as (a & Ga & Oa).
  destruct (C103_version_first_partial sha pyA cfA (map runA (seq 0 t0)) i a Hc Hb (proj1 (sane_upto cfA runA t0 SA)) Ga) as [(now & nonce & ip & r & M & _)|(O & _)]; [|congruence].
  unfold after in H at 2. rewrite said_talk, M in H. cbn [map app] in H. rewrite H. eexists. eexists. split; [reflexivity|reflexivity].
Qed.
Lemma hears_verack sha pyA pyB cfA cfB runA runB i j t0 : (forall x, 4 <= zlen (sha x)) -> cf_magic cfA = cf_magic cfB -> zlen (cf_magic cfA) = 4 ->
  sane cfA runA -> sane cfB runB ->
  (forall t, (t0 <= t)%nat -> is_open i (after sha pyA cfA runA t) = true) -> (forall t, (t0 <= t)%nat -> is_open j (after sha pyB cfB runB t) = true) ->
  fair sha pyA cfA runA i -> fair sha pyB cfB runB j ->
  carries (fun t => wire_of i (n_trace (after sha pyA cfA runA t))) (fun u => recv_of j (n_trace (after sha pyB cfB runB u))) ->
  carries (fun u => wire_of j (n_trace (after sha pyB cfB runB u))) (fun t => recv_of i (n_trace (after sha pyA cfA runA t))) ->
  exists t, forall t', (t <= t')%nat -> forall a, get_conn i (after sha pyA cfA runA t') = Some a -> c_verack a = true.
Proof.
  intros Hs Em Lm SA SB OA OB FA FB CA CB. destruct (hears_version sha pyA pyB cfA cfB runA runB i j t0 Hs Em Lm SA SB OA FA CA) as (u & HV).
  set (v := Nat.max u t0). destruct (HV v ltac:(lia)) as (m & r & H & Hm).
  pose proof (C111_counts sha pyB cfB (map runB (seq 0 v)) j (fun x => proj2 (proj2 (proj2 (sane_upto cfB runB v SB))) j x)) as (_ & N & _). cbv zeta in N. fold (after sha pyB cfB runB v) in N. rewrite H in N. cbn [filter] in N. rewrite Hm in N. cbn [map] in N.
  assert (In verack_message (said (talk j (n_trace (after sha pyB cfB runB v))))) as Iv. { apply (proj1 (filter_In (is_cmd "verack") _ _)). rewrite N. now left. }
  pose proof SA as (_ & _ & _ & EA). pose proof SB as (_ & HuB & _ & EB).
  destruct (C146_heard sha pyB pyA cfB cfA runB runA j i t0 Hs (eq_sym Em) ltac:(now rewrite <- Em) HuB (fun t => proj1 (proj2 (EB t))) (fun t => proj1 (proj1 (proj2 (EA t)))) OB FB (proj2 CB) v ltac:(lia)) as (t & HT).
  exists t. intros t' L a Ga. destruct (HT t' L) as (rest & E).
  pose proof (C112_details sha pyA cfA (map runA (seq 0 t')) i a (proj1 (proj2 (proj2 (sane_upto cfA runA t' SA)))) Ga) as (V & _). cbv zeta in V. fold (after sha pyA cfA runA t') in V. rewrite V, E.
  apply existsb_exists. exists (arrived verack_message). split; [|reflexivity]. apply in_or_app. left. now apply in_map.
Qed.

(** ** The theorem *)
(** Two nodes with any infinite runs, in any interleaving, on any network that
    carries their bytes.  From some moment on each has been acknowledged and
    reports what the other was configured with. *)
Theorem C155_handshake : forall sha256 pyA pyB cfA cfB runA runB i j t0,
  (forall x, 4 <= zlen (sha256 x)) -> cf_magic cfA = cf_magic cfB -> zlen (cf_magic cfA) = 4 ->
  sane cfA runA -> sane cfB runB ->
  let A := after sha256 pyA cfA runA in
  let B := after sha256 pyB cfB runB in
  (forall t, (t0 <= t)%nat -> is_open i (A t) = true /\ is_open j (B t) = true) ->
  fair sha256 pyA cfA runA i -> fair sha256 pyB cfB runB j ->
  carries (fun t => wire_of i (n_trace (A t))) (fun u => recv_of j (n_trace (B u))) ->
  carries (fun u => wire_of j (n_trace (B u))) (fun t => recv_of i (n_trace (A t))) ->
  exists t1, forall t u, (t1 <= t)%nat -> (t1 <= u)%nat -> exists a c,
    get_conn i (A t) = Some a /\ get_conn j (B u) = Some c /\
    (c_verack a = true /\ introduced cfB c a) /\ (c_verack c = true /\ introduced cfA a c).
Proof.
  assert (Half : forall sha pyA pyB cfA cfB runA runB i j t0, (forall x, 4 <= zlen (sha x)) -> cf_magic cfA = cf_magic cfB -> zlen (cf_magic cfA) = 4 ->
    sane cfA runA -> sane cfB runB ->
    (forall t, (t0 <= t)%nat -> is_open i (after sha pyA cfA runA t) = true) -> fair sha pyA cfA runA i ->
    carries (fun t => wire_of i (n_trace (after sha pyA cfA runA t))) (fun u => recv_of j (n_trace (after sha pyB cfB runB u))) ->
    exists u, forall u' t a c, (u <= u')%nat -> get_conn i (after sha pyA cfA runA t) = Some a -> get_conn j (after sha pyB cfB runB u') = Some c -> introduced cfA a c).
  { intros sha pyA pyB cfA cfB runA runB i j t0 Hs Em Lm SA SB Op F C. destruct (hears_version sha pyA pyB cfA cfB runA runB i j t0 Hs Em Lm SA SB Op F C) as (u & HV).
    exists u. intros u' t a c L Ga Gc. destruct (HV u' L) as (m & r & H & _). destruct C as (P & _). destruct (P u') as (t2 & B2). set (t3 := Nat.max t t2).
    pose proof (begins_trans _ _ _ (wire_later sha pyA cfA runA i t2 t3 ltac:(lia)) B2) as B3.
    pose proof SA as (Hc & Hu & Hb & _). destruct (sane_upto cfA runA t3 SA) as (G3 & O3 & W3 & _).
    assert (exists a3, get_conn i (after sha pyA cfA runA t3) = Some a3 /\ c_address a3 = c_address a) as (a3 & G & EA). { destruct (grow_after sha pyA cfA runA t t3 (fun t => proj1 (proj1 (proj2 (proj2 (proj2 (proj2 SA)) t)))) ltac:(lia)) as (_ & K). destruct (K i a Ga) as (a3 & G & E & _). now exists a3. }
    pose proof (C126_introduced sha pyA pyB cfA cfB (map runA (seq 0 t3)) (map runB (seq 0 u')) i j a3 c Hs Em Lm Hc Hu Hb G3 O3 (proj1 (proj2 (proj2 (sane_upto cfB runB u' SB)))) G Gc B3) as K.
    unfold introduced in K |- *. rewrite <- EA. apply K. fold (after sha pyB cfB runB u'). rewrite H. discriminate. }
  intros sha pyA pyB cfA cfB runA runB i j t0 Hs Em Lm SA SB A B Op FA FB CA CB.
  assert (OA : forall t, (t0 <= t)%nat -> is_open i (A t) = true) by (intros t H; exact (proj1 (Op t H))). assert (OB : forall t, (t0 <= t)%nat -> is_open j (B t) = true) by (intros t H; exact (proj2 (Op t H))).
  assert (LB : zlen (cf_magic cfB) = 4) by now rewrite <- Em.
  destruct (Half sha pyA pyB cfA cfB runA runB i j t0 Hs Em Lm SA SB OA FA CA) as (k1 & H1).
  destruct (Half sha pyB pyA cfB cfA runB runA j i t0 Hs (eq_sym Em) LB SB SA OB FB CB) as (k2 & H2).
  destruct (hears_verack sha pyA pyB cfA cfB runA runB i j t0 Hs Em Lm SA SB OA OB FA FB CA CB) as (k3 & H3).
  destruct (hears_verack sha pyB pyA cfB cfA runB runA j i t0 Hs (eq_sym Em) LB SB SA OB OA FB FA CB CA) as (k4 & H4).
  exists (t0 + k1 + k2 + k3 + k4)%nat. intros t u Lt Lu. pose proof (OA t ltac:(lia)) as Oa. pose proof (OB u ltac:(lia)) as Oc. apply is_open_get in Oa, Oc. destruct Oa as (a & Ga & _), Oc as (c & Gc & _).
  exists a, c. split; [exact Ga|]. split; [exact Gc|]. split; split.
  - exact (H3 t ltac:(lia) a Ga).
  - exact (H2 t u c a ltac:(lia) Gc Ga).
  - exact (H4 u ltac:(lia) c Gc).
  - exact (H1 u t a c ltac:(lia) Ga Gc).
Qed.

(** ** An example *)
(** The two nodes of C126 go on for ever, offering what they have to write. *)
Definition idle_after (es : list event) (t : nat) : event := nth t es (dx_write (2000 * SEC)).
Lemma upto_length {A} (es : list A) d : map (fun t => nth t es d) (seq 0 (List.length es)) = es.
Proof. induction es as [|e es IH]; [reflexivity|]. cbn [List.length seq map nth]. f_equal. rewrite <- seq_shift, map_map. exact IH. Qed.
Lemma idle_recv sha py2 cf n now : (exists c, get_conn 0 n = Some c /\ c_open c = true /\ c_send c = []) -> recv_of 0 (n_trace (step sha py2 cf n (dx_write now))) = recv_of 0 (n_trace n).
Proof.
  intros (c & G & O & E). unfold dx_write. cbn [step]. unfold is_open. rewrite G, O. unfold NodeModel.run, handle_write, modM. cbn [fst]. unfold wrote. rewrite G.
  unfold emit. cbn [n_trace set_n_trace set_n_tx upd set_n_conns]. rewrite recv_app. cbn. now rewrite app_nil_r.
Qed.
Lemma idle_stays sha py2 cf es : let n := history sha py2 cf es in let A := after sha py2 cf (idle_after es) in
  (exists c, get_conn 0 n = Some c /\ c_open c = true /\ c_send c = []) ->
  forall t, (List.length es <= t)%nat -> (exists c, get_conn 0 (A t) = Some c /\ c_open c = true /\ c_send c = []) /\ wire_of 0 (n_trace (A t)) = wire_of 0 (n_trace n) /\ recv_of 0 (n_trace (A t)) = recv_of 0 (n_trace n).
Proof.
  intros n A H t L. replace t with (List.length es + (t - List.length es))%nat by lia. generalize (t - List.length es)%nat. intro d. induction d as [|d (IH1 & IH2 & IH3)].
  - rewrite Nat.add_0_r. assert (A (List.length es) = n) as -> by (unfold A, after, n, idle_after; now rewrite upto_length). repeat split; exact H || reflexivity.
  - rewrite Nat.add_succ_r. unfold A. rewrite after_S. fold A. assert (idle_after es (List.length es + d) = dx_write (2000 * SEC)) as -> by (unfold idle_after; rewrite nth_overflow; [reflexivity|lia]).
    destruct (dx_idle sha py2 cf (A (List.length es + d)%nat) (2000 * SEC) _ (conj IH1 IH2)) as (K1 & K2). split; [exact K1|]. split; [exact K2|]. rewrite idle_recv by exact IH1. exact IH3.
Qed.
Lemma idle_sane cf es : good_config cf /\ Forall (fun c => 0 <= c) (cf_user_agent cf) /\ Forall usable (cf_bootstrap cf) /\
  Forall good_event es /\ Forall ordinary_event es /\ (forall n m, In (EvSend n m) es -> ~ In (cmd m) ["pong"; "verack"; "addr"]) -> sane cf (idle_after es).
Proof.
  intros (H1 & H2 & H3 & G & O & S). split; [exact H1|]. split; [exact H2|]. split; [exact H3|]. intro t. unfold idle_after. rewrite Forall_forall in G, O.
  destruct (Nat.lt_ge_cases t (List.length es)) as [L|L]; [|rewrite nth_overflow by exact L; split; [split; exact I|split; [split; exact I|discriminate]]].
  pose proof (nth_In es (dx_write (2000 * SEC)) L) as N. split; [apply G, N|]. split; [apply O, N|]. intros n m E. apply (S n m). rewrite <- E. exact N.
Qed.
Lemma idle_fair sha py2 cf es i : i = 0%nat -> fair sha py2 cf (idle_after es) i.
Proof. intros -> t _. exists (List.length es + t)%nat. split; [lia|]. exists 1000, (2000 * SEC). split; [|lia]. unfold idle_after. rewrite nth_overflow; [reflexivity|lia]. Qed.
Lemma idle_carries sha pyA pyB cfA cfB esA esB : 
  (exists c, get_conn 0 (history sha pyA cfA esA) = Some c /\ c_open c = true /\ c_send c = []) -> (exists c, get_conn 0 (history sha pyB cfB esB) = Some c /\ c_open c = true /\ c_send c = []) ->
  recv_of 0 (n_trace (history sha pyB cfB esB)) = wire_of 0 (n_trace (history sha pyA cfA esA)) ->
  carries (fun t => wire_of 0 (n_trace (after sha pyA cfA (idle_after esA) t))) (fun u => recv_of 0 (n_trace (after sha pyB cfB (idle_after esB) u))).
Proof.
  intros HA HB E. pose proof (idle_stays sha pyA cfA esA HA) as SA. pose proof (idle_stays sha pyB cfB esB HB) as SB. cbv zeta in SA, SB. set (N := (List.length esA + List.length esB)%nat). split; intro k; exists (N + k)%nat; cbv beta.
  - rewrite (proj1 (proj2 (SA (N + k)%nat ltac:(lia)))), <- E, <- (proj2 (proj2 (SB (N + k)%nat ltac:(lia)))). destruct (after_le sha pyB cfB (idle_after esB) k (N + k) ltac:(lia)) as (l & ->). rewrite recv_app. now eexists.
  - rewrite (proj2 (proj2 (SB (N + k)%nat ltac:(lia)))), E, <- (proj1 (proj2 (SA (N + k)%nat ltac:(lia)))). apply wire_later. lia.
Qed.
Lemma open_empty n : option_map (fun c => (c_open c, c_send c)) (get_conn 0 n) = Some (true, []) -> exists c, get_conn 0 n = Some c /\ c_open c = true /\ c_send c = [].
Proof. destruct (get_conn 0 n) as [c|]; [|discriminate]. cbn. intro H. exists c. repeat split; congruence. Qed.
Lemma ax_lenA : List.length nxA2 = 4%nat. Proof. reflexivity. Qed.
Lemma ax_lenB : List.length nxB2 = 5%nat. Proof. reflexivity. Qed.
Lemma ax_A : exists c, get_conn 0 (history nx_sha true nx_ship nxA2) = Some c /\ c_open c = true /\ c_send c = []. Proof. apply open_empty. vm_compute. reflexivity. Qed.
Lemma ax_B : exists c, get_conn 0 (history nx_sha false nx_cfB nxB2) = Some c /\ c_open c = true /\ c_send c = []. Proof. apply open_empty. vm_compute. reflexivity. Qed.
Lemma ax_AB : recv_of 0 (n_trace (history nx_sha false nx_cfB nxB2)) = wire_of 0 (n_trace (history nx_sha true nx_ship nxA2)). Proof. vm_compute. reflexivity. Qed.
Lemma ax_BA : recv_of 0 (n_trace (history nx_sha true nx_ship nxA2)) = wire_of 0 (n_trace (history nx_sha false nx_cfB nxB2)). Proof. vm_compute. reflexivity. Qed.
Lemma ax_start : option_map c_verack (get_conn 0 (after nx_sha true nx_ship (idle_after nxA2) 1)) = Some false. Proof. vm_compute. reflexivity. Qed.
Lemma ax_saneA : sane nx_ship (idle_after nxA2).
Proof. destruct C126_applies as (_ & _ & _ & H & _). exact (idle_sane nx_ship nxA2 (H nx_ship nxA2 (or_introl eq_refl))). Qed.
Lemma ax_saneB : sane nx_cfB (idle_after nxB2).
Proof. destruct C126_applies as (_ & _ & _ & H & _). exact (idle_sane nx_cfB nxB2 (H nx_cfB nxB2 (or_intror (or_introl eq_refl)))). Qed.
Lemma idle_open sha py2 cf es : (exists c, get_conn 0 (history sha py2 cf es) = Some c /\ c_open c = true /\ c_send c = []) ->
  forall t, (List.length es <= t)%nat -> is_open 0 (after sha py2 cf (idle_after es) t) = true.
Proof. intros H t L. apply is_open_get. destruct (idle_stays sha py2 cf es H t L) as ((c & G & O & _) & _). exists c. split; [exact G|exact O]. Qed.
Example C155_applies : let runA := idle_after nxA2 in let runB := idle_after nxB2 in
  let A := after nx_sha true nx_ship runA in let B := after nx_sha false nx_cfB runB in
  (forall x, 4 <= zlen (nx_sha x)) /\ cf_magic nx_ship = cf_magic nx_cfB /\ zlen (cf_magic nx_ship) = 4 /\
  sane nx_ship runA /\ sane nx_cfB runB /\
  (forall t, (5 <= t)%nat -> is_open 0 (A t) = true /\ is_open 0 (B t) = true) /\
  fair nx_sha true nx_ship runA 0 /\ fair nx_sha false nx_cfB runB 0 /\
  carries (fun t => wire_of 0 (n_trace (A t))) (fun u => recv_of 0 (n_trace (B u))) /\
  carries (fun u => wire_of 0 (n_trace (B u))) (fun t => recv_of 0 (n_trace (A t))) /\
  option_map c_verack (get_conn 0 (A 1%nat)) = Some false.
Proof.
  destruct C126_applies as (H1 & H2 & H3 & _). cbv zeta.
  split; [exact H1|]. split; [exact H2|]. split; [exact H3|]. split; [exact ax_saneA|]. split; [exact ax_saneB|].
  split. { intros t L. split; apply idle_open; [exact ax_A|rewrite ax_lenA; lia|exact ax_B|rewrite ax_lenB; exact L]. }
  split; [exact (idle_fair nx_sha true nx_ship nxA2 0 eq_refl)|]. split; [exact (idle_fair nx_sha false nx_cfB nxB2 0 eq_refl)|].
  split; [exact (idle_carries nx_sha true false nx_ship nx_cfB nxA2 nxB2 ax_A ax_B ax_AB)|]. split; [exact (idle_carries nx_sha false true nx_cfB nx_ship nxB2 nxA2 ax_B ax_A ax_BA)|]. exact ax_start.
Qed.

(** ** Assumptions *)

Print Assumptions C155_handshake.
