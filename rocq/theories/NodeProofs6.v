(** The connection budget, the external IP vote and the getaddr reply. *)
From Coq Require Import String ZArith List Lia Bool Permutation Sorting.Sorted.
From Verif Require Import PyBase PyVal FormatModel MessagesModel NodeModel NodeProofs NodeProofs2 NodeProofs3 NodeProofs4 NodeProofs5.
Import ListNotations.
Open Scope string_scope.
Open Scope list_scope.
Open Scope Z_scope.

(** ** Sorting *)
Section Sort.
Context {A : Type}.
Variable leb : A -> A -> bool.
Hypothesis total : forall x y, leb x y = true \/ leb y x = true.
Hypothesis trans : forall x y z, leb x y = true -> leb y z = true -> leb x z = true.
Lemma insert_perm x l : Permutation (x :: l) (insert_by leb x l).
Proof.
  induction l as [|y l IH]; cbn; [reflexivity|]. destruct (leb x y); [reflexivity|].
  rewrite perm_swap. now apply perm_skip.
Qed.
Lemma sort_perm l : Permutation l (sort_by leb l).
Proof. induction l as [|x l IH]; cbn; [reflexivity|]. rewrite <- insert_perm. now apply perm_skip. Qed.
Lemma insert_sorted x l : StronglySorted (fun a b => leb a b = true) l -> StronglySorted (fun a b => leb a b = true) (insert_by leb x l).
Proof.
  induction 1 as [|y l S IH F]; cbn; [repeat constructor|]. destruct (leb x y) eqn:E.
  - constructor; [now constructor|]. constructor; [exact E|]. eapply Forall_impl; [|exact F]. cbv beta. intros z Hz. eauto.
  - constructor; [exact IH|]. rewrite <- (insert_perm x l). constructor; [|exact F]. destruct (total x y); congruence.
Qed.
Lemma sort_sorted l : StronglySorted (fun a b => leb a b = true) (sort_by leb l).
Proof. induction l as [|x l IH]; cbn; [constructor|]. now apply insert_sorted. Qed.
Lemma sorted_last l d x : StronglySorted (fun a b => leb a b = true) l -> In x l -> leb x (last l d) = true.
Proof.
  intro S. revert x. induction S as [|y l S IH F]; intros x Hx; [destruct Hx|]. destruct l as [|z l].
  - destruct Hx as [<-|[]]. cbn. destruct (total y y); assumption.
  - change (last (y :: z :: l) d) with (last (z :: l) d). destruct Hx as [<-|Hx]; [|auto].
    inversion F; subst. eapply trans; [eassumption|]. apply IH. now left.
Qed.
Lemma in_last (l : list A) d : l <> [] -> In (last l d) l.
Proof.
  induction l as [|x [|y l] IH]; intro H; [contradiction|now left|]. right. change (last (x :: y :: l) d) with (last (y :: l) d). apply IH. discriminate.
Qed.
Lemma sort_last l d : l <> [] -> In (last (sort_by leb l) d) l /\ forall x, In x l -> leb x (last (sort_by leb l) d) = true.
Proof.
  intro H. assert (sort_by leb l <> []) as N. { intro E. pose proof (sort_perm l) as P. rewrite E in P. apply Permutation_sym, Permutation_nil in P. contradiction. }
  split.
  - eapply Permutation_in; [apply Permutation_sym, sort_perm|]. now apply in_last.
  - intros x Hx. apply sorted_last; [apply sort_sorted|]. eapply Permutation_in; [apply sort_perm|exact Hx].
Qed.
End Sort.

Lemma text_leb_total a : forall b, text_leb a b = true \/ text_leb b a = true.
Proof.
  induction a as [|x a IH]; intros [|y b]; cbn; auto. destruct (Z.ltb_spec x y), (Z.eqb_spec x y), (Z.ltb_spec y x), (Z.eqb_spec y x); cbn; auto; lia.
Qed.
Lemma text_leb_trans a : forall b c, text_leb a b = true -> text_leb b c = true -> text_leb a c = true.
Proof.
  induction a as [|x a IH]; intros [|y b] [|z c]; cbn; auto; try discriminate.
  rewrite !orb_true_iff, !andb_true_iff, !Z.ltb_lt, !Z.eqb_eq. intros [H|(-> & H)] [K|(-> & K)]; [left; lia|now left|now left|right; eauto].
Qed.
Lemma text_leb_antisym a : forall b, text_leb a b = true -> text_leb b a = true -> a = b.
Proof.
  induction a as [|x a IH]; intros [|y b]; cbn; try discriminate; [reflexivity|].
  rewrite !orb_true_iff, !andb_true_iff, !Z.ltb_lt, !Z.eqb_eq. intros [H|(-> & H)] [K|(E & K)]; try lia. f_equal. auto.
Qed.
Lemma vote_leb_total x y : vote_leb x y = true \/ vote_leb y x = true.
Proof.
  unfold vote_leb. destruct x as (u & a), y as (v & b). cbn [fst snd].
  destruct (Z.ltb_spec u v), (Z.eqb_spec u v), (Z.ltb_spec v u), (Z.eqb_spec v u); cbn; auto; try lia. apply text_leb_total.
Qed.
Lemma vote_leb_trans x y z : vote_leb x y = true -> vote_leb y z = true -> vote_leb x z = true.
Proof.
  unfold vote_leb. destruct x as (u & a), y as (v & b), z as (w & c). cbn [fst snd]. rewrite !orb_true_iff, !andb_true_iff, !Z.ltb_lt, !Z.eqb_eq.
  intros [H|(-> & H)] [K|(-> & K)]; [left; lia|now left|now left|right; split; [reflexivity|eapply text_leb_trans; eassumption]].
Qed.

(** ** Votes *)
(** Does connection [i] report the address [a]? *)
Definition reports (n : node) (a : text) (i : nat) : bool :=
  match get_conn i n with
  | Some c => match c_external_ip c with Some b => bytes_eqb b a | None => false end
  | None => false
  end.
Definition votes (n : node) (a : text) : Z := zlen (filter (reports n a) (peers n)).
Fixpoint tally (a : text) (l : list (text * Z)) : Z :=
  match l with [] => 0 | (k, v) :: r => (if bytes_eqb k a then v else 0) + tally a r end.
Lemma tally_incr a b l : tally a (count_incr b l) = tally a l + (if bytes_eqb b a then 1 else 0).
Proof.
  induction l as [|(k & v) l IH]; cbn [count_incr tally]; [lia|]. destruct (bytes_eqb_spec k b) as [->|]; cbn [tally]; [destruct (bytes_eqb b a); lia|rewrite IH; lia].
Qed.
Definition counter_ok (l : list (text * Z)) : Prop := NoDup (map fst l) /\ Forall (fun kv => 0 < snd kv) l.
Lemma incr_keys b l x : In x (map fst (count_incr b l)) <-> x = b \/ In x (map fst l).
Proof.
  induction l as [|(k & v) l IH]; cbn [count_incr map fst]; [cbn; intuition|]. destruct (bytes_eqb_spec k b) as [->|]; cbn [map fst]; [cbn; intuition|].
  cbn. rewrite IH. intuition.
Qed.
Lemma counter_incr b l : counter_ok l -> counter_ok (count_incr b l).
Proof.
  intros (N & P). induction l as [|(k & v) l IH]; cbn [count_incr].
  - split; [constructor; [easy|constructor]|constructor; [cbn; lia|constructor]].
  - cbn [map fst] in N. apply NoDup_cons_iff in N. destruct N as (Nk & N). apply Forall_cons_iff in P. destruct P as (Pk & P). cbn in Pk.
    destruct (bytes_eqb_spec k b) as [->|Nb].
    + split; [cbn [map fst]; now constructor|constructor; [cbn; lia|exact P]].
    + destruct (IH N P) as (N' & P'). split; [|constructor; [exact Pk|exact P']]. cbn [map fst]. constructor; [|exact N'].
      rewrite incr_keys. intros [->|H]; [now apply Nb|contradiction].
Qed.
Lemma tally_in l a v : NoDup (map fst l) -> In (a, v) l -> tally a l = v.
Proof.
  assert (forall l, ~ In a (map fst l) -> tally a l = 0) as Z0.
  { clear. induction l as [|(k & v) l IH]; cbn; intro H; [reflexivity|]. destruct (bytes_eqb_spec k a) as [->|]; [exfalso; auto|]. rewrite IH; auto. }
  induction l as [|(k & w) l IH]; intros N H; [destruct H|]. cbn [map fst] in N. apply NoDup_cons_iff in N. destruct N as (Nk & N). cbn [tally].
  destruct H as [H|H].
  - injection H as -> ->. rewrite bytes_eqb_refl, Z0 by assumption. lia.
  - rewrite (IH N H). destruct (bytes_eqb_spec k a) as [->|]; [|lia]. exfalso. apply Nk. apply in_map_iff. now exists (a, v).
Qed.
Lemma tally_key l a : Forall (fun kv => 0 < snd kv) l -> tally a l > 0 -> In (a, tally a l) l \/ exists v, In (a, v) l.
Proof.
  intros P. induction P as [|(k & v) l Pk P IH]; cbn [tally]; [lia|]. destruct (bytes_eqb_spec k a) as [->|].
  - intros _. right. exists v. now left.
  - intro H. destruct IH as [H'|(w & H')]; [lia|right; eexists; right; exact H'|right; exists w; now right].
Qed.
Lemma count_votes_spec n ps : forall l a, tally a (count_votes n ps l) = tally a l + zlen (filter (reports n a) ps).
Proof.
  induction ps as [|i ps IH]; intros l a; cbn [count_votes filter]; [cbn; lia|]. rewrite IH. unfold reports at 2. destruct (get_conn i n) as [c|]; [|reflexivity].
  destruct (c_external_ip c) as [b|]; [|reflexivity]. rewrite tally_incr. destruct (bytes_eqb b a); unfold zlen; cbn [List.length]; lia.
Qed.
Lemma count_votes_ok n ps : forall l, counter_ok l -> counter_ok (count_votes n ps l).
Proof.
  induction ps as [|i ps IH]; intros l H; cbn [count_votes]; [exact H|]. apply IH. destruct (get_conn i n) as [c|]; [|exact H].
  destruct (c_external_ip c); [now apply counter_incr|exact H].
Qed.
(** [g] has a maximal number of votes, and is the largest among those. *)
Definition plurality (n : node) (g : text) : Prop :=
  0 < votes n g /\ forall a, votes n a <= votes n g /\ (votes n a = votes n g -> text_leb a g = true).
Lemma check_external_ip_spec n : (exists a, 0 < votes n a) -> plurality n (n_guessed_ip (check_external_ip n)).
Proof.
  intros (a0 & H0). unfold check_external_ip.
  pose proof (count_votes_ok n (peers n) [] (conj (NoDup_nil _) (Forall_nil _))) as (N & P).
  assert (forall a, tally a (count_votes n (peers n) []) = votes n a) as T by (intro a; rewrite count_votes_spec; cbn [tally]; unfold votes; lia).
  set (l := count_votes n (peers n) []) in *. destruct l as [|kv r] eqn:El; [specialize (T a0); cbn in T; lia|]. rewrite <- El in *. clear kv r El.
  cbn [n_guessed_ip set_n_guessed_ip].
  assert (map (fun kv : text * Z => (snd kv, fst kv)) l <> []) as Nn.
  { intro E. apply map_eq_nil in E. specialize (T a0). rewrite E in T. cbn in T. lia. }
  destruct (sort_last vote_leb vote_leb_total vote_leb_trans _ (0, []) Nn) as (Hi & Hm).
  destruct (last (sort_by vote_leb (map (fun kv : text * Z => (snd kv, fst kv)) l)) (0, [])) as (v & g). cbn [snd].
  apply in_map_iff in Hi. destruct Hi as ((g' & v') & E & Hi). cbn in E. injection E as -> ->.
  pose proof (tally_in l g v N Hi) as Tg. rewrite T in Tg.
  assert (0 < v) as Pv by (rewrite Forall_forall in P; exact (P _ Hi)).
  split; [lia|]. intro a. destruct (Z_le_gt_dec (votes n a) 0) as [L|L].
  - split; [lia|]. lia.
  - rewrite <- T in L. assert (exists w, In (a, w) l) as (w & Hw) by (destruct (tally_key l a P L) as [|]; eauto).
    pose proof (tally_in l a w N Hw) as Ta. rewrite T in Ta.
    assert (vote_leb (w, a) (v, g) = true) as Hl by (apply Hm, in_map_iff; now exists (a, w)).
    unfold vote_leb in Hl. cbn [fst snd] in Hl. rewrite orb_true_iff, andb_true_iff, Z.ltb_lt, Z.eqb_eq in Hl. destruct Hl as [Hl|(Hl & Ht)].
    + split; lia.
    + split; [lia|auto].
Qed.
Lemma plurality_unique n g h : plurality n g -> plurality n h -> g = h.
Proof.
  intros (_ & G) (_ & H). destruct (G h) as (G1 & G2), (H g) as (H1 & H2). apply text_leb_antisym; [apply H2; lia|apply G2; lia].
Qed.
Lemma votes_disjoint n a b : a <> b -> votes n a + votes n b <= zlen (peers n).
Proof.
  intro N. unfold votes, zlen. induction (peers n) as [|i l IH]; cbn [filter List.length]; [lia|].
  assert (reports n a i = true -> reports n b i = true -> False) as X.
  { unfold reports. destruct (get_conn i n); [|discriminate]. destruct (c_external_ip c) as [x|]; [|discriminate].
    destruct (bytes_eqb_spec x a), (bytes_eqb_spec x b); congruence. }
  destruct (reports n a i), (reports n b i); cbn [List.length]; try lia.
Qed.
Lemma majority_wins n a g : plurality n g -> zlen (peers n) < 2 * votes n a -> g = a.
Proof.
  intros (_ & H) M. destruct (bytes_eqb_spec g a) as [E|N]; [exact E|]. pose proof (votes_disjoint n g a N). destruct (H a) as (H1 & _). lia.
Qed.

(** ** The connection budget *)
Definition connects_of (tr : list action) : list (nat * addr) :=
  flat_map (fun a => match a with AConnect i x _ => [(i, x)] | _ => [] end) tr.
Definition within (k : Z) (n n' : node) : Prop :=
  zlen (connects_of (n_trace n')) <= zlen (connects_of (n_trace n)) + k /\ zlen (peers n') <= zlen (peers n) + k /\ n_listener n' = n_listener n.
Lemma within_refl n : within 0 n n. Proof. unfold within. split; [lia|]. split; [lia|reflexivity]. Qed.
Lemma within_trans j k a b c : within j a b -> within k b c -> within (j + k) a c.
Proof. unfold within. intros (A1 & A2 & A3) (B1 & B2 & B3). repeat split; try lia. congruence. Qed.
Lemma within_mono j k a b : j <= k -> within j a b -> within k a b.
Proof. unfold within. intros H (A1 & A2 & A3). repeat split; try lia. congruence. Qed.
Lemma connects_app a b : connects_of (a ++ b) = connects_of a ++ connects_of b. Proof. apply flat_map_app. Qed.
Lemma peers_shrink n n' : (forall i, is_open i n' = true -> is_open i n = true) -> zlen (peers n') <= zlen (peers n).
Proof.
  intro H. unfold zlen. apply inj_le. apply NoDup_incl_length; [apply peers_nodup|]. intros i Hi. apply peers_in. apply H. now apply peers_in.
Qed.
Lemma within_emit a n : connects_of [a] = [] -> within 0 n (emit a n).
Proof.
  intro H. unfold within, emit. cbn [n_trace set_n_trace n_listener]. rewrite connects_app, H, app_nil_r.
  change (peers (set_n_trace ?t n)) with (peers n). split; [lia|]. split; [lia|reflexivity].
Qed.
Lemma within_upd i f n : (forall c, c_open (f c) = true -> c_open c = true) -> within 0 n (upd i f n).
Proof.
  intro H. unfold within. cbn [n_trace upd set_n_conns n_listener]. split; [lia|]. split; [|reflexivity].
  pose proof (peers_shrink n (upd i f n)) as P. cbn [upd set_n_conns] in P. rewrite Z.add_0_r. apply P. clear P. intros j O.
  apply is_open_get in O. destruct O as (c & G & O). change (set_n_conns (upd_nth i f (n_conns n)) n) with (upd i f n) in G. rewrite get_upd in G. apply is_open_get. destruct (Nat.eqb i j); [|eauto].
  destruct (get_conn j n) as [c0|]; [|discriminate]. cbn in G. injection G as <-. eauto.
Qed.
Lemma within_fields n n' : n_conns n' = n_conns n -> n_trace n' = n_trace n -> n_listener n' = n_listener n -> within 0 n n'.
Proof. intros H1 H2 H3. unfold within, peers. rewrite H1, H2, H3. split; [lia|]. split; [lia|reflexivity]. Qed.
Lemma within_queue n i m b : within 0 n (queue i m b n).
Proof.
  unfold queue. destruct (get_conn i n); [|apply within_refl]. apply (within_trans 0 0 n (upd i (set_c_send (c_send c ++ b)) n)); [|now apply within_emit].
  now apply within_upd.
Qed.
Lemma within_shut n i : within 0 n (shut i n).
Proof.
  unfold shut. destruct (get_conn i n); [|apply within_refl]. apply (within_trans 0 0 n (upd i (set_c_open false) n)); [apply within_upd; discriminate|].
  apply (within_trans 0 0 _ (emit (AClose i) (upd i (set_c_open false) n))); [now apply within_emit|].
  unfold disconnected. destruct (book_mem _ _); [now apply within_fields|apply within_refl].
Qed.
Lemma within_register n a inc : within 1 n (register a inc n).
Proof.
  unfold within. unfold register at 1 3. unfold emit. cbn [n_trace set_n_trace set_n_conns n_listener]. rewrite connects_app.
  split; [unfold zlen; rewrite app_length; cbn; lia|]. split; [|reflexivity].
  assert (incl (peers (register a inc n)) (List.length (n_conns n) :: peers n)) as H.
  { intros i Hi. apply peers_in, is_open_get in Hi. destruct Hi as (c & G & O). rewrite get_register in G.
    destruct (Nat.eqb_spec i (List.length (n_conns n))) as [->|]; [now left|]. right. apply peers_in, is_open_get. eauto. }
  apply NoDup_incl_length in H; [|apply peers_nodup]. unfold zlen. cbn [List.length] in H. lia.
Qed.
Section Budget.
Variable sha256 : bytes -> bytes.
Variable py2 : bool.
Variable cf : config.
Lemma within0_trans a b c : within 0 a b -> within 0 b c -> within 0 a c.
Proof. apply (within_trans 0 0). Qed.
Lemma within_new a inc e n : within 1 n (fst (new_connection sha256 cf a inc e n)).
Proof.
  unfold new_connection. unfold bindM at 1, getM at 1. cbv beta iota zeta.
  unfold bindM at 1, modM at 1. cbv beta iota.
  apply (within_trans 1 0 n (register a inc n)); [apply within_register|].
  set (n1 := register a inc n). set (i := List.length (n_conns n)).
  destruct (negb inc && negb (ce_ok e)).
  - apply within_shut.
  - unfold bindM at 1, getM at 1. cbv beta iota. unfold bindM, liftM. destruct (version_message _ _ _ _ _) as [m|]; [|apply within_refl].
    apply (presR_send sha256 cf (within 0)); [apply within_refl|]. intros. apply within_queue.
Qed.
Lemma add_peer_within a force e n : within 1 n (fst (add_peer sha256 cf a force e n)) /\
  (force = false -> cf_max_peers cf <= map_len n -> fst (add_peer sha256 cf a force e n) = n).
Proof.
  assert (fst (add_peer sha256 cf a force e n) =
    if negb force && (map_len n >=? cf_max_peers cf) then n else if address_in_use cf a n then n else fst (new_connection sha256 cf a false e n)) as ->.
  { unfold add_peer. unfold bindM at 1, getM at 1. cbv beta iota. destruct (_ && _); [reflexivity|]. destruct (address_in_use cf a n); [reflexivity|].
    unfold tryM, bindM. destruct (new_connection sha256 cf a false e n) as (n' & [[]|er]); reflexivity. }
  assert (within 1 n n) as R by (apply (within_mono 0); [lia|apply within_refl]).
  split.
  - destruct (_ && _); [exact R|]. destruct (address_in_use cf a n); [exact R|]. apply within_new.
  - intros -> L. cbn [negb andb]. destruct (Z.geb_spec (map_len n) (cf_max_peers cf)); [reflexivity|lia].
Qed.
Lemma add_any_within e n : within 1 n (fst (add_any_peer sha256 cf e n)).
Proof.
  unfold add_any_peer. unfold bindM at 1, getM at 1. cbv beta iota.
  assert (within 1 n n) as R by (apply (within_mono 0); [lia|apply within_refl]).
  destruct (_ || _).
  - destruct (cf_bootstrap cf) as [|s l]; [exact R|]. cbv zeta. unfold bindM.
    match goal with |- context [add_peer sha256 cf ?a ?f ?e n] => destruct (add_peer_within a f e n) as (W & _); destruct (add_peer sha256 cf a f e n) as (? & [|]) end; exact W.
  - cbv zeta. destruct (find _ _) as [(a & v)|]; [|exact R]. unfold bindM.
    match goal with |- context [add_peer sha256 cf ?a ?f ?e n] => destruct (add_peer_within a f e n) as (W & _); destruct (add_peer sha256 cf a f e n) as (? & [|]) end; exact W.
Qed.
Lemma attempts_within (envs : nat -> attempt_env) l : forall n, within (zlen l) n (fst (for_each l (fun k => add_any_peer sha256 cf (envs k)) n)).
Proof.
  induction l as [|k l IH]; intro n; [apply within_refl|]. cbn [for_each]. unfold bindM. pose proof (add_any_within (envs k) n) as W.
  destruct (add_any_peer sha256 cf (envs k) n) as (n' & [[]|er]); cbn [fst] in *; unfold zlen; cbn [List.length].
  - replace (Z.of_nat (S (List.length l))) with (1 + zlen l) by (unfold zlen; lia). eapply within_trans; [exact W|apply IH].
  - eapply within_mono; [|exact W]. lia.
Qed.
Lemma heartbeat_within envs pick n : within (Z.max 0 (Z.min (cf_seek_peers cf - zlen (peers n)) 5)) n (fst (heartbeat sha256 cf envs pick n)).
Proof.
  unfold heartbeat. unfold bindM at 1, getM at 1. cbv beta iota zeta.
  set (l := seq 0 (Z.to_nat (Z.min (cf_seek_peers cf - zlen (peers n)) 5))).
  assert (zlen l = Z.max 0 (Z.min (cf_seek_peers cf - zlen (peers n)) 5)) as <- by (unfold l, zlen; rewrite seq_length; lia).
  pose proof (attempts_within envs l n) as W. unfold bindM at 1. destruct (for_each l _ n) as (n1 & [[]|er]); cbn [fst] in W; [|exact W].
  unfold bindM at 1, getM at 1. cbv beta iota.
  replace (zlen l) with (zlen l + 0) by lia. eapply within_trans; [exact W|].
  match goal with |- within 0 n1 (fst (?m n1)) => assert (presR (within 0) m) as H; [|apply H] end.
  apply (presR_bind (within 0) within0_trans).
  - destruct (peers n); [intro; apply within_refl|]. destruct (zlen (n_book n1) <? 50); [|intro; apply within_refl].
    apply (presR_bind (within 0) within0_trans); [intro; apply within_refl|]. intro m. apply presR_send; [apply within_refl|]. intros. apply within_queue.
  - intros []. apply (presR_for (within 0) within_refl within0_trans). intro. apply presR_mod. intro n2. unfold reduce_banscore.
    destruct (get_conn x n2); [now apply within_upd|apply within_refl].
Qed.
End Budget.
