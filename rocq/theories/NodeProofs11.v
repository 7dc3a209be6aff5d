(** Life of connections and origin of addresses: an invariant of all histories. *)
From Coq Require Import String ZArith List Lia Bool.
From Verif Require Import PyBase PyVal FormatModel MessagesModel FormatSpec FormatProofs MessagesProofs
  NodeModel NodeProofs NodeProofs2 NodeProofs3 NodeProofs4 NodeProofs5 NodeProofs6 NodeProofs7 NodeProofs8 NodeProofs9 NodeProofs10.
Import ListNotations.
Open Scope string_scope.
Open Scope list_scope.
Open Scope Z_scope.

(** ** Specifications *)

(** [P before x] holds of every effect [x] and the effects before it. *)
Definition each (P : list action -> action -> Prop) (tr : list action) : Prop :=
  forall t1 x t2, tr = t1 ++ x :: t2 -> P t1 x.

Definition elements (v : pyval) : list pyval := match v with VList l | VTuple l => l | _ => [] end.
(** An addr message has announced the address [a] with this timestamp and these services. *)
Definition announced (tr : list action) (a : addr) (ts sv : pyval) : Prop :=
  exists i m v c fs, In (AMsg i m) tr /\ cmd m = "addr" /\ assoc "addr_list" (m_fields m) = Some v /\ In (VObj c fs) (elements v) /\
    assoc "address" fs = Some (VStr (fst a)) /\ assoc "port" fs = Some (VInt (snd a)) /\
    assoc "timestamp" fs = Some ts /\ assoc "services" fs = Some sv.
(** A peer with the address [a] has acknowledged our version; [sv] are the
    services of a version message of this peer, None if there was none. *)
Definition acknowledged (tr : list action) (a : addr) (sv : option pyval) : Prop :=
  exists i inc m, In (AConnect i a inc) tr /\ In (AMsg i m) tr /\ cmd m = "verack" /\
    match sv with
    | None => True
    | Some s => exists mv, In (AMsg i mv) tr /\ cmd mv = "version" /\ assoc "services" (m_fields mv) = Some s
    end.
Definition known (tr : list action) (a : addr) (e : pyval * option pyval) : Prop :=
  (exists sv, snd e = Some sv /\ announced tr a (fst e) sv) \/ acknowledged tr a (snd e).

(** Why a connection exists. *)
Definition reason (cf : config) (es : list event) (before : list action) (a : addr) (incoming : bool) : Prop :=
  if incoming then cf_listen cf = true /\ exists now e, In (EvAccept a now e) es
  else In a (cf_bootstrap cf) \/ (exists force e, In (EvAddPeer a force e) es) \/ exists e, known before a e.
Definition exists_conn (i : nat) (tr : list action) : Prop := exists a inc, In (AConnect i a inc) tr.
Definition live (i : nat) (tr : list action) : Prop := exists_conn i tr /\ ~ In (AClose i) tr.
(** No peer closes its end, and the application punishes nobody. *)
Definition tidy (es : list event) : Prop :=
  forall e, In e es -> match e with EvRead _ (RData []) _ _ | EvPunish _ _ => False | _ => True end.
(** What may happen after [before]. *)
Definition lawful (cf : config) (es : list event) (before : list action) (x : action) : Prop :=
  match x with
  | AConnect i a inc => reason cf es before a inc
  | ARecv i _ | AMsg i _ | AInvalid i _ _ | AParseError i _ _ | APing i _ => live i before
  | AWire i b => exists_conn i before /\ (b <> [] -> live i before)
  | AQueue i _ _ => exists_conn i before
  | AClose i => exists_conn i before /\ (tidy es -> live i before)
  | _ => True
  end.
(** The connections made, in order. *)
Definition connects (tr : list action) : list (nat * (addr * bool)) :=
  flat_map (fun x => match x with AConnect i a inc => [(i, (a, inc))] | _ => [] end) tr.

Lemma each_nil P : each P []. Proof. intros [|y t1] x t2 H; discriminate. Qed.
Lemma each_snoc P tr x : each P tr -> P tr x -> each P (tr ++ [x]).
Proof.
  intros H Hx t1 y t2 E. destruct (@exists_last _ (y :: t2)) as (l & z & Ez); [discriminate|]. rewrite Ez, app_assoc in E. apply app_inj_tail in E. destruct E as (E1 & E2). subst z.
  destruct l as [|y' l]; cbn in Ez.
  - injection Ez as -> ->. rewrite app_nil_r in E1. now subst.
  - injection Ez as <- ->. apply (H t1 y l). exact E1.
Qed.
Lemma each_app P a b : each P (a ++ b) -> each P a.
Proof. intros H t1 x t2 E. apply (H t1 x (t2 ++ b)). rewrite E, <- app_assoc. reflexivity. Qed.
Lemma announced_mono tr l a ts sv : announced tr a ts sv -> announced (tr ++ l) a ts sv.
Proof. intros (i & m & v & c & fs & H & R). exists i, m, v, c, fs. split; [apply in_or_app; now left|exact R]. Qed.
Lemma acknowledged_mono tr l a sv : acknowledged tr a sv -> acknowledged (tr ++ l) a sv.
Proof.
  intros (i & inc & m & H1 & H2 & H3 & H4). exists i, inc, m. repeat split; auto; try (apply in_or_app; now left).
  destruct sv; [|exact I]. destruct H4 as (mv & H & R). exists mv. split; [apply in_or_app; now left|exact R].
Qed.
Lemma known_mono tr l a e : known tr a e -> known (tr ++ l) a e.
Proof. intros [(sv & E & H)|H]; [left; exists sv; split; [exact E|now apply announced_mono]|right; now apply acknowledged_mono]. Qed.
Lemma connects_app a b : connects (a ++ b) = connects a ++ connects b. Proof. apply flat_map_app. Qed.
Lemma in_connects tr i a inc : In (AConnect i a inc) tr <-> In (i, (a, inc)) (connects tr).
Proof.
  unfold connects. rewrite in_flat_map. split.
  - intro H. exists (AConnect i a inc). split; [exact H|now left].
  - intros (x & H & K). destruct x; cbn in K; try (destruct K; fail). destruct K as [K|[]]. injection K as -> -> ->. exact H.
Qed.
Lemma registry_addr t : In t registry -> mt_name t = "address" -> mt_command t = "addr".
Proof.
  intros H. vm_compute in H. repeat (destruct H as [<-|H]; [cbn; intro X; try discriminate X; reflexivity|]). destruct H.
Qed.

Section Life.
Variable sha256 : bytes -> bytes.
Variable py2 : bool.
Variable cf : config.
Variable es : list event.

Definition ends (c : conn) : addr * bool := (c_address c, c_incoming c).
Record inv (n : node) : Prop := {
  iv_conns : connects (n_trace n) = combine (seq 0 (List.length (n_conns n))) (map ends (n_conns n));
  iv_closed : forall i, In (AClose i) (n_trace n) <-> exists c, get_conn i n = Some c /\ c_open c = false;
  iv_lawful : each (lawful cf es) (n_trace n);
  iv_services : forall i c sv, get_conn i n = Some c -> c_services c = Some sv ->
    exists m, In (AMsg i m) (n_trace n) /\ cmd m = "version" /\ assoc "services" (m_fields m) = Some sv;
  iv_book : forall a e, In (a, e) (n_book n) -> known (n_trace n) a e
}.

Lemma in_combine_seq {A} (l : list A) : forall k i x, In (i, x) (combine (seq k (List.length l)) l) <-> (k <= i)%nat /\ nth_error l (i - k) = Some x.
Proof.
  induction l as [|y l IH]; intros k i x; cbn [List.length seq combine In].
  - split; [intros []|]. intros (_ & H). destruct (i - k)%nat; discriminate.
  - rewrite IH. split.
    + intros [H|(H1 & H2)].
      * injection H as <- <-. split; [lia|]. rewrite Nat.sub_diag. reflexivity.
      * split; [lia|]. replace (i - k)%nat with (S (i - S k)) by lia. exact H2.
    + intros (H1 & H2). destruct (Nat.eq_dec i k) as [->|Hn].
      * left. rewrite Nat.sub_diag in H2. cbn in H2. congruence.
      * right. split; [lia|]. replace (i - k)%nat with (S (i - S k)) in H2 by lia. exact H2.
Qed.
Lemma inv_conn n i a inc : inv n -> In (AConnect i a inc) (n_trace n) <-> exists c, get_conn i n = Some c /\ ends c = (a, inc).
Proof.
  intro V. rewrite in_connects, (iv_conns n V).
  replace (seq 0 (List.length (n_conns n))) with (seq 0 (List.length (map ends (n_conns n)))) by now rewrite map_length.
  rewrite in_combine_seq, Nat.sub_0_r. unfold get_conn. split.
  - intros (_ & H). rewrite nth_error_map in H. destruct (nth_error (n_conns n) i) as [c|]; cbn in H; [|discriminate]. exists c. split; [reflexivity|congruence].
  - intros (c & H & E). split; [lia|]. rewrite nth_error_map, H. cbn. congruence.
Qed.
Lemma inv_exists n i c : inv n -> get_conn i n = Some c -> exists_conn i (n_trace n).
Proof. intros V G. exists (c_address c), (c_incoming c). apply (inv_conn n _ _ _ V). exists c. auto. Qed.
Lemma inv_live n i : inv n -> is_open i n = true -> live i (n_trace n).
Proof.
  intros V O. apply is_open_get in O. destruct O as (c & G & O). split; [now apply (inv_exists n i c)|].
  rewrite (iv_closed n V). intros (c' & G' & O'). congruence.
Qed.

(** ** Primitive updates *)
Lemma inv_same n n' : n_conns n' = n_conns n -> n_book n' = n_book n -> n_trace n' = n_trace n -> inv n -> inv n'.
Proof. intros E1 E2 E3 [A B C D F]. constructor; unfold get_conn in *; rewrite ?E1, ?E2, ?E3; assumption. Qed.
Definition plain (x : action) : Prop := match x with AConnect _ _ _ | AClose _ => False | _ => True end.
Lemma inv_emit x n : plain x -> lawful cf es (n_trace n) x -> inv n -> inv (emit x n).
Proof.
  intros P L [A B C D F]. unfold emit. constructor; cbn [n_trace n_conns n_book set_n_trace]; change (get_conn) with (fun i n => nth_error (n_conns n) i) in *; cbn beta in *; cbn [n_conns set_n_trace].
  - rewrite connects_app, A. destruct x; try destruct P; apply app_nil_r.
  - intro i. rewrite in_app_iff, B. split; [intros [H|[H|[]]]; [exact H|]|now left]. subst x. destruct P.
  - now apply each_snoc.
  - intros i c sv G E. destruct (D i c sv G E) as (m & H & R). exists m. split; [apply in_or_app; now left|exact R].
  - intros a e H. apply known_mono. now apply F.
Qed.
Lemma get_conn_upd_fields i f n : n_book (upd i f n) = n_book n /\ n_trace (upd i f n) = n_trace n. Proof. split; reflexivity. Qed.
Lemma inv_upd_gen i f n : (forall c, ends (f c) = ends c) -> (forall c, c_open (f c) = c_open c) ->
  (forall c sv, get_conn i n = Some c -> c_services (f c) = Some sv -> c_services c = Some sv \/
     exists m, In (AMsg i m) (n_trace n) /\ cmd m = "version" /\ assoc "services" (m_fields m) = Some sv) ->
  inv n -> inv (upd i f n).
Proof.
  intros H1 H2 H3 [A B C D F]. constructor; cbn [n_trace n_book upd set_n_conns]; try assumption.
  - change (n_conns (upd i f n)) with (upd_nth i f (n_conns n)). rewrite length_upd_nth, A. f_equal. clear - H1. generalize (n_conns n) as l. revert i. induction i as [|i IH]; intros [|c l]; cbn; try reflexivity; [now rewrite H1|]. now rewrite IH.
  - intro j. rewrite B. fold (upd i f n). rewrite get_upd. destruct (Nat.eqb i j); [|reflexivity]. destruct (get_conn j n) as [c|]; cbn [option_map].
    + split; intros (c' & E & O); [exists (f c); split; [reflexivity|]; rewrite H2; congruence|]. exists c. split; [reflexivity|]. injection E as <-. now rewrite H2 in O.
    + split; intros (c' & E & _); discriminate.
  - intros j c sv. fold (upd i f n). rewrite get_upd. destruct (Nat.eqb_spec i j) as [<-|Hne]; [|apply D]. destruct (get_conn i n) as [c0|] eqn:G; [|discriminate].
    cbn [option_map]. intros E S. assert (c = f c0) as -> by congruence. destruct (H3 c0 sv eq_refl S) as [H|H]; [|exact H]. now apply (D i c0).
Qed.
Lemma inv_upd i f n : (forall c, ends (f c) = ends c) -> (forall c, c_open (f c) = c_open c) -> (forall c, c_services (f c) = c_services c) -> inv n -> inv (upd i f n).
Proof. intros H1 H2 H3. apply inv_upd_gen; auto. intros c sv _ E. left. now rewrite <- H3. Qed.
Ltac keep := intros; reflexivity.
Lemma inv_queue n i m b : inv n -> inv (queue i m b n).
Proof.
  intro V. unfold queue. destruct (get_conn i n) as [c|] eqn:G; [|exact V]. apply inv_emit; [exact I| |].
  - cbn [lawful]. now apply (inv_exists n i c).
  - apply inv_upd; [keep..|exact V].
Qed.
Lemma book_del_in a b x : In x (book_del a b) -> In x b.
Proof. unfold book_del. rewrite filter_In. tauto. Qed.
Lemma inv_shut n i : (tidy es -> is_open i n = true) -> inv n -> inv (shut i n).
Proof.
  intros T V. unfold shut. destruct (get_conn i n) as [c|] eqn:G; [|exact V].
  assert (W : inv (emit (AClose i) (upd i (set_c_open false) n))).
  { assert (X : lawful cf es (n_trace n) (AClose i)) by (split; [now apply (inv_exists n i c)|intro; apply inv_live; auto]). destruct V as [A B C D F]. unfold emit. constructor; cbn [n_trace n_book set_n_trace upd set_n_conns].
    - change (n_conns (set_n_trace (n_trace n ++ [AClose i]) (upd i (set_c_open false) n))) with (upd_nth i (set_c_open false) (n_conns n)). rewrite connects_app, length_upd_nth, A, app_nil_r. f_equal. clear. generalize (n_conns n) as l. revert i. induction i as [|i IH]; intros [|c l]; cbn; try reflexivity. now rewrite IH.
    - intro j. rewrite in_app_iff, B. change (get_conn j (set_n_trace (n_trace n ++ [AClose i]) (upd i (set_c_open false) n))) with (get_conn j (upd i (set_c_open false) n)).
      rewrite get_upd. destruct (Nat.eqb_spec i j) as [<-|Hne].
      + rewrite G. cbn [option_map]. split; [intros _; exists (set_c_open false c); auto|]. intros _. right. now left.
      + split; [intros [H|[H|[]]]; [exact H|congruence]|now left].
    - apply each_snoc; [exact C|exact X].
    - intros j c' sv. change (get_conn j (set_n_trace (n_trace n ++ [AClose i]) (upd i (set_c_open false) n))) with (get_conn j (upd i (set_c_open false) n)).
      rewrite get_upd. intros Gj S. assert (exists c0, get_conn j n = Some c0 /\ c_services c0 = Some sv) as (c0 & G0 & S0).
      { destruct (Nat.eqb i j); [|eauto]. destruct (get_conn j n) as [c0|]; [|discriminate]. exists c0. split; [reflexivity|]. cbn [option_map] in Gj. injection Gj as <-. exact S. }
      destruct (D j c0 sv G0 S0) as (m & H & R). exists m. split; [apply in_or_app; now left|exact R].
    - intros a e H. apply known_mono. now apply F. }
  unfold disconnected. destruct (book_mem _ _); [|exact W]. destruct W as [A B C D F]. constructor; try assumption.
  cbn [n_book n_trace set_n_book]. intros a e H. apply book_del_in in H. now apply F.
Qed.
Lemma inv_register n a inc : reason cf es (n_trace n) a inc -> inv n -> inv (register a inc n).
Proof.
  intros Q [A B C D F]. set (k := List.length (n_conns n)).
  assert (N : get_conn k n = None) by (apply nth_error_None; unfold k; lia).
  assert (Gr := fun j => get_register j a inc n). 
  constructor.
  - unfold register, emit. cbn [n_trace n_conns set_n_trace set_n_conns]. rewrite connects_app, A, app_length, map_app. cbn [List.length map].
    rewrite Nat.add_1_r, seq_S. assert (X : List.length (seq 0 k) = List.length (map ends (n_conns n))) by now rewrite seq_length, map_length.
    unfold k in X. clear - X. revert X. generalize (seq 0 (List.length (n_conns n))) as s, (map ends (n_conns n)) as l. cbn [connects flat_map app].
    change (0 + List.length (n_conns n))%nat with (List.length (n_conns n)).
    induction s as [|x s IH]; intros [|y l] X; cbn in *; try discriminate; [reflexivity|]. f_equal. apply IH. congruence.
  - intro j. rewrite Gr. unfold register, emit. cbn [n_trace set_n_trace]. rewrite in_app_iff. cbn [In set_n_conns n_trace]. rewrite B. 
    destruct (Nat.eqb_spec j (List.length (n_conns n))) as [->|Hne].
    + split; [intros [(c & G & _)|[H|[]]]; [fold k in G; congruence|discriminate]|]. intros (c & G & O). injection G as <-. discriminate O.
    + split; [intros [H|[H|[]]]; [exact H|discriminate]|now left].
  - unfold register, emit. cbn [n_trace set_n_trace set_n_conns]. apply each_snoc; [exact C|exact Q].
  - intros j c sv. rewrite Gr. unfold register, emit. cbn [n_trace set_n_trace set_n_conns]. intros G S.
    destruct (Nat.eqb_spec j (List.length (n_conns n))) as [->|Hne]; [injection G as <-; discriminate S|].
    destruct (D j c sv G S) as (m & H & R). exists m. split; [apply in_or_app; now left|exact R].
  - unfold register, emit. cbn [n_trace n_book set_n_trace set_n_conns]. intros b e H. apply known_mono. now apply F.
Qed.
Lemma book_set_in a v b k w : In (k, w) (book_set a v b) -> In (k, w) b \/ k = a /\ w = v.
Proof.
  induction b as [|(k' & w') b IH]; cbn [book_set].
  - intros [H|[]]. injection H as <- <-. now right.
  - destruct (addr_eqb k' a) eqn:E; cbn [In].
    + intros [H|H]; [|left; now right]. injection H as <- <-. right. split; [now apply addr_eqb_eq|reflexivity].
    + intros [H|H]; [left; now left|]. destruct (IH H); [left; now right|now right].
Qed.
Lemma inv_learn n a v : known (n_trace n) a v -> inv n -> inv (set_n_book (book_set a v (n_book n)) n).
Proof.
  intros Q [A B C D F]. constructor; try assumption. cbn [n_book n_trace set_n_book]. intros b e H. apply book_set_in in H.
  destruct H as [H|(-> & ->)]; [now apply F|exact Q].
Qed.
Lemma inv_ext n : inv n -> inv (check_external_ip n).
Proof. unfold check_external_ip. destruct (count_votes _ _ _); [auto|]. apply inv_same; reflexivity. Qed.
Lemma inv_add n i : inv n -> inv (add_banscore i n).
Proof. unfold add_banscore. destruct (get_conn i n); [|auto]. apply inv_upd; keep. Qed.
Lemma inv_reduce n i : inv n -> inv (reduce_banscore i n).
Proof. unfold reduce_banscore. destruct (get_conn i n); [|auto]. apply inv_upd; keep. Qed.
Lemma inv_record n i now m : In (AMsg i m) (n_trace n) -> cmd m = "verack" -> inv n -> inv (record_peer i now n).
Proof.
  intros M C V. unfold record_peer. destruct (get_conn i n) as [c|] eqn:G; [|exact V]. destruct (_ <? _); [|exact V].
  apply inv_learn; [|exact V]. right. exists i, (c_incoming c), m. split; [apply (inv_conn n _ _ _ V); exists c; auto|].
  split; [exact M|]. split; [exact C|]. cbn [snd]. destruct (c_services c) as [sv|] eqn:S; [|exact I]. exact (iv_services n V i c sv G S).
Qed.

(** ** One message *)
(** The connection [i] is open and the message has been handed over. *)
Definition at_work (i : nat) (m : message) (n : node) : Prop := inv n /\ is_open i n = true /\ In (AMsg i m) (n_trace n).
Definition W (i : nat) (m : message) (n n' : node) : Prop := at_work i m n -> at_work i m n'.
Lemma W_refl i m n : W i m n n. Proof. exact (fun H => H). Qed.
Lemma W_trans i m a b c : W i m a b -> W i m b c -> W i m a c. Proof. unfold W. tauto. Qed.
Lemma W_gen i m n n' : (inv n -> In (AMsg i m) (n_trace n) -> inv n') -> (is_open i n = true -> is_open i n' = true) -> (exists l, n_trace n' = n_trace n ++ l) -> W i m n n'.
Proof. intros A B (l & E) (V & O & H). split; [auto|]. split; [auto|]. rewrite E. apply in_or_app. now left. Qed.
Lemma open_upd i f n : (forall c, c_open (f c) = c_open c) -> is_open i (upd i f n) = is_open i n.
Proof. intro H. unfold is_open. rewrite get_upd, Nat.eqb_refl. destruct (get_conn i n); cbn; [apply H|reflexivity]. Qed.
Lemma open_upd' i j f n : (forall c, c_open (f c) = c_open c) -> is_open i (upd j f n) = is_open i n.
Proof. intro H. unfold is_open. rewrite get_upd. destruct (Nat.eqb j i); [|reflexivity]. destruct (get_conn i n); cbn; [apply H|reflexivity]. Qed.
Lemma W_queue i m n j p b : W i m n (queue j p b n).
Proof.
  apply W_gen; [intros V _; now apply inv_queue| |]; unfold queue; destruct (get_conn j n) as [c|]; try (intro; assumption); try (exists []; now rewrite app_nil_r).
  - intro O. change (is_open i (emit (AQueue j p b) (upd j (set_c_send (c_send c ++ b)) n))) with (is_open i (upd j (set_c_send (c_send c ++ b)) n)). rewrite open_upd'; [exact O|keep].
  - exists [AQueue j p b]. reflexivity.
Qed.
Lemma W_send i m j p : presR (W i m) (send_message sha256 cf j p).
Proof. apply presR_send; [apply W_refl|]. intros. apply W_queue. Qed.
Lemma W_same i m n n' : n_conns n' = n_conns n -> n_book n' = n_book n -> n_trace n' = n_trace n -> W i m n n'.
Proof.
  intros E1 E2 E3. apply W_gen.
  - intros V _. now apply (inv_same n).
  - unfold is_open, get_conn. now rewrite E1.
  - exists []. now rewrite app_nil_r.
Qed.
Lemma W_note i m n a : inert a -> W i m n (emit a n).
Proof.
  intro H. apply W_gen; [|auto|exists [a]; reflexivity]. intros V _. apply inv_emit; [|  |exact V]; destruct a; try destruct H; exact I.
Qed.
Lemma W_learn i m v l : cmd m = "addr" -> assoc "addr_list" (m_fields m) = Some v -> incl l (elements v) -> presR (W i m) (learn_addresses l).
Proof.
  intros C E. induction l as [|x l IH]; intro L; cbn [learn_addresses]; [apply presR_ret, W_refl|].
  apply presR_get. intro n. destruct (zlen (n_book n) >? MAX_ADDRESSES); [apply W_refl|].
  unfold bindM at 1, liftM at 1. destruct (attr "address" x) as [av|] eqn:E1; [|apply W_refl].
  unfold bindM at 1, liftM at 1. destruct (as_text av) as [ip|] eqn:E2; [|apply W_refl].
  unfold bindM at 1, liftM at 1. destruct (attr "port" x) as [pv|] eqn:E3; [|apply W_refl].
  unfold bindM at 1, liftM at 1. destruct (as_int pv) as [port|] eqn:E4; [|apply W_refl].
  unfold bindM at 1, liftM at 1. destruct (attr "timestamp" x) as [ts|] eqn:E5; [|apply W_refl].
  unfold bindM at 1, liftM at 1. destruct (attr "services" x) as [sv|] eqn:E6; [|apply W_refl].
  unfold bindM at 1, modM at 1. cbv beta iota.
  apply (W_trans i m n (set_n_book (book_set (ip, port) (ts, Some sv) (n_book n)) n)); [|apply IH; intros y Hy; apply L; now right].
  apply W_gen; [|auto|exists []; now rewrite app_nil_r]. intros V M. apply inv_learn; [|exact V].
  assert (F : forall fs k y, field k fs = Ok y -> assoc k fs = Some y) by (intros fs k y; unfold field; destruct (assoc k fs); congruence).
  destruct x as [ | | | | | | | |cl fs| ]; cbn [attr] in *; try discriminate. apply F in E1, E3, E5, E6.
  destruct av; cbn [as_text] in E2; try discriminate. injection E2 as <-. destruct pv; cbn [as_int] in E4; try discriminate. injection E4 as <-.
  left. exists sv. split; [reflexivity|]. exists i, m, v, cl, fs. repeat split; auto. apply L. now left.
Qed.
Lemma W_got_version i m : cmd m = "version" -> presR (W i m) (got_version i m).
Proof.
  intro C. unfold got_version. cbv zeta.
  assert (B : forall A B (r : res A) (k : A -> M B), (forall a, r = Ok a -> presR (W i m) (k a)) -> presR (W i m) (bindM (liftM r) k)).
  { intros A B r k H n. unfold bindM, liftM. destruct r as [a|e]; [exact (H a eq_refl n)|apply W_refl]. }
  apply B. intros sv Esv. do 7 (apply B; intros ? _).
  apply presR_bind; [apply W_trans| |intros _; apply presR_mod; intro n].
  - apply presR_mod. intro n. apply W_gen; [|intro O; rewrite open_upd'; [exact O|keep]|exists []; symmetry; apply app_nil_r].
    intros V M. apply inv_upd_gen; [keep|keep| |exact V]. intros c s _ S. right. exists m. split; [exact M|]. split; [exact C|].
    assert (s = sv) as -> by (cbn in S; congruence). unfold field in Esv. destruct (assoc "services" (m_fields m)); congruence.
  - unfold check_external_ip. destruct (count_votes _ _ _); [apply W_refl|]. apply W_same; reflexivity.
Qed.
Lemma W_handle i m now data : msg_parse sha256 data (cf_magic cf) = Ok m -> presR (W i m) (handle_message sha256 py2 cf i m now).
Proof.
  intros P. pose proof (parsed_type sha256 _ _ _ P) as T. destruct (registry_names _ T) as (_ & _ & _ & N4 & _). pose proof (registry_addr _ T) as N5.
  unfold handle_message. cbv zeta. apply presR_bind; [apply W_trans| |].
  - destruct (String.eqb_spec (mt_command (m_type m)) "version") as [C|_]; [now apply W_got_version|].
    destruct (String.eqb_spec (mt_command (m_type m)) "verack") as [C|_]; [|apply presR_ret, W_refl].
    apply presR_mod. intro n. apply W_gen; [|intro O; rewrite open_upd'; [exact O|keep]|exists []; symmetry; apply app_nil_r].
    intros V _. apply inv_upd; [keep..|exact V].
  - intros _. destruct (command sha256 py2 cf (mt_name (m_type m)) i m now) as [f|] eqn:E; [|apply presR_mod; intro; apply W_note; exact I].
    unfold command in E. 
    assert (Bl : forall (A B : Type) (r : res A) (k : A -> M B), (forall a, r = Ok a -> presR (W i m) (k a)) -> presR (W i m) (bindM (liftM r) k)).
    { intros A B r k H n. unfold bindM, liftM. destruct r as [a|e]; [exact (H a eq_refl n)|apply W_refl]. }
    destruct (String.eqb_spec (mt_name (m_type m)) "ping") as [_|_]; [injection E as <-; apply Bl; intros ? _; apply Bl; intros ? _; apply W_send|].
    destruct (String.eqb_spec (mt_name (m_type m)) "pong") as [_|_]; [injection E as <-; apply presR_ret, W_refl|].
    destruct (String.eqb_spec (mt_name (m_type m)) "version") as [_|_]; [injection E as <-; apply Bl; intros ? _; apply W_send|].
    destruct (String.eqb_spec (mt_name (m_type m)) "version_ack") as [C|_].
    { injection E as <-. apply presR_mod. intro n. apply W_gen.
      - intros V M. apply (inv_record n i now m M); [apply N4, C|exact V].
      - unfold record_peer. destruct (get_conn i n); [|auto]. destruct (_ <? _); auto.
      - exists []. rewrite app_nil_r. unfold record_peer. destruct (get_conn i n); [|reflexivity]. destruct (_ <? _); reflexivity. }
    destruct (String.eqb_spec (mt_name (m_type m)) "get_address") as [_|_].
    { injection E as <-. apply presR_get. intro n. match goal with |- W i m n (fst (?f n)) => assert (presR (W i m) f) as X; [|apply X] end. apply Bl. intros ? _. apply W_send. }
    destruct (String.eqb_spec (mt_name (m_type m)) "address") as [C|_]; [|discriminate]. injection E as <-. apply Bl. intros v Ev.
    assert (assoc "addr_list" (m_fields m) = Some v) as Ea by (unfold field in Ev; destruct (assoc "addr_list" (m_fields m)); congruence).
    destruct v; try (apply presR_raise; apply W_refl); eapply W_learn; try exact Ea; try (now apply N5); apply incl_refl.
Qed.

(** ** Reading *)
Definition RL (i : nat) (n n' : node) : Prop := inv n /\ is_open i n = true -> inv n' /\ is_open i n' = true.
Lemma RL_refl i n : RL i n n. Proof. exact (fun H => H). Qed.
Lemma RL_trans i a b c : RL i a b -> RL i b c -> RL i a c. Proof. unfold RL. tauto. Qed.
Lemma RL_emit i n x : plain x -> (live i (n_trace n) -> lawful cf es (n_trace n) x) -> RL i n (emit x n).
Proof. intros P L (V & O). split; [|exact O]. apply inv_emit; [exact P| |exact V]. apply L. now apply inv_live. Qed.
Lemma RL_frame i payload now : presR (RL i) (handle_frame sha256 py2 cf i payload now).
Proof.
  intro n. unfold handle_frame. destruct (msg_parse sha256 payload (cf_magic cf)) as [m|e] eqn:P.
  - unfold bindM at 1, modM at 1. cbv beta iota. intros H.
    assert (at_work i m (emit (AMsg i m) n)) as A.
    { destruct H as (V & O). split; [|split; [exact O|]].
      - apply inv_emit; [exact I| |exact V]. cbn [lawful]. now apply inv_live.
      - unfold emit. cbn [n_trace set_n_trace]. apply in_or_app. right. now left. }
    pose proof (W_handle i m now payload P (emit (AMsg i m) n) A) as X.
    unfold tryM. destruct (handle_message sha256 py2 cf i m now (emit (AMsg i m) n)) as (n' & [u|x]); cbn [fst] in *; [destruct X as (X & Y & _); auto|].
    assert (inert (if is_invalid x then AHandlerInvalid i payload x else AHandlerError i x)) as Q by (destruct (is_invalid x); exact I).
    destruct (W_note i m n' _ Q X) as (X' & Y' & _). auto.
  - apply RL_emit; destruct (is_invalid e); try exact I; cbn [lawful]; auto.
Qed.
Lemma RL_upd i f n : (forall c, ends (f c) = ends c) -> (forall c, c_open (f c) = c_open c) -> (forall c, c_services (f c) = c_services c) -> RL i n (upd i f n).
Proof. intros A B C (V & O). split; [now apply inv_upd|]. now rewrite open_upd. Qed.
Lemma RL_loop fuel : forall i clock, presR (RL i) (read_loop sha256 py2 cf fuel i clock).
Proof.
  induction fuel as [|k IH]; intros i clock; cbn [read_loop]; [apply presR_ret, RL_refl|]. apply presR_get. intro n.
  destruct (get_conn i n) as [c|]; [|apply RL_refl]. destruct (first_msg_len (c_recv c)) as [len|]; [|apply RL_refl]. destruct (_ >? _); [apply RL_refl|]. cbv zeta.
  match goal with |- RL i n (fst (?m n)) => assert (presR (RL i) m) as K; [|apply K] end.
  apply presR_bind; [apply RL_trans|apply presR_mod; intro; apply RL_upd; keep|]. intros _. apply presR_bind; [apply RL_trans|apply RL_frame|]. intros _. apply IH.
Qed.
Definition J (n n' : node) : Prop := inv n -> inv n'.
Lemma J_refl n : J n n. Proof. exact (fun H => H). Qed.
Lemma J_trans a b c : J a b -> J b c -> J a c. Proof. unfold J. tauto. Qed.
Lemma J_shut n i : (tidy es -> is_open i n = true) -> J n (shut i n). Proof. intros T V. now apply inv_shut. Qed.
Lemma J_queue n i m b : msg_binary sha256 m (cf_magic cf) = Ok b -> J n (queue i m b n). Proof. intros _ V. now apply inv_queue. Qed.
Notation pres := (presR J).
Lemma pJ_ret {A} (a : A) : pres (retM a). Proof. apply presR_ret. exact J_refl. Qed.
Lemma pJ_raise {A} e : pres (@raiseM A e). Proof. apply presR_raise. exact J_refl. Qed.
Lemma pJ_bind {A B} (m : M A) (k : A -> M B) : pres m -> (forall a, pres (k a)) -> pres (bindM m k). Proof. apply presR_bind. exact J_trans. Qed.
Lemma pJ_lift {A} (r : res A) : pres (liftM r). Proof. apply presR_lift. exact J_refl. Qed.
Lemma pJ_send i m : pres (send_message sha256 cf i m). Proof. apply presR_send; [exact J_refl|exact J_queue]. Qed.
Lemma J_read i r now clock n : In (EvRead i r now clock) es -> is_open i n = true -> J n (fst (handle_read sha256 py2 cf i r now clock n)).
Proof.
  intros Hin O. destruct r as [[|x ch]|]; cbn [handle_read].
  - apply (J_trans n (shut i n)); apply J_shut; [intros _; exact O|]. intro T. destruct (T _ Hin).
  - intro V. match goal with |- inv (fst (?m n)) => assert (RL i n (fst (m n))) as K; [|apply K; auto] end.
    clear V O. match goal with |- RL i n (fst (?m n)) => assert (presR (RL i) m) as K; [|apply K] end.
    apply presR_bind; [apply RL_trans| |intros _; apply presR_get; intro n0; destruct (get_conn i n0); [apply RL_loop|apply RL_refl]].
    apply presR_mod. intro n0. unfold received. destruct (get_conn i n0) as [c|] eqn:E; [|apply RL_refl].
    intros (V & O). pose proof (inv_live n0 i V O) as L. split.
    + apply inv_emit; [exact I|exact L|]. match goal with |- inv (set_n_rx ?y (upd i ?g n0)) => apply (inv_same (upd i g n0)); try reflexivity end. apply inv_upd; [keep..|exact V].
    + match goal with |- is_open i (emit _ (set_n_rx _ (upd i ?g n0))) = true => change (is_open i (upd i g n0) = true) end. rewrite open_upd; [exact O|keep].
  - apply J_shut. intros _. exact O.
Qed.
Lemma bind_life {A B} i (m : M A) (k : A -> M B) n : RL i n (fst (m n)) -> (forall a n', is_open i n' = true -> J n' (fst (k a n'))) -> inv n -> is_open i n = true -> inv (fst (bindM m k n)).
Proof.
  intros H1 H2 V O. destruct (H1 (conj V O)) as (V1 & O1). unfold bindM. destruct (m n) as (n' & [a|er]); cbn [fst] in *; [|exact V1]. exact (H2 a n' O1 V1).
Qed.
Lemma J_readable i now now2 nonce n : is_open i n = true -> J n (fst (readable sha256 cf i now now2 nonce n)).
Proof.
  intros O V. unfold readable. unfold bindM at 1, getM at 1. cbv beta iota. destruct (get_conn i n) as [c|]; [|exact V]. cbv zeta.
  match goal with |- inv (fst (bindM ?m ?k n)) => assert (RL i n (fst (m n)) /\ forall a n', is_open i n' = true -> J n' (fst (k a n'))) as (H1 & H2) end.
  { split.
    - destruct (_ && _); [|apply RL_refl]. match goal with |- RL i n (fst (?m n)) => assert (presR (RL i) m) as K; [|apply K] end.
      apply presR_bind; [apply RL_trans|apply presR_lift, RL_refl|]. intro m. apply presR_bind; [apply RL_trans| |intros _; apply presR_mod; intro n0].
      + apply presR_send; [apply RL_refl|]. intros n0 j p b _ (V0 & O0). split; [now apply inv_queue|]. unfold queue. destruct (get_conn j n0) as [cj|]; [|exact O0].
        change (is_open i (upd j (set_c_send (c_send cj ++ b)) n0) = true). rewrite open_upd'; [exact O0|keep].
      + unfold pinged. destruct (get_conn i n0); [|apply RL_refl]. apply (RL_trans i n0 (upd i (set_c_last_ping now2) n0)); [apply RL_upd; keep|]. apply RL_emit; [exact I|auto].
    - intros _ n' O'. destruct (_ && _); [|apply J_refl]. unfold bindM, handle_close, modM, retM. cbn [fst]. apply J_shut. intros _. exact O'. }
  exact (bind_life i _ _ n H1 H2 V O).
Qed.
Lemma inv_wrote i k now n : (is_open i n = true \/ k = 0) -> inv n -> inv (wrote i k now n).
Proof.
  intros H V. unfold wrote. destruct (get_conn i n) as [c|] eqn:G; [|exact V]. cbv zeta. apply inv_emit; [exact I| |].
  - cbn [lawful]. cbn [n_trace set_n_tx upd set_n_conns]. split; [now apply (inv_exists n i c)|]. intro B. destruct H as [O| -> ]; [now apply inv_live|].
    exfalso. apply B. rewrite Z.max_l by lia. destruct (c_send c); reflexivity.
  - match goal with |- inv (set_n_tx ?y (upd i ?g n)) => apply (inv_same (upd i g n)); try reflexivity end. apply inv_upd; [keep..|exact V].
Qed.
Lemma J_write i r now n : is_open i n = true -> J n (fst (handle_write i r now n)).
Proof.
  intros O V. destruct r; cbn [handle_write].
  - apply inv_wrote; auto.
  - unfold bindM, handle_close, modM. cbn [fst]. apply inv_wrote; [now right|]. apply inv_shut; auto.
  - apply inv_shut; auto.
Qed.

(** ** New connections *)
Lemma J_connect a inc e n : reason cf es (n_trace n) a inc -> J n (fst (new_connection sha256 cf a inc e n)).
Proof.
  intros Q V. unfold new_connection. unfold bindM at 1, getM at 1. cbv beta iota zeta. unfold bindM at 1, modM at 1. cbv beta iota.
  pose proof (inv_register n a inc Q V) as V1.
  assert (O : is_open (List.length (n_conns n)) (register a inc n) = true) by (unfold is_open; rewrite get_register, Nat.eqb_refl; reflexivity).
  revert V1 O. generalize (register a inc n) as n1. intros n1 V1 O. destruct (_ && _).
  { unfold bindM, handle_close, modM, raiseM. cbn [fst]. apply inv_shut; auto. }
  revert V1. clear O. match goal with |- inv n1 -> inv (fst (?m n1)) => assert (pres m) as K; [|apply K] end.
  apply presR_get. intro n2. match goal with |- J n2 (fst (?m n2)) => assert (pres m) as K; [|apply K] end. apply pJ_bind; [apply pJ_lift|intro; apply pJ_send].
Qed.
Lemma J_add_peer a force e n : reason cf es (n_trace n) a false -> J n (fst (add_peer sha256 cf a force e n)).
Proof.
  intros Q. unfold add_peer. unfold bindM at 1, getM at 1. cbv beta iota. destruct (_ && _); [apply J_refl|]. destruct (address_in_use cf a n); [apply J_refl|].
  pose proof (J_connect a false e n Q) as X. unfold tryM, bindM. destruct (new_connection sha256 cf a false e n) as (n' & [u|x]); exact X.
Qed.
Lemma pJ_add_any e : pres (add_any_peer sha256 cf e).
Proof.
  unfold add_any_peer. apply presR_get. intro n.
  assert (Y : forall a force x, (inv n -> reason cf es (n_trace n) a false) -> J n (fst ((do! _ := add_peer sha256 cf a force x in retM tt) n))).
  { intros a force x Q V. pose proof (J_add_peer a force x n (Q V) V) as X. unfold bindM. destruct (add_peer sha256 cf a force x n) as (n' & [u|y]); exact X. }
  destruct (_ || _).
  - destruct (cf_bootstrap cf) as [|s l] eqn:B; [apply J_refl|]. cbv zeta. apply Y. intros _. left. rewrite B. apply nth_In. apply Nat.mod_upper_bound. discriminate.
  - cbv zeta. destruct (find _ (n_book n)) as [(a & v)|] eqn:F; [|apply J_refl]. apply Y. intro V. right. right. exists v. apply (iv_book n V). apply find_some in F. exact (proj1 F).
Qed.
Lemma pJ_items now envs pick : pres (items sha256 cf now envs pick).
Proof.
  unfold items. apply presR_get. intro n. destruct (_ >? _); [|apply J_refl]. match goal with |- J n (fst (?m n)) => assert (pres m) as K; [|apply K] end.
  apply pJ_bind.
  { apply presR_mod. intros n0 V. unfold beat. apply inv_emit; [exact I|exact I|]. apply (inv_same n0); try reflexivity. exact V. }
  intros _. unfold heartbeat. apply presR_get. intro n1. cbv zeta.
  match goal with |- J n1 (fst (?m n1)) => assert (pres m) as K; [|apply K] end.
  apply pJ_bind; [apply presR_for; [exact J_refl|exact J_trans|intro; apply pJ_add_any]|]. intros _. apply presR_get. intro n2. match goal with |- J n2 (fst (?m n2)) => assert (pres m) as K; [|apply K] end.
  apply pJ_bind.
  - destruct (peers n1); [apply pJ_ret|]. destruct (_ <? _); [|apply pJ_ret]. apply pJ_bind; [apply pJ_lift|intro; apply pJ_send].
  - intros _. apply presR_for; [exact J_refl|exact J_trans|]. intro. apply presR_mod. intros n3 V. now apply inv_reduce.
Qed.
Lemma J_accept a now e n : (exists now e, In (EvAccept a now e) es) -> J n (fst (handle_accept sha256 cf a now e n)).
Proof.
  intro Q. unfold handle_accept. unfold bindM at 1, getM at 1. cbv beta iota zeta.
  match goal with |- context [if negb (cf_listen cf) then ?x else ?y] => set (admit := if negb (cf_listen cf) then x else y) end.
  assert (pres admit) as Ha.
  { unfold admit. destruct (cf_listen cf) eqn:L; cbn [negb].
    - apply presR_try; [exact J_trans| |].
      + intro n0. apply J_connect. split; [exact L|exact Q].
      + intro. apply presR_mod. intros n0 V. apply (inv_same n0); try reflexivity. exact V.
    - apply presR_mod. intros n0 V. apply inv_emit; [exact I|exact I|exact V]. }
  destruct (ban_lookup (KAddr a) (n_banned n)) as [t|]; [|apply Ha]. destruct (_ <? _); [intro V; apply inv_emit; [exact I|exact I|exact V]|].
  match goal with |- J n (fst (?m n)) => assert (pres m) as K; [|apply K] end. apply pJ_bind; [|intros _; exact Ha]. apply presR_mod. intros n0 V. apply (inv_same n0); try reflexivity. exact V.
Qed.
Lemma find_peer_in a n ps i : find_peer a n ps = Some i -> In i ps.
Proof.
  induction ps as [|j ps IH]; cbn [find_peer]; [discriminate|]. destruct (get_conn j n) as [c|]; [|right; auto].
  destruct (addr_eqb (c_address c) a); [|right; auto]. intro H. injection H as ->. now left.
Qed.
Lemma J_step n e : In e es -> J n (step sha256 py2 cf n e).
Proof.
  intro Hin. destruct e; cbn [step]; unfold run.
  - apply pJ_items.
  - destruct (is_open i n) eqn:O; [now apply J_readable|apply J_refl].
  - destruct (is_open i n) eqn:O; [apply J_read; assumption|apply J_refl].
  - destruct (is_open i n) eqn:O; [now apply J_write|apply J_refl].
  - destruct (is_open i n) eqn:O; [|apply J_refl]. apply J_shut. intros _. exact O.
  - destruct (n_listener n); [|apply J_refl]. apply J_accept. eauto.
  - apply J_add_peer. right. left. eauto.
  - unfold remove_peer. unfold bindM, getM. cbv beta iota. destruct (find_peer a n (peers n)) as [i|] eqn:F; [|apply J_refl]. apply J_shut. intros _.
    apply peers_in. apply find_peer_in in F. exact F.
  - apply (presR_punish J J_refl J_trans); [intros n0 j; apply J_shut; intro T; destruct (T _ Hin)|intros n0 j V; now apply inv_add|]. intros n0 j c t _ _ V. unfold ban. apply inv_emit; [exact I|exact I|]. apply (inv_same n0); try reflexivity. exact V.
  - apply pJ_send.
Qed.
End Life.

Theorem history_inv_life sha256 py2 cf es : inv cf es (history sha256 py2 cf es).
Proof.
  unfold history. assert (inv cf es (init_node cf)) as H0.
  { constructor; cbn.
    - reflexivity.
    - intro i. split; [intros []|]. intros (c & G & _). unfold get_conn in G. cbn in G. destruct i; discriminate.
    - apply each_nil.
    - intros i c sv G. unfold get_conn in G. cbn in G. destruct i; discriminate.
    - intros a e []. }
  assert (X : forall l, incl l es -> forall n, inv cf es n -> inv cf es (fold_left (step sha256 py2 cf) l n)).
  { induction l as [|e l IH]; intros Hl n V; cbn [fold_left]; [exact V|]. apply IH; [intros x Hx; apply Hl; now right|]. apply J_step; [apply Hl; now left|exact V]. }
  apply X; [apply incl_refl|exact H0].
Qed.
