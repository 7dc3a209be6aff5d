(** C160: what malformed messages write to the log (nbc/node/basenode.py). *)
From Coq Require Import String ZArith List Lia Bool.
From Verif Require Import PyBase PyVal FormatModel MessagesModel MessagesProofs SeedModel PropsSeed NodeModel NodeProofs NodeProofs2 NodeProofs3 LogModel LineModel TextModel TextProofs ComplaintModel PropsNode PropsText.
Import ListNotations.
Open Scope string_scope.
Open Scope list_scope.
Open Scope Z_scope.

(** Printable characters of Latin-1. *)
Definition visible (c : Z) : Prop := 32 <= c <= 126 \/ 161 <= c <= 255 /\ c <> 173.
Lemma neat_visible t : neat t -> Forall visible t.
Proof. intro H. eapply Forall_impl; [|exact H]. intros c Hc. left. exact Hc. Qed.
Lemma wf_slice a b s : wf_bytes s -> wf_bytes (slice a b s).
Proof. intro W. unfold slice. apply Forall_ztake. now apply Forall_zdrop. Qed.
Lemma lstrip_sub s : exists p, s = p ++ lstrip0 s.
Proof. induction s as [|c r (p & IH)]; [now exists []|]. destruct c as [|c|c]; cbn [lstrip0]; [exists (0 :: p); cbn; now rewrite <- IH|now exists []|now exists []]. Qed.
Lemma strip_sub s : exists p q, s = p ++ strip0 s ++ q.
Proof.
  unfold strip0. destruct (lstrip_sub s) as (p & E). destruct (lstrip_sub (rev (lstrip0 s))) as (q & E2). exists p, (rev q).
  rewrite E at 1. f_equal. rewrite <- rev_app_distr, <- E2. now rewrite rev_involutive.
Qed.
Lemma strip_wf s : wf_bytes s -> wf_bytes (strip0 s).
Proof. destruct (strip_sub s) as (p & q & E). intro W. unfold wf_bytes in *. rewrite E in W. apply Forall_app in W. destruct W as (_ & W). apply Forall_app in W. tauto. Qed.
Lemma strip_len s : zlen (strip0 s) <= zlen s.
Proof. destruct (strip_sub s) as (p & q & E). rewrite E at 2. rewrite !zlen_app. pose proof (zlen_nonneg p). pose proof (zlen_nonneg q). lia. Qed.
Lemma slice_len a b (s : bytes) : 0 <= a <= b -> zlen (slice a b s) <= b - a.
Proof. intro H. unfold slice. rewrite ztake_firstn. unfold zlen. rewrite firstn_length. lia. Qed.

(** Lengths of [repr]s. *)
Lemma repr_byte_len q c : zlen (repr_byte q c) <= 4.
Proof. unfold repr_byte. repeat match goal with |- context [if ?b then _ else _] => destruct b end; unfold zlen; cbn; lia. Qed.
Lemma repr_char_len q c : zlen (repr_char q c) <= 4.
Proof. unfold repr_char. destruct (_ && _); [unfold zlen; cbn; lia|apply repr_byte_len]. Qed.
Lemma flat_len {A} (f : A -> bytes) l : (forall x, zlen (f x) <= 4) -> zlen (flat_map f l) <= 4 * zlen l.
Proof. intro H. induction l as [|x l IH]; [cbn; lia|]. cbn [flat_map]. rewrite zlen_app, zlen_cons. specialize (H x). lia. Qed.
Lemma repr_bytes_len b : zlen (repr_bytes b) <= 4 * zlen b + 3.
Proof. unfold repr_bytes. rewrite !zlen_cons, zlen_app. pose proof (flat_len (repr_byte (repr_quote b)) b (repr_byte_len _)). change (zlen [repr_quote b]) with 1. lia. Qed.
Lemma repr_of_len py2 b : zlen (repr_of py2 b) <= 4 * zlen b + 3.
Proof. pose proof (repr_bytes_len b) as H. unfold repr_of. destruct py2; [|exact H]. unfold repr_bytes in *. cbn [tl]. rewrite zlen_cons in H. lia. Qed.
Lemma repr_str_len py2 s : zlen (repr_str py2 s) <= 4 * zlen s + 3.
Proof.
  unfold repr_str. destruct py2.
  - pose proof (repr_bytes_len s) as H. unfold repr_bytes in *. cbn [tl]. rewrite zlen_cons in *. exact H.
  - cbv zeta. rewrite zlen_cons, zlen_app. pose proof (flat_len (repr_char (repr_quote s)) s (repr_char_len _)). change (zlen [repr_quote s]) with 1. lia.
Qed.
Lemma repr_str_neat s : wf_bytes s -> neat (repr_str true s).
Proof. intro W. unfold repr_str. apply neat_cons; [unfold printable; lia|]. exact (neat_repr_of true s W). Qed.
Lemma repr_str_visible py2 s : wf_bytes s -> Forall visible (repr_str py2 s).
Proof.
  intro W. destruct py2; [apply neat_visible; now apply repr_str_neat|]. unfold repr_str. cbv zeta. pose proof (repr_quote_cases s) as Q. set (q := repr_quote s) in *. clearbody q.
  assert (visible q) as Vq by (left; lia). constructor; [exact Vq|]. apply Forall_app. split; [|constructor; [exact Vq|constructor]].
  induction W as [|c r Hc _ IH]; [constructor|]. cbn [flat_map]. apply Forall_app. split; [|exact IH]. unfold repr_char.
  destruct ((161 <=? c) && (c <=? 255) && negb (c =? 173)) eqn:E; [|apply neat_visible; now apply neat_repr_byte].
  apply andb_prop in E. destruct E as (E & N). apply andb_prop in E. destruct E as (A & B). apply Z.leb_le in A, B. apply negb_true_iff, Z.eqb_neq in N. constructor; [right; lia|constructor].
Qed.

Section Complaints.
Variable sha256 : bytes -> bytes.
Variable py2 : bool.
Notation complaint := (complaint sha256 py2).
Notation invalid_line := (invalid_line sha256 py2).
Lemma complaint_visible data magic : wf_bytes data -> Forall visible (complaint data magic).
Proof.
  intro W. unfold ComplaintModel.complaint. destruct (negb _); [apply neat_visible, neatb_ok; reflexivity|]. destruct (struct_unpack _ _ _); [|constructor]. destruct (negb _); [apply neat_visible, neatb_ok; reflexivity|].
  repeat (apply Forall_app; split); try (apply neat_visible, neatb_ok; reflexivity).
  - apply repr_str_visible, strip_wf, wf_slice, W.
  - apply neat_visible. now apply neat_repr_of.
Qed.
Lemma complaint_len data magic : zlen (complaint data magic) <= 4 * zlen data + 66.
Proof.
  pose proof (zlen_nonneg data). unfold ComplaintModel.complaint. destruct (negb _); [change (zlen (bs "bad magic number")) with 16; lia|]. destruct (struct_unpack _ _ _); [|change (zlen (@nil Z)) with 0; lia]. destruct (negb _); [change (zlen (bs "bad checksum")) with 12; lia|].
  rewrite !zlen_app. pose proof (repr_str_len py2 (strip0 (slice 4 16 data))). pose proof (strip_len (slice 4 16 data)). pose proof (slice_len 4 16 data ltac:(lia)). pose proof (repr_of_len py2 data).
  change (zlen (bs "command: ")) with 9. change (zlen (bs " (")) with 2. change (zlen (bs ")")) with 1. lia.
Qed.
Lemma invalid_len data magic : zlen (invalid_line data magic) <= 8 * zlen data + 97.
Proof.
  unfold ComplaintModel.invalid_line, text_line. rewrite !zlen_app. pose proof (complaint_len data magic). pose proof (repr_of_len py2 data).
  change (zlen (bs "(")) with 1. change (zlen (bs "node")) with 4. change (zlen (bs ") ")) with 2. change (zlen (bs "invalid command: ")) with 17. change (zlen (bs " (")) with 2. change (zlen (bs ")")) with 1. change (zlen [10]) with 1. lia.
Qed.
End Complaints.

(** *** The theorems *)

(** Whatever a malformed message contains, it makes one line, of printable
    characters. *)
Theorem C160_one_line : forall sha256 py2 data magic, wf_bytes data ->
  exists line, invalid_line sha256 py2 data magic = line ++ [10] /\ Forall visible line.
Proof.
  intros sha py2 data magic W. exists (bs "(" ++ bs "node" ++ bs ") " ++ bs "invalid command: " ++ repr_of py2 data ++ bs " (" ++ complaint sha py2 data magic ++ bs ")"). split.
  - unfold invalid_line, text_line. now rewrite <- !app_assoc.
  - repeat (apply Forall_app; split); try (apply neat_visible, neatb_ok; reflexivity); [apply neat_visible; now apply neat_repr_of|now apply complaint_visible].
Qed.
(** On Python 2 these are ASCII characters. *)
Theorem C160_ascii_partial : forall sha256 data magic, wf_bytes data ->
  exists line, invalid_line sha256 true data magic = line ++ [10] /\ Forall (fun c => 32 <= c <= 126) line.
Proof.
  intros sha data magic W. exists (bs "(" ++ bs "node" ++ bs ") " ++ bs "invalid command: " ++ repr_of true data ++ bs " (" ++ complaint sha true data magic ++ bs ")"). split.
  - unfold invalid_line, text_line. now rewrite <- !app_assoc.
  - change (neat (bs "(" ++ bs "node" ++ bs ") " ++ bs "invalid command: " ++ repr_of true data ++ bs " (" ++ complaint sha true data magic ++ bs ")")).
    repeat (apply neat_app); try (apply neatb_ok; reflexivity); [now apply neat_repr_of|]. unfold complaint. destruct (negb _); [apply neatb_ok; reflexivity|]. destruct (struct_unpack _ _ _); [|constructor]. destruct (negb _); [apply neatb_ok; reflexivity|].
    repeat (apply neat_app); try (apply neatb_ok; reflexivity); [apply repr_str_neat, strip_wf, wf_slice, W|now apply neat_repr_of].
Qed.
(** The line tells every byte of the message. *)
Lemma flat_repr_pre q a b r s : q = 34 \/ q = 39 -> wf_bytes a -> wf_bytes b ->
  flat_map (repr_byte q) a ++ q :: r = flat_map (repr_byte q) b ++ q :: s -> a = b.
Proof.
  intros Q A. revert b. induction A as [|x a X A IH]; intros b B H.
  - destruct B as [|y b Y B]; [reflexivity|]. exfalso. cbn [flat_map app] in H. rewrite <- app_assoc in H. destruct (repr_byte_head q y Q) as (z & t & E & N). rewrite E in H. cbn in H. injection H. intros. lia.
  - destruct B as [|y b Y B].
    + exfalso. cbn [flat_map app] in H. rewrite <- app_assoc in H. destruct (repr_byte_head q x Q) as (z & t & E & N). rewrite E in H. cbn in H. injection H. intros. lia.
    + cbn [flat_map] in H. rewrite <- !app_assoc in H. apply repr_byte_inj in H; [|assumption|exact X|exact Y]. destruct H as (-> & H). f_equal. now apply IH.
Qed.
Theorem C160_tells : forall sha256 py2 data data' magic, wf_bytes data -> wf_bytes data' -> invalid_line sha256 py2 data magic = invalid_line sha256 py2 data' magic -> data = data'.
Proof.
  intros sha py2 data data' magic W W' H. unfold invalid_line, text_line in H. rewrite <- !app_assoc in H. do 4 apply app_inv_head in H.
  generalize dependent (bs " (" ++ complaint sha py2 data magic ++ bs ")" ++ [10]). generalize dependent (bs " (" ++ complaint sha py2 data' magic ++ bs ")" ++ [10]). intros r s H.
  unfold repr_of, repr_bytes in H. cbn [tl] in H. assert (repr_quote data = repr_quote data' /\ flat_map (repr_byte (repr_quote data)) data ++ repr_quote data :: s = flat_map (repr_byte (repr_quote data')) data' ++ repr_quote data' :: r) as (E & H').
  { destruct py2; cbn [app] in H; rewrite <- !app_assoc in H; cbn [app] in H; split; congruence. }
  rewrite E in H'. exact (flat_repr_pre _ _ _ _ _ (repr_quote_cases data') W W' H').
Qed.

(** Over the life of a node, the malformed messages of a connection write at
    most thirteen characters for each byte received on it. *)
Lemma invalid_outcomes sha py2 cf i fs : Forall is_frame fs -> zlen (invalid_lines sha py2 (cf_magic cf) i (map (outcome sha cf i) fs)) <= 13 * zlen (concat fs).
Proof.
  induction 1 as [|f fs (L & _) _ IH]; [cbn; lia|]. cbn [map concat]. rewrite zlen_app. unfold invalid_lines in *. cbn [flat_map]. rewrite zlen_app.
  assert (zlen (match outcome sha cf i f with AInvalid j data _ => if Nat.eqb j i then invalid_line sha py2 data (cf_magic cf) else [] | _ => [] end) <= 13 * zlen f); [|lia].
  pose proof (invalid_len sha py2 f (cf_magic cf)). unfold outcome. destruct (msg_parse sha f (cf_magic cf)); [change (zlen (@nil Z)) with 0; lia|]. destruct (is_invalid e); [rewrite Nat.eqb_refl; lia|change (zlen (@nil Z)) with 0; lia].
Qed.
Lemma invalid_frames sha py2 magic i tr : invalid_lines sha py2 magic i tr = invalid_lines sha py2 magic i (frames_of i tr).
Proof.
  unfold invalid_lines, frames_of. induction tr as [|a tr IH]; [reflexivity|]. cbn [flat_map filter]. rewrite IH. destruct a; try reflexivity; destruct (Nat.eqb i0 i) eqn:E; cbn [flat_map]; rewrite ?E; reflexivity.
Qed.
Theorem C160_bounded : forall sha256 py2 cf es i c, Forall wf_event es -> get_conn i (history sha256 py2 cf es) = Some c ->
  zlen (invalid_lines sha256 py2 (cf_magic cf) i (n_trace (history sha256 py2 cf es))) <= 13 * c_rx c.
Proof.
  intros sha py2 cf es i c W G. destruct (stream_inv_history sha py2 cf es W) as (I & _). specialize (I i). rewrite G in I. destruct I as ((fs & R & F & E) & _ & _ & X & _).
  rewrite invalid_frames, E. pose proof (invalid_outcomes sha py2 cf i fs F). rewrite X, R, zlen_app. pose proof (zlen_nonneg (c_recv c)). lia.
Qed.

(** For the long ones the factor is eight: a message of [k] zero bytes with a
    command that no class has. *)
Definition zeros (sha256 : bytes -> bytes) (magic : bytes) (k : nat) : bytes :=
  magic ++ pad_command (bs "zzz") ++ le_bytes 4 (Z.of_nat k) ++ ztake 4 (sha256 (sha256 (repeat 0 k))) ++ repeat 0 k.
Lemma flat_zero k : zlen (flat_map (repr_byte 39) (repeat 0 k)) = 4 * Z.of_nat k.
Proof. induction k as [|k IH]; [reflexivity|]. cbn [repeat flat_map]. rewrite zlen_app, IH. change (zlen (repr_byte 39 0)) with 4. lia. Qed.
Lemma repr_long py2 q b k : repr_quote (b ++ repeat 0 k) = q -> (q = 34 \/ q = 39) -> 4 * Z.of_nat k <= zlen (repr_of py2 (b ++ repeat 0 k)).
Proof.
  intros E Q. assert (4 * Z.of_nat k <= zlen (flat_map (repr_byte q) (b ++ repeat 0 k))) as L.
  { rewrite flat_map_app, zlen_app. pose proof (zlen_nonneg (flat_map (repr_byte q) b)). assert (forall k, flat_map (repr_byte q) (repeat 0 k) = flat_map (repr_byte 39) (repeat 0 k)) as -> by (intro j; induction j as [|j IH]; [reflexivity|]; cbn [repeat flat_map]; rewrite IH; destruct Q as [->| ->]; reflexivity). rewrite flat_zero. lia. }
  unfold repr_of, repr_bytes. rewrite E. destruct py2; cbn [tl]; rewrite !zlen_cons, zlen_app; pose proof (zlen_nonneg [q]); lia.
Qed.
Theorem C160_eightfold : forall sha256 py2 magic k, (forall x, 4 <= zlen (sha256 x)) -> zlen magic = 4 -> Z.of_nat k < 2 ^ 32 ->
  let data := zeros sha256 magic k in
  zlen data = 24 + Z.of_nat k /\ msg_parse sha256 data magic = Raise UnknownMsgError /\ 8 * Z.of_nat k <= zlen (invalid_line sha256 py2 data magic).
Proof.
  intros sha py2 magic k S M K data.
  assert (zlen (ztake 4 (sha (sha (repeat 0 k)))) = 4) as C4 by (rewrite zlen_ztake; specialize (S (sha (repeat 0 k))); lia).
  assert (zlen (repeat 0 k) = Z.of_nat k) as Lk by (unfold zlen; now rewrite repeat_length).
  assert (data = (magic ++ pad_command (bs "zzz") ++ le_bytes 4 (Z.of_nat k) ++ ztake 4 (sha (sha (repeat 0 k)))) ++ repeat 0 k) as E by (unfold data, zeros; now rewrite <- !app_assoc).
  destruct (frame_slices magic (pad_command (bs "zzz")) (le_bytes 4 (Z.of_nat k)) (ztake 4 (sha (sha (repeat 0 k)))) (repeat 0 k) [] M eq_refl (zlen_le_bytes 4 _) C4) as (S1 & S2 & S3 & S4 & S5). rewrite Lk in S5. rewrite app_nil_r in S1, S2, S3, S4, S5. fold (zeros sha magic k) in S1, S2, S3, S4, S5. fold data in S1, S2, S3, S4, S5.
  assert (struct_unpack FI false (le_bytes 4 (Z.of_nat k)) = Ok (Z.of_nat k)) as U.
  { unfold struct_unpack. rewrite zlen_le_bytes. change (Z.of_nat 4 =? Z.of_nat (nf_len FI)) with true. cbn [negb]. f_equal. rewrite le_val_le_bytes. apply Z.mod_small. split; [lia|]. exact K. }
  split; [|split].
  - rewrite E, zlen_app, !zlen_app, M, C4, zlen_le_bytes, Lk. reflexivity.
  - unfold msg_parse. rewrite S1, S2, S3, S4, U. cbn [bind]. rewrite S5, !bytes_eqb_refl. cbn [negb]. reflexivity.
  - assert (4 * Z.of_nat k <= zlen (repr_of py2 data)) as R by (rewrite E; eapply repr_long; [reflexivity|apply repr_quote_cases]).
    unfold invalid_line, text_line, complaint. rewrite S1, S2, S3, S4, U, S5, !bytes_eqb_refl. cbn [negb]. rewrite !zlen_app. 
    repeat match goal with |- context [zlen ?x] => lazymatch x with repr_of _ _ => fail | _ => let n := fresh in pose proof (zlen_nonneg x) as n; generalize dependent (zlen x); intros end end. lia.
Qed.
(** On Python 3 a command may bring characters that are not ASCII; a log in
    ASCII cannot take them. *)
Definition cx_foreign : bytes := nx_magic ++ pad_command [233] ++ le_bytes 4 0 ++ ztake 4 (nx_sha (nx_sha [])).
Theorem C160_ascii_refuted : wf_bytes cx_foreign /\ msg_parse nx_sha cx_foreign nx_magic = Raise UnknownMsgError /\ In 233 (invalid_line nx_sha false cx_foreign nx_magic).
Proof. split; [apply wf_all; vm_compute; reflexivity|]. split; [vm_compute; reflexivity|]. assert (existsb (Z.eqb 233) (invalid_line nx_sha false cx_foreign nx_magic) = true) as H by (vm_compute; reflexivity). apply existsb_exists in H. destruct H as (x & I & E). apply Z.eqb_eq in E. subst x. exact I. Qed.
(** Two malformed messages in the life of a node, and what is written of them. *)
Definition cx_life : list event := [EvAccept nx_a (1000 * SEC) nx_env; EvRead 0 (RData (nx_bad ++ cx_foreign)) 0 nx_clock].
Example C160_applies : Forall wf_event cx_life /\ (exists c, get_conn 0 (history nx_sha false nx_cf cx_life) = Some c /\ c_rx c = zlen nx_bad + 24) /\
  invalid_lines nx_sha false nx_magic 0 (n_trace (history nx_sha false nx_cf cx_life)) = invalid_line nx_sha false nx_bad nx_magic ++ invalid_line nx_sha false cx_foreign nx_magic /\
  invalid_line nx_sha false nx_bad nx_magic = text_line (bs "node") (bs "invalid command: " ++ repr_bytes nx_bad ++ bs " (bad magic number)").
Proof.
  assert (wf_bytes (nx_bad ++ cx_foreign)) as W by (apply wf_all; vm_compute; reflexivity). split; [constructor; [exact I|constructor; [exact W|constructor]]|]. split; [eexists; split; vm_compute; reflexivity|]. split; vm_compute; reflexivity.
Qed.

(** ** Assumptions *)

Print Assumptions C160_one_line.
Print Assumptions C160_ascii_partial.
Print Assumptions C160_tells.
Print Assumptions C160_bounded.
Print Assumptions C160_eightfold.
Print Assumptions C160_ascii_refuted.
