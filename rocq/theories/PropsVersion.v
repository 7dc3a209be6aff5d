(** C145: the version that the ECDSA package reports. *)
From Coq Require Import String ZArith List Lia Bool Permutation.
From Verif Require Import PyBase VersionModel.
Import ListNotations.
Open Scope string_scope.
Open Scope list_scope.
Open Scope Z_scope.

(** ** Specification *)
(** What git writes for "%d" when it makes an archive: " (HEAD, master)". *)
Fixpoint joined (l : list text) : text :=
  match l with [] => [] | [r] => r | r :: q => r ++ bs ", " ++ joined q end.
Definition decoration (refs : list text) : text := bs " (" ++ joined refs ++ bs ")".
(** A name without commas that neither begins nor ends with white space or a parenthesis. *)
Definition outer (r : text) (c : Z) : Prop := hd_error r = Some c \/ hd_error (rev r) = Some c.
Definition plain (space : Z -> bool) (r : text) : Prop := r <> [] /\ ~ In 44 r /\ forall c, outer r c -> space c = false /\ c <> 40 /\ c <> 41.
(** White space and digits among the printable ASCII characters. *)
Definition ascii_space (space : Z -> bool) : Prop := forall c, 32 <= c < 127 -> space c = (c =? 32).
Definition ascii_digit (digit : Z -> bool) : Prop := forall c, 32 <= c < 127 -> digit c = ((48 <=? c) && (c <=? 57)).
(** The names that count as tags: those that git says are tags; if there is none, those with a digit. *)
Definition named_tag (refs : list text) (t : text) : Prop := In (bs "tag: " ++ t) refs.
Definition counts (digit : Z -> bool) (refs : list text) (t : text) : Prop :=
  named_tag refs t \/ (~ exists u, named_tag refs u) /\ In t refs /\ exists c, In c t /\ digit c = true.
(** The order of a dictionary. *)
Inductive before : text -> text -> Prop :=
| before_nil b : before [] b
| before_less x y a b : x < y -> before (x :: a) (y :: b)
| before_same x a b : before a b -> before (x :: a) (x :: b).

(** ** Proofs *)
Lemma text_leb_iff a b : text_leb a b = true <-> before a b.
Proof.
  revert b. induction a as [|x a IH]; intros b; [split; [constructor|reflexivity]|]. destruct b as [|y b]; cbn [text_leb]; [split; [discriminate|intro H; inversion H]|].
  destruct (Z.eqb_spec x y) as [<-|N].
  - rewrite IH. split; [apply before_same|]. intro H. inversion H; subst; [lia|assumption].
  - rewrite Z.ltb_lt. split; [now constructor|]. intro H. inversion H; subst; [assumption|congruence].
Qed.
Lemma before_total a b : before a b \/ before b a.
Proof.
  revert b. induction a as [|x a IH]; intros b; [left; constructor|]. destruct b as [|y b]; [right; constructor|].
  destruct (Z.lt_trichotomy x y) as [H|[<-|H]]; [left; now constructor| |right; now constructor]. destruct (IH b); [left|right]; now apply before_same.
Qed.
Lemma before_trans a b c : before a b -> before b c -> before a c.
Proof. intros H. revert c. induction H; intros c G; [constructor| |]; inversion G; subst; try (constructor; lia). apply before_same. now apply IHbefore. Qed.
Lemma before_antisym a b : before a b -> before b a -> a = b.
Proof. intros H. induction H; intros G; inversion G; subst; try lia; [reflexivity|]. f_equal. now apply IHbefore. Qed.
Lemma begins_iff p s : begins p s = true <-> exists r, s = p ++ r.
Proof.
  revert s. induction p as [|x p IH]; intros s; [split; [intros _; now exists s|reflexivity]|]. destruct s as [|y s]; cbn [begins]; [split; [discriminate|intros (r & E); discriminate]|].
  rewrite andb_true_iff, Z.eqb_eq, IH. split; [intros (-> & r & ->); now exists r|intros (r & [= -> ->]); split; [reflexivity|now exists r]].
Qed.
Lemma put_in t u l : In t (put u l) <-> t = u \/ In t l.
Proof. induction l as [|v l IH]; cbn [put]; [cbn; intuition congruence|]. destruct (text_leb u v); cbn [In]; [intuition congruence|]. rewrite IH. tauto. Qed.
Lemma sorted_in t l : In t (sorted_set l) <-> In t l.
Proof. induction l as [|u l IH]; [reflexivity|]. cbn [sorted_set]. rewrite put_in, IH. cbn [In]. intuition congruence. Qed.
Inductive ascending : list text -> Prop :=
| asc_nil : ascending []
| asc_cons t l : (forall u, In u l -> before t u) -> ascending l -> ascending (t :: l).
Lemma put_asc t l : ascending l -> ascending (put t l).
Proof.
  induction 1 as [|u l H A IH]; cbn [put]; [repeat constructor; intros ? []|]. destruct (text_leb t u) eqn:E.
  - apply text_leb_iff in E. constructor; [|now constructor]. intros v [<-|I]; [exact E|]. eapply before_trans; [exact E|now apply H].
  - constructor; [|exact IH]. intros v I. apply put_in in I. destruct I as [->|I]; [|now apply H]. destruct (before_total u t) as [B|B]; [exact B|]. apply text_leb_iff in B. congruence.
Qed.
Lemma sorted_asc l : ascending (sorted_set l).
Proof. induction l; [constructor|]. cbn. now apply put_asc. Qed.
Lemma find_least p l : ascending l -> match find p l with
  | Some t => In t l /\ p t = true /\ (forall u, In u l -> p u = true -> before t u)
  | None => forall u, In u l -> p u = false end.
Proof.
  induction 1 as [|t l H A IH]; [intros ? []|]. cbn [find]. destruct (p t) eqn:E.
  - split; [now left|]. split; [exact E|]. intros u [<-|I] _; [|now apply H]. clear. induction t; [constructor|now apply before_same].
  - destruct (find p l) as [v|].
    + destruct IH as (I & P & L). split; [now right|]. split; [exact P|]. intros u [<-|J] Q; [congruence|now apply L].
    + intros u [<-|I]; [exact E|now apply IH].
Qed.
Lemma lstrip_none p s : (forall c, hd_error s = Some c -> p c = false) -> lstrip_set p s = s.
Proof. destruct s as [|c s]; [reflexivity|]. intro H. cbn. now rewrite (H c eq_refl). Qed.
Lemma strip_none p s : (forall c, outer s c -> p c = false) -> strip_set p s = s.
Proof. intro H. unfold strip_set. rewrite (lstrip_none p s) by (intros c E; apply H; now left). rewrite lstrip_none by (intros c E; apply H; now right). apply rev_involutive. Qed.
Lemma strip_front p c s : p c = true -> strip_set p (c :: s) = strip_set p s.
Proof. intro H. unfold strip_set. cbn [lstrip_set]. now rewrite H. Qed.
Lemma split_clean a : ~ In 44 a -> split_char 44 a = [a].
Proof. induction a as [|x a IH]; [reflexivity|]. intro H. cbn [split_char]. rewrite IH by (intro; apply H; now right). destruct (Z.eqb_spec x 44) as [->|_]; [exfalso; apply H; now left|reflexivity]. Qed.
Lemma split_app a b : ~ In 44 a -> split_char 44 (a ++ 44 :: b) = a :: split_char 44 b.
Proof.
  induction a as [|x a IH]; intro H; [reflexivity|]. cbn [app split_char]. rewrite IH by (intro; apply H; now right).
  destruct (Z.eqb_spec x 44) as [->|_]; [exfalso; apply H; now left|reflexivity].
Qed.
Lemma hd_app (a b : list Z) : a <> [] -> hd_error (a ++ b) = hd_error a.
Proof. destruct a; [congruence|reflexivity]. Qed.
Lemma joined_first space r q : Forall (plain space) (r :: q) -> hd_error (joined (r :: q)) = hd_error r.
Proof. intro F. inversion_clear F as [|? ? (N & _) _]. destruct q; [reflexivity|]. cbn [joined]. now apply hd_app. Qed.
Lemma joined_last space l : l <> [] -> Forall (plain space) l -> exists r, In r l /\ hd_error (rev (joined l)) = hd_error (rev r) /\ joined l <> [].
Proof.
  intros N F. induction F as [|r l P F IH]; [congruence|]. destruct l as [|s l]; [exists r; split; [now left|]; split; [reflexivity|apply P]|].
  destruct (IH ltac:(discriminate)) as (t & I & E & M). exists t. split; [now right|]. change (joined (r :: s :: l)) with (r ++ bs ", " ++ joined (s :: l)).
  split; [|destruct r; [now destruct P|discriminate]]. rewrite app_assoc, rev_app_distr, hd_app; [exact E|]. intro Z. apply M. rewrite <- (rev_involutive (joined _)), Z. reflexivity.
Qed.
Section Proofs.
  Variable space digit : Z -> bool.
  Hypothesis Hs : ascii_space space.
  Lemma split_joined l : l <> [] -> Forall (plain space) l -> map (strip space) (split_char 44 (joined l)) = l.
  Proof.
    intros N F. induction F as [|r l P F IH]; [congruence|]. assert (strip space r = r) as S by (apply strip_none; intros c O; now apply P). destruct l as [|s l].
    - cbn [joined]. rewrite split_clean by apply P. cbn. now rewrite S.
    - change (joined (r :: s :: l)) with (r ++ 44 :: (32 :: joined (s :: l))). rewrite split_app by apply P. cbn [map]. rewrite S. f_equal.
      rewrite <- (IH ltac:(discriminate)) at 2. cbn [split_char]. change (32 =? 44) with false. cbv iota. destruct (split_char 44 (joined (s :: l))) as [|p q] eqn:E.
      + exfalso. specialize (IH ltac:(discriminate)). discriminate.
      + cbn [map]. f_equal. apply strip_front. rewrite Hs by lia. reflexivity.
  Qed.
  Lemma refs_read refs : refs <> [] -> Forall (plain space) refs ->
    map (strip space) (split_char 44 (strip_set (fun c => (c =? 40) || (c =? 41)) (strip space (decoration refs)))) = refs /\ begins (bs "$Format") (strip space (decoration refs)) = false.
  Proof.
    intros N F. assert (strip space (decoration refs) = 40 :: joined refs ++ [41]) as ->.
    { unfold decoration. change (bs " (" ++ joined refs ++ bs ")") with (32 :: 40 :: joined refs ++ [41]). unfold strip. rewrite strip_front by (rewrite Hs by lia; reflexivity).
      apply strip_none. intros c [E|E]; [cbn in E; injection E as <-|change (40 :: joined refs ++ [41]) with ((40 :: joined refs) ++ [41]) in E; rewrite rev_app_distr in E; cbn in E; injection E as <-]; rewrite Hs by lia; reflexivity. }
    split; [|reflexivity]. rewrite strip_front by reflexivity. assert (strip_set (fun c => (c =? 40) || (c =? 41)) (joined refs ++ [41]) = joined refs) as ->; [|now apply split_joined].
    destruct (joined_last space refs N F) as (r & I & El & M). pose proof (proj1 (Forall_forall _ _) F r I) as (_ & _ & Pr).
    destruct refs as [|r0 q]; [congruence|]. pose proof (joined_first space r0 q F) as Ef. assert (plain space r0) as (_ & _ & P0) by now inversion F.
    unfold strip_set. rewrite (lstrip_none _ (joined (r0 :: q) ++ [41])). 2:{ intros c E. assert (hd_error (joined (r0 :: q) ++ [41]) = hd_error (joined (r0 :: q))) as Ea by (apply hd_app; exact M). rewrite Ea, Ef in E. destruct (P0 c (or_introl E)) as (_ & A & B). apply orb_false_iff. split; now apply Z.eqb_neq. }
    rewrite rev_app_distr. cbn [rev app lstrip_set]. change ((41 =? 40) || (41 =? 41)) with true. cbv iota. rewrite lstrip_none; [apply rev_involutive|].
    intros c E. rewrite El in E. destruct (Pr c (or_intror E)) as (_ & A & B). apply orb_false_iff. split; now apply Z.eqb_neq.
  Qed.
  Definition tags_of (refs : list text) : list text :=
    match map (skipn 5) (filter (begins (bs "tag: ")) refs) with [] => filter (existsb digit) refs | _ => map (skipn 5) (filter (begins (bs "tag: ")) refs) end.
  Lemma tags_iff refs t : In t (tags_of refs) <-> counts digit refs t.
  Proof.
    assert (forall u, In u (map (skipn 5) (filter (begins (bs "tag: ")) refs)) <-> named_tag refs u) as H.
    { intro u. rewrite in_map_iff. split.
      - intros (r & <- & I). apply filter_In in I. destruct I as (I & B). apply begins_iff in B. destruct B as (q & ->). exact I.
      - intro I. exists (bs "tag: " ++ u). split; [reflexivity|]. apply filter_In. split; [exact I|]. apply begins_iff. now exists u. }
    unfold tags_of, counts. destruct (map _ _) as [|v l].
    - rewrite filter_In, existsb_exists. split; [intros (I & E)|intros [K|(_ & I & E)]; [now apply H in K|]; now split]. right. split; [intros (u & K); now apply H in K|]. now split.
    - split; [intro I; left; now apply H|]. intros [K|(K & _)]; [now apply H|]. exfalso. apply K. exists v. apply H. now left.
  Qed.
  (** An archive made by git reports the first of its tags, in the order of the
      dictionary, without the prefix; without such a tag, its commit. *)
  Theorem C145_archive refs full prefix : refs <> [] -> Forall (plain space) refs ->
    (exists v, versions_from_expanded space digit (decoration refs) full prefix = Some (mk_versions v (strip space full)) /\
      counts digit refs (prefix ++ v) /\ forall w, counts digit refs (prefix ++ w) -> before v w) \/
    ((~ exists w, counts digit refs (prefix ++ w)) /\ versions_from_expanded space digit (decoration refs) full prefix = Some (mk_versions (strip space full) (strip space full))).
  Proof.
    intros N F. destruct (refs_read refs N F) as (E & B). unfold versions_from_expanded. rewrite B, E. fold (tags_of refs).
    pose proof (find_least (begins prefix) (sorted_set (tags_of refs)) (sorted_asc _)) as L. destruct (find _ _) as [t|].
    - left. destruct L as (I & P & L). apply begins_iff in P. destruct P as (v & ->). exists v. rewrite skipn_app, skipn_all, Nat.sub_diag. split; [reflexivity|].
      split; [now apply tags_iff, sorted_in|]. intros w C. assert (before (prefix ++ v) (prefix ++ w)) as H.
      { apply L; [now apply sorted_in, tags_iff|]. apply begins_iff. now exists w. }
      clear - H. induction prefix as [|x p IH]; [exact H|]. inversion H; subst; [lia|now apply IH].
    - right. split; [|reflexivity]. intros (w & C). assert (begins prefix (prefix ++ w) = false) as H by (apply L, sorted_in, tags_iff, C).
      rewrite (proj2 (begins_iff prefix (prefix ++ w)) (ex_intro _ w eq_refl)) in H. discriminate.
  Qed.
  (** The order in which git lists the names does not matter, nor do repetitions. *)
  Theorem C145_order refs refs' full prefix : refs <> [] -> Forall (plain space) refs -> (forall r, In r refs <-> In r refs') ->
    versions_from_expanded space digit (decoration refs) full prefix = versions_from_expanded space digit (decoration refs') full prefix.
  Proof.
    intros N F S. assert (refs' <> []) as N'. { destruct refs as [|r q]; [congruence|]. intros ->. now apply (proj1 (S r)); left. }
    assert (Forall (plain space) refs') as F'. { apply Forall_forall. intros r I. rewrite Forall_forall in F. now apply F, S. }
    assert (forall t, counts digit refs t <-> counts digit refs' t) as C. { intro t. unfold counts, named_tag. rewrite (S t), (S (bs "tag: " ++ t)). setoid_rewrite S. reflexivity. }
    destruct (C145_archive refs full prefix N F) as [(v & -> & K & L)|(X & ->)]; destruct (C145_archive refs' full prefix N' F') as [(v' & -> & K' & L')|(X' & ->)].
    - repeat f_equal. apply before_antisym; [now apply L, C|now apply L', C].
    - exfalso. apply X'. exists v. now apply C.
    - exfalso. apply X. exists v'. now apply C.
    - reflexivity.
  Qed.
  (** A checkout reports what git describe prints; a modified one says so in both places. *)
  Theorem C145_checkout refnames full s d r : begins (bs "$Format") (strip space refnames) = true -> s_file s = true -> s_git s = true -> s_win32 s = false ->
    s_describe s (bs "git") = Ran d 0 -> s_revparse s (bs "git") = Ran r 0 -> forall tag, strip space d = tag_prefix ++ tag ->
    v_version (get_versions space digit refnames full s) = tag /\
    ((exists t, tag = t ++ bs "-dirty") -> exists t, v_full (get_versions space digit refnames full s) = t ++ bs "-dirty").
  Proof.
    intros B Hf Hg Hw Hd Hr tag E. unfold get_versions, versions_from_expanded. rewrite B, Hf. cbv iota. cbn [negb]. unfold versions_from_vcs. rewrite Hg, Hw. cbn [negb run_command]. rewrite Hd, Hr, E. cbn [Z.eqb].
    rewrite (proj2 (begins_iff tag_prefix (tag_prefix ++ tag)) (ex_intro _ tag eq_refl)). cbn [negb v_version v_full]. rewrite skipn_app, skipn_all, Nat.sub_diag. split; [reflexivity|].
    intros (t & Et). cbn [skipn app]. assert (ends (bs "-dirty") tag = true) as ->. { unfold ends. apply begins_iff. exists (rev t). rewrite Et, rev_app_distr. reflexivity. } now eexists.
  Qed.
  (** Otherwise the name of the directory tells, or the version is unknown. *)
  Theorem C145_otherwise refnames full s : begins (bs "$Format") (strip space refnames) = true -> s_git s = false ->
    get_versions space digit refnames full s = mk_versions (bs "unknown") [] \/
    s_file s = true /\ exists v, s_dirname s = parentdir_prefix ++ v /\ get_versions space digit refnames full s = mk_versions v [].
  Proof.
    intros B Hg. unfold get_versions, versions_from_expanded. rewrite B. destruct (s_file s); [cbn [negb]|now left]. unfold versions_from_vcs. rewrite Hg. cbn [negb]. unfold versions_from_parentdir.
    destruct (begins parentdir_prefix (s_dirname s)) eqn:E; [|now left]. right. split; [reflexivity|]. apply begins_iff in E. destruct E as (v & E). exists v. split; [exact E|]. rewrite E. now rewrite skipn_app, skipn_all, Nat.sub_diag.
  Qed.
  (** The copy in this repository reports the same commit everywhere. *)
  Hypothesis Hd : ascii_digit digit.
  Theorem C145_shipped s : ecdsa_version space digit s = bs "78eed00dbf36c701919087e3e189a2824c6f3fff".
  Proof.
    assert (Forall (plain space) [bs "HEAD"; bs "master"]) as F.
    { repeat constructor; try discriminate; try (cbn; intuition discriminate); destruct H as [H|H]; cbn in H; injection H as <-; solve [lia|rewrite Hs by lia; reflexivity]. }
    unfold ecdsa_version, get_versions. change git_refnames with (decoration [bs "HEAD"; bs "master"]).
    assert (strip space git_full = git_full) as G. { apply strip_none. intros c [H|H]; cbn in H; injection H as <-; rewrite Hs by lia; reflexivity. }
    destruct (C145_archive [bs "HEAD"; bs "master"] git_full tag_prefix ltac:(discriminate) F) as [(v & _ & [K|(_ & K & _)] & _)|(_ & ->)]; [| |cbn [v_version]; exact G]; exfalso; cbn in K; destruct K as [K|[K|[]]]; discriminate.
  Qed.
  (** The newest tag is not what is reported: the first in the order of the dictionary is. *)
  Theorem C145_not_newest full : exists refs, Forall (plain space) refs /\ In (bs "tag: python-ecdsa-0.9") refs /\ In (bs "tag: python-ecdsa-0.10") refs /\ In (bs "tag: python-ecdsa-0.11") refs /\
    versions_from_expanded space digit (decoration refs) full tag_prefix = Some (mk_versions (bs "0.10") (strip space full)).
  Proof.
    set (refs := [bs "tag: python-ecdsa-0.9"; bs "tag: python-ecdsa-0.11"; bs "tag: python-ecdsa-0.10"]). exists refs. assert (Forall (plain space) refs) as F.
    { repeat constructor; try discriminate; try (cbn; intuition discriminate); destruct H as [H|H]; cbn in H; injection H as <-; solve [lia|rewrite Hs by lia; reflexivity]. }
    split; [exact F|]. do 3 (split; [cbn; tauto|]). destruct (refs_read refs ltac:(discriminate) F) as (E & B). unfold versions_from_expanded. rewrite B, E. reflexivity.
  Qed.
End Proofs.
(** Python 2's white space and digits. *)
Definition py2_space (c : Z) : bool := ((9 <=? c) && (c <=? 13)) || (c =? 32).
Definition py2_digit (c : Z) : bool := (48 <=? c) && (c <=? 57).
Example C145_applies : ascii_space py2_space /\ ascii_digit py2_digit /\
  versions_from_expanded py2_space py2_digit (decoration [bs "HEAD"; bs "tag: python-ecdsa-0.13"; bs "v2"; bs "master"]) (bs "abc") tag_prefix = Some (mk_versions (bs "0.13") (bs "abc")) /\
  (let s := mk_around false true true (fun _ => Ran (bs "python-ecdsa-0.13-2-gabc-dirty ") 0) (fun _ => Ran (bs "abc") 0) (bs "x") in
   get_versions py2_space py2_digit (bs "$Format:%d$") (bs "$Format:%H$") s = mk_versions (bs "0.13-2-gabc-dirty") (bs "abc-dirty")).
Proof. split; [intros c H; unfold py2_space; now replace (c <=? 13) with false by (symmetry; apply Z.leb_gt; lia); rewrite andb_false_r|]. split; [intros c _; reflexivity|]. split; vm_compute; reflexivity. Qed.

(** ** Assumptions *)

Print Assumptions C145_archive.
Print Assumptions C145_order.
Print Assumptions C145_checkout.
Print Assumptions C145_otherwise.
Print Assumptions C145_shipped.
Print Assumptions C145_not_newest.
