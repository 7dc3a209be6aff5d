(** Reading back what [json.dumps] writes, whole or truncated. *)
From Coq Require Import String ZArith List Lia Bool.
From Verif Require Import PyBase PyVal PyTextProofs JsonModel.
Import ListNotations.
Open Scope string_scope.
Open Scope list_scope.
Open Scope Z_scope.

Lemma plain_char_spec c : plain_char c = true -> 32 <= c <= 126 /\ c <> 34 /\ c <> 92.
Proof. unfold plain_char. intro H. repeat (apply andb_prop in H; destruct H as [H ?H]). lia. Qed.

Lemma read_string_plain s u : plain s -> read_string (s ++ 34 :: u) = Some (s, u).
Proof.
  induction 1 as [|c s Hc Hs IH]; [reflexivity|]. apply plain_char_spec in Hc. cbn [app read_string].
  replace (c =? 34) with false by lia. replace (c =? 92) with false by lia. replace (c <? 32) with false by lia.
  cbn [orb]. now rewrite IH.
Qed.

(** What follows a value that [dumps] writes: a comma or the closing brace. *)
Definition stop (u : text) : Prop := exists c r, u = c :: r /\ (c = 44 \/ c = 125).

Lemma digitc_10 c : digitc 10 c -> is_digit c = true /\ digit_value c = c - 48.
Proof.
  intros (d & Hd & ->). unfold digit_char, is_digit, digit_value. replace (d <? 10) with true by lia.
  split; [lia|]. replace ((48 <=? 48 + d) && (48 + d <=? 57)) with true by lia. reflexivity.
Qed.
Lemma read_digits_ok s u : Forall (digitc 10) s -> stop u -> forall acc, read_digits (s ++ u) acc = (digits_val 10 s acc, u).
Proof.
  intros Hs (c & r & -> & Hc). induction Hs as [|x s Hx Hs IH]; intro acc; cbn [app read_digits digits_val].
  - unfold is_digit. replace ((48 <=? c) && (c <=? 57)) with false by lia. reflexivity.
  - destruct (digitc_10 x Hx) as [-> ->]. apply IH.
Qed.
(** A numeral starts with 0 only when it is 0. *)
Lemma text_lead x c r : 0 <= x -> text_of_int 10 x = c :: r -> c = 48 -> x = 0 /\ r = [].
Proof.
  intros Hx E ->. destruct (Z.eq_dec x 0) as [->|Hn]; [split; [reflexivity|]; vm_compute in E; congruence|]. exfalso.
  assert (forall fuel y acc, 0 < y -> y < 2 ^ Z.of_nat fuel -> forall c r, digits_aux fuel 10 y acc = c :: r -> c <> 48) as L.
  { induction fuel as [|fuel IH]; intros y acc Hy Hf c' r' E'; [cbn in Hf; lia|]. cbn [digits_aux] in E'.
    destruct (y <? 10) eqn:Hq.
    - injection E' as <- _. unfold digit_char. rewrite Hq. lia.
    - apply IH in E'; [assumption| |].
      + apply Z.div_str_pos. lia.
      + rewrite Nat2Z.inj_succ, Z.pow_succ_r in Hf by lia. apply Z.div_lt_upper_bound; lia. }
  unfold text_of_int in E. refine (L _ _ _ _ _ _ _ E eq_refl); [lia|].
  rewrite Nat2Z.inj_succ, Z2Nat.id by apply Z.log2_nonneg. apply Z.log2_spec. lia.
Qed.
Lemma read_number_ok x u : 0 <= x -> stop u -> read_number (text_of_int 10 x ++ u) = Some (x, u).
Proof.
  intros Hx Hu. destruct (text_of_int_spec 10 x ltac:(lia) Hx) as (Hne & Hd & Hv).
  pose proof (fun c r => text_lead x c r Hx) as Hl. unfold read_number.
  destruct (text_of_int 10 x) as [|c r] eqn:E; [contradiction|].
  assert (match (if c =? 48 then Some (0, r ++ u) else if is_digit c then Some (read_digits (c :: r ++ u) 0) else None)
          with Some q => q = (x, u) | None => False end) as K.
  { destruct (Z.eqb_spec c 48) as [Hq|Hq].
    - destruct (Hl c r eq_refl Hq) as [-> ->]. reflexivity.
    - destruct (digitc_10 c (Forall_inv Hd)) as [-> _]. change (c :: r ++ u) with ((c :: r) ++ u).
      rewrite (read_digits_ok _ _ Hd Hu 0), Hv. reflexivity. }
  cbn [app]. cbv zeta. destruct (if c =? 48 then _ else _) as [q|]; [|contradiction]. subst q.
  destruct Hu as (d & t & -> & Hd'). replace ((d =? 46) || (d =? 69) || (d =? 101)) with false by lia. reflexivity.
Qed.
Lemma read_word_ok w u : read_word w (w ++ u) = Some u.
Proof. induction w as [|a w IH]; [reflexivity|]. cbn [app read_word]. now rewrite Z.eqb_refl. Qed.

Definition jplain (v : jval) : Prop := match v with JStr s => plain s | _ => True end.
Definition members_plain (d : jobj) : Prop := Forall (fun m => plain (fst m) /\ jplain (snd m)) d.

Lemma read_value_ok v u : jplain v -> stop u -> read_value (json_value v ++ u) = Some (v, u).
Proof.
  intros Hv Hu. destruct v as [|[]|z|s]; cbn [json_value].
  - unfold read_value. cbn [bs app]. cbn. now destruct u.
  - cbn. now destruct u.
  - cbn. now destruct u.
  - assert (forall x, 0 <= x -> exists c r, text_of_int 10 x = c :: r /\ 48 <= c <= 57) as L.
    { intros x Hx. destruct (text_of_int_spec 10 x ltac:(lia) Hx) as (Hne & Hd & _).
      destruct (text_of_int 10 x) as [|c r]; [contradiction|]. exists c, r. split; [reflexivity|].
      destruct (digitc_10 c (Forall_inv Hd)) as [K _]. unfold is_digit in K. lia. }
    destruct (z <? 0) eqn:Hz.
    + cbn [app]. unfold read_value. change (45 =? 34) with false. change (45 =? 110) with false. change (45 =? 116) with false.
      change (45 =? 102) with false. change (45 =? 45) with true. cbv beta iota.
      rewrite (read_number_ok (- z) u) by (lia || assumption). now rewrite Z.opp_involutive.
    + destruct (L z ltac:(lia)) as (c & r & E & Hc). pose proof (read_number_ok z u ltac:(lia) Hu) as K. rewrite E in *. cbn [app] in *.
      unfold read_value. replace (c =? 34) with false by lia. replace (c =? 110) with false by lia. replace (c =? 116) with false by lia.
      replace (c =? 102) with false by lia. replace (c =? 45) with false by lia. now rewrite K.
  - unfold json_string. cbn [app read_value]. change (34 =? 34) with true. cbv beta iota.
    rewrite <- app_assoc. cbn [app]. now rewrite (read_string_plain s u Hv).
Qed.

Lemma skip_ws_id c r : c <> 32 -> c <> 9 -> c <> 10 -> c <> 13 -> skip_ws (c :: r) = c :: r.
Proof. intros. cbn [skip_ws]. replace ((c =? 32) || (c =? 9) || (c =? 10) || (c =? 13)) with false by lia. reflexivity. Qed.
Lemma value_lead v : exists c r, json_value v = c :: r /\ c <> 32 /\ c <> 9 /\ c <> 10 /\ c <> 13.
Proof.
  destruct v as [|[]|z|s]; cbn [json_value].
  1-3: (do 2 eexists; split; [reflexivity|vm_compute; repeat split; discriminate]).
  - destruct (z <? 0) eqn:Hz; [do 2 eexists; split; [reflexivity|lia]|].
    destruct (text_of_int_spec 10 z ltac:(lia) ltac:(lia)) as (Hne & Hd & _).
    destruct (text_of_int 10 z) as [|c r]; [contradiction|]. exists c, r. split; [reflexivity|].
    destruct (digitc_10 c (Forall_inv Hd)) as [K _]. unfold is_digit in K. lia.
  - do 2 eexists. split; [reflexivity|]. lia.
Qed.
Lemma members_lead m d : exists r, json_members (m :: d) = 34 :: r.
Proof. destruct d; cbn [json_members]; unfold json_member, json_string; cbn [app]; eexists; reflexivity. Qed.
(** One member, followed by [tail]. *)
Lemma read_member k m tl : plain (fst m) -> jplain (snd m) -> stop tl ->
  read_members (S k) (json_member m ++ tl) =
  match tl with
  | c :: u => if c =? 125 then Some ([m], u)
              else if c =? 44 then match read_members k (skip_ws u) with Some (d, w) => Some (m :: d, w) | None => None end
              else None
  | [] => None
  end.
Proof.
  intros Hk Hv Ht. destruct m as [key v]. cbn [fst snd] in *. unfold json_member, json_string. cbn [fst snd]. rewrite <- !app_assoc. cbn [app].
  cbn [read_members]. change (34 =? 34) with true. cbn [negb].
  rewrite (read_string_plain key _ Hk). rewrite (skip_ws_id 58) by lia. change (58 =? 58) with true. cbn [negb].
  destruct (value_lead v) as (c & r & E & H1 & H2 & H3 & H4).
  pose proof (read_value_ok v tl Hv Ht) as K. rewrite E in *. cbn [app] in *.
  change (skip_ws (32 :: c :: r ++ tl)) with (skip_ws (c :: r ++ tl)).
  rewrite (skip_ws_id c _ H1 H2 H3 H4), K. destruct Ht as (e & t & -> & He).
  rewrite skip_ws_id by lia. reflexivity.
Qed.
Lemma read_members_ok d : forall k m u, members_plain (m :: d) -> (List.length d <= k)%nat ->
  read_members (S k) (json_members (m :: d) ++ 125 :: u) = Some (m :: d, u).
Proof.
  induction d as [|m' d IH]; intros k m u Hp Hk; destruct (Forall_inv Hp) as [Hm Hv].
  - cbn [json_members]. rewrite read_member; [reflexivity|assumption|assumption|]. exists 125, u. split; [reflexivity|lia].
  - change (json_members (m :: m' :: d)) with (json_member m ++ [44; 32] ++ json_members (m' :: d)).
    rewrite <- app_assoc. rewrite read_member; [|assumption|assumption|do 2 eexists; split; [reflexivity|lia]].
    cbn [app]. change (44 =? 125) with false. change (44 =? 44) with true. cbv beta iota.
    assert (skip_ws (32 :: json_members (m' :: d) ++ 125 :: u) = json_members (m' :: d) ++ 125 :: u) as ->.
    { destruct (members_lead m' d) as [r ->]. reflexivity. }
    cbn [List.length] in Hk. destruct k as [|k]; [lia|]. rewrite (IH k m' u); [reflexivity|exact (Forall_inv_tail Hp)|lia].
Qed.
Lemma members_length d : (List.length d <= List.length (json_members d))%nat.
Proof.
  induction d as [|m [|m' d] IH]; [cbn; lia|cbn; unfold json_member, json_string; cbn; rewrite !app_length; cbn; lia|].
  change (json_members (m :: m' :: d)) with (json_member m ++ [44; 32] ++ json_members (m' :: d)).
  rewrite !app_length. cbn [List.length] in *. lia.
Qed.
Theorem loads_dumps d : members_plain d -> json_loads (json_dumps d) = Ok d.
Proof.
  intro Hp. unfold json_loads, json_dumps, read_object. cbn [app]. rewrite skip_ws_id by lia. change (123 =? 123) with true. cbn [negb].
  destruct d as [|m d]; [reflexivity|]. destruct (members_lead m d) as [r Hr].
  pose proof (members_length (m :: d)) as Hl. set (F := List.length (123 :: json_members (m :: d) ++ [125])).
  assert (S (F - 1) = F /\ (List.length d <= F - 1)%nat) as [HF Hk].
  { unfold F. cbn [List.length] in *. rewrite app_length. lia. }
  pose proof (read_members_ok d (F - 1) m [] Hp Hk) as K. rewrite HF in K. clearbody F.
  rewrite Hr in *. cbn [app] in *. rewrite skip_ws_id by lia. change (34 =? 125) with false. cbv beta iota. rewrite K. reflexivity.
Qed.

(** ** Truncated texts *)
Lemma skip_ws_in c s : In c (skip_ws s) -> In c s.
Proof. induction s as [|x s IH]; [auto|]. cbn [skip_ws]. destruct (_ || _); [right; auto|auto]. Qed.
Lemma read_string_in s t u c : read_string s = Some (t, u) -> In c u -> In c s.
Proof.
  revert t. induction s as [|x s IH]; intros t; [discriminate|]. cbn [read_string]. destruct (x =? 34).
  - intros E H. injection E as _ ->. now right.
  - destruct (_ || _); [discriminate|]. destruct (read_string s) as [[t' u']|]; [|discriminate]. intros E H. injection E as _ ->.
    right. eapply IH; [reflexivity|exact H].
Qed.
Lemma read_digits_in s c : forall acc, In c (snd (read_digits s acc)) -> In c s.
Proof. induction s as [|x s IH]; intro acc; [auto|]. cbn [read_digits]. destruct (is_digit x); [intro H; right; eauto|auto]. Qed.
Lemma read_number_in s z u c : read_number s = Some (z, u) -> In c u -> In c s.
Proof.
  unfold read_number. destruct s as [|x s]; [discriminate|].
  assert (forall q : Z * text, (forall c, In c (snd q) -> In c (x :: s)) ->
    match q with (z, c :: r) => if (c =? 46) || (c =? 69) || (c =? 101) then None else Some (z, c :: r) | _ => Some q end = Some (z, u) ->
    In c u -> In c (x :: s)) as L.
  { intros [z' [|c' r']] Hq E H; [injection E as <- <-; contradiction|]. destruct (_ || _); [discriminate|]. injection E as <- <-. apply Hq. exact H. }
  destruct (x =? 48).
  - intros E H. eapply (L (0, s)); [cbn; auto| |exact H]. destruct s; exact E.
  - destruct (is_digit x); [|discriminate]. intros E H. refine (L (read_digits (x :: s) 0) _ _ H).
    + intros c' Hc'. eapply read_digits_in. exact Hc'.
    + destruct (read_digits (x :: s) 0) as [z' [|c' r']]; exact E.
Qed.
Lemma read_word_in w : forall s u c, read_word w s = Some u -> In c u -> In c s.
Proof.
  induction w as [|a w IH]; intros s u c; cbn [read_word]; [intros E H; injection E as ->; exact H|].
  destruct s as [|b s]; [discriminate|]. destruct (a =? b); [|discriminate]. intros E H. right. eauto.
Qed.
Lemma read_value_in s v u c : read_value s = Some (v, u) -> In c u -> In c s.
Proof.
  unfold read_value. destruct s as [|x s]; [discriminate|].
  destruct (x =? 34). { destruct (read_string s) as [[t w]|] eqn:E; [|discriminate]. intros K H. injection K as _ <-. right. eapply read_string_in; eauto. }
  destruct (x =? 110). { destruct (read_word _ _) as [w|] eqn:E; [|discriminate]. intros K H. injection K as _ <-. eapply read_word_in; eauto. }
  destruct (x =? 116). { destruct (read_word _ _) as [w|] eqn:E; [|discriminate]. intros K H. injection K as _ <-. eapply read_word_in; eauto. }
  destruct (x =? 102). { destruct (read_word _ _) as [w|] eqn:E; [|discriminate]. intros K H. injection K as _ <-. eapply read_word_in; eauto. }
  destruct (x =? 45). { destruct (read_number s) as [[t w]|] eqn:E; [|discriminate]. intros K H. injection K as _ <-. right. eapply read_number_in; eauto. }
  destruct (read_number (x :: s)) as [[t w]|] eqn:E; [|discriminate]. intros K H. injection K as _ <-. eapply read_number_in; eauto.
Qed.
Lemma read_members_in fuel : forall s d u, read_members fuel s = Some (d, u) -> In 125 s.
Proof.
  induction fuel as [|k IH]; intros s d u; [discriminate|]. cbn [read_members]. destruct s as [|c s]; [discriminate|].
  destruct (negb (c =? 34)); [discriminate|]. destruct (read_string s) as [[key w]|] eqn:E1; [|discriminate].
  destruct (skip_ws w) as [|c1 w1] eqn:E2; [discriminate|]. destruct (negb (c1 =? 58)); [discriminate|].
  destruct (read_value (skip_ws w1)) as [[v w2]|] eqn:E3; [|discriminate].
  assert (forall c, In c w2 -> In c s) as L.
  { intros x Hx. eapply read_string_in; [exact E1|]. apply skip_ws_in. rewrite E2. right. apply skip_ws_in. eapply read_value_in; eauto. }
  destruct (skip_ws w2) as [|c2 w3] eqn:E4; [discriminate|].
  assert (forall c, In c (c2 :: w3) -> In c s) as L2 by (intros x Hx; apply L, skip_ws_in; rewrite E4; exact Hx).
  destruct (Z.eqb_spec c2 125) as [Hq|Hq]; [intros _; right; apply L2; left; exact Hq|].
  destruct (c2 =? 44); [|discriminate]. destruct (read_members k (skip_ws w3)) as [[d' u']|] eqn:E5; [|discriminate].
  intros _. right. apply L2. right. apply skip_ws_in. eauto.
Qed.
Lemma loads_in s d : json_loads s = Ok d -> In 125 s.
Proof.
  unfold json_loads, read_object. destruct (skip_ws s) as [|c r] eqn:E; [discriminate|]. destruct (negb (c =? 123)); [discriminate|].
  destruct (skip_ws r) as [|c' u] eqn:E'; [discriminate|]. intro H. apply skip_ws_in. rewrite E. right. apply skip_ws_in. rewrite E'.
  destruct (Z.eqb_spec c' 125) as [Hq|Hq]; [left; exact Hq|].
  destruct (read_members _ _) as [[d' u']|] eqn:K; [|discriminate]. eapply read_members_in. exact K.
Qed.
Definition no_brace (s : text) : Prop := Forall (fun c => c <> 125) s.
Lemma no_brace_app a b : no_brace a -> no_brace b -> no_brace (a ++ b).
Proof. intros. apply Forall_app. split; assumption. Qed.
Definition bare (v : jval) : Prop := match v with JStr s => no_brace s | _ => True end.
Lemma digits_bare x : 0 <= x -> no_brace (text_of_int 10 x).
Proof.
  intro Hx. destruct (text_of_int_spec 10 x ltac:(lia) Hx) as (_ & Hd & _). eapply Forall_impl; [|exact Hd].
  intros c Hc. destruct (digitc_10 c Hc) as [K _]. unfold is_digit in K. lia.
Qed.
Lemma value_bare v : bare v -> no_brace (json_value v).
Proof.
  destruct v as [|[]|z|s]; cbn [json_value bare]; intro H.
  1-3: (repeat (constructor; [vm_compute; discriminate|]); constructor).
  - destruct (z <? 0) eqn:Hz; [constructor; [discriminate|]; apply digits_bare; lia|apply digits_bare; lia].
  - unfold json_string. repeat apply no_brace_app; try assumption; (constructor; [discriminate|constructor]).
Qed.
Lemma members_bare d : Forall (fun m => no_brace (fst m) /\ bare (snd m)) d -> no_brace (json_members d).
Proof.
  induction 1 as [|m d [H1 H2] Hd IH]; [constructor|].
  assert (no_brace (json_member m)) as K.
  { unfold json_member, json_string. repeat apply no_brace_app; try assumption; try (repeat (constructor; [discriminate|]); constructor).
    now apply value_bare. }
  destruct d as [|m' d]; [exact K|].
  change (json_members (m :: m' :: d)) with (json_member m ++ [44; 32] ++ json_members (m' :: d)).
  apply no_brace_app; [exact K|]. apply no_brace_app; [repeat (constructor; [discriminate|]); constructor|exact IH].
Qed.
Lemma firstn_app_lt {A} n (a b : list A) : (n <= List.length a)%nat -> firstn n (a ++ b) = firstn n a.
Proof. intro H. rewrite firstn_app. replace (n - List.length a)%nat with O by lia. now rewrite firstn_O, app_nil_r. Qed.
(** A wallet text cut short is not JSON. *)
Theorem loads_truncated d n : Forall (fun m => no_brace (fst m) /\ bare (snd m)) d -> (n < List.length (json_dumps d))%nat ->
  json_loads (firstn n (json_dumps d)) = Raise ValueError.
Proof.
  intros Hd Hn. destruct (json_loads (firstn n (json_dumps d))) as [o|e] eqn:E.
  - exfalso. apply loads_in in E. unfold json_dumps in *. rewrite app_assoc in *. rewrite app_length in Hn. cbn [List.length] in Hn.
    rewrite firstn_app_lt in E by lia.
    assert (no_brace ([123] ++ json_members d)) as K by (apply no_brace_app; [constructor; [discriminate|constructor]|now apply members_bare]).
    assert (forall l k, no_brace l -> ~ In 125 (firstn k l)) as L.
    { induction l as [|x l IH]; intros k Hl Hi; destruct k; cbn [firstn] in Hi; try contradiction.
      inversion Hl; subst. destruct Hi as [Hi|Hi]; [congruence|]. eapply IH; eauto. }
    exact (L _ _ K E).
  - unfold json_loads in E. destruct (read_object _) as [[o u]|]; [destruct (skip_ws u); congruence|congruence].
Qed.
