(** Proofs about PemModel.v. *)
From Coq Require Import String ZArith List Lia Bool.
From Verif Require Import PyBase DerModel KeyModel PemModel.
Import ListNotations.
Open Scope string_scope.
Open Scope list_scope.
Open Scope Z_scope.

(** ** Base64 *)
Definition is_b64 (c : Z) : Prop := 65 <= c <= 90 \/ 97 <= c <= 122 \/ 48 <= c <= 57 \/ c = 43 \/ c = 47.
Lemma b64_char_ok v : 0 <= v < 64 -> is_b64 (b64_char v) /\ b64_value (b64_char v) = Some v.
Proof.
  intro H. unfold b64_char.
  destruct (Z.ltb_spec v 26); [|destruct (Z.ltb_spec v 52); [|destruct (Z.ltb_spec v 62); [|destruct (Z.eqb_spec v 62)]]]; (split; [unfold is_b64; lia|]); unfold b64_value.
  - destruct (Z.leb_spec 65 (65 + v)), (Z.leb_spec (65 + v) 90); try lia. cbn [andb]. f_equal. lia.
  - destruct (Z.leb_spec (97 + (v - 26)) 90); [lia|]. rewrite andb_false_r. destruct (Z.leb_spec 97 (97 + (v - 26))), (Z.leb_spec (97 + (v - 26)) 122); try lia. cbn [andb]. f_equal. lia.
  - destruct (Z.leb_spec 65 (48 + (v - 52))); [lia|]. destruct (Z.leb_spec 97 (48 + (v - 52))); [lia|]. cbn [andb]. destruct (Z.leb_spec 48 (48 + (v - 52))), (Z.leb_spec (48 + (v - 52)) 57); try lia. cbn [andb]. f_equal. lia.
  - subst v. reflexivity.
  - assert (v = 63) as -> by lia. reflexivity.
Qed.
Lemma is_b64_pad c : is_b64 c -> c <> 61. Proof. unfold is_b64. lia. Qed.
Lemma step c v r q l p : is_b64 c -> b64_value c = Some v -> a2b_base64 (c :: r) q l p =
  if q =? 0 then a2b_base64 r 1 v 0
  else if q =? 1 then let! t := a2b_base64 r 2 (v mod 16) 0 in Ok (l * 4 + v / 16 :: t)
  else if q =? 2 then let! t := a2b_base64 r 3 (v mod 4) 0 in Ok (l * 16 + v / 4 :: t)
  else let! t := a2b_base64 r 0 0 0 in Ok (l * 64 + v :: t).
Proof. intros I V. cbn [a2b_base64]. destruct (Z.eqb_spec c 61); [apply is_b64_pad in I; contradiction|]. now rewrite V. Qed.
Lemma step_char v r q l p : 0 <= v < 64 -> a2b_base64 (b64_char v :: r) q l p =
  if q =? 0 then a2b_base64 r 1 v 0
  else if q =? 1 then let! t := a2b_base64 r 2 (v mod 16) 0 in Ok (l * 4 + v / 16 :: t)
  else if q =? 2 then let! t := a2b_base64 r 3 (v mod 4) 0 in Ok (l * 16 + v / 4 :: t)
  else let! t := a2b_base64 r 0 0 0 in Ok (l * 64 + v :: t).
Proof. intro H. destruct (b64_char_ok v H) as (I & V). now apply step. Qed.
Lemma list3_ind (P : bytes -> Prop) : P [] -> (forall a, P [a]) -> (forall a b, P [a; b]) -> (forall a b c r, P r -> P (a :: b :: c :: r)) -> forall l, P l.
Proof.
  intros P0 P1 P2 P3. enough (forall n l, (length l <= n)%nat -> P l) as H by (intro l; now apply (H (length l))).
  induction n as [|n IH]; intros [|a [|b [|c r]]] L; auto; cbn in L; try lia. apply P3, IH. lia.
Qed.
Lemma b64_roundtrip s : wf_bytes s -> b64decode (b64encode s) = Ok s.
Proof.
  unfold b64decode. induction s as [|a|a b|a b c r IH] using list3_ind; intro W.
  - reflexivity.
  - inversion W as [|? ? Ha _]; subst. unfold is_byte in Ha. cbn [b64encode].
    pose proof (Z.div_mod a 4 ltac:(lia)). pose proof (Z.mod_pos_bound a 4 ltac:(lia)).
    rewrite step_char by (split; [apply Z.div_pos; lia|apply Z.div_lt_upper_bound; lia]). change (0 =? 0) with true. cbv iota. rewrite step_char by lia. change (1 =? 0) with false. change (1 =? 1) with true. cbv iota.
    cbn [a2b_base64 Z.eqb Z.leb Z.compare Z.add Pos.compare Pos.compare_cont Pos.add Pos.eqb Pos.succ bind]. rewrite Z.div_mul by lia. do 2 f_equal. lia.
  - inversion W as [|? ? Ha W']; subst. inversion W' as [|? ? Hb _]; subst. unfold is_byte in Ha, Hb. cbn [b64encode].
    pose proof (Z.div_mod a 4 ltac:(lia)). pose proof (Z.mod_pos_bound a 4 ltac:(lia)). pose proof (Z.div_mod b 16 ltac:(lia)). pose proof (Z.mod_pos_bound b 16 ltac:(lia)).
    assert (0 <= b / 16 < 16) by lia.
    rewrite step_char by lia. change (0 =? 0) with true. cbv iota. rewrite step_char by lia. change (1 =? 0) with false. change (1 =? 1) with true. cbv iota.
    rewrite step_char by lia. change (2 =? 0) with false. change (2 =? 1) with false. change (2 =? 2) with true. cbv iota.
    cbn [a2b_base64 Z.eqb Z.leb Z.compare Z.add Pos.compare Pos.compare_cont Pos.add Pos.eqb Pos.succ bind].
    replace ((a mod 4 * 16 + b / 16) / 16) with (a mod 4) by (rewrite Z.div_add_l by lia; rewrite Z.div_small by lia; lia).
    replace ((a mod 4 * 16 + b / 16) mod 16) with (b / 16) by (rewrite Z.add_comm, Z_mod_plus_full; rewrite Z.mod_small; lia).
    rewrite Z.div_mul by lia. repeat f_equal; lia.
  - inversion W as [|? ? Ha W']; subst. inversion W' as [|? ? Hb W'']; subst. inversion W'' as [|? ? Hc Wr]; subst. unfold is_byte in Ha, Hb, Hc. cbn [b64encode app].
    pose proof (Z.div_mod a 4 ltac:(lia)). pose proof (Z.mod_pos_bound a 4 ltac:(lia)). pose proof (Z.div_mod b 16 ltac:(lia)). pose proof (Z.mod_pos_bound b 16 ltac:(lia)).
    pose proof (Z.div_mod c 64 ltac:(lia)). pose proof (Z.mod_pos_bound c 64 ltac:(lia)).
    assert (0 <= b / 16 < 16) by lia. assert (0 <= c / 64 < 4) by lia.
    rewrite step_char by lia. change (0 =? 0) with true. cbv iota. rewrite step_char by lia. change (1 =? 0) with false. change (1 =? 1) with true. cbv iota.
    rewrite step_char by lia. change (2 =? 0) with false. change (2 =? 1) with false. change (2 =? 2) with true. cbv iota. rewrite step_char by lia. change (3 =? 0) with false. change (3 =? 1) with false. change (3 =? 2) with false. cbv iota.
    rewrite IH by exact Wr. cbn [bind].
    replace ((a mod 4 * 16 + b / 16) / 16) with (a mod 4) by (rewrite Z.div_add_l by lia; rewrite Z.div_small by lia; lia).
    replace ((a mod 4 * 16 + b / 16) mod 16) with (b / 16) by (rewrite Z.add_comm, Z_mod_plus_full; rewrite Z.mod_small; lia).
    replace ((b mod 16 * 4 + c / 64) / 4) with (b mod 16) by (rewrite Z.div_add_l by lia; rewrite Z.div_small by lia; lia).
    replace ((b mod 16 * 4 + c / 64) mod 4) with (c / 64) by (rewrite Z.add_comm, Z_mod_plus_full; rewrite Z.mod_small; lia).
    f_equal. f_equal; [lia|]. f_equal; [lia|]. f_equal. lia.
Qed.
(** The characters written. *)
Definition b64_out (c : Z) : Prop := is_b64 c \/ c = 61.
Lemma b64_chars s : wf_bytes s -> Forall b64_out (b64encode s).
Proof.
  assert (forall v, 0 <= v < 64 -> b64_out (b64_char v)) as C by (intros v Hv; left; now apply b64_char_ok).
  assert (b64_out 61) as P by now right.
  induction s as [|a|a b|a b c r IH] using list3_ind; intro W.
  - constructor.
  - inversion W as [|? ? Ha _]; subst. unfold is_byte in Ha. pose proof (Z.mod_pos_bound a 4 ltac:(lia)). pose proof (Z.div_mod a 4 ltac:(lia)). assert (0 <= a / 4 < 64) by lia. cbn [b64encode]. repeat (apply Forall_cons; [first [exact P | apply C; lia]|]); constructor.
  - inversion W as [|? ? Ha W']; subst. inversion W' as [|? ? Hb _]; subst. unfold is_byte in Ha, Hb. pose proof (Z.mod_pos_bound a 4 ltac:(lia)). pose proof (Z.div_mod a 4 ltac:(lia)). pose proof (Z.mod_pos_bound b 16 ltac:(lia)). pose proof (Z.div_mod b 16 ltac:(lia)). assert (0 <= a / 4 < 64) by lia. assert (0 <= b / 16 < 16) by lia.
    cbn [b64encode]. repeat (apply Forall_cons; [first [exact P | apply C; lia]|]); constructor.
  - inversion W as [|? ? Ha W']; subst. inversion W' as [|? ? Hb W'']; subst. inversion W'' as [|? ? Hc Wr]; subst. unfold is_byte in Ha, Hb, Hc.
    pose proof (Z.mod_pos_bound a 4 ltac:(lia)). pose proof (Z.div_mod a 4 ltac:(lia)). pose proof (Z.mod_pos_bound b 16 ltac:(lia)). pose proof (Z.div_mod b 16 ltac:(lia)). pose proof (Z.mod_pos_bound c 64 ltac:(lia)). pose proof (Z.div_mod c 64 ltac:(lia)). assert (0 <= a / 4 < 64) by lia. assert (0 <= b / 16 < 16) by lia. assert (0 <= c / 64 < 4) by lia.
    cbn [b64encode app]. repeat (constructor; [apply C; lia|]). auto.
Qed.
Lemma b64_out_line c : b64_out c -> c <> 10 /\ c <> 45 /\ is_space c = false.
Proof.
  unfold b64_out, is_b64, is_space. intro H. split; [lia|]. split; [lia|]. destruct (Z.eqb_spec c 32); [lia|]. destruct (Z.leb_spec 9 c), (Z.leb_spec c 13); try reflexivity. lia.
Qed.

(** ** Lines *)
Lemma split_line l s : Forall (fun c => c <> 10) l -> split_lines (l ++ 10 :: s) = l :: split_lines s.
Proof.
  induction 1 as [|c l Hc _ IH]; [reflexivity|]. cbn [app split_lines]. destruct (Z.eqb_spec c 10); [contradiction|]. now rewrite IH.
Qed.
Lemma split_lines_concat ls s : Forall (Forall (fun c => c <> 10)) ls -> split_lines (concat (map (fun l => l ++ [10]) ls) ++ s) = ls ++ split_lines s.
Proof.
  induction 1 as [|l ls Hl _ IH]; [reflexivity|]. cbn [map concat app]. rewrite <- !app_assoc. cbn [app]. rewrite split_line by exact Hl. now rewrite IH.
Qed.
Lemma starts_app p s : starts_with p (p ++ s) = true.
Proof. induction p as [|x p IH]; [reflexivity|]. cbn. now rewrite Z.eqb_refl, IH. Qed.
Lemma lstrip_none s : Forall (fun c => is_space c = false) s -> lstrip_space s = s.
Proof. intros [|c l Hc _]; [reflexivity|]. cbn. now rewrite Hc. Qed.
Lemma strip_none s : Forall (fun c => is_space c = false) s -> strip_space s = s.
Proof.
  intro H. unfold strip_space. rewrite (lstrip_none s H). rewrite lstrip_none by (apply Forall_rev; exact H). apply rev_involutive.
Qed.
Lemma lstrip_spaces w s : Forall (fun c => is_space c = true) w -> lstrip_space (w ++ s) = lstrip_space s.
Proof. induction 1 as [|c w Hc _ IH]; [reflexivity|]. cbn. now rewrite Hc. Qed.
Lemma strip_around w s w' : Forall (fun c => is_space c = true) w -> Forall (fun c => is_space c = true) w' -> Forall (fun c => is_space c = false) s -> strip_space (w ++ s ++ w') = s.
Proof.
  intros A B C. unfold strip_space. rewrite lstrip_spaces by exact A. destruct s as [|c s].
  - cbn [app]. rewrite <- (app_nil_r w'), lstrip_spaces by exact B. reflexivity.
  - inversion C as [|? ? Hc C']; subst. cbn [app lstrip_space]. rewrite Hc. change (c :: s ++ w') with ((c :: s) ++ w'). rewrite rev_app_distr, lstrip_spaces by (apply Forall_rev; exact B).
    rewrite lstrip_none by (apply Forall_rev; exact C). apply rev_involutive.
Qed.
Lemma chunks_concat n s : (length s <= n)%nat -> concat (chunks64 n s) = s.
Proof.
  revert s. induction n as [|n IH]; intros s L; destruct s as [|x s]; try reflexivity; [cbn in L; lia|].
  cbn [chunks64 concat]. rewrite IH.
  - apply ztake_zdrop.
  - pose proof (zlen_zdrop (x :: s) 64 ltac:(lia)) as E. unfold zlen in E. cbn [length] in *. lia.
Qed.
Lemma chunks_in n s l : In l (chunks64 n s) -> forall c, In c l -> In c s.
Proof.
  revert s. induction n as [|n IH]; intros s H c Hc; destruct s as [|x s]; try now destruct H. cbn [chunks64] in H. destruct H as [<-|H].
  - rewrite <- (ztake_zdrop (x :: s) 64). apply in_or_app. now left.
  - rewrite <- (ztake_zdrop (x :: s) 64). apply in_or_app. right. eapply IH; eassumption.
Qed.
Lemma chunks_shape n s : (length s <= n)%nat -> Forall (fun l => 1 <= zlen l <= 64) (chunks64 n s).
Proof.
  revert s. induction n as [|n IH]; intros s L; destruct s as [|x s]; try constructor.
  - cbn [chunks64]. rewrite zlen_ztake by lia. rewrite zlen_cons. pose proof (zlen_nonneg s). lia.
  - apply IH. pose proof (zlen_zdrop (x :: s) 64 ltac:(lia)) as E. unfold zlen in E. cbn [length] in *. lia.
Qed.
Lemma no_hyphen p c l : c <> 45 -> starts_with (45 :: p) (c :: l) = false.
Proof. intro H. cbn [starts_with]. destruct (Z.eqb_spec 45 c); [lia|reflexivity]. Qed.
Lemma filter_map_data ls : Forall (fun l => l <> [] /\ Forall b64_out l) ls -> concat (map strip_space (filter data_line ls)) = concat ls.
Proof.
  induction 1 as [|l ls (Hn & Hl) _ IH]; [reflexivity|]. cbn [filter]. assert (data_line l = true) as ->.
  { destruct l as [|c l]; [contradiction|]. inversion Hl as [|? ? Hc _]; subst. apply b64_out_line in Hc. unfold data_line. change (bs "-----") with (45 :: bs "----"). now rewrite no_hyphen. }
  cbn [map concat]. rewrite IH. f_equal. apply strip_none. eapply Forall_impl; [|exact Hl]. intros c Hc. now apply b64_out_line in Hc.
Qed.

Theorem unpem_topem der name : wf_bytes der -> Forall (fun c => c <> 10) name -> unpem (topem der name) = Ok der.
Proof.
  intros W Hn. unfold unpem, topem. set (b := b64encode der). pose proof (b64_chars der W) as Hb. fold b in Hb.
  set (ls := chunks64 (length b) b).
  assert (Forall (fun l => l <> [] /\ Forall b64_out l) ls) as Hls.
  { apply Forall_forall. intros l Hl. split.
    - intros ->. pose proof (chunks_shape (length b) b ltac:(lia)) as S. rewrite Forall_forall in S. specialize (S [] Hl). cbn in S. lia.
    - apply Forall_forall. intros c Hc. rewrite Forall_forall in Hb. apply Hb. eapply chunks_in; eassumption. }
  replace (bs "-----BEGIN " ++ name ++ bs "-----" ++ [10] ++ concat (map (fun l => l ++ [10]) ls) ++ bs "-----END " ++ name ++ bs "-----" ++ [10])
    with ((bs "-----BEGIN " ++ name ++ bs "-----") ++ 10 :: concat (map (fun l => l ++ [10]) ls) ++ (bs "-----END " ++ name ++ bs "-----") ++ 10 :: []) by (rewrite <- !app_assoc; reflexivity).
  rewrite split_line, split_lines_concat, split_line.
  - cbn [split_lines filter]. change (data_line (bs "-----BEGIN " ++ name ++ bs "-----")) with false. cbv iota. rewrite filter_app, map_app, concat_app.
    cbn [filter]. change (data_line (bs "-----END " ++ name ++ bs "-----")) with false. cbn [data_line map concat]. rewrite app_nil_r. rewrite filter_map_data by exact Hls.
    unfold ls. rewrite chunks_concat by lia. unfold b. now apply b64_roundtrip.
  - apply Forall_app. split; [|apply Forall_app; split; [exact Hn|]]; apply Forall_forall; intros x Hx; cbn in Hx; lia.
  - eapply Forall_impl; [|exact Hls]. intros l (_ & Hl). eapply Forall_impl; [|exact Hl]. intros c Hc. now apply b64_out_line in Hc.
  - apply Forall_app. split; [|apply Forall_app; split; [exact Hn|]]; apply Forall_forall; intros x Hx; cbn in Hx; lia.
Qed.

(** ** Any layout *)
Fixpoint join_lines (ls : list bytes) : bytes :=
  match ls with
  | [] => []
  | [l] => l
  | l :: rest => l ++ 10 :: join_lines rest
  end.
Lemma split_last l : Forall (fun c => c <> 10) l -> split_lines l = [l].
Proof.
  induction 1 as [|c l Hc _ IH]; [reflexivity|]. cbn [split_lines]. destruct (Z.eqb_spec c 10); [contradiction|]. now rewrite IH.
Qed.
Lemma split_join ls : ls <> [] -> Forall (Forall (fun c => c <> 10)) ls -> split_lines (join_lines ls) = ls.
Proof.
  intros N F. induction F as [|l ls Hl F IH]; [contradiction|]. destruct ls as [|l' ls]; [now apply split_last|].
  change (join_lines (l :: l' :: ls)) with (l ++ 10 :: join_lines (l' :: ls)). rewrite split_line by exact Hl. rewrite IH by discriminate. reflexivity.
Qed.
Definition blank (w : bytes) : Prop := Forall (fun c => is_space c = true /\ c <> 10) w.
Inductive pem_lines : list bytes -> bytes -> Prop :=
| lines_end : pem_lines [] []
| lines_armour rest ls b : Forall (fun c => c <> 10) rest -> pem_lines ls b -> pem_lines ((bs "-----" ++ rest) :: ls) b
| lines_data w x w' ls b : blank w -> blank w' -> pem_lines ls b -> pem_lines ((w ++ x ++ w') :: ls) (x ++ b).
Lemma pem_lines_data ls b : pem_lines ls b -> Forall b64_out b -> Forall (Forall (fun c => c <> 10)) ls /\ concat (map strip_space (filter data_line ls)) = b.
Proof.
  induction 1 as [|rest ls b Hr _ IH|w x w' ls b Hw Hw' _ IH]; intro F.
  - split; [constructor|reflexivity].
  - destruct (IH F) as (A & B). split.
    + constructor; [|exact A]. apply Forall_app. split; [apply Forall_forall; intros c Hc; cbn in Hc; lia|exact Hr].
    + cbn [filter]. change (data_line (bs "-----" ++ rest)) with (negb (starts_with (bs "-----") (bs "-----" ++ rest))). rewrite starts_app. exact B.
  - apply Forall_app in F. destruct F as (Fx & Fb). destruct (IH Fb) as (A & B). split.
    + constructor; [|exact A]. apply Forall_app. split; [eapply Forall_impl; [|exact Hw]; now intros c (_ & Hc)|]. apply Forall_app. split; [eapply Forall_impl; [|exact Fx]; intros c Hc; now apply b64_out_line in Hc|eapply Forall_impl; [|exact Hw']; now intros c (_ & Hc)].
    + assert (strip_space (w ++ x ++ w') = x) as E.
      { apply strip_around; [eapply Forall_impl; [|exact Hw]; now intros c (Hc & _)|eapply Forall_impl; [|exact Hw']; now intros c (Hc & _)|eapply Forall_impl; [|exact Fx]; intros c Hc; now apply b64_out_line in Hc]. }
      cbn [filter]. destruct (w ++ x ++ w') as [|c l] eqn:L.
      * cbn. rewrite B. assert (x = []) as -> by (destruct x; [reflexivity|]; destruct w; discriminate). reflexivity.
      * assert (c <> 45) as Hc.
        { destruct w as [|c0 w]; [destruct x as [|c0 x]; [destruct w' as [|c0 w']|]|]; cbn in L; try discriminate; assert (c0 = c) as <- by congruence.
          - inversion Hw' as [|? ? (Hs & _) _]; subst. intros ->. discriminate.
          - inversion Fx as [|? ? Hs _]; subst. now apply b64_out_line in Hs.
          - inversion Hw as [|? ? (Hs & _) _]; subst. intros ->. discriminate. }
        assert (data_line (c :: l) = true) as -> by (unfold data_line; change (bs "-----") with (45 :: bs "----"); now rewrite no_hyphen).
        cbn [map concat]. now rewrite E, B.
Qed.
Theorem unpem_layout ls der : wf_bytes der -> ls <> [] -> pem_lines ls (b64encode der) -> unpem (join_lines ls) = Ok der.
Proof.
  intros W N H. destruct (pem_lines_data ls _ H (b64_chars der W)) as (A & B). unfold unpem. rewrite split_join by assumption. rewrite B. now apply b64_roundtrip.
Qed.

(** ** The marker *)
Lemma starts_spec p s : starts_with p s = true <-> exists t, s = p ++ t.
Proof.
  revert s. induction p as [|x p IH]; intro s; [split; [now exists s|reflexivity]|]. destruct s as [|y s]; [split; [discriminate|intros (t & E); discriminate]|].
  cbn [starts_with]. rewrite andb_true_iff, Z.eqb_eq, IH. split.
  - intros (-> & t & ->). now exists t.
  - intros (t & E). cbn in E. split; [congruence|]. exists t. congruence.
Qed.
Lemma app_nl m : forall q rest t, Forall (fun c => c <> 10) m -> q ++ 10 :: rest = m ++ t -> exists t', q = m ++ t'.
Proof.
  induction m as [|x m IH]; intros q rest t F E; [now exists q|]. inversion F as [|? ? Hx F']; subst. destruct q as [|y q]; cbn in E.
  - assert (10 = x) by congruence. congruence.
  - assert (y = x) as -> by congruence. destruct (IH q rest t F' ltac:(congruence)) as (t' & ->). now exists t'.
Qed.
Lemma marker_skip m q rest : Forall (fun c => c <> 10) m -> m <> [] -> (forall a b, q <> a ++ m ++ b) -> from_marker m (q ++ 10 :: rest) = from_marker m rest.
Proof.
  intros F N. induction q as [|c q IH]; intro H.
  - cbn [app from_marker]. destruct (starts_with m (10 :: rest)) eqn:S; [|reflexivity]. apply starts_spec in S. destruct S as (t & E). destruct m as [|x m]; [contradiction|]. inversion F; subst. cbn in E. congruence.
  - cbn [app from_marker]. destruct (starts_with m (c :: q ++ 10 :: rest)) eqn:S.
    + apply starts_spec in S. destruct S as (t & E). destruct (app_nl m (c :: q) rest t F E) as (t' & E'). exfalso. exact (H [] t' E').
    + apply IH. intros a b E. apply (H (c :: a) b). cbn. now f_equal.
Qed.
Lemma marker_here m s : from_marker m (m ++ s) = Ok (m ++ s).
Proof. destruct (m ++ s) eqn:E; cbn [from_marker]; rewrite <- E, starts_app; reflexivity. Qed.
Lemma marker_missing m s : (forall a b, s <> a ++ m ++ b) -> from_marker m s = Raise ValueError.
Proof.
  induction s as [|c s IH]; intro H; cbn [from_marker].
  - destruct (starts_with m []) eqn:S; [|reflexivity]. apply starts_spec in S. destruct S as (t & E). exfalso. exact (H [] t E).
  - destruct (starts_with m (c :: s)) eqn:S.
    + apply starts_spec in S. destruct S as (t & E). exfalso. exact (H [] t E).
    + apply IH. intros a b E. apply (H (c :: a) b). cbn. now f_equal.
Qed.
