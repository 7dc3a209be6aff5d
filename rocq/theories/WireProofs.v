(** The messages have the documented layouts; address texts mean what the
    standards say. *)
From Coq Require Import String ZArith List Lia Bool.
From Verif Require Import PyBase PyVal PyTextProofs FormatModel FormatSpec FormatProofs FormatProofs2 MessagesModel MessagesProofs WireSpec.
Import ListNotations.
Open Scope string_scope.
Open Scope list_scope.
Open Scope Z_scope.

(** ** Address texts *)
Lemma hex_facts c : is_hex c -> digit_value c = hex_digit c /\ 0 <= hex_digit c < 16 /\ is_space c = false /\ c <> 43 /\ c <> 45 /\ c <> 46 /\ c <> 58 /\ c <> 120 /\ c <> 88.
Proof.
  intro H. unfold is_hex in H. unfold digit_value, hex_digit, is_space.
  destruct H as [H|[H|H]]; repeat match goal with |- context [?a <=? ?b] => destruct (Z.leb_spec a b); try lia end; cbn [andb orb]; destruct (Z.eqb_spec c 32); lia.
Qed.
Lemma dec_facts c : 48 <= c <= 57 -> digit_value c = c - 48 /\ 0 <= c - 48 < 10 /\ is_space c = false /\ c <> 43 /\ c <> 45 /\ c <> 46 /\ c <> 58 /\ c <> 120 /\ c <> 88.
Proof.
  intro H. unfold digit_value, is_space.
  repeat match goal with |- context [?a <=? ?b] => destruct (Z.leb_spec a b); try lia end; cbn [andb orb]; destruct (Z.eqb_spec c 32); lia.
Qed.
Lemma int_digits_gen base s : Forall (fun c => 0 <= digit_value c < base) s -> forall acc last, s <> [] \/ last = true ->
  int_digits base s acc last = Some (fold_left (fun a c => base * a + digit_value c) s acc).
Proof.
  induction 1 as [|c s Hc _ IH]; intros acc last Hne; cbn [int_digits fold_left].
  - destruct Hne as [Hne|Hne]; [congruence|]. now rewrite Hne.
  - destruct (Z.ltb_spec (digit_value c) base); [|lia]. rewrite IH by now right. do 2 f_equal. lia.
Qed.
Lemma int_of_text_gen base s : s <> [] -> Forall (fun c => 0 <= digit_value c < base) s ->
  Forall (fun c => is_space c = false /\ c <> 43 /\ c <> 45 /\ c <> 120 /\ c <> 88) s ->
  int_of_text base s = Some (fold_left (fun a c => base * a + digit_value c) s 0).
Proof.
  intros NE D F. destruct s as [|c s]; [congruence|]. pose proof (Forall_inv F) as (S1 & S2 & S3 & _). unfold int_of_text. cbn [drop_spaces]. rewrite S1. unfold take_sign.
  destruct (Z.eqb_spec c 43); [lia|]. destruct (Z.eqb_spec c 45); [lia|].
  assert (drop_0x (c :: s) = c :: s) as ->.
  { destruct s as [|d s]; [reflexivity|]. pose proof (Forall_inv (Forall_inv_tail F)) as (_ & _ & _ & S4 & S5). unfold drop_0x. destruct (Z.eqb_spec d 120); [lia|]. destruct (Z.eqb_spec d 88); [lia|]. now rewrite andb_false_r. }
  destruct (base =? 16); cbv zeta iota; (rewrite int_digits_gen; [reflexivity|exact D|left; discriminate]).
Qed.
Lemma fold_ext {A B} (f g : A -> B -> A) l : (forall a x, In x l -> f a x = g a x) -> forall a, fold_left f l a = fold_left g l a.
Proof. induction l as [|x l IH]; intros H a; cbn [fold_left]; [reflexivity|]. rewrite (H a x (or_introl eq_refl)). apply IH. intros; apply H; now right. Qed.
Lemma int_of_hex t : t <> [] -> Forall is_hex t -> int_of_text 16 t = Some (hex_value t).
Proof.
  intros NE F. rewrite int_of_text_gen; [|exact NE| |].
  - f_equal. unfold hex_value. apply fold_ext. intros a x I. rewrite Forall_forall in F. now rewrite (proj1 (hex_facts x (F x I))).
  - eapply Forall_impl; [|exact F]. intros c Hc. apply hex_facts in Hc. lia.
  - eapply Forall_impl; [|exact F]. intros c Hc. apply hex_facts in Hc. tauto.
Qed.
Lemma int_of_dec t : t <> [] -> Forall (fun c => 48 <= c <= 57) t -> int_of_text 10 t = Some (dec_value t).
Proof.
  intros NE F. rewrite int_of_text_gen; [|exact NE| |].
  - f_equal. unfold dec_value. apply fold_ext. intros a x I. rewrite Forall_forall in F. now rewrite (proj1 (dec_facts x (F x I))).
  - eapply Forall_impl; [|exact F]. intros c Hc. apply dec_facts in Hc. lia.
  - eapply Forall_impl; [|exact F]. intros c Hc. apply dec_facts in Hc. tauto.
Qed.
Lemma fold_bound base (f : Z -> Z) (t : text) : 1 < base -> (forall c, In c t -> 0 <= f c < base) -> forall a, 0 <= a ->
  0 <= fold_left (fun a c => base * a + f c) t a < (a + 1) * base ^ zlen t.
Proof.
  intro Hb. induction t as [|c t IH]; intros H a Ha; cbn [fold_left].
  - change (zlen []) with 0. rewrite Z.pow_0_r. lia.
  - pose proof (H c (or_introl eq_refl)). pose proof (IH (fun x I => H x (or_intror I)) (base * a + f c) ltac:(nia)) as B. rewrite zlen_cons. pose proof (zlen_nonneg t).
    rewrite Z.pow_add_r, Z.pow_1_r by lia. assert (0 < base ^ zlen t) by (apply Z.pow_pos_nonneg; lia). nia.
Qed.
Lemma hex_value_bound t : hex_group t -> 0 <= hex_value t < 65536.
Proof.
  intros [L F]. pose proof (fold_bound 16 hex_digit t ltac:(lia)) as B. specialize (B ltac:(intros c I; rewrite Forall_forall in F; now apply hex_facts, F) 0 ltac:(lia)).
  unfold hex_value. assert (16 ^ zlen t <= 16 ^ 4) by (apply Z.pow_le_mono_r; lia). change (16 ^ 4) with 65536 in *. lia.
Qed.
Lemma dec_value_nonneg t : Forall (fun c => 48 <= c <= 57) t -> 0 <= dec_value t.
Proof. intro F. apply (fold_bound 10 (fun c => c - 48) t ltac:(lia)); [|lia]. intros c I. rewrite Forall_forall in F. apply F in I. lia. Qed.
Lemma nonempty_len (t : text) : 1 <= zlen t -> t <> []. Proof. intros H ->. cbn in H. lia. Qed.
Lemma hex_no_colon t : hex_group t -> Forall (fun x => x <> 58) t /\ Forall (fun x => x <> 46) t /\ t <> [].
Proof. intros [L F]. split; [|split]; [| |apply nonempty_len; lia]; (eapply Forall_impl; [|exact F]); intros c Hc; apply hex_facts in Hc; tauto. Qed.
Lemma fill_hex n a r : Forall hex_group a -> ipv6_fill n (a ++ r) = match ipv6_fill n r with Some gs => Some (map hex_value a ++ gs) | None => None end.
Proof.
  induction 1 as [|t a Ht _ IH]; cbn [app map]; [now destruct (ipv6_fill n r)|]. destruct Ht as [L F]. pose proof (nonempty_len t ltac:(lia)) as NE. destruct t as [|c t]; [congruence|]. cbn [ipv6_fill].
  rewrite int_of_hex by (exact F || discriminate). rewrite IH. now destruct (ipv6_fill n r).
Qed.
Lemma groups_pack l : Forall hex_group l -> concat (map (be_bytes 2) (map hex_value l)) = groups_bytes l.
Proof. intro H. unfold groups_bytes. now rewrite map_map. Qed.
Lemma in_range l : Forall hex_group l -> forallb (fun g => (0 <=? g) && (g <=? 0xffff)) (map hex_value l) = true.
Proof. intro H. apply forallb_forall. intros x I. apply in_map_iff in I. destruct I as (t & <- & I). rewrite Forall_forall in H. pose proof (hex_value_bound t (H t I)). lia. Qed.
Lemma in_range' l : Forall hex_group l -> forallb (fun g => (0 <=? g) && (g <? 65536)) (map hex_value l) = true.
Proof. intro H. apply forallb_forall. intros x I. apply in_map_iff in I. destruct I as (t & <- & I). rewrite Forall_forall in H. pose proof (hex_value_bound t (H t I)). lia. Qed.
Lemma no_v4 parts : (exists a b r, parts = a :: b :: r) -> Forall (Forall (fun y => y <> 46)) parts -> ipv4_groups (join_with 58 parts) = None.
Proof.
  intros (a & b & r & E) F. unfold ipv4_groups. rewrite split_on_plain.
  - cbn [map_int]. rewrite (int_of_text_bad 10 _ 58); [reflexivity|reflexivity| |reflexivity]. rewrite E. change (join_with 58 (a :: b :: r)) with (a ++ 58 :: join_with 58 (b :: r)). apply in_or_app. right. now left.
  - clear E. induction F as [|p q Hp Hq IH]; [constructor|]. destruct q as [|p2 q]; [exact Hp|]. change (join_with 58 (p :: p2 :: q)) with (p ++ 58 :: join_with 58 (p2 :: q)).
    apply Forall_app. split; [exact Hp|]. constructor; [lia|exact IH].
Qed.
Lemma zlen_map' {A B} (f : A -> B) l : zlen (map f l) = zlen l. Proof. unfold zlen. now rewrite map_length. Qed.
Lemma count_empty_app a b : count_empty (a ++ b) = count_empty a + count_empty b.
Proof. unfold count_empty. now rewrite filter_app, zlen_app. Qed.
Lemma count_empty_hex a : Forall hex_group a -> count_empty a = 0.
Proof. induction 1 as [|t a Ht _ IH]; [reflexivity|]. change (t :: a) with ([t] ++ a). rewrite count_empty_app, IH. apply hex_no_colon in Ht. destruct Ht as (_ & _ & NE). destruct t; [congruence|reflexivity]. Qed.
Lemma trim_hex a : Forall hex_group a -> ipv6_trim a = a.
Proof.
  intro H. unfold ipv6_trim. assert (Forall (fun t : text => t <> []) a) as N by (eapply Forall_impl; [|exact H]; intros t Ht; apply (hex_no_colon t Ht)).
  assert (Forall (fun t : text => t <> []) (rev a)) as R by now apply Forall_rev.
  unfold text in *.
  destruct a as [|[|x s] a]; [reflexivity|inversion N; congruence|]. destruct (rev ((x :: s) :: a)) as [|[|y s'] q]; [reflexivity|inversion R; congruence|reflexivity].
Qed.
(** The parts of a compressed text. *)
Definition parts (a b : list text) : list text :=
  (match a with [] => [[]] | _ => a end) ++ [[]] ++ (match b with [] => [[]] | _ => b end).
Lemma join_app c a b : a <> [] -> b <> [] -> join_with c (a ++ b) = join_with c a ++ c :: join_with c b.
Proof.
  intros Ha Hb. induction a as [|x a IH]; [congruence|]. destruct a as [|y a].
  - destruct b as [|z b]; [congruence|reflexivity].
  - change ((x :: y :: a) ++ b) with (x :: y :: (a ++ b)). change (join_with c (x :: y :: (a ++ b))) with (x ++ c :: join_with c ((y :: a) ++ b)).
    rewrite IH by discriminate. change (join_with c (x :: y :: a)) with (x ++ c :: join_with c (y :: a)). now rewrite <- app_assoc.
Qed.
Lemma join_parts a b : join_with 58 (parts a b) = join_with 58 a ++ [58; 58] ++ join_with 58 b.
Proof.
  unfold parts. rewrite join_app by (destruct a; discriminate || discriminate). rewrite (join_app 58 [[]]) by (try discriminate; destruct b; discriminate).
  assert (forall l, join_with 58 (match l with [] => [[]] | _ => l end) = join_with 58 l) as E by now intros [|]. now rewrite !E.
Qed.
Lemma trim_parts a b : Forall hex_group a -> Forall hex_group b -> (a <> [] \/ b <> []) -> ipv6_trim (parts a b) = a ++ [[]] ++ b.
Proof.
  intros Ha Hb NE. unfold parts. destruct a as [|x a].
  - destruct b as [|y b]; [destruct NE; congruence|]. reflexivity.
  - pose proof (Forall_inv Ha) as Hx. apply hex_no_colon in Hx. destruct Hx as (_ & _ & Nx). unfold ipv6_trim. destruct x as [|x0 x]; [congruence|]. cbn [app].
    destruct b as [|y b].
    + change ((x0 :: x) :: a ++ [[]; []]) with (((x0 :: x) :: a) ++ [[]; []]). rewrite rev_app_distr. cbn [rev app]. rewrite rev_app_distr. cbn [rev app]. rewrite rev_involutive. reflexivity.
    + unfold text in *. assert (rev ((x0 :: x) :: a ++ [] :: y :: b) = rev (y :: b) ++ [] :: rev ((x0 :: x) :: a)) as ->.
      { change ((x0 :: x) :: a ++ [] :: y :: b) with (((x0 :: x) :: a) ++ [[]] ++ (y :: b)). rewrite !rev_app_distr. cbn [rev]. rewrite <- !app_assoc. reflexivity. }
      assert (Forall (fun t : text => t <> []) (rev (y :: b))) as R by (unfold text; apply Forall_rev; eapply Forall_impl; [|exact Hb]; intros t Ht; apply (hex_no_colon t Ht)).
      destruct (rev (y :: b)) as [|[|z s] q] eqn:E; [apply (f_equal (@List.length _)) in E; rewrite rev_length in E; discriminate|inversion R; congruence|reflexivity].
Qed.
Lemma zeros_pack n : concat (map (be_bytes 2) (repeat 0 n)) = repeat 0 (2 * n).
Proof. induction n as [|n IH]; [reflexivity|]. cbn [repeat map concat]. rewrite IH. replace (2 * S n)%nat with (S (S (2 * n))) by lia. reflexivity. Qed.
Theorem ip_standard t b : ip_denotes t b -> t <> [58; 58] -> ip_binary (VStr t) = Ok b.
Proof.
  intros H NE. destruct H as [l L F|l L F|a b' L Fa Fb].
  - assert (map_int 10 l = Some (map dec_value l) /\ forallb (fun g => (0 <=? g) && (g <=? 0xff)) (map dec_value l) = true) as [M R].
    { clear L NE. induction F as [|t l (Lt & Ft & Vt) _ (M & R)]; [split; reflexivity|]. cbn [map_int map forallb]. rewrite (int_of_dec t) by (exact Ft || (apply nonempty_len; lia)). rewrite M, R.
      pose proof (dec_value_nonneg t Ft). unfold dec_value in *. split; [reflexivity|]. lia. }
    cbn [ip_binary]. unfold ipv4_groups. change dot with 46. rewrite split_join.
    + rewrite M. rewrite zlen_map', L. change (negb (4 =? 4)) with false. cbv iota. rewrite R. reflexivity.
    + intros ->. discriminate L.
    + eapply Forall_impl; [|exact F]. intros t (_ & Ft & _). eapply Forall_impl; [|exact Ft]. intros c Hc. cbv beta in *. lia.
  - cbn [ip_binary]. change colon with 58 in *.
    assert (Forall (Forall (fun y => y <> 46)) l /\ Forall (Forall (fun y => y <> 58)) l) as [N46 N58] by (split; (eapply Forall_impl; [|exact F]); intros t Ht; apply (hex_no_colon t Ht)).
    rewrite no_v4; [|destruct l as [|x [|y l]]; cbn in L; try discriminate; eauto|exact N46]. unfold ipv6_groups. rewrite split_join; [|destruct l; discriminate|exact N58].
    rewrite trim_hex by exact F. rewrite count_empty_hex by exact F. rewrite L. change (8 <? 2) with false. change ((1 <? 0) || (8 <? 8)) with false. cbv iota zeta.
    pose proof (fill_hex 8 l [] F) as E. rewrite app_nil_r in E. rewrite E. cbn [ipv6_fill]. rewrite app_nil_r, in_range by exact F. cbn [bind]. unfold pack_groups. rewrite zlen_map', L, in_range' by exact F. cbn [Z.eqb Pos.eqb andb].
    now rewrite groups_pack.
  - change colon with 58 in *. rewrite <- join_parts. assert (a <> [] \/ b' <> []) as NN by (destruct a; [right|left; discriminate]; destruct b'; [cbn in NE; congruence|discriminate]).
    assert (Forall (Forall (fun y => y <> 46)) (parts a b') /\ Forall (Forall (fun y => y <> 58)) (parts a b')) as [N46 N58].
    { assert (forall c l, c = 46 \/ c = 58 -> Forall hex_group l -> Forall (Forall (fun y => y <> c)) (match l with [] => [[]] | _ => l end)) as G.
      { intros c l Hc Hl. destruct l as [|x l]; [repeat constructor|]. eapply Forall_impl; [|exact Hl]. intros t Ht. destruct Hc as [E|E]; rewrite E; apply (hex_no_colon t Ht). }
      split; unfold parts; repeat (apply Forall_app; split); auto; repeat constructor. }
    assert (exists x y r, parts a b' = x :: y :: r) as P2 by (unfold parts; destruct a as [|x [|x' a]]; cbn [app]; eauto).
    assert (2 <= zlen (parts a b')) as P3 by (destruct P2 as (x & y & r & E); rewrite E, !zlen_cons; pose proof (zlen_nonneg r); lia).
    cbn [ip_binary]. rewrite no_v4 by assumption. unfold ipv6_groups. rewrite split_join; [|destruct P2 as (x & y & r & E); rewrite E; discriminate|exact N58].
    destruct (Z.ltb_spec (zlen (parts a b')) 2); [lia|]. cbv zeta. rewrite trim_parts by assumption.
    set (n := zlen (a ++ [[]] ++ b')). assert (n = zlen a + zlen b' + 1) as En by (unfold n; rewrite !zlen_app; change (zlen [[]]) with 1; lia).
    rewrite !count_empty_app, (count_empty_hex a Fa), (count_empty_hex b' Fb). change (1 <? 0 + (count_empty [[]] + 0)) with false. destruct (Z.ltb_spec 8 n); [lia|]. cbn [orb].
    rewrite fill_hex by exact Fa. cbn [app ipv6_fill]. pose proof (fill_hex n b' [] Fb) as E. rewrite app_nil_r in E. rewrite E. cbn [ipv6_fill]. rewrite app_nil_r.
    assert (forall m, forallb (fun g => (0 <=? g) && (g <=? 0xffff)) (repeat 0 m) = true /\ forallb (fun g => (0 <=? g) && (g <? 65536)) (repeat 0 m) = true) as Z0 by (induction m as [|m [I1 I2]]; [split; reflexivity|]; cbn [repeat forallb]; rewrite I1, I2; split; reflexivity).
    rewrite !forallb_app, (in_range a Fa), (in_range b' Fb), (proj1 (Z0 _)). cbn [andb bind]. unfold pack_groups. pose proof (zlen_nonneg a). pose proof (zlen_nonneg b').
    rewrite !zlen_app, !zlen_map', zlen_repeat. rewrite !forallb_app, (in_range' a Fa), (in_range' b' Fb), (proj2 (Z0 _)).
    destruct (Z.eqb_spec (zlen a + (Z.of_nat (Z.to_nat (9 - n)) + zlen b')) 8); [|lia]. cbn [andb]. rewrite !map_app, !concat_app, (groups_pack a Fa), (groups_pack b' Fb), zeros_pack.
    do 4 f_equal. lia.
Qed.

(** ** Layouts *)
Fixpoint wire_of (t : ft) : wire :=
  match t with
  | FNumber f big _ => if big then IntBE (nf_len f) else Int (nf_len f)
  | FVarInt => Compact
  | FIP => Ip
  | FBytes n => Raw n
  | FVarStr => VarBytes
  | FArray c _ _ => Vec (wire_of c)
  | FCompound _ ps => Rec (map (fun e => (fst e, wire_of (snd e))) ps)
  | FCompoundNoTs _ ps => Rec (tl (map (fun e => (fst e, wire_of (snd e))) ps))
  | FOptional c _ => wire_of c
  end.
Definition layout_of (ps : list (string * ft)) : list (string * wire) := map (fun e => (fst e, wire_of (snd e))) ps.
Definition ip_code (t : text) (b : bytes) : Prop := ip_binary (VStr t) = Ok b.
(** What the encoder writes for a size. *)
Definition size_code (z : Z) (b : bytes) : Prop := compact_size z b /\ (canonical_size z b \/ z = 0xffff \/ z = 0xffffffff).

Lemma encodes_rec S I fields c fs b : encodes S I (Rec fields) (VObj c fs) b <-> encodes_fields S I fields fs b.
Proof.
  cbn [encodes]. split.
  - intros (c' & fs' & E & H). assert (fs' = fs) as -> by congruence. clear E. revert b H. induction fields as [|[k w] r IH]; intros b H; [exact H|].
    destruct H as (x & b1 & b2 & A & B & C & D). cbn [encodes_fields]. exists x, b1, b2. split; [exact A|]. split; [exact B|]. split; [now apply IH|exact D].
  - intro H. exists c, fs. split; [reflexivity|]. revert b H. induction fields as [|[k w] r IH]; intros b H; [exact H|].
    cbn [encodes_fields] in H. destruct H as (x & b1 & b2 & A & B & C & D). exists x, b1, b2. split; [exact A|]. split; [exact B|]. split; [now apply IH|exact D].
Qed.
Lemma encodes_fields_ext S I fields fs fs' b : (forall k w, In (k, w) fields -> assoc k fs = assoc k fs') -> encodes_fields S I fields fs b -> encodes_fields S I fields fs' b.
Proof.
  revert b. induction fields as [|[k w] r IH]; intros b H E; [exact E|]. cbn [encodes_fields] in *. destruct E as (x & b1 & b2 & A & B & C & D).
  exists x, b1, b2. split; [rewrite <- (H k w ltac:(now left)); exact A|]. split; [exact B|]. split; [|exact D]. apply IH; [|exact C]. intros k' w' HI. apply (H k' w'). now right.
Qed.
Lemma size_small z b : struct_pack FB false z = Ok b -> z < 0xfd -> compact_size z b /\ canonical_size z b.
Proof.
  intros H L. apply struct_pack_ok in H. destruct H as [R ->]. cbn in R. assert (le_bytes (nf_len FB) z = [z]) as -> by (cbn; rewrite Z.mod_small by lia; reflexivity).
  assert (compact_size z [z]) as C by (left; split; [lia|reflexivity]). split; [exact C|]. split; [exact C|]. intros b' [[_ ->]|[[_ ->]|[[_ ->]|[_ ->]]]]; cbn; lia.
Qed.
Lemma size_binary z b : varint_binary z = Ok b -> size_code z b.
Proof.
  unfold varint_binary. destruct (Z.ltb_spec z 0xfd) as [L|L]; [intro H; destruct (size_small z b H L) as [A B]; split; [exact A|now left]|].
  assert (forall b', compact_size z b' -> 3 <= zlen b') as G3 by (intros b' [[? ->]|[[_ ->]|[[_ ->]|[_ ->]]]]; [lia| | |]; rewrite zlen_cons, zlen_le_bytes; lia).
  destruct (Z.ltb_spec z 0xffff) as [L2|L2]; [|destruct (Z.ltb_spec z 0xffffffff) as [L3|L3]]; intro H; bind_inv H; inv H; apply struct_pack_ok in H0; destruct H0 as [R ->]; cbn in R.
  - assert (compact_size z (0xfd :: le_bytes 2 z)) as C by (right; left; split; [lia|reflexivity]). split; [exact C|]. left. split; [exact C|]. intros b' Hb'. apply G3 in Hb'. rewrite zlen_cons, zlen_le_bytes. cbn. lia.
  - assert (compact_size z (0xfe :: le_bytes 4 z)) as C by (right; right; left; split; [lia|reflexivity]). split; [exact C|]. destruct (Z.eq_dec z 0xffff); [right; now left|]. left. split; [exact C|].
    intros b' [[? ->]|[[? ->]|[[_ ->]|[_ ->]]]]; try lia; rewrite !zlen_cons, !zlen_le_bytes; cbn; lia.
  - assert (compact_size z (0xff :: le_bytes 8 z)) as C by (right; right; right; split; [lia|reflexivity]). split; [exact C|]. destruct (Z.eq_dec z 0xffffffff); [right; now right|]. left. split; [exact C|].
    intros b' [[? ->]|[[? ->]|[[? ->]|[_ ->]]]]; try lia. rewrite !zlen_cons, !zlen_le_bytes. cbn. lia.
Qed.
Lemma num_code v f big b : num_binary f big v = Ok b -> exists z, num_value v = Some z /\ struct_pack f big z = Ok b.
Proof.
  destruct v as [|z|b0|x| | | | | |]; cbn [num_binary]; intro H; try discriminate; [eexists; split; [reflexivity|exact H]|eexists; split; [reflexivity|exact H]|].
  destruct x as [m e|neg|]; cbn [float_trunc bind] in H; try discriminate. eexists. split; [reflexivity|exact H].
Qed.
Section Encoded.
(** For any description [S] of the sizes the library writes. *)
Variable S : Z -> bytes -> Prop.
Hypothesis SB : forall z b, varint_binary z = Ok b -> S z b.
Lemma fields_encode ps : Forall (fun e => forall v b, wf_ft (snd e) -> wt (snd e) v -> binary (snd e) v = Ok b -> encodes S ip_code (wire_of (snd e)) v b) ps ->
  wf_fts ps -> NoDup (map fst ps) -> forall fs b, wt_fields ps fs -> fields_binary ps fs = Ok b -> encodes_fields S ip_code (layout_of ps) fs b.
Proof.
  induction 1 as [|[k t] ps Ht _ IH]; intros W N fs b T B; cbn [layout_of map encodes_fields fst snd].
  - cbn in B. inv B. reflexivity.
  - destruct fs as [|[k' x] fs]; [contradiction|]. cbn in T. destruct T as (-> & Tx & Tf). cbn [map fst] in N. inv N. cbn in W. destruct W as [W1 W2].
    cbn [fields_binary assoc] in B. rewrite String.eqb_refl in B. rewrite fields_binary_skip in B by assumption. bind_inv B. bind_inv B. inv B.
    exists x. eexists _, _. split; [cbn [assoc]; now rewrite String.eqb_refl|]. split; [apply Ht; eassumption|]. split; [|reflexivity].
    apply (encodes_fields_ext _ _ (layout_of ps) fs); [|apply IH; assumption]. intros k0 w HI. cbn [assoc]. destruct (String.eqb_spec k0 k) as [->|]; [|reflexivity]. exfalso. apply H1. apply in_map_iff in HI. destruct HI as ([k1 t1] & E & HI). cbn in E. inv E. now apply (in_map fst) in HI.
Qed.
Lemma binary_encodes t : forall v b, wf_ft t -> wt t v -> binary t v = Ok b -> encodes S ip_code (wire_of t) v b.
Proof.
  induction t using ft_ind'; intros v bb Hwf Hwt Hb.
  - cbn [binary wire_of] in *. destruct (num_code _ _ _ _ Hb) as (z & Hz & Hp). apply struct_pack_ok in Hp. destruct Hp as [_ Hp]. destruct b; cbn [encodes]; eauto.
  - cbn [binary wire_of encodes] in *. assert (exists z, num_value v = Some z /\ varint_binary z = Ok bb) as (z & Hz & Hp) by (destruct v; try discriminate; eexists; (split; [reflexivity|exact Hb])).
    exists z. split; [exact Hz|]. now apply SB.
  - cbn [binary wire_of encodes] in *. destruct v; cbn [ip_binary] in Hb; try discriminate. eexists. split; [reflexivity|exact Hb].
  - cbn [binary wire_of encodes wt] in *. destruct v; try contradiction. inv Hb. split; [reflexivity|tauto].
  - cbn [binary wire_of encodes wt] in *. unfold varstr_binary in Hb. destruct v; try contradiction; cbn [bind] in Hb.
    + unfold latin1 in Hb. destruct (forallb _ s); [|discriminate]. cbn [bind] in Hb. bind_inv Hb. inv Hb. eexists _, _. split; [reflexivity|]. split; [apply SB; eassumption|reflexivity].
    + bind_inv Hb. inv Hb. eexists _, _. split; [reflexivity|]. split; [apply SB; eassumption|reflexivity].
  - cbn [wf_ft] in Hwf. destruct Hwf as (Hwf & _). cbn [wire_of encodes].
    assert (exists l, (v = VList l \/ v = VTuple l) /\ Forall (wt t) l /\ (let! n := varint_binary (zlen l) in let! items := sequence (map (binary t) l) in Ok (n ++ concat items)) = Ok bb) as (l & Hv & Hl & B).
    { cbn [wt binary] in *. destruct v; try contradiction; eauto. }
    bind_inv B. bind_inv B. inv B. exists l, x, x0. split; [exact Hv|]. split; [now apply SB|]. split; [|reflexivity].
    apply sequence_ok in H0. clear - Hl H0 IHt Hwf. revert x0 H0. induction Hl as [|v l Hv Hl IH]; intros it Hs; inv Hs; constructor; auto.
  - cbn [wf_ft] in Hwf. destruct Hwf as (Hnd & Hwf). rewrite wf_fts_go in Hwf. apply wt_compound in Hwt. destruct Hwt as (fs & -> & Hwt). rewrite binary_compound in Hb.
    cbn [wire_of]. apply encodes_rec. now apply fields_encode.
  - cbn [wf_ft] in Hwf. destruct Hwf as (Hnd & (k & a & r & ->) & Hwf). rewrite wf_fts_go in Hwf. apply wt_compoundnots in Hwt. destruct Hwt as (fs & -> & Hwt). rewrite binary_compoundnots in Hb.
    bind_inv Hb. inv Hb. cbn [wire_of]. apply encodes_rec. cbn [map tl fst snd].
    assert (encodes_fields S ip_code (layout_of ((k, FNumber FI false a) :: r)) fs x) as E.
    { now apply fields_encode. }
    cbn [layout_of map encodes_fields fst snd wire_of encodes] in E. destruct E as (y & b1 & b2 & _ & (z & _ & ->) & E & ->).
    rewrite zdrop_app_exact by (rewrite zlen_le_bytes; reflexivity). exact E.
  - cbn [wf_ft wt binary wire_of] in *. destruct Hwf as (Hwf & _). eauto.
Qed.
Lemma fields_encodes_by ps fs b : wf_fts ps -> NoDup (map fst ps) -> wt_fields ps fs -> fields_binary ps fs = Ok b -> encodes_fields S ip_code (layout_of ps) fs b.
Proof. intros W N T B. apply fields_encode; try assumption. apply Forall_forall. intros e _ v b0 A1 A2 A3. now apply binary_encodes. Qed.
End Encoded.
Lemma fields_encodes ps fs b : wf_fts ps -> NoDup (map fst ps) -> wt_fields ps fs -> fields_binary ps fs = Ok b -> encodes_fields size_code ip_code (layout_of ps) fs b.
Proof. apply fields_encodes_by. exact size_binary. Qed.

(** ** Reading a conforming message *)
(** The sizes that can be read: all forms but the nine-byte one. *)
Definition size_read (z : Z) (b : bytes) : Prop := compact_size z b /\ hd 0 b <> 0xff.
Lemma varint_parse_size z b rest : size_read z b -> varint_parse (b ++ rest) = Ok (zlen b, z).
Proof.
  intros [[[R ->]|[[R ->]|[[R ->]|[R ->]]]] H]; cbn [hd] in H; try congruence.
  - cbn [app varint_parse]. destruct (Z.eqb_spec z 0xfd); [lia|]. destruct (Z.eqb_spec z 0xfe); [lia|]. reflexivity.
  - cbn [app varint_parse]. change (0xfd =? 0xfd) with true. cbv iota. change (253 :: le_bytes 2 z ++ rest) with ([253] ++ le_bytes 2 z ++ rest). rewrite slice_app_mid by (rewrite ?zlen_le_bytes; reflexivity).
    assert (struct_pack FH false z = Ok (le_bytes 2 z)) as P by (unfold struct_pack; change (struct_range FH) with (0, 65536); cbv beta iota; replace ((0 <=? z) && (z <? 65536)) with true by lia; reflexivity).
    rewrite (struct_unpack_pack _ _ _ _ P). reflexivity.
  - cbn [app varint_parse]. change (0xfe =? 0xfd) with false. change (0xfe =? 0xfe) with true. cbv iota. change (254 :: le_bytes 4 z ++ rest) with ([254] ++ le_bytes 4 z ++ rest). rewrite slice_app_mid by (rewrite ?zlen_le_bytes; reflexivity).
    assert (struct_pack FI false z = Ok (le_bytes 4 z)) as P by (unfold struct_pack; change (struct_range FI) with (0, 4294967296); cbv beta iota; replace ((0 <=? z) && (z <? 4294967296)) with true by lia; reflexivity).
    rewrite (struct_unpack_pack _ _ _ _ P). reflexivity.
Qed.
Definition reads (t : ft) : Prop := forall v b, wf_ft t -> wt t v -> encodes size_read ip_code (wire_of t) v b -> forall rest, parse t (b ++ rest) = Ok (zlen b, canon t v).
Lemma fields_read ps : Forall (fun e => reads (snd e)) ps -> wf_fts ps -> NoDup (map fst ps) ->
  forall fs b pre rest, wt_fields ps fs -> encodes_fields size_read ip_code (layout_of ps) fs b ->
  fields_parse ps (zlen pre) (pre ++ b ++ rest) = Ok (zlen pre + zlen b, canon_fields ps fs).
Proof.
  induction 1 as [|[k t] ps Ht _ IH]; intros W N fs b pre rest T E.
  - cbn in E. subst b. cbn [fields_parse canon_fields]. change (zlen []) with 0. now rewrite Z.add_0_r.
  - destruct fs as [|[k' x] fs]; [contradiction|]. cbn in T. destruct T as (-> & Tx & Tf). cbn [map fst] in N. inv N. cbn in W. destruct W as [W1 W2].
    cbn [layout_of map encodes_fields fst snd] in E. destruct E as (y & b1 & b2 & A & B & C & ->). cbn [assoc] in A. rewrite String.eqb_refl in A. assert (y = x) as -> by congruence.
    cbn [fields_parse canon_fields]. rewrite zdrop_app_exact by reflexivity. rewrite <- app_assoc. rewrite (Ht x b1 W1 Tx B). cbn [bind].
    assert (encodes_fields size_read ip_code (layout_of ps) fs b2) as C'.
    { apply (encodes_fields_ext _ _ _ ((k, x) :: fs)); [|exact C]. intros k0 w HI. cbn [assoc]. destruct (String.eqb_spec k0 k) as [->|]; [|reflexivity]. exfalso. apply H1. apply in_map_iff in HI. destruct HI as ([k1 t1] & E & HI). cbn in E. inv E. now apply (in_map fst) in HI. }
    specialize (IH W2 H2 fs b2 (pre ++ b1) rest Tf C'). rewrite zlen_app in IH. rewrite <- app_assoc in IH. rewrite IH. cbn [bind]. rewrite zlen_app. do 2 f_equal. lia.
Qed.
Lemma items_read t l : (forall v b rest, wt t v -> encodes size_read ip_code (wire_of t) v b -> parse t (b ++ rest) = Ok (zlen b, canon t v)) ->
  Forall (wt t) l -> forall bs pre rest, Forall2 (encodes size_read ip_code (wire_of t)) l bs ->
  parse_items (parse t) (List.length l) (pre ++ concat bs ++ rest) (zlen pre) = Ok (zlen pre + zlen (concat bs), map (canon t) l).
Proof.
  intros P. induction 1 as [|v l Hv _ IH]; intros bs pre rest F; inv F.
  - cbn. now rewrite Z.add_0_r.
  - cbn [List.length parse_items concat map]. rewrite zdrop_app_exact by reflexivity. rewrite <- app_assoc. rewrite (P v y _ Hv) by assumption. cbn [bind].
    specialize (IH l' (pre ++ y) rest H3). rewrite zlen_app, <- app_assoc in IH. rewrite IH. cbn [bind]. rewrite zlen_app. do 2 f_equal. lia.
Qed.
Lemma parse_reads t : reads t.
Proof.
  induction t using ft_ind'; unfold reads; intros v bb Hwf Hwt He rest.
  - cbn [wire_of parse canon wt] in *.
    assert (exists z, num_value v = Some z /\ fst (struct_range f) <= z < snd (struct_range f)) as (z & Hz & Hr).
    { destruct v as [|z|b0|x| | | | | |]; cbn in Hwt; try contradiction; [eexists; split; [reflexivity|exact Hwt]| |].
      - eexists. split; [reflexivity|]. destruct b0, f; cbn; lia.
      - destruct Hwt as (_ & z & E & R). eauto. }
    assert (bb = if b then be_bytes (nf_len f) z else le_bytes (nf_len f) z) as -> by (destruct b; cbn [encodes] in He; destruct He as (z' & E & ->); congruence).
    assert (struct_pack f b z = Ok (if b then be_bytes (nf_len f) z else le_bytes (nf_len f) z)) as P.
    { unfold struct_pack. destruct (struct_range f) as [lo hi]. cbn in Hr. replace ((lo <=? z) && (z <? hi)) with true by lia. reflexivity. }
    pose proof (zlen_pack _ _ _ _ P) as Hl. unfold num_parse. rewrite ztake_app_exact by lia. rewrite (struct_unpack_pack _ _ _ _ P). cbn [bind]. rewrite Hz, Hl. reflexivity.
  - cbn [wire_of parse canon encodes] in *. destruct He as (z & Hz & Hs). rewrite (varint_parse_size z bb rest Hs). cbn [bind]. now rewrite Hz.
  - cbn [wire_of parse encodes] in *. destruct He as (t & -> & Hi). pose proof (ip_binary_len _ _ Hi) as (Hl & _). rewrite (ip_roundtrip (VStr t) bb) by exact Hi. now rewrite Hl.
  - cbn [wire_of parse encodes canon] in *. destruct He as (-> & Hl). rewrite ztake_app_exact by lia. now rewrite Hl.
  - cbn [wire_of parse encodes canon wt] in *. destruct He as (s & p & Hc & Hs & ->). unfold varstr_parse. rewrite <- app_assoc. rewrite (varint_parse_size _ _ _ Hs). cbn [bind].
    rewrite slice_app_mid by lia. rewrite zlen_app. do 2 f_equal. destruct v; cbn in Hc; try discriminate; inv Hc; reflexivity.
  - cbn [wf_ft] in Hwf. destruct Hwf as (Hwf & _). cbn [wire_of encodes] in He. destruct He as (l & p & bs & Hv & Hs & F & ->).
    assert (Forall (wt t) l) as Hl by (destruct Hv; subst v; exact Hwt). cbn [parse]. unfold parse_var_set. rewrite <- app_assoc. rewrite (varint_parse_size _ _ _ Hs). cbn [bind].
    replace (Z.to_nat (zlen l)) with (List.length l) by (unfold zlen; lia). rewrite (items_read t l) by (auto || (intros; apply IHt; assumption)). cbn [bind]. rewrite zlen_app. destruct Hv; subst v; reflexivity.
  - cbn [wf_ft] in Hwf. destruct Hwf as (Hnd & Hwf). rewrite wf_fts_go in Hwf. apply wt_compound in Hwt. destruct Hwt as (fs & -> & Hwt). cbn [wire_of] in He. apply encodes_rec in He.
    rewrite parse_compound. pose proof (fields_read ps H Hwf Hnd fs bb [] rest Hwt He) as R. cbn [app] in R. change (zlen []) with 0 in R. rewrite R. cbn [bind]. rewrite canon_compound. reflexivity.
  - cbn [wf_ft] in Hwf. destruct Hwf as (Hnd & (k & a & r & ->) & Hwf). rewrite wf_fts_go in Hwf. apply wt_compoundnots in Hwt. destruct Hwt as (fs & -> & Hwt). cbn [wire_of map tl fst snd] in He. apply encodes_rec in He.
    destruct fs as [|[k' x] fs]; [contradiction|]. cbn in Hwt. destruct Hwt as (-> & Tx & Tf). cbn in Hwf. destruct Hwf as [_ W2]. cbn [map fst] in Hnd. inv Hnd.
    assert (encodes_fields size_read ip_code (layout_of r) fs bb) as C'.
    { apply (encodes_fields_ext _ _ _ ((k, x) :: fs)); [|exact He]. intros k0 w HI. cbn [assoc]. destruct (String.eqb_spec k0 k) as [->|]; [|reflexivity]. exfalso. apply H2. apply in_map_iff in HI. destruct HI as ([k1 t1] & E & HI). cbn in E. inv E. now apply (in_map fst) in HI. }
    pose proof (fields_read r (Forall_inv_tail H) W2 H3 fs bb [0;0;0;0] rest Tf C') as R. rewrite parse_compoundnots. cbn [fields_parse]. rewrite zdrop_0.
    assert (parse (FNumber FI false a) ([0; 0; 0; 0] ++ bb ++ rest) = Ok (4, VInt 0)) as -> by (cbn [parse]; unfold num_parse; rewrite ztake_app_exact by reflexivity; reflexivity). cbv iota. change (0 + 4) with 4. change (zlen [0;0;0;0]) with 4 in R. rewrite R. cbn [bind].
    rewrite canon_compoundnots. cbn [canon_fields]. do 2 f_equal. lia.
  - cbn [wf_ft wt wire_of parse canon] in *. destruct Hwf as (Hwf & _). rewrite (IHt v bb Hwf Hwt He rest). reflexivity.
Qed.
Lemma fields_reads ps fs b rest : wf_fts ps -> NoDup (map fst ps) -> wt_fields ps fs -> encodes_fields size_read ip_code (layout_of ps) fs b ->
  fields_parse ps 0 (b ++ rest) = Ok (zlen b, canon_fields ps fs).
Proof. intros W N T E. apply (fields_read ps ltac:(apply Forall_forall; intros; apply parse_reads) W N fs b [] rest T E). Qed.
