(** Lemmas on Python's text/number conversions. *)
From Coq Require Import String ZArith List Lia Bool Program.Wf.
From Verif Require Import PyBase PyVal.
Import ListNotations.
Open Scope Z_scope.

(** Characters produced by [digit_char] for digits below [base]. *)
Definition digitc (base c : Z) : Prop := exists d, 0 <= d < base /\ c = digit_char d.

Lemma digit_value_char d : 0 <= d < 16 -> digit_value (digit_char d) = d.
Proof.
  intro H. assert (d = 0 \/ d = 1 \/ d = 2 \/ d = 3 \/ d = 4 \/ d = 5 \/ d = 6 \/ d = 7 \/
    d = 8 \/ d = 9 \/ d = 10 \/ d = 11 \/ d = 12 \/ d = 13 \/ d = 14 \/ d = 15) as E by lia.
  repeat (destruct E as [->|E]; [reflexivity|]). subst; reflexivity.
Qed.

Fixpoint digits_val (base : Z) (s : text) (acc : Z) : Z :=
  match s with
  | [] => acc
  | c :: r => digits_val base r (acc * base + digit_value c)
  end.

Lemma int_digits_all base s acc last :
  2 <= base <= 16 -> Forall (digitc base) s -> (s <> [] \/ last = true) ->
  int_digits base s acc last = Some (digits_val base s acc).
Proof.
  intros Hb H. revert acc last. induction H as [|c r (d & Hd & ->) Hr IH]; intros acc last Hne.
  - cbn. destruct Hne as [Hne| ->]; [contradiction|reflexivity].
  - cbn [int_digits digits_val]. rewrite digit_value_char by lia.
    replace (d <? base) with true by (symmetry; apply Z.ltb_lt; lia).
    apply IH. right; reflexivity.
Qed.

Lemma digits_aux_spec base : 2 <= base <= 16 ->
  forall fuel x acc, 0 <= x < 2 ^ Z.of_nat fuel -> Forall (digitc base) acc -> fuel <> O ->
  exists s, digits_aux fuel base x acc = s ++ acc /\ s <> [] /\ Forall (digitc base) s /\
            forall a, digits_val base s a = a * base ^ zlen s + x.
Proof.
  intro Hb. induction fuel as [|k IH]; intros x acc Hx Hacc Hf; [contradiction|].
  cbn [digits_aux]. destruct (Z.ltb_spec x base).
  - exists [digit_char x]. repeat split; [discriminate|constructor;[exists x; split; [lia|reflexivity]|constructor]|].
    intro a. cbn [digits_val]. rewrite digit_value_char by lia.
    change (zlen [digit_char x]) with 1. rewrite Z.pow_1_r. lia.
  - rewrite Nat2Z.inj_succ, Z.pow_succ_r in Hx by lia.
    assert (0 <= x / base < 2 ^ Z.of_nat k) as Hq.
    { split; [apply Z.div_pos; lia|].
      apply Z.div_lt_upper_bound; [lia|].
      assert (0 < 2 ^ Z.of_nat k) by (apply Z.pow_pos_nonneg; lia). nia. }
    assert (k <> O) as Hk.
    { intros ->. cbn in Hx. lia. }
    assert (0 <= x mod base < base) as Hm by (apply Z.mod_pos_bound; lia).
    destruct (IH (x / base) (digit_char (x mod base) :: acc) Hq) as (s & Hs & Hne & Hd & Hv); auto.
    { constructor; [|assumption]. exists (x mod base). split; [lia|reflexivity]. }
    exists (s ++ [digit_char (x mod base)]). rewrite Hs, <- app_assoc. repeat split; auto.
    + destruct s; discriminate.
    + apply Forall_app. split; auto. constructor; [|constructor].
      exists (x mod base). split; [lia|reflexivity].
    + intro a.
      assert (forall t b, digits_val base (t ++ [digit_char (x mod base)]) b =
                digits_val base t b * base + x mod base) as Happ.
      { induction t as [|c t IHt]; intro b; cbn [app digits_val].
        - rewrite digit_value_char by lia. reflexivity.
        - apply IHt. }
      rewrite Happ, Hv, zlen_app. change (zlen [digit_char (x mod base)]) with 1.
      pose proof (zlen_nonneg s). rewrite Z.pow_add_r, Z.pow_1_r by lia.
      pose proof (Z.div_mod x base ltac:(lia)). nia.
Qed.

Lemma text_of_int_spec base x : 2 <= base <= 16 -> 0 <= x ->
  text_of_int base x <> [] /\ Forall (digitc base) (text_of_int base x) /\
  digits_val base (text_of_int base x) 0 = x.
Proof.
  intros Hb Hx. unfold text_of_int.
  destruct (digits_aux_spec base Hb (S (Z.to_nat (Z.log2 x))) x []) as (s & Hs & Hne & Hd & Hv);
    [|constructor|discriminate|].
  - split; [lia|]. rewrite Nat2Z.inj_succ, Z2Nat.id by apply Z.log2_nonneg.
    destruct (Z.eq_dec x 0) as [->|]; [cbn; lia|]. apply Z.log2_spec; lia.
  - rewrite app_nil_r in Hs. rewrite Hs. repeat split; auto. rewrite Hv; lia.
Qed.

Lemma digitc_facts base c : base <= 16 -> digitc base c ->
  is_space c = false /\ c <> 43 /\ c <> 45 /\ c <> 46 /\ c <> 58 /\ c <> 120 /\ c <> 88 /\ c <> 95
  /\ 48 <= c < 128.
Proof.
  intros Hb (d & Hd & ->). unfold digit_char, is_space. destruct (d <? 10) eqn:E.
  - apply Z.ltb_lt in E. repeat split; try lia.
  - apply Z.ltb_ge in E. repeat split; try lia.
Qed.

Lemma int_of_text_of_int base x : base = 10 \/ base = 16 -> 0 <= x ->
  int_of_text base (text_of_int base x) = Some x.
Proof.
  intros Hb Hx.
  destruct (text_of_int_spec base x) as (Hne & Hd & Hv); [lia|lia|].
  destruct (text_of_int base x) as [|c r] eqn:E; [contradiction|].
  pose proof (Forall_inv Hd) as Hc. apply digitc_facts in Hc; [|lia].
  destruct Hc as (Hsp & H43 & H45 & _ & _ & _ & _ & H95 & Hr).
  unfold int_of_text. cbn [drop_spaces]. rewrite Hsp. unfold take_sign. cbv zeta.
  replace (c =? 43) with false by lia. replace (c =? 45) with false by lia. cbv beta iota zeta.
  assert (drop_0x (c :: r) = c :: r) as Hx0.
  { destruct r as [|c2 r2]; [reflexivity|].
    pose proof (Forall_inv (Forall_inv_tail Hd)) as Hc2. apply digitc_facts in Hc2; [|lia].
    unfold drop_0x. replace (c2 =? 120) with false by lia. replace (c2 =? 88) with false by lia.
    now rewrite andb_false_r. }
  rewrite Hx0.
  destruct (base =? 16); (rewrite int_digits_all; [|lia|assumption|left; discriminate];
    rewrite Hv; reflexivity).
Qed.

Lemma split_on_not_nil c s : split_on c s <> [].
Proof. destruct s as [|x r]; cbn; [discriminate|]. destruct (x =? c); [discriminate|].
  destruct (split_on c r); discriminate. Qed.

Lemma split_on_plain c s : Forall (fun x => x <> c) s -> split_on c s = [s].
Proof.
  induction 1 as [|x r Hx Hr IH]; cbn; [reflexivity|].
  destruct (Z.eqb_spec x c); [contradiction|]. now rewrite IH.
Qed.

Lemma split_on_app c p s : Forall (fun x => x <> c) p -> split_on c (p ++ c :: s) = p :: split_on c s.
Proof.
  induction 1 as [|x r Hx Hr IH]; cbn [app split_on].
  - now rewrite Z.eqb_refl.
  - destruct (Z.eqb_spec x c); [contradiction|]. now rewrite IH.
Qed.

Lemma split_join c parts : parts <> [] -> Forall (Forall (fun x => x <> c)) parts ->
  split_on c (join_with c parts) = parts.
Proof.
  intros Hne H. induction H as [|p r Hp Hr IH]; [contradiction|].
  destruct r as [|q r].
  - cbn. now apply split_on_plain.
  - change (join_with c (p :: q :: r)) with (p ++ c :: join_with c (q :: r)).
    rewrite split_on_app by assumption. rewrite IH by discriminate. reflexivity.
Qed.

Lemma join_split c s : join_with c (split_on c s) = s.
Proof.
  induction s as [|x r IH]; cbn; [reflexivity|].
  destruct (Z.eqb_spec x c) as [->|Hx].
  - destruct (split_on c r) as [|h t] eqn:E; [now apply split_on_not_nil in E|].
    change (join_with c ([] :: h :: t)) with (c :: join_with c (h :: t)). now rewrite IH.
  - destruct (split_on c r) as [|h t] eqn:E; [now apply split_on_not_nil in E|].
    destruct t; cbn in *; now rewrite IH.
Qed.
