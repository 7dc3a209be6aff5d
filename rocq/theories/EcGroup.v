(** The points of a Weierstrass curve over any field of characteristic not 2
    are a commutative group under the chord-and-tangent addition.  Nothing
    here models /repo; EcProofs.v connects the code to it. *)
From Coq Require Import Field Ring Setoid.

Section Curve.
  Variable F : Type.
  Variables (f0 f1 : F) (fadd fmul fsub : F -> F -> F) (fopp : F -> F) (fdiv : F -> F -> F) (finv : F -> F).
  Hypothesis Fth : field_theory f0 f1 fadd fmul fsub fopp fdiv finv (@eq F).
  Hypothesis Fdec : forall x y : F, {x = y} + {x <> y}.
  Add Field Ffield : Fth.
  Notation "0" := f0.
  Notation "1" := f1.
  Infix "+" := fadd.
  Infix "*" := fmul.
  Infix "-" := fsub.
  Infix "/" := fdiv.
  Notation "- x" := (fopp x).
  Notation two := (1 + 1).
  Notation three := (1 + 1 + 1).
  Hypothesis two_neq : two <> 0.
  (** The curve y^2 = x^3 + a x + b, without singular points. *)
  Variables a b : F.
  Definition eqn (x y : F) : Prop := y * y = x * x * x + a * x + b.
  Hypothesis smooth : forall x, ~ (eqn x 0 /\ three * (x * x) + a = 0).

  Inductive pt := Inf | Aff (x y : F).
  Definition on (P : pt) : Prop := match P with Inf => True | Aff x y => eqn x y end.
  Definition neg (P : pt) : pt := match P with Inf => Inf | Aff x y => Aff x (- y) end.
  (** The reflection of the third intersection of the curve with the line of
      slope l through (x1,y1), when x2 is the abscissa of the second one. *)
  Definition third (l x1 y1 x2 : F) : pt := let x3 := l * l - x1 - x2 in Aff x3 (l * (x1 - x3) - y1).
  Definition add (P Q : pt) : pt :=
    match P, Q with
    | Inf, _ => Q
    | _, Inf => P
    | Aff x1 y1, Aff x2 y2 =>
        if Fdec x1 x2 then
          if Fdec (y1 + y2) 0 then Inf
          else third ((three * (x1 * x1) + a) / (two * y1)) x1 y1 x1
        else third ((y2 - y1) / (x2 - x1)) x1 y1 x2
    end.

  (** ** Field facts *)
  Lemma mul_0 x y : x * y = 0 -> x = 0 \/ y = 0.
  Proof. intro H. destruct (Fdec x 0) as [E|N]; [now left|right]. replace y with (x * y / x) by (field; exact N). rewrite H. field. exact N. Qed.
  Lemma mul_cancel c x y : c <> 0 -> c * x = c * y -> x = y.
  Proof. intros N H. replace x with (c * x / c) by (field; exact N). rewrite H. field. exact N. Qed.
  Lemma sub_0 x y : x - y = 0 -> x = y.
  Proof. intro H. replace x with (x - y + y) by ring. rewrite H. ring. Qed.
  Lemma sub_neq x y : x <> y -> x - y <> 0.
  Proof. intros N H. apply N. now apply sub_0. Qed.
  Lemma sub_eq x y : x = y -> x - y = 0.
  Proof. intros ->. ring. Qed.

  (** ** Lines *)
  (** l is the slope of the line through two points, tangent if they are the
      same point. *)
  Definition line (l x1 y1 x2 y2 : F) : Prop := y2 = y1 + l * (x2 - x1) /\ l * (y1 + y2) = x1 * x1 + x1 * x2 + x2 * x2 + a.
  Lemma line_sym l x1 y1 x2 y2 : line l x1 y1 x2 y2 -> line l x2 y2 x1 y1.
  Proof. intros [H1 H2]. split; [rewrite H1; ring|]. transitivity (l * (y1 + y2)); [ring|]. rewrite H2. ring. Qed.
  Lemma same_x x y1 y2 : eqn x y1 -> eqn x y2 -> y1 = y2 \/ y1 + y2 = 0.
  Proof.
    unfold eqn. intros H1 H2. assert ((y1 - y2) * (y1 + y2) = 0) as H by (replace ((y1 - y2) * (y1 + y2)) with (y1 * y1 - y2 * y2) by ring; rewrite H1, H2; ring).
    apply mul_0 in H. destruct H as [H|H]; [left; now apply sub_0|now right].
  Qed.
  (** Points that are not opposite have a line, and only one. *)
  Lemma add_line x1 y1 x2 y2 : eqn x1 y1 -> eqn x2 y2 -> ~ (x1 = x2 /\ y1 + y2 = 0) ->
    exists l, line l x1 y1 x2 y2 /\ add (Aff x1 y1) (Aff x2 y2) = third l x1 y1 x2.
  Proof.
    intros H1 H2 N. cbn [add]. destruct (Fdec x1 x2) as [<-|Hx].
    - destruct (Fdec (y1 + y2) 0) as [Hy|Hy]; [exfalso; now apply N|].
      destruct (same_x _ _ _ H1 H2) as [<-|E]; [|contradiction].
      assert (two * y1 <> 0) as Hn by (intro E; apply Hy; rewrite <- E; ring).
      eexists. split; [|reflexivity]. split; [ring|].
      assert (y1 <> 0) by (intros ->; apply Hn; ring). field. split; [assumption|exact two_neq].
    - eexists. split; [|reflexivity]. assert (x2 - x1 <> 0) as Hn by (apply sub_neq; congruence). split; [field; exact Hn|].
      apply (mul_cancel (x2 - x1)); [exact Hn|]. transitivity (y2 * y2 - y1 * y1); [field; exact Hn|]. rewrite H1, H2. ring.
  Qed.
  Lemma line_unique l l' x1 y1 x2 y2 : ~ (x1 = x2 /\ y1 + y2 = 0) -> line l x1 y1 x2 y2 -> line l' x1 y1 x2 y2 -> l = l'.
  Proof.
    intros N [H1 H2] [H3 H4]. destruct (Fdec x1 x2) as [E|Hx].
    - assert (y1 + y2 <> 0) as Hy by (intro; now apply N). apply (mul_cancel (y1 + y2)); [exact Hy|].
      transitivity (l * (y1 + y2)); [ring|]. rewrite H2, <- H4. ring.
    - apply (mul_cancel (x2 - x1)); [apply sub_neq; congruence|]. rewrite H1 in H3.
      replace ((x2 - x1) * l) with (y1 + l * (x2 - x1) - y1) by ring. rewrite H3. ring.
  Qed.
  Lemma add_third l x1 y1 x2 y2 : eqn x1 y1 -> eqn x2 y2 -> ~ (x1 = x2 /\ y1 + y2 = 0) -> line l x1 y1 x2 y2 -> add (Aff x1 y1) (Aff x2 y2) = third l x1 y1 x2.
  Proof. intros H1 H2 N L. destruct (add_line _ _ _ _ H1 H2 N) as (l' & L' & ->). now rewrite (line_unique _ _ _ _ _ _ N L L'). Qed.
  Lemma add_inf x1 y1 x2 y2 : x1 = x2 -> y1 + y2 = 0 -> add (Aff x1 y1) (Aff x2 y2) = Inf.
  Proof. intros E Y. cbn [add]. destruct (Fdec x1 x2); [|contradiction]. destruct (Fdec (y1 + y2) 0); [reflexivity|contradiction]. Qed.
  Definition opp_dec (x1 y1 x2 y2 : F) : {x1 = x2 /\ y1 + y2 = 0} + {~ (x1 = x2 /\ y1 + y2 = 0)}.
  Proof. destruct (Fdec x1 x2); [destruct (Fdec (y1 + y2) 0)|]; [left; tauto|right; tauto|right; tauto]. Defined.
  (** The third point is on the line and on the curve. *)
  Lemma third_line l x1 y1 x2 y2 : line l x1 y1 x2 y2 -> let x3 := l * l - x1 - x2 in line l x1 y1 x3 (y1 + l * (x3 - x1)).
  Proof.
    intros [H1 H2] x3. split; [reflexivity|]. unfold x3. rewrite H1 in H2.
    assert (a = l * (y1 + (y1 + l * (x2 - x1))) - (x1 * x1 + x1 * x2 + x2 * x2)) as -> by (rewrite H2; ring). ring.
  Qed.
  Lemma line_eqn l x1 y1 x2 y2 : eqn x1 y1 -> line l x1 y1 x2 y2 -> eqn x2 y2.
  Proof.
    unfold eqn. intros H [H1 H2]. apply sub_0.
    transitivity (y1 * y1 - (x1 * x1 * x1 + a * x1 + b)); [|now apply sub_eq].
    assert (y2 * y2 = y1 * y1 + (x2 - x1) * (l * (y1 + y2))) as E by (rewrite H1; ring). rewrite E, H2. ring.
  Qed.
  Lemma eqn_neg x y : eqn x y -> eqn x (- y).
  Proof. unfold eqn. intro H. rewrite <- H. ring. Qed.
  Lemma third_on l x1 y1 x2 y2 : eqn x1 y1 -> line l x1 y1 x2 y2 -> on (third l x1 y1 x2).
  Proof.
    intros H L. pose proof (line_eqn _ _ _ _ _ H (third_line _ _ _ _ _ L)) as E. cbn zeta in E. apply eqn_neg in E. cbn [on third] in *.
    cbn zeta. match goal with |- eqn _ ?y => replace y with (- (y1 + l * (l * l - x1 - x2 - x1))) by ring end. exact E.
  Qed.
  Theorem add_on P Q : on P -> on Q -> on (add P Q).
  Proof.
    intros HP HQ. destruct P as [|x1 y1]; [exact HQ|]. destruct Q as [|x2 y2]; [exact HP|].
    destruct (opp_dec x1 y1 x2 y2) as [[E Y]|N]; [rewrite add_inf by assumption; exact I|].
    destruct (add_line _ _ _ _ HP HQ N) as (l & L & ->). now apply (third_on l x1 y1 x2 y2).
  Qed.
  Theorem neg_on P : on P -> on (neg P).
  Proof. destruct P; [trivial|]. apply eqn_neg. Qed.
  Theorem neg_neg P : neg (neg P) = P.
  Proof. destruct P as [|x y]; [reflexivity|]. cbn. now replace (- - y) with y by ring. Qed.
  Theorem add_inf_r P : add P Inf = P.
  Proof. now destruct P. Qed.
  Theorem add_inf_l P : add Inf P = P.
  Proof. reflexivity. Qed.
  Theorem add_neg P : add P (neg P) = Inf.
  Proof. destruct P as [|x y]; [reflexivity|]. cbn [neg]. apply add_inf; [reflexivity|ring]. Qed.
  Lemma third_sym l x1 y1 x2 y2 : line l x1 y1 x2 y2 -> third l x1 y1 x2 = third l x2 y2 x1.
  Proof. intros [H1 H2]. unfold third. cbn zeta. replace (l * l - x2 - x1) with (l * l - x1 - x2) by ring. f_equal. rewrite H1. ring. Qed.
  Theorem add_comm P Q : on P -> on Q -> add P Q = add Q P.
  Proof.
    intros HP HQ. destruct P as [|x1 y1]; [now rewrite add_inf_r|]. destruct Q as [|x2 y2]; [reflexivity|].
    destruct (opp_dec x1 y1 x2 y2) as [[E Y]|N].
    - rewrite !add_inf; auto. rewrite <- Y. ring.
    - destruct (add_line _ _ _ _ HP HQ N) as (l & L & ->).
      rewrite (add_third l x2 y2 x1 y1 HQ HP); [now apply third_sym|intros [E Y]; apply N; split; [congruence|rewrite <- Y; ring]|now apply line_sym].
  Qed.
  Lemma opp_neg x1 y1 x2 y2 : x1 = x2 -> y1 + y2 = 0 -> Aff x2 y2 = neg (Aff x1 y1).
  Proof. intros -> Y. cbn. f_equal. replace y2 with (y1 + y2 - y1) by ring. rewrite Y. ring. Qed.
  Lemma neg_line l x1 y1 x2 y2 : line l x1 y1 x2 y2 -> line (- l) x1 (- y1) x2 (- y2).
  Proof. intros [H1 H2]. split; [rewrite H1; ring|]. rewrite <- H2. ring. Qed.
  Theorem neg_add P Q : on P -> on Q -> neg (add P Q) = add (neg P) (neg Q).
  Proof.
    intros HP HQ. destruct P as [|x1 y1]; [reflexivity|]. destruct Q as [|x2 y2]; [reflexivity|]. cbn [on] in *.
    destruct (opp_dec x1 y1 x2 y2) as [[E Y]|N].
    - rewrite add_inf by assumption. cbn [neg]. rewrite add_inf; [reflexivity|exact E|]. replace (- y1 + - y2) with (- (y1 + y2)) by ring. rewrite Y. ring.
    - destruct (add_line _ _ _ _ HP HQ N) as (l & L & ->). cbn [neg]. rewrite (add_third (- l) x1 (- y1) x2 (- y2)); [|now apply eqn_neg|now apply eqn_neg| |now apply neg_line].
      + unfold third. cbn [neg]. replace (- l * - l - x1 - x2) with (l * l - x1 - x2) by ring. f_equal. ring.
      + intros [E Y]. apply N. split; [exact E|]. replace (y1 + y2) with (- (- y1 + - y2)) by ring. rewrite Y. ring.
  Qed.

  (** ** Cancellation *)
  Theorem add_cancel P Q : on P -> on Q -> add (neg P) (add P Q) = Q.
  Proof.
    intros HP HQ. destruct P as [|x1 y1]; [reflexivity|]. destruct Q as [|x2 y2].
    { rewrite add_inf_r. rewrite add_comm; [apply add_neg|now apply neg_on|exact HP]. }
    cbn [on] in *. destruct (opp_dec x1 y1 x2 y2) as [[E Y]|N].
    { rewrite add_inf by assumption. rewrite add_inf_r. symmetry. now apply opp_neg. }
    destruct (add_line _ _ _ _ HP HQ N) as (l & L & ->). pose proof (third_line _ _ _ _ _ L) as L3. cbn zeta in L3.
    pose proof (third_on _ _ _ _ _ HP L) as H3. unfold third in *. cbn zeta in *. set (x3 := l * l - x1 - x2) in *. cbn [on] in H3.
    apply neg_line in L3. replace (- (y1 + l * (x3 - x1))) with (l * (x1 - x3) - y1) in L3 by ring. set (y3 := l * (x1 - x3) - y1) in *.
    cbn [neg]. assert (~ (x1 = x3 /\ - y1 + y3 = 0)) as N3.
    { intros [E Y]. assert (y1 = 0) as Y1.
      { assert (two * y1 = 0) as T. { replace (two * y1) with (l * (x1 - x3) - (- y1 + y3)) by (unfold y3; ring). rewrite Y, <- E. ring. }
        apply mul_0 in T. destruct T as [T|T]; [contradiction|exact T]. }
      apply (smooth x1). rewrite Y1 in HP. split; [exact HP|]. destruct L as [L1 L2]. rewrite Y1 in L1, L2. rewrite L1 in L2.
      assert (l * l = x1 + x1 + x2) as S by (replace (l * l) with (x3 + x1 + x2) by (unfold x3; ring); rewrite <- E; ring).
      replace (three * (x1 * x1) + a) with (x1 * x1 + x1 * x2 + x2 * x2 + a - (x1 + x1 + x2) * (x2 - x1)) by ring. rewrite <- L2, <- S. ring. }
    rewrite (add_third _ _ _ _ _ (eqn_neg _ _ HP) H3 N3 L3). unfold third. cbn zeta. f_equal.
    - unfold x3. ring.
    - destruct L as [-> _]. unfold x3. ring.
  Qed.

  (** ** Associativity *)
  (** Two lines through a common point (x2,y2). *)
  Lemma two_lines l l' x1 y1 x2 y2 x3 y3 : line l x1 y1 x2 y2 -> line l' x2 y2 x3 y3 ->
    two * y2 * (l - l') = (x1 - x3) * (x1 + x2 + x3) + l * l * (x2 - x1) + l' * l' * (x3 - x2).
  Proof.
    intros L [H3 H4]. apply line_sym in L. destruct L as [H1 H2]. rewrite H1 in H2. rewrite H3 in H4.
    assert (a = l * (y2 + (y2 + l * (x1 - x2))) - (x2 * x2 + x2 * x1 + x1 * x1)) as E1 by (rewrite H2; ring).
    assert (a = l' * (y2 + (y2 + l' * (x3 - x2))) - (x2 * x2 + x2 * x3 + x3 * x3)) as E2 by (rewrite H4; ring).
    rewrite E1 in E2. apply sub_0. apply sub_eq in E2. rewrite <- E2. ring.
  Qed.
  (** The slope of the line through A+B and C. *)
  Lemma slope l l' m x1 y1 x2 y2 x3 y3 : l <> l' -> line l x1 y1 x2 y2 -> line l' x2 y2 x3 y3 ->
    let xs := l * l - x1 - x2 in let ys := l * (x1 - xs) - y1 in
    ~ (xs = x3 /\ ys + y3 = 0) -> line m xs ys x3 y3 -> (xs = x3 -> ys = y3) -> m = (x1 - x3) / (l - l') - l.
  Proof.
    intros Nl L L' xs ys N M Hs. pose proof (two_lines _ _ _ _ _ _ _ _ L L') as T. apply sub_neq in Nl.
    apply (mul_cancel (l - l')); [exact Nl|]. transitivity (x1 - x3 - l * (l - l')); [|field; exact Nl].
    destruct (line_sym _ _ _ _ _ L) as [L1 _]. destruct L' as [L3 L4]. destruct M as [M1 M2]. destruct (Fdec xs x3) as [E|Nx].
    - specialize (Hs E). clear M1. assert (y3 + y3 <> 0) as Ny by (intro Y; apply N; split; [exact E|rewrite Hs; exact Y]).
      apply (mul_cancel (y3 + y3)); [exact Ny|]. rewrite E, Hs in M2.
      transitivity ((l - l') * (m * (y3 + y3))); [ring|]. rewrite M2.
      assert (ys = - (y2 + l * (x3 - x2))) as Y by (unfold ys; rewrite L1, <- E; ring). rewrite Hs in Y.
      assert (two * y2 = - ((l + l') * (x3 - x2))) as Y2 by (transitivity (y2 + l * (x3 - x2) + (y2 + l' * (x3 - x2)) - (l + l') * (x3 - x2)); [ring|]; rewrite <- L3, Y; ring).
      assert (l * l = x1 + x2 + x3) as S by (rewrite <- E; unfold xs; ring).
      assert (y2 + y3 = - (l * (x3 - x2))) as Y23 by (rewrite Y; ring). rewrite Y23 in L4.
      replace (x3 * x3 + x3 * x3 + x3 * x3 + a) with (x2 * x2 + x2 * x3 + x3 * x3 + a + (x3 - x2) * (two * x3 + x2)) by ring. rewrite <- L4.
      assert (y3 + y3 = (l' - l) * (x3 - x2)) as Y3 by (rewrite L3 at 1; rewrite Y; ring). rewrite Y3.
      replace (x1 - x3 - l * (l - l')) with (x1 - x3 - l * l + l * l') by ring. rewrite S. ring.
    - apply (mul_cancel (x3 - xs)); [apply sub_neq; congruence|].
      transitivity ((l - l') * (y3 - ys)); [rewrite M1; ring|].
      assert (ys = - (y2 + l * (xs - x2))) as Y by (unfold ys; rewrite L1; ring). rewrite Y, L3.
      transitivity (two * y2 * (l - l') + (l - l') * (l * (xs - x2) + l' * (x3 - x2))); [ring|]. rewrite T. unfold xs. ring.
  Qed.
  Lemma add_opp_line l l' x1 y1 x2 y2 x3 y3 : l <> l' -> ~ (x2 = x3 /\ y2 + y3 = 0) -> line l x1 y1 x2 y2 -> line l' x2 y2 x3 y3 ->
    let xs := l * l - x1 - x2 in let ys := l * (x1 - xs) - y1 in ~ (xs = x3 /\ ys + y3 = 0).
  Proof.
    intros Nl N L L' xs ys [E Y]. pose proof (two_lines _ _ _ _ _ _ _ _ L L') as T. destruct (line_sym _ _ _ _ _ L) as [L1 _]. destruct L' as [L3 L4].
    assert ((l' - l) * (x3 - x2) = 0) as Z.
    { transitivity (ys + y3); [|exact Y]. unfold ys. rewrite L3, L1, <- E. ring. }
    apply mul_0 in Z. destruct Z as [Z|Z]; [apply Nl; symmetry; now apply sub_0|]. apply sub_0 in Z. symmetry in Z.
    apply N. split; [exact Z|]. rewrite <- Z in *.
    assert (two * y2 * (l - l') = 0) as T0 by (rewrite T; transitivity ((x1 - x2) * (x1 + x2 + x2 - l * l)); [ring|]; unfold xs in E; replace (x1 + x2 + x2 - l * l) with (x2 - (l * l - x1 - x2)) by ring; rewrite E; ring).
    apply mul_0 in T0. destruct T0 as [T0|T0]; [|apply sub_0 in T0; contradiction]. rewrite L3, <- T0. ring.
  Qed.
  Theorem add_assoc A B C : on A -> on B -> on C -> add (add A B) C = add A (add B C).
  Proof.
    intros HA HB HC. destruct A as [|x1 y1]; [reflexivity|]. destruct B as [|x2 y2]; [now rewrite add_inf_r|]. destruct C as [|x3 y3]; [now rewrite !add_inf_r|].
    destruct (opp_dec x1 y1 x2 y2) as [[E Y]|N12].
    { rewrite add_inf by assumption. rewrite add_inf_l.
      assert (Aff x1 y1 = neg (Aff x2 y2)) as -> by (apply opp_neg; [congruence|rewrite <- Y; ring]). symmetry. now apply add_cancel. }
    destruct (opp_dec x2 y2 x3 y3) as [[E Y]|N23].
    { rewrite (add_inf x2 y2) by assumption. rewrite add_inf_r. rewrite (opp_neg x2 y2 x3 y3) by assumption.
      rewrite (add_comm (Aff x1 y1)) by assumption. rewrite add_comm; [|now apply add_on|now apply neg_on]. now apply add_cancel. }
    destruct (add_line _ _ _ _ HA HB N12) as (l & L & E1). destruct (add_line _ _ _ _ HB HC N23) as (l' & L' & E2).
    pose proof (add_on _ _ HA HB) as HS. pose proof (add_on _ _ HB HC) as HU. rewrite E1 in HS |- *. rewrite E2 in HU |- *. rewrite (third_sym l' x2 y2 x3 y3 L') in *.
    pose proof (two_lines _ _ _ _ _ _ _ _ L L') as T.
    destruct (Fdec l l') as [<-|Nl].
    - destruct L as [L1 L2]. pose proof (line_sym _ _ _ _ _ (conj L1 L2)) as [L3 _]. destruct L' as [L5 L6]. assert ((x1 - x3) * (x1 + x2 + x3 - l * l) = 0) as Z.
      { symmetry. transitivity (two * y2 * (l - l)); [ring|]. rewrite T. ring. }
      apply mul_0 in Z. destruct Z as [Z|Z].
      + apply sub_0 in Z. subst x3. assert (y3 = y1) as -> by (rewrite L5, L3; ring). rewrite (add_comm (third l x1 y1 x2)); [|exact HS|exact HC]. reflexivity.
      + unfold third. cbn zeta. rewrite !add_inf; [reflexivity| | | |].
        * apply sub_0. rewrite <- Z. ring.
        * assert (x1 = l * l - x3 - x2) as X by (apply sub_0; rewrite <- Z; ring). rewrite L5, L3, X. ring.
        * apply sub_0. apply sub_eq in Z. replace (l * l - x1 - x2 - x3) with (- (x1 + x2 + x3 - l * l - 0)) by ring. rewrite Z. ring.
        * assert (x3 = l * l - x1 - x2) as X by (apply sub_0; rewrite <- Z; ring). rewrite L5, L3, X. ring.
    - assert (l' <> l) as Nl' by congruence.
      assert (~ (x2 = x1 /\ y2 + y1 = 0)) as N21 by (intros [E Y]; apply N12; split; [congruence|rewrite <- Y; ring]).
      pose proof (add_opp_line _ _ _ _ _ _ _ _ Nl N23 L L') as NS. pose proof (add_opp_line _ _ _ _ _ _ _ _ Nl' N21 (line_sym _ _ _ _ _ L') (line_sym _ _ _ _ _ L)) as NU.
      cbn zeta in NS, NU. unfold third in *. cbn zeta in *. cbn [on] in *.
      rewrite (add_comm (Aff x1 y1)) by assumption.
      destruct (add_line _ _ _ _ HS HC NS) as (m & M & ->). destruct (add_line _ _ _ _ HU HA NU) as (m' & M' & ->).
      assert (m = (x1 - x3) / (l - l') - l) as Em.
      { apply (slope _ _ _ _ _ _ _ _ _ Nl L L' NS M). intro E. rewrite <- E in HC. destruct (same_x _ _ _ HS HC) as [?|Y]; [assumption|exfalso; now apply NS]. }
      assert (m' = (x3 - x1) / (l' - l) - l') as Em'.
      { apply (slope _ _ _ _ _ _ _ _ _ Nl' (line_sym _ _ _ _ _ L') (line_sym _ _ _ _ _ L) NU M'). intro E. rewrite <- E in HA. destruct (same_x _ _ _ HU HA) as [?|Y]; [assumption|exfalso; now apply NU]. }
      pose proof (sub_neq _ _ Nl) as D. set (k := (x1 - x3) / (l - l')) in *.
      assert ((x3 - x1) / (l' - l) = k) as Ek by (unfold k; field; split; [exact D|now apply sub_neq]). rewrite Ek in Em'.
      assert (x1 = x3 + k * (l - l')) as X by (unfold k; field; exact D).
      assert (m * m - (l * l - x1 - x2) - x3 = m' * m' - (l' * l' - x3 - x2) - x1) as X3 by (rewrite Em, Em', X; ring).
      unfold third. cbn zeta. rewrite X3. f_equal. clear Ek.
      rewrite <- X3 at 1. destruct L as [L1 L2]. destruct L' as [L3 L4].
      apply (mul_cancel two); [exact two_neq|].
      assert (y3 = y1 + l * (x2 - x1) + l' * (x3 - x2)) as Y3 by (rewrite L3, L1; ring).
      rewrite Y3, Em, Em', X. ring.
  Qed.
End Curve.
