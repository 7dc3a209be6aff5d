(** The difficulty of a header (C110). *)
From Coq Require Import ZArith List Lia Bool QArith Qabs Qpower Lqa.
From Verif Require Import PyBase UtilModel UtilProofs PropsUtil DiffModel.
Import ListNotations.
Open Scope Z_scope.
Open Scope Q_scope.

(** ** Specification *)

(** The number that a double stands for. *)
Definition value (d : float) : Q := inject_Z (fl_m d) * 2 ^ fl_e d.
(** Doubles: 53 bits of significand and an exponent in the format's range. *)
Definition is_double (d : float) : Prop := (Z.abs (fl_m d) <= 2 ^ 53 /\ -1074 <= fl_e d <= 971)%Z.
(** The target that compact [bits] stand for (C54), and its difficulty: how many
    times it is contained in that of 0x1d00ffff. *)
Definition target (bits : Z) : Q := inject_Z (mantissa bits) * 256 ^ (exponent bits - 3).
Definition difficulty (bits : Z) : Q := target 0x1d00ffff / target bits.
(** [d] is the double nearest to [q], and the one whose 53-bit significand is
    even if there are two. *)
Definition nearest_double (q : Q) (d : float) : Prop :=
  is_double d /\ (2 ^ 52 <= fl_m d)%Z /\ forall d', is_double d' ->
    Qabs (value d - q) < Qabs (value d' - q) \/ value d' == value d \/
    Qabs (value d - q) == Qabs (value d' - q) /\ Z.even (fl_m d) = true.

(** ** Powers of two *)

Lemma two_nz : ~ 2 == 0. Proof. discriminate. Qed.
Lemma P_pos s : 0 < 2 ^ s. Proof. apply Qpower_0_lt. reflexivity. Qed.
Lemma P_add s t : 2 ^ (s + t) == 2 ^ s * 2 ^ t. Proof. apply Qpower_plus, two_nz. Qed.
Lemma P_int s : (0 <= s)%Z -> 2 ^ s == inject_Z (2 ^ s).
Proof. intro H. rewrite Zpower_Qpower by exact H. reflexivity. Qed.
Lemma P_neg s : 2 ^ (- s) == / 2 ^ s. Proof. apply Qpower_opp. Qed.
Lemma P_le s t : (s <= t)%Z -> 2 ^ s <= 2 ^ t.
Proof. intro H. apply Qpower_le_compat_l; [exact H|]. discriminate. Qed.
Lemma P_lt_inv s t : 2 ^ s < 2 ^ t -> (s < t)%Z.
Proof. intro H. destruct (Z_lt_le_dec s t) as [L|L]; [exact L|]. apply P_le in L. lra. Qed.
Lemma P_inj s t : 2 ^ s * 2 ^ t == 2 ^ (s + t). Proof. symmetry. apply P_add. Qed.

(** ** Rounding *)

(** [2^s] scales [q] to 53 bits and [m] is the integer nearest to that. *)
Definition rounded (q : Q) (m s : Z) : Prop :=
  2 ^ 52 <= q * 2 ^ s /\ q * 2 ^ s < 2 ^ 53 /\
  Qabs (inject_Z m - q * 2 ^ s) <= 1 # 2 /\ (Qabs (inject_Z m - q * 2 ^ s) == 1 # 2 -> Z.even m = true).

Lemma half_even_spec n d : (0 < d)%Z ->
  let x := inject_Z n / inject_Z d in let m := div_half_even n d in
  Qabs (inject_Z m - x) <= 1 # 2 /\ (Qabs (inject_Z m - x) == 1 # 2 -> Z.even m = true).
Proof.
  intros Hd x m.
  assert (Z1 : (- d <= 2 * (m * d - n) <= d)%Z /\ ((2 * (m * d - n) = d \/ 2 * (m * d - n) = - d)%Z -> Z.even m = true)).
  { unfold m, div_half_even. pose proof (Z.div_mod n d ltac:(lia)) as E. pose proof (Z.mod_pos_bound n d Hd) as B.
    set (q := (n / d)%Z) in *. set (r := (n mod d)%Z) in *. clearbody q r.
    destruct (Z.compare_spec (2 * r) d) as [T|T|T].
    - destruct (Z.even q) eqn:Ev.
      + split; [nia|]. intros _. exact Ev.
      + split; [nia|]. intros _. rewrite Z.even_add, Ev. reflexivity.
    - split; [nia|]. intros [A|A]; nia.
    - split; [nia|]. intros [A|A]; nia. }
  assert (Dp : 0 < inject_Z d) by (change 0 with (inject_Z 0); rewrite <- Zlt_Qlt; exact Hd).
  assert (X : (inject_Z m - x) * inject_Z d == inject_Z (m * d - n)).
  { unfold x. unfold Z.sub. rewrite inject_Z_plus, inject_Z_opp, inject_Z_mult. field. lra. }
  destruct Z1 as ((L & U) & T).
  rewrite Zle_Qle in L, U. rewrite inject_Z_opp, inject_Z_mult in L. rewrite inject_Z_mult in U.
  rewrite <- X in L, U. change (inject_Z 2) with 2 in *.
  assert (-(1#2) <= inject_Z m - x <= 1#2) as (A1 & A2) by (split; nra).
  split; [apply Qabs_case; intros; lra|].
  intro E. apply T.
  assert (inject_Z m - x == 1#2 \/ inject_Z m - x == -(1#2)) as [C|C].
  { revert E. apply Qabs_case; intros; [left|right]; lra. }
  - left. apply inject_Z_injective. rewrite inject_Z_mult, <- X, C. change (inject_Z 2) with 2. ring.
  - right. apply inject_Z_injective. rewrite inject_Z_mult, inject_Z_opp, <- X, C. change (inject_Z 2) with 2. ring.
Qed.

Lemma P_max s : 2 ^ s == inject_Z (2 ^ Z.max s 0) / inject_Z (2 ^ Z.max (- s) 0).
Proof.
  destruct (Z_le_gt_dec 0 s) as [H|H].
  - rewrite (Z.max_l s 0), (Z.max_r (- s) 0) by lia. rewrite P_int by exact H. change (2 ^ 0)%Z with 1%Z. field.
  - rewrite (Z.max_r s 0), (Z.max_l (- s) 0) by lia. rewrite <- (P_int (- s)) by lia. rewrite P_neg. change (2 ^ 0)%Z with 1%Z.
    change (inject_Z 1) with 1. pose proof (P_pos s). field. lra.
Qed.

Lemma Zpow_pos k : (0 <= k)%Z -> (0 < 2 ^ k)%Z. Proof. intro. apply Z.pow_pos_nonneg; lia. Qed.

Lemma float_div_spec x y : (0 < fl_m x)%Z -> (0 < fl_m y)%Z ->
  exists m s, float_div x y = Ok (Fl m (fl_e x - fl_e y - s)) /\
    rounded (inject_Z (fl_m x) / inject_Z (fl_m y)) m s.
Proof.
  intros Ha Hb. unfold float_div. destruct (Z.eqb_spec (fl_m y) 0) as [E|_]; [lia|]. cbv zeta.
  set (a := fl_m x) in *. set (b := fl_m y) in *. set (s0 := (53 + Z.log2 b - Z.log2 a)%Z).
  set (num := fun s => (a * 2 ^ Z.max s 0)%Z). set (den := fun s => (b * 2 ^ Z.max (- s) 0)%Z).
  assert (Dp : forall s, (0 < den s)%Z) by (intro s; unfold den; pose proof (Zpow_pos (Z.max (- s) 0) ltac:(lia)); nia).
  assert (Aq : 0 < inject_Z a) by (change 0 with (inject_Z 0); rewrite <- Zlt_Qlt; exact Ha).
  assert (Bq : 0 < inject_Z b) by (change 0 with (inject_Z 0); rewrite <- Zlt_Qlt; exact Hb).
  assert (Q1 : forall s, inject_Z a / inject_Z b * 2 ^ s == inject_Z (num s) / inject_Z (den s)).
  { intro s. rewrite P_max. unfold num, den. rewrite !inject_Z_mult.
    assert (0 < inject_Z (2 ^ Z.max (- s) 0)) by (change 0 with (inject_Z 0); rewrite <- Zlt_Qlt; apply Zpow_pos; lia).
    field. split; lra. }
  set (s := if (num s0 <? 2 ^ 53 * den s0)%Z then s0 else (s0 - 1)%Z).
  exists (div_half_even (num s) (den s)), s. split; [reflexivity|].
  pose proof (half_even_spec (num s) (den s) (Dp s)) as [H1 H2]. cbv zeta in H1, H2.
  set (m := div_half_even (num s) (den s)) in *. unfold rounded. rewrite (Q1 s).
  assert (LA : inject_Z (2 ^ Z.log2 a) <= inject_Z a < inject_Z (2 ^ (Z.log2 a + 1))).
  { rewrite <- Zle_Qle, <- Zlt_Qlt. pose proof (Z.log2_spec a Ha). unfold Z.succ in *. lia. }
  assert (LB : inject_Z (2 ^ Z.log2 b) <= inject_Z b < inject_Z (2 ^ (Z.log2 b + 1))).
  { rewrite <- Zle_Qle, <- Zlt_Qlt. pose proof (Z.log2_spec b Hb). unfold Z.succ in *. lia. }
  pose proof (Z.log2_nonneg a). pose proof (Z.log2_nonneg b).
  rewrite <- !P_int in LA, LB by lia.
  assert (S0 : 2 ^ s0 * 2 ^ Z.log2 a == 2 ^ 53 * 2 ^ Z.log2 b).
  { rewrite !P_inj. unfold s0. replace (53 + Z.log2 b - Z.log2 a + Z.log2 a)%Z with (53 + Z.log2 b)%Z by lia. reflexivity. }
  rewrite P_add in LA, LB. change (2 ^ 1) with 2 in LA, LB.
  pose proof (P_pos s0) as Ps. pose proof (P_pos (Z.log2 a)) as Pa. pose proof (P_pos (Z.log2 b)) as Pb.
  assert (W : 2 ^ 52 * inject_Z b < inject_Z a * 2 ^ s0 /\ inject_Z a * 2 ^ s0 < 2 ^ 54 * inject_Z b).
  { change (2 ^ 53) with (2 * 2 ^ 52) in S0. change (2 ^ 54) with (4 * 2 ^ 52).
    pose proof (P_pos 52) as P52. set (k := 2 ^ 52) in *. clearbody k. split; nra. }
  assert (QD : forall u, inject_Z a / inject_Z b * 2 ^ u == inject_Z a * 2 ^ u / inject_Z b) by (intro; field; lra).
  assert (R : 2 ^ 52 <= inject_Z a / inject_Z b * 2 ^ s /\ inject_Z a / inject_Z b * 2 ^ s < 2 ^ 53).
  { unfold s. destruct (Z.ltb_spec (num s0) (2 ^ 53 * den s0)) as [L|L].
    - split; [rewrite QD; apply Qle_shift_div_l; [exact Bq|lra]|]. rewrite Q1. rewrite Zlt_Qlt, inject_Z_mult in L.
      apply Qlt_shift_div_r; [change 0 with (inject_Z 0); rewrite <- Zlt_Qlt; apply Dp|]. exact L.
    - assert (E : 2 ^ (s0 - 1) == 2 ^ s0 * (1#2)) by (unfold Z.sub; rewrite P_add; reflexivity).
      rewrite Zle_Qle, inject_Z_mult in L. split.
      + rewrite E. rewrite Qmult_assoc, Q1.
        assert (2 ^ 53 <= inject_Z (num s0) / inject_Z (den s0)).
        { apply Qle_shift_div_l; [change 0 with (inject_Z 0); rewrite <- Zlt_Qlt; apply Dp|]. exact L. }
        change (2 ^ 53) with (2 * 2 ^ 52) in *. lra.
      + rewrite QD, E. apply Qlt_shift_div_r; [exact Bq|]. change (2 ^ 54) with (2 * 2 ^ 53) in W. lra. }
  rewrite (Q1 s) in R. destruct R as [R1 R2]. auto.
Qed.

Lemma abs_cases a : Qabs a == a /\ 0 <= a \/ Qabs a == - a /\ a <= 0.
Proof. apply Qabs_case; intro H; [left|right]; split; (reflexivity || exact H). Qed.

(** Integers other than the rounded one are not nearer. *)
Lemma nearest_int x m w : Qabs (inject_Z m - x) <= 1 # 2 ->
  (Qabs (inject_Z m - x) == 1 # 2 -> Z.even m = true) -> w <> m ->
  Qabs (inject_Z m - x) < Qabs (inject_Z w - x) \/
  Qabs (inject_Z m - x) == Qabs (inject_Z w - x) /\ Z.even m = true.
Proof.
  intros H1 H2 Hw.
  assert (D : inject_Z w + 1 <= inject_Z m \/ inject_Z m + 1 <= inject_Z w).
  { change 1 with (inject_Z 1). rewrite <- !inject_Z_plus, <- !Zle_Qle. lia. }
  destruct (Qlt_le_dec (Qabs (inject_Z m - x)) (Qabs (inject_Z w - x))) as [L|L]; [now left|right].
  destruct (abs_cases (inject_Z m - x)) as [[A1 A2]|[A1 A2]], (abs_cases (inject_Z w - x)) as [[B1 B2]|[B1 B2]];
    (split; [destruct D; lra|apply H2; destruct D; lra]).
Qed.

Lemma nearest_scaled x m m' k : 2 ^ 52 <= x -> Qabs (inject_Z m - x) <= 1 # 2 ->
  (Qabs (inject_Z m - x) == 1 # 2 -> Z.even m = true) -> (Z.abs m' <= 2 ^ 53)%Z ->
  let w := inject_Z m' * 2 ^ k in
  Qabs (inject_Z m - x) < Qabs (w - x) \/ w == inject_Z m \/
  Qabs (inject_Z m - x) == Qabs (w - x) /\ Z.even m = true.
Proof.
  intros Hx H1 H2 Hm w. destruct (Z_le_gt_dec 0 k) as [Hk|Hk].
  - assert (E : w == inject_Z (m' * 2 ^ k)) by (unfold w; rewrite inject_Z_mult, P_int by exact Hk; reflexivity).
    rewrite E. destruct (Z.eq_dec (m' * 2 ^ k) m) as [->|N]; [right; left; reflexivity|].
    destruct (nearest_int x m _ H1 H2 N) as [L|L]; [now left|right; now right].
  - assert (W : w <= 2 ^ 52).
    { unfold w. assert (K : 2 ^ k <= 2 ^ (-1)) by (apply P_le; lia). change (2 ^ (-1)) with (1#2) in K.
      assert (M : inject_Z m' <= inject_Z (2 ^ 53)) by (rewrite <- Zle_Qle; lia).
      rewrite <- P_int in M by lia. change (2 ^ 53) with (2 * 2 ^ 52) in M. pose proof (P_pos k). pose proof (P_pos 52).
      set (c := 2 ^ 52) in *. clearbody c. set (u := inject_Z m') in *. clearbody u. set (v := 2 ^ k) in *. clearbody v. nra. }
    assert (C : 2 ^ 52 == inject_Z (2 ^ 52)) by (apply P_int; lia).
    rewrite C in W, Hx.
    destruct (Z.eq_dec (2 ^ 52) m) as [Em|N].
    + rewrite <- Em. set (c := inject_Z (2 ^ 52)) in *. clearbody c. destruct (Qlt_le_dec w c) as [L|L].
      * left. destruct (abs_cases (c - x)) as [[A1 A2]|[A1 A2]], (abs_cases (w - x)) as [[B1 B2]|[B1 B2]]; lra.
      * right. left. lra.
    + destruct (nearest_int x m _ H1 H2 N) as [L|(L & Ev)]; set (c := inject_Z (2 ^ 52)) in *; clearbody c.
      * left. destruct (abs_cases (c - x)) as [[A1 A2]|[A1 A2]], (abs_cases (w - x)) as [[B1 B2]|[B1 B2]]; lra.
      * destruct (Qlt_le_dec w c) as [Lw|Lw].
        -- left. destruct (abs_cases (c - x)) as [[A1 A2]|[A1 A2]], (abs_cases (w - x)) as [[B1 B2]|[B1 B2]]; lra.
        -- right. right. split; [|exact Ev]. assert (w == c) as -> by lra. exact L.
Qed.

Lemma abs_scale a s : Qabs a * 2 ^ s == Qabs (a * 2 ^ s).
Proof. rewrite Qabs_Qmult. rewrite (Qabs_pos (2 ^ s)); [reflexivity|]. apply Qlt_le_weak, P_pos. Qed.
Lemma lt_scale a b s : a * 2 ^ s < b * 2 ^ s -> a < b.
Proof. apply Qmult_lt_r, P_pos. Qed.
Lemma eq_scale a b s : a * 2 ^ s == b * 2 ^ s -> a == b.
Proof. apply Qmult_inj_r. pose proof (P_pos s). lra. Qed.

Lemma value_scale m s : value (Fl m (- s)) * 2 ^ s == inject_Z m.
Proof. unfold value. cbn [fl_m fl_e]. rewrite <- Qmult_assoc, P_inj. replace (- s + s)%Z with 0%Z by lia. change (2 ^ 0) with 1. ring. Qed.

Lemma rounded_nearest q m s m' e' : rounded q m s -> (Z.abs m' <= 2 ^ 53)%Z ->
  let v := value (Fl m (- s)) in let v' := value (Fl m' e') in
  Qabs (v - q) < Qabs (v' - q) \/ v' == v \/ Qabs (v - q) == Qabs (v' - q) /\ Z.even m = true.
Proof.
  intros (R1 & R2 & R3 & R4) Hm v v'.
  assert (V : v * 2 ^ s == inject_Z m) by apply value_scale.
  assert (V' : v' * 2 ^ s == inject_Z m' * 2 ^ (e' + s)) by (unfold v', value; cbn [fl_m fl_e]; rewrite P_add; ring).
  assert (A : Qabs (v - q) * 2 ^ s == Qabs (inject_Z m - q * 2 ^ s)).
  { rewrite abs_scale. rewrite <- V. apply Qabs_wd. ring. }
  assert (A' : Qabs (v' - q) * 2 ^ s == Qabs (inject_Z m' * 2 ^ (e' + s) - q * 2 ^ s)).
  { rewrite abs_scale. rewrite <- V'. apply Qabs_wd. ring. }
  destruct (nearest_scaled (q * 2 ^ s) m m' (e' + s) R1 R3 R4 Hm) as [L|[L|(L & Ev)]].
  - left. apply (lt_scale _ _ s). rewrite A, A'. exact L.
  - right. left. apply (eq_scale _ _ s). rewrite V, V'. exact L.
  - right. right. split; [|exact Ev]. apply (eq_scale _ _ s). rewrite A, A'. exact L.
Qed.

Lemma rounded_range q m s : rounded q m s -> (2 ^ 52 <= m <= 2 ^ 53)%Z.
Proof.
  intros (R1 & R2 & R3 & _).
  assert (A : - (1#2) <= inject_Z m - q * 2 ^ s <= 1#2) by (destruct (abs_cases (inject_Z m - q * 2 ^ s)) as [[A1 A2]|[A1 A2]]; lra).
  assert (B : inject_Z (2 ^ 52 - 1) < inject_Z m < inject_Z (2 ^ 53 + 1)).
  { unfold Z.sub. rewrite !inject_Z_plus, <- !P_int by lia. change (inject_Z 1) with 1. change (inject_Z (- (1))) with (-1#1). split; lra. }
  rewrite <- !Zlt_Qlt in B. lia.
Qed.

Lemma rounded_scale q m s k : rounded q m s -> rounded (q * 2 ^ k) m (s - k).
Proof.
  assert (E : q * 2 ^ k * 2 ^ (s - k) == q * 2 ^ s).
  { rewrite <- Qmult_assoc, P_inj. replace (k + (s - k))%Z with s by lia. reflexivity. }
  intros (R1 & R2 & R3 & R4). unfold rounded. rewrite E. auto.
Qed.

Lemma rounded_wd q q' m s : q == q' -> rounded q m s -> rounded q' m s.
Proof. intros E. unfold rounded. rewrite <- E. auto. Qed.

Lemma rounded_unique q m s m' s' : rounded q m s -> rounded q m' s' -> m = m' /\ s = s'.
Proof.
  intros R R'. assert (s = s') as ->.
  { destruct R as (R1 & R2 & _), R' as (R1' & R2' & _).
    assert (Qp : 0 < q).
    { destruct (Qlt_le_dec 0 q) as [L|L]; [exact L|]. exfalso. pose proof (P_pos s). pose proof (P_pos 52). nra. }
    assert (forall s s', 2 ^ 52 <= q * 2 ^ s -> q * 2 ^ s' < 2 ^ 53 -> (s' <= s)%Z) as X.
    { intros u u' A B. destruct (Z_le_gt_dec u' u) as [L|L]; [exact L|]. exfalso.
      assert (K : 2 ^ (u + 1) <= 2 ^ u') by (apply P_le; lia). rewrite P_add in K. change (2 ^ 1) with 2 in K.
      change (2 ^ 53) with (2 * 2 ^ 52) in B. pose proof (P_pos 52). set (c := 2 ^ 52) in *. clearbody c.
      set (x := 2 ^ u) in *. set (y := 2 ^ u') in *. clearbody x y. nra. }
    apply Z.le_antisymm; eapply X; eassumption. }
  split; [|reflexivity].
  destruct R as (_ & _ & R3 & R4), R' as (_ & _ & R3' & R4'). set (x := q * 2 ^ s') in *. clearbody x.
  destruct (Z.eq_dec m m') as [E|N]; [exact E|exfalso].
  assert (D : (m' = m + 1 \/ m = m' + 1)%Z /\ Qabs (inject_Z m - x) == 1#2 /\ Qabs (inject_Z m' - x) == 1#2).
  { assert (D : inject_Z m' + 1 <= inject_Z m \/ inject_Z m + 1 <= inject_Z m').
    { change 1 with (inject_Z 1). rewrite <- !inject_Z_plus, <- !Zle_Qle. lia. }
    assert (E : inject_Z m' < inject_Z (m + 2) /\ inject_Z m < inject_Z (m' + 2)).
    { rewrite !inject_Z_plus. change (inject_Z 2) with 2.
      destruct (abs_cases (inject_Z m - x)) as [[A1 A2]|[A1 A2]], (abs_cases (inject_Z m' - x)) as [[B1 B2]|[B1 B2]]; lra. }
    rewrite <- !Zlt_Qlt in E. split; [lia|].
    destruct (abs_cases (inject_Z m - x)) as [[A1 A2]|[A1 A2]], (abs_cases (inject_Z m' - x)) as [[B1 B2]|[B1 B2]]; destruct D; split; lra. }
  destruct D as (D & A & B). specialize (R4 A). specialize (R4' B).
  destruct D as [-> | ->]; rewrite Z.even_add in *; [rewrite R4 in R4'|rewrite R4' in R4]; discriminate.
Qed.

(** The error is at most 2^-53 of the number. *)
Lemma rounded_error q m s : rounded q m s -> 0 < q /\
  (1 - 2 ^ (-53)) * q <= value (Fl m (- s)) <= (1 + 2 ^ (-53)) * q.
Proof.
  intros (R1 & R2 & R3 & _). pose proof (P_pos s) as Ps. pose proof (value_scale m s) as V.
  set (v := value _) in *. clearbody v.
  assert (Qp : 0 < q).
  { destruct (Qlt_le_dec 0 q) as [L|L]; [exact L|]. exfalso. pose proof (P_pos 52). nra. }
  split; [exact Qp|].
  assert (H : 1#2 <= 2 ^ (-53) * (q * 2 ^ s)).
  { assert (E : 2 ^ (-53) * 2 ^ 52 == 1#2) by reflexivity. pose proof (P_pos (-53)). rewrite <- E. nra. }
  rewrite <- V in R3. set (k := 2 ^ (-53)) in *. clearbody k. set (u := 2 ^ s) in *. clearbody u.
  assert (B : - (k * (q * u)) <= v * u - q * u <= k * (q * u)).
  { destruct (abs_cases (v * u - q * u)) as [[A1 A2]|[A1 A2]]; lra. }
  split; apply (Qmult_le_r _ _ u Ps); nra.
Qed.

(** ** Targets *)

Lemma mantissa_range bits : (0 <= mantissa bits < 2 ^ 23)%Z.
Proof. unfold mantissa. apply Z.mod_pos_bound. reflexivity. Qed.
Lemma target_alt bits : target bits == inject_Z (mantissa bits) * 2 ^ (8 * (exponent bits - 3)).
Proof. unfold target. rewrite Qpower_mult. reflexivity. Qed.
Lemma target_one : target 0x1d00ffff == 65535 * 2 ^ 208.
Proof. reflexivity. Qed.
Lemma target_pos bits : mantissa bits <> 0%Z -> 0 < target bits.
Proof.
  intro H. rewrite target_alt. pose proof (mantissa_range bits). apply Qmult_lt_0_compat; [|apply P_pos].
  change 0 with (inject_Z 0). rewrite <- Zlt_Qlt. lia.
Qed.
Lemma inject_lt a b : (a < b)%Z -> inject_Z a < inject_Z b. Proof. rewrite <- Zlt_Qlt. auto. Qed.
Lemma inject_le a b : (a <= b)%Z -> inject_Z a <= inject_Z b. Proof. rewrite <- Zle_Qle. auto. Qed.

Lemma target_small bits : (0 <= bits)%Z -> (8 * (exponent bits - 3) < 0)%Z -> target bits < 2 ^ 1024.
Proof.
  intros Hb He. rewrite target_alt. pose proof (mantissa_range bits) as M.
  assert (A : inject_Z (mantissa bits) <= 2 ^ 23) by (rewrite P_int by lia; apply inject_le; lia).
  assert (A0 : 0 <= inject_Z (mantissa bits)) by (change 0 with (inject_Z 0); apply inject_le; lia).
  assert (B : 2 ^ (8 * (exponent bits - 3)) <= 2 ^ 0) by (apply P_le; lia). change (2 ^ 0) with 1 in B.
  assert (C : 2 ^ 23 < 2 ^ 1024) by reflexivity. pose proof (P_pos (8 * (exponent bits - 3))).
  set (x := inject_Z _) in *. set (y := 2 ^ (8 * _)) in *. set (c := 2 ^ 23) in *. clearbody x y c.
  apply Qle_lt_trans with (2 := C). nra.
Qed.

Lemma get_difficulty_alt bits : (0 <= bits)%Z ->
  get_difficulty bits = if Qlt_le_dec (target bits) (2 ^ 1024)
                        then float_div DifficultyOneTarget (Fl (mantissa bits) (8 * (exponent bits - 3)))
                        else Raise OverflowError.
Proof.
  intro Hb. unfold get_difficulty.
  replace (Z.land bits 0x7fffff) with (mantissa bits) by (symmetry; apply (Z.land_ones bits 23); lia).
  rewrite Z.shiftr_div_pow2 by lia. fold (exponent bits). cbv zeta.
  destruct (Z.ltb_spec (8 * (exponent bits - 3)) 0) as [L|L].
  - destruct (Qlt_le_dec (target bits) (2 ^ 1024)) as [_|N]; [reflexivity|].
    pose proof (target_small bits Hb L). exfalso. exact (Qlt_not_le _ _ H N).
  - assert (T : target bits == inject_Z (mantissa bits * 2 ^ (8 * (exponent bits - 3)))).
    { rewrite target_alt, inject_Z_mult, P_int by exact L. reflexivity. }
    assert (C : 2 ^ 1024 == inject_Z (2 ^ 1024)) by (apply P_int; lia).
    destruct (Z.leb_spec (2 ^ 1024) (mantissa bits * 2 ^ (8 * (exponent bits - 3)))) as [G|G];
      destruct (Qlt_le_dec (target bits) (2 ^ 1024)) as [N|N]; try reflexivity; exfalso.
    + apply inject_le in G. rewrite <- T, <- C in G. exact (Qlt_not_le _ _ N G).
    + apply inject_lt in G. rewrite <- T, <- C in G. exact (Qlt_not_le _ _ G N).
Qed.

Lemma get_difficulty_rounded bits : (0 <= bits)%Z -> mantissa bits <> 0%Z -> target bits < 2 ^ 1024 ->
  exists m s, get_difficulty bits = Ok (Fl m (- s)) /\ rounded (difficulty bits) m s.
Proof.
  intros Hb Hm Ht. pose proof (mantissa_range bits) as M. rewrite (get_difficulty_alt bits Hb).
  destruct (Qlt_le_dec (target bits) (2 ^ 1024)) as [_|N]; [|exfalso; exact (Qlt_not_le _ _ Ht N)].
  set (e := (8 * (exponent bits - 3))%Z).
  destruct (float_div_spec DifficultyOneTarget (Fl (mantissa bits) e)) as (m & s & E & R);
    [reflexivity|cbn [fl_m]; lia|]. cbn [fl_m fl_e DifficultyOneTarget] in E, R.
  exists m, (s - (208 - e))%Z. split; [rewrite E; do 2 f_equal; lia|].
  apply (rounded_scale _ _ _ (208 - e)) in R. revert R. apply rounded_wd.
  unfold difficulty. rewrite target_one, target_alt. fold e. unfold Z.sub. rewrite P_add, P_neg.
  assert (0 < inject_Z (mantissa bits)) by (change 0 with (inject_Z 0); apply inject_lt; lia). pose proof (P_pos e).
  change (inject_Z 65535) with 65535. field. split; lra.
Qed.

Lemma target_lower bits : (0 <= bits)%Z -> mantissa bits <> 0%Z -> 2 ^ (-24) <= target bits.
Proof.
  intros Hb Hm. rewrite target_alt. pose proof (mantissa_range bits) as M.
  assert (A : 1 <= inject_Z (mantissa bits)) by (change 1 with (inject_Z 1); apply inject_le; lia).
  assert (B : 2 ^ (-24) <= 2 ^ (8 * (exponent bits - 3))).
  { apply P_le. unfold exponent. pose proof (Z.div_pos bits (2 ^ 24) Hb ltac:(lia)). lia. }
  pose proof (P_pos (8 * (exponent bits - 3))). set (x := 2 ^ (-24)) in *. set (y := 2 ^ (8 * _)) in *. clearbody x y. nra.
Qed.

(** ** C110 *)

Theorem C110_nearest : forall bits, (0 <= bits)%Z -> mantissa bits <> 0%Z -> target bits < 2 ^ 1024 ->
  exists d, get_difficulty bits = Ok d /\ nearest_double (difficulty bits) d.
Proof.
  intros bits Hb Hm Ht. destruct (get_difficulty_rounded bits Hb Hm Ht) as (m & s & E & R).
  exists (Fl m (- s)). split; [exact E|]. pose proof (rounded_range _ _ _ R) as Rm. unfold nearest_double.
  split; [|split; [exact (proj1 Rm)|]].
  - unfold is_double. cbn [fl_m fl_e]. split; [lia|]. destruct R as (R1 & R2 & _).
    pose proof (target_lower bits Hb Hm) as L. pose proof (target_pos bits Hm) as Tp.
    assert (D : difficulty bits * target bits == 65535 * 2 ^ 208).
    { unfold difficulty. rewrite target_one. field. lra. }
    assert (K : 0 < difficulty bits).
    { unfold difficulty. rewrite target_one. apply Qlt_shift_div_l; [exact Tp|]. rewrite Qmult_0_l. reflexivity. }
    assert (P1 : 2 ^ 223 < 65535 * 2 ^ 208) by reflexivity. assert (P2 : 65535 * 2 ^ 208 < 2 ^ 224) by reflexivity.
    rewrite <- D in P1, P2. clear D Hm. pose proof (P_pos s) as Ps.
    set (q := difficulty bits) in *. set (t := target bits) in *. clearbody q t.
    assert (X : 2 ^ (-801) < q).
    { apply (Qmult_lt_r _ _ (2 ^ 1024)); [apply P_pos|]. rewrite P_inj. change (-801 + 1024)%Z with 223%Z.
      apply Qlt_trans with (1 := P1). apply Qmult_lt_l; assumption. }
    assert (Y : q <= 2 ^ 248).
    { apply (Qmult_le_r _ _ (2 ^ (-24))); [apply P_pos|]. rewrite P_inj. change (248 + -24)%Z with 224%Z.
      apply Qlt_le_weak. apply Qle_lt_trans with (2 := P2). apply Qmult_le_l; assumption. }
    assert (S1 : 2 ^ (-801 + s) < 2 ^ 53).
    { rewrite P_add. apply Qle_lt_trans with (2 := R2). apply Qlt_le_weak. apply Qmult_lt_r; assumption. }
    assert (S2 : 2 ^ 51 < 2 ^ (248 + s)).
    { rewrite P_add. apply Qlt_le_trans with (2 ^ 52); [reflexivity|]. apply Qle_trans with (1 := R1). apply Qmult_le_r; assumption. }
    apply P_lt_inv in S1, S2. lia.
  - intros [m' e'] [Hm' _]. exact (rounded_nearest _ _ _ _ e' R Hm').
Qed.

Theorem C110_errors : forall bits, (0 <= bits)%Z ->
  (get_difficulty bits = Raise ZeroDivisionError <-> mantissa bits = 0%Z) /\
  (get_difficulty bits = Raise OverflowError <-> 2 ^ 1024 <= target bits).
Proof.
  intros bits Hb. destruct (Z.eq_dec (mantissa bits) 0) as [E|N].
  - assert (T : target bits == 0) by (rewrite target_alt, E; reflexivity).
    assert (G : get_difficulty bits = Raise ZeroDivisionError).
    { rewrite get_difficulty_alt by exact Hb. rewrite E. destruct (Qlt_le_dec (target bits) (2 ^ 1024)) as [_|N]; [reflexivity|].
      rewrite T in N. exfalso. exact (Qlt_not_le _ _ (P_pos 1024) N). }
    rewrite G. split; [now split|]. split; [discriminate|]. intro N. rewrite T in N. exfalso. exact (Qlt_not_le _ _ (P_pos 1024) N).
  - destruct (Qlt_le_dec (target bits) (2 ^ 1024)) as [L|L].
    + destruct (get_difficulty_rounded bits Hb N L) as (m & s & G & _). rewrite G. split; split; try discriminate.
      * intro; contradiction.
      * intro X. exfalso. exact (Qlt_not_le _ _ L X).
    + rewrite get_difficulty_alt by exact Hb. destruct (Qlt_le_dec (target bits) (2 ^ 1024)) as [X|_];
        [exfalso; exact (Qlt_not_le _ _ X L)|]. split; split; try discriminate; auto. intro; contradiction.
Qed.

(** Targets of different sizes have different difficulties, in the opposite
    order; bits for the same target have the same difficulty. *)
Lemma target_gap b1 b2 : mantissa b1 <> 0%Z -> mantissa b2 <> 0%Z -> target b2 < target b1 ->
  (1 + 2 ^ (-23)) * target b2 <= target b1.
Proof.
  rewrite !target_alt. pose proof (mantissa_range b1) as M1. pose proof (mantissa_range b2) as M2.
  set (m1 := mantissa b1) in *. set (m2 := mantissa b2) in *.
  set (e1 := (8 * (exponent b1 - 3))%Z). set (e2 := (8 * (exponent b2 - 3))%Z). intros N1 N2 L.
  assert (G : forall a b, (0 <= b < 2 ^ 23)%Z -> inject_Z b < inject_Z a -> (1 + 2 ^ (-23)) * inject_Z b <= inject_Z a).
  { intros a b Hb H. rewrite <- Zlt_Qlt in H.
    assert (A : inject_Z b + 1 <= inject_Z a) by (change 1 with (inject_Z 1); rewrite <- inject_Z_plus; apply inject_le; lia).
    assert (B : inject_Z b <= 2 ^ 23) by (rewrite P_int by lia; apply inject_le; lia).
    assert (C : 2 ^ (-23) * 2 ^ 23 == 1) by reflexivity. pose proof (P_pos (-23)). set (x := inject_Z b) in *. set (k := 2 ^ (-23)) in *.
    set (c := 2 ^ 23) in *. clearbody x k c. nra. }
  destruct (Z_le_gt_dec e2 e1) as [H|H].
  - assert (E : 2 ^ e1 == inject_Z (2 ^ (e1 - e2)) * 2 ^ e2).
    { rewrite <- P_int by lia. rewrite P_inj. replace (e1 - e2 + e2)%Z with e1 by lia. reflexivity. }
    rewrite E in *. rewrite Qmult_assoc in *. rewrite <- inject_Z_mult in *. apply Qmult_lt_r in L; [|apply P_pos].
    rewrite Qmult_assoc. apply Qmult_le_r; [apply P_pos|]. apply G; [lia|exact L].
  - assert (E : 2 ^ e2 == inject_Z (2 ^ (e2 - e1)) * 2 ^ e1).
    { rewrite <- P_int by lia. rewrite P_inj. replace (e2 - e1 + e1)%Z with e2 by lia. reflexivity. }
    rewrite E in *. rewrite !Qmult_assoc in *. rewrite <- !inject_Z_mult in *. apply Qmult_lt_r in L; [|apply P_pos].
    apply Qmult_le_r; [apply P_pos|]. rewrite <- Qmult_assoc, <- inject_Z_mult. apply G; [|exact L].
    rewrite <- Zlt_Qlt in L. pose proof (Zpow_pos (e2 - e1) ltac:(lia)). nia.
Qed.

Lemma difficulty_lt b1 b2 d1 d2 : (0 <= b1)%Z -> (0 <= b2)%Z ->
  get_difficulty b1 = Ok d1 -> get_difficulty b2 = Ok d2 -> target b2 < target b1 -> value d1 < value d2.
Proof.
  intros H1 H2 G1 G2 L.
  assert (X : forall b d, (0 <= b)%Z -> get_difficulty b = Ok d -> mantissa b <> 0%Z /\ target b < 2 ^ 1024).
  { intros b d Hb G. destruct (C110_errors b Hb) as (E1 & E2). split.
    - intro Z. apply E1 in Z. congruence.
    - destruct (Qlt_le_dec (target b) (2 ^ 1024)) as [Y|Y]; [exact Y|]. apply E2 in Y. congruence. }
  destruct (X _ _ H1 G1) as (N1 & T1). destruct (X _ _ H2 G2) as (N2 & T2).
  destruct (get_difficulty_rounded b1 H1 N1 T1) as (m1 & s1 & G1' & R1). destruct (get_difficulty_rounded b2 H2 N2 T2) as (m2 & s2 & G2' & R2).
  assert (d1 = Fl m1 (- s1)) as -> by congruence. assert (d2 = Fl m2 (- s2)) as -> by congruence.
  apply rounded_error in R1, R2. destruct R1 as (P1 & _ & U1), R2 as (P2 & U2 & _).
  pose proof (target_gap _ _ N1 N2 L) as G. pose proof (target_pos _ N1) as Q1. pose proof (target_pos _ N2) as Q2.
  assert (D : (1 + 2 ^ (-23)) * difficulty b1 <= difficulty b2).
  { unfold difficulty. rewrite target_one. assert (0 < 65535 * 2 ^ 208) by reflexivity. set (c := 65535 * 2 ^ 208) in *.
    apply Qle_shift_div_l; [exact Q2|]. set (k := 1 + 2 ^ (-23)) in *.
    assert (E : k * (c / target b1) * target b2 == k * target b2 * c / target b1) by (field; lra). rewrite E.
    apply Qle_shift_div_r; [exact Q1|]. clearbody c k. nra. }
  set (v1 := value _) in *. set (v2 := value _) in *. set (q1 := difficulty b1) in *. set (q2 := difficulty b2) in *. clearbody v1 v2 q1 q2.
  assert (K : (1 + 2 ^ (-53)) * q1 < (1 - 2 ^ (-53)) * ((1 + 2 ^ (-23)) * q1)).
  { rewrite Qmult_assoc. apply Qmult_lt_r; [exact P1|]. reflexivity. }
  assert (K2 : (1 - 2 ^ (-53)) * ((1 + 2 ^ (-23)) * q1) <= (1 - 2 ^ (-53)) * q2).
  { apply Qmult_le_l; [reflexivity|exact D]. }
  apply Qle_lt_trans with (1 := U1). apply Qlt_le_trans with (2 := U2). apply Qlt_le_trans with (1 := K). exact K2.
Qed.

Theorem C110_order : forall b1 b2 d1 d2, (0 <= b1)%Z -> (0 <= b2)%Z ->
  get_difficulty b1 = Ok d1 -> get_difficulty b2 = Ok d2 ->
  (value d1 < value d2 <-> target b2 < target b1) /\ (d1 = d2 <-> target b1 == target b2).
Proof.
  intros b1 b2 d1 d2 H1 H2 G1 G2.
  assert (X : forall b d, (0 <= b)%Z -> get_difficulty b = Ok d -> mantissa b <> 0%Z /\ target b < 2 ^ 1024).
  { intros b d Hb G. destruct (C110_errors b Hb) as (E1 & E2). split.
    - intro Z. apply E1 in Z. congruence.
    - destruct (Qlt_le_dec (target b) (2 ^ 1024)) as [Y|Y]; [exact Y|]. apply E2 in Y. congruence. }
  assert (S : target b1 == target b2 -> d1 = d2).
  { intro E. destruct (X _ _ H1 G1) as (N1 & T1). destruct (X _ _ H2 G2) as (N2 & T2).
    destruct (get_difficulty_rounded b1 H1 N1 T1) as (m1 & s1 & G1' & R1). destruct (get_difficulty_rounded b2 H2 N2 T2) as (m2 & s2 & G2' & R2).
    assert (D : difficulty b2 == difficulty b1) by (unfold difficulty; rewrite E; reflexivity).
    apply (rounded_wd _ _ _ _ D) in R2. destruct (rounded_unique _ _ _ _ _ R1 R2) as (-> & ->). congruence. }
  pose proof (difficulty_lt b1 b2 d1 d2 H1 H2 G1 G2) as L12. pose proof (difficulty_lt b2 b1 d2 d1 H2 H1 G2 G1) as L21.
  split; split.
  - intro L. destruct (Q_dec (target b1) (target b2)) as [[A|A]|A]; [|exact A|].
    + specialize (L21 A). exfalso. exact (Qlt_irrefl _ (Qlt_trans _ _ _ L L21)).
    + rewrite (S A) in L. exfalso. exact (Qlt_irrefl _ L).
  - exact L12.
  - intros <-. destruct (Q_dec (target b1) (target b2)) as [[A|A]|A]; [| |exact A].
    + exfalso. exact (Qlt_irrefl _ (L21 A)).
    + exfalso. exact (Qlt_irrefl _ (L12 A)).
  - exact S.
Qed.

(** The literal in the source, the unit, and difficulties known from the chain. *)
Example difficulty_one_literal :
  value DifficultyOneTarget == inject_Z 26959535291011309493156476344723991336010898738574164086137773096960.
Proof. reflexivity. Qed.
Example C110_example :
  get_difficulty 0x1d00ffff = Ok (Fl (2 ^ 52) (-52)) /\
  get_difficulty 0x1b0404cb = Ok (Fl 8965099470472465 (-39)) /\
  get_difficulty 0x01123456 = Ok (Fl 7916366050052734 167) /\ get_difficulty 0x1d000000 = Raise ZeroDivisionError /\
  get_difficulty 0x85000001 = Raise OverflowError.
Proof. repeat split; vm_compute; reflexivity. Qed.

(** ** Assumptions *)

Print Assumptions C110_nearest.
Print Assumptions C110_errors.
Print Assumptions C110_order.
