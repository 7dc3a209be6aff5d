(** Certificates for the parameters of a curve: the absence of points of order
    two and the order of the generator are checked by computations on lists of
    digits (DigArith.v), with the proofs that the checks mean what they
    should.  Nothing here models /repo. *)
From Coq Require Import ZArith Znumtheory Zpow_facts List Lia Bool Field.
From Verif Require Import PyBase NtModel ZpTheory Recip NtSqrt DigArith EcGroup GrpMul EcModel EcProofs.
Import ListNotations.
Open Scope Z_scope.

(** A modulus: multiplication, a multiple of p to subtract from, p - 1, and
    some multiples of p. *)
Record arith : Type := mk_arith { ar_mul : num -> num -> num; ar_big : num; ar_m1 : num; ar_mults : list num }.
Definition fadd (x y : num) : num := addl x y.
Definition fsub (A : arith) (x y : num) : num :=
  match subl (fadd x (ar_big A)) y with Dif l => l | Neg => fadd x (mull (ar_m1 A) y) end.
Definition arith_ok (p R : Z) (A : arith) : Prop := mul_ok p R (ar_mul A) /\ (p | ev (ar_big A)) /\ (p | ev (ar_m1 A) + 1) /\ Forall (fun m => (p | ev m)) (ar_mults A).
(** The same number, and the same up to a small multiple of p. *)
Definition deq (d e : dig) : bool := match sbb0 d e with C0 x0 => true | _ => false end.
Fixpoint isz (x : num) : bool := match x with NE => true | NC x0 x => isz x | _ => false end.
Fixpoint eql (x y : num) : bool :=
  match x, y with
  | NE, _ => isz y
  | _, NE => isz x
  | NC d x, NC e y => deq d e && eql x y
  end.
Definition same (A : arith) (x y : num) : bool := existsb (fun m => eql (fadd x m) y || eql x (fadd y m)) (ar_mults A).
Lemma isz_ok x : isz x = true -> ev x = 0.
Proof. induction x as [|d x IH]; [reflexivity|]. cbn [isz ev]. intro H. assert (d = x0 /\ isz x = true) as [-> H'] by (destruct d; try discriminate; now split). rewrite (IH H'). reflexivity. Qed.
Lemma deq_ok d e : deq d e = true -> dv d = dv e.
Proof.
  unfold deq. pose proof (sbb0_ok d e) as H. destruct (sbb0 d e) as [s|s]; [|discriminate]. intro K. assert (s = x0) as -> by (destruct s; try discriminate; reflexivity).
  cbn [dv bdv] in H. lia.
Qed.
Lemma eql_ok x : forall y, eql x y = true -> ev x = ev y.
Proof.
  induction x as [|d x IH]; intros y H.
  - symmetry. apply isz_ok. destruct y; exact H.
  - destruct y as [|e y]; [exact (isz_ok _ H)|]. cbn [eql] in H. apply andb_true_iff in H. destruct H as [H1 H2]. cbn [ev]. now rewrite (deq_ok _ _ H1), (IH _ H2).
Qed.
Definition is0 (p : Z) (x : num) : bool := ev x mod p =? 0.

Lemma mults_ok p l : p <> 0 -> forallb (fun z => (0 <=? z) && (z mod p =? 0)) l = true -> Forall (fun m => (p | ev m)) (map zdigs l).
Proof.
  intros N H. apply Forall_forall. intros m I. apply in_map_iff in I. destruct I as (z & <- & I). rewrite forallb_forall in H. specialize (H z I). apply andb_true_iff in H. rewrite Z.leb_le, Z.eqb_eq in H.
  rewrite zdigs_ok by apply H. apply Zmod_divide; [exact N|apply H].
Qed.

(** ** Numbers as field elements *)
Section Mean.
  Variables p R : Z.
  Hypothesis Hp : prime p.
  Variable A : arith.
  Hypothesis HA : arith_ok p R A.
  Notation fe := (fp p).
  Infix "+f" := (Fadd p) (at level 50, left associativity).
  Infix "-f" := (Fsub p) (at level 50, left associativity).
  Infix "*f" := (Fmul p) (at level 40, left associativity).
  Infix "/f" := (Fdiv p) (at level 40, left associativity).
  Add Field Fm : (Fp_field p Hp).
  Definition mean (x : num) : Fp p := fe (ev x) /f fe R.
  Lemma R_neq : fe R <> F0 p.
  Proof.
    intro H. apply fp_0 in H; [|exact Hp]. destruct HA as [[C _] _]. pose proof (prime_ge_2 p Hp). apply rel_prime_sym in C. destruct C as [_ _ C]. specialize (C p (Z.divide_refl p) H). apply Z.divide_1_r in C. lia.
  Qed.
  Lemma fe_div x y : (p | x - y) -> fe x = fe y.
  Proof. intro H. apply fp_eq. apply mod_eq_divide; [pose proof (prime_ge_2 p Hp); lia|exact H]. Qed.
  Lemma mean_mul x y : mean (ar_mul A x y) = mean x *f mean y.
  Proof.
    destruct HA as [[_ M] _]. pose proof (fe_div _ _ (M x y)) as E. rewrite !fp_mul in E. pose proof R_neq. unfold mean.
    transitivity ((fe (ev (ar_mul A x y)) *f fe R) /f (fe R *f fe R)); [field; assumption|]. rewrite E. field. assumption.
  Qed.
  Lemma mean_add x y : mean (fadd x y) = mean x +f mean y.
  Proof. unfold mean, fadd. rewrite addl_ok, fp_add. pose proof R_neq. field. assumption. Qed.
  Lemma mean_sub x y : mean (fsub A x y) = mean x -f mean y.
  Proof.
    unfold fsub. destruct HA as (_ & B & M1 & _). pose proof R_neq. assert (fe (ev (ar_big A)) = F0 p) as EB by now apply fp_0. destruct (subl _ _) as [|l] eqn:E.
    - rewrite mean_add. unfold mean. rewrite mull_ok, fp_mul. assert (fe (ev (ar_m1 A)) = F0 p -f F1 p) as ->.
      { unfold F0, F1. rewrite <- fp_sub. apply fe_div. now replace (ev (ar_m1 A) - (0 - 1)) with (ev (ar_m1 A) + 1) by lia. }
      field. assumption.
    - apply subl_ok in E. unfold mean. rewrite E. unfold fadd. rewrite addl_ok, fp_sub, fp_add, EB. field. assumption.
  Qed.
  Lemma mean_same x y : same A x y = true -> mean x = mean y.
  Proof.
    unfold same. intro H. apply existsb_exists in H. destruct H as (m & I & H). destruct HA as (_ & _ & _ & F). rewrite Forall_forall in F. specialize (F m I). unfold mean. f_equal. apply fe_div. apply orb_true_iff in H.
    destruct H as [H|H]; apply eql_ok in H; unfold fadd in H; rewrite addl_ok in H; destruct F as [k F]; [exists (- k)|exists k]; lia.
  Qed.
  Lemma mean_0 x : mean x = F0 p <-> ev x mod p = 0.
  Proof.
    pose proof (prime_ge_2 p Hp). pose proof R_neq as RN. split; intro H1.
    - apply Zdivide_mod. apply fp_0; [exact Hp|]. transitivity (mean x *f fe R); [unfold mean; field; exact RN|]. rewrite H1. ring.
    - unfold mean. assert (fe (ev x) = F0 p) as -> by (apply fp_0; [exact Hp|]; apply Zmod_divide; [lia|exact H1]). field. exact RN.
  Qed.
  (** The number of a constant. *)
  Definition lift (z : Z) : num := zdigs ((z * R) mod p).
  Lemma mean_lift z : mean (lift z) = fe z.
  Proof.
    unfold mean, lift. pose proof (prime_ge_2 p Hp). rewrite zdigs_ok by (apply Z.mod_pos_bound; lia). rewrite fp_mod, fp_mul. field. exact R_neq.
  Qed.

  Lemma mean_nil : mean NE = F0 p.
  Proof. apply mean_0. change (ev NE) with 0. pose proof (prime_ge_2 p Hp). apply Z.mod_0_l. lia. Qed.
  (** ** Cubics without roots, after Cardano: if x^3 = 3 m x + u + v with
      u v = m^3 and u other than v, then u is a cube *)
  Definition not_cube (u : Z) (k : Z) : bool := negb (is0 p (fsub A (lpow (ar_mul A) (lift u) (Z.to_pos k)) (lift 1))).
  Definition cardano (a b m u v : Z) : bool :=
    ((3 * m + a) mod p =? 0) && ((u + v + b) mod p =? 0) && ((u * v - m * m * m) mod p =? 0) && negb ((u - v) mod p =? 0) && negb (u mod p =? 0) && ((p - 1) mod 3 =? 0) && not_cube u ((p - 1) / 3).
  Lemma lpow_mean z e : mean (lpow (ar_mul A) (lift z) e) = fe (z ^ Z.pos e).
  Proof.
    apply (lpow_ind (ar_mul A) (fun x i => mean x = fe (z ^ i))).
    - intros x y i j Hi Hj Hx Hy. now rewrite mean_mul, Hx, Hy, Z.pow_add_r, fp_mul by assumption.
    - now rewrite mean_lift, Z.pow_1_r.
  Qed.
  Lemma fe_mod z : z mod p = 0 -> fe z = F0 p.
  Proof. intro H. pose proof (prime_ge_2 p Hp). apply fp_0; [exact Hp|]. apply Zmod_divide; [lia|exact H]. Qed.
  Lemma fe_nmod z : z mod p <> 0 -> fe z <> F0 p.
  Proof. intros H E. apply H. apply Zdivide_mod. now apply fp_0. Qed.
  Lemma cube_root (x m u v : Fp p) : F1 p +f F1 p <> F0 p -> x *f x *f x = (F1 p +f F1 p +f F1 p) *f m *f x +f (u +f v) -> u *f v = m *f m *f m -> u <> v -> exists z, z *f z *f z = u.
  Proof.
    intros N2 E M D. assert ((u -f v) *f (u -f v) = (x *f x -f (F1 p +f F1 p) *f (F1 p +f F1 p) *f m) *f ((x *f x -f m) *f (x *f x -f m))) as S.
    { transitivity ((u +f v) *f (u +f v) -f (F1 p +f F1 p) *f (F1 p +f F1 p) *f (u *f v)); [ring|]. rewrite M. assert (u +f v = x *f x *f x -f (F1 p +f F1 p +f F1 p) *f m *f x) as -> by (rewrite E; ring). ring. }
    assert (x *f x -f m <> F0 p) as N.
    { intro K. apply D. rewrite K in S. assert (u -f v = F0 p \/ u -f v = F0 p) as [Z|Z].
      { apply (mul_0 _ _ _ _ _ _ _ _ _ (Fp_field p Hp) (Fdec p)). rewrite S. ring. }
      all: transitivity (u -f v +f v); [ring|]; rewrite Z; ring. }
    set (e := (u -f v) /f (x *f x -f m)). assert (e *f e = x *f x -f (F1 p +f F1 p) *f (F1 p +f F1 p) *f m) as E2.
    { transitivity ((u -f v) *f (u -f v) /f ((x *f x -f m) *f (x *f x -f m))); [unfold e; field; exact N|]. rewrite S. field. exact N. }
    assert (e *f (x *f x -f m) = u -f v) as E1 by (unfold e; field; exact N). clearbody e.
    set (h := F1 p /f (F1 p +f F1 p)). assert ((F1 p +f F1 p) *f h = F1 p) as Eh by (unfold h; field; exact N2). clearbody h. exists ((x +f e) *f h).
    transitivity (h *f h *f h *f (x *f x *f x +f (F1 p +f F1 p +f F1 p) *f x *f (e *f e) +f e *f ((F1 p +f F1 p +f F1 p) *f (x *f x) +f e *f e))); [ring|]. rewrite E2.
    transitivity (h *f h *f h *f ((F1 p +f F1 p) *f (F1 p +f F1 p) *f (x *f x *f x -f (F1 p +f F1 p +f F1 p) *f m *f x +f e *f (x *f x -f m)))); [ring|]. rewrite E1, E.
    transitivity (((F1 p +f F1 p) *f h) *f ((F1 p +f F1 p) *f h) *f ((F1 p +f F1 p) *f h) *f u); [ring|]. rewrite Eh. ring.
  Qed.
  Lemma cardano_ok a b m u v : 2 < p -> cardano a b m u v = true -> forall x, (x * x * x + a * x + b) mod p <> 0.
  Proof.
    intros H2 H x E. unfold cardano, not_cube in H. rewrite !andb_true_iff, !negb_true_iff, !Z.eqb_eq, !Z.eqb_neq in H. destruct H as [[[[[[Hm Hs] Hu] Hd] H0] H3] Hc]. unfold is0 in Hc. rewrite Z.eqb_neq in Hc.
    apply fe_mod in Hm, Hs, Hu, E. apply fe_nmod in Hd, H0. rewrite ?fp_add, ?fp_sub, ?fp_mul in *.
    assert (F1 p +f F1 p <> F0 p) as N2. { unfold F1. rewrite <- fp_add. intro K. apply fp_0 in K; [|exact Hp]. apply Z.divide_pos_le in K; lia. }
    assert (fe 3 = F1 p +f F1 p +f F1 p) as T3 by (change 3 with (1 + 1 + 1); now rewrite !fp_add). rewrite T3 in Hm.
    destruct (cube_root (fe x) (fe m) (fe u) (fe v) N2) as (z & Hz).
    - transitivity (fe x *f fe x *f fe x +f fe a *f fe x +f fe b +f ((F1 p +f F1 p +f F1 p) *f fe m +f fe a) *f (F0 p -f fe x) -f (fe u +f fe v +f fe b) +f (F1 p +f F1 p +f F1 p) *f fe m *f fe x +f (fe u +f fe v)); [ring|].
      rewrite E, Hm, Hs. ring.
    - transitivity (fe u *f fe v -f fe m *f fe m *f fe m +f fe m *f fe m *f fe m); [ring|]. rewrite Hu. ring.
    - intro K. apply Hd. rewrite K. ring.
    - apply Hc. apply mean_0. rewrite mean_sub, mean_lift, lpow_mean. apply Zmod_divide in H3; [|lia]. destruct H3 as [k H3]. assert ((p - 1) / 3 = k) as -> by (rewrite H3; apply Z.div_mul; lia). rewrite Z2Pos.id by lia.
      set (t := val p z). assert (fe t = z) as Et by apply fp_val. assert (fe (u ^ k) = F1 p) as ->; [|unfold F1; ring].
      transitivity (fe (t ^ (p - 1))).
      + rewrite H3. replace (k * 3) with (3 * k) by ring. rewrite Z.pow_mul_r by lia. apply fe_div. apply mod_eq_divide; [lia|]. rewrite (Zpower_mod u), (Zpower_mod (t ^ 3)) by lia. f_equal. f_equal. apply (proj1 (fp_eq p u (t ^ 3))). rewrite <- Hz, <- Et. change (t ^ 3) with (t * (t * (t * 1))). rewrite !fp_mul. fold (F1 p). ring.
      + apply fp_eq. rewrite fermat; [symmetry; apply Z.mod_small; lia|exact Hp|]. intro D. apply H0. rewrite <- Hz, <- Et. assert (fe t = F0 p) as -> by now apply fp_0. ring.
  Qed.

  (** ** Roots of x^3 - 3 x + b, after Dickson: with x = u + 1/u, b is minus
      u^3 + 1/u^3, and u^(p+1) = 1 if u is not in the field *)
  Definition two : num := lift 2.
  Fixpoint dick (y : num) (k : positive) : num * num :=
    match k with
    | xH => (y, fsub A (ar_mul A y y) two)
    | xO k => let (u, v) := dick y k in (fsub A (ar_mul A u u) two, fsub A (ar_mul A u v) y)
    | xI k => let (u, v) := dick y k in (fsub A (ar_mul A u v) y, fsub A (ar_mul A v v) two)
    end.
  Definition dickson (a b : Z) : bool :=
    ((a + 3) mod p =? 0) && negb (b mod p =? 0) && ((p + 1) mod 3 =? 0) && is0 p (fadd (lpow (ar_mul A) (lift (b * b - 4)) (Z.to_pos ((p - 1) / 2))) (lift 1)) &&
    negb (is0 p (fsub A (fst (dick (lift (- b)) (Z.to_pos ((p + 1) / 3)))) two)).
  Section Dick.
    Variable z : Z.
    Hypothesis H2 : 2 < p.
    Hypothesis Hz : ~ (p | z).
    Hypothesis HD : J (z * z - 4) p = -1.
    Hypothesis HDn : ~ (p | z * z - 4).
    Notation Qm := (Qmul p 1 z).
    Notation Qw := (Qpow p 1 z).
    Add Ring Rd : (Q_ring p Hp 1 z).
    Definition U : Q p := Qw (QX p) 3.
    Definition V : Q p := Qw (Qsub p (emb p (fe z)) (QX p)) 3.
    Lemma X_conj : Qm (QX p) (Qsub p (emb p (fe z)) (QX p)) = Q1 p.
    Proof. unfold Qmul, QX, Qsub, emb, Q1. cbn [fst snd]. fold (F1 p). f_equal; ring. Qed.
    Lemma UV n : Qm (Qw U n) (Qw V n) = Q1 p.
    Proof.
      rewrite <- (Qpow_mul_l p Hp 1 z). unfold U, V. rewrite <- (Qpow_mul_l p Hp 1 z), X_conj. assert (forall n, Qw (Q1 p) n = Q1 p) as E by (intro m; induction m as [|m IH]; cbn [Qpow]; [reflexivity|rewrite IH; ring]). now rewrite !E.
    Qed.
    Definition tr (n : nat) : Q p := Qadd p (Qw U n) (Qw V n).
    Lemma tr_1 : tr 1 = emb p (fe (z * z * z - 3 * z)).
    Proof.
      unfold tr, U, V. set (c := Qsub p (emb p (fe z)) (QX p)). pose proof X_conj as E. fold c in E. assert (Qadd p (QX p) c = emb p (fe z)) as S by (unfold c; ring).
      cbn [Qpow]. transitivity (Qsub p (Qm (Qadd p (QX p) c) (Qm (Qadd p (QX p) c) (Qadd p (QX p) c))) (Qm (Qadd p (Q1 p) (Qadd p (Q1 p) (Q1 p))) (Qm (Qm (QX p) c) (Qadd p (QX p) c)))); [ring|]. rewrite E, S.
      unfold Qmul, Qsub, Qadd, Q1, emb. cbn [fst snd]. rewrite fp_sub, !fp_mul. change 3 with (1 + 1 + 1). rewrite !fp_add. fold (F1 p). f_equal; ring.
    Qed.
    Lemma tr_mul m n : Qm (tr m) (tr (m + n)) = Qadd p (tr (m + m + n)) (tr n).
    Proof.
      unfold tr. rewrite !(Qpow_add p Hp 1 z). pose proof (UV m) as E. set (a1 := Qw U m) in *. set (b1 := Qw V m) in *. set (a2 := Qw U n). set (b2 := Qw V n).
      transitivity (Qadd p (Qadd p (Qm (Qm a1 a1) a2) (Qm (Qm b1 b1) b2)) (Qm (Qm a1 b1) (Qadd p a2 b2))); [ring|]. rewrite E. ring.
    Qed.
    Lemma tr_0 : tr 0 = emb p (fe 2).
    Proof. unfold tr. cbn [Qpow]. unfold Qadd, Q1, emb. cbn [fst snd]. change 2 with (1 + 1). rewrite fp_add. fold (F1 p). f_equal; ring. Qed.
    Lemma emb_sub c d : Qsub p (emb p c) (emb p d) = emb p (c -f d).
    Proof. unfold Qsub, emb. cbn [fst snd]. f_equal; ring. Qed.
    Lemma dick_ok y k : emb p (mean y) = tr 1 -> emb p (mean (fst (dick y k))) = tr (Pos.to_nat k) /\ emb p (mean (snd (dick y k))) = tr (S (Pos.to_nat k)).
    Proof.
      intro Ey. assert (emb p (mean two) = tr 0) as E2 by (unfold two; now rewrite mean_lift, tr_0).
      assert (forall m n u v w, emb p (mean u) = tr m -> emb p (mean v) = tr (m + n) -> emb p (mean w) = tr n -> emb p (mean (fsub A (ar_mul A u v) w)) = tr (m + m + n)) as K.
      { intros m n u v w Eu Ev Ew. rewrite mean_sub, mean_mul, <- emb_sub, <- (emb_mul p Hp 1 z), Eu, Ev, Ew, tr_mul. ring. }
      induction k as [k IH|k IH|]; cbn [dick].
      - destruct (dick y k) as [u v]. cbn [fst snd] in *. destruct IH as [Iu Iv]. split.
        + replace (Pos.to_nat k~1) with (Pos.to_nat k + Pos.to_nat k + 1)%nat by lia. apply K; [exact Iu|now rewrite Nat.add_1_r|exact Ey].
        + replace (S (Pos.to_nat k~1)) with (S (Pos.to_nat k) + S (Pos.to_nat k) + 0)%nat by lia. apply K; [exact Iv|now rewrite Nat.add_0_r|exact E2].
      - destruct (dick y k) as [u v]. cbn [fst snd] in *. destruct IH as [Iu Iv]. split.
        + replace (Pos.to_nat k~0) with (Pos.to_nat k + Pos.to_nat k + 0)%nat by lia. apply K; [exact Iu|now rewrite Nat.add_0_r|exact E2].
        + replace (S (Pos.to_nat k~0)) with (Pos.to_nat k + Pos.to_nat k + 1)%nat by lia. apply K; [exact Iu|now rewrite Nat.add_1_r|exact Ey].
      - cbn [fst snd]. split; [exact Ey|]. change (S (Pos.to_nat 1)) with (1 + 1 + 0)%nat. now apply K.
    Qed.
    Lemma tr_last k : 3 * Z.of_nat k = p + 1 -> tr k = emb p (fe 2).
    Proof.
      intro E. assert (Qw U k = Q1 p) as EU.
      { unfold U. rewrite <- (Qpow_mul p Hp 1 z). replace (3 * k)%nat with (S (Z.to_nat p)) by lia. rewrite (norm_X p Hp 1 z H2 Hz); [reflexivity|now rewrite Z.mul_1_r|now rewrite Z.mul_1_r]. }
      pose proof (UV k) as E1. rewrite EU in E1. unfold tr. rewrite EU. assert (Qw V k = Q1 p) as -> by (rewrite <- E1; ring). unfold Qadd, Q1, emb. cbn [fst snd]. change 2 with (1 + 1). rewrite fp_add. fold (F1 p). f_equal; ring.
    Qed.
  End Dick.
  Lemma dickson_ok a b : 2 < p -> dickson a b = true -> forall x, (x * x * x + a * x + b) mod p <> 0.
  Proof.
    intros H2 H x E. unfold dickson in H. rewrite !andb_true_iff, !negb_true_iff, !Z.eqb_eq, !Z.eqb_neq in H. destruct H as [[[[Ha Hb] H3] He] Hd]. unfold is0 in He, Hd. rewrite Z.eqb_eq in He. rewrite Z.eqb_neq in Hd.
    assert (forall c, c mod p = 0 <-> (p | c)) as DV by (intro c; split; [apply Zmod_divide; lia|apply Zdivide_mod]). rewrite DV in *.
    assert ((p | x * x * x - 3 * x + b)) as R0. { replace (x * x * x - 3 * x + b) with (x * x * x + a * x + b - (a + 3) * x) by ring. apply Z.divide_sub_r; [exact E|now apply Z.divide_mul_l]. }
    assert (~ (p | x)) as Hx. { intros [k ->]. apply Hb. destruct R0 as [m M]. exists (m - k * k * k * p * p + 3 * k). lia. }
    set (h := (p - 1) / 2) in *. set (d := b * b - 4) in *. set (e := x * x - 4). set (g := x * x - 1).
    assert ((p | d - e * (g * g))) as Rd. { destruct R0 as [m M]. exists (m * (b - (x * x * x - 3 * x))). unfold d, e, g. assert (b = m * p - (x * x * x - 3 * x)) as -> by lia. ring. }
    assert (1 <= h) as H1 by (unfold h; apply Z.div_le_lower_bound; lia).
    assert ((p | d ^ h + 1)) as Eu.
    { apply DV in He. apply mean_0 in He. rewrite mean_add, mean_lift, lpow_mean, Z2Pos.id, <- fp_add in He by lia. now apply fp_0 in He. }
    assert (~ (p | d)) as Nd. { intro D. assert ((p | d ^ h)) as D1 by (replace h with (Z.succ (h - 1)) by lia; rewrite Z.pow_succ_r by lia; now apply Z.divide_mul_l). assert ((p | 1)) as D2 by (replace 1 with (d ^ h + 1 - d ^ h) by lia; now apply Z.divide_sub_r). apply Z.divide_1_r in D2. lia. }
    assert (~ (p | e * (g * g))) as Nm. { intro D. apply Nd. replace d with (d - e * (g * g) + e * (g * g)) by lia. now apply Z.divide_add_r. }
    assert (~ (p | e)) as Ne by (intro D; apply Nm; now apply Z.divide_mul_l). assert (~ (p | g)) as Ng by (intro D; apply Nm; apply Z.divide_mul_r; now apply Z.divide_mul_l).
    assert (half p = h) as Eh by reflexivity. pose proof (odd_p p Hp H2) as Ho. pose proof (half_eq p Ho) as Hh.
    assert ((p | e ^ h + 1)) as Ee.
    { assert (fe (d ^ h) = fe (e ^ h)) as K.
      { transitivity (fe ((e * (g * g)) ^ h)).
        - apply fp_eq. rewrite Zpower_mod, (Zpower_mod (e * (g * g))) by lia. f_equal. f_equal. apply mod_eq_divide; [lia|exact Rd].
        - rewrite Z.pow_mul_l. replace ((g * g) ^ h) with (g ^ (p - 1)); [|rewrite <- Z.pow_2_r, <- Z.pow_mul_r by lia; f_equal; lia]. rewrite fp_mul.
          assert (fe (g ^ (p - 1)) = F1 p) as -> by (apply fp_eq; rewrite fermat by assumption; symmetry; apply Z.mod_small; lia). ring. }
      apply fp_0; [exact Hp|]. apply fp_0 in Eu; [|exact Hp]. rewrite fp_add in *. now rewrite <- K. }
    assert (J e p = -1) as Je.
    { pose proof (gauss_lemma p Hp H2 e Ne) as G. rewrite Eh in G. assert ((p | J e p + 1)) as D. { replace (J e p + 1) with (e ^ h + 1 - (e ^ h - J e p)) by ring. now apply Z.divide_sub_r. }
      destruct (J_cases p e) as [K|K]; [exfalso|exact K]. rewrite K in D. apply Z.divide_pos_le in D; lia. }
    apply Hd. apply DV. apply mean_0. rewrite mean_sub. assert (mean two = fe 2) as -> by apply mean_lift. apply Zmod_divide in H3; [|lia]. destruct H3 as [k H3].
    assert ((p + 1) / 3 = k) as Ek by (rewrite H3; apply Z.div_mul; lia). rewrite Ek. assert (emb p (mean (lift (- b))) = tr x 1) as Ey.
    { rewrite mean_lift, tr_1 by assumption. f_equal. apply fe_div. destruct R0 as [m M]. exists (- m). lia. }
    destruct (dick_ok x (lift (- b)) (Z.to_pos k) Ey) as [K _]. rewrite (tr_last x H2 Hx Je Ne) in K by lia. assert (mean (fst (dick (lift (- b)) (Z.to_pos k))) = fe 2) as -> by (unfold emb in K; congruence). ring.
  Qed.

  Variable na : num.
  (** ** Multiples of a point, with the slopes and the results given; [na] is
      minus the coefficient a, (x, y) the point *)
  Variables x y : num.
  (** The double of a point. *)
  Definition twice (X Y : num) (w : Z * Z * Z) : option (num * num) :=
    let '(l, xr, yr) := w in
    let mul := ar_mul A in
    let l := zdigs l in let xr := zdigs xr in let yr := zdigs yr in
    let XX := mul X X in
    if same A (fadd (mul l (fadd Y Y)) na) (fadd XX (fadd XX XX)) && same A (mul l l) (fadd xr (fadd X X)) && same A (mul l (fsub A X xr)) (fadd yr Y) then Some (xr, yr) else None.
  (** The sum of (x, y), or its opposite, and another point. *)
  Definition plus (s : bool) (X Y : num) (w : Z * Z * Z * Z) : option (num * num) :=
    let '(i, l, xr, yr) := w in
    let mul := ar_mul A in
    let l := zdigs l in let xr := zdigs xr in let yr := zdigs yr in
    let d := fsub A X x in let u := mul l d in let v := mul l (fsub A x xr) in
    if same A (mul (zdigs i) d) (lift 1) && same A (if s then fadd u y else u) (if s then Y else fadd Y y) && same A (mul l l) (fadd xr (fadd X x)) &&
       same A (if s then v else fadd v y) (if s then fadd yr y else yr) then Some (xr, yr) else None.
  Definition step : Type := (Z * Z * Z) * option (bool * (Z * Z * Z * Z)).
  (** [k] times the point is (X, Y). *)
  Fixpoint chain (X Y : num) (k : Z) (l : list step) : option (num * num * Z) :=
    match l with
    | [] => Some (X, Y, k)
    | (w, o) :: l =>
        match twice X Y w with
        | None => None
        | Some (X, Y) =>
            match o with
            | None => chain X Y (2 * k) l
            | Some (s, w) => match plus s X Y w with None => None | Some (X, Y) => chain X Y (2 * k + (if s then 1 else -1)) l end
            end
        end
    end.
  (** (n - 1) times the point is its opposite. *)
  Definition order_check (n : Z) (l : list step) : bool :=
    match chain x y 1 l with
    | Some (X, Y, k) => (k =? n - 1) && same A X x && same A (fadd Y y) NE
    | None => false
    end.
End Mean.

Section ChainOk.
  Variable c : curve.
  Hypothesis Hc : curve_ok c.
  Notation p := (c_p c).
  Variable R : Z.
  Variable A : arith.
  Hypothesis HA : arith_ok p R A.
  Notation fe := (fp p).
  Notation mean := (mean p R).
  Infix "+f" := (Fadd p) (at level 50, left associativity).
  Infix "-f" := (Fsub p) (at level 50, left associativity).
  Infix "*f" := (Fmul p) (at level 40, left associativity).
  Infix "/f" := (Fdiv p) (at level 40, left associativity).
  Add Field Fef2 : (Fp_field p (ecp c Hc)).
  Variables na x y : num.
  Hypothesis Ea : mean na = fe (- c_a c).
  Definition G0 : ept c := Aff (EF c) (mean x) (mean y).
  Hypothesis OG : e_on c G0.
  Ltac means := repeat rewrite ?(mean_add p R (ecp c Hc) A HA), ?(mean_sub p R (ecp c Hc) A HA), ?(mean_mul p R (ecp c Hc) A HA).
  Notation aff X Y := (Aff (EF c) (mean X) (mean Y)).
  Lemma slope_eq (l d k : Fp p) : d <> F0 p -> l *f d = k -> k /f d = l.
  Proof. intros N E. rewrite <- E. field. exact N. Qed.
  Lemma twice_ok X Y w X' Y' : e_on c (aff X Y) -> twice A na X Y w = Some (X', Y') -> e_add c (aff X Y) (aff X Y) = aff X' Y'.
  Proof.
    intros On H. destruct w as [[l xr] yr]. unfold twice in H. cbv zeta in H. destruct (_ && _) eqn:E; [|discriminate]. assert (zdigs xr = X' /\ zdigs yr = Y') as [<- <-] by (split; congruence). clear H.
    rewrite !andb_true_iff in E. destruct E as [[E1 E2] E3]. apply (mean_same p R (ecp c Hc) A HA) in E1, E2, E3. revert E1 E2 E3. means. rewrite Ea, fp_opp.
    generalize (mean X) (mean Y) (mean (zdigs l)) (mean (zdigs xr)) (mean (zdigs yr)) On. clear On l xr yr X Y. intros X Y l xr yr On E1 E2 E3.
    assert (Y +f Y <> F0 p) as NY.
    { intro K. apply (e_no2 c Hc X). assert (Y = F0 p) as Y0; [|unfold e_on, on in On; rewrite Y0 in On; exact On].
      apply (mul_cancel _ _ _ _ _ _ _ _ _ (Fp_field p (ecp c Hc)) (F1 p +f F1 p)); [exact (e_two c Hc)|]. transitivity (Y +f Y); [ring|]. rewrite K. ring. }
    unfold e_add, add. destruct (Fdec p _ _) as [_|K]; [|now elim K]. destruct (Fdec p _ _) as [K|_]; [contradiction|].
    match goal with |- third _ _ _ (Fdiv p ?k ?d) _ _ _ = _ => assert (Fdiv p k d = l) as -> end.
    { apply slope_eq; [intro K; apply NY; rewrite <- K; ring|]. transitivity (l *f (Y +f Y) +f (F0 p -f fe (c_a c)) +f fe (c_a c)); [ring|].
      transitivity (X *f X +f (X *f X +f X *f X) +f fe (c_a c)); [|ring]. f_equal. rewrite <- E1. ring. }
    unfold third. assert (l *f l -f X -f X = xr) as -> by (rewrite E2; ring). f_equal. rewrite E3. ring.
  Qed.
  Lemma plus_ok s X Y w X' Y' : plus p R A x y s X Y w = Some (X', Y') -> e_add c (if s then G0 else e_neg c G0) (aff X Y) = aff X' Y'.
  Proof.
    intros H. destruct w as [[[i l] xr] yr]. unfold plus in H. cbv zeta in H. destruct (_ && _) eqn:E; [|discriminate]. assert (zdigs xr = X' /\ zdigs yr = Y') as [<- <-] by (split; congruence). clear H.
    rewrite !andb_true_iff in E. destruct E as [[[E0 E1] E2] E3]. apply (mean_same p R (ecp c Hc) A HA) in E0, E1, E2, E3. revert E0 E2. means. rewrite (mean_lift p R (ecp c Hc) A HA). fold (F1 p). intros E0 E2.
    assert (mean X -f mean x <> F0 p) as N. { intro K. rewrite K in E0. apply (F1_neq_0 p (ecp c Hc)). rewrite <- E0. ring. }
    assert (mean x -f mean X <> F0 p) as N'. { intro K. apply N. transitivity (F0 p -f (mean x -f mean X)); [ring|]. rewrite K. ring. }
    unfold G0, e_neg. destruct s; revert E1 E3; means; intros E1 E3; unfold e_add, add, neg; (destruct (Fdec p _ _) as [K|_]; [exfalso; apply N; rewrite K; ring|]);
      (match goal with |- third _ _ _ (Fdiv p ?k ?d) _ _ _ = _ => assert (Fdiv p k d = mean (zdigs l)) as -> end; [apply slope_eq; [assumption|]|
      unfold third; match goal with |- Aff _ ?u _ = _ => assert (u = mean (zdigs xr)) as -> by (rewrite E2; ring) end; f_equal]).
    - rewrite <- E1. ring.
    - rewrite E3. ring.
    - transitivity (mean (zdigs l) *f (mean X -f mean x)); [ring|]. rewrite E1. ring.
    - rewrite <- E3. ring.
  Qed.
  Lemma chain_ok l : forall X Y k X' Y' k', e_mul c k G0 = aff X Y -> chain p R A na x y X Y k l = Some (X', Y', k') -> e_mul c k' G0 = aff X' Y'.
  Proof.
    assert (forall k, e_on c (e_mul c k G0)) as OM by (intro; now apply e_mul_on).
    induction l as [|[w o] l IH]; intros X Y k X' Y' k' E H; cbn [chain] in H; [congruence|].
    destruct (twice A na X Y w) as [[X1 Y1]|] eqn:T; [|discriminate]. apply twice_ok in T; [|rewrite <- E; apply OM].
    assert (e_mul c (2 * k) G0 = aff X1 Y1) as E1. { replace (2 * k) with (k + k) by lia. unfold e_mul in *. rewrite e_mul_add by assumption. rewrite E. exact T. }
    destruct o as [[s w']|]; [|exact (IH _ _ _ _ _ _ E1 H)]. destruct (plus p R A x y s X1 Y1 w') as [[X2 Y2]|] eqn:P; [|discriminate]. apply plus_ok in P. apply (IH _ _ _ _ _ _) in H; [exact H|].
    replace (2 * k + (if s then 1 else -1)) with ((if s then 1 else -1) + 2 * k) by lia. unfold e_mul in *. rewrite e_mul_add by assumption. rewrite E1.
    replace (zmul (e_inf c) (e_add c) (e_neg c) (if s then 1 else -1) G0) with (if s then G0 else e_neg c G0); [exact P|].
    destruct s; symmetry; [now apply e_mul_1|]. change (-1) with (- (1)). rewrite e_mul_neg by assumption. now rewrite e_mul_1.
  Qed.
  Theorem order_check_ok n l : order_check p R A na x y n l = true -> e_mul c n G0 = e_inf c.
  Proof.
    intro H. unfold order_check in H. destruct (chain p R A na x y x y 1 l) as [[[X Y] k]|] eqn:C; [|discriminate]. rewrite !andb_true_iff, Z.eqb_eq in H. destruct H as [[-> H2] H3].
    apply (mean_same p R (ecp c Hc) A HA) in H2, H3. apply chain_ok in C; [|unfold e_mul; now rewrite e_mul_1]. revert H3. means. rewrite (mean_nil p R (ecp c Hc) A HA). intro H3.
    assert (e_mul c (n - 1) G0 = e_neg c G0) as E. { rewrite C. unfold G0, e_neg, neg. f_equal; [exact H2|]. transitivity (mean Y +f mean y -f mean y); [ring|]. rewrite H3. ring. }
    replace n with (1 + (n - 1)) by lia. unfold e_mul in *. rewrite e_mul_add, e_mul_1, E by assumption. now apply e_add_neg.
  Qed.
End ChainOk.
