(** numbertheory.square_root_mod_prime finds the square roots. *)
From Coq Require Import ZArith Znumtheory Zpow_facts List Lia Bool Ring Field.
From Verif Require Import PyBase PyLoop NtModel NtProofs ZpTheory Recip NtJacobi.
Import ListNotations.
Open Scope Z_scope.

(** ** Binomial coefficients of a prime *)
Fixpoint prow (l : list Z) (prev : Z) : list Z := match l with [] => [prev] | x :: r => prev + x :: prow r x end.
(** The rows of Pascal's triangle. *)
Fixpoint pascal (n : nat) : list Z := match n with O => [1] | S k => prow (pascal k) 0 end.
Lemma prow_nth l : forall prev k, nth k (prow l prev) 0 = nth k l 0 + nth k (prev :: l) 0.
Proof.
  induction l as [|x l IH]; intros prev k; cbn [prow].
  - destruct k as [|k]; [cbn; lia|]. cbn. destruct k; reflexivity.
  - destruct k as [|k]; [cbn; lia|]. cbn [nth]. rewrite IH. reflexivity.
Qed.
Lemma prow_length l : forall z, List.length (prow l z) = S (List.length l).
Proof. induction l as [|x l IH]; intro z; [reflexivity|]. cbn [prow List.length]. now rewrite IH. Qed.
Lemma pascal_length n : List.length (pascal n) = S n.
Proof. induction n as [|n IH]; [reflexivity|]. cbn [pascal]. now rewrite prow_length, IH. Qed.
Definition binom (n k : nat) : Z := nth k (pascal n) 0.
Lemma binom_0 n : binom n 0 = 1.
Proof. induction n as [|n IH]; [reflexivity|]. unfold binom in *. cbn [pascal]. rewrite prow_nth, IH. reflexivity. Qed.
Lemma binom_S n k : binom (S n) (S k) = binom n (S k) + binom n k.
Proof. unfold binom. cbn [pascal]. now rewrite prow_nth. Qed.
Lemma binom_big n k : (n < k)%nat -> binom n k = 0.
Proof. intro H. unfold binom. apply nth_overflow. rewrite pascal_length. lia. Qed.
Lemma binom_top n : binom n n = 1.
Proof. induction n as [|n IH]; [reflexivity|]. rewrite binom_S, IH, binom_big by lia. reflexivity. Qed.
Lemma binom_absorb n : forall k, Z.of_nat (S k) * binom (S n) (S k) = Z.of_nat (S n) * binom n k.
Proof.
  induction n as [|n IH]; intro k.
  - destruct k as [|k]; [reflexivity|]. rewrite binom_S, !(binom_big 0) by lia. lia.
  - rewrite binom_S, Z.mul_add_distr_l, IH. destruct k as [|k].
    + rewrite !binom_0. lia.
    + rewrite (binom_S n k) at 2. specialize (IH k). rewrite binom_S in IH. rewrite binom_S. rewrite !Nat2Z.inj_succ in *. nia.
Qed.
Lemma binom_prime p k : prime p -> (0 < k < Z.to_nat p)%nat -> (p | binom (Z.to_nat p) k).
Proof.
  intros Hp Hk. pose proof (prime_ge_2 p Hp). destruct k as [|k]; [lia|]. destruct (Z.to_nat p) as [|n] eqn:E; [lia|].
  pose proof (binom_absorb n k) as A. assert (Z.of_nat (S n) = p) as En by lia. rewrite En in A.
  assert (p | Z.of_nat (S k) * binom (S n) (S k)) as D by (rewrite A; apply Z.divide_factor_l).
  apply prime_mult in D; [|exact Hp]. destruct D as [D|D]; [|exact D]. apply Z.divide_pos_le in D; lia.
Qed.

(** ** The ring of x with x^2 = b x - a over the integers modulo p *)
Section Quad.
  Variable p : Z.
  Hypothesis Hp : prime p.
  Variables a b : Z.
  Notation fe := (fp p).
  Infix "+f" := (Fadd p) (at level 50, left associativity).
  Infix "-f" := (Fsub p) (at level 50, left associativity).
  Infix "*f" := (Fmul p) (at level 40, left associativity).
  Infix "/f" := (Fdiv p) (at level 40, left associativity).
  Add Field Fq : (Fp_field p Hp).
  Definition Q : Type := (Fp p * Fp p)%type.
  Definition Q0 : Q := (F0 p, F0 p).
  Definition Q1 : Q := (F1 p, F0 p).
  Definition QX : Q := (F0 p, F1 p).
  Definition Qadd (x y : Q) : Q := (fst x +f fst y, snd x +f snd y).
  Definition Qmul (x y : Q) : Q := (fst x *f fst y -f fe a *f (snd x *f snd y), fst x *f snd y +f snd x *f fst y +f fe b *f (snd x *f snd y)).
  Definition Qopp (x : Q) : Q := (Fopp p (fst x), Fopp p (snd x)).
  Definition Qsub (x y : Q) : Q := (fst x -f fst y, snd x -f snd y).
  Lemma Q_ring : ring_theory Q0 Q1 Qadd Qmul Qsub Qopp (@eq Q).
  Proof.
    split; intros; repeat match goal with x : Q |- _ => destruct x end; unfold Q0, Q1, Qadd, Qmul, Qsub, Qopp; cbn [fst snd]; f_equal; ring.
  Qed.
  Add Ring Rq : Q_ring.
  Definition emb (c : Fp p) : Q := (c, F0 p).
  Lemma emb_mul c d : Qmul (emb c) (emb d) = emb (c *f d).
  Proof. unfold Qmul, emb. cbn [fst snd]. f_equal; ring. Qed.
  Lemma emb_add c d : Qadd (emb c) (emb d) = emb (c +f d).
  Proof. unfold Qadd, emb. cbn [fst snd]. f_equal; ring. Qed.
  Fixpoint Qpow (x : Q) (n : nat) : Q := match n with O => Q1 | S k => Qmul x (Qpow x k) end.
  Lemma Qpow_add x m n : Qpow x (m + n) = Qmul (Qpow x m) (Qpow x n).
  Proof. induction m as [|m IH]; cbn [Nat.add Qpow]; [ring|]. rewrite IH. ring. Qed.
  Lemma Qpow_mul x m n : Qpow x (m * n) = Qpow (Qpow x m) n.
  Proof. induction n as [|n IH]; [rewrite Nat.mul_0_r; reflexivity|]. rewrite Nat.mul_succ_r, Nat.add_comm, Qpow_add, IH. reflexivity. Qed.
  Lemma Qpow_mul_l x y n : Qpow (Qmul x y) n = Qmul (Qpow x n) (Qpow y n).
  Proof. induction n as [|n IH]; cbn [Qpow]; [ring|]. rewrite IH. ring. Qed.
  Lemma emb_pow z n : Qpow (emb (fe z)) n = emb (fe (z ^ Z.of_nat n)).
  Proof.
    induction n as [|n IH]; [reflexivity|]. cbn [Qpow]. rewrite IH, emb_mul, <- fp_mul. do 2 f_equal. rewrite Nat2Z.inj_succ, Z.pow_succ_r by lia. reflexivity.
  Qed.
  (** (1+t)^n by the binomial theorem, then Frobenius. *)
  Fixpoint qeval (l : list Z) (t : Q) : Q := match l with [] => Q0 | c :: r => Qadd (emb (fe c)) (Qmul t (qeval r t)) end.
  Lemma emb_fe_add x y : emb (fe (x + y)) = Qadd (emb (fe x)) (emb (fe y)).
  Proof. now rewrite emb_add, fp_add. Qed.
  Lemma qeval_prow l t : forall z, qeval (prow l z) t = Qadd (emb (fe z)) (Qmul (Qadd Q1 t) (qeval l t)) .
  Proof.
    induction l as [|x l IH]; intro z; cbn [prow qeval]; [ring|]. rewrite IH, emb_fe_add. ring.
  Qed.
  Lemma binomial n t : Qpow (Qadd Q1 t) n = qeval (pascal n) t.
  Proof.
    induction n as [|n IH]; cbn [Qpow pascal qeval]; [change (emb (fe 1)) with Q1; ring|]. rewrite qeval_prow, IH. change (emb (fe 0)) with Q0. ring.
  Qed.
  Lemma qeval_zero l t : (forall i, (i < List.length l)%nat -> (p | nth i l 0)) -> qeval l t = Q0.
  Proof.
    induction l as [|x l IH]; intro H; [reflexivity|]. cbn [qeval]. rewrite IH.
    - assert (fe x = F0 p) as -> by (apply fp_0; [exact Hp|]; apply (H 0%nat); cbn; lia). change (emb (F0 p)) with Q0. ring.
    - intros i Hi. apply (H (S i)). cbn. lia.
  Qed.
  Lemma qeval_middle l t : forall n, List.length l = S n -> (forall i, (i < n)%nat -> (p | nth i l 0)) -> nth n l 0 = 1 -> qeval l t = Qpow t n.
  Proof.
    induction l as [|x l IH]; intros n E H L; [discriminate|]. injection E as E. cbn [qeval]. destruct n as [|n].
    - destruct l; [|discriminate]. cbn in L. subst x. cbn. change (emb (fe 1)) with Q1. ring.
    - rewrite (IH n); [|exact E|intros i Hi; apply (H (S i)); lia|exact L].
      assert (fe x = F0 p) as -> by (apply fp_0; [exact Hp|]; apply (H 0%nat); lia). change (emb (F0 p)) with Q0. cbn [Qpow]. ring.
  Qed.
  Notation np := (Z.to_nat p).
  Lemma frobenius1 t : Qpow (Qadd Q1 t) np = Qadd Q1 (Qpow t np).
  Proof.
    pose proof (prime_ge_2 p Hp). rewrite binomial. pose proof (pascal_length np) as L. pose proof (binom_0 np) as B0. pose proof (binom_top np) as BT.
    assert (forall i, (0 < i < np)%nat -> (p | nth i (pascal np) 0)) as BM by (intros i Hi; now apply binom_prime).
    unfold binom in *. destruct (pascal np) as [|x l]; [discriminate|]. cbn in B0. subst x. injection L as L. cbn [qeval]. destruct np as [|n] eqn:En; [lia|].
    rewrite (qeval_middle l t n L); [reflexivity| |exact BT]. intros i Hi. apply (BM (S i)). lia.
  Qed.
  Lemma fermat_fe z : fe (z ^ p) = fe z.
  Proof.
    pose proof (prime_ge_2 p Hp). apply fp_eq. replace p with (Z.succ (p - 1)) at 1 by lia. rewrite Z.pow_succ_r by lia. destruct (Zdivide_dec p z) as [D|D].
    - rewrite (Zdivide_mod _ _ D). apply Zdivide_mod. now apply Z.divide_mul_l.
    - rewrite Zmult_mod, (fermat p Hp z D), Z.mul_1_r. apply Zmod_mod.
  Qed.
  Lemma emb_frob c : Qpow (emb c) np = emb c.
  Proof. pose proof (prime_ge_2 p Hp). rewrite <- (fp_val p c), emb_pow, Z2Nat.id by lia. now rewrite fermat_fe. Qed.
  (** The conjugate: if b^2 - 4a is not a square, x^p = b - x, so the norm of
      x is a. *)
  Hypothesis H2 : 2 < p.
  Hypothesis Hb : ~ (p | b).
  Hypothesis HD : J (b * b - 4 * a) p = -1.
  Hypothesis HDn : ~ (p | b * b - 4 * a).
  Lemma two_q : F1 p +f F1 p <> F0 p.
  Proof. unfold F1. rewrite <- fp_add. intro E. apply fp_0 in E; [|exact Hp]. apply Z.divide_pos_le in E; lia. Qed.
  Definition delta : Q := (Fopp p (fe b), F1 p +f F1 p).
  Lemma delta_sq : Qmul delta delta = emb (fe (b * b - 4 * a)).
  Proof.
    unfold Qmul, delta, emb. cbn [fst snd]. rewrite fp_sub, !fp_mul. assert (fe 4 = (F1 p +f F1 p) *f (F1 p +f F1 p)) as -> by (unfold F1; rewrite <- fp_add, <- fp_mul; reflexivity). f_equal; ring.
  Qed.
  Lemma delta_frob : Qpow delta np = Qopp delta.
  Proof.
    pose proof (odd_p p Hp H2) as Ho. pose proof (half_eq p Ho) as He. replace np with (S (2 * Z.to_nat (half p)))%nat by lia. cbn [Qpow]. rewrite Qpow_mul.
    replace (Qpow delta 2) with (emb (fe (b * b - 4 * a))) by (cbn [Qpow]; rewrite <- delta_sq; ring). rewrite emb_pow, Z2Nat.id by lia.
    pose proof (gauss_lemma p Hp H2 _ HDn) as G. rewrite HD in G.
    assert (fe ((b * b - 4 * a) ^ half p) = fe (-1)) as -> by (apply fp_eq; apply mod_eq_divide; [lia|exact G]).
    assert (emb (fe (-1)) = Qopp Q1) as -> by (unfold emb, Qopp, Q1, F1; cbn [fst snd]; rewrite <- fp_opp; f_equal; ring). ring.
  Qed.
  Lemma QX_delta : Qmul (emb (F1 p +f F1 p)) QX = Qadd (emb (fe b)) delta.
  Proof. unfold Qmul, Qadd, emb, QX, delta. cbn [fst snd]. f_equal; ring. Qed.
  Lemma fe_b : fe b <> F0 p.
  Proof. intro E. apply fp_0 in E; [|exact Hp]. contradiction. Qed.
  Lemma frob_b : Qpow (Qadd (emb (fe b)) delta) np = Qsub (emb (fe b)) delta.
  Proof.
    set (i := Finv p (fe b)). assert (emb (fe b) = Qmul (emb (fe b)) Q1) as E1 by ring.
    assert (Qmul (emb (fe b)) (emb i) = Q1) as E2. { rewrite emb_mul. unfold Q1, emb, i. f_equal. field. exact fe_b. }
    assert (Qadd (emb (fe b)) delta = Qmul (emb (fe b)) (Qadd Q1 (Qmul (emb i) delta))) as ->.
    { transitivity (Qadd (emb (fe b)) (Qmul (Qmul (emb (fe b)) (emb i)) delta)); [rewrite E2; ring|ring]. }
    rewrite Qpow_mul_l, frobenius1, emb_frob, Qpow_mul_l, emb_frob, delta_frob.
    transitivity (Qsub (emb (fe b)) (Qmul (Qmul (emb (fe b)) (emb i)) delta)); [ring|rewrite E2; ring].
  Qed.
  Theorem norm_X : Qpow QX (S np) = emb (fe a).
  Proof.
    pose proof (odd_p p Hp H2) as Ho.
    set (h := Finv p (F1 p +f F1 p)). assert (Qmul (emb h) (emb (F1 p +f F1 p)) = Q1) as E2 by (rewrite emb_mul; unfold Q1, emb, h; f_equal; field; exact two_q).
    assert (QX = Qmul (emb h) (Qadd (emb (fe b)) delta)) as EX by (rewrite <- QX_delta; transitivity (Qmul (Qmul (emb h) (emb (F1 p +f F1 p))) QX); [rewrite E2; ring|ring]).
    cbn [Qpow]. rewrite EX at 2. rewrite Qpow_mul_l, emb_frob, frob_b. rewrite EX.
    transitivity (Qmul (Qmul (emb h) (emb h)) (Qsub (Qmul (emb (fe b)) (emb (fe b))) (Qmul delta delta))); [ring|]. rewrite delta_sq, !emb_mul.
    unfold Qmul, Qsub, emb. cbn [fst snd]. f_equal; [|ring]. rewrite fp_sub, !fp_mul. assert (fe 4 = (F1 p +f F1 p) *f (F1 p +f F1 p)) as -> by (unfold F1; rewrite <- fp_add, <- fp_mul; reflexivity). unfold h. field. exact two_q.
  Qed.
  (** The square roots of squares of the field are in the field. *)
  Lemma root_in_field y z : Qmul z z = emb (y *f y) -> snd z = F0 p.
  Proof.
    destruct z as [u v]. intro E. cbn [snd]. destruct (Fdec p v (F0 p)) as [|Nv]; [assumption|]. exfalso. unfold Qmul, emb in E. cbn [fst snd] in E.
    assert (u *f u -f fe a *f (v *f v) = y *f y /\ u *f v +f v *f u +f fe b *f (v *f v) = F0 p) as [E1 E2] by (split; congruence).
    pose proof two_q as T2.
    assert (u = Fopp p (fe b *f v) /f (F1 p +f F1 p)) as Eu.
    { assert ((F1 p +f F1 p) *f u +f fe b *f v = F0 p) as E3. { transitivity ((u *f v +f v *f u +f fe b *f (v *f v)) /f v); [field; exact Nv|]. rewrite E2. field. exact Nv. }
      transitivity (((F1 p +f F1 p) *f u +f fe b *f v -f fe b *f v) /f (F1 p +f F1 p)); [field; exact T2|]. rewrite E3. field. exact T2. }
    assert (fe (b * b - 4 * a) = ((F1 p +f F1 p) *f y /f v) *f ((F1 p +f F1 p) *f y /f v)) as E4.
    { transitivity ((F1 p +f F1 p) *f (F1 p +f F1 p) *f (y *f y) /f (v *f v)); [|field; exact Nv]. rewrite <- E1, Eu. rewrite fp_sub, !fp_mul.
      assert (fe 4 = (F1 p +f F1 p) *f (F1 p +f F1 p)) as -> by (unfold F1; rewrite <- fp_add, <- fp_mul; reflexivity). field. first [split; [exact Nv|exact T2]|split; [exact T2|exact Nv]]. }
    set (w := (F1 p +f F1 p) *f y /f v) in *. rewrite <- (fp_val p w), <- fp_mul in E4.
    assert (J (b * b - 4 * a) p = 1) as X; [|rewrite HD in X; discriminate]. apply (J_legendre p Hp H2 _ HDn). exists (val p w). apply (fp_eq p) in E4. symmetry in E4. apply mod_eq_divide in E4; [exact E4|lia].
  Qed.
End Quad.

(** ** polynomial_exp_mod *)
Section Poly.
  Variable p : Z.
  Hypothesis Hp : prime p.
  Variables a b : Z.
  Notation fe := (fp p).
  Add Ring RQ : (Q_ring p Hp a b).
  Add Field FQ : (Fp_field p Hp).
  Definition qmean (l : list Z) : Q p := (fe (nth 0 l 0), fe (nth 1 l 0)).
  Definition red (l : list Z) : Prop := Forall (fun x => 0 <= x < p) l.
  Lemma red_mod x y : red [x mod p; y mod p].
  Proof. pose proof (prime_ge_2 p Hp). repeat constructor; apply Z.mod_pos_bound; lia. Qed.
  Lemma multiply_ok g0 g1 s : (List.length s = 1 \/ List.length s = 2)%nat ->
    exists r, polynomial_multiply_mod [g0; g1] s [a; - b; 1] p = Ok r /\ List.length r = 2%nat /\ red r /\ qmean r = Qmul p a b (qmean [g0; g1]) (qmean s).
  Proof.
    intros [L|L].
    - destruct s as [|s0 [|]]; try discriminate. exists [(0 + g0 * s0) mod p; (0 + g1 * s0) mod p]. split; [reflexivity|]. split; [reflexivity|]. split; [apply red_mod|]. unfold qmean, Qmul. cbn [nth fst snd]. rewrite !fp_mod, !fp_add, !fp_mul. change (fe 0) with (F0 p). f_equal; ring.
    - destruct s as [|s0 [|s1 [|]]]; try discriminate. unfold polynomial_multiply_mod. cbn [List.length Nat.add Nat.sub repeat mul_rows add_row polynomial_reduce_mod last Z.eqb Pos.eqb negb Nat.ltb Nat.leb].
      set (c0 := (0 + g0 * s0) mod p). set (c1 := ((0 + g0 * s1) mod p + g1 * s0) mod p). set (c2 := (0 + g1 * s1) mod p).
      assert (fe c0 = fe (g0 * s0)) as E0 by (unfold c0; now rewrite fp_mod). assert (fe c1 = fe (g0 * s1 + g1 * s0)) as E1 by (unfold c1; rewrite fp_mod, fp_add, fp_mod; now rewrite <- fp_add). assert (fe c2 = fe (g1 * s1)) as E2 by (unfold c2; now rewrite fp_mod).
      cbn [reduce_loop List.length Nat.leb last removelast Nat.sub firstn skipn app sub_low].
      destruct (Z.eqb_spec c2 0) as [Z0|N0].
      + exists [c0; c1]. split; [reflexivity|]. split; [reflexivity|]. split; [apply red_mod|]. rewrite Z0 in E2. unfold qmean, Qmul. cbn [nth fst snd]. rewrite E0, E1, fp_add, !fp_mul. rewrite fp_mul in E2. rewrite <- E2. change (fe 0) with (F0 p). f_equal; ring.
      + exists [(c0 - c2 * a) mod p; (c1 - c2 * - b) mod p]. split; [reflexivity|]. split; [reflexivity|]. split; [apply red_mod|]. unfold qmean, Qmul. cbn [nth fst snd]. rewrite !fp_mod, !fp_sub, !fp_mul, E0, E1, E2, fp_add, !fp_mul, fp_opp. f_equal; ring.
  Qed.
  Lemma exp_ok e : 1 <= e < p -> exists r, polynomial_exp_mod [0; 1] e [a; - b; 1] p = Ok r /\ List.length r = 2%nat /\ red r /\ qmean r = Qpow p a b (QX p) (Z.to_nat e).
  Proof.
    intro He. unfold polynomial_exp_mod. destruct (Z.ltb_spec e p) as [_|]; [|lia]. cbn [negb]. destruct (Z.eqb_spec e 0) as [|_]; [lia|].
    destruct (ploop_rule (pexp_step [a; - b; 1] p)
      (fun st => let '(k, (G, s)) := st in 1 <= k <= e /\ List.length G = 2%nat /\ (List.length s = 1 \/ List.length s = 2)%nat /\ (k mod 2 = 1 -> List.length s = 2%nat) /\ red s /\
         Qpow p a b (QX p) (Z.to_nat e) = Qmul p a b (qmean s) (Qpow p a b (qmean G) (2 * Z.to_nat (k / 2))))
      (fun r => exists l, r = Ok l /\ List.length l = 2%nat /\ red l /\ qmean l = Qpow p a b (QX p) (Z.to_nat e)) fst) with (n := Z.to_pos (Z.abs e + 1)) (a := (e, ([0; 1], if e mod 2 =? 1 then [0; 1] else [1]))) as (r & E & l & -> & Q).
    - intros [k [G s]] (Hk & LG & Ls & Lo & Rs & I). unfold pexp_step. destruct (Z.ltb_spec 1 k) as [K|K].
      + destruct G as [|g0 [|g1 [|]]]; try discriminate. destruct (multiply_ok g0 g1 [g0; g1]) as (G' & -> & LG' & _ & MG); [now right|].
        assert (1 <= k / 2) as Hk2 by (apply Z.div_le_lower_bound; lia). assert (k / 2 < k) as Hk3 by (apply Z.div_lt; lia).
        assert (Z.to_nat (k / 2) = (2 * Z.to_nat (k / 2 / 2) + Z.to_nat ((k / 2) mod 2))%nat) as SP.
        { pose proof (Z_div_mod_eq_full (k / 2) 2). pose proof (Z.mod_pos_bound (k / 2) 2 ltac:(lia)). assert (0 <= k / 2 / 2) by (apply Z.div_pos; lia). lia. }
        assert (Qpow p a b (qmean [g0; g1]) (2 * Z.to_nat (k / 2)) = Qpow p a b (qmean G') (Z.to_nat (k / 2))) as EP.
        { rewrite (Qpow_mul p Hp). f_equal. rewrite MG. cbn [Qpow]. ring. }
        destruct (Z.eqb_spec ((k / 2) mod 2) 1) as [O|O].
        * destruct G' as [|h0 [|h1 [|]]]; try discriminate. destruct (multiply_ok h0 h1 s Ls) as (s' & -> & Ls' & Rs' & Ms).
          split; [|cbn [fst]; lia]. split; [lia|]. split; [reflexivity|]. split; [now right|]. split; [easy|]. split; [exact Rs'|]. rewrite I, EP, SP, O, Ms. rewrite (Qpow_add p Hp). change (Z.to_nat 1) with 1%nat. cbn [Qpow]. ring.
        * split; [|cbn [fst]; lia]. split; [lia|]. split; [exact LG'|]. split; [exact Ls|]. split; [easy|]. split; [exact Rs|]. rewrite I, EP, SP. assert ((k / 2) mod 2 = 0) as -> by (pose proof (Z.mod_pos_bound (k / 2) 2 ltac:(lia)); lia). change (Z.to_nat 0) with 0%nat. now rewrite Nat.add_0_r.
      + assert (k = 1) as -> by lia. exists s. split; [reflexivity|]. split; [now apply Lo|]. split; [exact Rs|]. rewrite I. change (Z.to_nat (1 / 2)) with 0%nat. change (2 * 0)%nat with 0%nat. cbn [Qpow]. ring.
    - split; [lia|]. split; [reflexivity|].
      assert (Z.to_nat e = (2 * Z.to_nat (e / 2) + Z.to_nat (e mod 2))%nat) as SP.
      { pose proof (Z_div_mod_eq_full e 2). pose proof (Z.mod_pos_bound e 2 ltac:(lia)). assert (0 <= e / 2) by (apply Z.div_pos; lia). lia. }
      assert (qmean [0; 1] = QX p) as -> by reflexivity.
      destruct (Z.eqb_spec (e mod 2) 1) as [O|O].
      + split; [now right|]. split; [reflexivity|]. split; [repeat constructor; lia|]. rewrite SP at 1. rewrite O, (Qpow_add p Hp). assert (qmean [0; 1] = QX p) as -> by reflexivity. change (Z.to_nat 1) with 1%nat. cbn [Qpow]. ring.
      + split; [now left|]. split; [easy|]. split; [repeat constructor; lia|]. rewrite SP at 1. assert (e mod 2 = 0) as -> by (pose proof (Z.mod_pos_bound e 2 ltac:(lia)); lia). change (Z.to_nat 0) with 0%nat. rewrite Nat.add_0_r. assert (qmean [1] = Q1 p) as -> by reflexivity. ring.
    - cbn [fst]. rewrite Z2Pos.id by lia. lia.
    - rewrite E. now exists l.
  Qed.
End Poly.

(** ** square_root_mod_prime *)
Lemma exp_mod_ok x e p : 2 <= p -> 0 <= e -> modular_exp x e p = Ok (x ^ e mod p).
Proof.
  intros Hp He. unfold modular_exp. destruct (Z.ltb_spec e 0); [lia|]. destruct (Z.eqb_spec p 0); [lia|]. destruct (Z.ltb_spec p 0); [lia|]. now rewrite Zpow_mod_correct by lia.
Qed.
Section Sqrt.
  Variable p : Z.
  Hypothesis Hp : prime p.
  Hypothesis H2 : 2 < p.
  Lemma sq_div x y z : (x mod p) = z -> (p | x * x - y) -> (z * z) mod p = y mod p.
  Proof. intros <- D. rewrite <- Zmult_mod. apply mod_eq_divide; [lia|exact D]. Qed.
  Lemma nonresidue : exists z, 1 <= z < p /\ J z p = -1.
  Proof.
    destruct (forallb (fun z => J z p =? 1) (zrange (p - 1))) eqn:E.
    - exfalso. rewrite forallb_forall in E. pose proof (odd_p p Hp H2) as Ho. pose proof (half_eq p Ho) as He.
      pose proof (root_bound p Hp (zrange (p - 1)) (-1 :: repeat 0 (Z.to_nat (half p) - 1) ++ [1])) as B.
      rewrite last_pow, zrange_length in B. cbn [List.length] in B. rewrite app_length, repeat_length in B. cbn [List.length] in B.
      assert (Z.to_nat (p - 1) < S (Z.to_nat (half p) - 1 + 1))%nat as C; [|lia]. apply B.
      + intro D. apply Z.divide_pos_le in D; lia.
      + apply zrange_nodup.
      + intros x I. pose proof (E x I) as Ex. rewrite Z.eqb_eq in Ex. apply in_zrange in I. split; [lia|]. cbn [peval]. rewrite peval_pow.
        replace (-1 + x * x ^ Z.of_nat (Z.to_nat (half p) - 1)) with (x ^ half p - 1).
        * rewrite <- Ex. apply gauss_lemma; try assumption. apply prime_small; lia.
        * replace (half p) with (Z.succ (Z.of_nat (Z.to_nat (half p) - 1))) at 1 by lia. rewrite Z.pow_succ_r by lia. lia.
    - assert (exists z, In z (zrange (p - 1)) /\ (J z p =? 1) = false) as (z & I & F).
      { clear - E. induction (zrange (p - 1)) as [|z l IH]; [discriminate|]. cbn in E. destruct (J z p =? 1) eqn:Ez.
        - destruct IH as (y & Iy & Ey); [exact E|]. exists y. split; [now right|exact Ey].
        - exists z. split; [now left|exact Ez]. }
      apply in_zrange in I. exists z. split; [lia|]. rewrite Z.eqb_neq in F. destruct (J_cases p z); tauto.
  Qed.
  Lemma symbol_sq x y : (p | y * y - x) -> ~ (p | x) -> symbol x p = 1.
  Proof. intros D N. apply (legendre_fun x p); [now apply symbol_legendre|]. now apply leg_square with y. Qed.
  (** The search for b succeeds: the squares are not closed under adding 4a. *)
  Lemma b_exists a : p mod 4 = 1 -> ~ (p | a) -> (exists y, (p | y * y - a)) -> exists b, 2 <= b < p /\ symbol (b * b - 4 * a) p = -1.
  Proof.
    intros H4 Na (y & Dy). destruct (forallb (fun b => negb (symbol (b * b - 4 * a) p =? -1)) (zrange (p - 1))) eqn:E.
    - exfalso. rewrite forallb_forall in E.
      (* the square root of -1 *)
      assert (exists w, (p | w * w + 1)) as (w & Dw).
      { assert (J (-1) p = 1) as X.
        { assert (~ (p | -1)) as N1 by (intro D; apply Z.divide_opp_r in D; apply Z.divide_pos_le in D; lia).
          pose proof (gauss_lemma p Hp H2 (-1) N1) as G. pose proof (odd_p p Hp H2) as Ho. pose proof (half_eq p Ho) as He. pose proof (Z_div_mod_eq_full p 4) as D4. rewrite H4 in D4.
          rewrite pow_sign in G by lia. assert (half p mod 2 = 0) as R by (symmetry; apply (Z.mod_unique _ _ (p / 4)); lia). rewrite R in G. cbn [Z.eqb] in G.
          destruct (J_cases p (-1)) as [X|X]; [exact X|]. rewrite X in G. apply Z.divide_pos_le in G; lia. }
        apply J_legendre in X; [|exact Hp|exact H2|intro D; apply Z.divide_opp_r in D; apply Z.divide_pos_le in D; lia]. destruct X as (w & D). exists w. now replace (w * w + 1) with (w * w - -1) by ring. }
      assert (forall k, 0 <= k -> exists s, (p | s * s - - (4 * a) * k)) as All.
      { intros k Hk. pattern k. apply natlike_ind; [exists 0; exists 0; ring| |exact Hk]. clear k Hk. intros k Hk (s & Ds).
        assert (exists t, (p | t * t - (s * s - 4 * a))) as (t & Dt).
        { pose proof (Z.mod_pos_bound s p ltac:(lia)) as Bs. destruct (Z.eq_dec (s mod p) 0) as [Z0|N0].
          - exists (2 * y * w). apply Zmod_divide in Z0; [|lia]. 
            replace (2 * y * w * (2 * y * w) - (s * s - 4 * a)) with (4 * (y * y - a) * (w * w) + 4 * a * (w * w + 1) - s * s) by ring.
            apply Z.divide_sub_r; [apply Z.divide_add_r|]; [apply Z.divide_mul_l; now apply Z.divide_mul_r|now apply Z.divide_mul_r|now apply Z.divide_mul_l].
          - specialize (E (s mod p)). rewrite in_zrange in E. specialize (E ltac:(lia)). rewrite negb_true_iff, Z.eqb_neq in E.
            pose proof (symbol_legendre (s mod p * (s mod p) - 4 * a) p Hp H2) as L.
            assert (p | (s mod p * (s mod p) - 4 * a) - (s * s - 4 * a)) as C.
            { replace ((s mod p * (s mod p) - 4 * a) - (s * s - 4 * a)) with (s mod p * (s mod p) - s * s) by ring. apply mod_eq_divide; [lia|]. now rewrite <- Zmult_mod. }
            revert E L. generalize (symbol (s mod p * (s mod p) - 4 * a) p). intros v E L. destruct L as [D|x N D|N D]; [| |now elim E].
            + exists 0. replace (0 * 0 - (s * s - 4 * a)) with ((s mod p * (s mod p) - 4 * a) - (s * s - 4 * a) - (s mod p * (s mod p) - 4 * a)) by ring. now apply Z.divide_sub_r.
            + exists x. replace (x * x - (s * s - 4 * a)) with ((x * x - (s mod p * (s mod p) - 4 * a)) + ((s mod p * (s mod p) - 4 * a) - (s * s - 4 * a))) by ring. now apply Z.divide_add_r. }
        exists t. replace (t * t - - (4 * a) * Z.succ k) with ((t * t - (s * s - 4 * a)) + (s * s - - (4 * a) * k)) by (unfold Z.succ; ring). now apply Z.divide_add_r. }
      destruct nonresidue as (z & Hz & Jz).
      assert (~ (p | - (4 * a))) as N4. { intro D. apply Z.divide_opp_r in D. rewrite Z.opp_involutive in D. apply prime_mult in D; [|exact Hp]. destruct D as [D|D]; [|contradiction]. replace 4 with (2 * 2) in D by reflexivity. apply prime_mult in D; [|exact Hp]. destruct D as [D|D]; apply Z.divide_pos_le in D; lia. }
      destruct (inverse_mod_ok (- (4 * a)) p) as (i & _ & Ri & Mi); [lia|now apply gcd_p|].
      destruct (All (i * z)) as (s & Ds); [nia|]. assert (~ (p | z)) as Nz by (apply prime_small; lia).
      assert (J z p = 1) as X; [|lia]. apply (J_legendre p Hp H2 z Nz). exists s.
      replace (s * s - z) with ((s * s - - (4 * a) * (i * z)) + (- (4 * a) * i - 1) * z) by ring. apply Z.divide_add_r; [exact Ds|]. apply Z.divide_mul_l. apply mod_eq_divide; [lia|]. rewrite Mi. symmetry. apply Z.mod_small. lia.
    - assert (exists b, In b (zrange (p - 1)) /\ negb (symbol (b * b - 4 * a) p =? -1) = false) as (b & I & F).
      { clear - E. induction (zrange (p - 1)) as [|z l IH]; [discriminate|]. cbn [forallb] in E. destruct (negb (symbol (z * z - 4 * a) p =? -1)) eqn:Ez.
        - destruct IH as (x & Ix & Ex); [exact E|]. exists x. split; [now right|exact Ex].
        - exists z. split; [now left|exact Ez]. }
      rewrite negb_false_iff, Z.eqb_eq in F. apply in_zrange in I. destruct (Z.eq_dec b 1) as [->|N1]; [|exists b; split; [lia|exact F]].
      exists (p - 1). split; [lia|]. rewrite <- F. rewrite <- symbol_mod by lia. rewrite <- (symbol_mod (1 * 1 - 4 * a)) by lia. f_equal. apply mod_eq_divide; [lia|]. exists (p - 2). ring.
  Qed.
  Lemma b_loop a : p mod 8 = 1 -> 0 < a < p -> (exists y, (p | y * y - a)) -> exists r, ploop (root_step a p) (Z.to_pos p) 2 = inr (Ok r) /\ 0 <= r < p /\ (r * r) mod p = a.
  Proof.
    intros H8 Ha Sq. assert (~ (p | a)) as Na by (apply prime_small; lia). pose proof (odd_p p Hp H2) as Ho. pose proof (half_eq p Ho) as He.
    destruct (b_exists a) as (b0 & Hb0 & Sb0); [|exact Na|exact Sq|].
    { pose proof (Z_div_mod_eq_full p 8) as D. rewrite H8 in D. symmetry. apply (Z.mod_unique _ _ (2 * (p / 8))); lia. }
    assert (b0 <= 1 + p) as Bb by lia.
    destruct (ploop_rule (root_step a p) (fun b => 2 <= b <= b0) (fun r => exists z, r = Ok z /\ 0 <= z < p /\ (z * z) mod p = a) (fun b => b0 - b)) with (n := Z.to_pos p) (a := 2) as (r & E & z & -> & Rz & Q).
    - intros b Hb. unfold root_step. destruct (Z.ltb_spec b p) as [L|]; [|lia]. rewrite jacobi_ok by lia. destruct (Z.eqb_spec (symbol (b * b - 4 * a) p) (-1)) as [S|S].
      + assert (~ (p | b * b - 4 * a)) as ND. { intro D. pose proof (legendre_fun _ _ _ _ (leg_zero (b * b - 4 * a) p D) (symbol_legendre (b * b - 4 * a) p Hp H2)). lia. }
        assert (J (b * b - 4 * a) p = -1) as JD. { unfold symbol in S. destruct (Z.gcd (b * b - 4 * a) p =? 1); [exact S|discriminate]. }
        assert (~ (p | b)) as Nb by (apply prime_small; lia).
        assert (1 <= (p + 1) / 2 < p) as RE. { replace ((p + 1) / 2) with (half p + 1) by (apply (Z.div_unique _ _ _ 0); lia). lia. }
        destruct (exp_ok p Hp a b ((p + 1) / 2) RE) as (ff & -> & Lf & Rf & Mf). cbn [bind].
        destruct ff as [|f0 [|f1 [|]]]; try discriminate.
        assert (Qmul p a b (qmean p [f0; f1]) (qmean p [f0; f1]) = emb p (fp p a)) as SQ.
        { rewrite Mf, <- (Qpow_add p Hp). rewrite <- (norm_X p Hp a b H2 Nb JD ND). f_equal. assert ((p + 1) / 2 = half p + 1) as -> by (symmetry; apply (Z.div_unique _ _ _ 0); lia). lia. }
        destruct Sq as (y & Dy). assert (fp p a = Fmul p (fp p y) (fp p y)) as Ey by (rewrite <- fp_mul; symmetry; apply fp_eq; apply mod_eq_divide; [lia|exact Dy]).
        assert (snd (qmean p [f0; f1]) = F0 p) as S1. { apply (root_in_field p Hp a b H2 JD ND (fp p y)). now rewrite SQ, Ey. }
        cbn [qmean nth snd] in S1. apply fp_0 in S1; [|exact Hp].
        assert (0 <= f1 < p) as R1 by exact (Forall_inv (Forall_inv_tail Rf)).
        assert (f1 = 0) as -> by (apply (small_mod_eq p); [exact R1|lia|now rewrite Z.sub_0_r]). cbn [Z.eqb]. exists f0. split; [reflexivity|]. split; [exact (Forall_inv Rf)|].
        unfold qmean, Qmul, emb in SQ. cbn [nth fst snd] in SQ. change (fp p 0) with (F0 p) in SQ.
        assert (fp p (f0 * f0) = fp p a) as Eq.
        { rewrite fp_mul. pose proof (f_equal fst SQ) as X. cbn [fst] in X. rewrite <- X. pose proof (Fp_ring p) as RR. unfold F0. rewrite <- !fp_mul, <- fp_sub. f_equal. ring. }
        apply fp_eq in Eq. rewrite Eq. apply Z.mod_small. lia.
      + assert (b <> b0) by (intros ->; contradiction). lia.
    - lia.
    - rewrite Z2Pos.id by lia. lia.
    - exists z. rewrite E. auto.
  Qed.
  Lemma half_pow a : 0 < a < p -> (exists y, (p | y * y - a)) -> (p | a ^ half p - 1).
  Proof.
    intros Ha (y & Dy). assert (~ (p | a)) as Na by (apply prime_small; lia). pose proof (gauss_lemma p Hp H2 a Na) as G.
    now rewrite (proj2 (J_legendre p Hp H2 a Na)) in G by now exists y.
  Qed.
  Lemma mod_sq x a : 0 <= a < p -> (p | x * x - a) -> (x mod p * (x mod p)) mod p = a.
  Proof. intros Ha D. rewrite <- Zmult_mod. transitivity (a mod p); [|now apply Z.mod_small]. apply mod_eq_divide; [lia|exact D]. Qed.
  Lemma root_3 a : p mod 4 = 3 -> 0 < a < p -> (exists y, (p | y * y - a)) -> (a ^ ((p + 1) / 4) mod p * (a ^ ((p + 1) / 4) mod p)) mod p = a.
  Proof.
    intros H4 Ha Sq. apply mod_sq; [lia|]. pose proof (half_pow a Ha Sq) as D. pose proof (odd_p p Hp H2) as Ho. pose proof (half_eq p Ho) as He. pose proof (Z_div_mod_eq_full p 4) as D4. rewrite H4 in D4.
    rewrite <- Z.pow_add_r by (apply Z.div_pos; lia). assert ((p + 1) / 4 = p / 4 + 1) as -> by (symmetry; apply (Z.div_unique _ _ _ 0); lia).
    replace (p / 4 + 1 + (p / 4 + 1)) with (Z.succ (half p)) by lia. rewrite Z.pow_succ_r by lia. replace (a * a ^ half p - a) with (a * (a ^ half p - 1)) by ring. now apply Z.divide_mul_r.
  Qed.
  Lemma root_5 a : p mod 8 = 5 -> 0 < a < p -> (exists y, (p | y * y - a)) ->
    (a ^ ((p - 1) / 4) mod p = 1 /\ (a ^ ((p + 3) / 8) mod p * (a ^ ((p + 3) / 8) mod p)) mod p = a) \/
    (a ^ ((p - 1) / 4) mod p = p - 1 /\ ((2 * a * ((4 * a) ^ ((p - 5) / 8) mod p)) mod p * ((2 * a * ((4 * a) ^ ((p - 5) / 8) mod p)) mod p)) mod p = a).
  Proof.
    intros H8 Ha Sq. pose proof (half_pow a Ha Sq) as D. pose proof (odd_p p Hp H2) as Ho. pose proof (half_eq p Ho) as He. pose proof (Z_div_mod_eq_full p 8) as D8. rewrite H8 in D8.
    set (k := p / 8) in *. assert (0 <= k) as Hk by (apply Z.div_pos; lia). assert ((p - 1) / 4 = 2 * k + 1) as -> by (symmetry; apply (Z.div_unique _ _ _ 0); lia).
    assert ((p + 3) / 8 = k + 1) as -> by (symmetry; apply (Z.div_unique _ _ _ 0); lia). assert ((p - 5) / 8 = k) as -> by (symmetry; apply (Z.div_unique _ _ _ 0); lia).
    assert (half p = (2 * k + 1) + (2 * k + 1)) as Hh by lia. rewrite Hh, Z.pow_add_r in D by lia. set (d := a ^ (2 * k + 1)) in *.
    replace (d * d - 1) with ((d - 1) * (d + 1)) in D by ring. apply prime_mult in D; [|exact Hp]. destruct D as [D|D].
    - left. split; [rewrite <- (Z.mod_small 1 p) by lia; apply mod_eq_divide; [lia|exact D]|]. apply mod_sq; [lia|]. rewrite <- Z.pow_add_r by lia.
      replace (k + 1 + (k + 1)) with (Z.succ (2 * k + 1)) by lia. rewrite Z.pow_succ_r by lia. fold d. replace (a * d - a) with (a * (d - 1)) by ring. now apply Z.divide_mul_r.
    - right. split; [rewrite <- (Z.mod_small (p - 1) p) by lia; apply mod_eq_divide; [lia|]; replace (d - (p - 1)) with (d + 1 - p * 1) by ring; apply Z.divide_sub_r; [exact D|apply Z.divide_factor_l]|].
      rewrite (Zmult_mod_idemp_r _ (2 * a) p). apply mod_sq; [lia|].
      assert (p | 2 ^ half p + 1) as D2.
      { assert (~ (p | 2)) as N2 by (apply prime_small; lia). pose proof (gauss_lemma p Hp H2 2 N2) as G. rewrite J_2, H8 in G by lia. cbn in G. now replace (2 ^ half p + 1) with (2 ^ half p - -1) by ring. }
      assert (2 * a * (4 * a) ^ k * (2 * a * (4 * a) ^ k) = a * 2 ^ half p * d) as ->.
      { unfold d. rewrite Z.pow_mul_l. replace 4 with (2 ^ 2) by reflexivity. rewrite <- Z.pow_mul_r by lia. rewrite Hh. replace (2 * k + 1) with (Z.succ (k + k)) by lia.
        rewrite !Z.pow_add_r, !Z.pow_succ_r, !Z.pow_add_r by lia. replace (2 * k) with (k + k) by lia. rewrite !Z.pow_add_r by lia. ring. }
      replace (a * 2 ^ half p * d - a) with (a * (2 ^ half p + 1) * d - a * (d + 1)) by ring. apply Z.divide_sub_r; [apply Z.divide_mul_l|]; now apply Z.divide_mul_r.
  Qed.
End Sqrt.

(** numbertheory.py:101-140. *)
Theorem square_root_ok p a : prime p -> 0 <= a < p -> (exists y, (p | y * y - a)) ->
  exists r, square_root_mod_prime a p = Ok r /\ 0 <= r < p /\ (r * r) mod p = a.
Proof.
  intros Hp Ha Sq. pose proof (prime_ge_2 p Hp) as P2. unfold square_root_mod_prime. destruct (Z.leb_spec 0 a) as [_|]; [|lia]. destruct (Z.ltb_spec a p) as [_|]; [|lia]. destruct (Z.ltb_spec 1 p) as [_|]; [|lia]. cbn [andb negb].
  destruct (Z.eqb_spec a 0) as [->|Na]; [exists 0; repeat split; lia|].
  destruct (Z.eqb_spec p 2) as [->|N2]; [exists a; assert (a = 1) as -> by lia; repeat split; lia|].
  assert (2 < p) as H2 by lia. pose proof (odd_p p Hp H2) as Ho. rewrite jacobi_ok by lia. cbn [bind].
  assert (symbol a p = 1) as ->. { destruct Sq as (y & D). apply (symbol_sq p Hp H2 a y D). apply prime_small; lia. }
  cbn [Z.eqb]. destruct (Z.eqb_spec (p mod 4) 3) as [H4|H4].
  - rewrite exp_mod_ok by (try apply Z.div_pos; lia). exists (a ^ ((p + 1) / 4) mod p). split; [reflexivity|]. split; [apply Z.mod_pos_bound; lia|]. apply root_3; try assumption; lia.
  - destruct (Z.eqb_spec (p mod 8) 5) as [H5|H5].
    + rewrite exp_mod_ok by (try apply Z.div_pos; lia). cbn [bind]. destruct (root_5 p Hp H2 a H5 ltac:(lia) Sq) as [(-> & R)|(-> & R)].
      * cbn [Z.eqb Pos.eqb]. rewrite exp_mod_ok by (try apply Z.div_pos; lia). exists (a ^ ((p + 3) / 8) mod p). split; [reflexivity|]. split; [apply Z.mod_pos_bound; lia|exact R].
      * destruct (Z.eqb_spec (p - 1) 1) as [|_]; [lia|]. rewrite Z.eqb_refl. assert (0 <= (p - 5) / 8) as P5. { pose proof (Z_div_mod_eq_full p 8). assert (0 <= p / 8) by (apply Z.div_pos; lia). apply Z.div_pos; lia. }
        rewrite exp_mod_ok by lia. cbn [bind].
        eexists. split; [reflexivity|]. split; [apply Z.mod_pos_bound; lia|exact R].
    + assert (p mod 8 = 1) as H1.
      { pose proof (Z_div_mod_eq_full p 8). pose proof (Z_div_mod_eq_full p 4). pose proof (Z_div_mod_eq_full p 2). pose proof (Z.mod_pos_bound p 8 ltac:(lia)). pose proof (Z.mod_pos_bound p 4 ltac:(lia)). lia. }
      destruct (b_loop p Hp H2 a H1 ltac:(lia) Sq) as (r & -> & R). exists r. split; [reflexivity|exact R].
Qed.
Theorem square_root_none p a : prime p -> 0 <= a < p -> ~ (exists y, (p | y * y - a)) -> square_root_mod_prime a p = Raise SquareRootError.
Proof.
  intros Hp Ha Sq. pose proof (prime_ge_2 p Hp) as P2. unfold square_root_mod_prime. destruct (Z.leb_spec 0 a) as [_|]; [|lia]. destruct (Z.ltb_spec a p) as [_|]; [|lia]. destruct (Z.ltb_spec 1 p) as [_|]; [|lia]. cbn [andb negb].
  destruct (Z.eqb_spec a 0) as [->|Na]; [elim Sq; exists 0; apply Z.divide_0_r|].
  destruct (Z.eqb_spec p 2) as [->|N2]; [elim Sq; exists 1; assert (a = 1) as -> by lia; apply Z.divide_0_r|].
  assert (2 < p) as H2 by lia. pose proof (odd_p p Hp H2) as Ho. rewrite jacobi_ok by lia. cbn [bind].
  assert (symbol a p = -1) as ->; [|reflexivity]. assert (~ (p | a)) as N by (apply prime_small; lia). pose proof (symbol_legendre a p Hp H2) as L. inversion L as [D E|y N' D E|N' D E]; [contradiction|elim Sq; now exists y|reflexivity].
Qed.
