(** Proofs about the number theory model: inverses, gcd and lcm. *)
From Coq Require Import ZArith Znumtheory Zpow_facts List Lia Bool.
From Verif Require Import PyBase PyLoop NtModel ZpTheory.
Import ListNotations.
Open Scope list_scope.
Open Scope Z_scope.

(** ** gcd *)
Lemma gcd_step c d : c <> 0 -> Z.gcd (d mod c) c = Z.gcd c d.
Proof. intro H. now apply Z.gcd_mod. Qed.
Lemma gcd2_ok a b : 0 <= a -> 0 <= b -> gcd2 a b = Ok (Z.gcd a b).
Proof.
  intros Ha Hb. unfold gcd2.
  destruct (ploop_rule gcd2_step (fun s => 0 <= fst s /\ 0 <= snd s /\ Z.gcd (fst s) (snd s) = Z.gcd a b) (fun r => r = Z.gcd a b) fst) with (n := Z.to_pos (Z.abs a + 1)) (a := (a, b)) as (r & -> & ->); [|cbn; lia|cbn; lia|reflexivity].
  intros [x y] (Hx & Hy & G). cbn [fst snd gcd2_step] in *. destruct (Z.eqb_spec x 0) as [->|N].
  - rewrite <- G. rewrite Z.gcd_0_l. lia.
  - pose proof (Z.mod_pos_bound y x ltac:(lia)). cbn [fst snd]. split; [|lia]. rewrite gcd_step by exact N. lia.
Qed.

(** ** inverse_mod *)
(** The invariant of the extended Euclidean algorithm. *)
Definition euclid_inv (a m : Z) (s : (Z * Z) * ((Z * Z) * (Z * Z))) : Prop :=
  let '((c, d), ((uc, vc), (ud, vd))) := s in
  0 <= c < d /\ Z.gcd c d = Z.gcd a m /\ uc * a + vc * m = c /\ ud * a + vd * m = d /\
  ((0 <= uc /\ ud <= 0 /\ uc * d - ud * c = m) \/ (uc <= 0 /\ 0 <= ud /\ ud * c - uc * d = m)) /\
  (c = 0 -> d = 1 -> 2 * Z.abs ud <= m).
Lemma inverse_mod_loop a m : 0 <= a < m -> 2 <= m ->
  exists d ud vd, ploop euclid_step (Z.to_pos (Z.abs a + 1)) ((a, m), ((1, 0), (0, 1))) = inr (d, ud) /\
    d = Z.gcd a m /\ ud * a + vd * m = d /\ (d = 1 -> 2 * Z.abs ud <= m).
Proof.
  intros Ha Hm.
  destruct (ploop_rule euclid_step (euclid_inv a m) (fun r => fst r = Z.gcd a m /\ (exists vd, snd r * a + vd * m = fst r) /\ (fst r = 1 -> 2 * Z.abs (snd r) <= m)) (fun s => fst (fst s)))
    with (n := Z.to_pos (Z.abs a + 1)) (a := ((a, m), ((1, 0), (0, 1)))) as ([d ud] & -> & (E1 & (vd & E2) & E3)).
  - intros [[c d] [[uc vc] [ud vd]]] (H1 & H2 & H3 & H4 & H5 & H6). cbn [euclid_step fst snd]. destruct (Z.eqb_spec c 0) as [->|N].
    + rewrite Z.gcd_0_l in H2. cbn [fst snd]. split; [lia|]. split; [exists vd; lia|]. intro; now apply H6.
    + pose proof (Z.mod_pos_bound d c ltac:(lia)) as B. pose proof (Z.div_mod d c N) as DM. assert (0 < d / c) as Q by (apply Z.div_str_pos; lia).
      set (q := d / c) in *. cbn [fst]. split; [|lia]. unfold euclid_inv. split; [lia|]. split; [rewrite gcd_step; lia|].
      split; [rewrite <- H3 in DM at 1; nia|]. split; [lia|].
      assert (d mod c = d - q * c) as -> by lia. split.
      * destruct H5 as [(A & B1 & C)|(A & B1 & C)]; [right|left]; (split; [nia|]; split; [nia|]; nia).
      * intros E C1. subst c. assert (2 <= d) by lia. destruct H5 as [(A & B1 & C)|(A & B1 & C)]; nia.
  - unfold euclid_inv. repeat split; try lia.
  - cbn. lia.
  - exists d, ud, vd. cbn [fst snd] in *. tauto.
Qed.
Theorem inverse_mod_ok a m : 2 <= m -> Z.gcd a m = 1 -> exists b, inverse_mod a m = Ok b /\ 1 <= b < m /\ (a * b) mod m = 1.
Proof.
  intros Hm G. unfold inverse_mod.
  assert (exists a', (if (a <? 0) || (m <=? a) then if m =? 0 then Raise ZeroDivisionError else Ok (a mod m) else Ok a) = Ok a' /\ 0 <= a' < m /\ a' mod m = a mod m) as (a' & -> & Ha & E).
  { destruct ((a <? 0) || (m <=? a)) eqn:C.
    - replace (m =? 0) with false by lia. exists (a mod m). split; [reflexivity|]. split; [apply Z.mod_pos_bound; lia|apply Zmod_mod].
    - exists a. split; [reflexivity|]. split; [lia|reflexivity]. }
  assert (Z.gcd a' m = 1) as G' by (rewrite Z.gcd_comm, <- Z.gcd_mod, E, Z.gcd_mod, Z.gcd_comm by lia; exact G).
  cbn [bind]. destruct (inverse_mod_loop a' m Ha Hm) as (d & ud & vd & -> & -> & B & C). rewrite G' in *. cbn [Z.eqb negb]. specialize (C eq_refl).
  change (negb (1 =? 1)) with false. cbv iota. eexists. split; [reflexivity|].
  assert (ud <> 0) as N by (intros ->; assert ((vd * m) mod m = 1 mod m) as W by (f_equal; lia); rewrite Z_mod_mult, Z.mod_1_l in W by lia; lia).
  assert (forall k, (a * (ud + k * m)) mod m = 1) as W.
  { intro k. rewrite Zmult_mod, <- E, <- Zmult_mod. replace (a' * (ud + k * m)) with (1 + (a' * k - vd) * m) by lia. rewrite Z_mod_plus_full. apply Z.mod_1_l. lia. }
  destruct (Z.ltb_spec 0 ud).
  - split; [lia|]. rewrite <- (W 0). f_equal. ring.
  - split; [lia|]. rewrite <- (W 1). f_equal. ring.
Qed.
Theorem inverse_mod_fails a m : 2 <= m -> Z.gcd a m <> 1 -> inverse_mod a m = Raise AssertionError.
Proof.
  intros Hm G. unfold inverse_mod.
  assert (exists a', (if (a <? 0) || (m <=? a) then if m =? 0 then Raise ZeroDivisionError else Ok (a mod m) else Ok a) = Ok a' /\ 0 <= a' < m /\ a' mod m = a mod m) as (a' & -> & Ha & E).
  { destruct ((a <? 0) || (m <=? a)) eqn:C.
    - replace (m =? 0) with false by lia. exists (a mod m). split; [reflexivity|]. split; [apply Z.mod_pos_bound; lia|apply Zmod_mod].
    - exists a. split; [reflexivity|]. split; [lia|reflexivity]. }
  assert (Z.gcd a' m = Z.gcd a m) as G' by (rewrite Z.gcd_comm, <- Z.gcd_mod, E, Z.gcd_mod, Z.gcd_comm by lia; reflexivity).
  cbn [bind]. destruct (inverse_mod_loop a' m Ha Hm) as (d & ud & vd & -> & -> & B & C). rewrite G'. replace (Z.gcd a m =? 1) with false by lia. reflexivity.
Qed.
Lemma inverse_unique a m b b' : 2 <= m -> 1 <= b < m -> 1 <= b' < m -> (a * b) mod m = 1 -> (a * b') mod m = 1 -> b = b'.
Proof.
  intros Hm Hb Hb' H H'.
  assert (b mod m = b' mod m) as E.
  { transitivity ((b * (a * b')) mod m); [rewrite Zmult_mod, H', Z.mul_1_r, Zmod_mod; reflexivity|].
    transitivity ((b' * (a * b)) mod m); [f_equal; ring|]. rewrite Zmult_mod, H, Z.mul_1_r, Zmod_mod. reflexivity. }
  rewrite !Z.mod_small in E by lia. exact E.
Qed.
