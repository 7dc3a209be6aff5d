(** C141: what nonces tell about keys. *)
From Coq Require Import String ZArith Znumtheory List Lia Bool.
From Verif Require Import PyBase NtModel NtProofs ZpTheory EcGroup GrpMul EcModel EcSpec EcProofs EcOrder EcLib EcdsaProofs EcParams256k1 KeyModel KeyProofs KeyCases SignProofs PropsEc PropsKey PropsSign.
Import ListNotations.
Open Scope list_scope.
Open Scope Z_scope.

(** What somebody who has seen two signatures computes, with the library's own
    inverse_mod: from the order, the common r, and s and the number signed of
    each.  And from one signature and its nonce. *)
Definition from_two (n r s1 h1 s2 h2 : Z) : res Z :=
  match inverse_mod ((r * (s2 - s1)) mod n) n with Ok i => Ok (((s1 * h2 - s2 * h1) * i) mod n) | Raise e => Raise e end.
Definition from_nonce (n r s h nonce : Z) : res Z :=
  match inverse_mod (r mod n) n with Ok i => Ok (((s * nonce - h) * i) mod n) | Raise e => Raise e end.

Lemma mod_sub a b n : n <> 0 -> (n | a - b) -> a mod n = b mod n.
Proof. intros N (q & Q). replace a with (b + q * n) by lia. apply Z_mod_plus_full. Qed.
Lemma sub_mod a b n : 0 < n -> a mod n = b mod n -> (n | a - b).
Proof. intros N H. apply Zmod_divide; [lia|]. rewrite Zminus_mod, H, Z.sub_diag. apply Zmod_0_l. Qed.

Lemma sk_fields cv d k : sk_from_secret_exponent cv d = Ok k -> sk_curve k = cv /\ sk_secexp k = d.
Proof.
  unfold sk_from_secret_exponent. destruct (negb _); [discriminate|]. destruct (ec_mul _ _ _) as [P|]; [|discriminate]. cbn [bind]. destruct (public_key _ P); [|discriminate]. cbn [bind]. destruct (vk_from_public_point cv P) as [v|]; [|discriminate]. cbn [bind].
  intro K. assert (k = mk_skey cv d v) as -> by congruence. split; reflexivity.
Qed.
Section Nonce.
  Variable cv : curve_info.
  Notation G := (cv_gen cv).
  Hypothesis HG : generator_ok G.
  Hypothesis Hnp : g_order G <= c_p (g_curve G).
  Hypothesis Hgy : 0 <= g_y G < c_p (g_curve G).
  Notation c := (g_curve G).
  Notation p := (c_p c).
  Notation n := (g_order G).
  Notation onc := (on_curve p (c_a c) (c_b c)).
  Notation gp := (coords (gen_point G)).
  Notation gmul := (multiple_z p (c_a c) gp).
  Let Hc : curve_ok c := gen_c G HG.
  Let N2 : 2 < n := ok_n2 G HG.
  (** Solving t i = 1, d t = u. *)
  Lemma solve t u d : t mod n <> 0 -> 0 <= d < n -> (n | d * t - u) -> exists i, inverse_mod (t mod n) n = Ok i /\ (u * i) mod n = d.
  Proof.
    intros T D H. pose proof (Z.mod_pos_bound t n ltac:(lia)) as B. destruct (inv_exists G HG (t mod n)) as (i & E & _ & M); [lia|]. exists i. split; [exact E|].
    rewrite Zmult_mod_idemp_l in M. assert ((n | t * i - 1)) as (q & Q) by (apply sub_mod; [lia|]; rewrite M; symmetry; apply Z.mod_small; lia). destruct H as (m & K).
    rewrite <- (Z.mod_small d n) by exact D. apply mod_sub; [lia|]. exists (d * q - m * i). nia.
  Qed.
  Lemma signed d k h nonce r s : sk_from_secret_exponent cv d = Ok k -> sk_sign_number k h (Ok nonce) = Ok (r, s) ->
    1 <= d < n /\ 1 <= nonce < n /\ (exists y, gmul nonce (Some (r, y)) /\ onc (Some (r, y))) /\ 1 <= s < n /\ (n | s * nonce - (h + d * r)).
  Proof.
    intros K S. destruct (sk_fields cv d k K) as (C & X). assert (1 <= d < n) as D.
    { unfold sk_from_secret_exponent in K. destruct (negb ((1 <=? d) && (d <? cv_order cv))) eqn:B; [discriminate|]. apply negb_false_iff, andb_prop in B. destruct B as (B1 & B2). apply Z.leb_le in B1. apply Z.ltb_lt in B2. unfold cv_order in B2.
lia. }
    unfold sk_sign_number in S. cbn [bind] in S. rewrite C, X in S. destruct (negb ((1 <=? nonce) && (nonce <? cv_order cv))) eqn:B; [discriminate|]. apply negb_false_iff, andb_prop in B. destruct B as (B1 & B2). apply Z.leb_le in B1. apply Z.ltb_lt in B2. unfold cv_order in B2.
    split; [exact D|]. split; [lia|]. destruct (private_sign_exact cv HG Hnp Hgy d h nonce ltac:(lia)) as (x & y & M & On & [(_ & E)|(_ & _ & s' & E & Hs & F)]); [congruence|].
    assert (x = r /\ s' = s) as (-> & ->) by (split; congruence). split; [now exists y|]. split; [exact Hs|]. now apply sub_mod; [lia|].
  Qed.
  Lemma same_nonce d k h1 h2 m1 m2 r s1 s2 : sk_from_secret_exponent cv d = Ok k -> sk_sign_number k h1 (Ok m1) = Ok (r, s1) -> sk_sign_number k h2 (Ok m2) = Ok (r, s2) ->
    h1 mod n <> h2 mod n -> r mod n <> 0 -> m1 = m2 -> from_two n r s1 h1 s2 h2 = Ok d.
  Proof.
    intros K S1 S2 H R <-. destruct (signed _ _ _ _ _ _ K S1) as (D & _ & _ & _ & (a & A)). destruct (signed _ _ _ _ _ _ K S2) as (_ & M & _ & _ & (b & B)).
    destruct (solve (r * (s2 - s1)) (s1 * h2 - s2 * h1) d) as (i & E & F).
    - intro Z0. apply Zmod_divide in Z0; [|lia]. apply prime_mult in Z0; [|exact (ok_n G HG)]. destruct Z0 as [Z0|(q & Q)]; [apply R; now apply Zdivide_mod|].
      apply H. apply mod_sub; [lia|]. exists (b - a - q * m1). nia.
    - lia.
    - exists (s1 * b - s2 * a). nia.
    - unfold from_two. rewrite E, F. reflexivity.
  Qed.
  Lemma opposite_nonce d k h1 h2 m1 m2 r s1 s2 : sk_from_secret_exponent cv d = Ok k -> sk_sign_number k h1 (Ok m1) = Ok (r, s1) -> sk_sign_number k h2 (Ok m2) = Ok (r, s2) ->
    h1 mod n <> h2 mod n -> r mod n <> 0 -> m1 + m2 = n -> from_two n r s1 h1 (n - s2) h2 = Ok d.
  Proof.
    intros K S1 S2 H R E2. destruct (signed _ _ _ _ _ _ K S1) as (D & _ & _ & _ & (a & A)). destruct (signed _ _ _ _ _ _ K S2) as (_ & M & _ & _ & (b & B)). assert (m2 = n - m1) as -> by lia.
    destruct (solve (r * (n - s2 - s1)) (s1 * h2 - (n - s2) * h1) d) as (i & E & F).
    - intro Z0. apply Zmod_divide in Z0; [|lia]. apply prime_mult in Z0; [|exact (ok_n G HG)]. destruct Z0 as [Z0|(q & Q)]; [apply R; now apply Zdivide_mod|].
      apply H. apply mod_sub; [lia|]. exists (b - a - s2 + m1 - q * m1). nia.
    - lia.
    - exists (s1 * (b - s2 + m1) - (n - s2) * a). nia.
    - unfold from_two. rewrite E, F. reflexivity.
  Qed.
  Lemma nonces_of_r d1 k1 h1 m1 r1 s1 d2 k2 h2 m2 r2 s2 : sk_from_secret_exponent cv d1 = Ok k1 -> sk_from_secret_exponent cv d2 = Ok k2 ->
    sk_sign_number k1 h1 (Ok m1) = Ok (r1, s1) -> sk_sign_number k2 h2 (Ok m2) = Ok (r2, s2) -> (r1 = r2 <-> m1 = m2 \/ m1 + m2 = n).
  Proof.
    intros K1 K2 S1 S2. destruct (signed _ _ _ _ _ _ K1 S1) as (_ & B1 & (y1 & M1 & O1) & _). destruct (signed _ _ _ _ _ _ K2 S2) as (_ & B2 & (y2 & M2 & O2) & _).
    pose proof (EcdsaProofs.gp_on G HG Hnp Hgy) as Og. apply (multiple_z_iff c Hc) in M1, M2; try assumption.
    assert (forall x y, onc (Some (x, y)) -> xof G (sabs c (Some (x, y))) = x) as X. { intros x y (Hx & _). cbn [sabs xof]. rewrite val_fp. now apply Z.mod_small. }
    pose proof (onc_on c Hc _ O1) as E1. pose proof (onc_on c Hc _ O2) as E2.
    assert (sabs c gp = eabs c (gen_point G)) as Eg by apply sabs_coords.
    split.
    - intros <-. destruct (xof_eq G HG (sabs c (Some (r1, y1))) (sabs c (Some (r1, y2))) E1 E2) as [H|H]; [discriminate|discriminate|reflexivity| |].
      + left. rewrite M1, M2, Eg in H. apply (g_mul_eq G HG) in H. destruct H as (q & Q). assert (q = 0) by nia. nia.
      + right. rewrite M1, M2 in H. unfold e_mul in H. rewrite <- (e_mul_neg c Hc) in H by (apply (onc_on c Hc); exact Og). fold (e_mul c) in H. rewrite Eg in H. apply (g_mul_eq G HG) in H. destruct H as (q & Q). assert (q = 1) by nia. nia.
    - intros [E|E].
      + subst m2. rewrite <- M1 in M2. apply (sabs_inj c Hc) in M2; [|exact O2|exact O1]. congruence.
      + assert (e_mul c m2 (sabs c gp) = e_neg c (e_mul c m1 (sabs c gp))) as H.
        { unfold e_mul. rewrite <- (e_mul_neg c Hc) by (apply (onc_on c Hc); exact Og). fold (e_mul c). rewrite Eg. apply (g_mul_eq G HG). exists 1. lia. }
        rewrite H, <- M1 in M2. destruct (onc_opposite c Hc _ O1) as (P1 & P2). rewrite <- P2 in M2. apply (sabs_inj c Hc) in M2; [|exact O2|exact P1]. cbn [opposite] in M2. congruence.
  Qed.
End Nonce.

(** Two signatures made with one key and one nonce, of numbers that differ
    modulo the order, have the same r and give the key away. *)
Theorem C141_reused cv d k nonce h1 h2 r1 s1 r2 s2 : In cv curves -> sk_from_secret_exponent cv d = Ok k ->
  sk_sign_number k h1 (Ok nonce) = Ok (r1, s1) -> sk_sign_number k h2 (Ok nonce) = Ok (r2, s2) ->
  h1 mod cv_order cv <> h2 mod cv_order cv -> r1 mod cv_order cv <> 0 -> r1 = r2 /\ from_two (cv_order cv) r1 s1 h1 s2 h2 = Ok d.
Proof.
  intro Cv. apply all_certified in Cv. revert Cv. intros (_ & HG & Hn & Hy & _) K S1 S2 H R.
  assert (r1 = r2) as E by (apply (nonces_of_r cv HG Hn Hy _ _ _ _ _ _ _ _ _ _ _ _ K K S1 S2); now left). split; [exact E|]. rewrite <- E in S2. exact (same_nonce cv HG Hn Hy d k h1 h2 nonce nonce r1 s1 s2 K S1 S2 H R eq_refl).
Qed.
(** So does one signature to whoever knows its nonce. *)
Theorem C141_known cv d k nonce h r s : In cv curves -> sk_from_secret_exponent cv d = Ok k -> sk_sign_number k h (Ok nonce) = Ok (r, s) -> r mod cv_order cv <> 0 ->
  from_nonce (cv_order cv) r s h nonce = Ok d.
Proof.
  intro Cv. apply all_certified in Cv. revert Cv. intros (_ & HG & Hn & Hy & _) K S R. destruct (signed cv HG Hn Hy _ _ _ _ _ _ K S) as (D & _ & _ & _ & (a & A)).
  destruct (solve cv HG r (s * nonce - h) d R) as (i & E & F); [lia|exists (- a); lia|]. unfold from_nonce, cv_order. rewrite E, F. reflexivity.
Qed.
(** Everybody can see that this has happened: two signatures, of any keys of the
    curve, have the same r exactly if their nonces are the same or add up to
    the order. *)
Theorem C141_visible cv d1 k1 h1 m1 r1 s1 d2 k2 h2 m2 r2 s2 : In cv curves -> sk_from_secret_exponent cv d1 = Ok k1 -> sk_from_secret_exponent cv d2 = Ok k2 ->
  sk_sign_number k1 h1 (Ok m1) = Ok (r1, s1) -> sk_sign_number k2 h2 (Ok m2) = Ok (r2, s2) -> (r1 = r2 <-> m1 = m2 \/ m1 + m2 = cv_order cv).
Proof. intro Cv. apply all_certified in Cv. revert Cv. intros (_ & HG & Hn & Hy & _). exact (nonces_of_r cv HG Hn Hy d1 k1 h1 m1 r1 s1 d2 k2 h2 m2 r2 s2). Qed.
(** So two signatures of one key with the same r, whatever nonces were meant,
    leave two candidates for the key, which everybody can compute. *)
Theorem C141_same_r cv d k m1 m2 h1 h2 r s1 s2 : In cv curves -> sk_from_secret_exponent cv d = Ok k ->
  sk_sign_number k h1 (Ok m1) = Ok (r, s1) -> sk_sign_number k h2 (Ok m2) = Ok (r, s2) ->
  h1 mod cv_order cv <> h2 mod cv_order cv -> r mod cv_order cv <> 0 ->
  from_two (cv_order cv) r s1 h1 s2 h2 = Ok d \/ from_two (cv_order cv) r s1 h1 (cv_order cv - s2) h2 = Ok d.
Proof.
  intros Cv K S1 S2 H R. destruct (proj1 (C141_visible cv d k h1 m1 r s1 d k h2 m2 r s2 Cv K K S1 S2) eq_refl) as [E|E].
  - left. apply all_certified in Cv. revert Cv. intros (_ & HG & Hn & Hy & _). exact (same_nonce cv HG Hn Hy d k h1 h2 m1 m2 r s1 s2 K S1 S2 H R E).
  - right. apply all_certified in Cv. revert Cv. intros (_ & HG & Hn & Hy & _). exact (opposite_nonce cv HG Hn Hy d k h1 h2 m1 m2 r s1 s2 K S1 S2 H R E).
Qed.
(** Key 1 signs 1 and 2 with nonce 1. *)
Example C141_applies : exists k r s1 s2, sk_from_secret_exponent SECP256k1 1 = Ok k /\ sk_sign_number k 1 (Ok 1) = Ok (r, s1) /\ sk_sign_number k 2 (Ok 1) = Ok (r, s2) /\
  1 mod cv_order SECP256k1 <> 2 mod cv_order SECP256k1 /\ r mod cv_order SECP256k1 <> 0.
Proof.
  destruct C37_applies as (k & E & _).
  assert (forall h, (h = 1 \/ h = 2) -> exists s, sk_sign_number k h (Ok 1) = Ok (g_x (cv_gen SECP256k1), s)) as A.
  { intros h Hh. assert (sk_curve k = SECP256k1 /\ sk_secexp k = 1) as (C & X).
    { exact (sk_fields SECP256k1 1 k E). }
    unfold sk_sign_number. cbn [bind]. rewrite C, X. change (negb ((1 <=? 1) && (1 <? cv_order SECP256k1))) with false. cbv iota.
    destruct (private_sign_exact SECP256k1 Sok Snp Sgy 1 h 1 ltac:(split; [discriminate|reflexivity])) as (x & y & M & On & H). destruct (first_multiple SECP256k1 x y secp_in M On) as (-> & ->).
    destruct H as [([H|H] & _)|(_ & _ & s & H & _)]; [| |now exists s].
    - exfalso. vm_compute in H. discriminate H.
    - exfalso. destruct Hh; subst h; vm_compute in H; discriminate H. }
  destruct (A 1 (or_introl eq_refl)) as (s1 & S1). destruct (A 2 (or_intror eq_refl)) as (s2 & S2). exists k, (g_x (cv_gen SECP256k1)), s1, s2.
  split; [exact E|]. split; [exact S1|]. split; [exact S2|]. split; vm_compute; discriminate.
Qed.

(** ** Assumptions *)

Print Assumptions C141_reused.
Print Assumptions C141_known.
Print Assumptions C141_visible.
Print Assumptions C141_same_r.
