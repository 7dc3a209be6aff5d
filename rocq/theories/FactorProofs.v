(** The factorisation. *)
From Coq Require Import ZArith Znumtheory List Lia Bool Sorted.
From Verif Require Import PyBase PyLoop NtModel NtProofs ZpTheory PrimeModel PrimeProofs.
Import ListNotations.
Open Scope list_scope.
Open Scope Z_scope.

(** The number a list of (base, exponent) pairs stands for. *)
Definition fprod (l : list (Z * Z)) : Z := fold_right (fun f acc => fst f ^ snd f * acc) 1 l.
Lemma fprod_app l l' : fprod (l ++ l') = fprod l * fprod l'.
Proof. induction l as [|f l IH]; [symmetry; apply Z.mul_1_l|]. cbn [app fprod fold_right]. fold (fprod (l ++ l')) (fprod l). rewrite IH. ring. Qed.
Definition factor_ok (d : Z) (f : Z * Z) : Prop := prime (fst f) /\ 1 <= snd f /\ fst f <= d.
(** What is left of n0 after the primes up to d have been taken out. *)
Definition finv (n0 d n : Z) (acc : list (Z * Z)) : Prop :=
  1 <= n /\ n0 = fprod acc * n /\ Forall (factor_ok d) acc /\ StronglySorted Z.lt (map fst acc) /\ forall q, prime q -> (q | n) -> d < q.
Lemma sorted_app l x : StronglySorted Z.lt l -> Forall (fun y => y < x) l -> StronglySorted Z.lt (l ++ [x]).
Proof.
  induction l as [|y l IH]; intros S F; [repeat constructor|]. cbn. inversion_clear S as [|? ? S1 S2]. inversion_clear F as [|? ? F1 F2].
  constructor; [now apply IH|]. apply Forall_app. split; [exact S2|]. now constructor.
Qed.
Lemma finv_add n0 d n acc p c n' : finv n0 d n acc -> d < p -> prime p -> 1 <= c -> n = p ^ c * n' -> 1 <= n' -> ~ (p | n') ->
  (forall q, prime q -> d < q -> p <= q) -> finv n0 p n' (acc ++ [(p, c)]).
Proof.
  intros (H1 & H2 & H3 & H4 & H5) L P C E N D M. split; [exact N|]. split; [|split; [|split]].
  - rewrite fprod_app. cbn. rewrite H2, E. ring.
  - apply Forall_app. split; [|constructor; [|constructor]; split; [exact P|]; cbn; lia]. eapply Forall_impl; [|exact H3]. intros [b e] (A & B & F). cbn in *. split; [exact A|]. cbn. lia.
  - rewrite map_app. apply sorted_app; [exact H4|]. apply Forall_forall. intros y I. apply in_map_iff in I. destruct I as ([b e] & <- & I). rewrite Forall_forall in H3. destruct (H3 _ I) as (A & B & F). cbn in *. lia.
  - intros q Pq Dq. assert (d < q) as Lq by (apply H5; [exact Pq|]; rewrite E; now apply Z.divide_mul_r). specialize (M q Pq Lq). destruct (Z.eq_dec q p) as [->|]; [tauto|lia].
Qed.
Lemma finv_skip n0 d d' n acc : finv n0 d n acc -> d <= d' -> (forall q, prime q -> (q | n) -> d < q -> d' < q) -> finv n0 d' n acc.
Proof.
  intros (H1 & H2 & H3 & H4 & H5) L M. split; [exact H1|]. split; [exact H2|]. split; [|split; [exact H4|]].
  - eapply Forall_impl; [|exact H3]. intros [b e] (A & B & F). cbn in *. split; [exact A|]. cbn. lia.
  - intros q Pq Dq. apply M; [exact Pq|exact Dq|]. now apply H5.
Qed.
Lemma no_prime_1 n : 1 <= n -> (forall q, prime q -> (q | n) -> False) -> n = 1.
Proof. intros H A. destruct (Z.eq_dec n 1) as [E|E]; [exact E|exfalso]. destruct (prime_divisor n ltac:(lia)) as (q & P & D). now apply (A q). Qed.

(** ** Dividing by a prime as often as possible *)
Lemma small_count_ok d n : 1 < d -> 1 <= n -> (d | n) ->
  exists n' c, ploop (small_count_step d) (Z.to_pos (n + 1)) (n, n / d, 1) = inr (n', c) /\ n = d ^ c * n' /\ 1 <= c /\ 1 <= n' /\ ~ (d | n').
Proof.
  intros Hd Hn [k K]. destruct (ploop_rule (small_count_step d)
    (fun st => let '(m, q, c) := st in m = q * d /\ n = d ^ c * q /\ 1 <= q /\ 1 <= c)
    (fun r => let '(n', c) := r in n = d ^ c * n' /\ 1 <= c /\ 1 <= n' /\ ~ (d | n')) (fun st => fst (fst st))) with (n := Z.to_pos (n + 1)) (a := (n, n / d, 1)) as ([n' c] & E & P).
  - intros [[m q] c] (A & B & C & D). unfold small_count_step. destruct (Z.leb_spec d m); [|nia]. destruct (Z.eqb_spec (q mod d) 0) as [M|M].
    + apply Z.mod_divide in M; [|lia]. destruct M as [w W]. assert (q / d = w) as -> by (rewrite W, Z.div_mul; lia). cbn [fst]. split; [|nia]. split; [exact W|]. split; [|nia].
      rewrite Z.pow_add_r, Z.pow_1_r by lia. rewrite B, W. ring.
    + split; [exact B|]. split; [exact D|]. split; [exact C|]. intro F. apply M. apply Z.mod_divide; [lia|exact F].
  - assert (n / d = k) as -> by (rewrite K, Z.div_mul; lia). split; [exact K|]. rewrite Z.pow_1_r. nia.
  - cbn [fst]. rewrite Z2Pos.id by lia. lia.
  - exists n', c. tauto.
Qed.
Lemma count_ok d n : 1 < d -> 1 <= n -> (d | n) ->
  exists n' c, ploop (count_step d) (Z.to_pos n) (n / d, 1) = inr (n', c) /\ n = d ^ c * n' /\ 1 <= c /\ 1 <= n' /\ ~ (d | n').
Proof.
  intros Hd Hn [k K]. destruct (ploop_rule (count_step d)
    (fun st => let '(m, c) := st in n = d ^ c * m /\ 1 <= m /\ 1 <= c)
    (fun r => let '(n', c) := r in n = d ^ c * n' /\ 1 <= c /\ 1 <= n' /\ ~ (d | n')) (fun st => fst st)) with (n := Z.to_pos n) (a := (n / d, 1)) as ([n' c] & E & P).
  - intros [m c] (B & C & D). unfold count_step. destruct (Z.leb_spec d m) as [L|L]; [destruct (Z.eqb_spec (m mod d) 0) as [M|M]|].
    + apply Z.mod_divide in M; [|lia]. destruct M as [w W]. assert (m / d = w) as -> by (rewrite W, Z.div_mul; lia). cbn [fst]. split; [|nia]. split; [|nia].
      rewrite Z.pow_add_r, Z.pow_1_r by lia. rewrite B, W. ring.
    + split; [exact B|]. split; [exact D|]. split; [exact C|]. intro F. apply M. apply Z.mod_divide; [lia|exact F].
    + split; [exact B|]. split; [exact D|]. split; [exact C|]. intro F. apply Z.divide_pos_le in F; lia.
  - assert (n / d = k) as -> by (rewrite K, Z.div_mul; lia). rewrite Z.pow_1_r. nia.
  - cbn [fst]. rewrite Z2Pos.id by lia. assert (n / d = k) as -> by (rewrite K, Z.div_mul; lia). nia.
  - exists n', c. tauto.
Qed.

(** ** The small primes *)
Lemma small_factors_ok n0 : forall l d n acc, finv n0 d n acc -> StronglySorted Z.lt (d :: l) -> Forall (fun p => prime p /\ p <= 1229) l ->
  (forall q, prime q -> d < q <= 1229 -> In q l) ->
  exists n' acc' d', small_factors l n acc = Ok (n', acc') /\ finv n0 d' n' acc' /\ (1229 <= d' \/ n' = 1) /\ (n' = 1 \/ d' <= Z.max d 1229).
Proof.
  induction l as [|p l IH]; intros d n acc I S F C.
  - exists n, acc, (Z.max d 1229). split; [reflexivity|]. split; [|lia]. apply finv_skip with d; [exact I|lia|]. intros q Pq _ Lq. destruct (Z_le_gt_dec q 1229); [|lia]. destruct (C q Pq). lia.
  - cbn [small_factors]. inversion_clear S as [|? ? S1 S2]. inversion_clear F as [|? ? [Pp Lp] F']. inversion_clear S2 as [|? ? S3 S4].
    assert (forall q, prime q -> d < q -> p <= q) as NX.
    { intros q Pq Lq. destruct (Z_le_gt_dec q 1229) as [L|L]; [|lia]. destruct (C q Pq ltac:(lia)) as [->|Iq]; [lia|]. inversion_clear S1 as [|? ? _ S5]. rewrite Forall_forall in S5. specialize (S5 q Iq). lia. }
    assert (forall q, prime q -> p < q <= 1229 -> In q l) as C'. { intros q Pq Lq. destruct (C q Pq ltac:(lia)) as [->|Iq]; [lia|exact Iq]. }
    pose proof (prime_ge_2 _ Pp) as P2. destruct (Z.ltb_spec n p) as [L|L].
    + exists n, acc, d. split; [reflexivity|]. split; [exact I|]. assert (n = 1) as ->; [|lia]. destruct I as (H1 & _ & _ & _ & H5). apply no_prime_1; [exact H1|]. intros q Pq Dq.
      specialize (NX q Pq (H5 q Pq Dq)). apply Z.divide_pos_le in Dq; lia.
    + destruct (Z.eqb_spec (n mod p) 0) as [M|M].
      * apply Z.mod_divide in M; [|lia]. destruct (small_count_ok p n ltac:(lia) ltac:(lia) M) as (n' & c & -> & E & Hc & Hn & D).
        destruct (IH p n' (acc ++ [(p, c)])) as (n2 & acc2 & d2 & E2 & I2 & J2 & K2); [now apply finv_add with d n|exact S1|exact F'|exact C'|].
        exists n2, acc2, d2. split; [exact E2|]. split; [exact I2|]. split; [exact J2|]. lia.
      * destruct (IH p n acc) as (n2 & acc2 & d2 & E2 & I2 & J2 & K2); [|exact S1|exact F'|exact C'|].
        -- apply finv_skip with d; [exact I|lia|]. intros q Pq Dq Lq. specialize (NX q Pq Lq). destruct (Z.eq_dec q p) as [->|]; [|lia]. exfalso. apply M. apply Z.mod_divide; [lia|exact Dq].
        -- exists n2, acc2, d2. split; [exact E2|]. split; [exact I2|]. split; [exact J2|]. lia.
Qed.
(** ** The search for bigger factors *)
Lemma search_ok n0 n acc : finv n0 1229 n acc -> 1229 < n ->
  exists n' acc' d', ploop search_step (Z.to_pos n) (1229, n, acc) = inr (Ok (n', acc')) /\ finv n0 d' n' acc' /\ (n' = 1 \/ prime n').
Proof.
  intros I L.
  destruct (ploop_rule search_step (fun st => let '(d, m, acc) := st in finv n0 d m acc /\ 1229 <= d /\ Z.even d = false /\ m <= n)
    (fun r => exists n' acc' d', r = Ok (n', acc') /\ finv n0 d' n' acc' /\ (n' = 1 \/ prime n')) (fun st => let '(d, m, acc) := st in n - d)) with (n := Z.to_pos n) (a := (1229, n, acc)) as (r & -> & (n' & acc' & d' & -> & A & B)).
  - intros [[d m] ac] (Iv & Ld & Ev & Lm). unfold search_step. pose proof Iv as (H1 & _ & _ & _ & H5).
    assert (forall q, prime q -> d < q -> d + 2 <= q) as NX.
    { intros q Pq Lq. destruct (Z.eq_dec q (d + 1)) as [->|]; [exfalso|lia]. assert (Z.even (d + 1) = true) as E1 by (rewrite Z.even_add, Ev; reflexivity). apply Zeven_bool_iff, Zeven_ex in E1. destruct E1 as [k E1].
      pose proof (prime_divisors _ Pq 2 ltac:(exists k; lia)). lia. }
    destruct (Z.ltb_spec (m / (d + 2)) (d + 2)) as [Lq|Lq].
    + exists m, ac, d. split; [reflexivity|]. split; [exact Iv|]. destruct (Z.eq_dec m 1) as [->|N]; [now left|]. right. apply prime_sqrt; [lia|]. intros r Pr Dr.
      specialize (NX r Pr (H5 r Pr Dr)). pose proof (Z.div_mod m (d + 2) ltac:(lia)). pose proof (Z.mod_pos_bound m (d + 2) ltac:(lia)). nia.
    + assert ((d + 2) * (d + 2) <= m) as SQ by (pose proof (Z.div_mod m (d + 2) ltac:(lia)); pose proof (Z.mod_pos_bound m (d + 2) ltac:(lia)); nia).
      destruct (Z.eqb_spec (m mod (d + 2)) 0) as [M|M].
      * apply Z.mod_divide in M; [|lia]. destruct (count_ok (d + 2) m ltac:(lia) ltac:(lia) M) as (n' & c & -> & E & Hc & Hn & D).
        assert (prime (d + 2)) as Pd.
        { destruct (prime_divisor (d + 2) ltac:(lia)) as (q & Pq & Dq). pose proof (NX q Pq (H5 q Pq ltac:(now apply Z.divide_trans with (d + 2)))) as W. apply Z.divide_pos_le in Dq; [|lia]. now replace (d + 2) with q by lia. }
        split; [|nia]. split; [apply finv_add with d m; [exact Iv|lia|exact Pd|exact Hc|exact E|exact Hn|exact D|exact NX]|]. split; [lia|]. split; [now rewrite Z.even_add, Ev|]. assert (0 < (d + 2) ^ c) by (apply Z.pow_pos_nonneg; lia). nia.
      * split; [|nia]. split; [|split; [lia|split; [now rewrite Z.even_add, Ev|exact Lm]]]. apply finv_skip with d; [exact Iv|lia|]. intros q Pq Dq Hq. specialize (NX q Pq Hq).
        destruct (Z.eq_dec q (d + 2)) as [->|]; [|lia]. exfalso. apply M. apply Z.mod_divide; [lia|exact Dq].
  - split; [exact I|]. split; [lia|]. split; [reflexivity|lia].
  - rewrite Z2Pos.id by lia. lia.
  - exists n', acc', d'. tauto.
Qed.
Section Fact.
  Variable nbits : Z -> Z.
  Lemma factorization_ok n : 2 <= n -> exists l, factorization nbits n = Ok l /\ fprod l = n /\ StronglySorted Z.lt (map fst l) /\ Forall (fun f => 1 <= snd f) l /\
    Forall (fun f => prime (fst f) \/ (1229 < fst f /\ snd f = 1 /\ is_prime nbits (fst f) = Ok true)) l.
  Proof.
    intro H. unfold factorization. destruct (Z.ltb_spec n 2); [lia|].
    destruct (small_factors_ok n smallprimes 1 n []) as (n1 & acc & d & -> & I & J & K).
    - split; [lia|]. split; [change (fprod []) with 1; lia|]. split; [constructor|]. split; [constructor|]. intros q Pq _. apply prime_ge_2 in Pq. lia.
    - assert (forall d l, (fix ok (d : Z) (l : list Z) : bool := match l with [] => true | x :: l => (d <? x) && ok x l end) d l = true -> StronglySorted Z.lt (d :: l)) as A.
      { clear. intros d l H. apply Sorted_StronglySorted; [intros x y z; lia|]. revert d H. induction l as [|x l IH]; intros d H; [repeat constructor|]. apply andb_true_iff in H. destruct H as [H1 H2]. constructor; [now apply IH|]. constructor. lia. }
      apply A. vm_compute. reflexivity.
    - apply Forall_forall. intros x Ix. split; [now apply small_prime|]. apply small_range in Ix. lia.
    - intros q Pq Lq. apply small_complete; [lia|exact Pq].
    - cbn [bind]. rewrite last_small_eq.
      assert (forall d l, Forall (factor_ok d) l -> Forall (fun f => 1 <= snd f) l /\ Forall (fun f => prime (fst f) \/ 1229 < fst f /\ snd f = 1 /\ is_prime nbits (fst f) = Ok true) l) as W.
      { clear. intros d l F. split; (eapply Forall_impl; [|exact F]); intros f (A & B & C); [exact B|now left]. }
      assert (forall d m l, finv n d m l -> d < m -> (prime m \/ (1229 < m /\ is_prime nbits m = Ok true)) -> exists l', Ok (l ++ [(m, 1)]) = Ok l' /\ fprod l' = n /\ StronglySorted Z.lt (map fst l') /\ Forall (fun f => 1 <= snd f) l' /\ Forall (fun f => prime (fst f) \/ (1229 < fst f /\ snd f = 1 /\ is_prime nbits (fst f) = Ok true)) l') as LAST.
      { intros d' m l (H1 & H2 & H3 & H4 & H5) Lm Pm. exists (l ++ [(m, 1)]). split; [reflexivity|]. destruct (W _ _ H3) as [W1 W2]. split; [|split; [|split]].
        - rewrite fprod_app. change (fprod [(m, 1)]) with (m ^ 1 * 1). rewrite Z.pow_1_r. lia.
        - rewrite map_app. apply sorted_app; [exact H4|]. apply Forall_forall. intros y Iy. apply in_map_iff in Iy. destruct Iy as (f & <- & If). rewrite Forall_forall in H3. destruct (H3 _ If) as (A & B & C). change (fst f < m). lia.
        - apply Forall_app. split; [exact W1|]. repeat constructor. cbn. lia.
        - apply Forall_app. split; [exact W2|]. constructor; [|constructor]. cbn. destruct Pm as [Pm|Pm]; [now left|right; tauto]. }
      assert (forall d l, finv n d 1 l -> exists l', Ok l = Ok l' /\ fprod l' = n /\ StronglySorted Z.lt (map fst l') /\ Forall (fun f => 1 <= snd f) l' /\ Forall (fun f => prime (fst f) \/ (1229 < fst f /\ snd f = 1 /\ is_prime nbits (fst f) = Ok true)) l') as DONE.
      { intros d' l (H1 & H2 & H3 & H4 & H5). exists l. split; [reflexivity|]. destruct (W _ _ H3). split; [lia|]. split; [exact H4|]. tauto. }
      destruct (Z.ltb_spec 1229 n1) as [L|L].
      + assert (d = 1229) as -> by lia. destruct (is_prime_total nbits n1) as (b & E). rewrite E. cbn [bind]. destruct b.
        * apply LAST with 1229; [exact I|lia|right; tauto].
        * destruct (search_ok n n1 acc I L) as (n2 & acc2 & d2 & -> & I2 & P2). cbn [bind]. destruct P2 as [->|P2]; [now apply DONE with d2|]. pose proof (prime_ge_2 _ P2). destruct (Z.ltb_spec 1 n2); [|lia].
          apply LAST with d2; [exact I2| |now left]. destruct I2 as (_ & _ & _ & _ & H5). apply H5; [exact P2|apply Z.divide_refl].
      + assert (n1 = 1) as ->; [|now apply DONE with d]. destruct J as [J|J]; [|exact J]. destruct I as (H1 & _ & _ & _ & H5). apply no_prime_1; [exact H1|]. intros q Pq Dq. pose proof (H5 q Pq Dq). apply Z.divide_pos_le in Dq; lia.
  Qed.
End Fact.
