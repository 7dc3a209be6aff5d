(** C50 to C52 and C82 to C84: splitting a private key, partial key sets and
    their QR codes.  [reads w d]: the text [w] is a private key text for the
    number [d].  [wif d]: the text of [d] without the mark of compressed public
    keys.  The hash is a parameter of which only the length of the result is
    assumed.  Python 2, except where Python 3 is named. *)
From Coq Require Import String ZArith Znumtheory List Lia Bool Permutation.
From Verif Require Import PyBase PyVal UtilModel Base58Model Base58Proofs DerModel DerProofs NtModel EcModel EcSpec EcGroup EcProofs EcOrder EcLib EcdsaSpec EcdsaProofs EcParams256k1 KeyModel KeySpec KeyProofs PropsEc PropsKey PropsDer PieceModel PieceProofs PieceB32 PieceQr.
Import ListNotations.
Open Scope string_scope.
Open Scope list_scope.
Open Scope Z_scope.
Notation S256 := SECP256k1.

(** The sum of points, one after another. *)
Inductive total_of (p a : Z) : list spt -> spt -> Prop :=
| total_nil : total_of p a [] None
| total_cons P l Q R : total_of p a l Q -> line_sum p a P Q R -> total_of p a (P :: l) R.

Lemma map_nodup_in {A B} (f : A -> B) l : (forall a b, In a l -> In b l -> f a = f b -> a = b) -> NoDup l -> NoDup (map f l).
Proof.
  intros Inj N. induction N as [|a l Ha N IH]; [constructor|]. cbn [map]. constructor; [|apply IH; intros x y Hx Hy; apply Inj; now right]. intro H. apply in_map_iff in H. destruct H as (b & E & Hb). apply Inj in E; [congruence|now right|now left].
Qed.
(** ** Sorting *)
Lemma bytes_leb_total a : forall b, bytes_leb a b = true \/ bytes_leb b a = true.
Proof. induction a as [|x a IH]; intros [|y b]; cbn [bytes_leb]; auto. destruct (Z.ltb_spec x y), (Z.ltb_spec y x), (Z.eqb_spec x y), (Z.eqb_spec y x); auto; try lia. Qed.
Lemma bytes_leb_anti a : forall b, bytes_leb a b = true -> bytes_leb b a = true -> a = b.
Proof. induction a as [|x a IH]; intros [|y b]; cbn [bytes_leb]; try discriminate; auto. destruct (Z.ltb_spec x y), (Z.ltb_spec y x), (Z.eqb_spec x y), (Z.eqb_spec y x); try discriminate; try lia. intros H1 H2. subst. f_equal. auto. Qed.
Lemma bytes_leb_trans a : forall b c, bytes_leb a b = true -> bytes_leb b c = true -> bytes_leb a c = true.
Proof.
  induction a as [|x a IH]; intros [|y b] [|z c]; cbn [bytes_leb]; try discriminate; auto. destruct (Z.ltb_spec x y), (Z.ltb_spec y z), (Z.eqb_spec x y), (Z.eqb_spec y z), (Z.ltb_spec x z), (Z.eqb_spec x z); try discriminate; try lia; auto. intros. eapply IH; eassumption.
Qed.
Lemma pair_leb_total a b : pair_leb a b = true \/ pair_leb b a = true.
Proof. unfold pair_leb. destruct (Z.ltb_spec (fst a) (fst b)), (Z.ltb_spec (fst b) (fst a)), (Z.eqb_spec (fst a) (fst b)), (Z.eqb_spec (fst b) (fst a)); auto; try lia. apply bytes_leb_total. Qed.
Lemma pair_leb_anti a b : pair_leb a b = true -> pair_leb b a = true -> a = b.
Proof.
  unfold pair_leb. destruct a as (x & a), b as (y & b). cbn [fst snd]. destruct (Z.ltb_spec x y), (Z.ltb_spec y x), (Z.eqb_spec x y), (Z.eqb_spec y x); try discriminate; try lia. intros. subst. f_equal. now apply bytes_leb_anti.
Qed.
Lemma pair_leb_trans a b c : pair_leb a b = true -> pair_leb b c = true -> pair_leb a c = true.
Proof.
  unfold pair_leb. destruct a as (x & a), b as (y & b), c as (z & c). cbn [fst snd]. destruct (Z.ltb_spec x y), (Z.ltb_spec y z), (Z.eqb_spec x y), (Z.eqb_spec y z), (Z.ltb_spec x z), (Z.eqb_spec x z); try discriminate; try lia; auto. apply bytes_leb_trans.
Qed.
Lemma insert_swap a b l : insert a (insert b l) = insert b (insert a l).
Proof.
  induction l as [|y l IH]; cbn [insert].
  - destruct (pair_leb a b) eqn:E1, (pair_leb b a) eqn:E2; try reflexivity; [now rewrite (pair_leb_anti a b)|]. destruct (pair_leb_total a b); congruence.
  - destruct (pair_leb b y) eqn:B, (pair_leb a y) eqn:A; cbn [insert]; rewrite ?A, ?B.
    + destruct (pair_leb a b) eqn:E1, (pair_leb b a) eqn:E2; try reflexivity; [now rewrite (pair_leb_anti a b)|]. destruct (pair_leb_total a b); congruence.
    + destruct (pair_leb a b) eqn:E1; [rewrite (pair_leb_trans a b y E1 B) in A; discriminate|]. reflexivity.
    + destruct (pair_leb b a) eqn:E1; [rewrite (pair_leb_trans b a y E1 A) in B; discriminate|]. reflexivity.
    + now rewrite IH.
Qed.
Lemma sort_same l l' : Permutation l l' -> sort l = sort l'.
Proof.
  induction 1 as [|x l l' P IH|x y l|l l' l'' P IH Q IH']; [reflexivity|unfold sort in *; cbn [fold_right]; now rewrite IH|unfold sort; cbn [fold_right]; apply insert_swap|congruence].
Qed.

Section PublicSum.
  Variable G : generator.
  Hypothesis HG : generator_ok G.
  Hypothesis Hnp : g_order G <= c_p (g_curve G).
  Hypothesis Hgy : 0 <= g_y G < c_p (g_curve G).
  Notation c := (g_curve G).
  Notation gp := (coords (gen_point G)).
  Notation mult := (multiple_z (c_p c) (c_a c) gp).
  Lemma total_multiple ds Ps R : Forall (fun d => 0 <= d) ds -> Forall2 mult ds Ps -> total_of (c_p c) (c_a c) Ps R -> on_curve (c_p c) (c_a c) (c_b c) R /\ mult (zsum ds mod g_order G) R.
  Proof.
    intros Hd F T. pose proof (gen_c G HG) as Hc. pose proof (gp_on G HG Hnp Hgy) as Hg. pose proof (ok_n2 G HG) as N2.
    assert (on_curve (c_p c) (c_a c) (c_b c) R /\ sabs c R = e_mul c (zsum ds) (sabs c gp)) as (HR & E).
    { revert R T. induction F as [|d P ds Ps M F IH]; intros R T.
      - inversion T; subst. split; [exact I|reflexivity].
      - inversion T as [|P' l Q R' TQ S]; subst. inversion Hd as [|? ? Hd0 Hd']; subst. destruct (IH Hd' Q TQ) as (HQ & EQ). destruct (mult_onc G HG gp d P Hg Hd0 M) as (HP & EP). pose proof (line_sum_onc G HG P Q R HP HQ S) as HR. split; [exact HR|].
        rewrite <- (line_sum_add c Hc P Q R HP HQ S), EP, EQ. cbn [zsum fold_right]. fold (zsum ds). unfold e_mul. symmetry. apply (e_mul_add c Hc). now apply onc_on. }
    split; [exact HR|]. apply (multiple_z_iff c Hc); [exact Hg|exact HR|]. rewrite E. symmetry. apply (e_mod G HG). now apply onc_on.
  Qed.
End PublicSum.

Section Splitting.
  Variable sha256 : bytes -> bytes.
  Hypothesis Hsha : forall d, wf_bytes (sha256 d) /\ zlen (sha256 d) = 32.
  Notation reads := (reads sha256).
  Notation wif := (wif sha256).
  Notation combine := (combine_private_keys sha256 S256).
  Notation split := (split_private_key sha256 S256).
  Notation partial_split := (partial_split_private_key sha256 S256).
  Notation partial_combine := (partial_combine_private_keys sha256 S256).
  Let Hord : 1 < cv_order S256. Proof. reflexivity. Qed.
  Let sl x : 4 <= zlen (sha256 x). Proof. destruct (Hsha x). lia. Qed.
  Let sw x : wf_bytes (sha256 x). Proof. apply Hsha. Qed.
  (** The draws of the random numbers of one split. *)
  Definition draws_ok (draw : nat -> nat -> Z -> bytes) : Prop := forall i, entropy_ok (draw i).
  Lemma drawn draw i k : draws_ok draw -> randrange secp_n (draw i) = Ok k -> 1 <= k < secp_n.
  Proof. intros Hd E. apply C61_randrange in E; [|apply Hd|reflexivity]. destruct E as (_ & _ & _ & H & _). exact H. Qed.
  Lemma split_is w d count draw ws : reads w d -> draws_ok draw -> split true w count draw = Ok ws <-> exists ds, shares S256 d count draw ds /\ ws = map wif ds.
  Proof. intros Hw Hd. apply (split_spec sha256 S256 Hord Slen w d count draw ws Hw). intros i k. exact (drawn draw i k Hd). Qed.
  Lemma share_range d count draw ds : draws_ok draw -> shares S256 d count draw ds -> Forall (fun e => 0 <= e < secp_n) ds.
  Proof. intro Hd. apply (shares_range S256 Hord). intros i k. exact (drawn draw i k Hd). Qed.
  Lemma small d : 0 <= d < secp_n -> 0 <= d < 256 ^ 32.
  Proof. intro H. assert (secp_n < 256 ^ 32) by reflexivity. lia. Qed.
  Lemma reads_of d : 0 <= d < 256 ^ 32 -> reads (wif d) d. Proof. apply (reads_wif sha256 Hsha). Qed.
  Lemma wif_inj d e : 0 <= d < 256 ^ 32 -> 0 <= e < 256 ^ 32 -> wif d = wif e -> d = e.
  Proof. intros Hd He E. apply reads_of in Hd, He. rewrite E in Hd. exact (reads_fun sha256 _ _ _ Hd He). Qed.

  (** ** C50 *)
  (** A split succeeds exactly when every draw finds a number; there are
      [count] shares (one, if the count is less); all of them together, in any
      order, give the number back, reduced modulo the order. *)
  Theorem C50_split_combine w d count draw : reads w d -> draws_ok draw ->
    ((exists ws, split true w count draw = Ok ws) <-> forall i, Z.of_nat i < count - 1 -> exists k, randrange secp_n (draw i) = Ok k) /\
    forall ws, split true w count draw = Ok ws ->
      zlen ws = Z.max 1 count /\ (forall s, In s ws -> exists e, 0 <= e < secp_n /\ reads s e) /\
      forall ws', Permutation ws' ws -> combine ws' = Ok (wif (d mod secp_n)).
  Proof.
    intros Hw Hd. split.
    - split.
      + intros (ws & E) i Hi. apply (split_is w d) in E; [|exact Hw|exact Hd]. destruct E as (ds & (rs & E & _) & _). apply each_ok in E. unfold upto in E.
        assert (In i (seq 0 (Z.to_nat (count - 1)))) as Hin by (apply in_seq; lia). clear - E Hin. induction E as [|j k l rs E F IH]; [destruct Hin|]. destruct Hin as [->|Hin]; [now exists k|now apply IH].
      + intro H. assert (exists rs, each (fun i => randrange (cv_order S256) (draw i)) (upto (count - 1)) = Ok rs) as (rs & E).
        { unfold upto. assert (forall l, (forall i, In i l -> exists k, randrange secp_n (draw i) = Ok k) -> exists rs, each (fun i => randrange (cv_order S256) (draw i)) l = Ok rs) as G.
          { induction l as [|i l IH]; intro Hl; [now exists []|]. destruct (Hl i ltac:(now left)) as (k & Ek). destruct IH as (rs & Er); [intros j Hj; apply Hl; now right|]. exists (k :: rs). apply each_ok. apply each_ok in Er. constructor; [exact Ek|exact Er]. }
          apply G. intros i Hi. apply in_seq in Hi. apply H. lia. }
        exists (map wif (rs ++ [(d - zsum rs) mod secp_n])). apply (split_is w d); [exact Hw|exact Hd|]. eexists. split; [|reflexivity]. exists rs. split; [exact E|reflexivity].
    - intros ws E. apply (split_is w d) in E; [|exact Hw|exact Hd]. destruct E as (ds & Sh & ->). destruct (shares_facts S256 _ _ _ _ Sh) as (Sum & Len & _). pose proof (share_range _ _ _ _ Hd Sh) as R. rewrite zlen_map. split; [exact Len|]. split.
      + intros s Hs. apply in_map_iff in Hs. destruct Hs as (e & <- & He). rewrite Forall_forall in R. exists e. split; [now apply R|]. apply reads_of, small. now apply R.
      + intros ws' P. apply Permutation_map_inv in P. destruct P as (ds' & -> & P). rewrite (combine_spec sha256 S256 Hord Slen _ ds'); [|apply (reads_wifs sha256 Hsha S256 Hord Slen); exact (Permutation_Forall P R)].
        rewrite <- (zsum_perm _ _ P). do 2 f_equal. exact Sum.
  Qed.
  (** The text itself comes back exactly when it is the text without the mark
      of a number below the order. *)
  Theorem C50_exact w d count draw ws ws' : reads w d -> draws_ok draw -> split true w count draw = Ok ws -> Permutation ws' ws ->
    (combine ws' = Ok w <-> w = wif d /\ d < secp_n).
  Proof.
    intros Hw Hd E P. destruct (C50_split_combine w d count draw Hw Hd) as (_ & H). destruct (H ws E) as (_ & _ & C). rewrite (C ws' P). pose proof (reads_range sha256 w d Hw) as R.
    pose proof (Z.mod_pos_bound d secp_n ltac:(reflexivity)) as B. split.
    - intro X. assert (wif (d mod secp_n) = w) as X' by congruence. clear X. assert (d mod secp_n = d) as M by (apply (reads_fun sha256 w); [rewrite <- X'; now apply reads_of, small|exact Hw]). rewrite M in *. split; [now symmetry|lia].
    - intros (X & L). rewrite Z.mod_small by lia. now rewrite <- X.
  Qed.
  Theorem C50_partial d count draw ws ws' : 0 <= d < secp_n -> draws_ok draw -> split true (wif d) count draw = Ok ws -> Permutation ws' ws -> combine ws' = Ok (wif d).
  Proof. intros Hd Hdr E P. apply (C50_exact (wif d) d count draw ws ws'); [now apply reads_of, small|exact Hdr|exact E|exact P|split; [reflexivity|lia]]. Qed.
  (** The full claim fails: a text for compressed public keys, a number that is
      not below the order, and Python 3. *)
  Theorem C50_refuted d count draw ws : draws_ok draw ->
    (0 <= d < 256 ^ 32 -> split true (privkey_to_wif sha256 (be_bytes 32 d ++ [1]) [0x80]) count draw = Ok ws -> combine ws <> Ok (privkey_to_wif sha256 (be_bytes 32 d ++ [1]) [0x80])) /\
    (secp_n <= d < 256 ^ 32 -> split true (wif d) count draw = Ok ws -> combine ws <> Ok (wif d)).
  Proof.
    intro Hd. split; intros R E X.
    - assert (reads (privkey_to_wif sha256 (be_bytes 32 d ++ [1]) [0x80]) d) as Hw. { exists (be_bytes 32 d). destruct (octets_32 d R) as (W & L & V). split; [|now repeat split]. apply wif_roundtrip_compressed; [exact sl|exact sw|exact W|exact L]. }
      apply (C50_exact _ d count draw ws ws) in X; [|exact Hw|exact Hd|exact E|apply Permutation_refl]. destruct X as (X & _). unfold PieceProofs.wif, privkey_to_wif in X. destruct (octets_32 d R) as (W & L & V). apply encode_check_inj in X.
      + apply (f_equal zlen) in X. rewrite !zlen_app, L in X. discriminate X.
      + exact sl.
      + exact sw.
      + constructor; [unfold is_byte; lia|]. apply wf_bytes_app. split; [exact W|]. repeat constructor; lia.
      + constructor; [unfold is_byte; lia|exact W].
    - apply (C50_exact _ d count draw ws ws) in X; [|apply reads_of; assert (0 < secp_n) by reflexivity; lia|exact Hd|exact E|apply Permutation_refl]. lia.
  Qed.
  Theorem C50_python3_refuted w d count draw : reads w d -> split false w count draw = Raise NameError.
  Proof. intros (k & E & W & L & V). unfold split_private_key. rewrite E. cbn [bind]. rewrite string_to_number_spec by (intros ->; discriminate L). reflexivity. Qed.
  (** Combining does not depend on the order of the keys, and always gives the
      text of the sum modulo the order. *)
  Theorem C50_order ws ws' r : Permutation ws ws' -> combine ws = Ok r <-> combine ws' = Ok r.
  Proof.
    assert (forall ws ws', Permutation ws ws' -> combine ws = Ok r -> combine ws' = Ok r) as H; [|intro P; split; apply H; [exact P|now apply Permutation_sym]].
    clear ws ws'. intros ws ws' P E. apply (combine_inv sha256 Hsha S256 Hord Slen) in E. destruct E as (ds & F & ->). destruct (Permutation_Forall2 P F) as (ds' & P' & F'). rewrite (combine_spec sha256 S256 Hord Slen ws' ds' F'). now rewrite (zsum_perm _ _ P').
  Qed.
  Theorem C50_sum ws r : combine ws = Ok r <-> exists ds, Forall2 reads ws ds /\ r = wif (zsum ds mod secp_n).
  Proof. split; [exact (combine_inv sha256 Hsha S256 Hord Slen ws r)|]. intros (ds & F & ->). exact (combine_spec sha256 S256 Hord Slen ws ds F). Qed.
  (** The public point of the combined key is the sum of the public points. *)
  Theorem C50_public ws ds Ps R r : Forall2 reads ws ds -> Forall2 (fun d P => times (coords (gen_point generator_secp256k1)) d P) ds Ps ->
    total_of (c_p secp) (c_a secp) Ps R -> combine ws = Ok r -> exists e, reads r e /\ times (coords (gen_point generator_secp256k1)) e R.
  Proof.
    intros F M T E. assert (Forall (fun d => 0 <= d) ds) as H0. { clear - F. induction F as [|w d ws ds Hr F IH]; constructor; [|exact IH]. pose proof (reads_range sha256 w d Hr). lia. }
    assert (combine ws = Ok (wif (zsum ds mod secp_n))) as E' by exact (combine_spec sha256 S256 Hord Slen ws ds F). exists (zsum ds mod secp_n). split; [replace r with (wif (zsum ds mod secp_n)) by congruence; apply reads_of, small, Z.mod_pos_bound; reflexivity|].
    exact (proj2 (total_multiple generator_secp256k1 Sok Snp Sgy ds Ps R H0 M T)).
  Qed.

  (** ** C83 *)
  (** Entropy that leads to [k]. *)
  Definition drawing (k : Z) : nat -> Z -> bytes := fun _ n => be_bytes (Z.to_nat n) (k - 1).
  Lemma drawing_ok k : entropy_ok (drawing k).
  Proof. intros i n Hn. unfold drawing. split; [apply wf_be_bytes|]. rewrite zlen_be_bytes. now apply Z2Nat.id. Qed.
  Lemma drawing_draws k : 1 <= k < secp_n -> randrange secp_n (drawing k) = Ok k.
  Proof.
    intro H. assert (candidate_of (drawing k) secp_n 0 = k) as C. { unfold candidate_of, drawing. change (orderlen secp_n) with (cv_baselen S256). rewrite Slen. rewrite be_val_be_bytes_small; [lia|]. pose proof (small k ltac:(lia)). change (Z.of_nat (Z.to_nat 32)) with 32. lia. }
    apply C61_randrange; [apply drawing_ok|reflexivity|]. exists 0%nat. split; [reflexivity|]. split; [exact C|]. split; [exact H|]. intros h Hh. lia.
  Qed.
  Lemma nth_error_same {A} (a b : list A) : (forall i, nth_error a i = nth_error b i) -> a = b.
  Proof. revert b. induction a as [|x a IH]; intros [|y b] H; [reflexivity|discriminate (H 0%nat)|discriminate (H 0%nat)|]. pose proof (H 0%nat) as H0. cbn in H0. injection H0 as ->. f_equal. apply IH. intro i. exact (H (S i)). Qed.
  Lemma differ_at a b j : List.length a = List.length b -> (j < List.length a)%nat -> (forall i, i <> j -> nth_error a i = nth_error b i) -> zsum a - zsum b = nth j a 0 - nth j b 0.
  Proof.
    revert b j. induction a as [|x a IH]; intros [|y b] j L Hj H; cbn [List.length] in *; try lia. unfold zsum in *. cbn [fold_right]. destruct j as [|j]; cbn [nth].
    - assert (a = b) as ->; [|lia]. apply nth_error_same. intro i. exact (H (S i) ltac:(lia)).
    - pose proof (H 0%nat ltac:(lia)) as H0. cbn in H0. injection H0 as ->. specialize (IH b j ltac:(lia) ltac:(lia)). rewrite <- IH; [lia|]. intros i Hi. exact (H (S i) ltac:(lia)).
  Qed.
  Lemma nth_error_map_wif ds ds' i : Forall (fun e => 0 <= e < secp_n) ds -> Forall (fun e => 0 <= e < secp_n) ds' -> nth_error (map wif ds) i = nth_error (map wif ds') i <-> nth_error ds i = nth_error ds' i.
  Proof.
    intros F F'. rewrite !nth_error_map. split; [|now intros ->]. rewrite Forall_forall in F, F'. destruct (nth_error ds i) as [e|] eqn:E, (nth_error ds' i) as [e'|] eqn:E'; cbn; try congruence. intro H. f_equal.
    apply nth_error_In in E, E'. apply wif_inj; [now apply small, F|now apply small, F'|]. congruence.
  Qed.
  Lemma upto_len count draw rs : each (fun i => randrange (cv_order S256) (draw i)) (upto count) = Ok rs -> List.length rs = Z.to_nat count /\ forall i, (i < Z.to_nat count)%nat -> randrange secp_n (draw i) = Ok (nth i rs 0).
  Proof. intro E. exact (each_seq (fun i => randrange secp_n (draw i)) 0 (Z.to_nat count) rs E). Qed.
  (** Whoever has all the shares but one knows nothing of the key, save that, if
      the share not known is one of those drawn, it is not zero: the same shares
      occur in a split of every other key that this does not exclude. *)
  Theorem C83_missing_share w d count draw ws j d' : reads w d -> draws_ok draw -> split true w count draw = Ok ws -> (j < List.length ws)%nat -> 0 <= d' < secp_n ->
    (exists draw' ws', draws_ok draw' /\ split true (wif d') count draw' = Ok ws' /\ forall i, i <> j -> nth_error ws' i = nth_error ws i) <->
    (j = (List.length ws - 1)%nat \/ exists e, reads (nth j ws []) e /\ (d' - d + e) mod secp_n <> 0).
  Proof.
    intros Hw Hd E Hj Hd'. pose proof (reads_of d' (small d' Hd')) as Hw'. apply (split_is w d) in E; [|exact Hw|exact Hd]. destruct E as (ds & Sh & ->). rewrite map_length in *. pose proof (share_range _ _ _ _ Hd Sh) as R. destruct (shares_facts S256 _ _ _ _ Sh) as (Sum & Len & _).
    change (cv_order S256) with secp_n in Sum. pose proof Sh as (rs & Er & Eds). destruct (upto_len _ _ _ Er) as (Lr & Nr). assert (List.length ds = S (List.length rs)) as Lds by (rewrite Eds, app_length; cbn; lia).
    assert (nth j (map wif ds) [] = wif (nth j ds 0)) as Nj by (rewrite (nth_indep _ [] (wif 0)) by (rewrite map_length; lia); apply map_nth). rewrite Nj.
    assert (0 <= nth j ds 0 < secp_n) as Rj by (rewrite Forall_forall in R; apply R; now apply nth_In). split.
    - intros (draw' & ws' & Hdr & E' & Same). apply (split_is (wif d') d') in E'; [|exact Hw'|exact Hdr]. destruct E' as (ds' & Sh' & ->). pose proof (share_range _ _ _ _ Hdr Sh') as R'. destruct (shares_facts S256 _ _ _ _ Sh') as (Sum' & Len' & _). change (cv_order S256) with secp_n in Sum'.
      destruct (Nat.eq_dec j (List.length ds - 1)) as [->|Nl]; [now left|]. right. exists (nth j ds 0). split; [apply reads_of, small; exact Rj|].
      assert (List.length ds' = List.length ds) as Ll by (unfold zlen in *; lia). pose proof (differ_at ds' ds j Ll ltac:(lia)) as D. specialize (D ltac:(intros i Hi; apply nth_error_map_wif; [exact R'|exact R|now apply Same])).
      destruct Sh' as (rs' & Er' & Eds'). destruct (upto_len _ _ _ Er') as (Lr' & Nr'). assert (List.length ds' = S (List.length rs')) as Lds' by (rewrite Eds', app_length; cbn; lia).
      assert (1 <= nth j ds' 0 < secp_n) as Rj'. { rewrite Eds', app_nth1 by lia. apply (drawn draw' j); [exact Hdr|]. apply Nr'. lia. }
      intro Z0. assert ((d' - d + nth j ds 0) mod secp_n = nth j ds' 0 mod secp_n) as M.
      { replace (nth j ds' 0) with (zsum ds' - zsum ds + nth j ds 0) by lia. rewrite (Zplus_mod (d' - d)), (Zplus_mod (zsum ds' - zsum ds)), (Zminus_mod d'), (Zminus_mod (zsum ds')). rewrite Sum, Sum'. reflexivity. }
      rewrite Z0, Z.mod_small in M by lia. lia.
    - intros [->|(e & He & Ne)].
      + exists draw, (map wif (rs ++ [(d' - zsum rs) mod secp_n])). split; [exact Hd|]. split; [apply (split_is (wif d') d'); [exact Hw'|exact Hd|]; eexists; split; [|reflexivity]; exists rs; now split|].
        intros i Hi. rewrite Eds, !map_app. destruct (Nat.ltb_spec i (List.length rs)) as [L|L]; [rewrite !nth_error_app1 by (rewrite map_length; exact L); reflexivity|]. transitivity (@None bytes); [|symmetry]; apply nth_error_None; rewrite app_length, map_length; cbn; lia.
      + assert (e = nth j ds 0) as -> by (apply (reads_fun sha256 (wif (nth j ds 0))); [exact He|now apply reads_of, small]). clear He. destruct (Nat.eq_dec j (List.length ds - 1)) as [->|Nl].
        { exists draw, (map wif (rs ++ [(d' - zsum rs) mod secp_n])). split; [exact Hd|]. split; [apply (split_is (wif d') d'); [exact Hw'|exact Hd|]; eexists; split; [|reflexivity]; exists rs; now split|].
          intros i Hi. rewrite Eds, !map_app. destruct (Nat.ltb_spec i (List.length rs)) as [L|L]; [rewrite !nth_error_app1 by (rewrite map_length; exact L); reflexivity|]. transitivity (@None bytes); [|symmetry]; apply nth_error_None; rewrite app_length, map_length; cbn; lia. }
        set (new := (d' - d + nth j ds 0) mod secp_n) in *. assert (1 <= new < secp_n) as Hnew by (pose proof (Z.mod_pos_bound (d' - d + nth j ds 0) secp_n ltac:(reflexivity)); unfold new in *; lia).
        set (draw' := fun i => if (i =? j)%nat then drawing new else draw i). assert (draws_ok draw') as Hdr by (intro i; unfold draw'; destruct (i =? j)%nat; [apply drawing_ok|apply Hd]).
        set (rs' := map (fun i => if (i =? j)%nat then new else nth i rs 0) (upto (count - 1))).
        assert (each (fun i => randrange (cv_order S256) (draw' i)) (upto (count - 1)) = Ok rs') as Er'.
        { apply each_total. intros i Hi. unfold upto in Hi. apply in_seq in Hi. unfold draw'. destruct (Nat.eqb_spec i j) as [->|]; [now apply drawing_draws|]. apply Nr. lia. }
        assert (List.length rs' = List.length rs) as Lrs by (unfold rs', upto; rewrite map_length, seq_length; lia).
        assert (forall i, i <> j -> nth_error rs' i = nth_error rs i) as Same.
        { intros i Hi. destruct (Nat.ltb_spec i (List.length rs)) as [L|L]; [|transitivity (@None Z); [|symmetry]; apply nth_error_None; lia]. unfold rs', upto. rewrite nth_error_map. rewrite (nth_error_nth' (seq 0 (Z.to_nat (count - 1))) 0%nat) by (rewrite seq_length; lia). rewrite seq_nth by lia. cbn [option_map plus]. destruct (Nat.eqb_spec i j); [contradiction|]. symmetry. now apply nth_error_nth'. }
        assert (nth j rs' 0 = new) as Nn. { apply nth_error_nth. unfold rs', upto. rewrite nth_error_map. rewrite (nth_error_nth' (seq 0 (Z.to_nat (count - 1))) 0%nat) by (rewrite seq_length; lia). rewrite seq_nth by lia. cbn [option_map plus]. now rewrite Nat.eqb_refl. }
        pose proof (differ_at rs' rs j Lrs ltac:(lia) Same) as D. rewrite Nn in D. assert (nth j rs 0 = nth j ds 0) as Nd by (rewrite Eds, app_nth1 by lia; reflexivity). rewrite Nd in D.
        assert ((d' - zsum rs') mod secp_n = (d - zsum rs) mod secp_n) as Last.
        { replace (d' - zsum rs') with (d' - zsum rs + nth j ds 0 - new) by lia. unfold new. rewrite Zminus_mod_idemp_r. f_equal. lia. }
        exists draw', (map wif (rs' ++ [(d' - zsum rs') mod secp_n])). split; [exact Hdr|]. split; [apply (split_is (wif d') d'); [exact Hw'|exact Hdr|]; eexists; split; [|reflexivity]; exists rs'; now split|].
        rewrite Last. intros i Hi. rewrite !nth_error_map. f_equal. rewrite Eds. destruct (Nat.ltb_spec i (List.length rs)) as [L|L]; [rewrite !nth_error_app1 by lia; now apply Same|]. rewrite !nth_error_app2 by lia. now rewrite Lrs.
  Qed.

  (** ** C51 *)
  Definition all_draws_ok (draw : nat -> nat -> nat -> Z -> bytes) : Prop := forall i, draws_ok (draw i).
  Notation sum_check d := (ztake 4 (sha256d sha256 (be_bytes 32 d))).
  Lemma sum_check_ok d : wf_bytes (sum_check d) /\ zlen (sum_check d) = 4.
  Proof. split; [apply Forall_ztake; apply sw|]. unfold sha256d. rewrite zlen_ztake by lia. destruct (Hsha (sha256 (be_bytes 32 d))). lia. Qed.
  Lemma groups_are w d required total draw groups : reads w d -> all_draws_ok draw -> 1 <= required <= total -> partial_split true w required total draw = Ok groups ->
    total <= 256 /\ required < 256 /\ exists table, (forall i, (i < Z.to_nat total)%nat -> shares S256 d required (draw i) (table i)) /\
      groups = map (fun i => map (ptext sha256 required (sum_check d)) (group required (Z.to_nat total) table i)) (upto total).
  Proof.
    intros Hw Hd Hr E. apply (partial_split_spec sha256 Hsha S256 Hord Slen w d required total draw groups Hw) in E; [exact E| |exact Hr]. intros i j k. exact (drawn (draw i) j k (Hd i)).
  Qed.
  Lemma in_group required total table g p : (0 < total)%nat -> In p (group required total table g) <-> exists j, (j < Z.to_nat required)%nat /\ p = ((g + j) mod total, nth j (table ((g + j) mod total)) 0%Z)%nat.
  Proof.
    intro Ht. unfold group, upto. rewrite in_map_iff. split.
    - intros (j & <- & Hj). apply in_seq in Hj. exists j. split; [lia|reflexivity].
    - intros (j & Hj & ->). exists j. split; [reflexivity|]. apply in_seq. lia.
  Qed.
  Lemma back total i g j : (i < total)%nat -> (g < total)%nat -> (j <= total)%nat -> ((g + j) mod total = i <-> g = (i + total - j) mod total)%nat.
  Proof.
    intros Hi Hg Hj. assert (forall a b, (a < 2 * total)%nat -> (a mod total = b <-> (a < total /\ b = a) \/ (total <= a /\ b = a - total)))%nat as M.
    { intros a b Ha. destruct (Nat.ltb_spec a total) as [L|L]; [rewrite Nat.mod_small by lia; lia|]. replace a with (a - total + 1 * total)%nat at 1 by lia. rewrite Nat.mod_add by lia. rewrite Nat.mod_small by lia. lia. }
    destruct (Nat.eq_dec (g + j) (2 * total)) as [E|E]; [|rewrite M by lia; assert ((i + total - j < 2 * total)%nat) as L by lia; split; [intro H; symmetry; apply M; lia|intro H; symmetry in H; apply M in H; lia]].
    lia.
  Qed.
  (** The keys of the groups [chosen] give the key exactly when, for one of the
      [total] splits, its shares differ and the [required] groups among which
      they were dealt are all chosen; otherwise the answer is None. *)
  Definition recombines (w : bytes) (required total : Z) (draw : nat -> nat -> nat -> Z -> bytes) (chosen : list nat) : Prop :=
    exists i, Z.of_nat i < total /\ (exists ws, split true w required (draw i) = Ok ws /\ NoDup ws) /\
      forall j, Z.of_nat j < required -> In ((i + Z.to_nat total - j) mod Z.to_nat total)%nat chosen.
  Theorem C51_exact w d required total draw groups chosen keys arrange ignore_errors : reads w d -> d < secp_n -> all_draws_ok draw -> 1 <= required <= total ->
    partial_split true w required total draw = Ok groups -> Forall (fun g => Z.of_nat g < total) chosen -> (forall t, In t keys <-> exists g, In g chosen /\ In t (nth g groups [])) -> (forall l, Permutation (arrange l) l) ->
    (recombines w required total draw chosen -> partial_combine true arrange keys ignore_errors = Ok (Some (wif d))) /\
    (~ recombines w required total draw chosen -> partial_combine true arrange keys ignore_errors = Ok None).
  Proof.
    intros Hw Hn Hdr Hr E Fc Hk Ha. pose proof (reads_range sha256 w d Hw) as Rd. destruct (groups_are w d required total draw groups Hw Hdr Hr E) as (Ht & Hreq & table & Tb & Eg). clear E. set (n := Z.to_nat total) in *. assert (0 < n)%nat as Hn0 by lia.
    destruct (sum_check_ok d) as (Wc & Lc). set (c := sum_check d) in *.
    assert (forall i, (i < n)%nat -> zlen (table i) = required /\ Forall (fun e => 0 <= e < 256 ^ 32) (table i) /\ zsum (table i) mod cv_order S256 = d) as Tab.
    { intros i Hi. specialize (Tb i Hi). destruct (shares_facts S256 _ _ _ _ Tb) as (Sm & L & _). split; [rewrite L; lia|]. split; [eapply Forall_impl; [|exact (share_range _ _ _ _ (Hdr i) Tb)]; exact small|]. rewrite Sm. change (cv_order S256) with secp_n. apply Z.mod_small. lia. }
    assert (forall g, (g < n)%nat -> nth g groups [] = map (ptext sha256 required c) (group required n table g)) as Ng.
    { intros g Hg. apply nth_error_nth. rewrite Eg. unfold upto. rewrite nth_error_map. fold n. rewrite (nth_error_nth' (seq 0 n) 0%nat) by (rewrite seq_length; lia). rewrite seq_nth by lia. reflexivity. }
    rewrite Forall_forall in Fc. assert (forall g j, (g < n)%nat -> (j < Z.to_nat required)%nat -> of_table n table ((g + j) mod n, nth j (table ((g + j) mod n)) 0%Z)%nat) as Of.
    { intros g j Hg Hj. assert ((g + j) mod n < n)%nat as Hm by (apply Nat.mod_upper_bound; lia). split; cbn [fst snd]; [exact Hm|]. apply nth_In. destruct (Tab _ Hm) as (L & _). unfold zlen in L. lia. }
    assert (exists ks, keys = map (ptext sha256 required c) ks /\ Forall (of_table n table) ks) as (ks & -> & Fk).
    { assert (forall t, In t keys -> exists p, of_table n table p /\ t = ptext sha256 required c p) as H. { intros t H. apply Hk in H. destruct H as (g & Hg & H). specialize (Fc g Hg). rewrite Ng in H by lia. apply in_map_iff in H. destruct H as (p & <- & H). exists p. split; [|reflexivity]. apply in_group in H; [|exact Hn0]. destruct H as (j & Hj & ->). apply Of; lia. }
      clear Hk. induction keys as [|t keys IH]; [exists []; now split|]. destruct (H t ltac:(now left)) as (p & Hp & ->). destruct IH as (ks & -> & F); [intros t' Ht'; apply H; now right|]. exists (p :: ks). split; [reflexivity|now constructor]. }
    assert (forall p, of_table n table p -> fits p) as Fits. { intros (i & e) (Hi & He). cbn [fst snd] in *. destruct (Tab i Hi) as (_ & F & _). rewrite Forall_forall in F. split; cbn [fst snd]; [lia|now apply F]. }
    assert (forall p, of_table n table p -> In p ks <-> exists g, In g chosen /\ In p (group required n table g)) as Ink.
    { intros p Hp. split.
      - intro H. assert (In (ptext sha256 required c p) (map (ptext sha256 required c) ks)) as H' by now apply in_map. apply Hk in H'. destruct H' as (g & Hg & H'). exists g. split; [exact Hg|]. specialize (Fc g Hg). rewrite Ng in H' by lia. apply in_map_iff in H'. destruct H' as (q & Eq & H').
        assert (q = p) as <-; [|exact H']. apply (ptext_inj sha256 Hsha required c ltac:(lia) (conj Wc Lc)); [|now apply Fits|exact Eq]. apply Fits. apply in_group in H'; [|exact Hn0]. destruct H' as (j & Hj & ->). apply Of; lia.
      - intros (g & Hg & H). assert (In (ptext sha256 required c p) (map (ptext sha256 required c) ks)) as H'. { apply Hk. exists g. split; [exact Hg|]. specialize (Fc g Hg). rewrite Ng by lia. now apply in_map. }
        apply in_map_iff in H'. destruct H' as (q & Eq & H'). rewrite Forall_forall in Fk. assert (q = p) as <-; [|exact H']. apply (ptext_inj sha256 Hsha required c ltac:(lia) (conj Wc Lc)); [now apply Fits, Fk|now apply Fits|exact Eq]. }
    assert ((exists i, whole n table ks i) <-> recombines w required total draw chosen) as Iff.
    { unfold recombines. fold n. split; intros (i & H); exists i.
      - destruct H as (Hi & Nd & H). split; [lia|]. split.
        + exists (map wif (table i)). split; [apply (split_is w d); [exact Hw|apply Hdr|]; exists (table i); split; [now apply Tb|reflexivity]|]. destruct (Tab i Hi) as (_ & F & _). clear - Nd F Hsha. induction F as [|e l He F IH]; [constructor|]. inversion Nd as [|? ? N1 N2]; subst. cbn [map]. constructor; [|now apply IH]. intro B. apply in_map_iff in B. destruct B as (e' & Ee & He'). rewrite Forall_forall in F. apply wif_inj in Ee; [|now apply F|exact He]. now subst.
        + intros j Hj. destruct (Tab i Hi) as (L & _). assert (j < List.length (table i))%nat as Hjl by (unfold zlen in L; lia). assert (In (nth j (table i) 0) (table i)) as He by now apply nth_In. pose proof (H _ He) as Hin. apply Ink in Hin; [|now split]. destruct Hin as (g & Hg & Hin). apply in_group in Hin; [|exact Hn0]. destruct Hin as (j' & Hj' & Ep).
          assert (i = (g + j') mod n)%nat as Ei by congruence. assert (nth j (table i) 0 = nth j' (table i) 0) as En by (rewrite Ei; rewrite Ei in Ep; congruence). rewrite (NoDup_nth (table i) 0) in Nd. apply Nd in En; [|exact Hjl|unfold zlen in L; lia]. subst j'. specialize (Fc g Hg). symmetry in Ei. apply back in Ei; [|exact Hi|lia|lia]. now rewrite <- Ei.
      - destruct H as (Hi & (ws & Ew & Nd) & H). assert (i < n)%nat as Hi' by lia. split; [exact Hi'|]. apply (split_is w d) in Ew; [|exact Hw|apply Hdr]. destruct Ew as (ds & Sh & ->). assert (ds = table i) as ->. { destruct (Tb i Hi') as (rs & Er & ->), Sh as (rs' & Er' & ->). assert (rs = rs') as -> by congruence. reflexivity. }
        split; [now apply NoDup_map_inv in Nd|]. intros e He. apply Ink; [now split|]. destruct (In_nth (table i) e 0 He) as (j & Hj & <-). destruct (Tab i Hi') as (L & _). assert (j < Z.to_nat required)%nat as Hj' by (unfold zlen in L; lia). exists ((i + n - j) mod n)%nat. split; [apply H; lia|]. apply in_group; [exact Hn0|]. exists j. split; [exact Hj'|].
        assert (((i + n - j) mod n + j) mod n = i)%nat as ->; [|reflexivity]. apply back; [exact Hi'|apply Nat.mod_upper_bound; lia|lia|reflexivity]. }
    pose proof (combine_exact sha256 Hsha S256 Hord Slen required c ltac:(lia) (conj Wc Lc) n table d ltac:(lia) ltac:(split; [lia|exact Hn]) eq_refl ltac:(lia) Tab ignore_errors arrange ks Ha Fk) as (C1 & C2).
    split; intro H; [apply C1; now apply Iff|apply C2; intro B; apply H; now apply Iff].
  Qed.
  Lemma mod_inj n g a b : (a < n)%nat -> (b < n)%nat -> ((g + a) mod n = (g + b) mod n)%nat -> a = b.
  Proof.
    assert (forall a b, (a < n)%nat -> (b < n)%nat -> ((g + a) mod n = (g + b) mod n -> a <= b -> a = b))%nat as K.
    { clear a b. intros a b Ha Hb M L. pose proof (Nat.div_mod (g + a) n ltac:(lia)). pose proof (Nat.div_mod (g + b) n ltac:(lia)). rewrite M in *. assert (b - a = n * ((g + b) / n - (g + a) / n))%nat as Q by nia. destruct ((g + b) / n - (g + a) / n)%nat; nia. }
    intros Ha Hb M. destruct (Nat.le_ge_cases a b) as [Le|Le]; [now apply K|symmetry; now apply K].
  Qed.
  (** The groups among which the shares of the split [i] were dealt. *)
  Definition run (n r i : nat) : list nat := map (fun j => (i + n - j) mod n)%nat (seq 0 r).
  Lemma run_nodup n r i : (i < n)%nat -> (r <= n)%nat -> NoDup (run n r i).
  Proof.
    intros Hi Hr. unfold run. assert (forall l, NoDup l -> (forall j, In j l -> (j < n)%nat) -> NoDup (map (fun j => (i + n - j) mod n)%nat l)) as G.
    { induction l as [|j l IH]; intros N H; [constructor|]. inversion N as [|? ? N1 N2]; subst. cbn [map]. constructor; [|apply IH; [exact N2|intros; apply H; now right]]. intro B. apply in_map_iff in B. destruct B as (j' & E & Hj').
      pose proof (H j ltac:(now left)) as L. pose proof (H j' ltac:(now right)) as L'. set (g := ((i + n - j) mod n)%nat) in *. assert (g < n)%nat as Hg by (apply Nat.mod_upper_bound; lia). assert ((g + j) mod n = i)%nat as A by (apply back; [lia|lia|lia|reflexivity]).
      assert ((g + j') mod n = i)%nat as A' by (apply back; [lia|lia|lia|congruence]). assert (j = j') as ->; [|contradiction].
      apply (mod_inj n g); congruence || lia. }
    apply G; [apply seq_NoDup|]. intros j Hj. apply in_seq in Hj. lia.
  Qed.
  Lemma recombines_run w required total draw chosen : 1 <= required <= total -> recombines w required total draw chosen ->
    exists i, (i < Z.to_nat total)%nat /\ NoDup (run (Z.to_nat total) (Z.to_nat required) i) /\ incl (run (Z.to_nat total) (Z.to_nat required) i) chosen.
  Proof.
    intros Hr (i & Hi & _ & H). exists i. split; [lia|]. split; [apply run_nodup; lia|]. intros g Hg. unfold run in Hg. apply in_map_iff in Hg. destruct Hg as (j & <- & Hj). apply in_seq in Hj. apply H. lia.
  Qed.
  (** Fewer than [required] groups never give the key. *)
  Theorem C51_fewer w d required total draw groups chosen keys arrange ignore_errors : reads w d -> d < secp_n -> all_draws_ok draw -> 1 <= required <= total ->
    partial_split true w required total draw = Ok groups -> Forall (fun g => Z.of_nat g < total) chosen -> (forall t, In t keys <-> exists g, In g chosen /\ In t (nth g groups [])) -> (forall l, Permutation (arrange l) l) ->
    zlen chosen < required -> partial_combine true arrange keys ignore_errors = Ok None.
  Proof.
    intros Hw Hn Hdr Hr E Fc Hk Ha L. apply (C51_exact w d required total draw groups chosen keys arrange ignore_errors Hw Hn Hdr Hr E Fc Hk Ha). intro R. destruct (recombines_run _ _ _ _ _ Hr R) as (i & Hi & N & I).
    pose proof (NoDup_incl_length N I) as B. unfold run in B. rewrite map_length, seq_length in B. unfold zlen in L. lia.
  Qed.
  (** Any [required] groups give the key if [required] is 1, [total - 1] or
      [total] and the shares of each split differ. *)
  Theorem C51_partial w d required total draw groups chosen keys arrange ignore_errors : reads w d -> d < secp_n -> all_draws_ok draw -> 1 <= required <= total ->
    partial_split true w required total draw = Ok groups -> Forall (fun g => Z.of_nat g < total) chosen -> (forall t, In t keys <-> exists g, In g chosen /\ In t (nth g groups [])) -> (forall l, Permutation (arrange l) l) ->
    (forall i ws, Z.of_nat i < total -> split true w required (draw i) = Ok ws -> NoDup ws) ->
    NoDup chosen -> required <= zlen chosen -> required = 1 \/ total - 1 <= required -> partial_combine true arrange keys ignore_errors = Ok (Some (wif d)).
  Proof.
    intros Hw Hn Hdr Hr E Fc Hk Ha Dif Nc Lc C. apply (C51_exact w d required total draw groups chosen keys arrange ignore_errors Hw Hn Hdr Hr E Fc Hk Ha). rewrite Forall_forall in Fc.
    assert (forall i, Z.of_nat i < total -> (forall j, Z.of_nat j < required -> In ((i + Z.to_nat total - j) mod Z.to_nat total)%nat chosen) -> recombines w required total draw chosen) as Pick.
    { intros i Hi H. exists i. split; [exact Hi|]. split; [|exact H]. destruct (groups_are w d required total draw groups Hw Hdr Hr E) as (_ & _ & table & Tb & _). exists (map wif (table i)). assert (split true w required (draw i) = Ok (map wif (table i))) as Es by (apply (split_is w d); [exact Hw|apply Hdr|]; exists (table i); split; [apply Tb; lia|reflexivity]). split; [exact Es|now apply (Dif i)]. }
    set (n := Z.to_nat total) in *. destruct chosen as [|g0 rest] eqn:Ech; [unfold zlen in Lc; cbn in Lc; lia|]. rewrite <- Ech in *. assert (In g0 chosen) as Hg0 by (rewrite Ech; now left).
    destruct C as [->|C].
    { apply (Pick g0); [now apply Fc|]. intros j Hj. assert (j = 0%nat) as -> by lia. specialize (Fc g0 Hg0). rewrite Nat.sub_0_r. replace (g0 + n)%nat with (g0 + 1 * n)%nat by lia. rewrite Nat.mod_add by lia. rewrite Nat.mod_small by lia. exact Hg0. }
    assert ((exists m, (m < n)%nat /\ ~ In m chosen) \/ forall m, (m < n)%nat -> In m chosen) as [(m & Hm & Nm)|All].
    { clear. induction n as [|n [(m & Hm & Nm)|All]]; [right; intros m Hm; lia|left; exists m; split; [lia|exact Nm]|]. destruct (in_dec Nat.eq_dec n chosen) as [I|I]; [right; intros m Hm; destruct (Nat.eq_dec m n) as [->|]; [exact I|apply All; lia]|left; exists n; split; [lia|exact I]]. }
    - assert (incl (m :: chosen) (seq 0 n)) as Bm by (intros x [<-|Hx]; apply in_seq; [lia|specialize (Fc x Hx); lia]). assert (NoDup (m :: chosen)) as Nm' by now constructor. pose proof (NoDup_incl_length Nm' Bm) as Lm. rewrite seq_length in Lm. cbn [List.length] in Lm. unfold zlen in Lc.
      assert (forall m', (m' < n)%nat -> m' <> m -> In m' chosen) as Rest.
      { intros m' Hm' Ne. assert (incl (seq 0 n) (m :: chosen)) as Cov by (apply NoDup_length_incl; [exact Nm'|rewrite seq_length; cbn [List.length]; lia|exact Bm]).
        destruct (Cov m' ltac:(apply in_seq; lia)) as [B|B]; [congruence|exact B]. }
      apply (Pick ((m + n - 1) mod n)%nat); [assert ((m + n - 1) mod n < n)%nat by (apply Nat.mod_upper_bound; lia); lia|]. intros j Hj. apply Rest; [apply Nat.mod_upper_bound; lia|]. intro B. symmetry in B. apply back in B; [|apply Nat.mod_upper_bound; lia|exact Hm|lia].
      replace (m + n - 1)%nat with (m + (n - 1))%nat in B by lia. apply mod_inj in B; lia.
    - apply (Pick 0%nat); [lia|]. intros j Hj. apply All, Nat.mod_upper_bound. lia.
  Qed.
  (** For every other [required] there are [required] groups that do not give
      the key. *)
  Theorem C51_refuted w d required total draw groups keys arrange ignore_errors : reads w d -> d < secp_n -> all_draws_ok draw -> 2 <= required <= total - 2 ->
    partial_split true w required total draw = Ok groups -> (forall l, Permutation (arrange l) l) ->
    exists chosen, NoDup chosen /\ zlen chosen = required /\ Forall (fun g => Z.of_nat g < total) chosen /\
      ((forall t, In t keys <-> exists g, In g chosen /\ In t (nth g groups [])) -> partial_combine true arrange keys ignore_errors = Ok None).
  Proof.
    intros Hw Hn Hdr Hr E Ha. set (r := Z.to_nat required). set (n := Z.to_nat total). exists (seq 0 (r - 1) ++ [r]).
    assert (NoDup (seq 0 (r - 1) ++ [r])) as Nc. { apply (Permutation_NoDup (Permutation_cons_append _ _)). constructor; [|apply seq_NoDup]. intro B. apply in_seq in B. lia. }
    assert (Forall (fun g => Z.of_nat g < total) (seq 0 (r - 1) ++ [r])) as Fc. { apply Forall_app. split; [apply Forall_forall; intros g Hg; apply in_seq in Hg; lia|repeat constructor; lia]. }
    assert (List.length (seq 0 (r - 1) ++ [r]) = r) as Lc by (rewrite app_length, seq_length; cbn; lia).
    split; [exact Nc|]. split; [unfold zlen; rewrite Lc; lia|]. split; [exact Fc|]. intro Hk. apply (C51_exact w d required total draw groups _ keys arrange ignore_errors Hw Hn Hdr ltac:(lia) E Fc Hk Ha). intro R. destruct (recombines_run w required total draw _ ltac:(lia) R) as (i & Hi & N & I). fold r n in N, I, Hi.
    assert (incl (seq 0 (r - 1) ++ [r]) (run n r i)) as I'. { apply NoDup_length_incl; [exact N| |exact I]. rewrite Lc. unfold run. now rewrite map_length, seq_length. }
    assert (forall g, In g (run n r i) -> (g < r - 1)%nat \/ g = r) as Run. { intros g Hg. apply I in Hg. apply in_app_or in Hg. destruct Hg as [Hg|[<-|[]]]; [apply in_seq in Hg; lia|now right]. }
    assert (In r (run n r i)) as Hrr by (apply I', in_or_app; right; now left). unfold run in Hrr. apply in_map_iff in Hrr. destruct Hrr as (j & Ej & Hj). apply in_seq in Hj.
    symmetry in Ej. apply back in Ej; [|exact Hi|lia|lia].
    destruct j as [|j].
    - (* the first of the run: the next one is r - 1 *)
      assert (In (r - 1)%nat (run n r i)) as B. { unfold run. apply in_map_iff. exists 1%nat. split; [|apply in_seq; lia]. symmetry. apply back; [exact Hi|lia|lia|]. replace (r - 1 + 1)%nat with (r + 0)%nat by lia. exact Ej. }
      apply Run in B. lia.
    - assert (In (r + 1)%nat (run n r i)) as B. { unfold run. apply in_map_iff. exists j. split; [|apply in_seq; lia]. symmetry. apply back; [exact Hi|lia|lia|]. replace (r + 1 + j)%nat with (r + S j)%nat by lia. exact Ej. }
      apply Run in B. lia.
  Qed.
  Theorem C51_python3_refuted w d required total draw : reads w d -> required <= total -> partial_split false w required total draw = Raise NameError.
  Proof. intros (k & E & _) L. unfold partial_split_private_key. destruct (Z.ltb_spec total required); [lia|]. rewrite E. reflexivity. Qed.
  (** The split succeeds exactly when the numbers of the sets and of the keys
      fit an octet and every single split succeeds. *)
  Theorem C51_succeeds w d required total draw : reads w d -> all_draws_ok draw -> 1 <= required <= total ->
    (exists groups, partial_split true w required total draw = Ok groups) <-> total <= 256 /\ required < 256 /\ forall i, Z.of_nat i < total -> exists ws, split true w required (draw i) = Ok ws.
  Proof.
    intros Hw Hd Hr. split.
    - intros (groups & E). destruct (groups_are w d required total draw groups Hw Hd Hr E) as (Ht & Hq & table & Tb & _). split; [exact Ht|]. split; [exact Hq|]. intros i Hi. exists (map wif (table i)). apply (split_is w d); [exact Hw|apply Hd|]. exists (table i). split; [apply Tb; lia|reflexivity].
    - intros (Ht & Hq & Ex). unfold partial_split_private_key. destruct (Z.ltb_spec total required); [lia|]. pose proof Hw as (k & Ek & _). rewrite Ek. cbn [bind negb]. cbv zeta.
      assert (wf_bytes (ztake 4 (sha256d sha256 k)) /\ zlen (ztake 4 (sha256d sha256 k)) = 4) as (Wc & Lc). { split; [apply Forall_ztake; apply sw|]. unfold sha256d. rewrite zlen_ztake by lia. destruct (Hsha (sha256 k)). lia. }
      set (c := ztake 4 (sha256d sha256 k)) in *.
      assert (exists keys, each (fun index => let! keys := split true w required (draw index) in each (partial_encode_key sha256 c required index) keys) (upto total) = Ok keys /\ List.length keys = Z.to_nat total /\ Forall (fun l => List.length l = Z.to_nat required) keys) as (keys & -> & Lk & Fk).
      { unfold upto. assert (forall l, (forall i, In i l -> Z.of_nat i < total) -> exists keys, each (fun index => let! keys := split true w required (draw index) in each (partial_encode_key sha256 c required index) keys) l = Ok keys /\ List.length keys = List.length l /\ Forall (fun l => List.length l = Z.to_nat required) keys) as G.
        { induction l as [|i l IH]; intro Hl; [exists []; repeat split; constructor|]. destruct IH as (keys & E1 & E2 & E3); [intros; apply Hl; now right|]. pose proof (Hl i ltac:(now left)) as Hi. destruct (Ex i Hi) as (ws & Ews). pose proof Ews as Ews'. apply (split_is w d) in Ews'; [|exact Hw|apply Hd]. destruct Ews' as (ds & Sh & ->).
          pose proof (share_range _ _ _ _ (Hd i) Sh) as R. destruct (shares_facts S256 _ _ _ _ Sh) as (_ & Ld & _).
          assert (each (partial_encode_key sha256 c required i) (map wif ds) = Ok (map (fun e => ptext sha256 required c (i, e)) ds)) as Ep.
          { apply each_ok. clear - R Hsha Wc Lc Hi Ht Hq Hr. induction R as [|e ds He R IH]; [constructor|]. cbn [map]. constructor; [|exact IH]. rewrite (partial_encode_spec sha256 Hsha) by (try assumption; now apply small). destruct (Nat.ltb_spec i 256); [|lia]. destruct (Z.leb_spec 0 required); [|lia]. destruct (Z.ltb_spec required 256); [|lia]. reflexivity. }
          exists (map (fun e => ptext sha256 required c (i, e)) ds :: keys). split; [|split; [cbn [List.length]; now rewrite E2|constructor; [rewrite map_length; unfold zlen in Ld; lia|exact E3]]].
          apply each_ok. constructor; [rewrite Ews; cbn [bind]; exact Ep|now apply each_ok]. }
        destruct (G (seq 0 (Z.to_nat total))) as (keys & E1 & E2 & E3); [intros i Hi; apply in_seq in Hi; lia|]. exists keys. rewrite seq_length in E2. auto. }
      cbn [bind]. eexists. apply (each_total _ (fun i => map (fun j => nth j (nth ((i + j) mod Z.to_nat total) keys []) [])%nat (upto required))). intros i Hi. apply each_total. intros j Hj. unfold upto in Hj. apply in_seq in Hj. assert ((i + j) mod Z.to_nat total < Z.to_nat total)%nat as Hm by (apply Nat.mod_upper_bound; lia). set (m := ((i + j) mod Z.to_nat total)%nat) in *.
      unfold item at 1. rewrite (nth_error_nth' keys [] (n := m)) by lia. cbn [bind]. unfold item. rewrite (nth_error_nth' (nth m keys []) ([] : bytes) (n := j)); [reflexivity|]. rewrite Forall_forall in Fk. rewrite (Fk (nth m keys [])); [lia|]. apply nth_In. lia.
  Qed.
  (** Two equal shares, and no number of groups gives the key. *)
  Theorem C51_equal_shares_refuted : exists w d draw groups, reads w d /\ d < secp_n /\ all_draws_ok draw /\ partial_split true w 2 2 draw = Ok groups /\
    forall keys arrange ignore_errors, (forall l, Permutation (arrange l) l) -> (forall t, In t keys <-> exists g, In g [0%nat; 1%nat] /\ In t (nth g groups [])) -> partial_combine true arrange keys ignore_errors = Ok None.
  Proof.
    assert (reads (wif 2) 2) as Hw by (apply reads_of; split; [discriminate|reflexivity]). set (draw := fun (_ _ : nat) => drawing 1). assert (all_draws_ok draw) as Hd by (intros i j; apply drawing_ok).
    assert (forall i, split true (wif 2) 2 (draw i) = Ok [wif 1; wif 1]) as Es. { intro i. apply (split_is (wif 2) 2); [exact Hw|apply Hd|]. exists [1; 1]. split; [|reflexivity]. exists [1]. split; [|reflexivity]. apply each_ok. constructor; [|constructor]. exact (drawing_draws 1 ltac:(split; [discriminate|reflexivity])). }
    destruct (C51_succeeds (wif 2) 2 2 2 draw Hw Hd ltac:(lia)) as (_ & Ex). destruct Ex as (groups & E); [repeat split; try lia; intros i _; exists [wif 1; wif 1]; apply Es|].
    exists (wif 2), 2, draw, groups. split; [exact Hw|]. split; [reflexivity|]. split; [exact Hd|]. split; [exact E|]. intros keys arrange ign Ha Hk.
    apply (C51_exact (wif 2) 2 2 2 draw groups [0%nat; 1%nat] keys arrange ign Hw eq_refl Hd ltac:(lia) E); [repeat constructor|exact Hk|exact Ha|].
    intros (i & _ & (ws & Ew & N) & _). rewrite Es in Ew. assert (ws = [wif 1; wif 1]) as -> by congruence. inversion N as [|? ? N1 _]; subst. apply N1. now left.
  Qed.

  (** ** C52 *)
  Notation qr_encode := (partial_split_qr_encode sha256).
  Notation qr_decode := (partial_split_qr_decode sha256).
  (** The code of a group of keys, in any order, is read back as the same set
      exactly when [required] is 3 or 4 modulo 5 (the padding) and no key comes
      from a split of an index above [required] (the gaps in the indices). *)
  Theorem C52_exact w d required total draw groups g keys : reads w d -> all_draws_ok draw -> 1 <= required <= total ->
    partial_split true w required total draw = Ok groups -> Z.of_nat g < total -> Permutation keys (nth g groups []) ->
    exists q, qr_encode true keys = Ok q /\
      (required mod 5 = 3 \/ required mod 5 = 4 -> exists out, qr_decode true q = Ok out /\
         ((forall t, In t out <-> In t keys) <-> forall j, Z.of_nat j < required -> Z.of_nat ((g + j) mod Z.to_nat total) <= required)) /\
      (~ (required mod 5 = 3 \/ required mod 5 = 4) -> qr_decode true q = Raise TypeError).
  Proof.
    intros Hw Hdr Hr E Hg P. destruct (groups_are w d required total draw groups Hw Hdr Hr E) as (Ht & Hreq & table & Tb & Eg). clear E. set (n := Z.to_nat total) in *. assert (0 < n)%nat as Hn0 by lia. pose proof (sum_check_ok d) as Hc. set (c := sum_check d) in *.
    assert (nth g groups [] = map (ptext sha256 required c) (group required n table g)) as Ng. { apply nth_error_nth. rewrite Eg. unfold upto. rewrite nth_error_map. fold n. rewrite (nth_error_nth' (seq 0 n) 0%nat) by (rewrite seq_length; lia). rewrite seq_nth by lia. reflexivity. }
    rewrite Ng in P. apply Permutation_map_inv in P. destruct P as (ks & -> & P).
    assert (Forall fits ks) as F. { apply (Permutation_Forall P). apply Forall_forall. intros p Hp. apply in_group in Hp; [|exact Hn0]. destruct Hp as (j & Hj & ->). assert ((g + j) mod n < n)%nat as Hm by (apply Nat.mod_upper_bound; lia). split; cbn [fst snd]; [lia|]. specialize (Tb _ Hm). pose proof (share_range _ _ _ _ (Hdr _) Tb) as R. destruct (shares_facts S256 _ _ _ _ Tb) as (_ & L & _). rewrite Forall_forall in R. apply small, R, nth_In. unfold zlen in L. lia. }
    assert (zlen ks = required) as Lk. { unfold zlen. rewrite <- (Permutation_length P). unfold group, upto. rewrite map_length, seq_length. lia. }
    assert (NoDup (map fst ks)) as N. { apply (Permutation_NoDup (Permutation_map fst P)). unfold group. rewrite map_map. cbn [fst]. unfold upto. apply map_nodup_in; [|apply seq_NoDup]. intros a b Ha Hb. apply in_seq in Ha, Hb. apply mod_inj; lia. }
    assert (ks <> []) as Ne by (intros ->; change (zlen (@nil (nat * Z))) with 0 in Lk; lia).
    exists (strip_pad (b32encode (qr_octets required c ks))). split; [apply (encode_spec sha256 Hsha required c ltac:(lia) Hc ks F Ne ltac:(lia))|]. destruct (decode_spec sha256 required c ltac:(lia) Hc ks Ne ltac:(lia)) as (D1 & D2). rewrite Lk in D1, D2. split; [|exact D2].
    intro M. destruct (D1 M) as (out & Eo & B). exists out. split; [exact Eo|]. pose proof (relabel_same sha256 Hsha required c ltac:(lia) Hc ks F N ltac:(lia)) as RS. rewrite Lk in RS.
    assert ((forall t, In t out <-> In t (map (ptext sha256 required c) ks)) <-> (forall t, In t (map (text sha256 required c) (relabelled ks)) <-> In t (map (ptext sha256 required c) ks))) as -> by (split; intros H t; rewrite <- H; [symmetry|]; apply B). rewrite RS.
    assert (Forall (fun p => Z.of_nat (fst p) <= required) ks <-> Forall (fun p => Z.of_nat (fst p) <= required) (group required n table g)) as -> by (split; apply Permutation_Forall; [now apply Permutation_sym|exact P]).
    rewrite Forall_forall. split.
    - intros H j Hj. apply (H ((g + j) mod n, nth j (table ((g + j) mod n)) 0%Z)%nat). apply in_group; [exact Hn0|]. exists j. split; [lia|reflexivity].
    - intros H p Hp. apply in_group in Hp; [|exact Hn0]. destruct Hp as (j & Hj & ->). cbn [fst]. apply H. lia.
  Qed.
  (** The text does not depend on the order in which the keys are given, even if
      several have the same index or are the same. *)
  Definition qr_good (r : Z) (c : bytes) (d : option bytes) (p : Z * bytes) : Prop :=
    exists k, d = Some k /\ ztake 2 k = [0x10; 0x01] /\ item k 3 = Ok r /\ slice 4 8 k = c /\ item k 2 = Ok (fst p) /\ snd p = zdrop 8 k.
  Lemma qr_keys_iff r c ds : forall acc st, qr_keys ds (Some (r, c), acc) = Ok st <-> exists ps, Forall2 (qr_good r c) ds ps /\ st = (Some (r, c), acc ++ ps).
  Proof.
    induction ds as [|d ds IH]; intros acc st; cbn [qr_keys].
    - split; [intro E; exists []; split; [constructor|rewrite app_nil_r; congruence]|]. intros (ps & F & ->). inversion F. now rewrite app_nil_r.
    - split.
      + unfold qr_key at 1. destruct d as [k|]; [|discriminate]. destruct (bytes_eqb_spec (ztake 2 k) [0x10; 0x01]) as [E0|]; [|discriminate]. cbn [negb fst snd]. destruct (item k 3) as [r'|] eqn:E3; [|discriminate]. cbn [bind].
        destruct (Z.eqb_spec r' r) as [->|]; [|discriminate]. destruct (bytes_eqb_spec (slice 4 8 k) c) as [Ec|]; [|discriminate]. cbn [negb orb]. destruct (item k 2) as [i|] eqn:E2; [|discriminate]. cbn [bind]. rewrite Ec, IH.
        intros (ps & F & ->). exists ((i, zdrop 8 k) :: ps). split; [constructor; [|exact F]; exists k; cbn [fst snd]; auto 10|]. now rewrite <- app_assoc.
      + intros (ps & F & ->). inversion F as [|? p ? ps' (k & -> & E0 & E3 & Ec & E2 & Ep) F']; subst. unfold qr_key at 1. rewrite E0. change (negb (bytes_eqb [16; 1] [16; 1])) with false. cbv iota. cbn [fst snd]. rewrite E3. cbn [bind].
        rewrite Z.eqb_refl, bytes_eqb_refl. cbn [negb orb]. rewrite E2. cbn [bind]. apply IH. exists ps'. split; [exact F'|]. rewrite <- app_assoc. cbn [app]. now rewrite <- Ep, <- surjective_pairing.
  Qed.
  Lemma qr_keys_all ds h ps : ds <> [] -> qr_keys ds (None, []) = Ok (h, ps) <-> exists r c, h = Some (r, c) /\ Forall2 (qr_good r c) ds ps.
  Proof.
    intro N. assert (forall r c, qr_keys ds (Some (r, c), []) = Ok (h, ps) <-> h = Some (r, c) /\ Forall2 (qr_good r c) ds ps) as K.
    { intros r c. rewrite qr_keys_iff. split; [intros (ps' & F & E); cbn [app] in E; assert (ps = ps') as -> by congruence; split; [congruence|exact F]|]. intros (-> & F). now exists ps. }
    destruct ds as [|d ds]; [congruence|]. split.
    - intro E. assert (exists r c, qr_keys (d :: ds) (Some (r, c), []) = Ok (h, ps)) as (r & c & E').
      { cbn [qr_keys] in *. unfold qr_key in *. destruct d as [k|]; [|discriminate]. destruct (bytes_eqb _ _); [|discriminate]. cbn [negb fst snd] in *. destruct (item k 3) as [r|]; [|discriminate]. cbn [bind] in *. exists r, (slice 4 8 k).
        rewrite Z.eqb_refl, bytes_eqb_refl. exact E. }
      apply K in E'. exists r, c. tauto.
    - intros (r & c & H). apply K in H. cbn [qr_keys] in *. unfold qr_key in *. destruct d as [k|]; [|discriminate]. destruct (bytes_eqb _ _); [|discriminate]. cbn [negb fst snd] in *. destruct (item k 3) as [r'|]; [|discriminate]. cbn [bind] in *.
      destruct (Z.eqb_spec r' r) as [->|]; [|discriminate]. destruct (bytes_eqb_spec (slice 4 8 k) c) as [Ec|]; [|discriminate]. exact H.
  Qed.
  Lemma each_iff {A B} (f : A -> res B) l ys : each f l = Ok ys <-> Forall2 (fun x y => f x = Ok y) l ys.
  Proof.
    unfold each. revert ys. induction l as [|x l IH]; intro ys; cbn [map FormatModel.sequence]; [split; [intro E; assert (ys = []) as -> by congruence; constructor|intro F; now inversion F]|]. split.
    - destruct (f x) as [y|] eqn:Ex; [|discriminate]. cbn [bind]. destruct (FormatModel.sequence (map f l)) as [zs|]; [|discriminate]. cbn [bind]. intro E. assert (ys = y :: zs) as -> by congruence. constructor; [exact Ex|now apply IH].
    - intro F. inversion F as [|? y ? ys' E F']; subst. rewrite E. cbn [bind]. now rewrite (proj2 (IH ys') F').
  Qed.
  Lemma Forall2_perm {A B} (R : A -> B -> Prop) l l' ys : Permutation l l' -> Forall2 R l ys -> exists ys', Permutation ys ys' /\ Forall2 R l' ys'.
  Proof.
    intro P. revert ys. induction P as [|x l l' P IH|x y l|l l' l'' P IH Q IH']; intros ys F.
    - exists []. inversion F. split; constructor.
    - inversion F as [|? z ? zs E F']; subst. destruct (IH zs F') as (zs' & P' & F''). exists (z :: zs'). split; now constructor.
    - inversion F as [|? z ? zs E F']; subst. inversion F' as [|? u ? us E' F'']; subst. exists (u :: z :: us). split; [constructor|]. repeat (constructor; [assumption|]). assumption.
    - destruct (IH ys F) as (zs & P1 & F1). destruct (IH' zs F1) as (us & P2 & F2). exists us. split; [now rewrite P1|exact F2].
  Qed.
  Theorem C52_order keys keys' q : Permutation keys keys' -> qr_encode true keys = Ok q -> qr_encode true keys' = Ok q.
  Proof.
    intros P E. destruct keys as [|k0 keys0]; [apply Permutation_nil in P; now subst|]. set (keys := k0 :: keys0) in *. unfold partial_split_qr_encode in *. cbn [negb] in *.
    destruct (each (decode_check sha256) keys) as [ds|] eqn:E1; [|discriminate]. cbn [bind] in E. apply each_iff in E1. destruct (qr_keys ds (None, [])) as [[h ps]|] eqn:E2; [|discriminate]. cbn [bind fst snd] in E.
    assert (ds <> []) as N by (intros ->; unfold keys in E1; inversion E1). destruct (Forall2_perm _ _ _ _ P E1) as (ds' & Pd & E1'). rewrite (proj2 (each_iff _ _ _) E1'). cbn [bind].
    apply (qr_keys_all ds h ps N) in E2. destruct E2 as (r & c & -> & F). destruct (Forall2_perm _ _ _ _ Pd F) as (ps' & Pp & F'). assert (ds' <> []) as N' by (intros ->; now apply Permutation_sym, Permutation_nil in Pd).
    rewrite (proj2 (qr_keys_all ds' (Some (r, c)) ps' N')) by (exists r, c; now split). cbn [bind fst snd]. now rewrite <- (sort_same ps ps' Pp).
  Qed.
  Theorem C52_partial w d required total draw groups g keys : reads w d -> all_draws_ok draw -> 1 <= required <= total ->
    partial_split true w required total draw = Ok groups -> Z.of_nat g < total -> Permutation keys (nth g groups []) ->
    required mod 5 = 3 \/ required mod 5 = 4 -> total - 1 <= required -> exists q out, qr_encode true keys = Ok q /\ qr_decode true q = Ok out /\ forall t, In t out <-> In t keys.
  Proof.
    intros Hw Hdr Hr E Hg P M L. destruct (C52_exact w d required total draw groups g keys Hw Hdr Hr E Hg P) as (q & Eq & H & _). destruct (H M) as (out & Eo & I). exists q, out. split; [exact Eq|]. split; [exact Eo|]. apply I. intros j Hj. assert ((g + j) mod Z.to_nat total < Z.to_nat total)%nat by (apply Nat.mod_upper_bound; lia). lia.
  Qed.
  (** In all other cases there is a group whose code is not read back. *)
  Theorem C52_refuted w d required total draw groups : reads w d -> all_draws_ok draw -> 1 <= required <= total -> partial_split true w required total draw = Ok groups ->
    (required mod 5 <> 3 /\ required mod 5 <> 4 -> forall g, Z.of_nat g < total -> exists q, qr_encode true (nth g groups []) = Ok q /\ qr_decode true q = Raise TypeError) /\
    (required mod 5 = 3 \/ required mod 5 = 4 -> required <= total - 2 -> exists q out t, qr_encode true (nth 2 groups []) = Ok q /\ qr_decode true q = Ok out /\ ~ (In t out <-> In t (nth 2 groups []))).
  Proof.
    intros Hw Hdr Hr E. split.
    - intros (M3 & M4) g Hg. destruct (C52_exact w d required total draw groups g _ Hw Hdr Hr E Hg (Permutation_refl _)) as (q & Eq & _ & H). exists q. split; [exact Eq|]. apply H. lia.
    - intros M L. assert (3 <= required) as L3 by (destruct (Z_lt_ge_dec required 3); [rewrite Z.mod_small in M by lia; lia|lia]).
      destruct (C52_exact w d required total draw groups 2 _ Hw Hdr Hr E ltac:(lia) (Permutation_refl _)) as (q & Eq & H & _). destruct (H M) as (out & Eo & I).
      assert (~ forall t, In t out <-> In t (nth 2 groups [])) as Nt. { intro A. apply I with (j := Z.to_nat (required - 1)) in A; [|lia]. rewrite Nat.mod_small in A by lia. lia. }
      assert (forall l l' : list bytes, (exists t, ~ (In t l <-> In t l')) \/ forall t, In t l <-> In t l') as Dec.
      { clear. intros l l'. assert (forall l l' : list bytes, (exists t, In t l /\ ~ In t l') \/ incl l l') as K.
        { clear. intros l l'. induction l as [|t l [(x & Hx & Nx)|IH]]; [right; intros t []|left; exists x; split; [now right|exact Nx]|]. destruct (in_dec (list_eq_dec Z.eq_dec) t l') as [H|H]; [right; intros x [<-|Hx]; auto|left; exists t; split; [now left|exact H]]. }
        destruct (K l l') as [(t & A & B)|A]; [left; exists t; tauto|]. destruct (K l' l) as [(t & A' & B)|A']; [left; exists t; tauto|]. right. intro t. split; auto. }
      destruct (Dec out (nth 2 groups [])) as [(t & Ht)|A]; [|contradiction]. exists q, out, t. auto.
  Qed.
  Theorem C52_python3_refuted keys q : (forall k, qr_encode false keys <> Ok k) /\ (forall out, qr_decode false q <> Ok out).
  Proof.
    split.
    - intros k H. unfold partial_split_qr_encode in H. cbn [negb] in H. destruct keys as [|key keys]; [discriminate|]. bind_inv H. destruct x; discriminate.
    - intros out H. unfold partial_split_qr_decode in H. cbn [negb] in H. destruct (b32decode _); discriminate.
  Qed.

  (** ** C84 *)
  Lemma lead_6C v : wf_bytes v -> zlen v = 38 -> exists r, encode_check sha256 ([0x10; 0x01] ++ v) = 54 :: 67 :: r /\ zlen r = 58.
  Proof.
    intros Hw Hl. pose proof (be_val_bound v Hw) as B. rewrite Hl in B. set (u := [16; 1] ++ v). assert (wf_bytes u) as Wu by (do 2 (constructor; [unfold is_byte; lia|]); exact Hw).
    assert (be_val u = 4097 * 256 ^ 38 + be_val v) as V. { unfold u. rewrite be_val_app, Hl. change (be_val [16; 1]) with 4097. reflexivity. }
    unfold encode_check. cbv zeta. set (chk := ztake 4 (sha256 (sha256 u))). assert (wf_bytes chk) as Wc by (apply Forall_ztake; apply sw). assert (zlen chk = 4) as Lc. { unfold chk. rewrite zlen_ztake by lia. destruct (Hsha (sha256 u)). lia. }
    assert (canonical 256 (u ++ chk)) as C. { split; [|unfold u; cbn; lia]. eapply Forall_impl; [|apply wf_bytes_app; split; [exact Wu|exact Wc]]. intros a Ha. unfold is_byte in Ha. lia. }
    pose proof (val_bound 256 ltac:(lia) _ (proj1 C)) as Hb. destruct (exists_digits 58 (val 256 (u ++ chk)) ltac:(lia) ltac:(lia)) as (l & Cl & El).
    pose proof (b58encode_eq 0 _ l C Cl El) as E. cbn [repeat] in E. change ([] ++ u ++ chk) with (u ++ chk) in E. change ([] ++ map chr58 l) with (map chr58 l) in E. rewrite E. clear E.
    rewrite val_256, be_val_app, Lc in El. pose proof (be_val_bound chk Wc) as Bc. rewrite Lc in Bc. change (256 ^ 4) with (2 ^ 32) in *. rewrite V in El.
    assert (4097 * 256 ^ 38 * 2 ^ 32 <= val 58 l < 4098 * 256 ^ 38 * 2 ^ 32) as Hv by (rewrite El; lia).
    assert (5 * 58 ^ 59 <= 4097 * 256 ^ 38 * 2 ^ 32 /\ 4098 * 256 ^ 38 * 2 ^ 32 <= 6 * 58 ^ 59 /\ 5 * 58 ^ 59 + 11 * 58 ^ 58 <= 4097 * 256 ^ 38 * 2 ^ 32 /\ 4098 * 256 ^ 38 * 2 ^ 32 <= 5 * 58 ^ 59 + 12 * 58 ^ 58) as (K1 & K2 & K3 & K4) by (repeat split; vm_compute; discriminate).
    destruct (canonical_lead 58 ltac:(lia) l 5 59 Cl ltac:(lia) ltac:(lia)) as (r & -> & Lr); [lia|]. rewrite val_cons, Lr in Hv by lia. destruct Cl as (Fl & _). inversion Fl as [|? ? _ Fr]; subst.
    destruct (canonical_lead 58 ltac:(lia) r 11 58) as (r' & -> & Lr'); [split; [exact Fr|]|lia|lia|lia|].
    - destruct r as [|d0 r]; [exact I|]. intros ->. rewrite zlen_cons in Lr. rewrite val_cons in Hv by lia. inversion Fr as [|? ? _ Fr']; subst. pose proof (val_bound 58 ltac:(lia) r Fr') as Br. replace (zlen r) with 58 in Br by lia. lia.
    - exists (map chr58 r'). split; [reflexivity|]. rewrite zlen_map. lia.
  Qed.
  (** What the comment of partial_split_private_key promises: [total] sets of
      [required] different keys, each a text of 60 characters with the prefix
      6C. *)
  Theorem C84_shape w d required total draw groups : reads w d -> all_draws_ok draw -> 1 <= required <= total -> partial_split true w required total draw = Ok groups ->
    zlen groups = total /\ forall group, In group groups -> zlen group = required /\ NoDup group /\ forall t, In t group -> exists r, t = 54 :: 67 :: r /\ zlen r = 58.
  Proof.
    intros Hw Hdr Hr E. destruct (groups_are w d required total draw groups Hw Hdr Hr E) as (Ht & Hreq & table & Tb & ->). clear E. set (n := Z.to_nat total) in *. assert (0 < n)%nat as Hn0 by lia. pose proof (sum_check_ok d) as Hc. set (c := sum_check d) in *.
    split; [rewrite zlen_map; unfold zlen, upto; rewrite seq_length; lia|]. intros grp Hg. apply in_map_iff in Hg. destruct Hg as (g & <- & Hg). rewrite zlen_map. split; [unfold group, upto; rewrite zlen_map; unfold zlen; rewrite seq_length; lia|].
    assert (forall p, In p (group required n table g) -> fits p) as Fits. { intros p Hp. apply in_group in Hp; [|exact Hn0]. destruct Hp as (j & Hj & ->). assert ((g + j) mod n < n)%nat as Hm by (apply Nat.mod_upper_bound; lia). split; cbn [fst snd]; [lia|]. specialize (Tb _ Hm). pose proof (share_range _ _ _ _ (Hdr _) Tb) as R. destruct (shares_facts S256 _ _ _ _ Tb) as (_ & L & _). rewrite Forall_forall in R. apply small, R, nth_In. unfold zlen in L. lia. }
    split.
    - apply map_nodup_in; [intros p q Hp Hq; apply (ptext_inj sha256 Hsha required c ltac:(lia) Hc); now apply Fits|]. apply (NoDup_map_inv fst). unfold group. rewrite map_map. cbn [fst]. unfold upto. apply map_nodup_in; [|apply seq_NoDup]. intros a b Ha Hb. apply in_seq in Ha, Hb. apply mod_inj; lia.
    - intros t Htt. apply in_map_iff in Htt. destruct Htt as (p & <- & Hp). pose proof (Fits p Hp) as (Hi & He). unfold ptext, raw. apply lead_6C; [|rewrite !zlen_app, zlen_be_bytes; destruct Hc as (_ & ->); reflexivity].
      constructor; [unfold is_byte; lia|]. constructor; [unfold is_byte; lia|]. apply wf_bytes_app. split; [apply Hc|apply wf_be_bytes].
  Qed.
End Splitting.

(** ** Keys of different sets *)
Section Mixing.
  Variable sha256 : bytes -> bytes.
  Hypothesis Hsha : forall d, wf_bytes (sha256 d) /\ zlen (sha256 d) = 32.
  Notation reads := (reads sha256).
  Notation partial_split := (partial_split_private_key sha256 S256).
  Notation partial_combine := (partial_combine_private_keys sha256 S256).
  Notation sum_check d := (ztake 4 (sha256d sha256 (be_bytes 32 d))).
  (** More keys than sets are refused. *)
  Theorem C84_refused py2 w required total draw : total < required -> partial_split py2 w required total draw = Raise ValueError.
  Proof. intro L. unfold partial_split_private_key. destruct (Z.ltb_spec total required); [reflexivity|lia]. Qed.

  (** The key of the text [t] says that [r] keys are required for a key with
      the checksum [c]. *)
  Definition marked (t : bytes) (r : Z) (c : bytes) : Prop := exists i s, decode_check sha256 t = Ok (Some ([16; 1; i; r] ++ c ++ s)) /\ zlen c = 4.
  Lemma marked_split w d required total draw groups group t : reads w d -> all_draws_ok draw -> 1 <= required <= total -> partial_split true w required total draw = Ok groups ->
    In group groups -> In t group -> marked t required (sum_check d).
  Proof.
    intros Hw Hdr Hr E Hg Ht. destruct (groups_are sha256 Hsha w d required total draw groups Hw Hdr Hr E) as (Htt & Hreq & table & Tb & ->). pose proof (sum_check_ok sha256 Hsha d) as Hc.
    apply in_map_iff in Hg. destruct Hg as (g & <- & Hg). apply in_map_iff in Ht. destruct Ht as (p & <- & Hp).
    apply in_group in Hp; [|lia]. destruct Hp as (j & Hj & ->). set (m := ((g + j) mod Z.to_nat total)%nat) in *. assert (m < Z.to_nat total)%nat as Hm by (apply Nat.mod_upper_bound; lia).
    specialize (Tb _ Hm). pose proof (share_range _ _ _ _ (Hdr _) Tb) as R. destruct (shares_facts S256 _ _ _ _ Tb) as (_ & L & _). rewrite Forall_forall in R.
    exists (Z.of_nat m), (be_bytes 32 (nth j (table m) 0)). split; [|apply Hc]. rewrite (ptext_decode sha256 Hsha required _ ltac:(lia) Hc); [reflexivity|]. split; cbn [fst snd]; [lia|]. apply small, R, nth_In. unfold zlen in L. lia.
  Qed.
  Lemma gather_key_marked t r c : marked t r c -> exists i s, forall ign parts,
    gather_key sha256 true ign (None, parts) t = Ok (Some (r, c), parts_add i s parts) /\
    gather_key sha256 true ign (Some (r, c), parts) t = Ok (Some (r, c), parts_add i s parts) /\
    (forall r' c', (r', c') <> (r, c) -> gather_key sha256 true ign (Some (r', c'), parts) t = if ign then Ok (Some (r', c'), parts) else Raise ValueError).
  Proof.
    intros (i & s & D & L). exists i, s. intros ign parts. unfold gather_key. rewrite D. cbn [bind fst snd negb].
    assert (ztake 2 ([16; 1; i; r] ++ c ++ s) = [16; 1]) as -> by reflexivity. change (bytes_eqb [16; 1] [16; 1]) with true. cbn [negb]. unfold item. cbn [app nth_error bind].
    assert (slice 4 8 (16 :: 1 :: i :: r :: c ++ s) = c) as ->. { unfold slice. assert (zdrop 4 ([16; 1; i; r] ++ c ++ s) = c ++ s) as H4 by (apply zdrop_app_exact; reflexivity). cbn [app] in H4. rewrite H4. apply ztake_app_exact. lia. }
    assert (zdrop 8 (16 :: 1 :: i :: r :: c ++ s) = s) as ->. { assert (16 :: 1 :: i :: r :: c ++ s = (16 :: 1 :: i :: r :: c) ++ s) as -> by reflexivity. apply zdrop_app_exact. rewrite !zlen_cons. lia. }
    split; [reflexivity|]. split; [rewrite Z.eqb_refl; destruct (bytes_eqb_spec c c); [reflexivity|congruence]|].
    intros r' c' N. destruct (Z.eqb_spec r' r) as [->|]; [|reflexivity]. destruct (bytes_eqb_spec c' c) as [->|]; [congruence|reflexivity].
  Qed.
  (** Keys of two sets: the first key decides which set is read.  A key of
      another set, that is with another number of required keys or another
      checksum, makes the call raise ValueError; with ignore_errors it is as
      though it were not there. *)
  Lemma gather_mixed ign r c r' c' mine ts : (r, c) <> (r', c') -> Forall (fun t => if mine t : bool then marked t r c else marked t r' c') ts ->
    forall parts, (forallb mine ts = false -> gather sha256 true false ts (Some (r, c), parts) = Raise ValueError) /\
      gather sha256 true true ts (Some (r, c), parts) = gather sha256 true ign (filter mine ts) (Some (r, c), parts).
  Proof.
    intros N F. induction F as [|t ts Ht F IH]; intro parts; [split; [discriminate|reflexivity]|]. cbn [forallb filter gather]. destruct (mine t).
    - destruct (gather_key_marked t r c Ht) as (i & s & A). cbn [gather andb]. destruct (A false parts) as (_ & -> & _). destruct (A true parts) as (_ & -> & _). destruct (A ign parts) as (_ & -> & _). cbn [bind]. apply IH.
    - destruct (gather_key_marked t r' c' Ht) as (i & s & A). destruct (A false parts) as (_ & _ & A1). destruct (A true parts) as (_ & _ & A2). rewrite (A1 r c N), (A2 r c N). cbn [bind]. split; [reflexivity|apply IH].
  Qed.
  Theorem C51_mixed w1 d1 required1 total1 draw1 groups1 w2 d2 required2 total2 draw2 groups2 first rest mine arrange :
    reads w1 d1 -> all_draws_ok draw1 -> 1 <= required1 <= total1 -> partial_split true w1 required1 total1 draw1 = Ok groups1 ->
    reads w2 d2 -> all_draws_ok draw2 -> 1 <= required2 <= total2 -> partial_split true w2 required2 total2 draw2 = Ok groups2 ->
    required1 <> required2 \/ sum_check d1 <> sum_check d2 ->
    In first (concat groups1) -> Forall (fun t => if mine t : bool then In t (concat groups1) else In t (concat groups2)) rest ->
    (forallb mine rest = false -> partial_combine true arrange (first :: rest) false = Raise ValueError) /\
    forall ignore_errors, partial_combine true arrange (first :: rest) true = partial_combine true arrange (first :: filter mine rest) ignore_errors.
  Proof.
    intros Hw1 Hd1 Hr1 E1 Hw2 Hd2 Hr2 E2 Ne Hf Hr.
    assert (forall t, In t (concat groups1) -> marked t required1 (sum_check d1)) as M1 by (intros t H; apply in_concat in H; destruct H as (g & Hg & H); exact (marked_split w1 d1 _ _ _ _ g t Hw1 Hd1 Hr1 E1 Hg H)).
    assert (forall t, In t (concat groups2) -> marked t required2 (sum_check d2)) as M2 by (intros t H; apply in_concat in H; destruct H as (g & Hg & H); exact (marked_split w2 d2 _ _ _ _ g t Hw2 Hd2 Hr2 E2 Hg H)).
    assert (Forall (fun t => if mine t then marked t required1 (sum_check d1) else marked t required2 (sum_check d2)) rest) as F. { eapply Forall_impl; [|exact Hr]. intros t. cbv beta. destruct (mine t); [intro Ht; exact (M1 t Ht)|intro Ht; exact (M2 t Ht)]. }
    assert ((required1, sum_check d1) <> (required2, sum_check d2)) as N by (intro B; injection B as B1 B2; tauto).
    destruct (gather_key_marked first _ _ (M1 _ Hf)) as (i & s & A). assert (forall ign, gather_key sha256 true ign (None, []) first = Ok (Some (required1, sum_check d1), parts_add i s [])) as G by (intro ign; apply A).
    assert (forall ign ts, gather sha256 true ign (first :: ts) (None, []) = gather sha256 true ign ts (Some (required1, sum_check d1), parts_add i s [])) as G' by (intros ign ts; cbn [gather]; rewrite G; reflexivity).
    split.
    - intro H. destruct (gather_mixed true _ _ _ _ mine rest N F (parts_add i s [])) as (B & _). pose proof (eq_trans (G' false rest) (B H)) as W. unfold partial_combine_private_keys. rewrite W. reflexivity.
    - intro ign. destruct (gather_mixed ign _ _ _ _ mine rest N F (parts_add i s [])) as (_ & B). pose proof (eq_trans (G' true rest) (eq_trans B (eq_sym (G' ign (filter mine rest))))) as W. unfold partial_combine_private_keys. rewrite W. reflexivity.
  Qed.
End Mixing.

(** ** C82 *)
Section Addresses.
  Variable sha256 : bytes -> bytes.
  Section Generic.
    Variable cv : curve_info.
    Notation G := (cv_gen cv).
    Hypothesis HG : generator_ok G.
    Hypothesis Hnp : g_order G <= c_p (g_curve G).
    Hypothesis Hgy : 0 <= g_y G < c_p (g_curve G).
    Hypothesis Hlen : cv_baselen cv = 32.
    Hypothesis Hp : c_p (g_curve G) < 256 ^ 32.
    Hypothesis Hord : cv_order cv = g_order G.
    Lemma get_address_fails key x y w d version : sec1_uncompressed key x y -> on_curve (c_p (g_curve G)) (c_a (g_curve G)) (c_b (g_curve G)) (Some (x, y)) -> reads sha256 w d ->
      get_address sha256 cv true key w version = Raise TypeError.
    Proof.
      intros (X & Y & -> & WX & WY & LX & LY & VX & VY) On (k & Ek & Wk & Lk & Vk). pose proof (gen_c G HG) as Hc. pose proof (ok_n2 G HG) as N2. unfold get_address. rewrite zlen_cons, zlen_app, LX, LY. change (1 + (32 + 32) =? 65) with true. cbn [hd Z.eqb Pos.eqb andb orb negb]. rewrite Hlen. change (1 + 32) with 33.
      assert (slice 1 33 (4 :: X ++ Y) = X) as ->. { unfold slice. change (4 :: X ++ Y) with ([4] ++ X ++ Y). rewrite (zdrop_app_exact [4]) by reflexivity. change (33 - 1) with 32. now rewrite ztake_app_exact by (symmetry; exact LX). }
      assert (zdrop 33 (4 :: X ++ Y) = Y) as ->. { change (4 :: X ++ Y) with (([4] ++ X) ++ Y). apply zdrop_app_exact. rewrite zlen_app, LX. reflexivity. }
      rewrite !string_to_number_spec by (intros ->; discriminate). cbn [bind]. rewrite VX, VY. unfold point_new. pose proof On as (Bx & By & Dv). rewrite (proj2 (contains_div (g_curve G) Hc x y) Dv). cbn [bind]. rewrite Ek. cbn [bind]. rewrite string_to_number_spec by (intros ->; discriminate). cbn [bind].
      destruct (mul_lib G HG (gen_point G) (be_val k) (gen_onc G HG Hnp Hgy)) as (Q & EQ & OnQ & _); [now left|]. rewrite EQ. cbn [bind].
      destruct (add_lib (g_curve G) Hc (PAff x y (cv_order cv)) Q On OnQ) as (R & ER & OnR & _). rewrite ER. cbn [bind]. destruct R as [|x' y' o]; cbn [point_strings]; [reflexivity|]. destruct OnR as (Rx & Ry & _).
      assert (forall z, 0 <= z < c_p (g_curve G) -> number_to_string z (cv_order cv) = Ok (be_bytes 32 z)) as T. { intros z Hz. rewrite number_to_string_spec by lia. change (orderlen (cv_order cv)) with (cv_baselen cv). rewrite Hlen. destruct (Z.ltb_spec z 0); [lia|]. destruct (Z.ltb_spec z (256 ^ 32)); [reflexivity|lia]. }
      rewrite (T x' Rx). cbn [bind]. rewrite (T y' Ry). reflexivity.
    Qed.
  End Generic.
  (** get_address never answers.  Under Python 3 it rejects every public key;
      under Python 2 a good public key and a good private key end in a
      TypeError: the version of the coin is missing in the last call. *)
  Theorem C82_never_answers py2 key w version r : get_address sha256 S256 py2 key w version <> Ok r.
  Proof.
    unfold get_address. destruct (negb (zlen key =? 65) || negb (py2 && (hd 0 key =? 4))); [discriminate|]. intro H. repeat (bind_inv H). discriminate.
  Qed.
  Theorem C82_python3 key w version : get_address sha256 S256 false key w version = Raise ValueError.
  Proof. unfold get_address. cbn [andb negb]. now rewrite orb_true_r. Qed.
  Theorem C82_python2 key x y w d version : sec1_uncompressed key x y -> secp_xy x y -> reads sha256 w d -> get_address sha256 S256 true key w version = Raise TypeError.
  Proof. exact (get_address_fails S256 Sok Snp Sgy Slen Sp eq_refl key x y w d version). Qed.
End Addresses.

(** ** Cases *)
Definition toy (s : bytes) : bytes := be_bytes 32 (be_val s).
Lemma toy_ok s : wf_bytes (toy s) /\ zlen (toy s) = 32. Proof. unfold toy. split; [apply wf_be_bytes|]. rewrite zlen_be_bytes. reflexivity. Qed.
Notation tw := (wif toy).
Lemma tw_reads d : 0 <= d < 2 ^ 20 -> reads toy (tw d) d.
Proof. intro H. apply (reads_of toy toy_ok). assert (2 ^ 20 < 256 ^ 32) by reflexivity. lia. Qed.
Lemma toy_draw k : 1 <= k < 2 ^ 20 -> randrange secp_n (drawing k) = Ok k.
Proof. intro H. apply drawing_draws. assert (2 ^ 20 < secp_n) by reflexivity. lia. Qed.
(** The key 100 in three shares, two of them drawn. *)
Example C50_applies : split_private_key toy S256 true (tw 100) 3 (fun i => drawing (if (i =? 0)%nat then 7 else 200)) = Ok [tw 7; tw 200; tw (secp_n - 107)] /\
  combine_private_keys toy S256 [tw 200; tw (secp_n - 107); tw 7] = Ok (tw 100).
Proof.
  assert (draws_ok (fun i => drawing (if (i =? 0)%nat then 7 else 200))) as Hd by (intro i; apply drawing_ok).
  assert (split_private_key toy S256 true (tw 100) 3 (fun i => drawing (if (i =? 0)%nat then 7 else 200)) = Ok [tw 7; tw 200; tw (secp_n - 107)]) as E.
  { apply (split_is toy (tw 100) 100); [now apply tw_reads|exact Hd|]. exists [7; 200; secp_n - 107]. split; [|reflexivity]. exists [7; 200]. split; [|reflexivity]. apply each_ok. constructor; [now apply toy_draw|]. constructor; [now apply toy_draw|constructor]. }
  split; [exact E|]. apply (C50_partial toy toy_ok 100 3 _ _ [tw 200; tw (secp_n - 107); tw 7]) in E; [exact E|split; [discriminate|reflexivity]|exact Hd|]. apply Permutation_sym. exact (Permutation_cons_append [tw 200; tw (secp_n - 107)] (tw 7)).
Qed.
(** The key 1000 three of four; the shares of the split [i] are 10 i + 11,
    10 i + 12 and the rest. *)
Definition dealing (i j : nat) : nat -> Z -> bytes := drawing (10 * Z.of_nat i + Z.of_nat j + 11).
Lemma dealing_ok : all_draws_ok dealing. Proof. intros i j. apply drawing_ok. Qed.
Lemma dealing_split i : (i < 4)%nat -> split_private_key toy S256 true (tw 1000) 3 (dealing i) = Ok [tw (10 * Z.of_nat i + 11); tw (10 * Z.of_nat i + 12); tw (977 - 20 * Z.of_nat i)].
Proof.
  intro Hi. apply (split_is toy (tw 1000) 1000); [now apply tw_reads|apply dealing_ok|]. exists [10 * Z.of_nat i + 11; 10 * Z.of_nat i + 12; 977 - 20 * Z.of_nat i]. split; [|reflexivity]. exists [10 * Z.of_nat i + 11; 10 * Z.of_nat i + 12]. split.
  - apply each_ok. constructor; [unfold dealing; replace (10 * Z.of_nat i + Z.of_nat 0 + 11) with (10 * Z.of_nat i + 11) by lia; apply toy_draw; lia|]. constructor; [|constructor]. unfold dealing. replace (10 * Z.of_nat i + Z.of_nat 1 + 11) with (10 * Z.of_nat i + 12) by lia. apply toy_draw. lia.
  - cbn [app zsum fold_right]. do 3 f_equal. symmetry. change (cv_order S256) with secp_n. assert (1000 < secp_n) by reflexivity. rewrite Z.mod_small by lia. lia.
Qed.
Lemma dealing_groups : exists groups, partial_split_private_key toy S256 true (tw 1000) 3 4 dealing = Ok groups.
Proof.
  apply (C51_succeeds toy toy_ok (tw 1000) 1000 3 4 dealing); [now apply tw_reads|exact dealing_ok|lia|]. split; [lia|]. split; [lia|]. intros i Hi. eexists. apply dealing_split. lia.
Qed.
Example C51_applies : exists groups, partial_split_private_key toy S256 true (tw 1000) 3 4 dealing = Ok groups /\
  partial_combine_private_keys toy S256 true (fun l => l) (nth 3 groups [] ++ nth 0 groups [] ++ nth 1 groups []) false = Ok (Some (tw 1000)) /\
  partial_combine_private_keys toy S256 true (fun l => l) (nth 3 groups [] ++ nth 1 groups []) false = Ok None.
Proof.
  destruct dealing_groups as (groups & E). exists groups. split; [exact E|]. pose proof (tw_reads 1000 ltac:(lia)) as Hw. split.
  - apply (C51_partial toy toy_ok (tw 1000) 1000 3 4 dealing groups [3; 0; 1]%nat); [exact Hw|reflexivity|exact dealing_ok|lia|exact E|repeat constructor| |intro; apply Permutation_refl| | |discriminate|right; lia].
    + intro t. rewrite !in_app_iff. cbn [In]. split; [intros [H|[H|H]]; eexists; (split; [|exact H]); auto|intros (g & [<-|[<-|[<-|[]]]] & H); auto].
    + intros i ws Hi Es. rewrite dealing_split in Es by lia. match type of Es with Ok ?l = _ => assert (ws = l) as -> by congruence end.
      assert (forall a b, 0 <= a < 2 ^ 20 -> 0 <= b < 2 ^ 20 -> tw a = tw b -> a = b) as Inj. { intros a b Ha Hb. assert (2 ^ 20 < 256 ^ 32) by reflexivity. apply (wif_inj toy toy_ok); lia. }
      constructor; [intros [B|[B|[]]]; apply Inj in B; lia|]. constructor; [intros [B|[]]; apply Inj in B; lia|]. constructor; [intros []|constructor].
    + repeat constructor; cbn; lia.
  - apply (C51_fewer toy toy_ok (tw 1000) 1000 3 4 dealing groups [3; 1]%nat); [exact Hw|reflexivity|exact dealing_ok|lia|exact E|repeat constructor| |intro; apply Permutation_refl|reflexivity].
    intro t. rewrite !in_app_iff. cbn [In]. split; [intros [H|H]; eexists; (split; [|exact H]); auto|intros (g & [<-|[<-|[]]] & H); auto].
Qed.
Example C51_mixed_applies : exists groups1 groups2, partial_split_private_key toy S256 true (tw 1000) 3 4 dealing = Ok groups1 /\
  partial_split_private_key toy S256 true (tw 1000) 1 1 dealing = Ok groups2 /\
  exists k1 k2, In k1 (concat groups1) /\ In k2 (concat groups2) /\
  partial_combine_private_keys toy S256 true (fun l => l) [k1; k2] false = Raise ValueError /\
  partial_combine_private_keys toy S256 true (fun l => l) [k1; k2] true = partial_combine_private_keys toy S256 true (fun l => l) [k1] false.
Proof.
  destruct dealing_groups as (groups1 & E1). pose proof (tw_reads 1000 ltac:(lia)) as Hw.
  assert (exists groups2, partial_split_private_key toy S256 true (tw 1000) 1 1 dealing = Ok groups2) as (groups2 & E2).
  { apply (C51_succeeds toy toy_ok (tw 1000) 1000 1 1 dealing); [exact Hw|exact dealing_ok|lia|]. split; [lia|]. split; [lia|]. intros i Hi. eexists. apply (split_is toy (tw 1000) 1000); [exact Hw|apply dealing_ok|]. eexists. split; [|reflexivity]. exists []. split; reflexivity. }
  exists groups1, groups2. split; [exact E1|]. split; [exact E2|].
  assert (forall required total groups, 1 <= required <= total -> partial_split_private_key toy S256 true (tw 1000) required total dealing = Ok groups -> exists k, In k (concat groups)) as Some_key.
  { intros r n gs Hr E. destruct (C84_shape toy toy_ok (tw 1000) 1000 r n dealing gs Hw dealing_ok Hr E) as (L & S). destruct gs as [|g gs]; [unfold zlen in L; cbn in L; lia|]. destruct (S g ltac:(now left)) as (Lg & _). destruct g as [|k g]; [unfold zlen in Lg; cbn in Lg; lia|]. exists k. now left. }
  destruct (Some_key 3 4 _ ltac:(lia) E1) as (k1 & H1). destruct (Some_key 1 1 _ ltac:(lia) E2) as (k2 & H2). exists k1, k2. split; [exact H1|]. split; [exact H2|].
  assert (3 <> 1) as Ne by discriminate. assert (Forall (fun t => if (fun _ : bytes => false) t then In t (concat groups1) else In t (concat groups2)) [k2]) as F by (constructor; [exact H2|constructor]).
  pose proof (C51_mixed toy toy_ok (tw 1000) 1000 3 4 dealing groups1 (tw 1000) 1000 1 1 dealing groups2 k1 [k2] (fun _ => false) (fun l => l) Hw dealing_ok ltac:(lia) E1 Hw dealing_ok ltac:(lia) E2 (or_introl Ne) H1 F) as M.
  destruct M as (A & B). split; [exact (A eq_refl)|exact (B false)].
Qed.
Example C52_applies : exists groups q out, partial_split_private_key toy S256 true (tw 1000) 3 4 dealing = Ok groups /\
  partial_split_qr_encode toy true (nth 2 groups []) = Ok q /\ partial_split_qr_decode toy true q = Ok out /\ forall t, In t out <-> In t (nth 2 groups []).
Proof.
  destruct dealing_groups as (groups & E). pose proof (tw_reads 1000 ltac:(lia)) as Hw.
  pose proof (C52_partial toy toy_ok (tw 1000) 1000 3 4 dealing groups 2 (nth 2 groups []) Hw dealing_ok ltac:(lia) E ltac:(lia) (Permutation_refl _) (or_introl eq_refl) ltac:(lia)) as H.
  destruct H as (q & out & H1 & H2 & H3). exists groups, q, out. split; [exact E|]. split; [exact H1|]. split; [exact H2|exact H3].
Qed.
Example C82_applies : exists key x y, sec1_uncompressed key x y /\ secp_xy x y /\ reads toy (tw 5) 5.
Proof.
  exists (4 :: be_bytes 32 (g_x generator_secp256k1) ++ be_bytes 32 (g_y generator_secp256k1)), (g_x generator_secp256k1), (g_y generator_secp256k1). split; [|split; [exact (gp_on generator_secp256k1 Sok Snp Sgy)|now apply tw_reads]].
  exists (be_bytes 32 (g_x generator_secp256k1)), (be_bytes 32 (g_y generator_secp256k1)). split; [reflexivity|]. split; [apply wf_be_bytes|]. split; [apply wf_be_bytes|]. rewrite !zlen_be_bytes. split; [reflexivity|]. split; [reflexivity|]. split; apply be_val_be_bytes_small; split; [discriminate|reflexivity|discriminate|reflexivity].
Qed.

(** ** Assumptions *)

Print Assumptions C50_split_combine.
Print Assumptions C50_exact.
Print Assumptions C50_partial.
Print Assumptions C50_refuted.
Print Assumptions C50_python3_refuted.
Print Assumptions C50_order.
Print Assumptions C50_sum.
Print Assumptions C50_public.
Print Assumptions C83_missing_share.
Print Assumptions C51_exact.
Print Assumptions C51_fewer.
Print Assumptions C51_partial.
Print Assumptions C51_refuted.
Print Assumptions C51_python3_refuted.
Print Assumptions C51_succeeds.
Print Assumptions C51_equal_shares_refuted.
Print Assumptions C52_exact.
Print Assumptions C52_order.
Print Assumptions C52_partial.
Print Assumptions C52_refuted.
Print Assumptions C52_python3_refuted.
Print Assumptions C84_shape.
Print Assumptions C84_refused.
Print Assumptions C51_mixed.
Print Assumptions C82_never_answers.
Print Assumptions C82_python3.
Print Assumptions C82_python2.
