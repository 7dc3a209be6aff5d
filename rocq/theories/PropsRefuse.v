(** C152: how malformed keys and signatures are refused. *)
From Coq Require Import String ZArith Znumtheory List Lia Bool.
From Verif Require Import PyBase PyVal UtilModel Base58Proofs DerModel DerProofs DerSpec DerAccept NtModel EcModel EcSpec EcProofs EcOrder EcLib KeyModel KeyProofs KeyDer KeyCases PropsDer PropsEc PropsKey PropsRead.
Import ListNotations.
Open Scope list_scope.
Open Scope Z_scope.

(** What a caller has to catch: [only l r] says that [r] is a value or one of
    the exceptions of [l]. *)
Definition only {A} (l : list exn) (r : res A) : Prop := match r with Ok _ => True | Raise e => In e l end.
Definition der_errors : list exn := [UnexpectedDER; IndexError; ValueError; AssertionError].

Lemma only_bind {A B} l (m : res A) (f : A -> res B) : only l m -> (forall a, m = Ok a -> only l (f a)) -> only l (bind m f).
Proof. destruct m as [a|e]; cbn; [intros _ H; now apply H|trivial]. Qed.
Lemma only_incl {A} l l' (r : res A) : incl l l' -> only l r -> only l' r.
Proof. intros H. destruct r; cbn; [trivial|apply H]. Qed.
Ltac this := unfold only, der_errors; cbn [In read_length expect remove_constructed no_junk bind bytes_int]; tauto.

Lemma only_length s : only der_errors (read_length s).
Proof.
  destruct s as [|x s]; [this|]. unfold read_length. destruct (_ =? 0); [exact Logic.I|]. destruct (_ <? _); [this|]. destruct (ztake _ s); [this|exact Logic.I].
Qed.
Lemma only_rest s : only der_errors (body_rest s).
Proof. unfold body_rest. apply only_bind; [apply only_length|]. intros a _. exact Logic.I. Qed.
Lemma only_expect t s : only der_errors (expect t s).
Proof. destruct s as [|x s]; [this|]. cbn [expect]. destruct (x =? t); [exact Logic.I|this]. Qed.
Lemma only_tagged t s : only der_errors (let! _ := expect t s in body_rest s).
Proof. apply only_bind; [apply only_expect|]. intros _ _. apply only_rest. Qed.
Lemma only_number s : forall a l, only der_errors (read_number_loop s a l).
Proof. induction s as [|d s IH]; intros a l; cbn [read_number_loop]; [this|]. destruct (_ =? 0); [exact Logic.I|apply IH]. Qed.
Lemma only_numbers f : forall s, only der_errors (read_numbers f s).
Proof.
  induction f as [|f IH]; intros [|d s]; try exact Logic.I. cbn [read_numbers]. apply only_bind; [apply only_number|]. intros a _. apply only_bind; [apply IH|]. intros b _. exact Logic.I.
Qed.
Lemma only_object s : only der_errors (remove_object s).
Proof.
  unfold remove_object. apply only_bind; [apply only_expect|]. intros _ _. apply only_bind; [apply only_rest|]. intros b _. apply only_bind; [apply only_numbers|]. intros [|n ns] _; [this|exact Logic.I].
Qed.
Lemma only_integer s : only der_errors (remove_integer s).
Proof.
  unfold remove_integer. apply only_bind; [apply only_expect|]. intros _ _. apply only_bind; [apply only_rest|]. intros [[|x c] r] _; cbn [fst snd]; [this|]. destruct (negb _); [this|]. exact Logic.I.
Qed.
Lemma only_constructed s : only der_errors (remove_constructed s).
Proof. destruct s as [|x s]; [this|]. cbn [remove_constructed]. destruct (negb _); [this|]. apply only_bind; [apply only_rest|]. intros b _. exact Logic.I. Qed.
Lemma only_junk s : only der_errors (no_junk s). Proof. destruct s; [exact Logic.I|this]. Qed.
Lemma find_curve_fails oid e : find_curve oid = Raise e <-> e = UnknownCurveError /\ ~ In oid (map cv_oid curves).
Proof.
  unfold find_curve. generalize curves as cs. induction cs as [|c cs IH]; cbn [find_in map In]; [split; [intro H; split; [congruence|tauto]|intros (-> & _); reflexivity]|].
  destruct (bytes_eqb_spec (cv_oid c) oid) as [E|N]; [split; [discriminate|tauto]|]. rewrite IH. tauto.
Qed.
Lemma vk_string_fails cv s : In cv curves -> wf_bytes s -> only [AssertionError] (vk_from_string cv s).
Proof.
  intros I W. pose proof (baselen_pos cv I) as Bp. unfold vk_from_string at 1. destruct (Z.eqb_spec (zlen s) (2 * cv_baselen cv)) as [L|]; cbn [negb]; [|cbn; tauto].
  change (only [AssertionError] (let! x := string_to_number (ztake (cv_baselen cv) s) in let! y := string_to_number (zdrop (cv_baselen cv) s) in let! v := point_is_valid (cv_gen cv) x y in
    if negb v then Raise AssertionError else let! P := point_new (g_curve (cv_gen cv)) x y (cv_order cv) in vk_from_public_point cv P)).
  assert (vk_from_string cv s = (let! x := string_to_number (ztake (cv_baselen cv) s) in let! y := string_to_number (zdrop (cv_baselen cv) s) in let! v := point_is_valid (cv_gen cv) x y in
    if negb v then Raise AssertionError else let! P := point_new (g_curve (cv_gen cv)) x y (cv_order cv) in vk_from_public_point cv P)) as <- by (unfold vk_from_string; rewrite L, Z.eqb_refl; reflexivity).
  apply all_certified in I. revert I. intros (_ & HG & Hn & Hy & _). rewrite <- (ztake_zdrop s (cv_baselen cv)).
  rewrite (vk_string_ok cv HG Hn) by (try (now apply Forall_ztake); try (now apply Forall_zdrop); rewrite ?zlen_ztake, ?zlen_zdrop; lia).
  destruct (_ && _); [exact Logic.I|cbn; tauto].
Qed.
Lemma sk_number_fails cv d : In cv curves -> only [AssertionError; RuntimeError] (sk_from_secret_exponent cv d).
Proof.
  intro I. destruct (Z_le_gt_dec 1 d) as [L|G]; [destruct (Z_lt_le_dec d (cv_order cv)) as [U|U]|].
  - destruct (C37_signing_key cv d I) as (x & y & _ & [(_ & _ & k & E & _)|(_ & E)]); [lia| |]; rewrite E; cbn; tauto.
  - unfold sk_from_secret_exponent. destruct (Z.ltb_spec d (cv_order cv)); [lia|]. rewrite andb_false_r. cbn; tauto.
  - unfold sk_from_secret_exponent. destruct (Z.leb_spec 1 d); [lia|]. cbn; tauto.
Qed.
Lemma sk_string_fails cv s : In cv curves -> only [AssertionError; RuntimeError] (sk_from_string cv s).
Proof.
  intro I. pose proof (baselen_pos cv I) as Bp. unfold sk_from_string. destruct (Z.eqb_spec (zlen s) (cv_baselen cv)) as [L|]; cbn [negb]; [|cbn; tauto].
  rewrite string_to_number_spec by (intros ->; change (zlen []) with 0 in L; lia). cbn [bind]. now apply sk_number_fails.
Qed.

(** ** C152 *)
(** Whatever the bytes, reading a private key gives a key or one of six
    exceptions, reading a public key one of five and reading a signature one of
    four: no TypeError, KeyError or ZeroDivisionError. *)
Theorem C152_private s : only [UnexpectedDER; IndexError; ValueError; AssertionError; UnknownCurveError; RuntimeError] (sk_from_der s).
Proof.
  set (l := [UnexpectedDER; IndexError; ValueError; AssertionError; UnknownCurveError; RuntimeError]). assert (incl der_errors l) as D by (intros e; unfold l, der_errors; cbn [In]; tauto).
  assert (incl [AssertionError; RuntimeError] l) as D' by (intros e; unfold l; cbn [In]; tauto).
  unfold sk_from_der. apply only_bind; [exact (only_incl _ _ _ D (only_tagged 48 s))|]. intros s0 _. apply only_bind; [exact (only_incl _ _ _ D (only_junk _))|]. intros _ _.
  apply only_bind; [exact (only_incl _ _ _ D (only_integer _))|]. intros one _. destruct (negb _); [unfold l; cbn [only In]; tauto|].
  apply only_bind; [exact (only_incl _ _ _ D (only_tagged 4 _))|]. intros priv _. apply only_bind; [exact (only_incl _ _ _ D (only_constructed _))|]. intros con _. destruct (negb _); [unfold l; cbn [only In]; tauto|].
  apply only_bind; [exact (only_incl _ _ _ D (only_object _))|]. intros cu _. apply only_bind; [exact (only_incl _ _ _ D (only_junk _))|]. intros _ _.
  apply only_bind; [destruct (find_curve (fst cu)) as [|e] eqn:F; [exact Logic.I|]; apply find_curve_fails in F; destruct F as (-> & _); unfold l; cbn [only In]; tauto|]. intros cv F. apply find_curve_iff in F.
  exact (only_incl _ _ _ D' (sk_string_fails cv _ (proj1 F))).
Qed.
Theorem C152_public s : wf_bytes s -> only [UnexpectedDER; IndexError; ValueError; AssertionError; UnknownCurveError] (vk_from_der s).
Proof.
  intro W. set (l := [UnexpectedDER; IndexError; ValueError; AssertionError; UnknownCurveError]). assert (incl der_errors l) as D by (intros e; unfold l, der_errors; cbn [In]; tauto).
  assert (incl [AssertionError] l) as D' by (intros e; unfold l; cbn [In]; tauto).
  unfold vk_from_der. apply only_bind; [exact (only_incl _ _ _ D (only_tagged 48 s))|]. intros [body j] E1. apply (sequence_iff s body j W) in E1. destruct (value_wf _ _ _ _ W E1) as (Wb & _). cbn [fst snd]. apply only_bind; [exact (only_incl _ _ _ D (only_junk _))|]. intros _ _.
  apply only_bind; [exact (only_incl _ _ _ D (only_tagged 48 body))|]. intros [alg r1] E2. apply (sequence_iff body alg r1 Wb) in E2. destruct (value_wf _ _ _ _ Wb E2) as (_ & W1). cbn [fst snd].
  apply only_bind; [exact (only_incl _ _ _ D (only_object _))|]. intros pk _. apply only_bind; [exact (only_incl _ _ _ D (only_object _))|]. intros cu _. apply only_bind; [exact (only_incl _ _ _ D (only_junk _))|]. intros _ _.
  destruct (negb _); [unfold l; cbn [only In]; tauto|].
  apply only_bind; [destruct (find_curve (fst cu)) as [|e] eqn:F; [exact Logic.I|]; apply find_curve_fails in F; destruct F as (-> & _); unfold l; cbn [only In]; tauto|]. intros cv F. apply find_curve_iff in F.
  apply only_bind; [exact (only_incl _ _ _ D (only_tagged 3 r1))|]. intros [ps j'] E3. apply (bits_iff r1 ps j' W1) in E3. destruct (value_wf _ _ _ _ W1 E3) as (Wp & _). cbn [fst snd]. apply only_bind; [exact (only_incl _ _ _ D (only_junk _))|]. intros _ _.
  destruct ps as [|[|?|?] [|[|[?|[?|[?|?|]|]|]|?] pt]]; try (unfold l; cbn [only In]; tauto). inversion Wp as [|? ? _ Wp']; subst. inversion Wp' as [|? ? _ Wpt]; subst.
  exact (only_incl _ _ _ D' (vk_string_fails cv pt (proj1 F) Wpt)).
Qed.
Theorem C152_signature s : only [UnexpectedDER; IndexError; ValueError; AssertionError] (sigdecode_der s).
Proof.
  change (only der_errors (sigdecode_der s)). unfold sigdecode_der. apply only_bind; [exact (only_tagged 48 s)|]. intros [b [|x j]] _; cbn [fst snd]; [|this]. apply only_bind; [apply only_integer|]. intros r _. apply only_bind; [apply only_integer|].
  intros [v [|x j]] _; cbn [fst snd]; [exact Logic.I|this].
Qed.
(** Bytes that do not start with the tag of a SEQUENCE are unexpected. *)
Theorem C152_tag x s : x <> 48 -> sk_from_der (x :: s) = Raise UnexpectedDER /\ vk_from_der (x :: s) = Raise UnexpectedDER /\ sigdecode_der (x :: s) = Raise UnexpectedDER.
Proof. intro N. unfold sk_from_der, vk_from_der, sigdecode_der, remove_sequence, expect. destruct (Z.eqb_spec x 0x30); [lia|]. repeat split. Qed.
(** A file of the right form that names a curve the library does not have is
    refused as such, whatever its key. *)
Theorem C152_curve s oid : wf_bytes s -> ~ In oid (map cv_oid curves) ->
  (forall key ignored, private_key_octets oid key ignored s -> sk_from_der s = Raise UnknownCurveError) /\
  (forall point, public_key_octets oid point s -> vk_from_der s = Raise UnknownCurveError).
Proof.
  intros W N. assert (find_curve oid = Raise UnknownCurveError) as F by now apply find_curve_fails. split.
  - intros key ig (body & oc & r1 & r2 & p & cu & V1 & V2 & O & V3 & V4 & V5 & Ou). unfold sk_from_der.
    destruct (value_wf _ _ _ _ W V1) as (Wb & _). destruct (value_wf _ _ _ _ Wb V2) as (_ & W1). destruct (value_wf _ _ _ _ W1 V3) as (_ & W2). destruct (value_wf _ _ _ _ W2 V4) as (Wp & _).
    rewrite (proj2 (sequence_iff s body [] W) V1). cbn [bind fst snd no_junk]. rewrite (proj2 (integer_iff body 1 r1 Wb)) by (exists oc; repeat split; [exact V2|exact O|lia]). cbn [bind fst snd]. change (negb (1 =? 1)) with false. cbv iota.
    rewrite (proj2 (octet_iff r1 key r2 W1) V3). cbn [bind fst snd]. rewrite (proj2 (constructed0_iff r2 p ig W2) V4). cbn [bind fst snd]. change (negb (0 =? 0)) with false. cbv iota.
    rewrite (proj2 (object_iff p oid [] Wp)) by (exists cu; now split). cbn [bind fst snd no_junk]. rewrite F. reflexivity.
  - intros pt (body & alg & r1 & ic & r2 & cu & V1 & V2 & V3 & Oi & V4 & Ou & V5). unfold vk_from_der.
    destruct (value_wf _ _ _ _ W V1) as (Wb & _). destruct (value_wf _ _ _ _ Wb V2) as (Wa & W1). destruct (value_wf _ _ _ _ Wa V3) as (_ & W2).
    rewrite (proj2 (sequence_iff s body [] W) V1). cbn [bind fst snd no_junk]. rewrite (proj2 (sequence_iff body alg r1 Wb) V2). cbn [bind fst snd].
    rewrite (proj2 (object_iff alg _ r2 Wa)) by (exists ic; split; [exact V3|exact Oi]). cbn [bind fst snd]. rewrite (proj2 (object_iff r2 oid [] W2)) by (exists cu; now split). cbn [bind fst snd no_junk].
    change (negb (bytes_eqb [1; 2; 840; 10045; 2; 1] oid_ecPublicKey)) with false. cbv iota. rewrite F. reflexivity.
Qed.
(** A private key out of range or too long, and a public key that is no point
    of the curve or too short or long, fail an assertion. *)
Theorem C152_number s cv key ignored : wf_bytes s -> In cv curves -> private_key_octets (cv_oid cv) key ignored s ->
  ~ (zlen key <= cv_baselen cv /\ 1 <= be_val key < cv_order cv) -> sk_from_der s = Raise AssertionError.
Proof.
  intros W I (body & oc & r1 & r2 & p & cu & V1 & V2 & O & V3 & V4 & V5 & Ou) N. unfold sk_from_der.
  destruct (value_wf _ _ _ _ W V1) as (Wb & _). destruct (value_wf _ _ _ _ Wb V2) as (_ & W1). destruct (value_wf _ _ _ _ W1 V3) as (_ & W2). destruct (value_wf _ _ _ _ W2 V4) as (Wp & _).
  rewrite (proj2 (sequence_iff s body [] W) V1). cbn [bind fst snd no_junk]. rewrite (proj2 (integer_iff body 1 r1 Wb)) by (exists oc; repeat split; [exact V2|exact O|lia]). cbn [bind fst snd]. change (negb (1 =? 1)) with false. cbv iota.
  rewrite (proj2 (octet_iff r1 key r2 W1) V3). cbn [bind fst snd]. rewrite (proj2 (constructed0_iff r2 p ignored W2) V4). cbn [bind fst snd]. change (negb (0 =? 0)) with false. cbv iota.
  rewrite (proj2 (object_iff p (cv_oid cv) [] Wp)) by (exists cu; now split). cbn [bind fst snd no_junk]. rewrite (proj2 (find_curve_iff (cv_oid cv) cv)) by now split. cbn [bind].
  unfold sk_from_string. pose proof (baselen_pos cv I) as Bp. pose proof (zlen_nonneg key). rewrite zlen_app, zeros_len. destruct (Z.eqb_spec (Z.of_nat (Z.to_nat (cv_baselen cv - zlen key)) + zlen key) (cv_baselen cv)) as [L|]; [|reflexivity]. cbn [negb].
  rewrite string_to_number_spec by (intro Z0; apply (f_equal zlen) in Z0; rewrite zlen_app, zeros_len in Z0; change (zlen []) with 0 in Z0; lia). cbn [bind]. rewrite be_val_zeros.
  unfold sk_from_secret_exponent. destruct (Z.leb_spec 1 (be_val key)); [|reflexivity]. destruct (Z.ltb_spec (be_val key) (cv_order cv)); [|reflexivity]. exfalso. apply N. lia.
Qed.
Theorem C152_point s cv point : wf_bytes s -> In cv curves -> public_key_octets (cv_oid cv) point s ->
  ~ (exists X Y, point = X ++ Y /\ zlen X = cv_baselen cv /\ zlen Y = cv_baselen cv /\ on_cv cv (be_val X) (be_val Y) /\ be_val X < cv_order cv /\ be_val Y < cv_order cv) ->
  vk_from_der s = Raise AssertionError.
Proof.
  intros W I (body & alg & r1 & ic & r2 & cu & V1 & V2 & V3 & Oi & V4 & Ou & V5) N. unfold vk_from_der.
  destruct (value_wf _ _ _ _ W V1) as (Wb & _). destruct (value_wf _ _ _ _ Wb V2) as (Wa & W1). destruct (value_wf _ _ _ _ Wa V3) as (_ & W2). destruct (value_wf _ _ _ _ W1 V5) as (Wp & _).
  rewrite (proj2 (sequence_iff s body [] W) V1). cbn [bind fst snd no_junk]. rewrite (proj2 (sequence_iff body alg r1 Wb) V2). cbn [bind fst snd].
  rewrite (proj2 (object_iff alg _ r2 Wa)) by (exists ic; split; [exact V3|exact Oi]). cbn [bind fst snd]. rewrite (proj2 (object_iff r2 (cv_oid cv) [] W2)) by (exists cu; now split). cbn [bind fst snd no_junk].
  change (negb (bytes_eqb [1; 2; 840; 10045; 2; 1] oid_ecPublicKey)) with false. cbv iota. rewrite (proj2 (find_curve_iff (cv_oid cv) cv)) by now split. cbn [bind].
  rewrite (proj2 (bits_iff r1 _ [] W1) V5). cbn [bind fst snd no_junk]. inversion Wp as [|? ? _ Wp']; subst. inversion Wp' as [|? ? _ Wpt]; subst.
  pose proof (vk_string_fails cv point I Wpt) as H. destruct (vk_from_string cv point) as [k|e] eqn:E.
  - exfalso. apply N. apply (vk_string_iff cv point k I Wpt) in E. destruct E as (X & Y & -> & LX & LY & On & Hx & Hz & _). exists X, Y. auto 10.
  - cbn in H. destruct H as [<-|[]]. reflexivity.
Qed.
(** So a caller who catches UnexpectedDER, the exception of the reader, does
    not catch them all: the empty file, one that announces a length and does
    not give it, one with a negative number and one of an unknown curve raise
    others, and so does a signature with a negative number. *)
Theorem C152_expected_refuted :
  sk_from_der [] = Raise IndexError /\ vk_from_der [] = Raise IndexError /\ sigdecode_der [] = Raise IndexError /\
  sk_from_der [48; 128] = Raise ValueError /\ vk_from_der [48; 128] = Raise ValueError /\ sigdecode_der [48; 128] = Raise ValueError /\
  sk_from_der [48; 3; 2; 1; 128] = Raise AssertionError /\ sigdecode_der [48; 3; 2; 1; 128] = Raise AssertionError /\
  sk_from_der [48; 11; 2; 1; 1; 4; 1; 1; 160; 3; 6; 1; 42] = Raise UnknownCurveError.
Proof. repeat split; vm_compute; reflexivity. Qed.
(** The last of these files has the form of a private key, and so has one of
    secp256k1 whose key is zero. *)
Example C152_applies :
  private_key_octets [1; 2] [1] [] [48; 11; 2; 1; 1; 4; 1; 1; 160; 3; 6; 1; 42] /\ ~ In [1; 2] (map cv_oid curves) /\
  private_key_octets (cv_oid SECP256k1) [0] [] [48; 15; 2; 1; 1; 4; 1; 0; 160; 7; 6; 5; 43; 129; 4; 0; 10] /\
  sk_from_der [48; 15; 2; 1; 1; 4; 1; 0; 160; 7; 6; 5; 43; 129; 4; 0; 10] = Raise AssertionError.
Proof.
  assert (integer_octets [1] 1) as Oi by (change 1 with (be_val [1]) at 2; constructor; lia).
  assert (private_key_octets (cv_oid SECP256k1) [0] [] [48; 15; 2; 1; 1; 4; 1; 0; 160; 7; 6; 5; 43; 129; 4; 0; 10]) as P.
  { exists [2; 1; 1; 4; 1; 0; 160; 7; 6; 5; 43; 129; 4; 0; 10], [1], [4; 1; 0; 160; 7; 6; 5; 43; 129; 4; 0; 10], [160; 7; 6; 5; 43; 129; 4; 0; 10], [6; 5; 43; 129; 4; 0; 10], [43; 129; 4; 0; 10].
    split; [left; exists [15]; split; [exact (length_short 15 ltac:(lia))|reflexivity]|]. split; [left; exists [1]; split; [exact (length_short 1 ltac:(lia))|reflexivity]|]. split; [exact Oi|].
    split; [left; exists [1]; split; [exact (length_short 1 ltac:(lia))|reflexivity]|]. split; [left; exists [7]; split; [exact (length_short 7 ltac:(lia))|reflexivity]|]. split; [left; exists [5]; split; [exact (length_short 5 ltac:(lia))|reflexivity]|].
    change (cv_oid SECP256k1) with [1; 3; 132; 0; 10]. constructor; [lia|]. change (40 * 1 + 3) with 43. change [43; 129; 4; 0; 10] with ([43] ++ [129; 4] ++ [0] ++ [10] ++ []).
    constructor; [constructor; lia|]. constructor; [change 132 with ((129 - 128) * 128 ^ zlen [4] + 4); constructor; [lia|constructor; lia]|]. constructor; [constructor; lia|]. constructor; [constructor; lia|]. constructor. }
  split; [|split; [|split; [exact P|]]].
  - exists [2; 1; 1; 4; 1; 1; 160; 3; 6; 1; 42], [1], [4; 1; 1; 160; 3; 6; 1; 42], [160; 3; 6; 1; 42], [6; 1; 42], [42].
    split; [left; exists [11]; split; [exact (length_short 11 ltac:(lia))|reflexivity]|]. split; [left; exists [1]; split; [exact (length_short 1 ltac:(lia))|reflexivity]|]. split; [exact Oi|].
    split; [left; exists [1]; split; [exact (length_short 1 ltac:(lia))|reflexivity]|]. split; [left; exists [3]; split; [exact (length_short 3 ltac:(lia))|reflexivity]|]. split; [left; exists [1]; split; [exact (length_short 1 ltac:(lia))|reflexivity]|].
    constructor; [lia|]. change (40 * 1 + 2) with 42. change [42] with ([42] ++ []). constructor; [constructor; lia|constructor].
  - cbn. intros [H|[H|[H|[H|[H|[H|[]]]]]]]; discriminate H.
  - apply (C152_number _ SECP256k1 [0] []); [repeat (constructor; [unfold is_byte; lia|]); constructor|exact secp_in|exact P|]. intros (_ & H & _). change (be_val [0]) with 0 in H. lia.
Qed.

(** ** Assumptions *)

Print Assumptions C152_private.
Print Assumptions C152_public.
Print Assumptions C152_signature.
Print Assumptions C152_tag.
Print Assumptions C152_curve.
Print Assumptions C152_number.
Print Assumptions C152_point.
Print Assumptions C152_expected_refuted.
