(** C142: which key files are read. *)
From Coq Require Import String ZArith Znumtheory List Lia Bool.
From Verif Require Import PyBase PyVal UtilModel Base58Proofs DerModel DerProofs DerSpec DerAccept NtModel EcModel EcSpec EcProofs EcOrder EcLib EcParams256k1 KeyModel KeyProofs KeyDer KeyCases PropsDer PropsEc PropsKey.
Import ListNotations.
Open Scope list_scope.
Open Scope Z_scope.

(** ** The files, after X.690, RFC 5480 and RFC 5915 *)
(** The content octets of an OBJECT IDENTIFIER (8.19): numbers in base 128, all
    digits but the last with bit 7 set, leading zeros allowed; the first number
    stands for the first two components. *)
Inductive arc : bytes -> Z -> Prop :=
| arc_last d : 0 <= d < 128 -> arc [d] d
| arc_more d c n : 128 <= d < 256 -> arc c n -> arc (d :: c) ((d - 128) * 128 ^ zlen c + n).
Inductive arcs : bytes -> list Z -> Prop :=
| arcs_none : arcs [] []
| arcs_one c n r ns : arc c n -> arcs r ns -> arcs (c ++ r) (n :: ns).
Inductive oid_octets : bytes -> list Z -> Prop :=
| oid_of c a b ns : 0 <= b < 40 -> arcs c (40 * a + b :: ns) -> oid_octets c (a :: b :: ns).
(** A value with this tag and content, followed by [rest]; or the last one,
    whose content is cut short. *)
Definition value (tag : Z) (content rest s : bytes) : Prop := tlv tag content rest s \/ (rest = [] /\ cut_tlv tag content s).
(** SEQUENCE of SEQUENCE of the identifiers id-ecPublicKey and of the curve,
    and BIT STRING of the uncompressed point; no bytes left over. *)
Definition public_key_octets (oid : list Z) (point s : bytes) : Prop := exists body alg r1 id r2 cu,
  value 48 body [] s /\ value 48 alg r1 body /\ value 6 id r2 alg /\ oid_octets id [1; 2; 840; 10045; 2; 1] /\ value 6 cu [] r2 /\ oid_octets cu oid /\
  value 3 (0 :: 4 :: point) [] r1.
(** SEQUENCE of INTEGER 1, OCTET STRING of the private key, [0] with the
    identifier of the curve; whatever follows that, normally the public key. *)
Definition private_key_octets (oid : list Z) (key ignored s : bytes) : Prop := exists body one r1 r2 p cu,
  value 48 body [] s /\ value 2 one r1 body /\ integer_octets one 1 /\ value 4 key r2 r1 /\ value 160 p ignored r2 /\ value 6 cu [] p /\ oid_octets cu oid.

(** ** The readers *)
Lemma arc_pos c n : arc c n -> 0 <= n < 128 ^ zlen c.
Proof.
  induction 1 as [d B|d c n B A IH]; [exact B|]. rewrite zlen_cons, Z.pow_add_r by (pose proof (zlen_nonneg c); lia). nia.
Qed.
Lemma read_number_iff s acc l v k : wf_bytes s -> 0 <= acc ->
  read_number_loop s acc l = Ok (v, k) <-> exists c rest n, s = c ++ rest /\ zlen c = k - l /\ arc c n /\ v = acc * 128 ^ zlen c + n.
Proof.
  revert acc l. induction s as [|d r IH]; intros acc l W A; cbn [read_number_loop].
  - split; [discriminate|]. intros (c & rest & n & E & _ & H & _). symmetry in E. apply app_eq_nil in E. destruct E as (-> & _). inversion H.
  - inversion W as [|? ? B Wr]; subst. destruct (byte_top d B) as (T1 & T2). unfold is_byte in B. rewrite T1, T2, Z.shiftl_mul_pow2 by lia. change (2 ^ 7) with 128. destruct (Z.ltb_spec d 128) as [Q|Q].
    + change (0 =? 0) with true. cbv iota. split.
      * intro E. assert (v = acc * 128 + d /\ k = l + 1) as (-> & ->) by (split; congruence). exists [d], r, d. split; [reflexivity|]. split; [change (zlen [d]) with 1; lia|]. split; [now constructor|]. change (zlen [d]) with 1. lia.
      * intros (c & rest & n & E & L & H & ->). inversion H as [d' B' E1 E2|d' c' n' B' A' E1 E2]; subst; cbn [app] in E; [|assert (d' = d) by congruence; lia]. assert (n = d) by congruence. subst n. change (zlen [d]) with 1 in *. f_equal. f_equal; lia.
    + change (128 =? 0) with false. cbv iota. rewrite IH by (try assumption; lia). split.
      * intros (c & rest & n & -> & L & H & ->). exists (d :: c), rest, ((d - 128) * 128 ^ zlen c + n). split; [reflexivity|]. rewrite zlen_cons. split; [lia|]. split; [constructor; [lia|exact H]|]. pose proof (zlen_nonneg c). rewrite (Z.pow_add_r 128 1) by lia. ring.
      * intros (c & rest & n & E & L & H & ->). inversion H as [d' B' E1 E2|d' c' n' B' A' E1 E2]; subst; cbn [app] in E; [assert (n = d) by congruence; lia|].
        assert (d' = d /\ r = c' ++ rest) as (-> & ->) by (split; congruence). exists c', rest, n'. split; [reflexivity|]. rewrite zlen_cons in *. split; [lia|]. split; [exact A'|]. pose proof (zlen_nonneg c'). rewrite (Z.pow_add_r 128 1) by lia. ring.
Qed.
Lemma arc_len c n : arc c n -> 1 <= zlen c.
Proof. destruct 1 as [|? c]; rewrite zlen_cons; [change (zlen []) with 0; lia|]. pose proof (zlen_nonneg c). lia. Qed.
Lemma read_numbers_iff fuel s ns : wf_bytes s -> (List.length s <= fuel)%nat -> read_numbers fuel s = Ok ns <-> arcs s ns.
Proof.
  revert s ns. induction fuel as [|f IH]; intros s ns W L.
  - destruct s; [|cbn in L; lia]. cbn. split; [intro E; assert (ns = []) as -> by congruence; constructor|]. intro H. inversion H as [|c n r ms A B E1 E2]; [reflexivity|]. apply app_eq_nil in E1. destruct E1 as (-> & _). inversion A.
  - destruct s as [|d s].
    + cbn. split; [intro E; assert (ns = []) as -> by congruence; constructor|]. intro H. inversion H as [|c n r ms A B E1 E2]; [reflexivity|]. apply app_eq_nil in E1. destruct E1 as (-> & _). inversion A.
    + cbn [read_numbers]. unfold read_number. pose proof (fun v k => read_number_iff (d :: s) 0 0 v k W ltac:(lia)) as K. split.
      * destruct (read_number_loop (d :: s) 0 0) as [[v k]|] eqn:E; [|discriminate]. cbn [bind fst snd]. intro H. destruct (proj1 (K v k) eq_refl) as (c & rest & n & Es & Lc & A & ->). rewrite Es in *. rewrite zdrop_app_exact in H by lia.
        destruct (read_numbers f rest) as [ms|] eqn:R; [|discriminate]. cbn [bind] in H. assert (ns = 0 * 128 ^ zlen c + n :: ms) as -> by congruence. rewrite Z.mul_0_l, Z.add_0_l. constructor; [exact A|]. apply IH; [now apply wf_app_r in W| |exact R].
        pose proof (arc_len c n A) as Pc. rewrite app_length in L. unfold zlen in Pc. lia.
      * intro H. revert W L K. remember (d :: s) as q eqn:Eq. intros W L K. inversion H as [|c n r ms A B E1 E2]; [exfalso; congruence|]. subst ns. clear H Eq. rewrite <- E1 in W, L, K. rewrite (proj2 (K n (zlen c))) by (exists c, r, n; split; [reflexivity|]; split; [lia|]; split; [exact A|lia]). cbn [bind fst snd].
        rewrite zdrop_app_exact by reflexivity. rewrite (proj2 (IH r ms ltac:(now apply wf_app_r in W) ltac:(pose proof (arc_len c n A) as Pc; rewrite app_length in L; unfold zlen in Pc; lia)) B). reflexivity.
Qed.
Lemma value_wf tag c rest s : wf_bytes s -> value tag c rest s -> wf_bytes c /\ wf_bytes rest.
Proof. intros W [T|(-> & T)]; [exact (tlv_wf _ _ _ _ W T)|]. split; [exact (cut_wf _ _ _ W T)|constructor]. Qed.
Lemma arcs_pos c ns : arcs c ns -> Forall (fun n => 0 <= n) ns.
Proof. induction 1 as [|c n r ns A B IH]; constructor; [|exact IH]. now apply arc_pos in A. Qed.
Lemma object_iff s oid rest : wf_bytes s -> remove_object s = Ok (oid, rest) <-> exists c, value 6 c rest s /\ oid_octets c oid.
Proof.
  intro W. pose proof (fun c r => tagged_iff 6 s c r W) as K. unfold remove_object. destruct (expect 6 s) as [u|e]; cbn [bind] in *.
  2: { split; [discriminate|]. intros (c & V & _). apply K in V. discriminate V. }
  destruct (body_rest s) as [[c r]|e]; cbn [bind fst snd].
  2: { split; [discriminate|]. intros (c & V & _). apply K in V. discriminate V. }
  pose proof (proj1 (K c r) eq_refl) as V. destruct (value_wf 6 c r s W V) as (Wc & _). pose proof (fun ns => read_numbers_iff (List.length c) c ns Wc (le_n _)) as R.
  split.
  - destruct (read_numbers (List.length c) c) as [[|n0 ns]|]; cbn [bind]; try discriminate. intro E. assert (oid = n0 / 40 :: n0 - 40 * (n0 / 40) :: ns /\ rest = r) as (-> & ->) by (split; congruence).
    exists c. split; [exact V|]. pose proof (Z.div_mod n0 40 ltac:(lia)) as D. pose proof (Z.mod_pos_bound n0 40 ltac:(lia)). constructor; [lia|]. replace (40 * (n0 / 40) + (n0 - 40 * (n0 / 40))) with n0 by lia. now apply R.
  - intros (c' & V' & O). apply K in V'. assert (c' = c /\ rest = r) as (-> & ->) by (split; congruence). inversion O as [c0 a b ns B A]; subst. rewrite (proj2 (R _) A). cbn [bind].
    assert ((40 * a + b) / 40 = a) as -> by (rewrite Z.add_comm, Z.mul_comm, Z.div_add, Z.div_small by lia; lia). f_equal. f_equal. f_equal. f_equal. lia.
Qed.
Lemma sequence_iff s c rest : wf_bytes s -> remove_sequence s = Ok (c, rest) <-> value 48 c rest s. Proof. exact (tagged_iff 48 s c rest). Qed.
Lemma octet_iff s c rest : wf_bytes s -> remove_octet_string s = Ok (c, rest) <-> value 4 c rest s. Proof. exact (tagged_iff 4 s c rest). Qed.
Lemma bits_iff s c rest : wf_bytes s -> remove_bitstring s = Ok (c, rest) <-> value 3 c rest s. Proof. exact (tagged_iff 3 s c rest). Qed.
Lemma integer_iff s v rest : wf_bytes s -> remove_integer s = Ok (v, rest) <-> exists c, value 2 c rest s /\ integer_octets c v /\ 0 <= v. Proof. exact (remove_integer_iff s v rest). Qed.
Lemma tag0 x : is_byte x -> (Z.land x 0xe0 =? 0xa0) = true -> (Z.land x 0x1f =? 0) = true -> x = 160.
Proof.
  intros B. assert (forall x, 0 <= x < 256 -> (negb ((Z.land x 0xe0 =? 0xa0) && (Z.land x 0x1f =? 0)) || (x =? 160)) = true) as K.
  { assert (forallb (fun x => negb ((Z.land x 0xe0 =? 0xa0) && (Z.land x 0x1f =? 0)) || (x =? 160)) (map Z.of_nat (seq 0 256)) = true) as F by (vm_compute; reflexivity).
    intros z Bz. rewrite forallb_forall in F. apply F. apply in_map_iff. exists (Z.to_nat z). split; [lia|]. apply in_seq. lia. }
  intros H1 H2. specialize (K x B). rewrite H1, H2 in K. cbn in K. lia.
Qed.
Lemma constructed0_iff s c rest : wf_bytes s -> remove_constructed s = Ok (0, c, rest) <-> value 160 c rest s.
Proof.
  intro W. unfold remove_constructed. destruct s as [|x s].
  - split; [discriminate|]. intros [T|(_ & T)]; [now apply tlv_not_nil in T|now apply cut_not_nil in T].
  - inversion W as [|? ? B Ws]; subst. split.
    + destruct (Z.land x 224 =? 160) eqn:E; cbn [negb]; [|discriminate]. intro H. destruct (body_rest (x :: s)) as [[c' r]|] eqn:R; [|discriminate]. cbn [bind fst snd] in H.
      assert (Z.land x 31 = 0 /\ c' = c /\ r = rest) as (T & -> & ->) by (repeat split; congruence). assert (x = 160) as -> by (apply tag0; [exact B|exact E|now apply Z.eqb_eq]). now apply (body_rest_iff 160 s c rest Ws).
    + intro V. assert (x = 160) as -> by (destruct V as [T|(_ & T)]; [apply tlv_hd in T|apply cut_hd in T]; destruct T as (s' & E); congruence). change (negb (Z.land 160 224 =? 160)) with false. cbv iota.
      rewrite (proj2 (body_rest_iff 160 s c rest Ws) V). reflexivity.
Qed.
Lemma find_curve_iff oid cv : find_curve oid = Ok cv <-> In cv curves /\ cv_oid cv = oid.
Proof.
  split.
  - unfold find_curve. generalize curves as cs. induction cs as [|c cs IH]; cbn [find_in In]; [discriminate|]. destruct (bytes_eqb (cv_oid c) oid) eqn:E.
    + intro H. assert (c = cv) as -> by congruence. destruct (bytes_eqb_spec (cv_oid cv) oid); [auto|discriminate].
    + intro H. apply IH in H. tauto.
  - intros (I & <-). now apply curves_oid.
Qed.
Lemma no_junk_iff r : no_junk r = Ok tt <-> r = []. Proof. destruct r; split; (reflexivity || discriminate). Qed.
Lemma baselen_pos cv : In cv curves -> 0 < cv_baselen cv.
Proof. intro I. repeat (destruct I as [<-|I]; [vm_compute; reflexivity|]). destruct I. Qed.
Lemma zeros_len k : zlen (repeat 0 k) = Z.of_nat k. Proof. unfold zlen. now rewrite repeat_length. Qed.
Lemma be_val_zeros k s : be_val (repeat 0 k ++ s) = be_val s.
Proof. induction k as [|k IH]; [reflexivity|]. cbn [repeat app]. rewrite be_val_cons, IH. lia. Qed.

Lemma sk_from_der_iff s k : wf_bytes s -> sk_from_der s = Ok k <-> exists cv key ignored, In cv curves /\ private_key_octets (cv_oid cv) key ignored s /\ wf_bytes key /\ zlen key <= cv_baselen cv /\ sk_from_secret_exponent cv (be_val key) = Ok k.
Proof.
  intro W. split.
  - unfold sk_from_der. intro H. 
    destruct (remove_sequence s) as [[body j]|] eqn:E1; [|discriminate]. cbn [bind fst snd] in H. destruct (no_junk j) as [[]|] eqn:J; [|discriminate]. apply no_junk_iff in J. subst j. cbn [bind] in H. apply sequence_iff in E1; [|exact W]. destruct (value_wf _ _ _ _ W E1) as (Wb & _).
    destruct (remove_integer body) as [[one r1]|] eqn:E2; [|discriminate]. cbn [bind fst snd] in H. apply integer_iff in E2; [|exact Wb]. destruct E2 as (oc & E2 & Eo & _). destruct (value_wf _ _ _ _ Wb E2) as (_ & W1).
    destruct (Z.eqb_spec one 1) as [->|]; [|discriminate]. cbn [negb] in H.
    destruct (remove_octet_string r1) as [[key r2]|] eqn:E3; [|discriminate]. cbn [bind fst snd] in H. apply octet_iff in E3; [|exact W1]. destruct (value_wf _ _ _ _ W1 E3) as (Wk & W2).
    destruct (remove_constructed r2) as [[[t p] ig]|] eqn:E4; [|discriminate]. cbn [bind fst snd] in H. destruct (Z.eqb_spec t 0) as [->|]; [|discriminate]. cbn [negb] in H. apply constructed0_iff in E4; [|exact W2]. destruct (value_wf _ _ _ _ W2 E4) as (Wp & _).
    destruct (remove_object p) as [[oid j]|] eqn:E5; [|discriminate]. cbn [bind fst snd] in H. destruct (no_junk j) as [[]|] eqn:J; [|discriminate]. apply no_junk_iff in J. subst j. cbn [bind] in H. apply object_iff in E5; [|exact Wp]. destruct E5 as (cu & E5 & Eu).
    destruct (find_curve oid) as [cv|] eqn:E6; [|discriminate]. cbn [bind] in H. apply find_curve_iff in E6. destruct E6 as (I & <-).
    unfold sk_from_string in H. destruct (Z.eqb_spec (zlen (repeat 0 (Z.to_nat (cv_baselen cv - zlen key)) ++ key)) (cv_baselen cv)) as [L|]; [|discriminate]. cbn [negb] in H. 
    rewrite zlen_app, zeros_len in L. exists cv, key, ig. split; [exact I|]. split; [exists body, oc, r1, r2, p, cu; auto 10|]. split; [exact Wk|]. split; [lia|].
    pose proof (baselen_pos cv I) as Bp. rewrite string_to_number_spec in H by (intro Z0; apply (f_equal zlen) in Z0; rewrite zlen_app, zeros_len in Z0; change (zlen []) with 0 in Z0; lia). cbn [bind] in H. now rewrite be_val_zeros in H.
  - intros (cv & key & ig & I & (body & oc & r1 & r2 & p & cu & V1 & V2 & O & V3 & V4 & V5 & Ou) & Wk & L & K). unfold sk_from_der.
    destruct (value_wf _ _ _ _ W V1) as (Wb & _). destruct (value_wf _ _ _ _ Wb V2) as (_ & W1). destruct (value_wf _ _ _ _ W1 V3) as (_ & W2). destruct (value_wf _ _ _ _ W2 V4) as (Wp & _).
    rewrite (proj2 (sequence_iff s body [] W) V1). cbn [bind fst snd no_junk]. rewrite (proj2 (integer_iff body 1 r1 Wb)) by (exists oc; repeat split; [exact V2|exact O|lia]). cbn [bind fst snd]. change (negb (1 =? 1)) with false. cbv iota.
    rewrite (proj2 (octet_iff r1 key r2 W1) V3). cbn [bind fst snd]. rewrite (proj2 (constructed0_iff r2 p ig W2) V4). cbn [bind fst snd]. change (negb (0 =? 0)) with false. cbv iota.
    rewrite (proj2 (object_iff p (cv_oid cv) [] Wp)) by (exists cu; now split). cbn [bind fst snd no_junk]. rewrite (proj2 (find_curve_iff (cv_oid cv) cv)) by now split. cbn [bind].
    unfold sk_from_string. pose proof (baselen_pos cv I) as Bp. pose proof (zlen_nonneg key). assert (zlen (repeat 0 (Z.to_nat (cv_baselen cv - zlen key)) ++ key) = cv_baselen cv) as Lz by (rewrite zlen_app, zeros_len; lia). rewrite Lz, Z.eqb_refl. cbn [negb].
    rewrite string_to_number_spec by (intro Z0; rewrite Z0 in Lz; change (zlen []) with 0 in Lz; lia). cbn [bind]. now rewrite be_val_zeros.
Qed.
Definition on_cv (cv : curve_info) (x y : Z) : Prop := on_curve (c_p (g_curve (cv_gen cv))) (c_a (g_curve (cv_gen cv))) (c_b (g_curve (cv_gen cv))) (Some (x, y)).
Lemma vk_string_iff cv s k : In cv curves -> wf_bytes s -> vk_from_string cv s = Ok k <->
  exists X Y, s = X ++ Y /\ zlen X = cv_baselen cv /\ zlen Y = cv_baselen cv /\ on_cv cv (be_val X) (be_val Y) /\ be_val X < cv_order cv /\ be_val Y < cv_order cv /\ k = mk_vkey cv (PAff (be_val X) (be_val Y) (cv_order cv)).
Proof.
  intros I W. pose proof (baselen_pos cv I) as Bp. apply all_certified in I. revert I. intros (_ & HG & Hn & Hy & _). pose proof (gen_c (cv_gen cv) HG) as Hc. split.
  - intro E. assert (zlen s = 2 * cv_baselen cv) as L. { unfold vk_from_string in E. destruct (Z.eqb_spec (zlen s) (2 * cv_baselen cv)) as [?Hq|?Hq]; [assumption|discriminate]. }
    rewrite <- (ztake_zdrop s (cv_baselen cv)) in E. exists (ztake (cv_baselen cv) s), (zdrop (cv_baselen cv) s). rewrite ztake_zdrop. split; [reflexivity|]. set (X := ztake (cv_baselen cv) s) in *. set (Y := zdrop (cv_baselen cv) s) in *.
    assert (zlen X = cv_baselen cv) as LX by (unfold X; rewrite zlen_ztake; lia). assert (zlen Y = cv_baselen cv) as LY by (unfold Y; rewrite zlen_zdrop; lia).
    assert (wf_bytes X) as WX by now apply Forall_ztake. assert (wf_bytes Y) as WY by now apply Forall_zdrop. rewrite (vk_string_ok cv HG Hn) in E by assumption. unfold cv_order.
    pose proof (be_val_bound X WX). pose proof (be_val_bound Y WY). destruct (Z.ltb_spec (be_val X) (g_order (cv_gen cv))); [|discriminate]. destruct (Z.ltb_spec (be_val Y) (g_order (cv_gen cv))); [|discriminate]. cbn [andb] in E.
    destruct (contains_point (g_curve (cv_gen cv)) (be_val X) (be_val Y)) eqn:C; [|discriminate].
    split; [exact LX|]. split; [exact LY|]. split; [split; [lia|]; split; [lia|]; now apply (contains_div _ Hc)|]. split; [assumption|]. split; [assumption|]. congruence.
  - intros (X & Y & -> & LX & LY & On & Hx & Hz & ->). apply Forall_app in W. destruct W as (WX & WY). rewrite (vk_string_ok cv HG Hn) by assumption. unfold cv_order in *. destruct On as (_ & _ & D). apply (contains_div _ Hc) in D. rewrite D.
    destruct (Z.ltb_spec (be_val X) (g_order (cv_gen cv))); [|lia]. destruct (Z.ltb_spec (be_val Y) (g_order (cv_gen cv))); [|lia]. reflexivity.
Qed.

(** ** C142 *)
(** A public key file is read exactly if it has this form, the two coordinates
    have the length of the order, and they are those of a point of the curve,
    below the order.  The key is that point. *)
Theorem C142_public_partial s k : wf_bytes s -> vk_from_der s = Ok k <-> exists cv X Y, In cv curves /\ public_key_octets (cv_oid cv) (X ++ Y) s /\
  zlen X = cv_baselen cv /\ zlen Y = cv_baselen cv /\ on_cv cv (be_val X) (be_val Y) /\ be_val X < cv_order cv /\ be_val Y < cv_order cv /\
  k = mk_vkey cv (PAff (be_val X) (be_val Y) (cv_order cv)).
Proof.
  intro W. split.
  - unfold vk_from_der. intro H.
    destruct (remove_sequence s) as [[body j]|] eqn:E1; [|discriminate]. cbn [bind fst snd] in H. destruct (no_junk j) as [[]|] eqn:J; [|discriminate]. apply no_junk_iff in J. subst j. cbn [bind] in H. apply sequence_iff in E1; [|exact W]. destruct (value_wf _ _ _ _ W E1) as (Wb & _).
    destruct (remove_sequence body) as [[alg r1]|] eqn:E2; [|discriminate]. cbn [bind fst snd] in H. apply sequence_iff in E2; [|exact Wb]. destruct (value_wf _ _ _ _ Wb E2) as (Wa & W1).
    destruct (remove_object alg) as [[id r2]|] eqn:E3; [|discriminate]. cbn [bind fst snd] in H. apply object_iff in E3; [|exact Wa]. destruct E3 as (ic & E3 & Ei). destruct (value_wf _ _ _ _ Wa E3) as (_ & W2).
    destruct (remove_object r2) as [[oid j]|] eqn:E4; [|discriminate]. cbn [bind fst snd] in H. destruct (no_junk j) as [[]|] eqn:J; [|discriminate]. apply no_junk_iff in J. subst j. cbn [bind] in H. apply object_iff in E4; [|exact W2]. destruct E4 as (cu & E4 & Eu).
    destruct (bytes_eqb_spec id oid_ecPublicKey) as [->|]; [|discriminate]. cbn [negb] in H.
    destruct (find_curve oid) as [cv|] eqn:E6; [|discriminate]. cbn [bind] in H. apply find_curve_iff in E6. destruct E6 as (I & <-).
    destruct (remove_bitstring r1) as [[ps j]|] eqn:E5; [|discriminate]. cbn [bind fst snd] in H. destruct (no_junk j) as [[]|] eqn:J; [|discriminate]. apply no_junk_iff in J. subst j. cbn [bind] in H. apply bits_iff in E5; [|exact W1]. destruct (value_wf _ _ _ _ W1 E5) as (Wp & _).
    destruct ps as [|[|?|?] [|[|[?|[?|[?|?|]|]|]|?] pt]]; try discriminate. inversion Wp as [|? ? _ Wp']; subst. inversion Wp' as [|? ? _ Wpt]; subst.
    apply (vk_string_iff cv pt k I Wpt) in H. destruct H as (X & Y & -> & LX & LY & On & Hx & Hz & ->). exists cv, X, Y. split; [exact I|]. split; [exists body, alg, r1, ic, r2, cu; auto 10|]. auto 10.
  - intros (cv & X & Y & I & (body & alg & r1 & ic & r2 & cu & V1 & V2 & V3 & Oi & V4 & Ou & V5) & F). unfold vk_from_der.
    destruct (value_wf _ _ _ _ W V1) as (Wb & _). destruct (value_wf _ _ _ _ Wb V2) as (Wa & W1). destruct (value_wf _ _ _ _ Wa V3) as (_ & W2). destruct (value_wf _ _ _ _ W1 V5) as (Wp & _).
    rewrite (proj2 (sequence_iff s body [] W) V1). cbn [bind fst snd no_junk]. rewrite (proj2 (sequence_iff body alg r1 Wb) V2). cbn [bind fst snd].
    rewrite (proj2 (object_iff alg _ r2 Wa)) by (exists ic; split; [exact V3|exact Oi]). cbn [bind fst snd]. rewrite (proj2 (object_iff r2 (cv_oid cv) [] W2)) by (exists cu; now split). cbn [bind fst snd no_junk].
    change (negb (bytes_eqb [1; 2; 840; 10045; 2; 1] oid_ecPublicKey)) with false. cbv iota. rewrite (proj2 (find_curve_iff (cv_oid cv) cv)) by now split. cbn [bind].
    rewrite (proj2 (bits_iff r1 _ [] W1) V5). cbn [bind fst snd no_junk]. inversion Wp as [|? ? _ Wp']; subst. inversion Wp' as [|? ? _ Wpt]; subst. apply (vk_string_iff cv (X ++ Y) k I Wpt). exists X, Y. auto 10.
Qed.
(** A private key file is read exactly if it has this form and its key, of at
    most the length of the order, is a number from which a key is made. *)
Theorem C142_private_partial s k : wf_bytes s -> sk_from_der s = Ok k <-> exists cv key ignored, In cv curves /\ private_key_octets (cv_oid cv) key ignored s /\
  zlen key <= cv_baselen cv /\ sk_from_secret_exponent cv (be_val key) = Ok k.
Proof.
  intro W. rewrite (sk_from_der_iff s k W). split; intros (cv & key & ig & H); exists cv, key, ig; [tauto|]. destruct H as (I & P & L & K). split; [exact I|]. split; [exact P|]. split; [|tauto].
  destruct P as (body & oc & r1 & r2 & p & cu & V1 & V2 & _ & V3 & _). destruct (value_wf _ _ _ _ W V1) as (Wb & _). destruct (value_wf _ _ _ _ Wb V2) as (_ & W1). now destruct (value_wf _ _ _ _ W1 V3).
Qed.
(** The form is not that of the standards: a file may end early, and the public
    key beside the private one may be wrong or missing.  Two files of the
    private key 1 of secp256k1: one of 18 bytes with a wrong part after the
    curve, and one that announces 200 bytes and ends after 15 of them. *)
Theorem C142_strict_refuted : exists k, sk_from_secret_exponent SECP256k1 1 = Ok k /\
  sk_from_der [48; 16; 2; 1; 1; 4; 1; 1; 160; 7; 6; 5; 43; 129; 4; 0; 10; 99] = Ok k /\
  sk_from_der [48; 129; 200; 2; 1; 1; 4; 1; 1; 160; 7; 6; 5; 43; 129; 4; 0; 10] = Ok k.
Proof.
  destruct C37_applies as (k & K & _). exists k. split; [exact K|].
  assert (oid_octets [43; 129; 4; 0; 10] (cv_oid SECP256k1)) as O.
  { change (cv_oid SECP256k1) with [1; 3; 132; 0; 10]. constructor; [lia|]. change (40 * 1 + 3) with 43. change [43; 129; 4; 0; 10] with ([43] ++ [129; 4] ++ [0] ++ [10] ++ []).
    constructor; [constructor; lia|]. constructor; [change 132 with ((129 - 128) * 128 ^ zlen [4] + 4); constructor; [lia|constructor; lia]|]. constructor; [constructor; lia|]. constructor; [constructor; lia|]. constructor. }
  assert (forall ig, value 2 [1] ([4; 1; 1; 160; 7; 6; 5; 43; 129; 4; 0; 10] ++ ig) ([2; 1; 1; 4; 1; 1; 160; 7; 6; 5; 43; 129; 4; 0; 10] ++ ig)) as V2 by (intro ig; left; exists [1]; split; [exact (length_short 1 ltac:(lia))|reflexivity]).
  assert (forall ig, value 4 [1] ([160; 7; 6; 5; 43; 129; 4; 0; 10] ++ ig) ([4; 1; 1; 160; 7; 6; 5; 43; 129; 4; 0; 10] ++ ig)) as V3 by (intro ig; left; exists [1]; split; [exact (length_short 1 ltac:(lia))|reflexivity]).
  assert (forall ig, value 160 [6; 5; 43; 129; 4; 0; 10] ig ([160; 7; 6; 5; 43; 129; 4; 0; 10] ++ ig)) as V4 by (intro ig; left; exists [7]; split; [exact (length_short 7 ltac:(lia))|reflexivity]).
  assert (value 6 [43; 129; 4; 0; 10] [] [6; 5; 43; 129; 4; 0; 10]) as V5 by (left; exists [5]; split; [exact (length_short 5 ltac:(lia))|reflexivity]).
  assert (integer_octets [1] 1) as Oi by (change 1 with (be_val [1]) at 2; constructor; lia).
  assert (zlen [1] <= cv_baselen SECP256k1) as L by (rewrite Slen; discriminate).
  split; apply C142_private_partial; try (repeat (constructor; [unfold is_byte; lia|]); constructor).
  - exists SECP256k1, [1], [99]. split; [exact secp_in|]. split; [|split; [exact L|exact K]]. exists ([2; 1; 1; 4; 1; 1; 160; 7; 6; 5; 43; 129; 4; 0; 10] ++ [99]), [1], ([4; 1; 1; 160; 7; 6; 5; 43; 129; 4; 0; 10] ++ [99]), ([160; 7; 6; 5; 43; 129; 4; 0; 10] ++ [99]), [6; 5; 43; 129; 4; 0; 10], [43; 129; 4; 0; 10].
    split; [left; exists [16]; split; [exact (length_short 16 ltac:(lia))|reflexivity]|]. split; [apply V2|]. split; [exact Oi|]. split; [apply V3|]. split; [apply V4|]. split; [exact V5|exact O].
  - exists SECP256k1, [1], []. split; [exact secp_in|]. split; [|split; [exact L|exact K]]. exists ([2; 1; 1; 4; 1; 1; 160; 7; 6; 5; 43; 129; 4; 0; 10] ++ []), [1], ([4; 1; 1; 160; 7; 6; 5; 43; 129; 4; 0; 10] ++ []), ([160; 7; 6; 5; 43; 129; 4; 0; 10] ++ []), [6; 5; 43; 129; 4; 0; 10], [43; 129; 4; 0; 10].
    split; [right; split; [reflexivity|]; exists [129; 200], 200; split; [change 200 with (be_val [200]) at 2; change 129 with (128 + zlen [200]); constructor; split; [discriminate|reflexivity]|]; split; [reflexivity|reflexivity]|].
    split; [apply V2|]. split; [exact Oi|]. split; [apply V3|]. split; [apply V4|]. split; [exact V5|exact O].
Qed.
(** Nothing may follow a file. *)
Theorem C142_trailing s x junk : wf_bytes (s ++ x :: junk) -> (exists c, tlv 48 c [] s) -> sk_from_der (s ++ x :: junk) = Raise UnexpectedDER /\ vk_from_der (s ++ x :: junk) = Raise UnexpectedDER.
Proof.
  intros W (c & h & L & ->). assert (remove_sequence ((48 :: h ++ c ++ []) ++ x :: junk) = Ok (c, x :: junk)) as E.
  { apply sequence_iff; [exact W|]. left. exists h. split; [exact L|]. rewrite app_nil_r. cbn [app]. now rewrite <- app_assoc. }
  unfold sk_from_der, vk_from_der. rewrite E. split; reflexivity.
Qed.
(** Files of this form: what to_der makes of the public key of 1. *)
Example C142_applies : exists s k, wf_bytes s /\ vk_from_der s = Ok k /\ exists X Y, public_key_octets (cv_oid SECP256k1) (X ++ Y) s.
Proof.
  destruct C37_applies as (k & _ & V). destruct (C37_verifying_key_der SECP256k1 _ _ _ secp_in V) as (s & k' & _ & W & E & (Sc & _)). exists s, k'. split; [exact W|]. split; [exact E|].
  apply C142_public_partial in E; [|exact W]. destruct E as (cv & X & Y & _ & P & _ & _ & _ & _ & _ & ->). cbn [vk_curve] in Sc. rewrite (proj1 V) in Sc. subst cv. now exists X, Y.
Qed.

(** ** Assumptions *)

Print Assumptions C142_public_partial.
Print Assumptions C142_private_partial.
Print Assumptions C142_strict_refuted.
Print Assumptions C142_trailing.
