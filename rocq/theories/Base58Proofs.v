(** Proofs about Base58, Base58Check, WIF and addresses. *)
From Coq Require Import String ZArith List Lia Bool.
From Verif Require Import PyBase PyVal Base58Model.
Import ListNotations.
Open Scope string_scope.
Open Scope list_scope.
Open Scope Z_scope.

(** ** Positional numerals, most significant digit first *)

Section Base.
Variable B : Z.
Hypothesis HB : 2 <= B.

Definition val_from (a : Z) (l : list Z) : Z := fold_left (fun a d => a * B + d) l a.
Definition val (l : list Z) : Z := val_from 0 l.
Definition canonical (l : list Z) : Prop :=
  Forall (fun d => 0 <= d < B) l /\ match l with [] => True | d :: _ => d <> 0 end.

Fixpoint digits (fuel : nat) (i : Z) : list Z :=
  if i =? 0 then [] else
  match fuel with
  | O => []
  | S k => digits k (i / B) ++ [i mod B]
  end.

Lemma val_snoc l d : val (l ++ [d]) = val l * B + d.
Proof. unfold val, val_from. rewrite fold_left_app. reflexivity. Qed.
Lemma val_from_spec a l : val_from a l = a * B ^ zlen l + val l.
Proof.
  unfold val, val_from. revert a. induction l as [|d l IH] using rev_ind; intro a.
  - cbn. lia.
  - rewrite !fold_left_app. cbn [fold_left]. rewrite IH. rewrite zlen_app. change (zlen [d]) with 1.
    rewrite Z.pow_add_r by (try apply zlen_nonneg; lia). lia.
Qed.
Lemma val_cons d l : val (d :: l) = d * B ^ zlen l + val l.
Proof. unfold val at 1. unfold val_from. cbn [fold_left]. change (val_from (0 * B + d) l = d * B ^ zlen l + val l). rewrite val_from_spec. lia. Qed.
Lemma val_bound l : Forall (fun d => 0 <= d < B) l -> 0 <= val l < B ^ zlen l.
Proof.
  induction l as [|d l IH] using rev_ind; intro H.
  - cbn. lia.
  - apply Forall_app in H. destruct H as (H1 & H2). apply Forall_inv in H2. specialize (IH H1).
    rewrite val_snoc, zlen_app. change (zlen [d]) with 1. rewrite Z.pow_add_r by (try apply zlen_nonneg; lia). nia.
Qed.
Lemma canonical_pos d l : canonical (d :: l) -> 0 < val (d :: l).
Proof.
  intros (F & N). inversion F as [|? ? F1 F2]; subst. rewrite val_cons. pose proof (val_bound l F2).
  assert (0 < B ^ zlen l) by (apply Z.pow_pos_nonneg; [lia|apply zlen_nonneg]). nia.
Qed.
Lemma canonical_snoc l d : canonical (l ++ [d]) -> canonical l /\ 0 <= d < B /\ 0 < val (l ++ [d]).
Proof.
  intros H. split; [|split].
  - destruct H as (F & N). apply Forall_app in F. destruct F as (F1 & F2). split; [exact F1|]. destruct l; [exact I|exact N].
  - destruct H as (F & N). apply Forall_app in F. destruct F as (F1 & F2). now apply Forall_inv in F2.
  - destruct l as [|x l]; cbn [app] in *; now apply canonical_pos.
Qed.

Lemma digits_val l : canonical l -> forall fuel, val l < B ^ Z.of_nat fuel -> digits fuel (val l) = l.
Proof.
  induction l as [|d l IH] using rev_ind; intros H fuel Hf.
  - destruct fuel; reflexivity.
  - apply canonical_snoc in H. destruct H as (Hl & Hd & Hp). 
    destruct fuel as [|k]; [change (B ^ Z.of_nat 0) with 1 in Hf; lia|].
    cbn [digits]. destruct (Z.eqb_spec (val (l ++ [d])) 0); [lia|].
    rewrite val_snoc in *.
    assert ((val l * B + d) / B = val l) as -> by (symmetry; apply (Z.div_unique _ _ _ d); lia).
    assert ((val l * B + d) mod B = d) as -> by (symmetry; apply (Z.mod_unique _ _ (val l)); lia).
    rewrite IH; [reflexivity|assumption|].
    rewrite Nat2Z.inj_succ, Z.pow_succ_r in Hf by lia. nia.
Qed.
Lemma digits_canonical fuel : forall i, 0 <= i < B ^ Z.of_nat fuel -> canonical (digits fuel i) /\ val (digits fuel i) = i.
Proof.
  induction fuel as [|k IH]; intros i Hi.
  - change (B ^ Z.of_nat 0) with 1 in Hi. assert (i = 0) as -> by lia. cbn. split; [split; [constructor|exact I]|reflexivity].
  - cbn [digits]. destruct (Z.eqb_spec i 0) as [->|N]; [split; [split; [constructor|exact I]|reflexivity]|].
    rewrite Nat2Z.inj_succ, Z.pow_succ_r in Hi by lia.
    assert (0 <= i / B < B ^ Z.of_nat k) as Hq.
    { split; [apply Z.div_pos; lia|apply Z.div_lt_upper_bound; lia]. }
    destruct (IH _ Hq) as ((F & C) & V). pose proof (Z.mod_pos_bound i B ltac:(lia)) as Hm.
    pose proof (Z.div_mod i B ltac:(lia)) as Hdm.
    split.
    + split; [apply Forall_app; split; [assumption|repeat constructor; lia]|].
      destruct (digits k (i / B)) as [|x r] eqn:E.
      * cbn [app]. cbn in V. rewrite <- V in Hdm. lia.
      * exact C.
    + rewrite val_snoc, V. lia.
Qed.
Lemma fuel_ok i : 0 <= i -> i < B ^ Z.of_nat (Z.to_nat (Z.log2 i) + 1).
Proof.
  intro Hi. rewrite Nat2Z.inj_add, Z2Nat.id by apply Z.log2_nonneg. change (Z.of_nat 1) with 1.
  destruct (Z.eq_dec i 0) as [->|]; [cbn; lia|].
  apply Z.lt_le_trans with (2 ^ (Z.log2 i + 1)); [apply Z.log2_spec; lia|].
  apply Z.pow_le_mono_l. lia.
Qed.
Lemma canonical_inj l1 l2 : canonical l1 -> canonical l2 -> val l1 = val l2 -> l1 = l2.
Proof.
  intros C1 C2 E. pose proof (val_bound l1 (proj1 C1)) as V1.
  rewrite <- (digits_val l1 C1 _ (fuel_ok _ (proj1 V1))), <- (digits_val l2 C2 (Z.to_nat (Z.log2 (val l1)) + 1)); [now rewrite E|].
  rewrite <- E. apply fuel_ok. lia.
Qed.
(** The leading digit is determined by the magnitude. *)
Lemma canonical_lead l d k : canonical l -> 0 < d < B -> 0 <= k -> d * B ^ k <= val l < (d + 1) * B ^ k ->
  exists r, l = d :: r /\ zlen r = k.
Proof.
  intros C Hd Hk Hv. assert (0 < B ^ k) as HP by (apply Z.pow_pos_nonneg; lia).
  set (x := val l - d * B ^ k). 
  assert (exists r, Forall (fun d => 0 <= d < B) r /\ zlen r = k /\ val r = x) as (r & R1 & R2 & R3).
  { assert (0 <= x < B ^ Z.of_nat (Z.to_nat k)) as Hx by (rewrite Z2Nat.id by lia; unfold x; lia).
    destruct (digits_canonical _ _ Hx) as ((F & _) & V).
    exists (repeat 0 (Z.to_nat (k - zlen (digits (Z.to_nat k) x))) ++ digits (Z.to_nat k) x).
    assert (zlen (digits (Z.to_nat k) x) <= k) as L.
    { clear - HB Hk. assert (forall fuel i, zlen (digits fuel i) <= Z.of_nat fuel) as G.
      { induction fuel as [|f IH]; intro i; cbn [digits]; destruct (i =? 0); try (cbn; lia).
        rewrite zlen_app. change (zlen [i mod B]) with 1. specialize (IH (i / B)). lia. }
      specialize (G (Z.to_nat k) x). lia. }
    split; [|split].
    - apply Forall_app. split; [|assumption]. apply Forall_forall. intros y Hy. apply repeat_spec in Hy. lia.
    - rewrite zlen_app. unfold zlen at 1. rewrite repeat_length. lia.
    - generalize (Z.to_nat (k - zlen (digits (Z.to_nat k) x))). intro m.
      induction m as [|m IH]; [exact V|]. cbn [repeat app]. rewrite val_cons. lia. }
  exists r. split; [|assumption]. apply canonical_inj; [assumption| |].
  - split; [constructor; [lia|assumption]|lia].
  - rewrite val_cons, R2, R3. unfold x. lia.
Qed.
End Base.

Lemma val_256 l : val 256 l = be_val l.
Proof. induction l as [|d l IH]; [reflexivity|]. rewrite val_cons by lia. rewrite be_val_cons, IH. reflexivity. Qed.

(** ** The alphabet *)

Definition chr58 (d : Z) : Z := nth (Z.to_nat d) alphabet 0.

Definition sweep58 (f : Z -> bool) : bool := forallb f (map Z.of_nat (seq 0 58)).
Lemma sweep58_ok f : sweep58 f = true -> forall d, 0 <= d < 58 -> f d = true.
Proof.
  intros H d Hd. unfold sweep58 in H. rewrite forallb_forall in H. apply H.
  apply in_map_iff. exists (Z.to_nat d). split; [lia|]. apply in_seq. lia.
Qed.
Lemma slice_chr d : 0 <= d < 58 -> slice d (d + 1) alphabet = [chr58 d].
Proof.
  intro Hd. pose proof (sweep58_ok (fun d => bytes_eqb (slice d (d + 1) alphabet) [chr58 d]) ltac:(vm_compute; reflexivity) d Hd) as H.
  cbv beta in H. destruct (bytes_eqb_spec (slice d (d + 1) alphabet) [chr58 d]); [assumption|discriminate].
Qed.
Lemma index_chr d : 0 <= d < 58 -> index_of (chr58 d) alphabet 0 = Some d.
Proof.
  intro Hd. pose proof (sweep58_ok (fun d => match index_of (chr58 d) alphabet 0 with Some i => i =? d | None => false end) ltac:(vm_compute; reflexivity) d Hd) as H.
  cbv beta in H. destruct (index_of _ _ _); [|discriminate]. f_equal. lia.
Qed.
Lemma index_inv c d : index_of c alphabet 0 = Some d -> 0 <= d < 58 /\ c = chr58 d.
Proof.
  assert (forall l i, index_of c l i = Some d -> i <= d < i + zlen l /\ c = nth (Z.to_nat (d - i)) l 0) as G.
  { induction l as [|x l IH]; intros i H; cbn [index_of] in H; [discriminate|].
    destruct (Z.eqb_spec x c) as [E|N].
    - injection H as <-. split; [unfold zlen; cbn [List.length]; lia|]. rewrite Z.sub_diag. cbn. congruence.
    - apply IH in H. destruct H as (H1 & H2). split; [unfold zlen in *; cbn [List.length]; lia|].
      rewrite H2. replace (Z.to_nat (d - i)) with (S (Z.to_nat (d - (i + 1)))) by lia. reflexivity. }
  intro H. apply G in H. rewrite Z.sub_0_r in H. exact H.
Qed.
Lemma chr58_inj a b : 0 <= a < 58 -> 0 <= b < 58 -> chr58 a = chr58 b -> a = b.
Proof. intros Ha Hb E. apply index_chr in Ha. apply index_chr in Hb. rewrite E, Hb in Ha. congruence. Qed.
Lemma chr58_not1 d : 0 <= d < 58 -> d <> 0 -> chr58 d <> 49.
Proof. intros Hd N E. apply N. apply chr58_inj; [assumption|lia|exact E]. Qed.

(** ** Loops *)

Lemma encode_loop_digits fuel : forall i s, 0 <= i -> encode_loop fuel i s = map chr58 (digits 58 fuel i) ++ s.
Proof.
  induction fuel as [|k IH]; intros i s Hi; cbn [encode_loop digits]; destruct (Z.eqb_spec i 0); try reflexivity.
  rewrite slice_chr by (apply Z.mod_pos_bound; lia). rewrite IH by (apply Z.div_pos; lia).
  rewrite map_app, <- app_assoc. reflexivity.
Qed.
Lemma decode_loop_digits l : Forall (fun d => 0 <= d < 58) l -> forall a, decode_int_loop (map chr58 l) a = Ok (val_from 58 a l).
Proof.
  induction 1 as [|d l Hd Hl IH]; intro a; [reflexivity|]. cbn [map decode_int_loop]. rewrite index_chr by assumption.
  rewrite IH. reflexivity.
Qed.
Lemma decode_loop_inv v : forall a r, decode_int_loop v a = Ok r ->
  exists l, Forall (fun d => 0 <= d < 58) l /\ v = map chr58 l /\ r = val_from 58 a l.
Proof.
  induction v as [|c v IH]; intros a r H; cbn [decode_int_loop] in H.
  - inv H. exists []. repeat split. constructor.
  - destruct (index_of c alphabet 0) as [d|] eqn:E; [|discriminate]. apply index_inv in E. destruct E as (Hd & ->).
    apply IH in H. destruct H as (l & Hl & -> & ->). exists (d :: l). repeat split. now constructor.
Qed.
Lemma decode_loop_error v : forall a e, decode_int_loop v a = Raise e -> e = ValueError.
Proof.
  induction v as [|c v IH]; intros a e H; cbn [decode_int_loop] in H; [discriminate|].
  destruct (index_of c alphabet 0); [eauto|congruence].
Qed.
Lemma bytes_loop_digits fuel : forall i ret, 0 <= i -> bytes_loop fuel i ret = ret ++ rev (digits 256 fuel i).
Proof.
  induction fuel as [|k IH]; intros i ret Hi; cbn [bytes_loop digits]; destruct (Z.eqb_spec i 0) as [->|];
    try (destruct (Z.ltb_spec 0 i); [|lia]); cbn [Z.ltb Z.compare rev]; rewrite ?app_nil_r; try reflexivity.
  rewrite IH by (apply Z.div_pos; lia). rewrite rev_app_distr. cbn [rev app]. now rewrite <- app_assoc.
Qed.
Lemma acc_loop_spec rv : forall p acc, acc_loop p acc rv = acc + p * le_val rv.
Proof.
  induction rv as [|c r IH]; intros p acc; cbn [acc_loop le_val]; [lia|].
  rewrite IH, Z.shiftl_mul_pow2 by lia. change (2 ^ 8) with 256. lia.
Qed.

Lemma lstrip_spec c v : exists k, v = repeat c k ++ lstrip c v /\ zlen v - zlen (lstrip c v) = Z.of_nat k /\
  match lstrip c v with [] => True | x :: _ => x <> c end.
Proof.
  induction v as [|x v IH]; cbn [lstrip].
  - exists 0%nat. repeat split.
  - destruct (Z.eqb_spec x c) as [->|N].
    + destruct IH as (k & E & L & H). exists (S k). cbn [repeat app]. split; [now f_equal|]. split; [|exact H].
      unfold zlen in *. cbn [List.length]. lia.
    + exists 0%nat. split; [reflexivity|]. split; [apply Z.sub_diag|assumption].
Qed.
Lemma lstrip_repeat c k v : match v with [] => True | x :: _ => x <> c end -> lstrip c (repeat c k ++ v) = v.
Proof.
  intro H. induction k as [|k IH]; cbn [repeat app lstrip].
  - destruct v as [|x v]; [reflexivity|]. cbn. destruct (Z.eqb_spec x c); [contradiction|reflexivity].
  - now rewrite Z.eqb_refl.
Qed.

(** ** Base58 as a bijection *)

Lemma b58encode_eq k v l : canonical 256 v -> canonical 58 l -> val 58 l = val 256 v ->
  b58encode (repeat 0 k ++ v) = repeat 49 k ++ map chr58 l.
Proof.
  intros Cv Cl E. unfold b58encode. rewrite lstrip_repeat by (apply Cv).
  assert (Z.to_nat (zlen (repeat 0 k ++ v) - zlen v) = k) as ->.
  { unfold bytes in *. rewrite zlen_app. unfold zlen. rewrite repeat_length. lia. }
  f_equal. rewrite acc_loop_spec. rewrite Z.mul_1_l, Z.add_0_l. fold (be_val v). rewrite <- val_256, <- E.
  unfold b58encode_int. rewrite andb_false_r. pose proof (val_bound 58 ltac:(lia) l (proj1 Cl)).
  rewrite encode_loop_digits by lia. rewrite app_nil_r. rewrite digits_val; [reflexivity|lia|assumption|apply fuel_ok; lia].
Qed.
Lemma b58decode_eq k v l : canonical 256 v -> canonical 58 l -> val 58 l = val 256 v ->
  b58decode (repeat 49 k ++ map chr58 l) = Ok (repeat 0 k ++ v).
Proof.
  intros Cv Cl E. unfold b58decode.
  assert (match map chr58 l with [] => True | x :: _ => x <> 49 end) as Hh.
  { destruct l as [|d l]; cbn; [exact I|]. destruct Cl as (F & N). apply Forall_inv in F. now apply chr58_not1. }
  rewrite lstrip_repeat by exact Hh.
  assert (Z.to_nat (zlen (repeat 49 k ++ map chr58 l) - zlen (map chr58 l)) = k) as ->.
  { unfold bytes in *. rewrite zlen_app. unfold zlen. rewrite repeat_length. lia. }
  unfold b58decode_int. rewrite decode_loop_digits by apply Cl. cbn [bind]. f_equal. f_equal.
  fold (val 58 l). rewrite E. pose proof (val_bound 256 ltac:(lia) v (proj1 Cv)).
  rewrite bytes_loop_digits by lia. cbn [app]. rewrite rev_involutive. apply digits_val; [lia|assumption|apply fuel_ok; lia].
Qed.

Lemma split_bytes v : wf_bytes v -> exists k v', v = repeat 0 k ++ v' /\ canonical 256 v'.
Proof.
  intro Hw. destruct (lstrip_spec 0 v) as (k & E & _ & H). exists k, (lstrip 0 v). split; [exact E|].
  split; [|exact H]. rewrite E in Hw. apply Forall_app in Hw. destruct Hw as (_ & Hw).
  eapply Forall_impl; [|exact Hw]. intros a Ha. unfold is_byte in Ha. lia.
Qed.
Lemma exists_digits B x : 2 <= B -> 0 <= x -> exists l, canonical B l /\ val B l = x.
Proof.
  intros HB Hx. exists (digits B (Z.to_nat (Z.log2 x) + 1) x). apply digits_canonical; [assumption|].
  split; [assumption|now apply fuel_ok].
Qed.

Definition over_alphabet (s : bytes) : Prop := Forall (fun c => In c alphabet) s.

Lemma in_alphabet c : In c alphabet <-> exists d, 0 <= d < 58 /\ c = chr58 d.
Proof.
  split.
  - intro H. destruct (In_nth _ _ 0 H) as (n & L & E). exists (Z.of_nat n). unfold chr58. rewrite Nat2Z.id.
    split; [change (List.length alphabet) with 58%nat in L; lia|congruence].
  - intros (d & Hd & ->). unfold chr58. apply nth_In. change (List.length alphabet) with 58%nat. lia.
Qed.
Lemma over_alphabet_digits s : over_alphabet s -> exists l, Forall (fun d => 0 <= d < 58) l /\ s = map chr58 l.
Proof.
  induction 1 as [|c s Hc Hs IH]; [exists []; split; [constructor|reflexivity]|].
  destruct IH as (l & Hl & ->). apply in_alphabet in Hc. destruct Hc as (d & Hd & ->).
  exists (d :: l). split; [now constructor|reflexivity].
Qed.
Lemma split_text s : over_alphabet s -> exists k l, s = repeat 49 k ++ map chr58 l /\ canonical 58 l.
Proof.
  intro Hs. destruct (lstrip_spec 49 s) as (k & E & _ & H).
  assert (over_alphabet (lstrip 49 s)) as Ha.
  { unfold over_alphabet in *. rewrite E in Hs. apply Forall_app in Hs. tauto. }
  apply over_alphabet_digits in Ha. destruct Ha as (l & Hl & El). exists k, l. rewrite El in *. split; [exact E|].
  split; [exact Hl|]. destruct l as [|d l]; [exact I|]. cbn in H. intros ->. now apply H.
Qed.

Lemma b58_roundtrip v : wf_bytes v -> over_alphabet (b58encode v) /\ b58decode (b58encode v) = Ok v.
Proof.
  intro Hw. destruct (split_bytes v Hw) as (k & v' & -> & Cv).
  pose proof (val_bound 256 ltac:(lia) v' (proj1 Cv)) as Hb.
  destruct (exists_digits 58 (val 256 v') ltac:(lia) ltac:(lia)) as (l & Cl & El).
  rewrite (b58encode_eq k v' l Cv Cl El). split; [|now apply b58decode_eq].
  unfold over_alphabet. apply Forall_app. split.
  - apply Forall_forall. intros x Hx. apply repeat_spec in Hx. subst. vm_compute. tauto.
  - apply Forall_forall. intros x Hx. apply in_map_iff in Hx. destruct Hx as (d & <- & Hd). apply in_alphabet.
    exists d. split; [|reflexivity]. destruct Cl as (F & _). rewrite Forall_forall in F. auto.
Qed.
Lemma b58_inverse s : over_alphabet s -> exists v, b58decode s = Ok v /\ wf_bytes v /\ b58encode v = s.
Proof.
  intro Hs. destruct (split_text s Hs) as (k & l & -> & Cl).
  pose proof (val_bound 58 ltac:(lia) l (proj1 Cl)) as Hb.
  destruct (exists_digits 256 (val 58 l) ltac:(lia) ltac:(lia)) as (v' & Cv & Ev).
  exists (repeat 0 k ++ v'). split; [now apply b58decode_eq|]. split; [|now apply b58encode_eq].
  apply wf_bytes_app. split.
  - apply Forall_forall. intros x Hx. apply repeat_spec in Hx. subst. unfold is_byte. lia.
  - destruct Cv as (F & _). eapply Forall_impl; [|exact F]. intros a Ha. unfold is_byte. cbv beta in Ha. lia.
Qed.
Lemma b58_other s : ~ over_alphabet s -> b58decode s = Raise ValueError.
Proof.
  intro Hn. unfold b58decode. unfold b58decode_int. destruct (decode_int_loop (lstrip 49 s) 0) as [x|e] eqn:E.
  - exfalso. apply Hn. apply decode_loop_inv in E. destruct E as (l & Hl & El & _).
    destruct (lstrip_spec 49 s) as (k & Es & _ & _). rewrite Es, El. apply Forall_app. split.
    + apply Forall_forall. intros y Hy. apply repeat_spec in Hy. subst. vm_compute. tauto.
    + apply Forall_forall. intros y Hy. apply in_map_iff in Hy. destruct Hy as (d & <- & Hd). apply in_alphabet.
      exists d. split; [|reflexivity]. rewrite Forall_forall in Hl. auto.
  - apply decode_loop_error in E. subst. reflexivity.
Qed.
Lemma over_alphabet_dec s : {over_alphabet s} + {~ over_alphabet s}.
Proof. apply Forall_dec. intro c. apply in_dec. apply Z.eq_dec. Qed.
Lemma b58decode_inv s v : b58decode s = Ok v -> over_alphabet s /\ wf_bytes v /\ b58encode v = s.
Proof.
  intro H. destruct (over_alphabet_dec s) as [Ha|Hn].
  - split; [exact Ha|]. destruct (b58_inverse s Ha) as (v' & E & W & R). rewrite H in E. inv E. auto.
  - rewrite (b58_other s Hn) in H. discriminate.
Qed.

(** ** Base58Check, WIF, addresses *)

Section Hashes.
Variable sha256 : bytes -> bytes.
Hypothesis sha_len : forall x, 4 <= zlen (sha256 x).
Hypothesis sha_wf : forall x, wf_bytes (sha256 x).
Let chk v := ztake 4 (sha256 (sha256 v)).
Lemma zlen_chk58 v : zlen (chk v) = 4.
Proof. unfold chk. rewrite zlen_ztake by lia. specialize (sha_len (sha256 v)). lia. Qed.

Lemma decode_check_iff s v : wf_bytes v -> decode_check sha256 s = Ok (Some v) <-> b58decode s = Ok (v ++ chk v).
Proof.
  intro Hv. unfold decode_check, drop_last4, last4. split.
  - intro H. bind_inv H. 
    destruct (bytes_eqb_spec (ztake 4 (sha256 (sha256 (ztake (zlen x - 4) x)))) (zdrop (zlen x - 4) x)) as [E|]; [|discriminate].
    injection H as <-. rewrite H0. f_equal. unfold chk. rewrite E. symmetry. apply ztake_zdrop.
  - intros ->. cbn [bind]. rewrite !zlen_app, zlen_chk58. replace (zlen v + 4 - 4) with (zlen v) by lia.
    rewrite ztake_app_exact, zdrop_app_exact by reflexivity. unfold chk. now rewrite bytes_eqb_refl.
Qed.
Lemma check_roundtrip v : wf_bytes v -> decode_check sha256 (encode_check sha256 v) = Ok (Some v).
Proof.
  intro Hv. apply decode_check_iff; [assumption|]. unfold encode_check. cbv zeta.
  apply b58_roundtrip. apply wf_bytes_app. split; [assumption|]. apply Forall_ztake. apply sha_wf.
Qed.
Lemma check_inverse s v : decode_check sha256 s = Ok (Some v) -> wf_bytes v /\ encode_check sha256 v = s.
Proof.
  intro H. assert (wf_bytes v) as Hv.
  { unfold decode_check in H. bind_inv H. apply b58decode_inv in H0. destruct H0 as (_ & W & _).
    destruct (bytes_eqb _ _); [|discriminate]. injection H as <-. now apply Forall_ztake. }
  split; [assumption|]. apply decode_check_iff in H; [|assumption]. apply b58decode_inv in H. tauto.
Qed.
Lemma encode_check_inj a b : wf_bytes a -> wf_bytes b -> encode_check sha256 a = encode_check sha256 b -> a = b.
Proof.
  intros Ha Hb E. apply check_roundtrip in Ha. apply check_roundtrip in Hb. rewrite E, Hb in Ha. congruence.
Qed.

Lemma encode_check_lead v d k : wf_bytes v -> match v with [] => False | x :: _ => x <> 0 end ->
  0 < d < 58 -> 0 <= k ->
  d * 58 ^ k <= be_val v * 2 ^ 32 -> (be_val v + 1) * 2 ^ 32 <= (d + 1) * 58 ^ k ->
  exists r, encode_check sha256 v = chr58 d :: r.
Proof.
  intros Hw Hn Hd Hk L U. unfold encode_check. cbv zeta. fold (chk v).
  assert (wf_bytes (v ++ chk v)) as W by (apply wf_bytes_app; split; [assumption|apply Forall_ztake, sha_wf]).
  assert (canonical 256 (v ++ chk v)) as C.
  { split; [eapply Forall_impl; [|exact W]; intros a Ha; unfold is_byte in Ha; lia|]. destruct v; [contradiction|exact Hn]. }
  pose proof (val_bound 256 ltac:(lia) _ (proj1 C)) as Hb.
  destruct (exists_digits 58 (val 256 (v ++ chk v)) ltac:(lia) ltac:(lia)) as (l & Cl & El).
  pose proof (b58encode_eq 0 _ l C Cl El) as E. cbn [repeat app] in E. rewrite E.
  rewrite val_256, be_val_app, zlen_chk58 in El. change (256 ^ 4) with (2 ^ 32) in El.
  assert (wf_bytes (chk v)) as Wc by (apply Forall_ztake, sha_wf).
  pose proof (be_val_bound (chk v) Wc) as Bc. rewrite zlen_chk58 in Bc. change (256 ^ 4) with (2 ^ 32) in Bc.
  destruct (canonical_lead 58 ltac:(lia) l d k Cl Hd Hk) as (r & -> & _); [lia|].
  exists (map chr58 r). reflexivity.
Qed.

Lemma wif_lead_5 k : wf_bytes k -> zlen k = 32 -> exists r, privkey_to_wif sha256 k [0x80] = 53 :: r.
Proof.
  intros Hw Hl. unfold privkey_to_wif. change 53 with (chr58 4). pose proof (be_val_bound k Hw) as B. rewrite Hl in B.
  apply encode_check_lead with (k := 50); try lia.
  - cbn [app]. constructor; [unfold is_byte; lia|assumption].
  - cbn. lia.
  - cbn [app]. rewrite be_val_cons, Hl. apply Z.le_trans with (128 * 256 ^ 32 * 2 ^ 32); [vm_compute; discriminate|]. nia.
  - cbn [app]. rewrite be_val_cons, Hl. apply Z.le_trans with (129 * 256 ^ 32 * 2 ^ 32); [|vm_compute; discriminate].
    apply Z.mul_le_mono_nonneg_r; lia.
Qed.
Lemma wif_lead_KL k : wf_bytes k -> zlen k = 32 ->
  exists r, privkey_to_wif sha256 (k ++ [1]) [0x80] = 75 :: r \/ privkey_to_wif sha256 (k ++ [1]) [0x80] = 76 :: r.
Proof.
  intros Hw Hl. unfold privkey_to_wif. pose proof (be_val_bound k Hw) as B. rewrite Hl in B.
  assert (be_val ([0x80] ++ k ++ [1]) = 128 * 256 ^ 33 + be_val k * 256 + 1) as V.
  { cbn [app]. rewrite be_val_cons, zlen_app, Hl. change (zlen [1]) with 1. rewrite be_val_app. change (256 ^ zlen [1]) with 256.
    change (be_val [1]) with 1. change (32 + 1) with 33. lia. }
  assert (wf_bytes ([0x80] ++ k ++ [1])) as W.
  { cbn [app]. constructor; [unfold is_byte; lia|]. apply wf_bytes_app. split; [assumption|]. repeat constructor; lia. }
  (* The text starts with K or L according to the magnitude of the 38-byte number. *)
  unfold encode_check. cbv zeta. fold (chk ([0x80] ++ k ++ [1])). set (v := [0x80] ++ k ++ [1]) in *.
  assert (wf_bytes (chk v)) as Wc by (apply Forall_ztake, sha_wf).
  assert (canonical 256 (v ++ chk v)) as C.
  { split; [|cbn; lia]. eapply Forall_impl; [|apply wf_bytes_app; split; [exact W|exact Wc]]. intros a Ha; unfold is_byte in Ha; lia. }
  pose proof (val_bound 256 ltac:(lia) _ (proj1 C)) as Hb.
  destruct (exists_digits 58 (val 256 (v ++ chk v)) ltac:(lia) ltac:(lia)) as (l & Cl & El).
  pose proof (b58encode_eq 0 _ l C Cl El) as E. cbn [repeat] in E. change ([] ++ v ++ chk v) with (v ++ chk v) in E.
  change ([] ++ map chr58 l) with (map chr58 l) in E. rewrite E.
  rewrite val_256, be_val_app, zlen_chk58 in El. change (256 ^ 4) with (2 ^ 32) in El.
  pose proof (be_val_bound (chk v) Wc) as Bc. rewrite zlen_chk58 in Bc. change (256 ^ 4) with (2 ^ 32) in Bc.
  rewrite V in El.
  assert (128 * 256 ^ 33 * 2 ^ 32 <= val 58 l < 129 * 256 ^ 33 * 2 ^ 32) as Hv.
  { rewrite El. change (256 ^ 33) with (256 * 256 ^ 32). nia. }
  assert (18 * 58 ^ 51 <= 128 * 256 ^ 33 * 2 ^ 32 /\ 129 * 256 ^ 33 * 2 ^ 32 <= 20 * 58 ^ 51) as (K1 & K2) by (split; vm_compute; discriminate).
  destruct (Z_lt_ge_dec (val 58 l) (19 * 58 ^ 51)) as [Hlt|Hge].
  - destruct (canonical_lead 58 ltac:(lia) l 18 51 Cl ltac:(lia) ltac:(lia)) as (r & -> & _); [lia|].
    exists (map chr58 r). left. reflexivity.
  - destruct (canonical_lead 58 ltac:(lia) l 19 51 Cl ltac:(lia) ltac:(lia)) as (r & -> & _); [lia|].
    exists (map chr58 r). right. reflexivity.
Qed.

Lemma wif_roundtrip k : wf_bytes k -> zlen k = 32 ->
  privkey_from_wif sha256 (privkey_to_wif sha256 k [0x80]) 0x80 = Ok k.
Proof.
  intros Hw Hl. destruct (wif_lead_5 k Hw Hl) as (r & E).
  assert (wf_bytes ([0x80] ++ k)) as W by (constructor; [unfold is_byte; lia|assumption]).
  unfold privkey_from_wif. unfold privkey_to_wif at 1. rewrite check_roundtrip by assumption.
  cbn [bind app]. change (negb (128 =? 128)) with false. cbv iota.
  assert (zlen (0x80 :: k) = 33) as -> by (unfold zlen in *; cbn [List.length]; lia).
  change (33 =? 33) with true. cbv iota. rewrite E. reflexivity.
Qed.
Lemma wif_roundtrip_compressed k : wf_bytes k -> zlen k = 32 ->
  privkey_from_wif sha256 (privkey_to_wif sha256 (k ++ [1]) [0x80]) 0x80 = Ok k.
Proof.
  intros Hw Hl. destruct (wif_lead_KL k Hw Hl) as (r & E).
  assert (wf_bytes ([0x80] ++ k ++ [1])) as W.
  { cbn [app]. constructor; [unfold is_byte; lia|]. apply wf_bytes_app. split; [assumption|]. repeat constructor; lia. }
  unfold privkey_from_wif. unfold privkey_to_wif at 1. rewrite check_roundtrip by assumption.
  cbn [bind app]. change (negb (128 =? 128)) with false. cbv iota.
  assert (zlen (0x80 :: k ++ [1]) = 34) as -> by (unfold zlen in *; cbn [List.length]; rewrite app_length; cbn; lia).
  change (34 =? 33) with false. change (34 =? 34) with true. cbv iota.
  replace (last (0x80 :: k ++ [1]) 0) with 1.
  2:{ change (0x80 :: k ++ [1]) with ((0x80 :: k) ++ [1]). now rewrite last_last. }
  change (negb (1 =? 1)) with false. cbv iota. rewrite removelast_last. destruct E as [E|E]; rewrite E; reflexivity.
Qed.
Lemma wif_inverse w k : privkey_from_wif sha256 w 0x80 = Ok k ->
  wf_bytes k /\ zlen k = 32 /\ (w = privkey_to_wif sha256 k [0x80] \/ w = privkey_to_wif sha256 (k ++ [1]) [0x80]).
Proof.
  unfold privkey_from_wif. intro H. bind_inv H. destruct x as [key|]; [|discriminate].
  apply check_inverse in H0. destruct H0 as (W & <-).
  destruct key as [|k0 key1]; [discriminate|]. inversion W as [|? ? W0 W1]; subst.
  destruct (Z.eqb_spec 0x80 k0) as [<-|]; [|discriminate]. cbn [negb] in H.
  destruct (Z.eqb_spec (zlen (128 :: key1)) 33) as [L|].
  - destruct (encode_check _ _) as [|ch r] eqn:E; [discriminate|]. destruct (ch =? 53); [|discriminate]. cbn in H. inv H.
    split; [assumption|]. split; [unfold zlen in *; cbn [List.length] in L; lia|]. left. exact (eq_sym E).
  - destruct (Z.eqb_spec (zlen (128 :: key1)) 34) as [L|]; [|discriminate].
    destruct (Z.eqb_spec (last (128 :: key1) 0) 1) as [L1|]; [|discriminate]. cbn [negb] in H.
    destruct (encode_check _ _) as [|ch r] eqn:E; [discriminate|].
    assert (key1 <> []) as Nk by (intros ->; discriminate L).
    destruct (negb (ch =? 76) && negb (ch =? 75)); [discriminate|].
    assert (k = removelast key1) as -> by congruence.
    assert (key1 = removelast key1 ++ [1]) as Ek.
    { rewrite (app_removelast_last 0 Nk) at 1. f_equal. f_equal. destruct key1; [congruence|exact L1]. }
    split; [|split].
    + rewrite Ek in W1. apply wf_bytes_app in W1. tauto.
    + rewrite Ek in L. unfold zlen in *. cbn [List.length] in L. rewrite app_length in L. cbn in L. lia.
    + right. rewrite <- Ek. exact (eq_sym E).
Qed.

(** Addresses. *)
Lemma hex4_inj a b : 0 <= a < 65536 -> 0 <= b < 65536 -> hex4 a = hex4 b -> a = b.
Proof.
  intros Ha Hb. unfold hex4. cbn [map]. intro H. injection H as H1 H2 H3 H4.
  assert (forall x y, 0 <= x < 16 -> 0 <= y < 16 -> (if x <? 10 then 48 + x else 87 + x) = (if y <? 10 then 48 + y else 87 + y) -> x = y) as G.
  { intros x y Hx Hy. destruct (Z.ltb_spec x 10), (Z.ltb_spec y 10); lia. }
  apply G in H1; [|split; [apply Z.div_pos; lia|apply Z.div_lt_upper_bound; lia] ..].
  apply G in H2; [|apply Z.mod_pos_bound; lia ..]. apply G in H3; [|apply Z.mod_pos_bound; lia ..].
  apply G in H4; [|apply Z.mod_pos_bound; lia ..].
  assert (forall x, x = ((x / 4096) * 16 + (x / 256) mod 16) * 256 + ((x / 16) mod 16) * 16 + x mod 16) as D.
  { intro x. pose proof (Z.div_mod x 16 ltac:(lia)). pose proof (Z.div_mod (x / 16) 16 ltac:(lia)).
    pose proof (Z.div_mod (x / 256) 16 ltac:(lia)). rewrite Z.div_div in * by lia. change (16 * 16) with 256 in *.
    change (256 * 16) with 4096 in *. lia. }
  rewrite (D a), (D b). lia.
Qed.
Lemma hex4_len a : zlen (hex4 a) = 4. Proof. reflexivity. Qed.
Lemma hex4_wf a : 0 <= a < 65536 -> wf_bytes (hex4 a).
Proof.
  intro Ha. unfold hex4, wf_bytes. cbn [map].
  assert (forall x, 0 <= x < 16 -> is_byte (if x <? 10 then 48 + x else 87 + x)) as G.
  { intros x Hx. unfold is_byte. destruct (Z.ltb_spec x 10); lia. }
  repeat (apply Forall_cons; [apply G|]); [|apply Z.mod_pos_bound; lia ..|constructor].
  split; [apply Z.div_pos; lia|apply Z.div_lt_upper_bound; lia].
Qed.
Lemma land_ffff v : Z.land v 0xffff = v mod 65536.
Proof. apply (Z.land_ones v 16). lia. Qed.

Lemma address_inj h1 v1 ver1 h2 v2 ver2 : wf_bytes h1 -> wf_bytes h2 -> wf_bytes ver1 -> wf_bytes ver2 ->
  zlen ver1 = zlen ver2 ->
  pubkeyhash_to_address sha256 h1 v1 ver1 = pubkeyhash_to_address sha256 h2 v2 ver2 ->
  ver1 = ver2 /\ v1 mod 65536 = v2 mod 65536 /\ h1 = h2.
Proof.
  intros W1 W2 X1 X2 L E. unfold pubkeyhash_to_address in E. rewrite !land_ffff in E.
  pose proof (Z.mod_pos_bound v1 65536 ltac:(lia)) as B1. pose proof (Z.mod_pos_bound v2 65536 ltac:(lia)) as B2.
  apply encode_check_inj in E.
  - assert (ver1 = ver2) as <-.
    { rewrite <- (ztake_app_exact ver1 (hex4 (v1 mod 65536) ++ h1) (zlen ver1) eq_refl), E, L. now apply ztake_app_exact. }
    apply app_inv_head in E.
    assert (hex4 (v1 mod 65536) = hex4 (v2 mod 65536)) as E4.
    { rewrite <- (ztake_app_exact (hex4 (v1 mod 65536)) h1 4 (eq_sym (hex4_len _))), E. now apply ztake_app_exact. }
    rewrite E4 in E. apply app_inv_head in E. split; [reflexivity|]. split; [|assumption]. now apply hex4_inj.
  - apply wf_bytes_app. split; [assumption|]. apply wf_bytes_app. split; [now apply hex4_wf|assumption].
  - apply wf_bytes_app. split; [assumption|]. apply wf_bytes_app. split; [now apply hex4_wf|assumption].
Qed.
Lemma address_decode h v ver : wf_bytes h -> wf_bytes ver ->
  decode_check sha256 (pubkeyhash_to_address sha256 h v ver) = Ok (Some (ver ++ hex4 (v mod 65536) ++ h)).
Proof.
  intros W X. unfold pubkeyhash_to_address. rewrite land_ffff. apply check_roundtrip.
  apply wf_bytes_app. split; [assumption|]. apply wf_bytes_app. split; [|assumption].
  apply hex4_wf. apply Z.mod_pos_bound. lia.
Qed.
End Hashes.
