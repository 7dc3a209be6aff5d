(** Common Python notions used by every model file: exceptions as values,
    byte strings, slicing, [struct] packing.  Nothing here models project code;
    it fixes the meaning given to the CPython primitives the project calls. *)
From Coq Require Import String Ascii ZArith List Lia Bool.
Import ListNotations.
Open Scope Z_scope.

(** Exceptions that the modelled code can raise.  Only the class is kept. *)
Inductive exn : Type :=
| ValueError | TypeError | KeyError | IndexError | AttributeError | NameError
| AssertionError | RuntimeError | OverflowError | ZeroDivisionError
| RecursionError
| StructError | UnicodeError | UnexpectedDER | MalformedPoint
| ParameterError | MsgFormatError | UnknownMsgError
| SquareRootError | JacobiError | NegativeExponentError | BadSignatureError
| BadDigestError | UnknownCurveError | PlainException.

Inductive res (A : Type) : Type :=
| Ok (a : A)
| Raise (e : exn).
Arguments Ok {A} a.
Arguments Raise {A} e.

Definition bind {A B} (m : res A) (k : A -> res B) : res B :=
  match m with Ok a => k a | Raise e => Raise e end.
Notation "'let!' x ':=' m 'in' k" := (bind m (fun x => k))
  (at level 200, x pattern, m at level 100, k at level 200, right associativity).

Definition is_ok {A} (m : res A) : bool := match m with Ok _ => true | _ => false end.

Definition exn_eq_dec (a b : exn) : {a = b} + {a <> b}.
Proof. decide equality. Defined.

(** Byte strings (and Python text, as code points) are lists of integers. *)
Definition bytes := list Z.
Definition text := list Z.

Definition is_byte (b : Z) : Prop := 0 <= b < 256.
Definition wf_bytes (s : bytes) : Prop := Forall is_byte s.
Definition is_byteb (b : Z) : bool := (0 <=? b) && (b <? 256).

Definition zlen {A} (l : list A) : Z := Z.of_nat (List.length l).

(** [l[:n]] and [l[n:]] for an integer [n >= 0] (structural on the list, so
    that huge announced lengths stay computable). *)
Fixpoint ztake {A} (n : Z) (l : list A) : list A :=
  match l with
  | [] => []
  | x :: r => if n <=? 0 then [] else x :: ztake (n - 1) r
  end.
Fixpoint zdrop {A} (n : Z) (l : list A) : list A :=
  match l with
  | [] => []
  | x :: r => if n <=? 0 then l else zdrop (n - 1) r
  end.
(** [l[a:b]] for [0 <= a]. *)
Definition slice {A} (a b : Z) (l : list A) : list A := ztake (b - a) (zdrop a l).

Fixpoint bytes_eqb (a b : bytes) : bool :=
  match a, b with
  | [], [] => true
  | x :: a', y :: b' => if x =? y then bytes_eqb a' b' else false
  | _, _ => false
  end.

(** ASCII literal to code points. *)
Fixpoint bs (s : string) : list Z :=
  match s with
  | EmptyString => []
  | String c r => Z.of_N (N_of_ascii c) :: bs r
  end.

(** [struct.pack('<..')] / [struct.pack('>..')] of an [n]-byte unsigned field. *)
Fixpoint le_bytes (n : nat) (x : Z) : bytes :=
  match n with
  | O => []
  | S k => x mod 256 :: le_bytes k (x / 256)
  end.
Definition be_bytes (n : nat) (x : Z) : bytes := rev (le_bytes n x).
Fixpoint le_val (s : bytes) : Z :=
  match s with
  | [] => 0
  | b :: r => b + 256 * le_val r
  end.
Definition be_val (s : bytes) : Z := le_val (rev s).

(** * Lemmas *)

Lemma zlen_nonneg {A} (l : list A) : 0 <= zlen l.
Proof. unfold zlen; lia. Qed.
Lemma zlen_nil {A} : zlen (@nil A) = 0. Proof. reflexivity. Qed.
Lemma zlen_cons {A} (x : A) l : zlen (x :: l) = 1 + zlen l.
Proof. unfold zlen; cbn [List.length]; lia. Qed.
Lemma zlen_app {A} (a b : list A) : zlen (a ++ b) = zlen a + zlen b.
Proof. unfold zlen; rewrite app_length; lia. Qed.
Lemma zlen_map {A B} (f : A -> B) l : zlen (map f l) = zlen l.
Proof. unfold zlen; rewrite map_length; reflexivity. Qed.
Lemma zlen_rev {A} (l : list A) : zlen (rev l) = zlen l.
Proof. unfold zlen; rewrite rev_length; reflexivity. Qed.
Lemma zlen_repeat {A} (x : A) n : zlen (repeat x n) = Z.of_nat n.
Proof. unfold zlen; rewrite repeat_length; reflexivity. Qed.
Lemma zlen_0_nil {A} (l : list A) : zlen l = 0 -> l = [].
Proof. destruct l; [reflexivity|rewrite zlen_cons; pose proof (zlen_nonneg l); lia]. Qed.

Lemma ztake_firstn {A} (l : list A) n : ztake n l = firstn (Z.to_nat n) l.
Proof.
  revert n; induction l as [|x r IH]; intro n; cbn [ztake].
  - now rewrite firstn_nil.
  - destruct (Z.leb_spec n 0).
    + replace (Z.to_nat n) with O by lia; reflexivity.
    + replace (Z.to_nat n) with (S (Z.to_nat (n-1))) by lia; cbn; now rewrite IH.
Qed.
Lemma zdrop_skipn {A} (l : list A) n : zdrop n l = skipn (Z.to_nat n) l.
Proof.
  revert n; induction l as [|x r IH]; intro n; cbn [zdrop].
  - now rewrite skipn_nil.
  - destruct (Z.leb_spec n 0).
    + replace (Z.to_nat n) with O by lia; reflexivity.
    + replace (Z.to_nat n) with (S (Z.to_nat (n-1))) by lia; cbn; now rewrite IH.
Qed.

Lemma ztake_app_exact {A} (a b : list A) n : n = zlen a -> ztake n (a ++ b) = a.
Proof.
  intros ->. rewrite ztake_firstn. unfold zlen. rewrite Nat2Z.id.
  rewrite firstn_app, Nat.sub_diag, firstn_all. cbn. apply app_nil_r.
Qed.
Lemma zdrop_app_exact {A} (a b : list A) n : n = zlen a -> zdrop n (a ++ b) = b.
Proof.
  intros ->. rewrite zdrop_skipn. unfold zlen. rewrite Nat2Z.id.
  rewrite skipn_app, Nat.sub_diag, skipn_all. reflexivity.
Qed.
Lemma ztake_all {A} (a : list A) n : zlen a <= n -> ztake n a = a.
Proof. intro H. rewrite ztake_firstn. apply firstn_all2. unfold zlen in H; lia. Qed.
Lemma zdrop_all {A} (a : list A) n : zlen a <= n -> zdrop n a = [].
Proof. intro H. rewrite zdrop_skipn. apply skipn_all2. unfold zlen in H; lia. Qed.
Lemma ztake_le0 {A} (a : list A) n : n <= 0 -> ztake n a = [].
Proof. intro H; rewrite ztake_firstn; replace (Z.to_nat n) with O by lia; reflexivity. Qed.
Lemma zdrop_le0 {A} (a : list A) n : n <= 0 -> zdrop n a = a.
Proof. intro H; rewrite zdrop_skipn; replace (Z.to_nat n) with O by lia; reflexivity. Qed.
Lemma zdrop_0 {A} (a : list A) : zdrop 0 a = a.
Proof. apply zdrop_le0; lia. Qed.
Lemma ztake_zdrop {A} (a : list A) n : ztake n a ++ zdrop n a = a.
Proof. rewrite ztake_firstn, zdrop_skipn; apply firstn_skipn. Qed.
Lemma zlen_ztake {A} (a : list A) n : 0 <= n -> zlen (ztake n a) = Z.min n (zlen a).
Proof. intro; rewrite ztake_firstn; unfold zlen; rewrite firstn_length; lia. Qed.
Lemma zlen_ztake_le {A} (a : list A) n : zlen (ztake n a) <= zlen a.
Proof. rewrite ztake_firstn; unfold zlen; rewrite firstn_length; lia. Qed.
Lemma zlen_zdrop {A} (a : list A) n : 0 <= n -> zlen (zdrop n a) = Z.max 0 (zlen a - n).
Proof. intro; rewrite zdrop_skipn; unfold zlen; rewrite skipn_length; lia. Qed.
Lemma zdrop_zdrop {A} (l : list A) a b : 0 <= a -> 0 <= b -> zdrop a (zdrop b l) = zdrop (a + b) l.
Proof.
  intros. rewrite !zdrop_skipn. replace (Z.to_nat (a+b)) with (Z.to_nat b + Z.to_nat a)%nat by lia.
  generalize (Z.to_nat a) (Z.to_nat b). clear. intros m n. revert l.
  induction n as [|n IH]; intros [|x l]; cbn; auto. now rewrite skipn_nil.
Qed.
Lemma ztake_app_le {A} (a b : list A) n : n <= zlen a -> ztake n (a ++ b) = ztake n a.
Proof.
  intro H. rewrite !ztake_firstn, firstn_app.
  replace (Z.to_nat n - List.length a)%nat with O by (unfold zlen in H; lia).
  cbn; apply app_nil_r.
Qed.
Lemma zdrop_app_le {A} (a b : list A) n : n <= zlen a -> zdrop n (a ++ b) = zdrop n a ++ b.
Proof.
  intro H. rewrite !zdrop_skipn, skipn_app.
  replace (Z.to_nat n - List.length a)%nat with O by (unfold zlen in H; lia).
  reflexivity.
Qed.
Lemma zdrop_app_ge {A} (a b : list A) n : zlen a <= n -> zdrop n (a ++ b) = zdrop (n - zlen a) b.
Proof.
  intro H. rewrite !zdrop_skipn, skipn_app. unfold zlen in *.
  rewrite (skipn_all2 a) by lia. cbn. f_equal. lia.
Qed.
Lemma slice_app_mid {A} (a b c : list A) i j :
  i = zlen a -> j = zlen a + zlen b -> slice i j (a ++ b ++ c) = b.
Proof.
  intros -> ->. unfold slice. rewrite zdrop_app_exact by reflexivity.
  apply ztake_app_exact; lia.
Qed.

Lemma bytes_eqb_spec a b : reflect (a = b) (bytes_eqb a b).
Proof.
  revert b; induction a as [|x a IH]; intros [|y b]; cbn; try (constructor; congruence).
  destruct (Z.eqb_spec x y) as [->|E]; cbn; [|constructor; congruence]. destruct (IH b) as [->|E]; constructor; congruence.
Qed.
Lemma bytes_eqb_refl a : bytes_eqb a a = true.
Proof. destruct (bytes_eqb_spec a a); congruence. Qed.

Lemma wf_bytes_app a b : wf_bytes (a ++ b) <-> wf_bytes a /\ wf_bytes b.
Proof. apply Forall_app. Qed.
Lemma wf_bytes_rev a : wf_bytes (rev a) <-> wf_bytes a.
Proof.
  unfold wf_bytes; rewrite !Forall_forall; split; intros H x Hx; apply H;
    [apply in_rev in Hx|apply in_rev]; auto.
Qed.
Lemma Forall_ztake {A} (P : A -> Prop) n l : Forall P l -> Forall P (ztake n l).
Proof.
  intro H. rewrite <- (ztake_zdrop l n) in H. apply Forall_app in H. tauto.
Qed.
Lemma Forall_zdrop {A} (P : A -> Prop) n l : Forall P l -> Forall P (zdrop n l).
Proof.
  intro H. rewrite <- (ztake_zdrop l n) in H. apply Forall_app in H. tauto.
Qed.
Lemma Forall_slice {A} (P : A -> Prop) a b l : Forall P l -> Forall P (slice a b l).
Proof. intro; now apply Forall_ztake, Forall_zdrop. Qed.

Lemma length_le_bytes n x : List.length (le_bytes n x) = n.
Proof. revert x; induction n; cbn; auto. Qed.
Lemma zlen_le_bytes n x : zlen (le_bytes n x) = Z.of_nat n.
Proof. unfold zlen; now rewrite length_le_bytes. Qed.
Lemma length_be_bytes n x : List.length (be_bytes n x) = n.
Proof. unfold be_bytes; now rewrite rev_length, length_le_bytes. Qed.
Lemma zlen_be_bytes n x : zlen (be_bytes n x) = Z.of_nat n.
Proof. unfold zlen; now rewrite length_be_bytes. Qed.
Lemma wf_le_bytes n x : wf_bytes (le_bytes n x).
Proof.
  revert x; induction n; intro x; cbn; constructor.
  - apply Z.mod_pos_bound; lia.
  - apply IHn.
Qed.
Lemma wf_be_bytes n x : wf_bytes (be_bytes n x).
Proof. apply wf_bytes_rev, wf_le_bytes. Qed.
Lemma pow256_pos n : 0 < 256 ^ Z.of_nat n.
Proof. apply Z.pow_pos_nonneg; lia. Qed.
Lemma pow256_S n : 256 ^ Z.of_nat (S n) = 256 * 256 ^ Z.of_nat n.
Proof. rewrite Nat2Z.inj_succ, Z.pow_succ_r; lia. Qed.

Lemma le_val_le_bytes n x : le_val (le_bytes n x) = x mod 256 ^ Z.of_nat n.
Proof.
  revert x; induction n; intro x.
  - cbn. now rewrite Z.mod_1_r.
  - cbn [le_bytes le_val]. rewrite IHn, pow256_S.
    pose proof (pow256_pos n). rewrite Z.rem_mul_r by lia. reflexivity.
Qed.
Lemma le_val_le_bytes_small n x : 0 <= x < 256 ^ Z.of_nat n -> le_val (le_bytes n x) = x.
Proof. intro; rewrite le_val_le_bytes; now apply Z.mod_small. Qed.
Lemma le_val_bound s : wf_bytes s -> 0 <= le_val s < 256 ^ zlen s.
Proof.
  induction 1 as [|b r Hb Hr IH]; cbn [le_val].
  - cbn; lia.
  - rewrite zlen_cons. unfold zlen in *. rewrite Z.pow_add_r by lia. unfold is_byte in Hb. lia.
Qed.
Lemma le_bytes_le_val s : wf_bytes s -> le_bytes (List.length s) (le_val s) = s.
Proof.
  induction 1 as [|b r Hb Hr IH]; cbn [le_val le_bytes List.length]; [reflexivity|].
  unfold is_byte in Hb. rewrite (Z.mul_comm 256).
  rewrite Z.mod_add, Z.mod_small, Z.div_add, Z.div_small by lia. cbn [Z.add]. now rewrite IH.
Qed.
Lemma le_val_app a b : le_val (a ++ b) = le_val a + 256 ^ zlen a * le_val b.
Proof.
  induction a as [|x a IH]; cbn [le_val app].
  - change (zlen (@nil Z)) with 0. change (256 ^ 0) with 1. lia.
  - rewrite IH, zlen_cons. pose proof (zlen_nonneg a). rewrite Z.pow_add_r by lia. lia.
Qed.
Lemma le_val_inj a b : wf_bytes a -> wf_bytes b -> zlen a = zlen b -> le_val a = le_val b -> a = b.
Proof.
  intros Ha Hb Hl He. rewrite <- (le_bytes_le_val a Ha), <- (le_bytes_le_val b Hb).
  unfold zlen in Hl. apply Nat2Z.inj in Hl. now rewrite Hl, He.
Qed.

Lemma be_val_be_bytes_small n x : 0 <= x < 256 ^ Z.of_nat n -> be_val (be_bytes n x) = x.
Proof. intro; unfold be_val, be_bytes; rewrite rev_involutive; now apply le_val_le_bytes_small. Qed.
Lemma be_val_bound s : wf_bytes s -> 0 <= be_val s < 256 ^ zlen s.
Proof. intro H. unfold be_val. rewrite <- (zlen_rev s). apply le_val_bound. now apply wf_bytes_rev. Qed.
Lemma be_bytes_be_val s : wf_bytes s -> be_bytes (List.length s) (be_val s) = s.
Proof.
  intro H. unfold be_bytes, be_val. rewrite <- (rev_length s).
  rewrite le_bytes_le_val by (now apply wf_bytes_rev). apply rev_involutive.
Qed.
Lemma be_val_cons b s : be_val (b :: s) = b * 256 ^ zlen s + be_val s.
Proof. unfold be_val; cbn [rev]. rewrite le_val_app, zlen_rev. cbn [le_val]. lia. Qed.
Lemma be_val_app a b : be_val (a ++ b) = be_val a * 256 ^ zlen b + be_val b.
Proof. unfold be_val. rewrite rev_app_distr, le_val_app, zlen_rev. lia. Qed.
Lemma be_val_inj a b : wf_bytes a -> wf_bytes b -> zlen a = zlen b -> be_val a = be_val b -> a = b.
Proof.
  intros Ha Hb Hl He. rewrite <- (be_bytes_be_val a Ha), <- (be_bytes_be_val b Hb).
  unfold zlen in Hl. apply Nat2Z.inj in Hl. now rewrite Hl, He.
Qed.

Lemma wf_bs s : wf_bytes (bs s).
Proof.
  induction s as [|c s IH]; cbn; constructor; auto. unfold is_byte.
  pose proof (N_ascii_bounded c). lia.
Qed.

Lemma bind_ok {A B} (m : res A) (k : A -> res B) b :
  bind m k = Ok b -> exists a, m = Ok a /\ k a = Ok b.
Proof. destruct m; cbn; [eauto|discriminate]. Qed.

Ltac inv H := inversion H; subst; clear H.
Ltac bind_inv H :=
  let a := fresh "x" in let H1 := fresh "H" in
  apply bind_ok in H; destruct H as (a & H1 & H).
