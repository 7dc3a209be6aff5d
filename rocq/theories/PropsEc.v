(** C59, C60: points of secp256k1 and their arithmetic.  What is claimed is in
    EcSpec.v: the points of the curve and their chord-and-tangent sum. *)
From Coq Require Import ZArith Znumtheory List Lia Bool.
From Verif Require Import PyBase NtModel EcModel EcSpec EcProofs EcOrder EcLib EcParams256k1.
Import ListNotations.
Open Scope Z_scope.

Definition secp : curve := g_curve generator_secp256k1.
Definition secp_n : Z := g_order generator_secp256k1.
(** secp256k1 as the standard SEC 2 gives it. *)
Example secp_is : c_p secp = 2 ^ 256 - 2 ^ 32 - 977 /\ c_a secp = 0 /\ c_b secp = 7.
Proof. now repeat split. Qed.
Definition secp_point (P : point) : Prop := on_curve (c_p secp) (c_a secp) (c_b secp) (coords P).
Notation sum := (line_sum (c_p secp) (c_a secp)).
Notation times P e R := (multiple_z (c_p secp) (c_a secp) P e R).
Lemma secp_ok : curve_ok secp. Proof. exact (gen_c _ generator_secp256k1_ok). Qed.
(** The generator is a point; so the statements below are not empty. *)
Example secp_generator : secp_point (gen_point generator_secp256k1) /\ secp_point (PAff (g_x generator_secp256k1) (g_y generator_secp256k1) 0).
Proof. assert (secp_point (gen_point generator_secp256k1)) as H; [|split; exact H]. split; [split; [discriminate|reflexivity]|]. split; [split; [discriminate|reflexivity]|]. apply (contains_div secp secp_ok). apply generator_secp256k1_ok. Qed.

(** ** C59 *)
(** P * e is the e-fold sum of P (of -P for negative e) and is on the curve,
    for points that carry the order n and every integer e, and for points
    without an order and 0 <= e < 2n - 2, or any e >= 0 with e <> -1 modulo n.
    Missing: the other multipliers of points without an order, where it fails,
    as shown below. *)
Theorem C59_scalar_multiplication_partial P e : secp_point P ->
  p_order P = secp_n \/ (p_order P = 0 /\ 0 <= e /\ (e < 2 * secp_n - 2 \/ (e + 1) mod secp_n <> 0)) ->
  exists R, ec_mul secp P e = Ok R /\ secp_point R /\ times (coords P) e (coords R) /\ (p_order R = 0 \/ R = P).
Proof.
  intros HP He. destruct (mul_lib _ generator_secp256k1_ok P e) as (R & E & HR & M & O & _); [exact HP| |now exists R].
  destruct He as [He|(Ho & H0 & [H|H])]; [now left|right; split; [exact Ho|]; split; [exact H0|now left]|].
  right. split; [exact Ho|]. split; [exact H0|]. right. intro D. apply H. now apply Zdivide_mod.
Qed.
(** The e-fold sum exists and there is only one. *)
Theorem C59_sum_is_a_function P e : secp_point P -> exists! R, on_curve (c_p secp) (c_a secp) (c_b secp) R /\ times (coords P) e R.
Proof. exact (mul_fun_lib generator_secp256k1 generator_secp256k1_ok (coords P) e). Qed.
Theorem C59_doubling_and_addition P Q : secp_point P -> secp_point Q ->
  (exists R, ec_add secp P Q = Ok R /\ secp_point R /\ sum (coords P) (coords Q) (coords R)) /\
  (exists R, ec_double secp P = Ok R /\ secp_point R /\ sum (coords P) (coords P) (coords R)).
Proof. intros HP HQ. split; [exact (add_lib secp secp_ok P Q HP HQ)|exact (double_lib generator_secp256k1 generator_secp256k1_ok P HP)]. Qed.
(** "The operations never fail": a point made without an order cannot be
    multiplied by a negative number. *)
Theorem C59_negative_multiplier_refuted x y e : e < 0 -> ec_mul secp (PAff x y 0) e = Raise AssertionError.
Proof. intro H. unfold ec_mul. cbn [p_order]. rewrite Z.eqb_refl. destruct (Z.eqb_spec e 0); [lia|]. destruct (Z.ltb_spec 0 e); [lia|]. reflexivity. Qed.
(** "P * e is the e-fold sum": for P without an order, P * (4n - 1) should be
    -P, but is an object with a negative coordinate that is unequal to every
    point the other operations return, and to -P computed as P * (n - 1). *)
Theorem C59_result_not_reduced_refuted x y : secp_point (PAff x y 0) ->
  ec_mul secp (PAff x y 0) (4 * secp_n - 1) = Ok (PAff x (- y) 0) /\ - y < 0 /\
  exists R, ec_mul secp (PAff x y 0) (secp_n - 1) = Ok R /\ times (coords (PAff x y 0)) (4 * secp_n - 1) (coords R) /\ point_eqb R (PAff x (- y) 0) = false.
Proof. exact (not_reduced generator_secp256k1 generator_secp256k1_ok x y). Qed.

(** ** C60 *)
(** Python's == on points of the library is equality in the group. *)
Theorem C60_group P Q R : secp_point P -> secp_point Q -> secp_point R ->
  (exists PQ QP, ec_add secp P Q = Ok PQ /\ ec_add secp Q P = Ok QP /\ secp_point PQ /\ point_eqb PQ QP = true) /\
  (exists PQ QR S S', ec_add secp P Q = Ok PQ /\ ec_add secp Q R = Ok QR /\ ec_add secp PQ R = Ok S /\ ec_add secp P QR = Ok S' /\ point_eqb S S' = true) /\
  ec_add secp P PInf = Ok P /\ ec_add secp PInf P = Ok P /\
  (exists N, secp_point N /\ ec_add secp P N = Ok PInf).
Proof. exact (group_lib generator_secp256k1 generator_secp256k1_ok P Q R). Qed.
(** The order of every point divides n, and n is prime: nP = INFINITY, and a
    multiple eP of a point other than INFINITY is INFINITY only if n divides
    e. *)
Theorem C60_order P : secp_point P -> p_order P = 0 \/ p_order P = secp_n ->
  prime secp_n /\ ec_mul secp P secp_n = Ok PInf.
Proof. intros HP Ho. split; [exact (ok_n generator_secp256k1 generator_secp256k1_ok)|exact (order_lib generator_secp256k1 generator_secp256k1_ok P HP Ho)]. Qed.
Theorem C60_multiples_distinct P e f R S : secp_point P -> coords P <> None -> on_curve (c_p secp) (c_a secp) (c_b secp) R -> on_curve (c_p secp) (c_a secp) (c_b secp) S ->
  times (coords P) e R -> times (coords P) f S -> R = S <-> e mod secp_n = f mod secp_n.
Proof. exact (distinct_lib generator_secp256k1 generator_secp256k1_ok (coords P) e f R S). Qed.
(** Every point is a multiple of the generator: the group has n elements. *)
Theorem C60_cyclic R : on_curve (c_p secp) (c_a secp) (c_b secp) R -> exists! k, 0 <= k < secp_n /\ times (coords (gen_point generator_secp256k1)) k R.
Proof. apply (cyclic_lib generator_secp256k1 generator_secp256k1_ok). split; [discriminate|reflexivity]. Qed.
(** point_is_valid accepts exactly the points of the curve with coordinates
    below n, and never raises. *)
Theorem C60_point_is_valid x y : exists v, point_is_valid generator_secp256k1 x y = Ok v /\
  (v = true <-> 0 <= x < secp_n /\ 0 <= y < secp_n /\ on_curve (c_p secp) (c_a secp) (c_b secp) (Some (x, y))).
Proof.
  destruct (valid_lib _ generator_secp256k1_ok x y) as (v & E & H); [discriminate|]. exists v. split; [exact E|]. rewrite H. assert (secp_n < c_p secp) as L by reflexivity. fold secp_n. fold secp. unfold on_curve.
  split; [intros (H1 & H2 & D); repeat split; try lia; exact D|intros (H1 & H2 & _ & _ & D); repeat split; try lia; exact D].
Qed.
Example C60_valid_generator : exists v, point_is_valid generator_secp256k1 (g_x generator_secp256k1) (g_y generator_secp256k1) = Ok v /\ v = true.
Proof. destruct (C60_point_is_valid (g_x generator_secp256k1) (g_y generator_secp256k1)) as (v & E & H). exists v. split; [exact E|]. apply H. split; [split; [discriminate|reflexivity]|]. split; [split; [discriminate|reflexivity]|]. apply secp_generator. Qed.

(** ** Assumptions *)

Print Assumptions C59_scalar_multiplication_partial.
Print Assumptions C59_sum_is_a_function.
Print Assumptions C59_doubling_and_addition.
Print Assumptions C59_negative_multiplier_refuted.
Print Assumptions C59_result_not_reduced_refuted.
Print Assumptions C60_group.
Print Assumptions C60_order.
Print Assumptions C60_multiples_distinct.
Print Assumptions C60_cyclic.
Print Assumptions C60_point_is_valid.
