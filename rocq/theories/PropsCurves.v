(** C125: each of the six curves of the library (nbc/util/ecdsa/curves.py) is a
    cyclic group of prime order, and the point operations compute in it.  What
    is claimed is in EcSpec.v, as for C59 and C60, which are the case of
    secp256k1. *)
From Coq Require Import ZArith Znumtheory List Lia Bool.
From Verif Require Import PyBase NtModel EcModel EcSpec EcProofs EcOrder EcLib KeyModel PropsKey PropsSign.
Import ListNotations.
Open Scope Z_scope.

(** The points of a curve of the library, given by their coordinates. *)
Definition curve_of (cv : curve_info) : curve := g_curve (cv_gen cv).
Definition on (cv : curve_info) (P : option (Z * Z)) : Prop := on_curve (c_p (curve_of cv)) (c_a (curve_of cv)) (c_b (curve_of cv)) P.
Definition cv_times (cv : curve_info) (P : option (Z * Z)) (e : Z) (R : option (Z * Z)) : Prop := multiple_z (c_p (curve_of cv)) (c_a (curve_of cv)) P e R.
Definition cv_sum (cv : curve_info) (P Q R : option (Z * Z)) : Prop := line_sum (c_p (curve_of cv)) (c_a (curve_of cv)) P Q R.
(** The curves as the standards FIPS 186 and SEC 2 give them. *)
Example curves_are : 
  map (fun cv => c_p (curve_of cv)) curves = [2 ^ 192 - 2 ^ 64 - 1; 2 ^ 224 - 2 ^ 96 + 1; 2 ^ 256 - 2 ^ 224 + 2 ^ 192 + 2 ^ 96 - 1; 2 ^ 384 - 2 ^ 128 - 2 ^ 96 + 2 ^ 32 - 1; 2 ^ 521 - 1; 2 ^ 256 - 2 ^ 32 - 977] /\
  map (fun cv => c_a (curve_of cv)) curves = [-3; -3; -3; -3; -3; 0].
Proof. split; vm_compute; reflexivity. Qed.

(** The field and the order are primes, and the generator is a point of that
    order. *)
Theorem C125_parameters cv : In cv curves -> prime (c_p (curve_of cv)) /\ prime (cv_order cv) /\ on cv (coords (gen_point (cv_gen cv))) /\
  forall k R, on cv R -> cv_times cv (coords (gen_point (cv_gen cv))) k R -> R = None <-> (cv_order cv | k).
Proof.
  intro I. destruct (C37_parameters cv I) as (HG & Hn & Hy & _). pose proof (gen_onc (cv_gen cv) HG Hn Hy) as Og.
  split; [apply HG|]. split; [exact (ok_n (cv_gen cv) HG)|]. split; [exact Og|]. intros k R HR M.
  assert (0 < cv_order cv) as Pn by (destruct HG as (_ & _ & X & _); unfold cv_order; lia).
  assert (on cv None) as HO by exact Logic.I.
  assert (cv_times cv (coords (gen_point (cv_gen cv))) 0 None) as M0 by (exact (ltac:(unfold cv_times, multiple_z; cbn; constructor))).
  pose proof (distinct_lib (cv_gen cv) HG (coords (gen_point (cv_gen cv))) k 0 R None Og ltac:(discriminate) HR HO M M0) as D.
  rewrite D. rewrite Z.mod_0_l by (unfold cv_order in Pn; lia). split; intro H; [apply Z.mod_divide; [unfold cv_order in *; lia|exact H]|apply Z.mod_divide in H; [exact H|unfold cv_order in *; lia]].
Qed.
(** P * e is the e-fold sum for every integer e if P carries its order, as
    generators and public keys do. *)
Theorem C125_scalar_multiplication cv P e : In cv curves -> on cv (coords P) -> p_order P = cv_order cv ->
  exists R, ec_mul (curve_of cv) P e = Ok R /\ on cv (coords R) /\ cv_times cv (coords P) e (coords R) /\ (p_order R = 0 \/ R = P).
Proof.
  intros I HP He. destruct (C37_parameters cv I) as (HG & Hn & Hy & _). destruct (mul_lib _ HG P e) as (R & E & HR & M & O & _); [exact HP|left; exact He|exists R; repeat (split; [assumption|]); exact O].
Qed.
(** For a point without order, up to almost twice the order; the first
    exception is that of C59. *)
Theorem C125_scalar_without_order cv P e : In cv curves -> on cv (coords P) -> p_order P = 0 -> 0 <= e -> e < 2 * cv_order cv - 2 \/ (e + 1) mod cv_order cv <> 0 ->
  exists R, ec_mul (curve_of cv) P e = Ok R /\ on cv (coords R) /\ cv_times cv (coords P) e (coords R) /\ (p_order R = 0 \/ R = P).
Proof.
  intros I HP Ho H0 He. destruct (C37_parameters cv I) as (HG & Hn & Hy & _). destruct (mul_lib _ HG P e) as (R & E & HR & M & O & _); [exact HP| |exists R; repeat (split; [assumption|]); exact O].
  destruct He as [H|H]; [right; split; [exact Ho|]; split; [exact H0|left; exact H]|].
  right. split; [exact Ho|]. split; [exact H0|]. right. intro D. apply H. apply Zdivide_mod. exact D.
Qed.
Theorem C125_sum_is_a_function cv P e : In cv curves -> on cv P -> exists! R, on cv R /\ cv_times cv P e R.
Proof. intro I. destruct (C37_parameters cv I) as (HG & _). exact (mul_fun_lib (cv_gen cv) HG P e). Qed.
Theorem C125_doubling_and_addition cv P Q : In cv curves -> on cv (coords P) -> on cv (coords Q) ->
  (exists R, ec_add (curve_of cv) P Q = Ok R /\ on cv (coords R) /\ cv_sum cv (coords P) (coords Q) (coords R)) /\
  (exists R, ec_double (curve_of cv) P = Ok R /\ on cv (coords R) /\ cv_sum cv (coords P) (coords P) (coords R)).
Proof. intros I HP HQ. destruct (C37_parameters cv I) as (HG & _). split; [exact (add_lib (curve_of cv) (gen_c _ HG) P Q HP HQ)|exact (double_lib (cv_gen cv) HG P HP)]. Qed.
Theorem C125_group cv P Q R : In cv curves -> on cv (coords P) -> on cv (coords Q) -> on cv (coords R) ->
  (exists PQ QP, ec_add (curve_of cv) P Q = Ok PQ /\ ec_add (curve_of cv) Q P = Ok QP /\ on cv (coords PQ) /\ point_eqb PQ QP = true) /\
  (exists PQ QR S S', ec_add (curve_of cv) P Q = Ok PQ /\ ec_add (curve_of cv) Q R = Ok QR /\ ec_add (curve_of cv) PQ R = Ok S /\ ec_add (curve_of cv) P QR = Ok S' /\ point_eqb S S' = true) /\
  ec_add (curve_of cv) P PInf = Ok P /\ ec_add (curve_of cv) PInf P = Ok P /\
  (exists N, on cv (coords N) /\ ec_add (curve_of cv) P N = Ok PInf).
Proof. intro I. destruct (C37_parameters cv I) as (HG & _). exact (group_lib (cv_gen cv) HG P Q R). Qed.
Theorem C125_order cv P : In cv curves -> on cv (coords P) -> p_order P = 0 \/ p_order P = cv_order cv -> ec_mul (curve_of cv) P (cv_order cv) = Ok PInf.
Proof. intro I. destruct (C37_parameters cv I) as (HG & _). exact (order_lib (cv_gen cv) HG P). Qed.
(** Every point is exactly one multiple of the generator. *)
Theorem C125_cyclic cv R : In cv curves -> on cv R -> exists! k, 0 <= k < cv_order cv /\ cv_times cv (coords (gen_point (cv_gen cv))) k R.
Proof. intro I. destruct (C37_parameters cv I) as (HG & Hn & Hy & _). exact (cyclic_lib (cv_gen cv) HG R Hy). Qed.
Theorem C125_point_is_valid cv x y : In cv curves -> exists v, point_is_valid (cv_gen cv) x y = Ok v /\
  (v = true <-> 0 <= x < cv_order cv /\ 0 <= y < cv_order cv /\ on cv (Some (x, y))).
Proof.
  intro I. destruct (C37_parameters cv I) as (HG & Hn & Hy & _). destruct (valid_lib _ HG x y Hn) as (v & E & H). exists v. split; [exact E|]. rewrite H. clear H E. unfold on, on_curve, cv_order, curve_of.
  split; [intros (H1 & H2 & D); repeat split; try lia; exact D|intros (H1 & H2 & _ & _ & D); repeat split; try lia; exact D].
Qed.
(** The generator of every curve is below the order, so it is accepted as a
    public key and is the key of the private key 1. *)
Theorem C125_generators cv : In cv curves -> 1 < cv_order cv /\ g_x (cv_gen cv) < cv_order cv /\ g_y (cv_gen cv) < cv_order cv.
Proof. intro I. cbn [In curves] in I. destruct I as [<-|[<-|[<-|[<-|[<-|[<-|[]]]]]]]; (split; [vm_compute; reflexivity|]; split; vm_compute; reflexivity). Qed.
Example C125_applies cv : In cv curves -> exists k, sk_from_secret_exponent cv 1 = Ok k /\ is_vkey cv (sk_vk k) (g_x (cv_gen cv)) (g_y (cv_gen cv)).
Proof.
  intro I. destruct (C125_generators cv I) as (O1 & Gx & Gy). destruct (C37_signing_key cv 1 I) as (x & y & M & H); [lia|].
  assert (on_cv cv x y) as On.
  { destruct (C37_parameters cv I) as (HG & Hn & Hy & _). pose proof (gen_onc (cv_gen cv) HG Hn Hy) as Og.
    exact (proj2 (proj2 (multiple_on _ (gen_c _ HG) _ _ _ Og M))). }
  destruct (first_multiple cv x y I M On) as (-> & ->). destruct H as [(_ & _ & k & E & K & _)|(N & _)]; [exists k; split; assumption|exfalso; apply N; split; assumption].
Qed.

(** ** Assumptions *)

Print Assumptions C125_parameters.
Print Assumptions C125_scalar_multiplication.
Print Assumptions C125_scalar_without_order.
Print Assumptions C125_sum_is_a_function.
Print Assumptions C125_doubling_and_addition.
Print Assumptions C125_group.
Print Assumptions C125_order.
Print Assumptions C125_cyclic.
Print Assumptions C125_point_is_valid.
Print Assumptions C125_generators.
