(** While loops: a step either continues with a new state or stops with a
    result; the bound on the number of steps is a binary number, so that a
    loop with a huge bound runs as long as it needs and no longer. *)
From Coq Require Import ZArith List Lia.
Open Scope Z_scope.

Section Loop.
  Context {A B : Type}.
  Variable step : A -> A + B.
  Fixpoint ploop (n : positive) (a : A) : A + B :=
    match n with
    | xH => step a
    | xO n => match ploop n a with inl a' => ploop n a' | r => r end
    | xI n => match step a with
              | inl a' => match ploop n a' with inl a'' => ploop n a'' | r => r end
              | r => r
              end
    end.
  (** The same with a unary bound. *)
  Fixpoint nloop (n : nat) (a : A) : A + B :=
    match n with
    | O => inl a
    | S k => match step a with inl a' => nloop k a' | r => r end
    end.
  Lemma nloop_add n m a : nloop (n + m) a = match nloop n a with inl a' => nloop m a' | r => r end.
  Proof. revert a. induction n as [|n IH]; intro a; [reflexivity|]. cbn. destruct (step a); [apply IH|reflexivity]. Qed.
  Lemma ploop_nloop n a : ploop n a = nloop (Pos.to_nat n) a.
  Proof.
    revert a. induction n as [n IH|n IH|]; intro a.
    - rewrite Pos2Nat.inj_xI. cbn [ploop nloop]. destruct (step a) as [a'|b]; [|reflexivity]. replace (2 * Pos.to_nat n)%nat with (Pos.to_nat n + Pos.to_nat n)%nat by lia. rewrite nloop_add, IH. destruct (nloop _ a'); [apply IH|reflexivity].
    - rewrite Pos2Nat.inj_xO. cbn [ploop]. replace (2 * Pos.to_nat n)%nat with (Pos.to_nat n + Pos.to_nat n)%nat by lia. rewrite nloop_add, IH. destruct (nloop _ a); [apply IH|reflexivity].
    - change (Pos.to_nat 1) with 1%nat. cbn. now destruct (step a).
  Qed.
  (** Invariant and measure. *)
  Lemma nloop_rule (Inv : A -> Prop) (Post : B -> Prop) (mu : A -> Z) :
    (forall a, Inv a -> match step a with inl a' => Inv a' /\ 0 <= mu a' < mu a | inr b => Post b end) ->
    forall n a, Inv a -> mu a < Z.of_nat n -> 0 <= mu a -> exists b, nloop n a = inr b /\ Post b.
  Proof.
    intros H. induction n as [|n IH]; intros a I M P; [lia|]. cbn. specialize (H a I). destruct (step a) as [a'|b].
    - destruct H as [I' M']. apply IH; [exact I'|lia|lia].
    - now exists b.
  Qed.
  Lemma ploop_rule (Inv : A -> Prop) (Post : B -> Prop) (mu : A -> Z) :
    (forall a, Inv a -> match step a with inl a' => Inv a' /\ 0 <= mu a' < mu a | inr b => Post b end) ->
    forall n a, Inv a -> 0 <= mu a < Z.pos n -> exists b, ploop n a = inr b /\ Post b.
  Proof. intros H n a I M. rewrite ploop_nloop. apply (nloop_rule Inv Post mu H); [exact I|lia|lia]. Qed.
End Loop.
