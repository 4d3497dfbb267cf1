(** C [while] loops with a bound on the number of iterations.

    [wloop p step a] runs [step] at most [p] times; [step] answers [inl a'] to go
    on and [inr b] to leave the loop.  The bound is binary so that bounds as 2^32
    can be written; evaluation stops when the loop is left. *)
From Coq Require Import NArith PArith Arith List Lia.

Fixpoint wloop {A B} (p : positive) (step : A -> A + B) (a : A) : A + B :=
  match p with
  | xH => step a
  | xO q => match wloop q step a with
            | inl a' => wloop q step a'
            | inr b => inr b
            end
  | xI q => match step a with
            | inl a1 => match wloop q step a1 with
                        | inl a' => wloop q step a'
                        | inr b => inr b
                        end
            | inr b => inr b
            end
  end.

Fixpoint nloop {A B} (n : nat) (step : A -> A + B) (a : A) : A + B :=
  match n with
  | O => inl a
  | S n' => match step a with inl a' => nloop n' step a' | inr b => inr b end
  end.

Lemma nloop_add {A B} n m (step : A -> A + B) a :
  nloop (n + m) step a = match nloop n step a with inl a' => nloop m step a' | inr b => inr b end.
Proof.
  revert a; induction n as [|n IH]; intros a; cbn [nloop Nat.add]; [reflexivity|].
  destruct (step a); [apply IH|reflexivity].
Qed.

Lemma wloop_nloop {A B} p (step : A -> A + B) a : wloop p step a = nloop (Pos.to_nat p) step a.
Proof.
  revert a; induction p as [q IH|q IH|]; intros a; cbn [wloop].
  - rewrite Pos2Nat.inj_xI. cbn [nloop Nat.mul]. destruct (step a) as [a1|b]; [|reflexivity].
    rewrite Nat.add_0_r, nloop_add, IH. destruct (nloop (Pos.to_nat q) step a1); [apply IH|reflexivity].
  - rewrite Pos2Nat.inj_xO. cbn [nloop Nat.mul].
    rewrite Nat.add_0_r, nloop_add, IH. destruct (nloop (Pos.to_nat q) step a); [apply IH|reflexivity].
  - change (Pos.to_nat 1) with 1. cbn [nloop]. now destruct (step a).
Qed.

(** Once left, a larger bound changes nothing. *)
Lemma nloop_more {A B} n m (step : A -> A + B) a b :
  nloop n step a = inr b -> n <= m -> nloop m step a = inr b.
Proof.
  intros H L. replace m with (n + (m - n)) by lia. now rewrite nloop_add, H.
Qed.
