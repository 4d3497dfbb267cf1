(** Decide equations between exclusive-or sums by cancelling equal terms. *)
From Coq Require Import NArith Arith List Bool Lia.
Import ListNotations.

Inductive xexp := XA (n : nat) | XX (a b : xexp) | X0.

Fixpoint xden (env : list N) (e : xexp) : N :=
  match e with
  | XA n => nth n env 0%N
  | XX a b => N.lxor (xden env a) (xden env b)
  | X0 => 0%N
  end.

(** parity vectors *)
Fixpoint flip (n : nat) (v : list bool) : list bool :=
  match n, v with
  | O, [] => [true]
  | O, b :: v => negb b :: v
  | S n, [] => false :: flip n []
  | S n, b :: v => b :: flip n v
  end.
Fixpoint xnorm (e : xexp) (v : list bool) : list bool :=
  match e with
  | XA n => flip n v
  | XX a b => xnorm b (xnorm a v)
  | X0 => v
  end.
Fixpoint vden (env : list N) (v : list bool) : N :=
  match v with
  | [] => 0%N
  | b :: v => N.lxor (if b then hd 0%N env else 0%N) (vden (tl env) v)
  end.
Fixpoint allf (v : list bool) : bool :=
  match v with [] => true | b :: v => negb b && allf v end.

Lemma hd_nth env : hd 0%N env = nth 0 env 0%N.
Proof. now destruct env. Qed.
Lemma tl_nth n (env : list N) : nth n (tl env) 0%N = nth (S n) env 0%N.
Proof. destruct env; [now destruct n|reflexivity]. Qed.

Lemma flip_ok n v env : vden env (flip n v) = N.lxor (nth n env 0%N) (vden env v).
Proof.
  revert v env. induction n as [|n IH]; intros [|b v] env; cbn [flip vden].
  - now rewrite hd_nth.
  - rewrite hd_nth. destruct b; cbn [negb]; rewrite ?N.lxor_0_l; [|reflexivity].
    now rewrite <- N.lxor_assoc, N.lxor_nilpotent, N.lxor_0_l.
  - rewrite IH. cbn [vden]. now rewrite N.lxor_0_l, tl_nth.
  - rewrite IH, tl_nth. now rewrite <- !N.lxor_assoc, (N.lxor_comm (nth (S n) env 0%N)).
Qed.

Lemma xnorm_ok e v env : vden env (xnorm e v) = N.lxor (xden env e) (vden env v).
Proof.
  revert v. induction e as [n|a IHa b IHb|]; intros v; cbn [xnorm xden].
  - apply flip_ok.
  - rewrite IHb, IHa. now rewrite <- N.lxor_assoc, (N.lxor_comm (xden env b)).
  - now rewrite N.lxor_0_l.
Qed.

Lemma allf_ok v env : allf v = true -> vden env v = 0%N.
Proof.
  revert env. induction v as [|b v IH]; intros env H; [reflexivity|].
  cbn in *. apply andb_true_iff in H. destruct H as [H1 H2]. destruct b; [discriminate|].
  now rewrite IH.
Qed.

Lemma xor_decide env a b : allf (xnorm b (xnorm a [])) = true -> xden env a = xden env b.
Proof.
  intros H. apply (allf_ok _ env) in H. rewrite !xnorm_ok in H. cbn [vden] in H.
  rewrite N.lxor_0_r in H. apply N.lxor_eq in H. congruence.
Qed.

Ltac inlist x l :=
  match l with
  | nil => constr:(false)
  | cons x _ => constr:(true)
  | cons _ ?t => inlist x t
  end.
Ltac xatoms t l :=
  match t with
  | N.lxor ?a ?b => let l := xatoms a l in xatoms b l
  | 0%N => l
  | _ => match inlist t l with true => l | false => constr:(cons t l) end
  end.
Ltac xindex x l :=
  match l with
  | cons x _ => constr:(O)
  | cons _ ?t => let n := xindex x t in constr:(S n)
  end.
Ltac xreify t l :=
  match t with
  | N.lxor ?a ?b => let a := xreify a l in let b := xreify b l in constr:(XX a b)
  | 0%N => constr:(X0)
  | _ => let n := xindex t l in constr:(XA n)
  end.

(** Solve [a = b] where both are exclusive-or sums with the same terms mod 2. *)
Ltac xor_solve :=
  match goal with |- ?a = ?b =>
    let l := xatoms a (@nil N) in
    let l := xatoms b l in
    let ea := xreify a l in
    let eb := xreify b l in
    exact (xor_decide l ea eb eq_refl)
  end.

Example xor_solve_works : forall a b c d, N.lxor (N.lxor a b) (N.lxor c (N.lxor b d)) = N.lxor d (N.lxor 0%N (N.lxor a c)).
Proof. intros. xor_solve. Qed.
