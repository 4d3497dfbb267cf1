(** Running the programs of Model/StepCode.v: rules that forget the steps. *)
From Coq Require Import NArith Arith List Bool Lia.
From Verif Require Import Lib.Word Lib.Res Lib.Bytes Spec.Steps Model.StepCode Proof.StepsP.
Import ListNotations.
Local Open Scope nat_scope.

(** the value of an expression *)
Fixpoint ev (s : state) (e : expr) : N := match e with
  | Lit n => n | Var x => vars s x | At a e => arrs s a (N.to_nat (ev s e)) | Un o e => val1 o (ev s e) | Bin o e1 e2 => val2 o (ev s e1) (ev s e2) end.
Lemma eval_ev s e : fst (eval s e) = ev s e.
Proof.
  induction e as [n|x|a e IH|o e IH|o e1 IH1 e2 IH2]; cbn [eval ev]; try reflexivity.
  - destruct (eval s e). cbn [fst] in *. now subst.
  - destruct (eval s e). cbn [fst] in *. now subst.
  - destruct (eval s e1), (eval s e2). cbn [fst] in *. now subst.
Qed.

(** [c] leads from [s] to [s'], with a break or without *)
Definition goes (b : bool) (fuel : nat) (c : stmt) (s s' : state) : Prop := exists t, exec fuel c s = Some (s', t, b).
Definition spins (fuel : nat) (e : expr) (c : stmt) (n : nat) (s s' : state) : Prop := exists t, turns e (exec fuel c) n s = Some (s', t, false).

Section Rules.
  Variable fuel : nat.
  Notation goes b := (goes b fuel).
  Lemma go_skip s : goes false Skip s s.
  Proof. now eexists. Qed.
  Lemma go_break s : goes true Break s s.
  Proof. now eexists. Qed.
  Lemma go_set s x e : goes false (Set_ x e) s (set_var s x (ev s e)).
  Proof. unfold goes. cbn [exec]. rewrite <- eval_ev. destruct (eval s e). now eexists. Qed.
  Lemma go_put s a i e : goes false (Put a i e) s (set_arr s a (N.to_nat (ev s i)) (ev s e)).
  Proof. unfold goes. cbn [exec]. rewrite <- !eval_ev. destruct (eval s i), (eval s e). now eexists. Qed.
  Lemma go_seq b c1 c2 s s1 s2 : goes false c1 s s1 -> goes b c2 s1 s2 -> goes b (Seq c1 c2) s s2.
  Proof. intros [t1 E1] [t2 E2]. unfold goes. cbn [exec]. rewrite E1, E2. now eexists. Qed.
  Lemma go_out c1 c2 s s1 : goes true c1 s s1 -> goes true (Seq c1 c2) s s1.
  Proof. intros [t1 E1]. unfold goes. cbn [exec]. rewrite E1. now eexists. Qed.
  Lemma go_if b e c1 c2 s s' : goes b (if negb (ev s e =? 0)%N then c1 else c2) s s' -> goes b (If e c1 c2) s s'.
  Proof. intros [t E]. unfold goes. cbn [exec]. rewrite <- eval_ev in E. destruct (eval s e) as [v t1]. cbn [fst] in E. cbv zeta. rewrite E. now eexists. Qed.
  Lemma go_while e c s s' : spins fuel e c fuel s s' -> goes false (While e c) s s'.
  Proof. intros [t E]. exists t. exact E. Qed.
  Lemma spin_end e c n s : ev s e = 0%N -> spins fuel e c (S n) s s.
  Proof. intros E. unfold spins. cbn [turns]. rewrite <- eval_ev in E. destruct (eval s e). cbn [fst] in E. rewrite E. now eexists. Qed.
  Lemma spin_turn e c n s s1 s2 : ev s e <> 0%N -> goes false c s s1 -> spins fuel e c n s1 s2 -> spins fuel e c (S n) s s2.
  Proof.
    intros E [t1 E1] [t2 E2]. unfold spins. cbn [turns]. rewrite <- eval_ev in E. destruct (eval s e) as [v t]. cbn [fst] in E.
    rewrite (proj2 (N.eqb_neq v 0) E), E1, E2. now eexists.
  Qed.
  Lemma spin_out e c n s s1 : ev s e <> 0%N -> goes true c s s1 -> spins fuel e c (S n) s s1.
  Proof.
    intros E [t1 E1]. unfold spins. cbn [turns]. rewrite <- eval_ev in E. destruct (eval s e) as [v t]. cbn [fst] in E.
    rewrite (proj2 (N.eqb_neq v 0) E), E1. now eexists.
  Qed.
  Lemma go_all_nil s : goes false (all []) s s.
  Proof. apply go_skip. Qed.
  Lemma go_all_cons b c l s s1 s2 : goes false c s s1 -> goes b (all l) s1 s2 -> goes b (all (c :: l)) s s2.
  Proof. apply go_seq. Qed.
  Lemma go_all_app b l1 l2 s s1 s2 : goes false (all l1) s s1 -> goes b (all l2) s1 s2 -> goes b (all (l1 ++ l2)) s s2.
  Proof.
    revert s. induction l1 as [|c l IH]; intros s H1 H2.
    - destruct H1 as [t H1]. injection H1 as <- _. exact H2.
    - destruct H1 as [t H1]. cbn [all fold_right exec] in H1. destruct (exec fuel c s) as [[[s' t'] []]|] eqn:E; try discriminate.
      fold (all l) in H1. destruct (exec fuel (all l) s') as [[[s3 t3] b3]|] eqn:E3; try discriminate. injection H1 as <- _ ->.
      apply (go_all_cons b c (l ++ l2) s s' s2); [now exists t'|]. apply IH; [now exists t3|exact H2].
  Qed.
End Rules.

(** a run with the same steps from every start that agrees on what is public *)
Definition passes (pa : nat -> bool) (may pv : list nat) (c : stmt) : bool := match check pa may [] pv c with Some _ => true | None => false end.
Lemma fixed_steps fuel c may pv pa (P : state -> Prop) (Q : state -> state -> Prop) s0 : passes pa may pv c = true -> P s0 -> (forall s s', P s -> P s' -> agree pa pv s s') ->
  (forall s, P s -> exists s', goes false fuel c s s' /\ Q s s') ->
  exists t, forall s, P s -> exists s', exec fuel c s = Some (s', t, false) /\ Q s s'.
Proof.
  unfold passes. destruct (check pa may [] pv c) as [l|] eqn:C; [intros _|discriminate]. intros H0 A R. destruct (R s0 H0) as (s0' & [t E0] & _). exists t. intros s Hs. destruct (R s Hs) as (s' & [t' E] & HQ).
  exists s'. split; [|exact HQ]. pose proof (check_ok pa may fuel c _ _ _ C s0 s (A _ _ H0 Hs)) as X. rewrite E0, E in X. cbn [same] in X. destruct X as (_ & -> & _). exact E.
Qed.

Lemma seq_off a n : seq a n = map (Nat.add a) (seq 0 n).
Proof. induction n as [|n IH]; [reflexivity|]. rewrite !seq_S, map_app, <- IH. reflexivity. Qed.
(** the byte order helpers *)
Lemma shl_byte b n : (b < 256)%N -> (n <= 56)%N -> wshl 64 b n = N.shiftl b n.
Proof.
  intros Hb Hn. unfold wshl. apply mask_id. unfold inw. rewrite N.shiftl_mul_pow2.
  apply N.lt_le_trans with (256 * 2 ^ n)%N; [apply N.mul_lt_mono_pos_r; [apply pow2_pos|exact Hb]|].
  change 256%N with (2 ^ 8)%N. rewrite <- N.pow_add_r. apply N.pow_le_mono_r; lia.
Qed.
Lemma run_stl fuel x a o k s : exists s', goes false fuel (all (stl x a o k)) s s' /\ vars s' = vars s /\
  (forall i, i < k -> arrs s' a (o + i) = mask 8 (wshr (vars s x) (N.of_nat (8 * i)))) /\
  (forall b i, b <> a \/ i < o \/ o + k <= i -> arrs s' b i = arrs s b i).
Proof.
  induction k as [|k (s1 & G & V & E & F)].
  - exists s. split; [apply go_all_nil|]. split; [reflexivity|]. split; [intros i Hi; lia|reflexivity].
  - exists (set_arr s1 a (o + k) (mask 8 (wshr (vars s x) (N.of_nat (8 * k))))). split; [|split; [exact V|split]].
    + unfold stl. rewrite seq_S, map_app. apply go_all_app with (s1 := s1); [exact G|]. cbn [map Nat.add].
      eapply go_all_cons; [apply go_put|]. unfold lit. cbn [ev val1]. rewrite Nat2N.id, V. apply go_all_nil.
    + intros i Hi. cbn [arrs set_arr]. rewrite Nat.eqb_refl. cbn [andb]. destruct (Nat.eqb_spec (o + i) (o + k)) as [X|X].
      * assert (i = k) by lia. now subst i.
      * apply E. lia.
    + intros b i H. cbn [arrs set_arr]. destruct (Nat.eqb_spec b a), (Nat.eqb_spec i (o + k)); cbn [andb]; try (apply F; lia). subst. lia.
Qed.
