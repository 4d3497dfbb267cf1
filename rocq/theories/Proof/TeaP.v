From Coq Require Import NArith PArith Arith List Bool Lia.
From Verif Require Import Lib.Word Lib.Res Lib.While Lib.Bytes Lib.BlockLemmas Spec.Block
  Model.LoadStore Model.BlockApi Model.Tea.
Import ListNotations.
Local Open Scope N_scope.

(** value of [c] after [i] rounds *)
Definition tea_ci (i : nat) : N := (tea_delta * N.of_nat i) mod 2 ^ 32.

Definition tea_enc_round (s : tea) (j : nat) (x : N * N) : N * N :=
  let k i := nth i (tea_k s) 0 in
  let c := tea_ci (S j) in
  let x0 := wadd 32 (fst x) (tea_f (snd x) c (k 0%nat) (k 1%nat)) in
  let x1 := wadd 32 (snd x) (tea_f x0 c (k 2%nat) (k 3%nat)) in
  (x0, x1).

Definition tea_dec_round (s : tea) (j : nat) (x : N * N) : N * N :=
  let k i := nth i (tea_k s) 0 in
  let c := tea_ci (S j) in
  let x1 := wsub 32 (snd x) (tea_f (fst x) c (k 2%nat) (k 3%nat)) in
  let x0 := wsub 32 (fst x) (tea_f x1 c (k 0%nat) (k 1%nat)) in
  (x0, x1).

(** inverse of the odd constant modulo 2^32 *)
Lemma tea_delta_inv : (0x144cbc89 * tea_delta) mod 2 ^ 32 = 1.
Proof. reflexivity. Qed.

Lemma tea_ci_inj i j : N.of_nat i < 2 ^ 32 -> N.of_nat j < 2 ^ 32 -> tea_ci i = tea_ci j -> i = j.
Proof.
  unfold tea_ci. intros Hi Hj H.
  assert (G : forall k, N.of_nat k < 2 ^ 32 ->
     N.of_nat k = (0x144cbc89 * ((tea_delta * N.of_nat k) mod 2 ^ 32)) mod 2 ^ 32).
  { intros k Hk. rewrite N.mul_mod_idemp_r by discriminate.
    rewrite N.mul_assoc. rewrite <- N.mul_mod_idemp_l by discriminate.
    rewrite tea_delta_inv. rewrite N.mul_1_l. symmetry. now apply N.mod_small. }
  apply Nat2N.inj. rewrite (G i Hi), (G j Hj). now rewrite H.
Qed.

Lemma tea_ci_0 : tea_ci 0 = 0.
Proof. reflexivity. Qed.
Lemma tea_ci_inw i : inw 32 (tea_ci i).
Proof. unfold inw, tea_ci. apply N.mod_lt. discriminate. Qed.
Lemma tea_ci_S i : tea_ci (S i) = wadd 32 (tea_ci i) tea_delta.
Proof.
  unfold tea_ci. rewrite wadd_mod, N.add_mod_idemp_l by discriminate.
  f_equal. rewrite Nat2N.inj_succ. lia.
Qed.
Lemma tea_ci_pred i : wsub 32 (tea_ci (S i)) tea_delta = tea_ci i.
Proof. rewrite tea_ci_S. apply wadd_wsub; [apply tea_ci_inw|reflexivity]. Qed.

Section Run.
  Variable s : tea.
  Variable n : nat.
  Hypothesis Hn : N.of_nat n < 2 ^ 32.
  Hypothesis Hc : tea_c s = tea_ci n.

  Lemma tea_enc_nloop m i x : (i + m = n)%nat ->
    nloop (S m) (tea_enc_step s) (tea_ci i, fst x, snd x) = inr (pfor m i (tea_enc_round s) x).
  Proof.
    revert i x. induction m as [|m IH]; intros i x Him.
    - cbn [nloop pfor]. unfold tea_enc_step at 1. rewrite Hc.
      replace i with n by lia. rewrite N.eqb_refl. now destruct x.
    - remember (S m) as m'. cbn [nloop]. unfold tea_enc_step at 1. rewrite Hc.
      assert (E : (tea_ci i =? tea_ci n) = false).
      { apply N.eqb_neq. intros E. apply tea_ci_inj in E; lia. }
      rewrite E. subst m'. cbn [pfor]. rewrite <- IH by lia.
      unfold tea_enc_round. cbn [fst snd]. now rewrite tea_ci_S.
  Qed.

  Lemma tea_dec_nloop i x : (i <= n)%nat ->
    nloop (S i) (tea_dec_step s) (tea_ci i, fst x, snd x) = inr (pford i (tea_dec_round s) x).
  Proof.
    revert x. induction i as [|i IH]; intros x Hi.
    - cbn [nloop pford]. unfold tea_dec_step at 1. rewrite tea_ci_0. cbn. now destruct x.
    - remember (S i) as i' eqn:Ei. cbn [nloop]. unfold tea_dec_step at 1.
      assert (E : (tea_ci i' =? 0) = false).
      { apply N.eqb_neq. rewrite <- tea_ci_0. intros E. apply tea_ci_inj in E; lia. }
      rewrite E. subst i'. cbn [pford]. rewrite <- IH by lia.
      unfold tea_dec_round. cbn [fst snd]. now rewrite tea_ci_pred.
  Qed.

  Lemma tea_bound_ok m : N.of_nat m <= 2 ^ 32 -> (m <= Pos.to_nat tea_bound)%nat.
  Proof.
    intros H. change (2 ^ 32) with 4294967296 in H. unfold tea_bound. lia.
  Qed.

  Lemma tea_enc_run x : tea_run (tea_enc_step s) 0 x = Ok (pfor n 0 (tea_enc_round s) x).
  Proof.
    unfold tea_run. rewrite wloop_nloop.
    rewrite (nloop_more (S n) _ _ _ (pfor n 0 (tea_enc_round s) x)); [reflexivity| |].
    - rewrite <- tea_ci_0. now apply tea_enc_nloop.
    - apply tea_bound_ok. lia.
  Qed.

  Lemma tea_dec_run x : tea_run (tea_dec_step s) (tea_c s) x = Ok (pford n (tea_dec_round s) x).
  Proof.
    unfold tea_run. rewrite wloop_nloop.
    rewrite (nloop_more (S n) _ _ _ (pford n (tea_dec_round s) x)); [reflexivity| |].
    - rewrite Hc. now apply tea_dec_nloop.
    - apply tea_bound_ok. lia.
  Qed.
End Run.

Lemma tea_f_inw x c a b : inw 32 (tea_f x c a b).
Proof. unfold tea_f. wb. Qed.
#[local] Hint Resolve tea_f_inw : wb.

Lemma tea_round_bij s j :
  bij_on (@w2 32) (@w2 32) (fun x => Ok (tea_enc_round s j x)) (fun x => Ok (tea_dec_round s j x)).
Proof.
  apply bij_pure; intros [a b] [Ha Hb]; cbn [fst snd] in *;
    unfold tea_enc_round, tea_dec_round, w2; cbn [fst snd].
  - split; [split; wb|]. rewrite !wadd_wsub by wb. reflexivity.
  - split; [split; wb|]. rewrite !wsub_wadd by wb. reflexivity.
Qed.

Lemma tea_bij s n : N.of_nat n < 2 ^ 32 -> tea_c s = tea_ci n ->
  bij_on (blk 8) (blk 8) (tea_encrypt s) (tea_decrypt s).
Proof.
  intros Hn Hc. unfold tea_encrypt, tea_decrypt.
  apply (lift_bij (blk 8) (@w2 32)); [apply (ld2_bij codec32b)|].
  apply bij_ext with (f := mfor n 0 (fun j x => Ok (tea_enc_round s j x)))
                     (g := mford n (fun j x => Ok (tea_dec_round s j x))).
  - intros x _. rewrite (tea_enc_run s n Hn Hc). apply mfor_Ok.
  - intros x _. rewrite (tea_dec_run s n Hn Hc). apply mford_Ok.
  - apply bij_loop. intros j _. apply tea_round_bij.
Qed.

Lemma tea_perm r key : key_ok 16 key -> r < 2 ^ 32 ->
  exists s, tea_create r key = Ok s /\ permutation 8 (tea_encrypt s) (tea_decrypt s).
Proof.
  intros Hk Hr. exists (tea_setup r key). split.
  - unfold tea_create. now rewrite assert_true by now apply key_len_ok_true.
  - apply perm_of_bij. destruct (N.eq_dec r 0) as [->|Hr0].
    + apply (tea_bij _ 32); reflexivity.
    + apply (tea_bij _ (N.to_nat r)); [now rewrite N2Nat.id|].
      unfold tea_setup, tea_ci. cbn [tea_c]. rewrite (proj2 (N.eqb_neq r 0) Hr0).
      unfold wmul. now rewrite mask_mod, N2Nat.id.
Qed.
