From Coq Require Import NArith Arith List Bool Lia.
From Verif Require Import Lib.Word Lib.Res Lib.Bytes Lib.Bij Lib.BlockLemmas Spec.Block
  Model.LoadStore Model.BlockApi Model.Threefish.
Import ListNotations.
Local Open Scope N_scope.

Definition tf_op_ok (n : nat) (o : mixop) : bool :=
  let '(a, b, r) := o in Nat.ltb a n && Nat.ltb b n && negb (Nat.eqb a b) && (r <=? 64).

(** What the three parameter sets have in common: statement tables over existing
    registers, and decryption tables that are the encryption tables reversed. *)
Record tf_good (p : tf_par) : Prop := {
  tg_e1 : forallb (tf_op_ok (tf_n p)) (tf_e1 p) = true;
  tg_e2 : forallb (tf_op_ok (tf_n p)) (tf_e2 p) = true;
  tg_d1 : tf_d1 p = rev (tf_e2 p);
  tg_d2 : tf_d2 p = rev (tf_e1 p);
}.
Lemma threefish256_good : tf_good threefish256. Proof. split; reflexivity. Qed.
Lemma threefish512_good : tf_good threefish512. Proof. split; reflexivity. Qed.
Lemma threefish1024_good : tf_good threefish1024. Proof. split; reflexivity. Qed.

Lemma tf_mix_bij n o : tf_op_ok n o = true -> pbij (regs 64 n) (tf_mix o) (tf_unmix o).
Proof.
  destruct o as [[a b] r]. unfold tf_op_ok. rewrite !andb_true_iff. intros [[[Ha Hb] Hab] Hr].
  apply Nat.ltb_lt in Ha. apply Nat.ltb_lt in Hb. apply N.leb_le in Hr.
  apply negb_true_iff, Nat.eqb_neq in Hab. unfold tf_mix, tf_unmix.
  apply (pbij_comp _ (fun x => upd x a (wadd 64 (nth a x 0) (nth b x 0)))
    (fun x => upd x a (wsub 64 (nth a x 0) (nth b x 0)))
    (fun x => upd x b (N.lxor (rol 64 (nth b x 0) r) (nth a x 0)))
    (fun x => upd x b (ror 64 (N.lxor (nth b x 0) (nth a x 0)) r))).
  - apply (pbij_reg 64 n a (fun x u => wadd 64 u (nth b x 0)) (fun x u => wsub 64 u (nth b x 0))); auto;
      intros; try (rewrite nth_upd_neq by congruence; reflexivity).
    + split; [wb|apply wadd_wsub; wb]. now apply regs_nth with n.
    + split; [wb|apply wsub_wadd; wb]. now apply regs_nth with n.
  - apply (pbij_reg 64 n b (fun x u => N.lxor (rol 64 u r) (nth a x 0)) (fun x u => ror 64 (N.lxor u (nth a x 0)) r)); auto;
      intros; try (rewrite nth_upd_neq by congruence; reflexivity).
    + assert (inw 64 (nth a x 0)) by now apply regs_nth with n.
      split; [wb|]. rewrite lxor_cancel. now apply ror_rol.
    + assert (inw 64 (nth a x 0)) by now apply regs_nth with n.
      split; [wb|]. rewrite rol_ror by (wb || lia). apply lxor_cancel.
Qed.

Lemma tf_mixes_bij n l : forallb (tf_op_ok n) l = true ->
  pbij (regs 64 n) (prun tf_mix l) (prun tf_unmix (rev l)).
Proof.
  intros H. apply pbij_run. intros i Hi. apply tf_mix_bij.
  rewrite forallb_forall in H. now apply H.
Qed.

(** Adding a constant to each register. *)
Lemma regs_map_add n (f : nat -> N) m : (m <= n)%nat -> (forall i, inw 64 (f i)) ->
  pbij (regs 64 n) (prun (fun i y => upd y i (wadd 64 (nth i y 0) (f i))) (seq 0 m))
                   (prun (fun i y => upd y i (wsub 64 (nth i y 0) (f i))) (rev (seq 0 m))).
Proof.
  intros Hm Hf. apply pbij_run. intros i Hi. apply in_seq in Hi.
  apply (pbij_reg 64 n i (fun _ u => wadd 64 u (f i)) (fun _ u => wsub 64 u (f i))); auto; try lia; intros.
  - split; [wb|now apply wadd_wsub].
  - split; [wb|now apply wsub_wadd].
Qed.

(** The C code subtracts in the order 0, 1, ...; registers are independent. *)
Lemma prun_upd_comm (g : nat -> N -> N) l i x : ~ In i l ->
  prun (fun i y => upd y i (g i (nth i y 0))) l (upd x i (g i (nth i x 0))) =
  (let y := prun (fun i y => upd y i (g i (nth i y 0))) l x in upd y i (g i (nth i y 0))).
Proof.
  revert x. induction l as [|j l IH]; intros x H; [reflexivity|].
  cbn [prun fold_left]. change (fold_left (fun y i0 => upd y i0 (g i0 (nth i0 y 0))) l) with (prun (fun i y => upd y i (g i (nth i y 0))) l).
  rewrite <- IH by (intros Hi; apply H; now right).
  assert (Hij : i <> j) by (intros ->; apply H; now left).
  f_equal. rewrite !nth_upd_neq by congruence.
  generalize (g j (nth j x 0)) (g i (nth i x 0)). intros a b. clear -Hij.
  revert i j Hij; induction x as [|h t IH]; intros [|i] [|j] H; cbn; auto; try congruence.
  f_equal. apply IH. congruence.
Qed.

Lemma prun_upd_rev (g : nat -> N -> N) l x : NoDup l ->
  prun (fun i y => upd y i (g i (nth i y 0))) (rev l) x = prun (fun i y => upd y i (g i (nth i y 0))) l x.
Proof.
  intros H. revert x. induction H as [|i l Hi Hl IH]; intros x; [reflexivity|].
  cbn [rev]. rewrite prun_app, IH. cbn [prun fold_left].
  symmetry. apply (prun_upd_comm g l i x Hi).
Qed.

Section Tf.
  Variable p : tf_par.
  Hypothesis G : tf_good p.
  Variable s : threefish.
  Hypothesis Hk : words_ok 64 (tf_k s).
  Let n := tf_n p.

  Lemma tf_sub_inw r i : inw 64 (tf_sub p s r i).
  Proof.
    unfold tf_sub. repeat match goal with |- context [Nat.eqb ?a ?b] => destruct (Nat.eqb a b) end; wb.
  Qed.

  Lemma tf_add_bij r : pbij (regs 64 n) (tf_add p s r) (tf_unadd p s r).
  Proof.
    eapply pbij_ext; [| |apply (regs_map_add n (tf_sub p s r) n)]; auto.
    - intros x _. unfold tf_unadd. apply (prun_upd_rev (fun i u => wsub 64 u (tf_sub p s r i))). apply seq_NoDup.
    - intros i. apply tf_sub_inw.
  Qed.

  Lemma tf_body_bij r : pbij (regs 64 n) (tf_enc_body p s r) (tf_dec_body p s r).
  Proof.
    pose proof (tf_add_bij r) as A1. pose proof (tf_add_bij (S r)) as A2.
    pose proof (tf_mixes_bij _ _ (tg_e1 p G)) as M1. pose proof (tf_mixes_bij _ _ (tg_e2 p G)) as M2.
    rewrite <- (tg_d1 p G) in M2. rewrite <- (tg_d2 p G) in M1.
    exact (pbij_comp _ _ _ _ _ (pbij_comp _ _ _ _ _ (pbij_comp _ _ _ _ _ M1 A1) M2) A2).
  Qed.

  Lemma tf_enc_loop_eq m : forall i fuel x, (m <= fuel)%nat ->
    tf_enc_loop p s fuel (2 * i + 1) (2 * (i + m)) x = pfor m i (fun j => tf_enc_body p s (2 * j + 1)) x.
  Proof.
    induction m as [|m IH]; intros i fuel x H.
    - destruct fuel; cbn [tf_enc_loop]; [reflexivity|].
      destruct (Nat.leb_spec (2 * i + 1) (2 * (i + 0))); [lia|reflexivity].
    - destruct fuel as [|fuel]; [lia|]. cbn [tf_enc_loop].
      destruct (Nat.leb_spec (2 * i + 1) (2 * (i + S m))); [|lia].
      replace (S (S (2 * i + 1))) with (2 * S i + 1)%nat by lia.
      replace (2 * (i + S m))%nat with (2 * (S i + m))%nat by lia. rewrite IH by lia. reflexivity.
  Qed.

  Lemma tf_dec_loop_eq m x :
    tf_dec_loop p s (2 * m) x = pford m (fun j => tf_dec_body p s (2 * j + 1)) x.
  Proof.
    revert x; induction m as [|m IH]; intros x; [reflexivity|].
    replace (2 * S m)%nat with (S (S (2 * m))) by lia. cbn [tf_dec_loop pford].
    rewrite IH. now replace (S (2 * m)) with (2 * m + 1)%nat by lia.
  Qed.

  Lemma tf_bij m : N.to_nat (wshr (tf_rounds s) 2) = (2 * m)%nat ->
    bij_on (blk (8 * n)) (blk (8 * n)) (tf_encrypt p s) (tf_decrypt p s).
  Proof.
    intros Hm. unfold tf_encrypt, tf_decrypt. rewrite Hm.
    apply (lift_bij (blk (8 * n)) (regs 64 n) _ _
      (fun x => Ok (tf_enc_loop p s (2 * m) 1 (2 * m) (tf_add p s 0 x)))
      (fun x => Ok (tf_unadd p s 0 (tf_dec_loop p s (2 * m) x)))).
    - apply (loads_bij codec64l).
    - apply pbij_bij.
      eapply pbij_ext; [| |apply (pbij_comp _ _ _ _ _ (tf_add_bij 0)
        (pbij_loop (regs 64 n) m (fun j => tf_enc_body p s (2 * j + 1)) (fun j => tf_dec_body p s (2 * j + 1))
           (fun j _ => tf_body_bij (2 * j + 1))))].
      + intros x _. symmetry. apply (tf_enc_loop_eq m 0). lia.
      + intros x _. now rewrite tf_dec_loop_eq.
  Qed.
End Tf.

Lemma words_fold_lxor w l x : words_ok w l -> inw w x -> inw w (fold_left N.lxor l x).
Proof.
  intros H. revert x. induction H as [|a l Ha Hl IH]; intros x Hx; [exact Hx|].
  cbn [fold_left]. apply IH. wb.
Qed.

Lemma tf_setup_k p r key : bytes_ok key -> words_ok 64 (tf_k (tf_setup p r key)).
Proof.
  intros Hb. unfold tf_setup. cbn [tf_k]. destruct (key64l_ok key (tf_n p) Hb) as [_ W].
  apply Forall_app. split; [exact W|]. constructor; [|constructor].
  apply inw_lxor; [apply words_fold_lxor; [exact W|apply inw_0]|reflexivity].
Qed.

Definition tf_rounds_ok (p : tf_par) (r : N) : Prop :=
  N.even ((if r =? 0 then tf_def p else r) / 4) = true.

Lemma tf_rounds_even p r key : tf_rounds_ok p r ->
  exists m, N.to_nat (wshr (tf_rounds (tf_setup p r key)) 2) = (2 * m)%nat.
Proof.
  unfold tf_rounds_ok. intros H. apply N.even_spec in H. destruct H as [m Hm]. exists (N.to_nat m).
  unfold wshr. rewrite N.shiftr_div_pow2. cbn [tf_rounds tf_setup]. change (2 ^ 2) with 4.
  rewrite Hm. lia.
Qed.

Lemma tf_perm p r key : tf_good p -> key_ok (tf_maxkey p) key -> tf_rounds_ok p r ->
  exists s, tf_create p r key = Ok s /\ permutation (8 * tf_n p) (tf_encrypt p s) (tf_decrypt p s).
Proof.
  intros G Hk Hr. exists (tf_setup p r key). split.
  - unfold tf_create. now rewrite assert_true by now apply key_len_ok_true.
  - destruct (tf_rounds_even p r key Hr) as [m Hm]. apply perm_of_bij.
    apply (tf_bij p G _ (tf_setup_k p r key (proj1 Hk)) m Hm).
Qed.

(** The same after setting any tweak. *)
Lemma tf_perm_tweak p r key tweak : tf_good p -> key_ok (tf_maxkey p) key -> tf_rounds_ok p r ->
  (length tweak <= 16)%nat ->
  exists s s', tf_create p r key = Ok s /\ tf_tweak s tweak = Ok s' /\
    permutation (8 * tf_n p) (tf_encrypt p s') (tf_decrypt p s').
Proof.
  intros G Hk Hr Ht. exists (tf_setup p r key). eexists. split; [|split].
  - unfold tf_create. now rewrite assert_true by now apply key_len_ok_true.
  - unfold tf_tweak. destruct (Nat.leb_spec (length tweak) tf_maxtweak); [reflexivity|].
    unfold tf_maxtweak in *. lia.
  - destruct (tf_rounds_even p r key Hr) as [m Hm]. apply perm_of_bij.
    eapply (tf_bij p G _ _ m). exact Hm.
    Unshelve. apply (tf_setup_k p r key (proj1 Hk)).
Qed.
