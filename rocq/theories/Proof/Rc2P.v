From Coq Require Import NArith Arith List Bool Lia.
From Verif Require Import Lib.Word Lib.Res Lib.Bytes Lib.Bij Lib.BlockLemmas Spec.Block
  Model.LoadStore Model.BlockApi Model.Rc2.
Import ListNotations.
Local Open Scope N_scope.

Lemma rc2_f_inw x a b c k : inw 16 (rc2_f x a b c k).
Proof. unfold rc2_f. wb. Qed.
#[local] Hint Resolve rc2_f_inw : wb.

Lemma rc2_mix_bij k i d a b c n : (d < 4)%nat -> d <> a -> d <> b -> d <> c -> n <= 16 ->
  pbij (regs 16 4) (rc2_mix k i (d, a, b, c, n)) (rc2_unmix k i (d, a, b, c, n)).
Proof.
  intros Hd Ha Hb Hc Hn. unfold rc2_mix, rc2_unmix.
  apply (pbij_reg 16 4 d (fun x u => rol 16 (wadd 16 u (rc2_f x a b c (nth (4 * i + d) k 0))) n)
    (fun x u => wsub 16 (ror 16 u n) (rc2_f x a b c (nth (4 * i + d) k 0)))); auto;
    try (intros; unfold rc2_f; now rewrite !nth_upd_neq by congruence);
    intros x u Hx Hu; (split; [wb|]).
  - now rewrite ror_rol, wadd_wsub by (wb || lia).
  - now rewrite wsub_wadd, rol_ror by (wb || lia).
Qed.

Lemma rc2_mash_bij k d b : words_ok 16 k -> (d < 4)%nat -> d <> b ->
  pbij (regs 16 4) (rc2_mash k (d, b)) (rc2_unmash k (d, b)).
Proof.
  intros Hk Hd Hb. unfold rc2_mash, rc2_unmash. cbn [fst snd].
  apply (pbij_reg 16 4 d (fun x u => wadd 16 u (nth (N.to_nat (N.land (nth b x 0) 63)) k 0))
    (fun x u => wsub 16 u (nth (N.to_nat (N.land (nth b x 0) 63)) k 0))); auto;
    try (intros; now rewrite !nth_upd_neq by congruence);
    intros x u Hx Hu; (split; [wb|]).
  - now rewrite wadd_wsub by wb.
  - now rewrite wsub_wadd by wb.
Qed.

Lemma rc2_round_bij k i : words_ok 16 k ->
  pbij (regs 16 4) (rc2_enc_round k i) (rc2_dec_round k i).
Proof.
  intros Hk. unfold rc2_enc_round, rc2_dec_round.
  apply (pbij_comp (regs 16 4) (prun (rc2_mix k i) rc2_mix_ops) (prun (rc2_unmix k i) rc2_unmix_ops)
    (fun x => if rc2_mashes i then prun (rc2_mash k) rc2_mash_ops x else x)
    (fun x => if rc2_mashes i then prun (rc2_unmash k) rc2_unmash_ops x else x)).
  - change rc2_unmix_ops with (rev rc2_mix_ops). apply pbij_run. intros o Ho.
    repeat destruct Ho as [<-|Ho]; try contradiction Ho; apply rc2_mix_bij; lia.
  - destruct (rc2_mashes i); [|apply pbij_id].
    change rc2_unmash_ops with (rev rc2_mash_ops). apply pbij_run. intros o Ho.
    repeat destruct Ho as [<-|Ho]; try contradiction Ho; apply rc2_mash_bij; (exact Hk || lia).
Qed.

Lemma rc2_sp_ok x : sp_ x < 256.
Proof. unfold sp_. apply bytes_nth. repeat constructor. Qed.

Lemma rc2_expand_ok key : bytes_ok key -> bytes_ok (rc2_expand key).
Proof.
  intros H. unfold rc2_expand. set (n := length key).
  set (t1 := pfor _ _ _ _). assert (H1 : bytes_ok t1).
  { subst t1. apply (pfor_inv (fun _ t => bytes_ok t)).
    - intros j y _ Hy. apply Forall_upd; [exact Hy|apply rc2_sp_ok].
    - apply bytes_app. split; [exact H|apply bytes_repeat0]. }
  set (t2 := upd t1 _ _). assert (H2 : bytes_ok t2) by (apply Forall_upd; [exact H1|apply rc2_sp_ok]).
  generalize (128 - n)%nat. clearbody t2 n. intros m. revert t2 H2. clear. induction m as [|m IH]; intros t H; [exact H|].
  cbn [pford]. apply IH. apply Forall_upd; [exact H|apply rc2_sp_ok].
Qed.

Lemma rc2_perm r key : key_ok 128 key ->
  exists s, rc2_create r key = Ok s /\ permutation 8 (rc2_encrypt s) (rc2_decrypt s).
Proof.
  intros Hk. exists (rc2_setup key). split.
  - unfold rc2_create. now rewrite assert_true by now apply key_len_ok_true.
  - apply perm_of_bij. unfold rc2_encrypt, rc2_decrypt. set (k := rc2_k (rc2_setup key)).
    assert (W : words_ok 16 k) by (apply (words_loads codec16l); now apply rc2_expand_ok, Hk).
    apply (lift_bij (blk 8) (regs 16 4) _ _ (fun x => Ok (pfor 16 0 (rc2_enc_round k) x))
      (fun x => Ok (pford 16 (rc2_dec_round k) x))); [apply (loads_bij codec16l 4)|].
    apply pbij_bij, pbij_loop. intros j _. now apply rc2_round_bij.
Qed.
