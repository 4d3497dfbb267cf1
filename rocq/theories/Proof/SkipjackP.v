From Coq Require Import NArith Arith List Bool Lia.
From Verif Require Import Lib.Word Lib.Res Lib.Bytes Lib.BlockLemmas Lib.Bij Lib.Feistel Spec.Block
  Model.LoadStore Model.BlockApi Model.Table Model.Skipjack Proof.TableP.
Import ListNotations.
Local Open Scope N_scope.

Lemma sj_s_inw x : inw 8 (tab8 sj_s x).
Proof. apply tab8_inw, words_okb. vm_compute. reflexivity. Qed.

(** the high byte changes depending on the low byte and the other way round *)
Lemma sj_hi_pbij k : pbij (inw 16) (sj_hi k) (sj_hi k).
Proof.
  assert (H : pinv (inw 16) (sj_hi k) (sj_hi k)).
  { intros x Hx. split; [unfold sj_hi; wb|].
    assert (E : byte (sj_hi k x) = byte x).
    { unfold sj_hi, byte, wshl. apply N.bits_inj. intros i. change 255 with (N.ones 8).
      rewrite !N.land_spec, N.lxor_spec. destruct (N.lt_ge_cases i 8).
      - rewrite mask_spec, N.shiftl_spec_low by assumption. now rewrite ?andb_false_l, ?andb_false_r, xorb_false_r.
      - rewrite N.ones_spec_high by assumption. now rewrite !andb_false_r. }
    unfold sj_hi at 1. rewrite E. unfold sj_hi. apply lxor_cancel. }
  now split.
Qed.
Lemma sj_lo_pbij k : pbij (inw 16) (sj_lo k) (sj_lo k).
Proof.
  assert (H : pinv (inw 16) (sj_lo k) (sj_lo k)).
  { intros x Hx. split.
    - unfold sj_lo. apply inw_lxor; [exact Hx|]. apply (inw_mono 8); [discriminate|apply sj_s_inw].
    - assert (E : wshr (sj_lo k x) 8 = wshr x 8).
      { unfold sj_lo, wshr. rewrite N.shiftr_lxor. rewrite (N.shiftr_eq_0 (tab8 _ _)); [apply N.lxor_0_r|].
        pose proof (sj_s_inw (N.lxor (N.shiftr x 8) k)) as S. unfold inw in S.
        destruct (N.eq_dec (tab8 sj_s (N.lxor (N.shiftr x 8) k)) 0) as [->|Z]; [reflexivity|].
        apply N.log2_lt_pow2; [lia|exact S]. }
      unfold sj_lo at 1. rewrite E. unfold sj_lo. apply lxor_cancel. }
  now split.
Qed.

Lemma sj_g_pbij k0 k1 k2 k3 : pbij (inw 16) (sj_g k0 k1 k2 k3) (sj_ig k0 k1 k2 k3).
Proof.
  unfold sj_g, sj_ig.
  apply (pbij_comp _ (fun x => sj_hi k2 (sj_lo k1 (sj_hi k0 x))) (fun x => sj_hi k0 (sj_lo k1 (sj_hi k2 x))) (sj_lo k3) (sj_lo k3)); [|apply sj_lo_pbij].
  apply (pbij_comp _ (fun x => sj_lo k1 (sj_hi k0 x)) (fun x => sj_hi k0 (sj_lo k1 x)) (sj_hi k2) (sj_hi k2)); [|apply sj_hi_pbij].
  apply (pbij_comp _ (sj_hi k0) (sj_hi k0) (sj_lo k1) (sj_lo k1)); [apply sj_hi_pbij|apply sj_lo_pbij].
Qed.

Definition sj_fine (st : sj_stmt) : bool :=
  match st with
  | SG d _ _ _ _ => (d <? 4)%nat
  | SX d s c => (d <? 4)%nat && negb (d =? s)%nat && (c <? 65536)
  end.

Lemma sj_exec_pbij k st : sj_fine st = true ->
  pbij (regs 16 4) (sj_exec sj_g k st) (sj_exec sj_ig k st).
Proof.
  destruct st as [d k0 k1 k2 k3|d s c]; cbn [sj_fine sj_exec]; intros H.
  - apply Nat.ltb_lt in H.
    apply (pbij_reg 16 4 d (fun _ v => sj_g (nth k0 k 0) (nth k1 k 0) (nth k2 k 0) (nth k3 k 0) v)
      (fun _ v => sj_ig (nth k0 k 0) (nth k1 k 0) (nth k2 k 0) (nth k3 k 0) v)); auto; intros x u _ Hu; now apply sj_g_pbij.
  - rewrite !andb_true_iff in H. destruct H as [[H1 H2] H3]. apply Nat.ltb_lt in H1. apply N.ltb_lt in H3.
    apply negb_true_iff, Nat.eqb_neq in H2.
    apply (pbij_reg 16 4 d (fun x v => N.lxor v (N.lxor (nth s x 0) c)) (fun x v => N.lxor v (N.lxor (nth s x 0) c))); auto.
    + intros x v u. now rewrite nth_upd_neq.
    + intros x v u. now rewrite nth_upd_neq.
    + intros x u Hx Hu. split; [|apply lxor_cancel]. apply inw_lxor; [exact Hu|]. apply inw_lxor; [exact (regs_nth 16 4 x s Hx)|exact H3].
    + intros x u Hx Hu. split; [|apply lxor_cancel]. apply inw_lxor; [exact Hu|]. apply inw_lxor; [exact (regs_nth 16 4 x s Hx)|exact H3].
Qed.

Lemma sj_dec_rev : sj_dec = rev sj_enc. Proof. reflexivity. Qed.
Lemma sj_enc_fine : forallb sj_fine sj_enc = true. Proof. vm_compute. reflexivity. Qed.

(** words in reverse order *)
Lemma sj_io_bij : bij_on (blk 8) (regs 16 4) (fun b => Ok (sj_load b)) (fun x => Ok (sj_store x)).
Proof.
  destruct (ld4_bij codec16l) as [B1 B2]. split.
  - intros b Hb. destruct (B1 b Hb) as (y & E & Hy & E2). apply Ok_inj in E. apply Ok_inj in E2.
    destruct y as [[[w0 w1] w2] w3]. unfold ld4 in E. injection E. intros E_3 E_2 E_1 E_0.
    change (2 * 2)%nat with 4%nat in E_2. change (3 * 2)%nat with 6%nat in E_3.
    exists (sj_load b). split; [reflexivity|]. unfold sj_load. rewrite E_0, E_1, E_2, E_3.
    destruct Hy as (Y0 & Y1 & Y2 & Y3). split; [regs_list|].
    unfold sj_store. cbn [nth]. f_equal. exact E2.
  - intros x Hx. list_cases Hx. destruct (B2 (n2, n1, n0, n)) as (b & E & Hb & E2); [repeat split; assumption|].
    apply Ok_inj in E. apply Ok_inj in E2. exists b. split; [unfold sj_store; cbn [nth]; now rewrite <- E|].
    split; [exact Hb|]. unfold ld4 in E2. injection E2. intros E_3 E_2 E_1 E_0.
    change (2 * 2)%nat with 4%nat in E_2. change (3 * 2)%nat with 6%nat in E_3.
    unfold sj_load. now rewrite E_0, E_1, E_2, E_3.
Qed.

Lemma skipjack_bij s : bij_on (blk 8) (blk 8) (skipjack_encrypt s) (skipjack_decrypt s).
Proof.
  assert (B : bij_on (regs 16 4) (regs 16 4) (fun x => Ok (prun (sj_exec sj_g s) sj_enc x))
    (fun x => Ok (prun (sj_exec sj_ig s) sj_dec x))).
  { apply pbij_bij. rewrite sj_dec_rev. apply pbij_run. intros i Hi. apply sj_exec_pbij.
    pose proof sj_enc_fine as F. rewrite forallb_forall in F. now apply F. }
  pose proof (lift_bij (blk 8) (regs 16 4) _ _ _ _ sj_io_bij B) as G.
  eapply bij_ext; [| |exact G]; intros x _; reflexivity.
Qed.

Lemma skipjack_perm r key : key_ok 10 key -> r = 0 \/ r = 32 ->
  exists s, skipjack_create r key = Ok s /\ permutation 8 (skipjack_encrypt s) (skipjack_decrypt s).
Proof.
  intros Hk Hr. exists (skipjack_setup key). split.
  - unfold skipjack_create. rewrite assert_true by now apply key_len_ok_true. now destruct Hr as [->| ->].
  - apply perm_of_bij, skipjack_bij.
Qed.
