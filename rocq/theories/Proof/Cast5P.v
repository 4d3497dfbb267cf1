From Coq Require Import NArith Arith List Bool Lia.
From Verif Require Import Lib.Word Lib.Res Lib.Bytes Lib.BlockLemmas Lib.Bij Lib.Feistel Spec.Block
  Model.LoadStore Model.BlockApi Model.Table Model.Cast5 Proof.TableP.
Import ListNotations.
Local Open Scope N_scope.

Lemma c5_s4_inw x : inw 32 (tab8 c5_s4 x).
Proof. apply tab8_inw, words_okb. vm_compute. reflexivity. Qed.
#[local] Hint Resolve c5_s4_inw : wb.

Lemma c5_fn_inw n x km kr : inw 32 (c5_fn n x km kr).
Proof. unfold c5_fn. destruct n as [|[|[|n]]]; unfold c5_f1, c5_f2, c5_f3; wb. Qed.

(** a statement undoes itself *)
Lemma c5_exec_pbij s st : pbij (@w2 32) (c5_exec s st) (c5_exec s st).
Proof.
  assert (H : pinv (@w2 32) (c5_exec s st) (c5_exec s st)).
  { destruct st as [[d n] i]. intros [l r] [Hl Hr]. cbn [fst snd] in Hl, Hr. unfold c5_exec.
    destruct d; cbn [fst snd]; rewrite lxor_cancel; (split; [|reflexivity]); split; cbn [fst snd]; try assumption;
      apply inw_lxor; try assumption; apply c5_fn_inw. }
  now split.
Qed.

Lemma c5_dec_rev : c5_dec4 = rev c5_enc4 /\ c5_dec12 = rev c5_enc12.
Proof. now split. Qed.

Lemma cast5_bij s : bij_on (blk 8) (blk 8) (cast5_encrypt s) (cast5_decrypt s).
Proof.
  assert (B12 : pbij (@w2 32) (prun (c5_exec s) c5_enc12) (prun (c5_exec s) c5_dec12)).
  { rewrite (proj2 c5_dec_rev). apply pbij_run. intros i _. apply c5_exec_pbij. }
  assert (B4 : pbij (@w2 32) (fun x => if 12 <? c5_r s then prun (c5_exec s) c5_enc4 x else x)
    (fun x => if 12 <? c5_r s then prun (c5_exec s) c5_dec4 x else x)).
  { destruct (12 <? c5_r s); [|apply pbij_id].
    rewrite (proj1 c5_dec_rev). apply pbij_run. intros i _. apply c5_exec_pbij. }
  pose proof (lift_bij (blk 8) (@w2 32) _ _ _ _ (ld2_bij codec32b)
    (pbij_bij _ _ _ (pbij_comp _ _ _ (fun x => (snd x, fst x)) (fun x => (snd x, fst x)) (pbij_comp _ _ _ _ _ B12 B4)
      (conj (fun x H => conj (conj (proj2 H) (proj1 H)) (eq_sym (surjective_pairing x)))
            (fun x H => conj (conj (proj2 H) (proj1 H)) (eq_sym (surjective_pairing x))))))) as G.
  eapply bij_ext; [| |exact G]; intros x _; reflexivity.
Qed.

Lemma cast5_perm key : key_ok 16 key ->
  exists s, cast5_create 0 key = Ok s /\ permutation 8 (cast5_encrypt s) (cast5_decrypt s).
Proof.
  intros Hk. exists (cast5_setup key). split.
  - unfold cast5_create. now rewrite assert_true by now apply key_len_ok_true.
  - apply perm_of_bij, cast5_bij.
Qed.
Lemma cast5_assert r key : key_ok 16 key -> r <> 0 -> cast5_create r key = Err AssertFail.
Proof.
  intros Hk Hr. unfold cast5_create. rewrite assert_true by now apply key_len_ok_true.
  now rewrite (proj2 (N.eqb_neq r 0) Hr).
Qed.
