From Coq Require Import NArith Arith List Bool Lia.
From Verif Require Import Lib.Word Lib.Res Lib.Bytes Lib.BlockLemmas Spec.Block
  Model.LoadStore Model.BlockApi Model.Rc5 Model.Rc6 Proof.Rc5P.
Import ListNotations.
Local Open Scope N_scope.

Lemma rc6_m_inw b : inw 32 (rc6_m b).
Proof. unfold rc6_m. wb. Qed.
#[local] Hint Resolve rc6_m_inw : wb.

Lemma rc6_round_bij k0 k1 : inw 32 k0 -> inw 32 k1 ->
  bij_on (@w4 32) (@w4 32) (fun x => Ok (rc6_enc_round k0 k1 x)) (fun x => Ok (rc6_dec_round k0 k1 x)).
Proof.
  intros H0 H1. apply bij_pure; intros [[[a b] c] d] (Ha & Hb & Hc & Hd);
    unfold rc6_enc_round, rc6_dec_round, w4.
  - split; [repeat split; wb|]. now rewrite !wadd_wsub, !rorv_rolv, !lxor_cancel by wb.
  - split; [repeat split; wb|]. now rewrite !lxor_cancel, !rolv_rorv, !wsub_wadd by wb.
Qed.

Lemma rc6_pre_bij k0 k1 : inw 32 k0 -> inw 32 k1 ->
  bij_on (@w4 32) (@w4 32) (fun '(a, b, c, d) => Ok (a, wadd 32 b k0, c, wadd 32 d k1))
    (fun '(a, b, c, d) => Ok (a, wsub 32 b k0, c, wsub 32 d k1)).
Proof.
  intros H0 H1; split; intros [[[a b] c] d] (Ha & Hb & Hc & Hd); eexists; split; [reflexivity| |reflexivity|];
  (split; [repeat split; wb|]).
  - now rewrite !wadd_wsub by wb.
  - now rewrite !wsub_wadd by wb.
Qed.
Lemma rc6_post_bij k0 k1 : inw 32 k0 -> inw 32 k1 ->
  bij_on (@w4 32) (@w4 32) (fun '(a, b, c, d) => Ok (wadd 32 a k0, b, wadd 32 c k1, d))
    (fun '(a, b, c, d) => Ok (wsub 32 a k0, b, wsub 32 c k1, d)).
Proof.
  intros H0 H1; split; intros [[[a b] c] d] (Ha & Hb & Hc & Hd); eexists; split; [reflexivity| |reflexivity|];
  (split; [repeat split; wb|]).
  - now rewrite !wadd_wsub by wb.
  - now rewrite !wsub_wadd by wb.
Qed.

Lemma rc6_bij s : words_ok 32 (rc6_k s) -> length (rc6_k s) = N.to_nat (2 * (rc6_rounds s + 2)) ->
  bij_on (blk 16) (blk 16) (rc6_encrypt s) (rc6_decrypt s).
Proof.
  intros Hw Hl. unfold rc6_encrypt, rc6_decrypt.
  apply (lift_bij (blk 16) (@w4 32)); [apply (ld4_bij codec32l)|].
  set (r := N.to_nat (rc6_rounds s)).
  eapply bij_seq; [apply (rc6_pre_bij (nth 0 (rc6_k s) 0) (nth 1 (rc6_k s) 0)); wb| | | ].
  - eapply bij_comp.
    + apply (bij_loop (@w4 32) r (fun j y =>
        let* ka := get (rc6_k s) (2 * j + 2) in
        let* kb := get (rc6_k s) (2 * j + 3) in
        Ok (rc6_enc_round ka kb y)) (fun j y =>
        let* kb := get (rc6_k s) (2 * j + 3) in
        let* ka := get (rc6_k s) (2 * j + 2) in
        Ok (rc6_dec_round ka kb y))).
      intros j Hj. subst r.
      eapply bij_ext; [| |apply (rc6_round_bij (nth (2 * j + 2) (rc6_k s) 0) (nth (2 * j + 3) (rc6_k s) 0)); wb];
      intros x _; now gets.
    + apply (rc6_post_bij (nth (2 * r + 2) (rc6_k s) 0) (nth (2 * r + 3) (rc6_k s) 0)); wb.
  - intros [[[a b] c] d] _. unfold rc6_enc_words. fold r. gets.
    destruct (mfor _ _ _ _) as [[[[a' b'] c'] d']|]; cbn [bind]; [|reflexivity]. subst r. now gets.
  - intros [[[a b] c] d] _. unfold rc6_dec_words. fold r.
    assert (H : (2 * r + 3 < length (rc6_k s))%nat) by (subst r; lia). gets.
    destruct (mford _ _ _) as [[[[a' b'] c'] d']|]; cbn [bind]; [|reflexivity]. now gets.
Qed.

Lemma rc6_perm r key : key_ok 255 key -> r < 2 ^ 29 - 2 ->
  exists s, rc6_create r key = Ok s /\ permutation 16 (rc6_encrypt s) (rc6_decrypt s).
Proof.
  intros Hk Hr. exists (rc6_setup (rc6_r r) key).
  assert (Hr' : rc6_r r < 2 ^ 29 - 2).
  { unfold rc6_r. destruct (r =? 0); [reflexivity|exact Hr]. }
  split.
  - unfold rc6_create. rewrite assert_true by now apply key_len_ok_true.
    apply fits_ok. change (2 ^ 29 - 2) with 536870910 in Hr'.
    apply (room_shl _ 2). change (2 ^ 2) with 4. change (2 ^ 32) with 4294967296. lia.
  - apply perm_of_bij. apply rc6_bij; apply rc5_sched_ok.
Qed.
