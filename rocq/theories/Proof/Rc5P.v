From Coq Require Import NArith Arith List Bool Lia.
From Verif Require Import Lib.Word Lib.Res Lib.Bytes Lib.BlockLemmas Spec.Block
  Model.LoadStore Model.BlockApi Model.Rc5.
Import ListNotations.
Local Open Scope N_scope.

Lemma length_rc5_init n x : length (rc5_init n x) = n.
Proof. revert x; induction n; intros x; cbn [rc5_init length]; auto. Qed.
Lemma words_rc5_init n x : inw 32 x -> words_ok 32 (rc5_init n x).
Proof.
  revert x; induction n; intros x Hx; cbn [rc5_init]; constructor; [exact Hx|apply IHn; wb].
Qed.

Lemma rc5_sched_ok n key : length (rc5_sched n key) = n /\ words_ok 32 (rc5_sched n key).
Proof.
  unfold rc5_sched.
  apply (pfor_inv (fun _ m => length (mx_k m) = n /\ words_ok 32 (mx_k m))).
  - intros j m _ [H1 H2]. unfold rc5_mix_step. cbn [mx_k]. split.
    + now rewrite length_upd.
    + apply Forall_upd; [exact H2|wb].
  - cbn [mx_k]. split; [apply length_rc5_init|apply words_rc5_init; reflexivity].
Qed.

Lemma rc5_round_bij k0 k1 : inw 32 k0 -> inw 32 k1 ->
  bij_on (@w2 32) (@w2 32) (fun x => Ok (rc5_enc_round k0 k1 x)) (fun x => Ok (rc5_dec_round k0 k1 x)).
Proof.
  intros H0 H1. apply bij_pure; intros [a b] [Ha Hb]; cbn [fst snd] in *;
    unfold rc5_enc_round, rc5_dec_round, w2; cbn [fst snd].
  - split; [split; wb|]. rewrite !wadd_wsub, !rorv_rolv, !lxor_cancel by wb.
    now rewrite ?rorv_rolv, ?lxor_cancel by wb.
  - split; [split; wb|]. rewrite !lxor_cancel, !rolv_rorv, !wsub_wadd by wb.
    now rewrite ?lxor_cancel, ?rolv_rorv, ?wsub_wadd by wb.
Qed.

Lemma rc5_white_bij k0 k1 : inw 32 k0 -> inw 32 k1 ->
  bij_on (@w2 32) (@w2 32) (fun x => Ok (wadd 32 (fst x) k0, wadd 32 (snd x) k1))
    (fun x => Ok (wsub 32 (fst x) k0, wsub 32 (snd x) k1)).
Proof.
  intros H0 H1. apply bij_pure; intros [a b] [Ha Hb]; cbn [fst snd] in *; unfold w2; cbn [fst snd].
  - split; [split; wb|]. now rewrite !wadd_wsub by wb.
  - split; [split; wb|]. now rewrite !wsub_wadd by wb.
Qed.

Lemma rc5_bij s : words_ok 32 (rc5_k s) -> length (rc5_k s) = N.to_nat (2 * (rc5_r s + 1)) ->
  bij_on (blk 8) (blk 8) (rc5_encrypt s) (rc5_decrypt s).
Proof.
  intros Hw Hl. unfold rc5_encrypt, rc5_decrypt.
  apply (lift_bij (blk 8) (@w2 32)); [apply (ld2_bij codec32l)|].
  unfold rc5_enc_words, rc5_dec_words.
  eapply bij_seq; [apply (rc5_white_bij (nth 0 (rc5_k s) 0) (nth 1 (rc5_k s) 0)); wb| | | ].
  - apply (bij_loop (@w2 32) (N.to_nat (rc5_r s)) ). intros j Hj.
    eapply bij_ext; [| |apply (rc5_round_bij (nth (2 * j + 2) (rc5_k s) 0) (nth (2 * j + 3) (rc5_k s) 0)); wb].
    + intros x _. instantiate (1 := fun j y =>
        let* ka := get (rc5_k s) (2 * j + 2) in
        let* kb := get (rc5_k s) (2 * j + 3) in
        Ok (rc5_enc_round ka kb y)). cbv beta. now gets.
    + intros x _. instantiate (1 := fun j y =>
        let* kb := get (rc5_k s) (2 * j + 3) in
        let* ka := get (rc5_k s) (2 * j + 2) in
        Ok (rc5_dec_round ka kb y)). cbv beta. now gets.
  - intros x _. now gets.
  - intros x _. destruct (mford _ _ x) as [y|]; cbn [bind]; [|reflexivity]. now gets.
Qed.

Lemma rc5_perm r key : key_ok 255 key -> r < 2 ^ 29 - 1 ->
  exists s, rc5_create r key = Ok s /\ permutation 8 (rc5_encrypt s) (rc5_decrypt s).
Proof.
  intros Hk Hr. exists (rc5_setup (rc5_rounds r) key).
  assert (Hr' : rc5_rounds r < 2 ^ 29 - 1).
  { unfold rc5_rounds. destruct (r =? 0); [reflexivity|exact Hr]. }
  split.
  - unfold rc5_create. rewrite assert_true by now apply key_len_ok_true.
    apply fits_ok. change (2 ^ 29 - 1) with 536870911 in Hr'.
    pose proof (room_shl (rc5_rounds r + 1) 3) as R.
    change (2 ^ 3) with 8 in R. change (2 ^ 32) with 4294967296 in R.
    specialize (R ltac:(lia)).
    rewrite N.mul_comm. apply N.div_le_lower_bound; [discriminate|].
    assert (E : wshl 32 (rc5_rounds r + 1) 3 = 8 * (rc5_rounds r + 1)).
    { unfold wshl. rewrite N.shiftl_mul_pow2. change (2 ^ 3) with 8. rewrite mask_id; [lia|].
      unfold inw. change (2 ^ 32) with 4294967296. lia. }
    rewrite E. lia.
  - apply perm_of_bij. apply rc5_bij; apply rc5_sched_ok.
Qed.
