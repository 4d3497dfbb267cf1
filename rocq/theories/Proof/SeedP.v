From Coq Require Import NArith Arith List Bool Lia.
From Verif Require Import Lib.Word Lib.Res Lib.Bytes Lib.BlockLemmas Lib.Bij Lib.Feistel Spec.Block
  Model.LoadStore Model.BlockApi Model.Table Model.Seed Proof.TableP.
Import ListNotations.
Local Open Scope N_scope.

Lemma seed_f_inw x : inw 32 (seed_f x).
Proof.
  unfold seed_f.
  assert (H0 : words_ok 32 seed_s0) by (apply words_okb; vm_compute; reflexivity).
  assert (H1 : words_ok 32 seed_s1) by (apply words_okb; vm_compute; reflexivity).
  assert (H2 : words_ok 32 seed_s2) by (apply words_okb; vm_compute; reflexivity).
  assert (H3 : words_ok 32 seed_s3) by (apply words_okb; vm_compute; reflexivity).
  repeat apply inw_lxor; now apply tab8_inw.
Qed.
#[local] Hint Resolve seed_f_inw : wb.

Lemma seed_round_sw k0 k1 x : @w4 32 x ->
  @w4 32 (seed_round k0 k1 x) /\ seed_swap (seed_round k0 k1 (seed_swap (seed_round k0 k1 x))) = x.
Proof.
  destruct x as [[[a b] c] d]. intros (Ha & Hb & Hc & Hd). unfold seed_round, seed_swap, w4. cbv zeta. split.
  - repeat split; wb.
  - repeat f_equal; rewrite <- N.lxor_assoc, N.lxor_nilpotent; apply N.lxor_0_l.
Qed.

Lemma seed_bij s : length (seed_k s) = (2 * N.to_nat (seed_r s))%nat ->
  bij_on (blk 16) (blk 16) (seed_encrypt s) (seed_decrypt s).
Proof.
  intros Hl. set (n := N.to_nat (seed_r s)) in *.
  set (F := fun i => seed_round (nth (2 * i) (seed_k s) 0) (nth (2 * i + 1) (seed_k s) 0)).
  assert (B : bij_on (@w4 32) (@w4 32)
    (fun x => Ok (seed_swap (pfor n 0 F x))) (fun x => Ok (seed_swap (pford n F x)))).
  { apply pbij_bij, feistel_bij.
    - intros [[[a b] c] d] (Ha & Hb & Hc & Hd). repeat split; assumption.
    - intros i x _. apply seed_round_sw.
    - intros i x _. apply seed_round_sw. }
  pose proof (lift_bij (blk 16) (@w4 32) _ _ _ _ (ld4_bij codec32b) B) as G.
  eapply bij_ext; [| |exact G].
  - intros x _. unfold seed_encrypt. cbn [bind]. fold n.
    rewrite (mfor_ext n 0 _ (fun i y => Ok (F i y))).
    + rewrite mfor_Ok. reflexivity.
    + intros j y Hj. now rewrite !(get_ok _ _ 0) by (rewrite Hl; lia).
  - intros x _. unfold seed_decrypt. cbn [bind]. fold n.
    rewrite (mford_ext n _ (fun i y => Ok (F i y))).
    + rewrite mford_Ok. reflexivity.
    + intros j y Hj. now rewrite !(get_ok _ _ 0) by (rewrite Hl; lia).
Qed.

Lemma seed_setup_length r key : length (seed_k (seed_setup r key)) = (2 * N.to_nat r)%nat.
Proof.
  unfold seed_setup. cbn [seed_k]. generalize (N.to_nat r) as n.
  intros n. generalize (nth 0 (key32b key 4) 0, nth 1 (key32b key 4) 0, nth 2 (key32b key 4) 0, nth 3 (key32b key 4) 0).
  intros k. generalize 0x9E3779B9 as kc. revert k.
  assert (H : forall n i ks k kc, length (fst (fst (pfor n i seed_step (ks, k, kc)))) = (length ks + 2 * n)%nat).
  { clear n. induction n as [|n IH]; intros i ks k kc; cbn [pfor]; [cbn [fst]; lia|].
    destruct k as [[[k0 k1] k2] k3]. unfold seed_step at 2. cbv zeta. rewrite IH, app_length. cbn [length]. lia. }
  intros k kc. now rewrite H.
Qed.

Lemma seed_perm r key : key_ok 16 key -> r < 2 ^ 29 ->
  exists s, seed_create r key = Ok s /\ permutation 16 (seed_encrypt s) (seed_decrypt s).
Proof.
  intros Hk Hr. exists (seed_setup (seed_rounds r) key). split.
  - unfold seed_create. rewrite assert_true by now apply key_len_ok_true. cbv zeta.
    rewrite fits_ok; [reflexivity|]. apply (room_shl _ 3). change (2 ^ 29) with 536870912 in Hr.
    change (2 ^ 32) with 4294967296. change (2 ^ 3) with 8. unfold seed_rounds. destruct (r =? 0); lia.
  - apply perm_of_bij, seed_bij. apply seed_setup_length.
Qed.
