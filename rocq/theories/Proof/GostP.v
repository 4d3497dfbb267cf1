From Coq Require Import NArith Arith List Bool Lia.
From Verif Require Import Lib.Word Lib.Res Lib.Bytes Lib.BlockLemmas Lib.Bij Spec.Block
  Model.LoadStore Model.BlockApi Model.Gost.
Import ListNotations.
Local Open Scope N_scope.

Lemma gost_f_inw sb x : inw 32 (gost_f sb x).
Proof. unfold gost_f, gost_sub. wb. Qed.
#[local] Hint Resolve gost_f_inw : wb.

Definition gost_enc_round (sb : list (list N)) (ka kb : N) (x : N * N) : N * N :=
  let r := gost_step sb (fst x) ka (snd x) in (gost_step sb r kb (fst x), r).
Definition gost_dec_round (sb : list (list N)) (ka kb : N) (x : N * N) : N * N :=
  let l := gost_step sb (snd x) kb (fst x) in (l, gost_step sb l ka (snd x)).
Definition gost_swap (x : N * N) : N * N := (snd x, fst x).

Lemma gost_round_bij sb ka kb : pbij (@w2 32) (gost_enc_round sb ka kb) (gost_dec_round sb ka kb).
Proof.
  split; intros [a b] [Ha Hb]; unfold gost_enc_round, gost_dec_round, gost_step, w2; cbn [fst snd];
    (split; [split; wb|]); now rewrite !lxor_cancel.
Qed.

Lemma gost_bij s m : length (gost_k s) = N.to_nat (gost_r s) -> gost_r s = 2 * m ->
  bij_on (blk 8) (blk 8) (gost_encrypt s) (gost_decrypt s).
Proof.
  intros Hl Hm.
  set (n := N.to_nat m). set (k := fun i => nth i (gost_k s) 0).
  assert (B : bij_on (@w2 32) (@w2 32)
    (fun x => Ok (gost_swap (pfor n 0 (fun i => gost_enc_round (gost_s s) (k (2 * i)%nat) (k (2 * i + 1)%nat)) x)))
    (fun x => Ok (pford n (fun i => gost_dec_round (gost_s s) (k (2 * i)%nat) (k (2 * i + 1)%nat)) (gost_swap x)))).
  { apply (pbij_bij _ _ _), (pbij_comp _ _ _ gost_swap gost_swap).
    - apply pbij_loop. intros j _. apply gost_round_bij.
    - split; intros [a b] [Ha Hb]; now split. }
  pose proof (lift_bij (blk 8) (@w2 32) _ _ _ _ (ld2_bij codec32l) B) as G.
  eapply bij_ext; [| |exact G].
  - intros x _. unfold gost_encrypt. cbn [bind].
    replace (N.to_nat ((gost_r s + 1) / 2)) with n.
    2: { subst n. rewrite Hm. f_equal. rewrite N.mul_comm, N.div_add_l by lia. now rewrite N.add_0_r. }
    rewrite (mfor_ext n 0 _ (fun i y => Ok (gost_enc_round (gost_s s) (k (2 * i)%nat) (k (2 * i + 1)%nat) y))).
    + rewrite mfor_Ok. reflexivity.
    + intros j y Hj. now rewrite !(get_ok _ _ 0) by (rewrite Hl, Hm; lia).
  - intros x _. unfold gost_decrypt. cbn [bind].
    assert (Ho : N.odd (gost_r s) = false) by (rewrite Hm, N.odd_mul; reflexivity).
    rewrite Ho. replace (N.to_nat (gost_r s)) with (2 * n)%nat by lia.
    replace (2 * n / 2)%nat with n by (rewrite Nat.mul_comm, Nat.div_mul; lia).
    set (y := ld2 x).
    assert (E : forall i y, (i <= n)%nat ->
      mfor i 0 (fun i x => let* ka := get (gost_k s) (2 * n - 1 - 2 * i) in
        let r := gost_step (gost_s s) (fst x) ka (snd x) in
        let* kb := get (gost_k s) (2 * n - 2 - 2 * i) in
        let l := gost_step (gost_s s) r kb (fst x) in Ok (l, r)) y =
      Ok (pfor i 0 (fun i x => gost_swap (gost_dec_round (gost_s s) (k (2 * (n - 1 - i)))%nat (k (2 * (n - 1 - i) + 1)%nat) (gost_swap x))) y)).
    { intros i z Hi. rewrite <- mfor_Ok. apply mfor_ext. intros j u Hj.
      rewrite !(get_ok _ _ 0) by (rewrite Hl, Hm; lia). cbn [bind].
      unfold gost_swap, gost_dec_round. cbn [fst snd].
      replace (2 * n - 1 - 2 * j)%nat with (2 * (n - 1 - j) + 1)%nat by lia.
      now replace (2 * n - 2 - 2 * j)%nat with (2 * (n - 1 - j))%nat by lia. }
    rewrite E by lia. cbn [bind]. f_equal. f_equal.
    transitivity (gost_swap (pfor n 0 (fun i x => gost_swap (gost_dec_round (gost_s s) (k (2 * (n - 1 - i)))%nat (k (2 * (n - 1 - i) + 1)%nat) (gost_swap x))) y)); [|reflexivity].
    clear E. clearbody n k. generalize (gost_s s). intros sb.
    assert (P : forall q i y, (i + q = n)%nat ->
      pford q (fun i => gost_dec_round sb (k (2 * i)%nat) (k (2 * i + 1)%nat)) (gost_swap y) =
      gost_swap (pfor q i (fun i x => gost_swap (gost_dec_round sb (k (2 * (n - 1 - i)))%nat (k (2 * (n - 1 - i) + 1)%nat) (gost_swap x))) y)).
    { induction q as [|q IH]; intros i z Hi; [reflexivity|]. cbn [pford pfor].
      rewrite <- (IH (S i)) by lia. f_equal. replace (n - 1 - i)%nat with q by lia.
      unfold gost_swap. cbn [fst snd]. now destruct (gost_dec_round _ _ _ _). }
    apply (P n 0%nat). lia.
Qed.

Lemma gost_kl_bound key : key_ok 32 key -> (1 <= gost_kl key <= 8)%nat.
Proof.
  intros (_ & H1 & H2). unfold gost_kl. pose proof (Nat.div_mod (length key + 3) 4).
  pose proof (Nat.mod_upper_bound (length key + 3) 4). lia.
Qed.

(** GOST with any table of S-boxes, r even and at least twice the number of key words
    (32 rounds always are), is a permutation. *)
Lemma gost_perm sb r key : key_ok 32 key -> r < 2 ^ 30 -> N.even r = true ->
  2 * N.of_nat (gost_kl key) <= gost_rounds r ->
  exists s, gost_create sb r key = Ok s /\ permutation 8 (gost_encrypt s) (gost_decrypt s).
Proof.
  intros Hk Hr He Hkl. exists (gost_setup sb (gost_rounds r) key). split.
  - unfold gost_create. rewrite assert_true by now apply key_len_ok_true.
    rewrite !fits_ok; [reflexivity|exact Hkl|].
    apply (room_shl _ 2). change (2 ^ 30) with 1073741824 in Hr. change (2 ^ 32) with 4294967296.
    change (2 ^ 2) with 4. unfold gost_rounds. destruct (r =? 0); lia.
  - apply perm_of_bij. assert (Ev : exists m, gost_rounds r = 2 * m).
    { unfold gost_rounds. destruct (r =? 0); [now exists 16|]. apply N.even_spec in He. exact He. }
    destruct Ev as [m Em]. apply (gost_bij _ m); [|exact Em]. cbn [gost_setup gost_k gost_r].
    pose proof (key32l_ok key (gost_kl key) (proj1 Hk)) as [L _].
    rewrite !app_length, rev_length, map_length, seq_length, L. lia.
Qed.

Lemma gost_perm_default sb key : key_ok 32 key ->
  exists s, gost_create sb 0 key = Ok s /\ permutation 8 (gost_encrypt s) (gost_decrypt s).
Proof.
  intros Hk. apply gost_perm; [exact Hk|reflexivity|reflexivity|].
  pose proof (gost_kl_bound key Hk). change (gost_rounds 0) with 32. lia.
Qed.

(** Odd round counts read past the key array; too few rounds write past it. *)
Lemma gost_odd_oob : exists s, gost_create gost_cbr 31 [1] = Ok s /\ gost_encrypt s (repeat 0 8) = Err OobRead.
Proof. eexists. split; [vm_compute; reflexivity|vm_compute; reflexivity]. Qed.
Lemma gost_few_rounds sb r key : key_ok 32 key -> r <> 0 -> r < 2 ^ 30 ->
  r < 2 * N.of_nat (gost_kl key) -> gost_create sb r key = Err OobWrite.
Proof.
  intros Hk H0 H30 Hr. unfold gost_create. rewrite assert_true by now apply key_len_ok_true.
  unfold gost_rounds. rewrite (proj2 (N.eqb_neq r 0) H0). cbv zeta.
  rewrite fits_ok.
  - unfold fits. now rewrite (proj2 (N.leb_gt _ _) Hr).
  - apply (room_shl _ 2). change (2 ^ 30) with 1073741824 in H30. change (2 ^ 32) with 4294967296.
    change (2 ^ 2) with 4. lia.
Qed.
