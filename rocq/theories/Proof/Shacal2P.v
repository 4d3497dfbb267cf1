From Coq Require Import NArith Arith List Bool Lia.
From Verif Require Import Lib.Word Lib.Res Lib.Bytes Lib.Bij Lib.Bits Lib.BlockLemmas Lib.Feistel Spec.Block
  Model.LoadStore Model.BlockApi Model.Table Model.Shacal2.
Import ListNotations.
Local Open Scope N_scope.

Lemma shac_reg_lt t j : (shac_reg t j < 8)%nat.
Proof. apply Nat.mod_upper_bound. discriminate. Qed.
Lemma shac_reg_neq t i j : (t < 8)%nat -> (i < 8)%nat -> (j < 8)%nat -> i <> j -> shac_reg t i <> shac_reg t j.
Proof.
  intros Ht Hi Hj H. unfold shac_reg.
  assert (E : forall k, (k < 8)%nat -> ((k + 8 - t) mod 8 = if Nat.ltb k t then k + 8 - t else k - t)%nat).
  { intros k Hk. destruct (Nat.ltb k t) eqn:L.
    - apply Nat.ltb_lt in L. apply Nat.mod_small. lia.
    - apply Nat.ltb_ge in L. replace (k + 8 - t)%nat with (k - t + 1 * 8)%nat by lia.
      rewrite Nat.mod_add by discriminate. apply Nat.mod_small. lia. }
  rewrite !E by assumption. destruct (Nat.ltb i t) eqn:A, (Nat.ltb j t) eqn:B;
    rewrite ?Nat.ltb_lt, ?Nat.ltb_ge in *; lia.
Qed.

Lemma shac_t1_upd t rk x v : (t < 8)%nat -> shac_t1 t rk (upd x (shac_reg t 7) v) = shac_t1 t rk x.
Proof.
  intros Ht. unfold shac_t1. cbv zeta.
  now rewrite !nth_upd_neq by (apply shac_reg_neq; lia).
Qed.
Lemma shac_t2_upd t x v : (t < 8)%nat -> shac_t2 t (upd x (shac_reg t 7) v) = shac_t2 t x.
Proof.
  intros Ht. unfold shac_t2. cbv zeta.
  now rewrite !nth_upd_neq by (apply shac_reg_neq; lia).
Qed.

(** [x_d += F(x)] and [x_d -= F(x)] for an [F] that does not read [x_d]. *)
Lemma add_reg d (F : list N -> N) : (d < 8)%nat -> (forall x v, F (upd x d v) = F x) ->
  (forall x, regs 32 8 x -> inw 32 (F x)) ->
  pbij (regs 32 8) (fun x => upd x d (wadd 32 (nth d x 0) (F x))) (fun x => upd x d (wsub 32 (nth d x 0) (F x))).
Proof.
  intros Hd HF HI. apply (pbij_reg 32 8 d (fun x u => wadd 32 u (F x)) (fun x u => wsub 32 u (F x))).
  - exact Hd.
  - intros. now rewrite HF.
  - intros. now rewrite HF.
  - intros x u Hx Hu. split; [wb|]. apply wadd_wsub; auto.
  - intros x u Hx Hu. split; [wb|]. apply wsub_wadd; auto.
Qed.

Lemma shac_round_pbij t rk : (t < 8)%nat -> pbij (regs 32 8) (shac_round t rk) (shac_iround t rk).
Proof.
  intros Ht. unfold shac_round, shac_iround. cbv zeta.
  pose proof (add_reg (shac_reg t 7) (shac_t1 t rk) (shac_reg_lt t 7) (fun x v => shac_t1_upd t rk x v Ht)
    ltac:(intros; unfold shac_t1; wb)) as A.
  assert (N37 : shac_reg t 3 <> shac_reg t 7) by (apply shac_reg_neq; lia).
  pose proof (add_reg (shac_reg t 3) (fun x => nth (shac_reg t 7) x 0) (shac_reg_lt t 3)
    (fun x v => nth_upd_neq x _ _ v 0 N37) (fun x Hx => regs_nth 32 8 x _ Hx)) as B.
  pose proof (add_reg (shac_reg t 7) (shac_t2 t) (shac_reg_lt t 7) (fun x v => shac_t2_upd t x v Ht)
    ltac:(intros; unfold shac_t2; wb)) as C.
  exact (pbij_comp _ _ _ _ _ (pbij_comp _ _ _ _ _ A B) C).
Qed.

Lemma shac_bij s n : shac_r s = 8 * N.of_nat n -> length (shac_k s) = (8 * n)%nat ->
  bij_on (blk 32) (blk 32) (shacal2_encrypt s) (shacal2_decrypt s).
Proof.
  intros Hr Hl.
  assert (E : shac_passes (shac_r s) = n).
  { unfold shac_passes. rewrite Hr. replace (8 * N.of_nat n + 7) with (7 + N.of_nat n * 8) by lia.
    rewrite N.div_add by discriminate. change (7 / 8) with 0. lia. }
  assert (M : shac_r s mod 8 =? 0 = true).
  { rewrite Hr, N.mul_comm, N.mod_mul by discriminate. reflexivity. }
  unfold shacal2_encrypt, shacal2_decrypt.
  apply (lift_bij (blk 32) (regs 32 8)); [apply (loads_bij codec32b 8)|].
  unfold shac_enc_words, shac_dec_words. rewrite M, E.
  apply bij_loop. intros i Hi. apply bij_loop. intros t Ht.
  apply (bij_get (regs 32 8) (regs 32 8) (shac_k s) (8 * i + t) 0
    (fun k x => Ok (shac_round t k x)) (fun k x => Ok (shac_iround t k x))); [lia|].
  apply pbij_bij. now apply shac_round_pbij.
Qed.

Lemma shac_setup_length r key : length (shac_k (shac_setup r key)) = N.to_nat r.
Proof. unfold shac_setup. cbn [shac_k]. now rewrite map_length, seq_length. Qed.

(** Sixteen rounds or more, a multiple of eight (fewer than 128). *)
Lemma shacal2_perm m key : key_ok 64 key -> m = 0 \/ 2 <= m < 16 ->
  exists s, shacal2_create (8 * m) key = Ok s /\ permutation 32 (shacal2_encrypt s) (shacal2_decrypt s).
Proof.
  intros Hk Hm. set (r := shacal2_rounds (8 * m)). exists (shac_setup r key).
  assert (E : exists m', r = 8 * m' /\ 2 <= m' < 16).
  { unfold r, shacal2_rounds. destruct (8 * m =? 0) eqn:Z; [exists 8; split; [reflexivity|lia]|].
    apply N.eqb_neq in Z. exists m. split; [reflexivity|lia]. }
  destruct E as (m' & E & Hm'). split.
  - unfold shacal2_create. rewrite assert_true by now apply key_len_ok_true.
    rewrite assert_true by (apply N.ltb_lt; lia). cbv zeta. fold r.
    rewrite fits_ok; [reflexivity|]. rewrite E. unfold wshl. rewrite N.shiftl_mul_pow2. change (2 ^ 2) with 4.
    rewrite mask_id by (unfold inw; change (2 ^ 32) with 4294967296; lia). rewrite N.div_mul by discriminate. lia.
  - apply perm_of_bij, (shac_bij _ (N.to_nat m')).
    + cbn [shac_setup shac_r]. rewrite N2Nat.id. exact E.
    + rewrite shac_setup_length, E. lia.
Qed.

(** Fewer than sixteen rounds: clearing sixteen words writes behind the allocation. *)
Lemma shacal2_few_rounds r key : key_ok 64 key -> 0 < r < 16 -> shacal2_create r key = Err OobWrite.
Proof.
  intros Hk Hr. unfold shacal2_create. rewrite assert_true by now apply key_len_ok_true.
  rewrite assert_true by (apply N.ltb_lt; lia). cbv zeta. unfold shacal2_rounds.
  rewrite (proj2 (N.eqb_neq r 0)) by lia. unfold fits.
  replace (N.max 16 r <=? wshl 32 r 2 / 4) with false; [reflexivity|]. symmetry. apply N.leb_gt.
  unfold wshl. rewrite N.shiftl_mul_pow2. change (2 ^ 2) with 4.
  rewrite mask_id by (unfold inw; change (2 ^ 32) with 4294967296; lia). rewrite N.div_mul by discriminate. lia.
Qed.

Lemma shacal2_assert r key : 128 <= r -> shacal2_create r key = Err AssertFail.
Proof.
  intros Hr. unfold shacal2_create. rewrite (proj2 (N.ltb_ge r 128)) by exact Hr.
  unfold assert_. now destruct (key_len_ok shacal2_maxkey key).
Qed.

(** A round count that is not a multiple of eight: both directions read outside the
    schedule. *)
Lemma shacal2_bad_rounds r key pt : key_ok 64 key -> 16 <= r < 128 -> r mod 8 <> 0 ->
  exists s, shacal2_create r key = Ok s /\ shacal2_encrypt s pt = Err OobRead /\ shacal2_decrypt s pt = Err OobRead.
Proof.
  intros Hk Hr Hm. exists (shac_setup r key).
  assert (R : shacal2_rounds r = r) by (unfold shacal2_rounds; rewrite (proj2 (N.eqb_neq r 0)) by lia; reflexivity).
  split; [|split].
  - unfold shacal2_create. rewrite assert_true by now apply key_len_ok_true.
    rewrite assert_true by (apply N.ltb_lt; lia). cbv zeta. rewrite R.
    rewrite fits_ok; [reflexivity|]. unfold wshl. rewrite N.shiftl_mul_pow2. change (2 ^ 2) with 4.
    rewrite mask_id by (unfold inw; change (2 ^ 32) with 4294967296; lia). rewrite N.div_mul by discriminate. lia.
  - unfold shacal2_encrypt. enough (E : forall x, shac_enc_words (shac_setup r key) x = Err OobRead) by now rewrite E.
    intros x. unfold shac_enc_words. pose proof (shac_setup_length r key) as L.
    set (ks := shac_k (shac_setup r key)) in *. change (shac_r (shac_setup r key)) with r.
    unfold shac_passes.
    pose proof (N.div_mod r 8 ltac:(discriminate)) as D. pose proof (N.mod_lt r 8 ltac:(discriminate)) as T.
    assert (Q : (r + 7) / 8 = r / 8 + 1).
    { set (q := r / 8) in *. set (t := r mod 8) in *. clearbody q t.
      assert (X : r + 7 = (t - 1) + (q + 1) * 8) by lia. rewrite X, N.div_add by discriminate.
      rewrite N.div_small by lia. lia. }
    rewrite Q. set (q := r / 8) in *. set (t := r mod 8) in *. clearbody q t.
    replace (N.to_nat (q + 1)) with (N.to_nat q + 1)%nat by lia. rewrite mfor_app. cbn [Nat.add].
    (* the whole passes succeed *)
    assert (G : forall n i y, (8 * (i + n) <= 8 * N.to_nat q)%nat -> exists z, mfor n i (fun i x =>
      mfor 8 0 (fun t x => let* k := get ks (8 * i + t) in Ok (shac_round t k x)) x) y = Ok z).
    { induction n as [|n IH]; intros i y Hn; [now exists y|]. cbn [mfor].
      rewrite !(get_ok ks _ 0) by lia. cbn [bind]. apply IH. lia. }
    destruct (G (N.to_nat q) 0%nat x ltac:(lia)) as [z ->]. cbn [bind].
    (* the last one reads words q, q + 1, .. *)
    assert (Last : forall m j y, (j + m = 8)%nat -> (8 * N.to_nat q + j <= N.to_nat r)%nat ->
      mfor m j (fun t x => let* k := get ks (8 * N.to_nat q + t) in Ok (shac_round t k x)) y = Err OobRead).
    { induction m as [|m IH]; intros j y Hj Hb; [lia|]. cbn [mfor].
      destruct (Nat.lt_ge_cases (8 * N.to_nat q + j) (N.to_nat r)) as [Lt|Ge].
      - rewrite (get_ok ks _ 0) by lia. cbn [bind]. apply IH; lia.
      - unfold get. rewrite (proj2 (nth_error_None ks (8 * N.to_nat q + j))) by lia. reflexivity. }
    change (mfor 1 (N.to_nat q) ?f z) with (bind (f (N.to_nat q) z) (fun y => Ok y)). cbv beta.
    rewrite (Last 8%nat 0%nat z) by lia. reflexivity.
  - unfold shacal2_decrypt, shac_dec_words. change (shac_r (shac_setup r key)) with r.
    now rewrite (proj2 (N.eqb_neq (r mod 8) 0)) by exact Hm.
Qed.
