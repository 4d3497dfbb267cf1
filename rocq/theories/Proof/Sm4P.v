From Coq Require Import NArith Arith List Bool Lia.
From Verif Require Import Lib.Word Lib.Res Lib.Bytes Lib.BlockLemmas Lib.Bij Lib.Feistel Lib.XorSolve Spec.Block
  Model.LoadStore Model.BlockApi Model.Table Model.Sm4 Proof.TableP.
Import ListNotations.
Local Open Scope N_scope.

Lemma sm4_s_inw : words_ok 8 sm4_s. Proof. apply words_okb. vm_compute. reflexivity. Qed.
Lemma sm4_s_inw32 x : inw 32 (tab8 sm4_s x).
Proof. apply (inw_mono 8); [discriminate|]. apply tab8_inw, sm4_s_inw. Qed.
#[local] Hint Resolve sm4_s_inw32 : wb.

Lemma sm4_tau_inw x : inw 32 (sm4_tau x). Proof. unfold sm4_tau. wb. Qed.
#[local] Hint Resolve sm4_tau_inw : wb.
Lemma sm4_f_inw a b c d k : inw 32 a -> inw 32 (sm4_f a b c d k).
Proof. intros H. unfold sm4_f, sm4_l. wb. Qed.

(** a round undoes itself when its word comes last instead of first *)
Lemma sm4_f_undo a b c d k : sm4_f (sm4_f a b c d k) d c b k = a.
Proof.
  unfold sm4_f. replace (N.lxor (N.lxor (N.lxor d c) b) k) with (N.lxor (N.lxor (N.lxor b c) d) k) by xor_solve.
  apply lxor_cancel.
Qed.

Lemma sm4_quad_sw k0 k1 k2 k3 x : @w4 32 x ->
  @w4 32 (sm4_quad sm4_f k0 k1 k2 k3 x) /\
  sm4_rev (sm4_quad sm4_f k3 k2 k1 k0 (sm4_rev (sm4_quad sm4_f k0 k1 k2 k3 x))) = x.
Proof.
  destruct x as [[[a b] c] d]. intros (Ha & Hb & Hc & Hd). unfold sm4_quad, sm4_rev, w4. cbv zeta. split.
  - repeat split; now apply sm4_f_inw.
  - now rewrite !sm4_f_undo.
Qed.

Lemma sm4_bij s m : length (sm4_k s) = (4 * m)%nat -> sm4_r s = N.of_nat (4 * m) ->
  bij_on (blk 16) (blk 16) (sm4_encrypt s) (sm4_decrypt s).
Proof.
  intros Hl Hr.
  set (k := fun i => nth i (sm4_k s) 0).
  set (F := fun i => sm4_quad sm4_f (k (4 * i)%nat) (k (4 * i + 1)%nat) (k (4 * i + 2)%nat) (k (4 * i + 3)%nat)).
  set (G := fun i => sm4_quad sm4_f (k (4 * i + 3)%nat) (k (4 * i + 2)%nat) (k (4 * i + 1)%nat) (k (4 * i)%nat)).
  assert (B : bij_on (@w4 32) (@w4 32)
    (fun x => Ok (sm4_rev (pfor m 0 F x))) (fun x => Ok (sm4_rev (pford m G x)))).
  { apply pbij_bij, feistel_bij.
    - intros [[[a b] c] d] (Ha & Hb & Hc & Hd). repeat split; assumption.
    - intros i x _. exact (sm4_quad_sw (k (4 * i)%nat) (k (4 * i + 1)%nat) (k (4 * i + 2)%nat) (k (4 * i + 3)%nat) x).
    - intros i x _. exact (sm4_quad_sw (k (4 * i + 3)%nat) (k (4 * i + 2)%nat) (k (4 * i + 1)%nat) (k (4 * i)%nat) x). }
  pose proof (lift_bij (blk 16) (@w4 32) _ _ _ _ (ld4_bij codec32b) B) as GG.
  assert (E1 : N.to_nat ((sm4_r s + 3) / 4) = m).
  { rewrite Hr. replace (N.of_nat (4 * m) + 3) with (N.of_nat m * 4 + 3) by lia.
    rewrite N.div_add_l by lia. change (3 / 4) with 0. lia. }
  assert (E2 : N.to_nat (sm4_r s / 4) = m).
  { rewrite Hr. replace (N.of_nat (4 * m)) with (N.of_nat m * 4) by lia. rewrite N.div_mul by lia. lia. }
  assert (E3 : sm4_r s mod 4 = 0).
  { rewrite Hr. replace (N.of_nat (4 * m)) with (N.of_nat m * 4) by lia. now apply N.mod_mul. }
  eapply bij_ext; [| |exact GG].
  - intros x _. unfold sm4_encrypt. cbn [bind]. rewrite E1.
    rewrite (mfor_ext m 0 _ (fun i y => Ok (F i y))).
    + rewrite mfor_Ok. reflexivity.
    + intros j y Hj. now rewrite !(get_ok _ _ 0) by (rewrite Hl; lia).
  - intros x _. unfold sm4_decrypt. cbn [bind]. rewrite E2, E3. cbn [N.eqb N.to_nat].
    rewrite (mford_ext m _ (fun i y => Ok (G i y))).
    + rewrite mford_Ok. reflexivity.
    + intros j y Hj. rewrite !Nat.add_0_l. now rewrite !(get_ok _ _ 0) by (rewrite Hl; lia).
Qed.

Lemma sm4_sched_ok m : (m <= 8)%nat -> forall x, exists ks y, mfor m 0 sm4_step ([], x) = Ok (ks, y) /\ length ks = (4 * m)%nat.
Proof.
  induction m as [|m IH]; intros Hm x; [exists [], x; now split|].
  destruct (IH ltac:(lia) x) as (ks & y & E & L). rewrite mfor_S, E. cbn [bind].
  unfold sm4_step. rewrite !(get_ok sm4_ck _ 0) by (change (length sm4_ck) with 32%nat; lia). cbn [bind snd fst].
  destruct (sm4_quad _ _ _ _ _ y) as [[[a b] c] d]. do 2 eexists. split; [reflexivity|].
  rewrite app_length, L. cbn [length]. lia.
Qed.

Lemma sm4_setup_ok m key : (m <= 8)%nat -> exists s,
  sm4_setup (wshl 32 (N.of_nat (4 * m)) 2 / 4) (N.of_nat (4 * m)) key = Ok s /\
  length (sm4_k s) = (4 * m)%nat /\ sm4_r s = N.of_nat (4 * m).
Proof.
  intros Hm. unfold sm4_setup. cbv zeta.
  replace ((N.of_nat (4 * m) + 3) / 4) with (N.of_nat m).
  2: { replace (N.of_nat (4 * m) + 3) with (N.of_nat m * 4 + 3) by lia.
       rewrite N.div_add_l by lia. change (3 / 4) with 0. lia. }
  rewrite fits_ok.
  2: { replace (4 * N.of_nat m) with (N.of_nat (4 * m)) by lia. apply (room_shl _ 2).
       change (2 ^ 2) with 4. change (2 ^ 32) with 4294967296. lia. }
  rewrite Nat2N.id. edestruct (sm4_sched_ok m Hm) as (ks & y & E & L). rewrite E. cbn [bind fst].
  eexists. split; [reflexivity|]. now split.
Qed.

(** SM4 with 4, 8, .., 32 rounds *)
Lemma sm4_perm m key : key_ok 16 key -> (m <= 8)%nat ->
  exists s, sm4_create (N.of_nat (4 * m)) key = Ok s /\ permutation 16 (sm4_encrypt s) (sm4_decrypt s).
Proof.
  intros Hk Hm. assert (E : exists q, (q <= 8)%nat /\ sm4_rounds (N.of_nat (4 * m)) = N.of_nat (4 * q)).
  { unfold sm4_rounds. destruct (N.eqb_spec (N.of_nat (4 * m)) 0); [exists 8%nat|exists m]; now split. }
  destruct E as (q & Hq & E). destruct (sm4_setup_ok q key Hq) as (s & Es & Hl & Hr). exists s. split.
  - unfold sm4_create. rewrite assert_true by now apply key_len_ok_true. cbv zeta. now rewrite E.
  - apply perm_of_bij. now apply (sm4_bij s q).
Qed.

(** Other round counts overrun the key array, or beyond 32 the table CK. *)
Lemma sm4_bad_rounds r key : key_ok 16 key -> r < 2 ^ 30 -> r mod 4 <> 0 -> sm4_create r key = Err OobWrite.
Proof.
  intros Hk Hr H4. assert (r <> 0) by (intros ->; now apply H4).
  unfold sm4_create. rewrite assert_true by now apply key_len_ok_true. cbv zeta.
  unfold sm4_rounds. rewrite (proj2 (N.eqb_neq r 0)) by assumption.
  unfold sm4_setup, fits. cbv zeta.
  change (2 ^ 30) with 1073741824 in Hr.
  assert (W : wshl 32 r 2 / 4 = r).
  { unfold wshl. rewrite mask_id by (unfold inw; rewrite N.shiftl_mul_pow2; change (2 ^ 2) with 4; change (2 ^ 32) with 4294967296; lia).
    rewrite N.shiftl_mul_pow2. change (2 ^ 2) with 4. now rewrite N.div_mul. }
  rewrite W. destruct (N.leb_spec (4 * ((r + 3) / 4)) r) as [L|L]; [|reflexivity]. exfalso.
  pose proof (N.div_mod r 4 ltac:(lia)). pose proof (N.mod_lt r 4 ltac:(lia)).
  pose proof (N.div_mod (r + 3) 4 ltac:(lia)). pose proof (N.mod_lt (r + 3) 4 ltac:(lia)).
  set (a := r / 4) in *. set (b := r mod 4) in *. set (c := (r + 3) / 4) in *. set (d := (r + 3) mod 4) in *. lia.
Qed.
Lemma sm4_many_rounds m key : key_ok 16 key -> (8 < m)%nat -> N.of_nat (4 * m) < 2 ^ 30 ->
  sm4_create (N.of_nat (4 * m)) key = Err OobRead.
Proof.
  intros Hk Hm Hr. unfold sm4_create. rewrite assert_true by now apply key_len_ok_true. cbv zeta.
  unfold sm4_rounds. rewrite (proj2 (N.eqb_neq (N.of_nat (4 * m)) 0)) by lia.
  unfold sm4_setup. cbv zeta.
  replace ((N.of_nat (4 * m) + 3) / 4) with (N.of_nat m).
  2: { replace (N.of_nat (4 * m) + 3) with (N.of_nat m * 4 + 3) by lia.
       rewrite N.div_add_l by lia. change (3 / 4) with 0. lia. }
  change (2 ^ 30) with 1073741824 in Hr.
  rewrite fits_ok.
  2: { replace (4 * N.of_nat m) with (N.of_nat (4 * m)) by lia. apply (room_shl _ 2).
       change (2 ^ 2) with 4. change (2 ^ 32) with 4294967296. lia. }
  rewrite Nat2N.id. replace m with (8 + S (m - 9))%nat by lia.
  rewrite mfor_app. edestruct (sm4_sched_ok 8 ltac:(lia)) as (ks & y & E & L). rewrite E. reflexivity.
Qed.
