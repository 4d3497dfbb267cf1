From Coq Require Import NArith Arith List Bool Lia.
From Verif Require Import Lib.Word Lib.Res Lib.Bytes Lib.Bij Lib.Bits Lib.BlockLemmas Lib.Feistel Lib.Tele Spec.Block
  Model.LoadStore Model.BlockApi Model.Table Model.Serpent.
Import ListNotations.
Local Open Scope N_scope.

Lemma serp_s_pbij b : pbij (regs 32 4) (serp_s b) (serp_is b).
Proof.
  unfold serp_s, serp_is. destruct b as [|[|[|[|[|[|[|b]]]]]]]; apply slices_pbij; reflexivity.
Qed.

Lemma serp_lt_pbij : pbij (regs 32 4) serp_lt serp_ilt.
Proof.
  split; intros x Hx; list_cases Hx; unfold serp_lt, serp_ilt; cbn [nth]; cbv zeta; (split; [regs_list|]).
  - repeat first [rewrite ror_rol by (wb || lia) | rewrite lxor_cancel]. reflexivity.
  - repeat first [rewrite rol_ror by (wb || lia) | rewrite lxor_cancel]. reflexivity.
Qed.

Definition serp_xor (ks : list N) (i : nat) (x : list N) : list N :=
  [N.lxor (nth 0 x 0) (nth i ks 0); N.lxor (nth 1 x 0) (nth (i + 1) ks 0);
   N.lxor (nth 2 x 0) (nth (i + 2) ks 0); N.lxor (nth 3 x 0) (nth (i + 3) ks 0)].
Lemma serp_add_xor ks i x : (i + 4 <= length ks)%nat -> serp_add ks i x = Ok (serp_xor ks i x).
Proof. intros H. unfold serp_add. gets. reflexivity. Qed.
Lemma serp_xor_pbij ks i : words_ok 32 ks -> pbij (regs 32 4) (serp_xor ks i) (serp_xor ks i).
Proof.
  intros Hw. assert (K : forall j, inw 32 (nth j ks 0)) by (intros; wb).
  assert (G : pinv (regs 32 4) (serp_xor ks i) (serp_xor ks i)).
  { intros x Hx. list_cases Hx. unfold serp_xor. cbn [nth]. split; [regs_list|]. now rewrite !lxor_cancel. }
  now split.
Qed.

Definition serp_ppass ks g := pfor 8 0 (fun b x =>
  if Nat.ltb (S b) 8 then serp_lt (serp_s b (serp_xor ks (32 * g + 4 * b) x)) else serp_s b (serp_xor ks (32 * g + 4 * b) x)).
Definition serp_punpass ks g := pford 8 (fun b x =>
  if Nat.ltb 0 b then serp_ilt (serp_xor ks (32 * g + 4 * b) (serp_is b x)) else serp_xor ks (32 * g + 4 * b) (serp_is b x)).

Lemma serp_pass_pure ks g x : (32 * g + 32 <= length ks)%nat -> serp_pass ks g x = Ok (serp_ppass ks g x).
Proof.
  intros H. unfold serp_pass, serp_ppass. rewrite <- mfor_Ok. apply mfor_ext. intros j y Hj.
  rewrite serp_add_xor by lia. cbn [bind]. cbv zeta. destruct (Nat.ltb (S j) 8); reflexivity.
Qed.
Lemma serp_unpass_pure ks g x : (32 * g + 32 <= length ks)%nat -> serp_unpass ks g x = Ok (serp_punpass ks g x).
Proof.
  intros H. unfold serp_unpass, serp_punpass. rewrite <- mford_Ok. apply mford_ext. intros j y Hj.
  rewrite serp_add_xor by lia. cbn [bind]. destruct (Nat.ltb 0 j); reflexivity.
Qed.
Lemma serp_ppass_pbij ks g : words_ok 32 ks -> pbij (regs 32 4) (serp_ppass ks g) (serp_punpass ks g).
Proof.
  intros Hw. unfold serp_ppass, serp_punpass.
  apply (tele_pbij (regs 32 4) (fun b x => serp_s b (serp_xor ks (32 * g + 4 * b) x))
    (fun b x => serp_xor ks (32 * g + 4 * b) (serp_is b x)) serp_lt serp_ilt 8); [|exact serp_lt_pbij].
  intros b _. apply (pbij_comp _ (serp_xor ks (32 * g + 4 * b)) (serp_xor ks (32 * g + 4 * b)));
    [now apply serp_xor_pbij|apply serp_s_pbij].
Qed.

Lemma serp_bij s n : words_ok 32 (serp_k s) -> serp_r s = 8 * N.of_nat n -> length (serp_k s) = (4 * (8 * n + 1))%nat ->
  bij_on (blk 16) (blk 16) (serpent_encrypt s) (serpent_decrypt s).
Proof.
  intros Hw Hr Hl.
  assert (E : serp_passes (serp_r s) = n).
  { unfold serp_passes. rewrite Hr. replace (8 * N.of_nat n + 7) with (7 + N.of_nat n * 8) by lia.
    rewrite N.div_add by discriminate. change (7 / 8) with 0. lia. }
  assert (E2 : N.to_nat (serp_r s) = (8 * n)%nat) by (rewrite Hr; lia).
  unfold serpent_encrypt, serpent_decrypt.
  apply (lift_bij (blk 16) (regs 32 4)); [apply (loads_bij codec32l 4)|].
  set (ks := serp_k s) in *.
  set (F := pfor n 0 (fun g x => if Nat.ltb (S g) n then serp_lt (serp_ppass ks g x) else serp_ppass ks g x)).
  set (G := pford n (fun g x => if Nat.ltb 0 g then serp_ilt (serp_punpass ks g x) else serp_punpass ks g x)).
  assert (B : pbij (regs 32 4) F G).
  { apply (tele_pbij (regs 32 4) (serp_ppass ks) (serp_punpass ks)); [|exact serp_lt_pbij].
    intros g _. now apply serp_ppass_pbij. }
  eapply bij_ext; [| |apply pbij_bij, (pbij_comp _ _ _ _ _ B (serp_xor_pbij ks (32 * n) Hw))].
  - intros x _. unfold serp_enc_words. fold ks. cbv zeta. rewrite E.
    rewrite (mfor_ext n 0 _ (fun g y => Ok (if Nat.ltb (S g) n then serp_lt (serp_ppass ks g y) else serp_ppass ks g y))).
    + rewrite mfor_Ok. cbn [bind]. rewrite serp_add_xor by (rewrite Hl; lia). reflexivity.
    + intros j y Hj. rewrite serp_pass_pure by (rewrite Hl; lia). reflexivity.
  - intros x _. unfold serp_dec_words. fold ks. cbv zeta. rewrite E, E2.
    rewrite serp_add_xor by (rewrite Hl; lia). cbn [bind]. replace (4 * (8 * n))%nat with (32 * n)%nat by lia.
    rewrite (mford_ext n _ (fun g y => Ok (if Nat.ltb 0 g then serp_ilt (serp_punpass ks g y) else serp_punpass ks g y))).
    + rewrite mford_Ok. reflexivity.
    + intros j y Hj. rewrite serp_unpass_pure by (rewrite Hl; lia). reflexivity.
Qed.

Lemma serp_words_ok n c w : words_ok 32 w -> c + N.of_nat n <= 2 ^ 32 ->
  words_ok 32 (serp_words n c w) /\ length (serp_words n c w) = n.
Proof.
  revert c w. induction n as [|n IH]; intros c w Hw Hc; [split; [constructor|reflexivity]|]. cbn [serp_words length].
  assert (V : inw 32 (serp_next w c)).
  { unfold serp_next. assert (K : forall j, inw 32 (nth j w 0)) by (intros; wb).
    assert (C : inw 32 c) by (unfold inw; lia).
    assert (P : inw 32 0x9E3779B9) by reflexivity. apply inw_rol. repeat apply inw_lxor; auto. }
  destruct (IH (c + 1) (tl w ++ [serp_next w c])) as [W L].
  - apply Forall_app. split; [destruct Hw; [constructor|assumption]|now repeat constructor].
  - lia.
  - split; [|now rewrite L]. now apply Forall_cons.
Qed.

Lemma serp_key_ok key : bytes_ok key -> words_ok 32 (serp_key key).
Proof.
  intros Hk. destruct (key32l_ok key 8 Hk) as [L W]. unfold serp_key. cbv zeta.
  destruct (Nat.ltb (length key) 32); [|exact W]. apply Forall_upd; [exact W|].
  apply inw_lor; [wb|]. rewrite N.shiftl_1_l. unfold inw. apply N.pow_lt_mono_r; [reflexivity|].
  pose proof (Nat.mod_upper_bound (length key) 4 ltac:(lia)). lia.
Qed.

Lemma serp_prekeys_ok r key : bytes_ok key -> r < 2 ^ 28 -> words_ok 32 (serp_prekeys r key).
Proof.
  intros Hk Hr. change (2 ^ 28) with 268435456 in Hr. unfold serp_prekeys.
  destruct (serp_words_ok 8 0 (serp_key key) (serp_key_ok key Hk) ltac:(change (2 ^ 32) with 4294967296; lia)) as [W _].
  apply Forall_app. split; [exact W|]. apply serp_words_ok; [exact W|]. change (2 ^ 32) with 4294967296. lia.
Qed.

Lemma serp_ks_ok b x : words_ok 32 x -> regs 32 4 (serp_ks b x).
Proof.
  intros H. assert (G : forall p out, length out = 4%nat -> regs 32 4 (slices 32 1 p out x)).
  { intros p out L. split; [unfold slices; now rewrite map_length|now apply slices_ok]. }
  unfold serp_ks. destruct b as [|[|[|[|[|[|[|b]]]]]]]; now apply G.
Qed.

Lemma serp_setup_ok r key n : bytes_ok key -> r < 2 ^ 28 -> N.to_nat ((r + 7) / 8) = n ->
  words_ok 32 (serp_k (serp_setup r key)) /\ length (serp_k (serp_setup r key)) = (4 * (8 * n + 1))%nat.
Proof.
  intros Hk Hr E. unfold serp_setup, serp_passes. cbn [serp_k]. rewrite E.
  assert (W : words_ok 32 (serp_prekeys r key)) by now apply serp_prekeys_ok.
  set (w := serp_prekeys r key) in *. clearbody w.
  enough (G : forall m i, words_ok 32 (flat_map (fun i => serp_ks (i mod 8) (slice (4 * i) 4 w)) (seq i m)) /\
    length (flat_map (fun i => serp_ks (i mod 8) (slice (4 * i) 4 w)) (seq i m)) = (4 * m)%nat) by apply G.
  induction m as [|m IH]; intros i; [split; [constructor|reflexivity]|].
  destruct (serp_ks_ok (i mod 8) (slice (4 * i) 4 w) (words_slice _ _ _ _ W)) as [L4 W4].
  destruct (IH (S i)) as [W' L']. cbn [seq flat_map]. split; [apply Forall_app; now split|].
  rewrite app_length, L4, L'. lia.
Qed.

Lemma serpent_fits m : m <> 0 -> m < 2 ^ 25 ->
  N.max 32 (4 * (8 * ((8 * m + 7) / 8) + 1)) <= wshl 32 (8 * m + 1) 4 / 4.
Proof.
  intros H0 H. change (2 ^ 25) with 33554432 in H. unfold wshl.
  rewrite N.shiftl_mul_pow2, mask_id by (unfold inw; change (2 ^ 4) with 16; change (2 ^ 32) with 4294967296; lia).
  replace (8 * m + 7) with (7 + m * 8) by lia. rewrite N.div_add by discriminate. change (7 / 8) with 0.
  replace ((8 * m + 1) * 2 ^ 4) with ((4 * (8 * m + 1)) * 4) by (change (2 ^ 4) with 16; lia).
  rewrite N.div_mul by discriminate. lia.
Qed.

(** The round count has to be a multiple of eight. *)
Lemma serpent_perm m key : key_ok 32 key -> m < 2 ^ 25 ->
  exists s, serpent_create (8 * m) key = Ok s /\ permutation 16 (serpent_encrypt s) (serpent_decrypt s).
Proof.
  intros Hk Hm. set (r := serpent_rounds (8 * m)). exists (serp_setup r key).
  assert (E : exists m', r = 8 * m' /\ m' <> 0 /\ m' < 2 ^ 25).
  { unfold r, serpent_rounds. destruct (8 * m =? 0) eqn:Z; [exists 4; now repeat split|].
    apply N.eqb_neq in Z. exists m. repeat split; [lia|exact Hm]. }
  destruct E as (m' & E & H0 & Hm'). split.
  - unfold serpent_create. rewrite assert_true by now apply key_len_ok_true. cbv zeta. fold r.
    rewrite fits_ok; [reflexivity|]. rewrite E. now apply serpent_fits.
  - assert (D : N.to_nat ((r + 7) / 8) = N.to_nat m').
    { rewrite E. replace (8 * m' + 7) with (7 + m' * 8) by lia. rewrite N.div_add by discriminate. reflexivity. }
    assert (R : r < 2 ^ 28) by (rewrite E; change (2 ^ 25) with 33554432 in Hm'; change (2 ^ 28) with 268435456; lia).
    destruct (serp_setup_ok r key _ (proj1 Hk) R D) as [W L].
    apply perm_of_bij, (serp_bij _ (N.to_nat m')); [exact W| |exact L].
    cbn [serp_setup serp_r]. rewrite N2Nat.id. exact E.
Qed.

(** Any other round count makes the setup write behind the allocation. *)
Lemma serpent_bad_rounds r key : key_ok 32 key -> r < 2 ^ 28 - 1 -> r mod 8 <> 0 ->
  serpent_create r key = Err OobWrite.
Proof.
  intros Hk Hr Hm. unfold serpent_create. rewrite assert_true by now apply key_len_ok_true. cbv zeta.
  unfold serpent_rounds. destruct (r =? 0) eqn:Z.
  - apply N.eqb_eq in Z. subst r. now contradiction Hm.
  - unfold fits. change (2 ^ 28 - 1) with 268435455 in Hr.
    replace (N.max 32 (4 * (8 * ((r + 7) / 8) + 1)) <=? wshl 32 (r + 1) 4 / 4) with false; [reflexivity|].
    symmetry. apply N.leb_gt. unfold wshl.
    rewrite N.shiftl_mul_pow2, mask_id by (unfold inw; change (2 ^ 4) with 16; change (2 ^ 32) with 4294967296; lia).
    replace ((r + 1) * 2 ^ 4) with ((4 * (r + 1)) * 4) by (change (2 ^ 4) with 16; lia).
    rewrite N.div_mul by discriminate.
    pose proof (N.div_mod r 8 ltac:(discriminate)) as D. pose proof (N.mod_lt r 8 ltac:(discriminate)) as T.
    assert (Q : (r + 7) / 8 = r / 8 + 1).
    { set (q := r / 8) in *. set (t := r mod 8) in *. clearbody q t.
      assert (X : r + 7 = (t - 1) + (q + 1) * 8) by lia. rewrite X, N.div_add by discriminate.
      rewrite N.div_small by lia. lia. }
    rewrite Q. set (q := r / 8) in *. set (t := r mod 8) in *. clearbody q t. lia.
Qed.
