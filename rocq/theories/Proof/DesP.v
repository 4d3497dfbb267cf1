From Coq Require Import NArith Arith List Bool Lia.
From Verif Require Import Lib.Word Lib.Res Lib.Bytes Lib.BlockLemmas Lib.Bij Lib.Feistel Lib.XorSolve Spec.Block
  Model.LoadStore Model.BlockApi Model.Table Model.Des.
Import ListNotations.
Local Open Scope N_scope.

Lemma tab6_inw w t x : words_ok w t -> inw w (tab6 t x).
Proof. intros H. now apply words_nth. Qed.
Lemma des_sp_inw : forall t, In t [des_sp1; des_sp2; des_sp3; des_sp4; des_sp5; des_sp6; des_sp7; des_sp8] -> words_ok 32 t.
Proof.
  intros t Ht. apply words_okb.
  assert (C : forallb (fun t => forallb (fun x => N.ltb x (2 ^ 32)) t)
    [des_sp1; des_sp2; des_sp3; des_sp4; des_sp5; des_sp6; des_sp7; des_sp8] = true) by (vm_compute; reflexivity).
  rewrite forallb_forall in C. now apply C.
Qed.

Lemma des_f_inw l r k0 k1 : inw 32 l -> inw 32 (des_f l r k0 k1).
Proof.
  intros H. unfold des_f. cbv zeta.
  repeat first [apply inw_lxor | apply inw_lor | assumption | apply tab6_inw, des_sp_inw; cbn [In]; tauto].
Qed.
Lemma des_f_undo l r k0 k1 : des_f (des_f l r k0 k1) r k0 k1 = l.
Proof.
  unfold des_f. cbv zeta. set (a := N.lor _ _). set (b := N.lor _ _). xor_solve.
Qed.

(** ** The initial and final permutations *)

Lemma des_delta_pbij n m : N.shiftr m (32 - n) = 0 -> n <= 32 -> inw 32 m ->
  pbij (@w2 32) (des_delta n m) (des_delta n m).
Proof.
  intros Hm Hn Im.
  assert (H : pinv (@w2 32) (des_delta n m) (des_delta n m)).
  { intros [a b] [Ha Hb]. cbn [fst snd] in Ha, Hb. unfold des_delta. cbn [fst snd].
    set (t := N.land (N.lxor (wshr a n) b) m).
    assert (It : inw 32 t) by (apply inw_land_r; exact Im).
    assert (E : wshr (N.lxor a (wshl 32 t n)) n = N.lxor (wshr a n) t).
    { unfold wshr, wshl. rewrite N.shiftr_lxor. f_equal. apply N.bits_inj. intros i.
      rewrite N.shiftr_spec', mask_spec, N.shiftl_spec_high' by lia. rewrite N.add_sub.
      destruct (N.ltb_spec (i + n) 32) as [L|L]; rewrite ?andb_true_l, ?andb_true_r, ?andb_false_l, ?andb_false_r; [reflexivity|].
      unfold t. rewrite N.land_spec. replace i with ((i - (32 - n)) + (32 - n)) at 2 by lia.
      rewrite <- N.shiftr_spec', Hm, N.bits_0. now rewrite andb_false_r. }
    rewrite E.
    assert (T : N.land (N.lxor (N.lxor (wshr a n) t) (N.lxor b t)) m = t).
    { unfold t at 3. f_equal. rewrite N.lxor_assoc. f_equal. rewrite N.lxor_comm. apply lxor_cancel. }
    rewrite T. split; [split; cbn [fst snd]; wb|]. now rewrite !lxor_cancel. }
  now split.
Qed.
Lemma des_sw_pbij : pbij (@w2 32) des_sw des_sw.
Proof. split; intros [a b] [Ha Hb]; now split. Qed.
Lemma des_deltas_pbij n m : N.shiftr m (32 - n) = 0 -> n <= 32 -> inw 32 m ->
  pbij (@w2 32) (fun x => des_sw (des_delta n m (des_sw x))) (fun x => des_sw (des_delta n m (des_sw x))).
Proof.
  intros H1 H2 H3. apply (pbij_comp _ (fun x => des_delta n m (des_sw x)) (fun x => des_sw (des_delta n m x)) des_sw des_sw).
  - apply (pbij_comp _ des_sw des_sw); [apply des_sw_pbij|now apply des_delta_pbij].
  - apply des_sw_pbij.
Qed.

Definition des_aa (x : N * N) : N * N :=
  let t := N.land (N.lxor (fst x) (snd x)) 0xAAAAAAAA in (N.lxor (fst x) t, N.lxor (snd x) t).
Lemma des_aa_pbij : pbij (@w2 32) des_aa des_aa.
Proof.
  assert (H : pinv (@w2 32) des_aa des_aa).
  { intros [a b] [Ha Hb]. cbn [fst snd] in Ha, Hb. unfold des_aa. cbn [fst snd].
    set (t := N.land (N.lxor a b) 0xAAAAAAAA). 
    assert (E : N.lxor (N.lxor a t) (N.lxor b t) = N.lxor a b).
    { rewrite N.lxor_assoc. f_equal. rewrite N.lxor_comm. apply lxor_cancel. }
    rewrite E. fold t. assert (inw 32 t) by (apply inw_land_r; reflexivity).
    split; [split; cbn [fst snd]; wb|]. now rewrite !lxor_cancel. }
  now split.
Qed.
Lemma des_rol2_pbij : pbij (@w2 32) (fun x => (fst x, rol 32 (snd x) 1)) (fun x => (fst x, ror 32 (snd x) 1)).
Proof. split; intros [a b] [Ha Hb]; cbn [fst snd] in *; (split; [split; cbn [fst snd]; wb|]); f_equal; (apply rol_ror || apply ror_rol); (assumption || discriminate). Qed.
Lemma des_rol1_pbij : pbij (@w2 32) (fun x => (rol 32 (fst x) 1, snd x)) (fun x => (ror 32 (fst x) 1, snd x)).
Proof. split; intros [a b] [Ha Hb]; cbn [fst snd] in *; (split; [split; cbn [fst snd]; wb|]); f_equal; (apply rol_ror || apply ror_rol); (assumption || discriminate). Qed.

(** the inverse of the initial permutation *)
Definition des_ipi (x : N * N) : N * N :=
  des_delta 4 0x0F0F0F0F (des_delta 16 0x0000FFFF
    (des_sw (des_delta 2 0x33333333 (des_sw (des_sw (des_delta 8 0x00FF00FF (des_sw
      ((fun x => (fst x, ror 32 (snd x) 1)) (des_aa ((fun x => (ror 32 (fst x) 1, snd x)) x)))))))))).
Lemma des_ip_pbij : pbij (@w2 32) des_ip des_ipi.
Proof.
  unfold des_ipi.
  pose proof (des_delta_pbij 4 0x0F0F0F0F eq_refl ltac:(discriminate) eq_refl) as D1.
  pose proof (des_delta_pbij 16 0x0000FFFF eq_refl ltac:(discriminate) eq_refl) as D2.
  pose proof (des_deltas_pbij 2 0x33333333 eq_refl ltac:(discriminate) eq_refl) as D3.
  pose proof (des_deltas_pbij 8 0x00FF00FF eq_refl ltac:(discriminate) eq_refl) as D4.
  pose proof (pbij_comp _ _ _ _ _ D1 (pbij_comp _ _ _ _ _ D2 (pbij_comp _ _ _ _ _ D3 (pbij_comp _ _ _ _ _ D4
    (pbij_comp _ _ _ _ _ des_rol2_pbij (pbij_comp _ _ _ _ _ des_aa_pbij des_rol1_pbij)))))) as B.
  eapply pbij_ext; [| |exact B]; intros x _; reflexivity.
Qed.
Lemma des_fp_ipi x : des_fp x = des_ipi (des_sw x).
Proof.
  destruct x as [l r]. unfold des_fp, des_ipi, des_aa. cbv zeta. cbn [des_sw fst snd].
  rewrite (N.lxor_comm (ror 32 r 1) l). reflexivity.
Qed.

(** ** The rounds *)

Definition des_body (k : list N) (i : nat) : N * N -> N * N :=
  des_pair (nth (4 * i) k 0) (nth (4 * i + 1) k 0) (nth (4 * i + 2) k 0) (nth (4 * i + 3) k 0).
(** the four words of two rounds, in the order of decryption *)
Definition des_opposite (k k' : list N) : Prop :=
  length k = 32%nat /\ length k' = 32%nat /\ forall i, (i < 8)%nat ->
    nth (4 * (7 - i)) k' 0 = nth (4 * i + 2) k 0 /\ nth (4 * (7 - i) + 1) k' 0 = nth (4 * i + 3) k 0 /\
    nth (4 * (7 - i) + 2) k' 0 = nth (4 * i) k 0 /\ nth (4 * (7 - i) + 3) k' 0 = nth (4 * i + 1) k 0.

Lemma des_pair_sw k0 k1 k2 k3 x : @w2 32 x ->
  @w2 32 (des_pair k0 k1 k2 k3 x) /\ des_sw (des_pair k2 k3 k0 k1 (des_sw (des_pair k0 k1 k2 k3 x))) = x.
Proof.
  destruct x as [l r]. intros [Hl Hr]. cbn [fst snd] in Hl, Hr. unfold des_pair, des_sw. cbn [fst snd]. cbv zeta. split.
  - split; cbn [fst snd]; now apply des_f_inw.
  - now rewrite !des_f_undo.
Qed.

Lemma des_crypt_eq k x : length k = 32%nat -> des_crypt k x = Ok (des_fp (pfor 8 0 (des_body k) (des_ip x))).
Proof.
  intros Hl. unfold des_crypt.
  rewrite (mfor_ext 8 0 _ (fun i y => Ok (des_body k i y))).
  - now rewrite mfor_Ok.
  - intros j y Hj. now rewrite !(get_ok _ _ 0) by (rewrite Hl; lia).
Qed.

Lemma des_crypt_bij k k' : des_opposite k k' -> bij_on (@w2 32) (@w2 32) (des_crypt k) (des_crypt k').
Proof.
  intros (H1 & H2 & H).
  assert (B : pbij (@w2 32) (fun x => des_sw (pfor 8 0 (des_body k) x)) (fun x => des_sw (pford 8 (fun i => des_body k' (7 - i)) x))).
  { apply feistel_bij.
    - apply des_sw_pbij.
    - intros i x Hi Hx. unfold des_body. destruct (H i Hi) as (-> & -> & -> & ->). now apply des_pair_sw.
    - intros i x Hi Hx. unfold des_body. destruct (H i Hi) as (-> & -> & -> & ->). now apply des_pair_sw. }
  pose proof (pbij_bij _ _ _ (pbij_comp _ _ _ _ _ (pbij_comp _ _ _ _ _ des_ip_pbij B) (pbij_sym _ _ _ des_ip_pbij))) as G.
  eapply bij_ext; [| |exact G].
  - intros x _. rewrite des_crypt_eq by exact H1. cbv beta. now rewrite des_fp_ipi.
  - intros x _. rewrite des_crypt_eq by exact H2. cbv beta. rewrite des_fp_ipi. reflexivity.
Qed.

Lemma des_pairs_nth (g0 g1 : nat -> N) i : (i < 16)%nat ->
  nth (2 * i) (flat_map (fun q => [g0 q; g1 q]) (seq 0 16)) 0 = g0 i /\
  nth (2 * i + 1) (flat_map (fun q => [g0 q; g1 q]) (seq 0 16)) 0 = g1 i.
Proof. intros H. do 16 (destruct i as [|i]; [now split|]). lia. Qed.
Lemma des_key_words key : exists g0 g1,
  des_key false key = flat_map (fun q => [g0 q; g1 q]) (seq 0 16) /\
  des_key true key = flat_map (fun q => [g0 (15 - q)%nat; g1 (15 - q)%nat]) (seq 0 16).
Proof.
  assert (E : forall a b, des_cook a b = [nth 0 (des_cook a b) 0; nth 1 (des_cook a b) 0]) by reflexivity.
  exists (fun q => nth 0 (des_cook (des_kn (des_pcr (des_pc1m key) q) 0) (des_kn (des_pcr (des_pc1m key) q) 24)) 0),
    (fun q => nth 1 (des_cook (des_kn (des_pcr (des_pc1m key) q) 0) (des_kn (des_pcr (des_pc1m key) q) 24)) 0).
  split; unfold des_key; cbv zeta; apply flat_map_ext; intros q; exact (E _ _).
Qed.
Lemma des_opp_sym k k' : des_opposite k k' -> des_opposite k' k.
Proof.
  intros (H1 & H2 & H). repeat split; try assumption; destruct (H (7 - i)%nat ltac:(lia)) as (A & B & C & D);
    replace (7 - (7 - i))%nat with i in * by lia; congruence.
Qed.
Lemma des_key_opposite key : des_opposite (des_key false key) (des_key true key).
Proof.
  destruct (des_key_words key) as (g0 & g1 & -> & ->). split; [reflexivity|]. split; [reflexivity|].
  intros i Hi.
  pose proof (des_pairs_nth g0 g1 (2 * i) ltac:(lia)) as [A B].
  pose proof (des_pairs_nth g0 g1 (2 * i + 1) ltac:(lia)) as [C D].
  pose proof (des_pairs_nth (fun q => g0 (15 - q)%nat) (fun q => g1 (15 - q)%nat) (2 * (7 - i)) ltac:(lia)) as [A' B'].
  pose proof (des_pairs_nth (fun q => g0 (15 - q)%nat) (fun q => g1 (15 - q)%nat) (2 * (7 - i) + 1) ltac:(lia)) as [C' D'].
  replace (4 * (7 - i))%nat with (2 * (2 * (7 - i)))%nat by lia.
  replace (2 * (2 * (7 - i)) + 2)%nat with (2 * (2 * (7 - i) + 1))%nat by lia.
  replace (2 * (2 * (7 - i)) + 3)%nat with (2 * (2 * (7 - i) + 1) + 1)%nat by lia.
  replace (4 * i)%nat with (2 * (2 * i))%nat by lia.
  replace (2 * (2 * i) + 2)%nat with (2 * (2 * i + 1))%nat by lia.
  replace (2 * (2 * i) + 3)%nat with (2 * (2 * i + 1) + 1)%nat by lia.
  rewrite A, B, C, D, A', B', C', D'. repeat split; f_equal; lia.
Qed.

Lemma des_crypts_app a b x : des_crypts (a ++ b) x = let* y := des_crypts a x in des_crypts b y.
Proof.
  revert x. induction a as [|k a IH]; intros x; [reflexivity|]. cbn [des_crypts app].
  destruct (des_crypt k x); [|reflexivity]. apply IH.
Qed.
Lemma des_crypts_bij ks ks' : Forall2 des_opposite ks (rev ks') ->
  bij_on (@w2 32) (@w2 32) (des_crypts ks) (des_crypts ks').
Proof.
  rewrite <- (rev_involutive ks') at 2. generalize (rev ks'). intros l H.
  induction H as [|k k' ks l Ho Hl IH]; [apply pbij_bij, pbij_id|].
  cbn [rev]. eapply bij_ext; [intros x _; cbn [des_crypts]; reflexivity|intros x _; symmetry; apply des_crypts_app|].
  apply bij_comp with (Q := @w2 32); [|exact IH].
  eapply bij_ext; [reflexivity| |apply (des_crypt_bij _ _ Ho)].
  intros x _. cbn [des_crypts]. now destruct (des_crypt k' x).
Qed.

Lemma des_setup_opposite key : Forall2 des_opposite (des_ek (des_setup key)) (rev (des_dk (des_setup key))).
Proof.
  unfold des_setup. cbv zeta. destruct (16 <? length key)%nat; [|destruct (8 <? length key)%nat];
    cbn [des_ek des_dk rev app];
    repeat match goal with
    | |- Forall2 _ (_ :: _) _ => apply Forall2_cons
    | |- Forall2 _ [] _ => apply Forall2_nil
    | |- des_opposite (des_key false ?k) _ => exact (des_key_opposite k)
    | |- des_opposite (des_key true ?k) _ => exact (des_opp_sym _ _ (des_key_opposite k))
    end.
Qed.

Lemma des_perm r key : key_ok 24 key ->
  exists s, des_create r key = Ok s /\ permutation 8 (des_encrypt s) (des_decrypt s).
Proof.
  intros Hk. exists (des_setup key). split.
  - unfold des_create. now rewrite assert_true by now apply key_len_ok_true.
  - apply perm_of_bij. pose proof (lift_bij (blk 8) (@w2 32) _ _ _ _ (ld2_bij codec32b)
      (des_crypts_bij _ _ (des_setup_opposite key))) as G.
    eapply bij_ext; [| |exact G]; intros x _; reflexivity.
Qed.
