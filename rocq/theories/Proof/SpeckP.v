From Coq Require Import NArith Arith List Bool Lia.
From Verif Require Import Lib.Word Lib.Res Lib.Bytes Lib.BlockLemmas Spec.Block
  Model.LoadStore Model.BlockApi Model.Speck.
Import ListNotations.
Local Open Scope N_scope.

(** What the parameter sets have in common. *)
Record speck_good (p : speck_par) : Prop := {
  sg_codec : codec (sp_w p) (sp_k p) (sp_ld p) (sp_st p);
  sg_key : forall key n, bytes_ok key -> length (sp_key p key n) = n /\ words_ok (sp_w p) (sp_key p key n);
  sg_ra : sp_ra p < sp_w p;
  sg_rb : sp_rb p < sp_w p;
  sg_k : (sp_k p <> 0)%nat;
}.

Lemma speck32_good : speck_good speck32.
Proof. split; [apply codec16l|apply key16l_ok|reflexivity|reflexivity|discriminate]. Qed.
Lemma speck64_good : speck_good speck64.
Proof. split; [apply codec32l|apply key32l_ok|reflexivity|reflexivity|discriminate]. Qed.
Lemma speck128_good : speck_good speck128.
Proof. split; [apply codec64l|apply key64l_ok|reflexivity|reflexivity|discriminate]. Qed.

Section Speck.
  Variable p : speck_par.
  Hypothesis G : speck_good p.
  Let w := sp_w p.

  Lemma speck_R_inw k x : @w2 w x -> @w2 w (speck_R p k x).
  Proof. destruct x as [a b]; intros [Ha Hb]; unfold speck_R, w2 in *; cbn [fst snd] in *. fold w. split; wb. Qed.

  Lemma speck_round_bij k :
    bij_on (@w2 w) (@w2 w) (fun x => Ok (speck_R p k x)) (fun x => Ok (speck_IR p k x)).
  Proof.
    pose proof (sg_ra p G) as Ra. pose proof (sg_rb p G) as Rb. fold w in Ra, Rb.
    apply bij_pure; intros [a b] [Ha Hb]; cbn [fst snd] in *.
    - split; [now apply speck_R_inw|].
      unfold speck_R, speck_IR; cbn [fst snd]; fold w.
      rewrite !lxor_cancel. rewrite ror_rol by (wb || lia).
      rewrite wadd_wsub by wb. now rewrite rol_ror by (wb || lia).
    - split; [unfold speck_IR, w2; cbn [fst snd]; fold w; split; wb|].
      unfold speck_R, speck_IR; cbn [fst snd]; fold w.
      rewrite ror_rol by (wb || lia). rewrite wsub_wadd by wb. rewrite lxor_cancel.
      rewrite rol_ror by (wb || lia). now rewrite lxor_cancel.
  Qed.

  Lemma speck_ld_bij : bij_on (blk (2 * sp_k p)) (@w2 w)
    (fun l => Ok (speck_load p l)) (fun x => Ok (speck_store p x)).
  Proof.
    eapply bij_seq; [apply (ld2_bij (sg_codec p G))|apply (bij_swap w)| |]; reflexivity.
  Qed.

  Lemma speck_bij s : length (speck_ks s) = N.to_nat (speck_rounds s) ->
    bij_on (blk (2 * sp_k p)) (blk (2 * sp_k p)) (speck_encrypt p s) (speck_decrypt p s).
  Proof.
    intros Hl. unfold speck_encrypt, speck_decrypt.
    apply (lift_bij _ (@w2 w)); [apply speck_ld_bij|].
    apply (bij_loop (@w2 w)). intros j Hj. apply bij_get with (d := 0); [lia|].
    apply speck_round_bij.
  Qed.

  Lemma speck_setup_ok r key : (2 <= speck_words p key)%nat ->
    exists s, speck_setup p r key = Ok s /\ speck_rounds s = r /\
      length (speck_ks s) = S (N.to_nat r - 1).
  Proof.
    intros Hm. unfold speck_setup.
    pose proof (mfor_inv (fun i st => length (snd st) = S i) (N.to_nat r - 1) 0
      (speck_sched_step p (speck_words p key - 1)) (sp_key p key 4, [nth 0 (sp_key p key 4) 0])) as I.
    destruct I as (y & E & Hy).
    - intros j [k out] Hj L. cbn [snd] in L. unfold speck_sched_step.
      destruct (Nat.eqb_spec (speck_words p key - 1) 0); [lia|].
      destruct (speck_R _ _ _) as [ka k0]. eexists; split; [reflexivity|]. cbn [snd length]. now rewrite L.
    - reflexivity.
    - rewrite E. cbn [bind]. destruct y as [k out]. eexists. split; [reflexivity|].
      cbn [speck_rounds speck_ks]. rewrite rev_length. cbn [snd] in Hy. rewrite Hy. split; [reflexivity|lia].
  Qed.

  Lemma speck_perm_gen r key : key_ok (sp_maxkey p) key -> (sp_k p < length key)%nat ->
    speck_r p r key <> 0 -> speck_r p r key * N.of_nat (sp_k p) < 2 ^ 32 ->
    exists s, speck_create p r key = Ok s /\ permutation (2 * sp_k p) (speck_encrypt p s) (speck_decrypt p s).
  Proof.
    intros Hk Hlen Hr0 Hr. pose proof (sg_k p G) as Hk0.
    destruct (speck_setup_ok (speck_r p r key) key) as (s & E & Hs1 & Hs2).
    { unfold speck_words. apply Nat.div_le_lower_bound; lia. }
    exists s. split.
    - unfold speck_create. rewrite assert_true by now apply key_len_ok_true.
      rewrite fits_ok; [exact E|]. apply room_mul; [lia|exact Hr].
    - apply perm_of_bij, speck_bij. rewrite Hs2, Hs1. lia.
  Qed.

  (** A key of at most one word (of an allowed size) divides by zero. *)
  Lemma speck_short_key r key : key_ok (sp_maxkey p) key -> (length key <= sp_k p)%nat ->
    1 < speck_r p r key -> speck_r p r key * N.of_nat (sp_k p) < 2 ^ 32 ->
    speck_create p r key = Err DivZero.
  Proof.
    intros Hk Hlen Hr1 Hr. pose proof (sg_k p G) as Hk0. destruct Hk as (Hb & Hk1 & Hk2).
    unfold speck_create. rewrite assert_true by (apply key_len_ok_true; now split).
    rewrite fits_ok by (apply room_mul; [lia|exact Hr]).
    unfold speck_setup. assert (W : speck_words p key = 1%nat).
    { unfold speck_words. symmetry. apply Nat.div_unique with (length key - 1)%nat; lia. }
    rewrite W. cbn [Nat.sub]. destruct (N.to_nat (speck_r p r key) - 1)%nat eqn:E; [lia|].
    cbn [mfor]. unfold speck_sched_step at 1. reflexivity.
  Qed.
End Speck.
