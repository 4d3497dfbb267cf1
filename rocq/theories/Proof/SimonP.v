From Coq Require Import NArith Arith List Bool Lia.
From Verif Require Import Lib.Word Lib.Res Lib.Bytes Lib.BlockLemmas Spec.Block
  Model.LoadStore Model.BlockApi Model.Simon.
Import ListNotations.
Local Open Scope N_scope.

Record simon_good (p : simon_par) : Prop := {
  ig_codec : codec (si_w p) (si_k p) (si_ld p) (si_st p);
  ig_key : forall key n, bytes_ok key -> length (si_key p key n) = n /\ words_ok (si_w p) (si_key p key n);
  ig_w : 8 <= si_w p;
  ig_k : (si_k p <> 0)%nat;
}.

Lemma simon32_good : simon_good simon32.
Proof. split; [apply codec16l|apply key16l_ok|discriminate|discriminate]. Qed.
Lemma simon64_good : simon_good simon64.
Proof. split; [apply codec32l|apply key32l_ok|discriminate|discriminate]. Qed.
Lemma simon128_good : simon_good simon128.
Proof. split; [apply codec64l|apply key64l_ok|discriminate|discriminate]. Qed.

Section Simon.
  Variable p : simon_par.
  Hypothesis G : simon_good p.
  Let w := si_w p.

  (** One round in the textbook form, on (a, b). *)
  Definition simon_rnd (k : N) (x : N * N) : N * N :=
    (N.lxor (snd x) (N.lxor (simon_F p (fst x)) k), fst x).
  Definition simon_rnd_inv (k : N) (x : N * N) : N * N :=
    (snd x, N.lxor (fst x) (N.lxor (simon_F p (snd x)) k)).

  Lemma simon_F_inw x : inw w x -> inw w (simon_F p x).
  Proof. intros H. unfold simon_F. fold w. wb. Qed.
  Hint Resolve simon_F_inw : wb.

  Lemma simon_rnd_bij k : inw w k ->
    bij_on (@w2 w) (@w2 w) (fun x => Ok (simon_rnd k x)) (fun x => Ok (simon_rnd_inv k x)).
  Proof.
    intros Hk. apply bij_pure; intros [a b] [Ha Hb]; cbn [fst snd] in *;
      unfold simon_rnd, simon_rnd_inv, w2; cbn [fst snd].
    - split; [split; wb|]. now rewrite lxor_cancel.
    - split; [split; wb|]. now rewrite lxor_cancel.
  Qed.

  Lemma simon_enc_loop_eq ks n : forall i a b, (i + n <= length ks)%nat ->
    simon_enc_loop p ks n i a b = mfor n i (fun j y => Ok (simon_rnd (nth j ks 0) y)) (a, b).
  Proof.
    induction n as [n IH] using (well_founded_induction Wf_nat.lt_wf). intros i a b H.
    destruct n as [|[|n]]; [reflexivity| |].
    - cbn [simon_enc_loop mfor]. now gets.
    - cbn [simon_enc_loop mfor]. gets. rewrite IH by lia. reflexivity.
  Qed.

  Lemma simon_dec_loop_eq ks n : forall a b, (n <= length ks)%nat ->
    simon_dec_loop p ks n a b = mford n (fun j y => Ok (simon_rnd_inv (nth j ks 0) y)) (a, b).
  Proof.
    induction n as [n IH] using (well_founded_induction Wf_nat.lt_wf). intros a b H.
    destruct n as [|[|n]]; [reflexivity| |].
    - cbn [simon_dec_loop mford]. now gets.
    - cbn [simon_dec_loop mford]. gets. rewrite IH by lia. reflexivity.
  Qed.

  Lemma simon_ld_bij : bij_on (blk (2 * si_k p)) (@w2 w)
    (fun l => Ok (simon_load p l)) (fun x => Ok (simon_store p x)).
  Proof.
    eapply bij_seq; [apply (ld2_bij (ig_codec p G))|apply (bij_swap w)| |]; reflexivity.
  Qed.

  Lemma simon_bij s : (N.to_nat (simon_rounds s) <= length (simon_ks s))%nat -> words_ok w (simon_ks s) ->
    bij_on (blk (2 * si_k p)) (blk (2 * si_k p)) (simon_encrypt p s) (simon_decrypt p s).
  Proof.
    intros Hl Hw. unfold simon_encrypt, simon_decrypt.
    apply (lift_bij _ (@w2 w) _ _ (fun x => simon_enc_loop p _ _ _ (fst x) (snd x))
      (fun x => simon_dec_loop p _ _ (fst x) (snd x))); [apply simon_ld_bij|].
    eapply bij_ext; [| |apply (bij_loop (@w2 w) (N.to_nat (simon_rounds s))); intros j _;
      apply (simon_rnd_bij (nth j (simon_ks s) 0)); wb].
    - intros x _. rewrite simon_enc_loop_eq by lia. now destruct x.
    - intros x _. rewrite simon_dec_loop_eq by lia. now destruct x.
  Qed.

  Lemma simon_setup_ok r key : bytes_ok key ->
    (N.to_nat r <= length (simon_ks (simon_setup p r key)))%nat /\ words_ok w (simon_ks (simon_setup p r key)).
  Proof.
    intros Hb. unfold simon_setup. cbn [simon_ks].
    set (m := simon_m p key). destruct (ig_key p G key m Hb) as [L W].
    pose proof (pfor_inv (fun i ks => length ks = i /\ words_ok w ks) (N.to_nat r - m) m
      (fun i ks => ks ++ [simon_next p m ks i]) (si_key p key m)) as I.
    destruct I as [I1 I2].
    - intros j ks _ [H1 H2]. split; [rewrite app_length; cbn [length]; lia|].
      apply Forall_app. split; [exact H2|]. constructor; [|constructor].
      pose proof (ig_w p G). fold w in H.
      assert (In : forall i, inw w (nth i ks 0)) by (intros i; wb).
      unfold simon_next. fold w. apply inw_lxor.
      + apply inw_lxor; [destruct (Nat.eqb m 4); wb|].
        apply inw_lxor; [destruct (Nat.eqb m 4); wb|]. apply inw_mono with 8; [lia|reflexivity].
      + apply inw_mono with 8; [lia|]. unfold inw.
        apply N.le_lt_trans with 1; [|reflexivity].
        change 1 with (N.ones 1). rewrite N.land_ones. change (2 ^ 1) with 2.
        pose proof (N.mod_lt (N.shiftr (si_z p m) (N.of_nat (Nat.modulo (j - m) 62))) 2 ltac:(discriminate)).
        change (N.ones 1) with 1. lia.
    - now split.
    - rewrite I1. split; [lia|exact I2].
  Qed.

  Lemma simon_perm_gen r key : key_ok (si_maxkey p) key ->
    N.of_nat (simon_m p key) <= simon_r p r key -> simon_r p r key * N.of_nat (si_k p) < 2 ^ 32 ->
    exists s, simon_create p r key = Ok s /\ permutation (2 * si_k p) (simon_encrypt p s) (simon_decrypt p s).
  Proof.
    intros Hk Hm Hr. pose proof (ig_k p G) as Hk0. eexists. split.
    - unfold simon_create. rewrite assert_true by now apply key_len_ok_true.
      rewrite N.max_l by exact Hm. apply fits_ok. apply room_mul; [lia|exact Hr].
    - apply perm_of_bij. destruct Hk as [Hb _]. apply simon_bij; apply (simon_setup_ok _ key Hb).
  Qed.

  (** Fewer rounds than key words: the key is written past the allocation. *)
  Lemma simon_few_rounds r key : key_ok (si_maxkey p) key ->
    simon_r p r key < N.of_nat (simon_m p key) -> simon_r p r key * N.of_nat (si_k p) < 2 ^ 32 ->
    simon_create p r key = Err OobWrite.
  Proof.
    intros Hk Hm Hr. pose proof (ig_k p G) as Hk0. unfold simon_create.
    rewrite assert_true by now apply key_len_ok_true.
    unfold fits. rewrite N.max_r by lia. rewrite mask_id by exact Hr.
    rewrite N.div_mul by lia. destruct (N.leb_spec (N.of_nat (simon_m p key)) (simon_r p r key)); [lia|reflexivity].
  Qed.
End Simon.
