From Coq Require Import NArith Arith List Bool Lia.
From Verif Require Import Lib.Word Lib.Res Lib.Bytes Lib.Bij Lib.Bits Lib.BlockLemmas Lib.Feistel Spec.Block
  Model.LoadStore Model.BlockApi Model.Table Model.Safer Model.Saferpp Proof.TableP Proof.SaferP.
Import ListNotations.
Local Open Scope N_scope.

(** ** SAFER++ *)

Lemma saferpp_tables : sf_tables spp_exp spp_log.
Proof. apply sf_tablesb_ok. vm_compute. reflexivity. Qed.

Lemma saferpp_pht_pbij : pbij (regs 8 16) (prun sf_plus spp_pht) (prun sf_minus spp_unpht).
Proof.
  eapply pbij_ext; [reflexivity| |apply sf_pht_pbij; reflexivity].
  intros x Hx. list_cases Hx. reflexivity.
Qed.
Lemma saferpp_perm_pbij : pbij (regs 8 16) (sf_moves 16 spp_perm) (sf_moves 16 spp_unperm).
Proof.
  split; intros x Hx; list_cases Hx; (split; [|reflexivity]);
    (split; [reflexivity|cbn; repeat (apply Forall_cons || apply Forall_nil); assumption]).
Qed.

Definition saferpp_pround (ks : list N) (i : nat) (x : list N) : list N :=
  sf_moves 16 spp_perm (prun sf_plus spp_pht (sf_add 16 (slice (32 * i + 16) 16 ks)
    (sf_sub spp_exp spp_log 16 (slice (32 * i) 16 ks) x))).
Definition saferpp_punround (ks : list N) (i : nat) (x : list N) : list N :=
  sf_unsub spp_exp spp_log 16 (slice (32 * i) 16 ks) (sf_unadd 16 (slice (32 * i + 16) 16 ks)
    (prun sf_minus spp_unpht (sf_moves 16 spp_unperm x))).

Lemma saferpp_pround_pbij ks i : words_ok 8 ks -> pbij (regs 8 16) (saferpp_pround ks i) (saferpp_punround ks i).
Proof.
  intros K. unfold saferpp_pround, saferpp_punround.
  pose proof (sf_sub_pbij spp_exp spp_log 16 (slice (32 * i) 16 ks) saferpp_tables (words_slice _ _ _ _ K)) as A.
  pose proof (sf_add_pbij 16 (slice (32 * i + 16) 16 ks) (words_slice _ _ _ _ K)) as B.
  exact (pbij_comp _ _ _ _ _ (pbij_comp _ _ _ _ _ (pbij_comp _ _ _ _ _ A B) saferpp_pht_pbij) saferpp_perm_pbij).
Qed.

Lemma saferpp_bij s n : words_ok 8 (spp_k s) -> N.to_nat (spp_r s) = n -> length (spp_k s) = (32 * n + 16)%nat ->
  bij_on (regs 8 16) (regs 8 16) (saferpp_encrypt s) (saferpp_decrypt s).
Proof.
  intros K Hr Hl. set (ks := spp_k s) in *.
  assert (B : pbij (regs 8 16) (pfor n 0 (saferpp_pround ks)) (pford n (saferpp_punround ks))).
  { apply pbij_loop. intros j _. now apply saferpp_pround_pbij. }
  pose proof (sf_end_pbij 16 (slice (32 * n) 16 ks) (words_slice _ _ _ _ K)) as C.
  eapply bij_ext; [| |apply pbij_bij, (pbij_comp _ _ _ _ _ B C)].
  - intros x _. unfold saferpp_encrypt. rewrite Hr. fold ks.
    rewrite (mfor_ext n 0 _ (fun i y => Ok (saferpp_pround ks i y))).
    + rewrite mfor_Ok. cbn [bind]. rewrite sf_key_ok by (rewrite Hl; lia). reflexivity.
    + intros j y Hj. unfold spp_round, saferpp_pround. fold ks. rewrite !sf_key_ok by (rewrite Hl; lia). cbn [bind]. reflexivity.
  - intros x _. unfold saferpp_decrypt. rewrite Hr. fold ks. cbv zeta. rewrite sf_key_ok by (rewrite Hl; lia). cbn [bind].
    rewrite (mford_ext n _ (fun i y => Ok (saferpp_punround ks i y))).
    + rewrite mford_Ok. reflexivity.
    + intros j y Hj. unfold spp_unround, saferpp_punround. fold ks. rewrite !sf_key_ok by (rewrite Hl; lia). cbn [bind]. reflexivity.
Qed.

Lemma saferpp_step_ok m st : words_ok 8 (fst (fst st)) ->
  words_ok 8 (fst (fst (spp_step m st))) /\
  length (fst (fst (spp_step m st))) = (length (fst (fst st)) + 32)%nat.
Proof.
  destruct st as [[ks ka] kb]. cbn [fst]. intros W. unfold spp_step. cbn [fst]. split.
  - apply Forall_app. split; [exact W|]. apply Forall_app. split; apply Forall_forall; intros v Hv;
      apply in_map_iff in Hv; destruct Hv as (j & <- & _); wb.
  - now rewrite !app_length, !map_length, !seq_length.
Qed.
Lemma saferpp_steps_ok n : forall i st, words_ok 8 (fst (fst st)) ->
  words_ok 8 (fst (fst (pfor n i (spp_step) st))) /\
  length (fst (fst (pfor n i (spp_step) st))) = (length (fst (fst st)) + 32 * n)%nat.
Proof.
  induction n as [|n IH]; intros i st W; cbn [pfor]; [split; [exact W|lia]|].
  destruct (saferpp_step_ok i st W) as [W1 L1]. destruct (IH (S i) _ W1) as [W2 L2]. split; [exact W2|]. rewrite L2, L1. lia.
Qed.

(** Keys of 16 or 32 bytes. *)
Lemma saferpp_setup_ok r key : bytes_ok key -> length key = 16%nat \/ length key = 32%nat ->
  exists s, spp_setup r key = Ok s /\ spp_r s = r /\ words_ok 8 (spp_k s) /\
    length (spp_k s) = (32 * N.to_nat r + 16)%nat.
Proof.
  intros Hb Hl. unfold spp_setup. cbv zeta.
  rewrite (sf_key_ok (if Nat.ltb 16 (length key) then skipn 16 key else key)).
  2:{ destruct Hl as [E|E]; rewrite E; cbn [Nat.ltb Nat.leb]; [lia|rewrite skipn_length; lia]. }
  cbn [bind]. rewrite (sf_key_ok key) by lia. cbn [bind].
  set (ka := sf_parity (map _ _)). set (b := slice 0 16 key).
  assert (Wb : words_ok 8 b) by (apply (words_slice 8); exact Hb).
  assert (Lb : length b = 16%nat) by (unfold b, slice; rewrite firstn_length; cbn [skipn]; lia).
  destruct (saferpp_steps_ok (N.to_nat r) 1 (b, ka, sf_parity b) Wb) as [W L].
  destruct (pfor (N.to_nat r) 1 spp_step (b, ka, sf_parity b)) as [[ks ka'] kb'].
  eexists. split; [reflexivity|]. cbn [spp_r spp_k fst] in *. repeat split; [exact W|]. rewrite L, Lb. lia.
Qed.

Lemma saferpp_perm r key : key_ok 32 key -> length key = 16%nat \/ length key = 32%nat -> r < 2 ^ 27 - 1 ->
  exists s, saferpp_create r key = Ok s /\ permutation 16 (saferpp_encrypt s) (saferpp_decrypt s).
Proof.
  intros Hk Hl Hr. change (2 ^ 27 - 1) with 134217727 in Hr. set (r' := saferpp_rounds r key).
  assert (R : r' < 134217727).
  { unfold r', saferpp_rounds. destruct (r =? 0); [destruct (Nat.ltb 16 (length key)); reflexivity|exact Hr]. }
  destruct (saferpp_setup_ok r' key (proj1 Hk) Hl) as (s & E & Es & W & L). exists s. split.
  - unfold saferpp_create. rewrite assert_true by now apply key_len_ok_true. cbv zeta. fold r'.
    rewrite fits_ok; [exact E|]. unfold wadd, wshl. rewrite N.shiftl_mul_pow2. change (2 ^ 5) with 32.
    rewrite (mask_id 32 (r' * 32)) by (unfold inw; change (2 ^ 32) with 4294967296; lia).
    rewrite mask_id by (unfold inw; change (2 ^ 32) with 4294967296; lia). lia.
  - apply perm_of_bij. apply (saferpp_bij s (N.to_nat r')); [exact W|now rewrite Es|exact L].
Qed.

(** Any other length makes the setup read behind the key. *)
Lemma saferpp_short r key : key_ok 32 key -> length key <> 16%nat -> length key <> 32%nat -> r < 2 ^ 27 - 1 ->
  saferpp_create r key = Err OobRead.
Proof.
  intros Hk H8 H16 Hr. change (2 ^ 27 - 1) with 134217727 in Hr. set (r' := saferpp_rounds r key).
  assert (R : r' < 134217727).
  { unfold r', saferpp_rounds. destruct (r =? 0); [destruct (Nat.ltb 16 (length key)); reflexivity|exact Hr]. }
  unfold saferpp_create. rewrite assert_true by now apply key_len_ok_true. cbv zeta. fold r'. rewrite fits_ok.
  - unfold spp_setup. cbv zeta. destruct Hk as [_ [_ Hk]]. unfold sf_key at 1.
    rewrite (proj2 (Nat.leb_gt _ _)); [reflexivity|].
    destruct (Nat.ltb 16 (length key)) eqn:L; [apply Nat.ltb_lt in L; rewrite skipn_length; lia|apply Nat.ltb_ge in L; lia].
  - unfold wadd, wshl. rewrite N.shiftl_mul_pow2. change (2 ^ 5) with 32.
    rewrite (mask_id 32 (r' * 32)) by (unfold inw; change (2 ^ 32) with 4294967296; lia).
    rewrite mask_id by (unfold inw; change (2 ^ 32) with 4294967296; lia). lia.
Qed.
