From Coq Require Import NArith Arith List Bool Lia.
From Verif Require Import Lib.Word Lib.Res Lib.Bytes Lib.Bij Lib.Bits Lib.BlockLemmas Spec.Block
  Model.LoadStore Model.BlockApi Model.Rectangle.
Import ListNotations.
Local Open Scope N_scope.

Lemma rect_sub_bij w : pbij (regs w 4) (rect_sub w) (rect_inv w).
Proof. apply slices_pbij; reflexivity. Qed.

Lemma rect_shift_bij : pbij (regs 16 4) rect_shift rect_unshift.
Proof.
  split; intros x Hx; list_cases Hx; unfold rect_shift, rect_unshift; cbn [nth]; (split; [regs_list|]).
  - now rewrite !ror_rol by (wb || lia).
  - now rewrite !rol_ror by (wb || lia).
Qed.

Lemma rect_add_bij ks i : words_ok 16 ks -> (4 * i + 4 <= length ks)%nat ->
  bij_on (regs 16 4) (regs 16 4) (rect_add ks i) (rect_add ks i).
Proof.
  intros Hw Hl. assert (K : forall j, inw 16 (nth j ks 0)) by (intros; wb).
  assert (G : inv_on (regs 16 4) (regs 16 4) (rect_add ks i) (rect_add ks i)).
  { intros x Hx. list_cases Hx. unfold rect_add. gets. eexists. split; [reflexivity|].
    cbn [nth]. split; [regs_list|]. now rewrite !lxor_cancel. }
  now split.
Qed.

Lemma rect_bij s : words_ok 16 (rect_k s) -> length (rect_k s) = (4 * (N.to_nat (rect_rounds s) + 1))%nat ->
  bij_on (blk 8) (blk 8) (rect_encrypt s) (rect_decrypt s).
Proof.
  intros Hw Hl. unfold rect_encrypt, rect_decrypt.
  apply (lift_bij (blk 8) (regs 16 4)); [apply (loads_bij codec16b 4)|].
  unfold rect_enc_words, rect_dec_words.
  apply (bij_alt (regs 16 4) (N.to_nat (rect_rounds s)) (rect_add (rect_k s)) (rect_add (rect_k s))
    (fun _ x => Ok (rect_shift (rect_sub 16 x))) (fun _ x => Ok (rect_inv 16 (rect_unshift x)))).
  - intros j Hj. apply rect_add_bij; [exact Hw|lia].
  - intros j Hj. apply pbij_bij. exact (pbij_comp _ _ _ _ _ (rect_sub_bij 16) rect_shift_bij).
Qed.

Lemma rect_sched_ok next m : (4 <= m)%nat -> (forall i k, length (next i k) = m) -> forall n i k, length k = m ->
  length (rect_sched next n i k) = (4 * (n + 1))%nat /\ words_ok 16 (rect_sched next n i k).
Proof.
  intros Hm Hn. induction n as [|n IH]; intros i k Hk; cbn [rect_sched];
    rewrite app_length, map_length, firstn_length, Hk, Nat.min_l by exact Hm.
  - split; [reflexivity|]. apply Forall_app. split; [|constructor].
    apply Forall_forall. intros v Hv. apply in_map_iff in Hv. destruct Hv as (u & <- & _). wb.
  - destruct (IH (S i) (next i k) (Hn i k)) as [L W]. split; [lia|]. apply Forall_app. split; [|exact W].
    apply Forall_forall. intros v Hv. apply in_map_iff in Hv. destruct Hv as (u & <- & _). wb.
Qed.

Lemma rect_perm r key : key_ok 16 key -> r <= 25 ->
  exists s, rect_create r key = Ok s /\ permutation 8 (rect_encrypt s) (rect_decrypt s).
Proof.
  intros Hk Hr. exists (rect_setup (rect_r r) key). split.
  - unfold rect_create. rewrite assert_true by now apply key_len_ok_true.
    now rewrite assert_true by now apply N.leb_le.
  - apply perm_of_bij. destruct (key32b_ok key 4 (proj1 Hk)) as [L4 _]. destruct (key16b_ok key 5 (proj1 Hk)) as [L5 _].
    apply rect_bij; unfold rect_setup; cbn [rect_k rect_rounds]; destruct (Nat.ltb 10 (length key));
      first [apply (rect_sched_ok rect_next128 4); [lia|reflexivity|exact L4]
            |apply (rect_sched_ok rect_next80 5); [lia|reflexivity|exact L5]].
Qed.
