From Coq Require Import NArith Arith List Bool Lia Btauto.
From Verif Require Import Lib.Word Lib.Res Lib.Bytes Lib.Bij Lib.Bits Lib.BlockLemmas Spec.Block
  Model.LoadStore Model.BlockApi Model.Noekeon.
Import ListNotations.
Local Open Scope N_scope.

Lemma noek_T_inw t : inw 32 t -> inw 32 (noek_T t).
Proof. intros H. unfold noek_T. wb. Qed.
#[global] Hint Resolve noek_T_inw : wb.

Lemma noek_T_lxor a b : inw 32 a -> inw 32 b -> noek_T (N.lxor a b) = N.lxor (noek_T a) (noek_T b).
Proof.
  intros Ha Hb. unfold noek_T. rewrite rol_lxor, ror_lxor by (wb || lia). xors.
Qed.

Lemma noek_gamma_bij : pbij (regs 32 4) noek_gamma noek_gamma.
Proof. apply slices_pbij; reflexivity. Qed.

Lemma noek_pi_bij : pbij (regs 32 4) noek_pi1 noek_pi2.
Proof.
  split; intros x Hx; list_cases Hx; unfold noek_pi1, noek_pi2; cbn [nth]; (split; [regs_list|]).
  - now rewrite !ror_rol by (wb || lia).
  - now rewrite !rol_ror by (wb || lia).
Qed.

Lemma xor_at_bij w n i c : (i < n)%nat -> inw w c -> pbij (regs w n) (xor_at i c) (xor_at i c).
Proof.
  intros Hi Hc. unfold xor_at.
  apply (pbij_reg w n i (fun _ u => N.lxor u c) (fun _ u => N.lxor u c)); auto;
    intros x u Hx Hu; (split; [wb|apply lxor_cancel]).
Qed.

Lemma noek_theta_eq k0 k1 k2 k3 a b c d :
  noek_theta [k0; k1; k2; k3] [a; b; c; d] =
  let t := noek_T (N.lxor a c) in
  let b' := N.lxor (N.lxor b t) k1 in
  let d' := N.lxor (N.lxor d t) k3 in
  let t' := noek_T (N.lxor b' d') in
  [N.lxor (N.lxor a k0) t'; b'; N.lxor (N.lxor c k2) t'; d'].
Proof. reflexivity. Qed.

Lemma noek_theta_inv k : regs 32 4 k ->
  pbij (regs 32 4) (noek_theta k) (noek_theta (noek_theta [0; 0; 0; 0] k)).
Proof.
  intros Hk. list_cases Hk.
  assert (T : forall a b, inw 32 a -> inw 32 b -> noek_T (N.lxor a b) = N.lxor (noek_T a) (noek_T b))
    by apply noek_T_lxor.
  assert (W : forall a, inw 32 a -> inw 32 (noek_T a)) by apply noek_T_inw.
  assert (Z : noek_T 0 = 0) by reflexivity.
  split; intros x Hx; list_cases Hx; rewrite !noek_theta_eq; cbv zeta; generalize dependent noek_T; intros T Hl Ht Hz;
    (split; [regs_list|]); rewrite !N.lxor_0_r; rewrite ?Hl by wb;
    xors_list.
Qed.

Lemma noek_bij s : regs 32 4 (noek_k s) -> noek_dk s = noek_theta [0; 0; 0; 0] (noek_k s) ->
  noek_rounds s < 34 -> bij_on (blk 16) (blk 16) (noek_encrypt s) (noek_decrypt s).
Proof.
  intros Hk Hd Hr. unfold noek_encrypt, noek_decrypt.
  apply (lift_bij (blk 16) (regs 32 4)); [apply (loads_bij codec32b 4)|].
  set (n := N.to_nat (noek_rounds s)).
  assert (Hrc : forall j, inw 32 (nth j noek_rc 0)) by (intros j; apply words_nth; repeat constructor).
  set (A := fun j x => Ok (noek_theta (noek_k s) (xor_at 0 (nth j noek_rc 0) x))).
  set (A' := fun j x => Ok (xor_at 0 (nth j noek_rc 0) (noek_theta (noek_dk s) x))).
  set (B := fun (j : nat) x => Ok (noek_pi2 (noek_gamma (noek_pi1 x)))).
  eapply bij_ext; [| |apply (bij_alt (regs 32 4) n A A' B B)].
  - intros x _. unfold noek_enc_words. fold n. subst A B.
    rewrite (mfor_ext n 0 _ (fun r x => let* c := get noek_rc r in
      Ok (noek_pi2 (noek_gamma (noek_pi1 (noek_theta (noek_k s) (xor_at 0 c x))))))).
    + destruct (mfor _ _ _ _); cbn [bind]; [|reflexivity]. rewrite (get_ok noek_rc n 0); [reflexivity|cbn; lia].
    + intros j y Hj. rewrite (get_ok noek_rc j 0); [reflexivity|cbn; lia].
  - intros x _. unfold noek_dec_words. fold n. subst A' B. cbv beta.
    assert (E : forall m y, (m <= n)%nat -> mford m (fun (j : nat) (z : list N) =>
       let* u := Ok (xor_at 0 (nth (S j) noek_rc 0) (noek_theta (noek_dk s) z)) in
       Ok (noek_pi2 (noek_gamma (noek_pi1 u)))) y = mford m (fun r x => let* c := get noek_rc (S r) in
      Ok (noek_pi2 (noek_gamma (noek_pi1 (xor_at 0 c (noek_theta (noek_dk s) x)))))) y).
    { induction m as [|m IH]; intros y Hm; [reflexivity|]. cbn [mford].
      rewrite (get_ok noek_rc (S m) 0) by (cbn; lia). cbn [bind]. apply IH. lia. }
    now rewrite E by lia.
  - intros j Hj. subst A A'. apply pbij_bij. rewrite Hd.
    apply (pbij_comp (regs 32 4) (xor_at 0 (nth j noek_rc 0)) (xor_at 0 (nth j noek_rc 0))
      (noek_theta (noek_k s)) (noek_theta (noek_theta [0;0;0;0] (noek_k s)))).
    + apply xor_at_bij; [lia|apply Hrc].
    + now apply noek_theta_inv.
  - intros j Hj. subst B. apply pbij_bij.
    apply (pbij_comp (regs 32 4) noek_pi1 noek_pi2 (fun x => noek_pi2 (noek_gamma x)) (fun x => noek_gamma (noek_pi1 x)) noek_pi_bij).
    apply (pbij_comp (regs 32 4) noek_gamma noek_gamma noek_pi2 noek_pi1 noek_gamma_bij (pbij_sym _ _ _ noek_pi_bij)).
Qed.

Lemma noek_perm r key : key_ok 16 key -> r < 34 ->
  exists s, noek_create r key = Ok s /\ permutation 16 (noek_encrypt s) (noek_decrypt s).
Proof.
  intros Hk Hr. exists (noek_setup r key). split.
  - unfold noek_create. now rewrite assert_true by now apply key_len_ok_true.
  - apply perm_of_bij. apply noek_bij; cbn [noek_setup noek_k noek_dk noek_rounds].
    + destruct (key32b_ok key 4 (proj1 Hk)). now split.
    + reflexivity.
    + destruct (r =? 0); [reflexivity|exact Hr].
Qed.

(** With 34 or more rounds the round constants are read past their end. *)
Lemma noek_rounds_refuted r key pt : key_ok 16 key -> 34 <= r ->
  exists s, noek_create r key = Ok s /\ noek_encrypt s pt = Err OobRead.
Proof.
  intros Hk Hr. exists (noek_setup r key). split.
  - unfold noek_create. now rewrite assert_true by now apply key_len_ok_true.
  - unfold noek_encrypt, noek_enc_words. cbn [noek_setup noek_rounds].
    destruct (N.eqb_spec r 0) as [->|_]; [lia|].
    replace (N.to_nat r) with (34 + (N.to_nat r - 34))%nat by lia.
    generalize (N.to_nat r - 34)%nat. intros m. generalize (noek_k (noek_setup r key)). intros k.
    generalize (loads load32b 4 4 pt). intros x.
    rewrite mfor_app.
    destruct (mfor_pure (fun _ => True) 34 0 (fun r x => let* c := get noek_rc r in
      Ok (noek_pi2 (noek_gamma (noek_pi1 (noek_theta k (xor_at 0 c x))))))
      (fun r x => noek_pi2 (noek_gamma (noek_pi1 (noek_theta k (xor_at 0 (nth r noek_rc 0) x))))) x) as [E _]; auto.
    { intros j y Hj _. rewrite (get_ok noek_rc j 0); [now split|cbn; lia]. }
    rewrite E. cbn [bind]. destruct m as [|m]; reflexivity.
Qed.
