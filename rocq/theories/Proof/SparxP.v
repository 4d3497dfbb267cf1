From Coq Require Import NArith Arith List Bool Lia.
From Verif Require Import Lib.Word Lib.Res Lib.Bytes Lib.Bij Lib.BlockLemmas Spec.Block
  Model.LoadStore Model.BlockApi Model.Sparx.
Import ListNotations.
Local Open Scope N_scope.

Lemma alz_ror_inw y a : inw 32 y -> inw 32 (alz_ror y a).
Proof. destruct a; cbn; wb. Qed.
#[global] Hint Resolve alz_ror_inw : wb.

Lemma alz_grp_bij a b c : inw 32 c -> pbij (@w2 32) (alz_grp a b c) (alz_ungrp a b c).
Proof.
  intros Hc. split; intros [x y] [Hx Hy]; unfold alz_grp, alz_ungrp, w2; cbn [fst snd] in *.
  - split; [split; wb|]. now rewrite !lxor_cancel, wadd_wsub by wb.
  - split; [split; wb|]. now rewrite wsub_wadd, !lxor_cancel by wb.
Qed.

Lemma alzette_bij c : inw 32 c -> pbij (@w2 32) (alzette c) (alzette_inv c).
Proof.
  intros Hc.
  exact (pbij_comp _ _ _ _ _ (pbij_comp _ _ _ _ _ (pbij_comp _ _ _ _ _
    (alz_grp_bij (Some 31) 24 c Hc) (alz_grp_bij (Some 17) 17 c Hc)) (alz_grp_bij None 31 c Hc))
    (alz_grp_bij (Some 24) 16 c Hc)).
Qed.

Lemma crax_rcon_ok i : inw 32 (nth i crax_rcon 0).
Proof. apply words_nth. repeat constructor. Qed.
Lemma trax_rc_ok i : inw 32 (trax_rc i).
Proof. apply words_nth. repeat constructor. Qed.

Lemma crax_key_bij k i : words_ok 32 k -> pbij (@w2 32) (crax_key k i) (crax_key k i).
Proof.
  intros Hk. assert (H : pinv (@w2 32) (crax_key k i) (crax_key k i)).
  { intros [x y] [Hx Hy]. unfold crax_key, w2. cbn [fst snd] in *.
    destruct (Nat.odd i); cbn [fst snd]; (split; [split; wb|]); now rewrite !lxor_cancel. }
  now split.
Qed.

Lemma crax_step_bij k i : words_ok 32 k -> N.of_nat i < 2 ^ 32 ->
  pbij (@w2 32) (crax_enc_step k i) (crax_dec_step k i).
Proof.
  intros Hk Hi. unfold crax_enc_step, crax_dec_step.
  refine (pbij_comp _ (fun p => crax_key k i (N.lxor (fst p) (N.of_nat i), snd p))
    (fun p => let p := crax_key k i p in (N.lxor (fst p) (N.of_nat i), snd p)) _ _ _
    (alzette_bij _ (crax_rcon_ok _))).
  refine (pbij_comp _ (fun p => (N.lxor (fst p) (N.of_nat i), snd p)) (fun p => (N.lxor (fst p) (N.of_nat i), snd p))
    _ _ _ (crax_key_bij k i Hk)).
  assert (H : pinv (@w2 32) (fun p => (N.lxor (fst p) (N.of_nat i), snd p)) (fun p => (N.lxor (fst p) (N.of_nat i), snd p))).
  { intros [x y] [Hx Hy]. unfold w2. cbn [fst snd] in *. split; [split; wb|]. now rewrite lxor_cancel. }
  now split.
Qed.

Lemma crax_perm r key : key_ok 16 key -> r < 2 ^ 32 ->
  exists s, crax_create r key = Ok s /\ permutation 8 (crax_encrypt s) (crax_decrypt s).
Proof.
  intros Hk Hr. exists (crax_setup r key). split.
  - unfold crax_create. now rewrite assert_true by now apply key_len_ok_true.
  - apply perm_of_bij. destruct Hk as [Hb _]. destruct (key32l_ok key 4 Hb) as [_ W].
    unfold crax_encrypt, crax_decrypt. cbn [crax_setup crax_k crax_steps].
    set (r' := if r =? 0 then 10 else r).
    assert (Hr' : r' < 2 ^ 32) by (subst r'; destruct (r =? 0); [reflexivity|exact Hr]).
    apply (lift_bij (blk 8) (@w2 32) _ _
      (fun x => Ok (crax_key (key32l key 4) (N.to_nat r') (pfor (N.to_nat r') 0 (crax_enc_step (key32l key 4)) x)))
      (fun x => Ok (pford (N.to_nat r') (crax_dec_step (key32l key 4)) (crax_key (key32l key 4) (N.to_nat r') x)))).
    + apply (ld2_bij codec32l).
    + apply pbij_bij. refine (pbij_comp _ _ _ _ _ (pbij_loop _ _ _ _ _) (crax_key_bij _ _ W)).
      intros j Hj. apply crax_step_bij; [exact W|]. lia.
Qed.

(** ** TRAX *)

Lemma length_xor_front x k : length (xor_front x k) = length x.
Proof. revert k; induction x as [|a x IH]; intros [|b k]; cbn; auto. Qed.
Lemma words_xor_front w x k : words_ok w x -> words_ok w k -> words_ok w (xor_front x k).
Proof.
  intros Hx. revert k. induction Hx as [|a x Ha Hx IH]; intros k Hk; [constructor|].
  destruct Hk as [|b k Hb Hk]; cbn; constructor; auto; [wb|now apply IH].
Qed.
Lemma xor_front_invol x k : xor_front (xor_front x k) k = x.
Proof. revert k; induction x as [|a x IH]; intros [|b k]; cbn; auto. now rewrite lxor_cancel, IH. Qed.

Lemma xor_front_bij w n k : words_ok w k -> pbij (regs w n) (fun x => xor_front x k) (fun x => xor_front x k).
Proof.
  intros Hk. assert (H : pinv (regs w n) (fun x => xor_front x k) (fun x => xor_front x k)).
  { intros x [Hl Hw]. split; [|apply xor_front_invol]. split; [now rewrite length_xor_front|now apply words_xor_front]. }
  now split.
Qed.

Lemma gets_ok ks o n : (o + n <= length ks)%nat -> gets ks o n = Ok (slice o n ks).
Proof.
  revert o. induction n as [|n IH]; intros o H; [reflexivity|].
  cbn [gets]. rewrite (get_ok ks o 0) by lia. cbn [bind]. rewrite IH by lia. cbn [bind]. f_equal.
  unfold slice. clear IH. revert ks H. induction o as [|o IH]; intros [|a ks] H; cbn in *; try lia; auto.
  apply IH. lia.
Qed.

Record trax_good (p : trax_par) : Prop := {
  xg_mix : forall i, pbij (regs 32 (tr_n p)) (tr_mix p i) (tr_unmix p i);
  xg_next : forall i k, words_ok 32 k -> N.of_nat i < 2 ^ 32 ->
     length (tr_next p i k) = tr_n p /\ words_ok 32 (tr_next p i k);
  xg_n : (tr_n p <> 0)%nat;
}.

Lemma alz_pair c x y : inw 32 c -> inw 32 x -> inw 32 y ->
  exists x' y', alzette c (x, y) = (x', y') /\ inw 32 x' /\ inw 32 y' /\ alzette_inv c (x', y') = (x, y).
Proof.
  intros Hc Hx Hy. destruct (alzette_bij c Hc) as [A _].
  destruct (A (x, y) (conj Hx Hy)) as [[H1 H2] E].
  destruct (alzette c (x, y)) as [x' y']. exists x', y'. cbn [fst snd] in *. auto.
Qed.
Lemma alz_pair_inv c x y : inw 32 c -> inw 32 x -> inw 32 y ->
  exists x' y', alzette_inv c (x, y) = (x', y') /\ inw 32 x' /\ inw 32 y' /\ alzette c (x', y') = (x, y).
Proof.
  intros Hc Hx Hy. destruct (alzette_bij c Hc) as [_ A].
  destruct (A (x, y) (conj Hx Hy)) as [[H1 H2] E].
  destruct (alzette_inv c (x, y)) as [x' y']. exists x', y'. cbn [fst snd] in *. auto.
Qed.

Lemma trax_ell_inw x : inw 32 x -> inw 32 (trax_ell x).
Proof. intros H. unfold trax_ell. wb. Qed.
#[global] Hint Resolve trax_ell_inw trax_rc_ok : wb.

Lemma trax_m_good : trax_good trax_m.
Proof.
  split; [|intros i k Hk Hi; unfold tr_next; cbn; split; [reflexivity|]|discriminate].
  - intros i. split; intros x Hx; cbn [tr_n trax_m] in Hx; list_cases Hx; cbn [tr_mix tr_unmix trax_m];
      unfold trax_m_mix, trax_m_unmix.
    + destruct (alz_pair (trax_rc (2 * i)) n n0) as (x0 & y0 & E0 & I0 & J0 & F0); try wb. rewrite E0.
      destruct (alz_pair (trax_rc (2 * i + 1)) n1 n2) as (x1 & y1 & E1 & I1 & J1 & F1); try wb. rewrite E1.
      split; [regs_list|]. rewrite F0. now rewrite (N.lxor_comm x0 x1), (N.lxor_comm y0 y1), !lxor_cancel, F1.
    + destruct (alz_pair_inv (trax_rc (2 * i)) n1 n2) as (x0 & y0 & E0 & I0 & J0 & F0); try wb. rewrite E0.
      destruct (alz_pair_inv (trax_rc (2 * i + 1)) (N.lxor n n1) (N.lxor n0 n2)) as (x1 & y1 & E1 & I1 & J1 & F1); try wb. rewrite E1.
      split; [regs_list|]. rewrite F0, F1. now rewrite !lxor_cancel_m2.
  - assert (G : forall j, inw 32 (nth j k 0)) by (intros; now apply words_nth).
    repeat (apply Forall_cons || apply Forall_nil); wb.
Qed.

Lemma trax_l_good : trax_good trax_l.
Proof.
  split; [|intros i k Hk Hi; unfold tr_next; cbn [trax_l]; split; [reflexivity|]|discriminate].
  - intros i. split; intros x Hx; cbn [tr_n trax_l] in Hx; list_cases Hx; cbn [tr_mix tr_unmix trax_l];
      unfold trax_l_mix, trax_l_unmix.
    + destruct (alz_pair (trax_rc (4 * i)) n n0) as (x0 & y0 & E0 & I0 & J0 & F0); try wb. rewrite E0.
      destruct (alz_pair (trax_rc (4 * i + 1)) n1 n2) as (x1 & y1 & E1 & I1 & J1 & F1); try wb. rewrite E1.
      destruct (alz_pair (trax_rc (4 * i + 2)) n3 n4) as (x2 & y2 & E2 & I2 & J2 & F2); try wb. rewrite E2.
      destruct (alz_pair (trax_rc (4 * i + 3)) n5 n6) as (x3 & y3 & E3 & I3 & J3 & F3); try wb. rewrite E3.
      split; [regs_list|]. now rewrite !lxor_cancel, F0, F1, F2, F3.
    + destruct (alz_pair_inv (trax_rc (4 * i)) (N.lxor n3 (trax_ell (N.lxor n2 n0))) (N.lxor n4 (trax_ell (N.lxor n1 n))))
        as (x0 & y0 & E0 & I0 & J0 & F0); try wb. rewrite E0.
      destruct (alz_pair_inv (trax_rc (4 * i + 1)) (N.lxor n5 (trax_ell (N.lxor n2 n0))) (N.lxor n6 (trax_ell (N.lxor n1 n))))
        as (x1 & y1 & E1 & I1 & J1 & F1); try wb. rewrite E1.
      destruct (alz_pair_inv (trax_rc (4 * i + 2)) n1 n2) as (x2 & y2 & E2 & I2 & J2 & F2); try wb. rewrite E2.
      destruct (alz_pair_inv (trax_rc (4 * i + 3)) n n0) as (x3 & y3 & E3 & I3 & J3 & F3); try wb. rewrite E3.
      split; [regs_list|]. now rewrite F0, F1, F2, F3, !lxor_cancel.
  - assert (G : forall j, inw 32 (nth j k 0)) by (intros; now apply words_nth).
    unfold trax_l_next. repeat (apply Forall_cons || apply Forall_nil); wb.
Qed.

Section Trax.
  Variable p : trax_par.
  Hypothesis G : trax_good p.
  Let n := tr_n p.

  Lemma trax_sched_ok m i k : length k = n -> words_ok 32 k -> N.of_nat (i + m) <= 2 ^ 32 ->
    length (trax_sched (tr_next p) m i k) = (n * (m + 1))%nat /\ words_ok 32 (trax_sched (tr_next p) m i k).
  Proof.
    revert i k. induction m as [|m IH]; intros i k Hl Hk Hm; cbn [trax_sched].
    - split; [lia|exact Hk].
    - destruct (xg_next p G i k Hk) as [L W]; [lia|].
      destruct (IH (S i) (tr_next p i k) L W) as [L' W']; [lia|]. split.
      + rewrite app_length, L', Hl. lia.
      + apply Forall_app. now split.
  Qed.

  Lemma trax_tw_bij s i : words_ok 32 (trax_tweak s) ->
    pbij (regs 32 n) (trax_tw s i) (trax_tw s i).
  Proof.
    intros H. unfold trax_tw. destruct (Nat.odd i); [now apply xor_front_bij|apply pbij_id].
  Qed.

  Lemma trax_bij s : words_ok 32 (trax_k s) -> words_ok 32 (trax_tweak s) ->
    length (trax_k s) = (n * (N.to_nat (trax_steps s) + 1))%nat ->
    bij_on (blk (4 * n)) (blk (4 * n)) (trax_encrypt p s) (trax_decrypt p s).
  Proof.
    intros Hk Ht Hl. unfold trax_encrypt, trax_decrypt. set (r := N.to_nat (trax_steps s)) in *.
    assert (E : gets (trax_k s) (n * r) n = Ok (slice (n * r) n (trax_k s))) by (apply gets_ok; lia).
    fold n. rewrite E.
    set (kk := slice (n * r) n (trax_k s)).
    assert (Wk : words_ok 32 kk) by now apply words_slice.
    eapply bij_ext; [| |apply (lift_bij (blk (4 * n)) (regs 32 n) (loads load32l 4 n) (stores store32l)
      (fun x => let* y := mfor r 0 (trax_enc_step p s) x in Ok (xor_front y kk))
      (fun x => bind (Ok (xor_front x kk)) (mford r (trax_dec_step p s))))].
    - intros x _. cbn [bind]. destruct (mfor _ _ _ _); reflexivity.
    - intros x _. reflexivity.
    - apply (loads_bij codec32l).
    - apply bij_comp with (Q := regs 32 n); [|apply pbij_bij; now apply xor_front_bij].
      apply bij_loop. intros j Hj.
      assert (Ej : gets (trax_k s) (n * j) n = Ok (slice (n * j) n (trax_k s))) by (apply gets_ok; nia).
      eapply bij_ext; [| |apply pbij_bij; exact (pbij_comp _ _ _ _ _ (pbij_comp _ _ _ _ _ (trax_tw_bij s j Ht)
        (xor_front_bij 32 n (slice (n * j) n (trax_k s)) (words_slice _ _ _ _ Hk))) (xg_mix p G j))].
      + intros x _. unfold trax_enc_step. fold n. now rewrite Ej.
      + intros x _. unfold trax_dec_step. fold n. now rewrite Ej.
  Qed.

  Lemma trax_create_ok r key : key_ok (trax_maxkey p) key -> (trax_r p r + 1) * (4 * N.of_nat n) < 2 ^ 32 ->
    trax_create p r key = Ok (trax_setup p (trax_r p r) key) /\
    words_ok 32 (trax_k (trax_setup p (trax_r p r) key)) /\
    length (trax_k (trax_setup p (trax_r p r) key)) = (n * (N.to_nat (trax_r p r) + 1))%nat.
  Proof.
    intros Hk Hr. pose proof (xg_n p G) as N0. split.
    - unfold trax_create. rewrite assert_true by now apply key_len_ok_true.
      apply fits_ok. fold n. apply room_mul; [subst n; lia|exact Hr].
    - destruct (key32l_ok key n (proj1 Hk)) as [L W].
      destruct (trax_sched_ok (N.to_nat (trax_r p r)) 0 (key32l key n) L W) as [L' W'].
      + rewrite Nat.add_0_l, N2Nat.id.
        assert (1 <= 4 * N.of_nat n) by (subst n; lia). change (2 ^ 32) with 4294967296 in *. nia.
      + now split.
  Qed.

  Lemma trax_perm r key : key_ok (trax_maxkey p) key -> (trax_r p r + 1) * (4 * N.of_nat n) < 2 ^ 32 ->
    exists s, trax_create p r key = Ok s /\ permutation (4 * n) (trax_encrypt p s) (trax_decrypt p s).
  Proof.
    intros Hk Hr. destruct (trax_create_ok r key Hk Hr) as (E & W & L).
    eexists. split; [exact E|]. apply perm_of_bij, trax_bij; [exact W|apply words_repeat0|exact L].
  Qed.

  Lemma trax_perm_tweak r key tweak : key_ok (trax_maxkey p) key ->
    (trax_r p r + 1) * (4 * N.of_nat n) < 2 ^ 32 ->
    bytes_ok tweak -> (length tweak <= trax_maxtweak p)%nat ->
    exists s s', trax_create p r key = Ok s /\ trax_set_tweak p s tweak = Ok s' /\
      permutation (4 * n) (trax_encrypt p s') (trax_decrypt p s').
  Proof.
    intros Hk Hr Hb Hl. destruct (trax_create_ok r key Hk Hr) as (E & W & L).
    eexists. eexists. split; [exact E|]. split.
    - unfold trax_set_tweak. destruct (Nat.leb_spec (length tweak) (trax_maxtweak p)); [reflexivity|lia].
    - apply perm_of_bij, trax_bij; [exact W| |exact L]. now apply key32l_ok.
  Qed.
End Trax.
