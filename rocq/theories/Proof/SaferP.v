From Coq Require Import NArith Arith List Bool Lia.
From Verif Require Import Lib.Word Lib.Res Lib.Bytes Lib.Bij Lib.Bits Lib.BlockLemmas Lib.Feistel Spec.Block
  Model.LoadStore Model.BlockApi Model.Table Model.Safer Proof.TableP.
Import ListNotations.
Local Open Scope N_scope.

Lemma nth_map_seq (f : nat -> N) n j : (j < n)%nat -> nth j (map f (seq 0 n)) 0 = f j.
Proof.
  intros H. rewrite (nth_indep _ 0 (f 0%nat)) by (now rewrite map_length, seq_length).
  rewrite map_nth, seq_nth by exact H. reflexivity.
Qed.
Lemma map_nth_all (x : list N) n : length x = n -> map (fun j => nth j x 0) (seq 0 n) = x.
Proof.
  intros H. apply (nth_ext _ _ 0 0); [now rewrite map_length, seq_length|].
  rewrite map_length, seq_length. intros j Hj. now apply nth_map_seq.
Qed.

Lemma sf_bytes_regs n f k x : (forall j, (j < n)%nat -> inw 8 (f j (nth j x 0) (nth j k 0))) -> regs 8 n (sf_bytes n f k x).
Proof.
  intros H. unfold sf_bytes. split; [now rewrite map_length, seq_length|].
  apply Forall_forall. intros v Hv. apply in_map_iff in Hv. destruct Hv as (j & <- & Hj). apply in_seq in Hj. apply H. lia.
Qed.
Lemma sf_bytes_pinv n f g k :
  (forall j x, (j < n)%nat -> inw 8 x -> inw 8 (f j x (nth j k 0)) /\ g j (f j x (nth j k 0)) (nth j k 0) = x) ->
  pinv (regs 8 n) (sf_bytes n f k) (sf_bytes n g k).
Proof.
  intros H x Hx. split.
  - apply sf_bytes_regs. intros j Hj. apply H; [exact Hj|]. exact (regs_nth 8 n x j Hx).
  - unfold sf_bytes at 1. transitivity (map (fun j => nth j x 0) (seq 0 n)); [|now apply map_nth_all, (proj1 Hx)].
    apply map_ext_in. intros j Hj.
    apply in_seq in Hj. unfold sf_bytes. rewrite nth_map_seq by lia. apply H; [lia|]. exact (regs_nth 8 n x j Hx).
Qed.

(** The tables are inverse permutations of the bytes. *)
Definition sf_tables (e l : list N) : Prop :=
  words_ok 8 e /\ words_ok 8 l /\ forall x, inw 8 x -> tab8 l (tab8 e x) = x /\ tab8 e (tab8 l x) = x.
Definition sf_tablesb (e l : list N) : bool :=
  forallb (fun v => v <? 2 ^ 8) e && forallb (fun v => v <? 2 ^ 8) l &&
  forallb (fun i => let x := N.of_nat i in (tab8 l (tab8 e x) =? x) && (tab8 e (tab8 l x) =? x)) (seq 0 256).
Lemma sf_tablesb_ok e l : sf_tablesb e l = true -> sf_tables e l.
Proof.
  intros H. unfold sf_tablesb in H. apply andb_prop in H. destruct H as [H C]. apply andb_prop in H. destruct H as [A B].
  split; [now apply words_okb|]. split; [now apply words_okb|]. intros x Hx. rewrite forallb_forall in C.
  specialize (C (N.to_nat x)). rewrite N2Nat.id in C. cbv zeta in C.
  assert (I : In (N.to_nat x) (seq 0 256)).
  { apply in_seq. unfold inw in Hx. change (2 ^ 8) with 256 in Hx. lia. }
  apply C in I. apply andb_prop in I. destruct I as [I J]. apply N.eqb_eq in I, J. now split.
Qed.

Lemma tab8_add t x k : tab8 t (x + k) = tab8 t (wadd 8 x k).
Proof.
  unfold tab8, wadd. f_equal. f_equal. unfold byte, mask. change (N.ones 8) with 255.
  now rewrite <- N.land_assoc, N.land_diag.
Qed.

Section Layers.
Variables (e l : list N) (n : nat) (k : list N).
Hypotheses (T : sf_tables e l) (K : words_ok 8 k).

Lemma sf_sub_pbij : pbij (regs 8 n) (sf_sub e l n k) (sf_unsub e l n k).
Proof.
  destruct T as (We & Wl & HT). assert (Kj : forall j, inw 8 (nth j k 0)) by (intros; wb).
  split; unfold sf_sub, sf_unsub; apply sf_bytes_pinv; intros j x Hj Hx; destruct (sf_out j).
  - split; [now apply tab8_inw|]. rewrite (proj1 (HT (N.lxor x (nth j k 0)) ltac:(wb))). apply lxor_cancel.
  - split; [now apply tab8_inw|]. rewrite tab8_add, (proj2 (HT (wadd 8 x (nth j k 0)) ltac:(wb))). now apply wadd_wsub.
  - split; [apply inw_lxor; [now apply tab8_inw|apply Kj]|]. rewrite lxor_cancel. now apply HT.
  - split; [wb|]. rewrite tab8_add, wsub_wadd by (try apply Kj; now apply tab8_inw). now apply HT.
Qed.
Lemma sf_add_pbij : pbij (regs 8 n) (sf_add n k) (sf_unadd n k).
Proof.
  assert (Kj : forall j, inw 8 (nth j k 0)) by (intros; wb).
  split; unfold sf_add, sf_unadd; apply sf_bytes_pinv; intros j x Hj Hx; destruct (sf_out j); (split; [wb|]);
    auto using wadd_wsub, wsub_wadd, lxor_cancel.
Qed.
Lemma sf_end_pbij : pbij (regs 8 n) (sf_end n k) (sf_unend n k).
Proof.
  assert (Kj : forall j, inw 8 (nth j k 0)) by (intros; wb).
  split; unfold sf_end, sf_unend; apply sf_bytes_pinv; intros j x Hj Hx; destruct (sf_out j); (split; [wb|]);
    auto using wadd_wsub, wsub_wadd, lxor_cancel.
Qed.
End Layers.

Lemma sf_plus_pbij n o : (fst o < n)%nat -> fst o <> snd o -> pbij (regs 8 n) (sf_plus o) (sf_minus o).
Proof.
  intros Hd Hn. unfold sf_plus, sf_minus.
  apply (pbij_reg 8 n (fst o) (fun x u => wadd 8 u (nth (snd o) x 0)) (fun x u => wsub 8 u (nth (snd o) x 0))).
  - exact Hd.
  - intros. now rewrite nth_upd_neq.
  - intros. now rewrite nth_upd_neq.
  - intros x u Hx Hu. split; [wb|]. apply wadd_wsub; [exact Hu|]. exact (regs_nth 8 n x _ Hx).
  - intros x u Hx Hu. split; [wb|]. apply wsub_wadd; [exact Hu|]. exact (regs_nth 8 n x _ Hx).
Qed.
Lemma sf_pht_pbij n c : forallb (fun o => Nat.ltb (fst o) n && negb (Nat.eqb (fst o) (snd o))) c = true ->
  pbij (regs 8 n) (prun sf_plus c) (prun sf_minus (rev c)).
Proof.
  intros H. apply pbij_run. intros o Ho. rewrite forallb_forall in H. apply H in Ho. apply andb_prop in Ho.
  destruct Ho as [A B]. apply Nat.ltb_lt in A. apply negb_true_iff, Nat.eqb_neq in B. now apply sf_plus_pbij.
Qed.

Lemma sf_key_ok ks i n : (i + n <= length ks)%nat -> sf_key ks i n = Ok (slice i n ks).
Proof. intros H. unfold sf_key. now rewrite (proj2 (Nat.leb_le _ _) H). Qed.

(** ** SAFER K and SK *)

Lemma safer_tables : sf_tables safer_exp safer_log.
Proof. apply sf_tablesb_ok. vm_compute. reflexivity. Qed.

Lemma safer_pht_pbij : pbij (regs 8 8) (prun sf_plus safer_pht) (prun sf_minus safer_unpht).
Proof.
  eapply pbij_ext; [reflexivity| |apply sf_pht_pbij; reflexivity].
  intros x Hx. list_cases Hx. reflexivity.
Qed.
Lemma safer_perm_pbij : pbij (regs 8 8) (sf_moves 8 safer_perm) (sf_moves 8 safer_unperm).
Proof.
  split; intros x Hx; list_cases Hx; (split; [|reflexivity]);
    (split; [reflexivity|cbn; repeat (apply Forall_cons || apply Forall_nil); assumption]).
Qed.

Definition safer_pround (ks : list N) (i : nat) (x : list N) : list N :=
  sf_moves 8 safer_perm (prun sf_plus safer_pht (sf_add 8 (slice (16 * i + 8) 8 ks)
    (sf_sub safer_exp safer_log 8 (slice (16 * i) 8 ks) x))).
Definition safer_punround (ks : list N) (i : nat) (x : list N) : list N :=
  sf_unsub safer_exp safer_log 8 (slice (16 * i) 8 ks) (sf_unadd 8 (slice (16 * i + 8) 8 ks)
    (prun sf_minus safer_unpht (sf_moves 8 safer_unperm x))).

Lemma safer_pround_pbij ks i : words_ok 8 ks -> pbij (regs 8 8) (safer_pround ks i) (safer_punround ks i).
Proof.
  intros K. unfold safer_pround, safer_punround.
  pose proof (sf_sub_pbij safer_exp safer_log 8 (slice (16 * i) 8 ks) safer_tables (words_slice _ _ _ _ K)) as A.
  pose proof (sf_add_pbij 8 (slice (16 * i + 8) 8 ks) (words_slice _ _ _ _ K)) as B.
  exact (pbij_comp _ _ _ _ _ (pbij_comp _ _ _ _ _ (pbij_comp _ _ _ _ _ A B) safer_pht_pbij) safer_perm_pbij).
Qed.

Lemma safer_bij s n : words_ok 8 (safer_k s) -> N.to_nat (safer_r s) = n -> length (safer_k s) = (16 * n + 8)%nat ->
  bij_on (regs 8 8) (regs 8 8) (safer_encrypt s) (safer_decrypt s).
Proof.
  intros K Hr Hl. set (ks := safer_k s) in *.
  assert (B : pbij (regs 8 8) (pfor n 0 (safer_pround ks)) (pford n (safer_punround ks))).
  { apply pbij_loop. intros j _. now apply safer_pround_pbij. }
  pose proof (sf_end_pbij 8 (slice (16 * n) 8 ks) (words_slice _ _ _ _ K)) as C.
  eapply bij_ext; [| |apply pbij_bij, (pbij_comp _ _ _ _ _ B C)].
  - intros x _. unfold safer_encrypt. rewrite Hr. fold ks.
    rewrite (mfor_ext n 0 _ (fun i y => Ok (safer_pround ks i y))).
    + rewrite mfor_Ok. cbn [bind]. rewrite sf_key_ok by (rewrite Hl; lia). reflexivity.
    + intros j y Hj. unfold safer_round, safer_pround. fold ks. rewrite !sf_key_ok by (rewrite Hl; lia). cbn [bind]. reflexivity.
  - intros x _. unfold safer_decrypt. rewrite Hr. fold ks. cbv zeta. rewrite sf_key_ok by (rewrite Hl; lia). cbn [bind].
    rewrite (mford_ext n _ (fun i y => Ok (safer_punround ks i y))).
    + rewrite mford_Ok. reflexivity.
    + intros j y Hj. unfold safer_unround, safer_punround. fold ks. rewrite !sf_key_ok by (rewrite Hl; lia). cbn [bind]. reflexivity.
Qed.

Lemma safer_step_ok sk m st : words_ok 8 (fst (fst st)) ->
  words_ok 8 (fst (fst (safer_step sk m st))) /\
  length (fst (fst (safer_step sk m st))) = (length (fst (fst st)) + 16)%nat.
Proof.
  destruct st as [[ks ka] kb]. cbn [fst]. intros W. unfold safer_step. cbn [fst]. split.
  - apply Forall_app. split; [exact W|]. apply Forall_app. split; apply Forall_forall; intros v Hv;
      apply in_map_iff in Hv; destruct Hv as (j & <- & _); wb.
  - now rewrite !app_length, !map_length, !seq_length.
Qed.
Lemma safer_steps_ok sk n : forall i st, words_ok 8 (fst (fst st)) ->
  words_ok 8 (fst (fst (pfor n i (safer_step sk) st))) /\
  length (fst (fst (pfor n i (safer_step sk) st))) = (length (fst (fst st)) + 16 * n)%nat.
Proof.
  induction n as [|n IH]; intros i st W; cbn [pfor]; [split; [exact W|lia]|].
  destruct (safer_step_ok sk i st W) as [W1 L1]. destruct (IH (S i) _ W1) as [W2 L2]. split; [exact W2|]. rewrite L2, L1. lia.
Qed.

(** Keys of 8 or 16 bytes. *)
Lemma safer_setup_ok sk r key : bytes_ok key -> length key = 8%nat \/ length key = 16%nat ->
  exists s, safer_setup sk r key = Ok s /\ safer_r s = r /\ words_ok 8 (safer_k s) /\
    length (safer_k s) = (16 * N.to_nat r + 8)%nat.
Proof.
  intros Hb Hl. unfold safer_setup. cbv zeta. rewrite (sf_key_ok key) by lia. cbn [bind].
  set (key2 := if Nat.ltb 8 (length key) then skipn 8 key else key).
  assert (L2 : (8 <= length key2)%nat /\ bytes_ok key2).
  { unfold key2. destruct Hl as [E|E]; rewrite E; cbn [Nat.ltb Nat.leb]; [split; [lia|exact Hb]|].
    split; [rewrite skipn_length; lia|]. now apply (words_skipn 8). }
  destruct L2 as [L2 B2]. rewrite sf_key_ok by lia. cbn [bind].
  set (ka := sf_parity _). set (b := slice 0 8 key2).
  assert (Wb : words_ok 8 b) by (apply (words_slice 8); exact B2).
  assert (Lb : length b = 8%nat) by (unfold b, slice; rewrite firstn_length; cbn [skipn]; lia).
  destruct (safer_steps_ok sk (N.to_nat r) 1 (b, ka, sf_parity b) Wb) as [W L].
  destruct (pfor (N.to_nat r) 1 (safer_step sk) (b, ka, sf_parity b)) as [[ks ka'] kb'].
  eexists. split; [reflexivity|]. cbn [safer_r safer_k fst] in *. repeat split; [exact W|]. rewrite L, Lb. lia.
Qed.

Lemma safer_perm sk r key : key_ok 16 key -> length key = 8%nat \/ length key = 16%nat -> r < 2 ^ 28 - 1 ->
  exists s, safer_create sk r key = Ok s /\ permutation 8 (safer_encrypt s) (safer_decrypt s).
Proof.
  intros Hk Hl Hr. change (2 ^ 28 - 1) with 268435455 in Hr. set (r' := safer_rounds r key).
  assert (R : r' < 268435455).
  { unfold r', safer_rounds. destruct (r =? 0); [destruct (Nat.ltb 8 (length key)); reflexivity|exact Hr]. }
  destruct (safer_setup_ok sk r' key (proj1 Hk) Hl) as (s & E & Es & W & L). exists s. split.
  - unfold safer_create. rewrite assert_true by now apply key_len_ok_true. cbv zeta. fold r'.
    rewrite fits_ok; [exact E|]. unfold wadd, wshl. rewrite N.shiftl_mul_pow2. change (2 ^ 4) with 16.
    rewrite (mask_id 32 (r' * 16)) by (unfold inw; change (2 ^ 32) with 4294967296; lia).
    rewrite mask_id by (unfold inw; change (2 ^ 32) with 4294967296; lia). lia.
  - apply perm_of_bij. apply (safer_bij s (N.to_nat r')); [exact W|now rewrite Es|exact L].
Qed.

(** Any other length makes the setup read behind the key. *)
Lemma safer_short sk r key : key_ok 16 key -> length key <> 8%nat -> length key <> 16%nat -> r < 2 ^ 28 - 1 ->
  safer_create sk r key = Err OobRead.
Proof.
  intros Hk H8 H16 Hr. change (2 ^ 28 - 1) with 268435455 in Hr. set (r' := safer_rounds r key).
  assert (R : r' < 268435455).
  { unfold r', safer_rounds. destruct (r =? 0); [destruct (Nat.ltb 8 (length key)); reflexivity|exact Hr]. }
  unfold safer_create. rewrite assert_true by now apply key_len_ok_true. cbv zeta. fold r'. rewrite fits_ok.
  - unfold safer_setup. cbv zeta. destruct (Nat.lt_ge_cases (length key) 8) as [L|L].
    + unfold sf_key at 1. rewrite (proj2 (Nat.leb_gt _ _)) by lia. reflexivity.
    + rewrite (sf_key_ok key) by lia. cbn [bind]. rewrite (proj2 (Nat.ltb_lt 8 (length key))) by lia.
      unfold sf_key. rewrite skipn_length. destruct Hk as [_ [_ Hk]]. rewrite (proj2 (Nat.leb_gt _ _)) by lia. reflexivity.
  - unfold wadd, wshl. rewrite N.shiftl_mul_pow2. change (2 ^ 4) with 16.
    rewrite (mask_id 32 (r' * 16)) by (unfold inw; change (2 ^ 32) with 4294967296; lia).
    rewrite mask_id by (unfold inw; change (2 ^ 32) with 4294967296; lia). lia.
Qed.
