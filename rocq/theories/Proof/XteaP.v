From Coq Require Import NArith PArith Arith List Bool Lia.
From Verif Require Import Lib.Word Lib.Res Lib.Bytes Lib.BlockLemmas Spec.Block
  Model.LoadStore Model.BlockApi Model.Xtea.
Import ListNotations.
Local Open Scope N_scope.

Lemma length_xtea_sched n odd c k m : length (xtea_sched n odd c k m) = n.
Proof.
  revert odd c. induction n as [|n IH]; intros odd c; [reflexivity|].
  cbn [xtea_sched]. destruct odd; cbn [length]; now rewrite IH.
Qed.

Lemma words_xtea_sched n odd c k m : words_ok 32 (xtea_sched n odd c k m).
Proof.
  revert odd c. induction n as [|n IH]; intros odd c; [constructor|].
  cbn [xtea_sched]. destruct odd; (constructor; [wb|apply IH]).
Qed.

(** Two half rounds. *)
Definition xtea_pair (ks : list N) (j : nat) (x : N * N) : N * N :=
  let x0 := xtea_add (fst x) (snd x) (nth (2 * j) ks 0) in
  (x0, xtea_add (snd x) x0 (nth (2 * j + 1) ks 0)).
Definition xtea_pair_inv (ks : list N) (j : nat) (x : N * N) : N * N :=
  let x1 := xtea_sub (snd x) (fst x) (nth (2 * j + 1) ks 0) in
  (xtea_sub (fst x) x1 (nth (2 * j) ks 0), x1).

Lemma xtea_enc_even ks m i x : (2 * (i + m) <= length ks)%nat ->
  xtea_enc_loop ks (2 * m) (2 * i) x = mfor m i (fun j y => Ok (xtea_pair ks j y)) x.
Proof.
  revert i x. induction m as [|m IH]; intros i x H; [reflexivity|].
  replace (2 * S m)%nat with (S (S (2 * m))) by lia. cbn [xtea_enc_loop mfor].
  gets. replace (S (S (2 * i))) with (2 * S i)%nat by lia. rewrite IH by lia.
  unfold xtea_pair. now rewrite Nat.add_1_r.
Qed.

Lemma xtea_dec_even ks m x : (2 * m <= length ks)%nat ->
  xtea_dec_loop ks (2 * m) x = mford m (fun j y => Ok (xtea_pair_inv ks j y)) x.
Proof.
  revert x. induction m as [|m IH]; intros x H; [reflexivity|].
  replace (2 * S m)%nat with (S (S (2 * m))) by lia. cbn [xtea_dec_loop mford].
  gets. rewrite IH by lia. unfold xtea_pair_inv. now rewrite Nat.add_1_r.
Qed.

Lemma xtea_pair_bij ks j : words_ok 32 ks ->
  bij_on (@w2 32) (@w2 32) (fun x => Ok (xtea_pair ks j x)) (fun x => Ok (xtea_pair_inv ks j x)).
Proof.
  intros Hk. apply bij_pure; intros [a b] [Ha Hb]; cbn [fst snd] in *;
    unfold xtea_pair, xtea_pair_inv, xtea_add, xtea_sub, xtea_F, w2; cbn [fst snd].
  - split; [split; wb|]. rewrite !wadd_wsub by wb. reflexivity.
  - split; [split; wb|]. rewrite !wsub_wadd by wb. reflexivity.
Qed.

Lemma xtea_bij s n : xtea_rounds s = 2 * n -> words_ok 32 (xtea_k s) ->
  length (xtea_k s) = N.to_nat (xtea_rounds s) ->
  bij_on (blk 8) (blk 8) (xtea_encrypt s) (xtea_decrypt s).
Proof.
  intros Hr Hw Hl. unfold xtea_encrypt, xtea_decrypt.
  apply (lift_bij (blk 8) (@w2 32)); [apply (ld2_bij codec32b)|].
  rewrite Hr in *. replace (N.to_nat (2 * n)) with (2 * N.to_nat n)%nat in * by lia.
  eapply bij_ext; [| |apply (bij_loop (@w2 32) (N.to_nat n)); intros j _; apply (xtea_pair_bij (xtea_k s) j Hw)].
  - intros x _. symmetry. apply (xtea_enc_even (xtea_k s) (N.to_nat n) 0). lia.
  - intros x _. symmetry. apply (xtea_dec_even (xtea_k s) (N.to_nat n)). lia.
Qed.

(** Even round counts (0 means 64 half rounds). *)
Lemma xtea_perm r key : key_ok 16 key -> N.even r = true -> r < 2 ^ 30 ->
  exists s, xtea_create r key = Ok s /\ permutation 8 (xtea_encrypt s) (xtea_decrypt s).
Proof.
  intros Hk He Hr. exists (xtea_setup (xtea_r r) key).
  assert (Hr' : N.even (xtea_r r) = true /\ xtea_r r < 2 ^ 30).
  { unfold xtea_r. destruct (r =? 0); [now split|now split]. }
  destruct Hr' as [He' Hr']. split.
  - unfold xtea_create. rewrite assert_true by now apply key_len_ok_true.
    apply fits_ok. apply (room_shl _ 2).
    change (2 ^ 30) with 1073741824 in Hr'. change (2 ^ 2) with 4. change (2 ^ 32) with 4294967296. lia.
  - apply perm_of_bij. apply N.even_spec in He'. destruct He' as [n Hn].
    apply (xtea_bij _ n); [exact Hn|apply words_xtea_sched|apply length_xtea_sched].
Qed.

(** Odd round counts: decryption reads in front of the key array, for every block. *)
Lemma xtea_dec_odd ks m x : (S (2 * m) <= length ks)%nat -> xtea_dec_loop ks (S (2 * m)) x = Err OobRead.
Proof.
  revert x. induction m as [|m IH]; intros x H; cbn [xtea_dec_loop].
  - now gets.
  - gets. replace (2 * S m)%nat with (S (S (2 * m))) by lia. cbv iota. gets. now rewrite IH by lia.
Qed.

Lemma xtea_odd_refuted r key : key_ok 16 key -> N.odd r = true -> r < 2 ^ 30 ->
  exists s, xtea_create r key = Ok s /\ forall ct, xtea_decrypt s ct = Err OobRead.
Proof.
  intros Hk Ho Hr. exists (xtea_setup (xtea_r r) key).
  assert (Hr' : xtea_r r = r). { unfold xtea_r. now destruct r. }
  split.
  - unfold xtea_create. rewrite assert_true by now apply key_len_ok_true.
    apply fits_ok. apply (room_shl _ 2). rewrite Hr'.
    change (2 ^ 30) with 1073741824 in Hr. change (2 ^ 2) with 4. change (2 ^ 32) with 4294967296. lia.
  - intros ct. unfold xtea_decrypt. rewrite Hr'. cbn [xtea_rounds xtea_k xtea_setup].
    apply N.odd_spec in Ho. destruct Ho as [n ->].
    replace (N.to_nat (2 * n + 1)) with (S (2 * N.to_nat n)) by lia.
    now rewrite xtea_dec_odd by (rewrite length_xtea_sched; lia).
Qed.
