(** Byte strings and words in the proofs about published ciphers. *)
From Coq Require Import NArith PArith Arith List Bool Lia.
From Verif Require Import Lib.Word Lib.Res Lib.Bytes Lib.Bij Lib.Lists Lib.WordSpec Lib.WordsP Lib.BlockLemmas Spec.Words Spec.Block Spec.Arx
  Model.LoadStore Model.BlockApi Model.Table Lib.Bits Lib.Lin Proof.LoadStoreP Proof.ArxP.
Import ListNotations.
Local Open Scope N_scope.

Lemma bytes_be_string k ws : bytes_ok (be_string k ws).
Proof. unfold be_string. induction ws as [|w ws IH]; cbn [flat_map]; [constructor|]. apply bytes_app. split; [apply bytes_be_bytes|exact IH]. Qed.
Lemma be_words_cons k n w ws : length w = k -> be_words k (S n) (w ++ ws) = be_val w :: be_words k n ws.
Proof.
  intros L. unfold be_words. cbn [seq map]. f_equal.
  - unfold slice. rewrite Nat.mul_0_r. cbn [skipn]. rewrite firstn_app, L, Nat.sub_diag, firstn_O, app_nil_r. now rewrite firstn_all2 by lia.
  - rewrite <- seq_shift, map_map. apply map_ext. intros i. f_equal. unfold slice. rewrite skipn_app, L.
    replace (k * S i - k)%nat with (k * i)%nat by lia. rewrite (skipn_all2 w) by (rewrite L; lia). reflexivity.
Qed.
Lemma be_words_string k w ws : w = 8 * N.of_nat k -> words_ok w ws -> be_words k (length ws) (be_string k ws) = ws.
Proof.
  intros -> H. induction H as [|x ws Hx _ IH]; [reflexivity|].
  unfold be_string in *. cbn [flat_map length]. rewrite be_words_cons by apply length_be_bytes. rewrite IH, be_val_bytes.
  change 256 with (2 ^ 8). rewrite <- N.pow_mul_r. f_equal. now apply N.mod_small.
Qed.
Lemma blk_be_string k ws : blk (k * length ws) (be_string k ws).
Proof. split; [apply length_be_string|apply bytes_be_string]. Qed.

(** Words of four bytes *)
Lemma wshl_byte a n : a < 256 -> n <= 24 -> wshl 32 a n = N.shiftl a n.
Proof.
  intros Ha Hn. unfold wshl. apply mask_id. unfold inw. rewrite N.shiftl_mul_pow2.
  assert (P : 2 ^ n <= 2 ^ 24) by (apply N.pow_le_mono_r; lia). change (2 ^ 32) with (256 * 2 ^ 24). nia.
Qed.
Lemma be4_shifts a b c d : a < 256 -> b < 256 -> c < 256 -> d < 256 ->
  be_val [a; b; c; d] = N.lxor (wshl 32 a 24) (N.lxor (wshl 32 b 16) (N.lxor (wshl 32 c 8) d)).
Proof.
  intros Ha Hb Hc Hd. rewrite !wshl_byte by (auto; lia). rewrite !be_val_cons by (repeat constructor; assumption).
  cbn [length]. change (8 * N.of_nat 3) with 24. change (8 * N.of_nat 2) with 16. change (8 * N.of_nat 1) with 8. change (8 * N.of_nat 0) with 0.
  change (be_val []) with 0. now rewrite N.lxor_0_r, N.shiftl_0_r.
Qed.
Lemma be4_lor a b c d : a < 256 -> b < 256 -> c < 256 -> d < 256 ->
  N.lor (N.lor (N.lor (wshl 32 a 24) (wshl 32 b 16)) (wshl 32 c 8)) d = be_val [a; b; c; d].
Proof.
  intros Ha Hb Hc Hd. rewrite !wshl_byte by (auto; lia). rewrite !be_val_cons_lor by (repeat constructor; assumption).
  cbn [length]. change (8 * N.of_nat 3) with 24. change (8 * N.of_nat 2) with 16. change (8 * N.of_nat 1) with 8. change (8 * N.of_nat 0) with 0.
  change (be_val []) with 0. now rewrite N.lor_0_r, N.shiftl_0_r, !N.lor_assoc.
Qed.
(** a table against a function of bytes *)
Definition is_table (t : list N) (S : N -> N) : bool := forallb (fun b => nth (N.to_nat b) t 0 =? S b) bytesN.
Lemma tab8_fun t S x : is_table t S = true -> tab8 t x = S (byte x).
Proof.
  intros H. unfold tab8. pose proof (bytes_check _ (byte x) H (byte_lt x)) as E. cbv beta in E. now apply N.eqb_eq in E.
Qed.
Lemma st4_be32 a b c d : st4 (st := store32b) (a, b, c, d) = be_string 4 [a; b; c; d].
Proof. unfold st4, be_string. cbn [fst snd flat_map]. now rewrite !store32b_bytes, app_nil_r. Qed.
Lemma ld4_be32 pt : blk 16 pt -> ld4 (k := 4) (ld := load32b) pt =
  (word (be_words 4 4 pt) 0, word (be_words 4 4 pt) 1, word (be_words 4 4 pt) 2, word (be_words 4 4 pt) 3).
Proof.
  intros [L B]. unfold ld4, word.
  rewrite <- (nth_load32b 4 pt 0), <- (nth_load32b 4 pt 1), <- (nth_load32b 4 pt 2), <- (nth_load32b 4 pt 3) by (auto; lia). reflexivity.
Qed.
Definition list4 (x : N * N * N * N) : list N := let '(a, b, c, d) := x in [a; b; c; d].
