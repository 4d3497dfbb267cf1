(** Words of a byte string: bounds, and the loads of the library as list lookups. *)
From Coq Require Import NArith Arith List Bool Lia.
From Verif Require Import Lib.Word Lib.Res Lib.Bytes Lib.Lists Lib.WordSpec Model.LoadStore Spec.Words Spec.Modes.
Import ListNotations.
Local Open Scope N_scope.

Lemma le_val_inw k w l : bytes_ok l -> (length l <= k)%nat -> w = 8 * N.of_nat k -> inw w (le_val l).
Proof.
  intros H L ->. pose proof (le_val_bound l H) as B. unfold inw. eapply N.lt_le_trans; [exact B|].
  rewrite N.pow_mul_r. change (2 ^ 8) with 256. apply N.pow_le_mono_r; [discriminate|lia].
Qed.
Lemma be_val_inw k w l : bytes_ok l -> (length l <= k)%nat -> w = 8 * N.of_nat k -> inw w (be_val l).
Proof.
  intros H L E. unfold be_val. apply (le_val_inw k); [|now rewrite rev_length|exact E].
  unfold bytes_ok in *. rewrite Forall_forall in *. intros x Hx. apply H. now apply in_rev.
Qed.
Lemma length_slice_le {A} (l : list A) o n : (length (slice o n l) <= n)%nat.
Proof. unfold slice. rewrite firstn_length. lia. Qed.
Lemma le_words_inw k w n l : bytes_ok l -> w = 8 * N.of_nat k -> words_ok w (le_words k n l).
Proof.
  intros H E. apply Forall_forall. intros x Hx. apply in_map_iff in Hx. destruct Hx as (i & <- & _).
  apply (le_val_inw k); [now apply bytes_slice|apply length_slice_le|exact E].
Qed.
Lemma be_words_inw k w n l : bytes_ok l -> w = 8 * N.of_nat k -> words_ok w (be_words k n l).
Proof.
  intros H E. apply Forall_forall. intros x Hx. apply in_map_iff in Hx. destruct Hx as (i & <- & _).
  apply (be_val_inw k); [now apply bytes_slice|apply length_slice_le|exact E].
Qed.
Lemma nth_le_words k n l i : (i < n)%nat -> nth i (le_words k n l) 0 = le_val (slice (k * i) k l).
Proof. intros H. unfold le_words. now rewrite nth_map_seq. Qed.
Lemma nth_be_words k n l i : (i < n)%nat -> nth i (be_words k n l) 0 = be_val (slice (k * i) k l).
Proof. intros H. unfold be_words. now rewrite nth_map_seq. Qed.
Ltac nth_load v := intros B L H; rewrite v, bs_slice by (lia || exact B); symmetry; first [apply nth_le_words|apply nth_be_words]; exact H.
Lemma nth_load32l n l i : bytes_ok l -> (4 * n <= length l)%nat -> (i < n)%nat -> load32l l (4 * i) = nth i (le_words 4 n l) 0.
Proof. nth_load load32l_val. Qed.
Lemma nth_load32b n l i : bytes_ok l -> (4 * n <= length l)%nat -> (i < n)%nat -> load32b l (4 * i) = nth i (be_words 4 n l) 0.
Proof. nth_load load32b_val. Qed.
Lemma nth_load64l n l i : bytes_ok l -> (8 * n <= length l)%nat -> (i < n)%nat -> load64l l (8 * i) = nth i (le_words 8 n l) 0.
Proof. nth_load load64l_val. Qed.
Lemma nth_load64b n l i : bytes_ok l -> (8 * n <= length l)%nat -> (i < n)%nat -> load64b l (8 * i) = nth i (be_words 8 n l) 0.
Proof. nth_load load64b_val. Qed.
Lemma length_le_string k ws : length (le_string k ws) = (k * length ws)%nat.
Proof.
  unfold le_string. induction ws as [|x t IH]; cbn [flat_map length]; [lia|]. rewrite app_length, IH, length_le_bytes. lia.
Qed.
Lemma length_be_string k ws : length (be_string k ws) = (k * length ws)%nat.
Proof.
  unfold be_string. induction ws as [|x t IH]; cbn [flat_map length]; [lia|]. rewrite app_length, IH. unfold be_bytes. rewrite rev_length, length_le_bytes. lia.
Qed.
Lemma words_nth w ws j : words_ok w ws -> inw w (nth j ws 0).
Proof.
  intros H. destruct (Nat.lt_ge_cases j (length ws)) as [L|L].
  - unfold words_ok in H. rewrite Forall_forall in H. apply H. now apply nth_In.
  - rewrite nth_overflow by exact L. red. apply N.neq_0_lt_0. apply N.pow_nonzero. discriminate.
Qed.
Lemma blk_be_bytes n x : blk n (be_bytes n x).
Proof. split; [apply length_be_bytes|apply bytes_be_bytes]. Qed.
Lemma blk_le_bytes n x : blk n (le_bytes n x).
Proof. split; [apply length_le_bytes|apply bytes_le_bytes]. Qed.
