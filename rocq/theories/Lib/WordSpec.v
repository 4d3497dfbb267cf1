(** The words of Spec/Words.v and those of Lib/Word.v. *)
From Coq Require Import NArith Arith List Lia.
From Verif Require Import Lib.Word Lib.Res Lib.Bytes Model.LoadStore Proof.LoadStoreP Spec.Words.
Import ListNotations.
Local Open Scope N_scope.

Lemma plus_w_wadd w a b : wadd w a b = plus_w w a b.
Proof. apply wadd_mod. Qed.
Lemma wshl_mul w x n : wshl w x n = (x * 2 ^ n) mod 2 ^ w.
Proof. unfold wshl. now rewrite mask_mod, N.shiftl_mul_pow2. Qed.
Lemma wshr_div x n : wshr x n = x / 2 ^ n.
Proof. unfold wshr. apply N.shiftr_div_pow2. Qed.
Lemma wshl_split w x n : n <= w -> wshl w x n = (x mod 2 ^ (w - n)) * 2 ^ n.
Proof.
  intros H. rewrite wshl_mul. replace w with ((w - n) + n) at 1 by lia. rewrite N.pow_add_r.
  rewrite N.mul_mod_distr_r by (apply N.pow_nonzero; discriminate). reflexivity.
Qed.
Lemma rol_rotl w x n : inw w x -> n <= w -> rol w x n = rotl w x n.
Proof.
  intros Hx Hn. unfold rol, rotl. rewrite wshl_split by exact Hn. rewrite wshr_div.
  rewrite <- wshl_mul, wshl_split by exact Hn. rewrite N.lor_comm, <- N.shiftl_mul_pow2, lor_add.
  - rewrite N.shiftl_mul_pow2. apply N.add_comm.
  - apply N.div_lt_upper_bound; [apply N.pow_nonzero; discriminate|].
    rewrite <- N.pow_add_r. replace (w - n + n) with w by lia. exact Hx.
Qed.
Lemma ror_rotr w x n : inw w x -> n <= w -> ror w x n = rotr w x n.
Proof.
  intros Hx Hn. replace n with (w - (w - n)) at 1 by lia.
  rewrite <- rol_is_ror by lia. rewrite rol_rotl by (auto; lia). unfold rotl, rotr.
  replace (w - (w - n)) with n by lia. apply N.add_comm.
Qed.

Lemma bs_slice l o n : (o + n <= length l)%nat -> bs_ l o n = slice o n l.
Proof.
  intros H. unfold bs_. apply nth_ext with (d := 0) (d' := 0).
  - now rewrite map_length, seq_length, length_slice.
  - intros i Hi. rewrite map_length, seq_length in Hi.
    rewrite nth_slice by exact Hi. rewrite nth_indep with (d' := (fun i => nth (o + i) l 0) 0%nat) by (now rewrite map_length, seq_length).
    rewrite map_nth with (f := fun i => nth (o + i) l 0). now rewrite seq_nth.
Qed.
Lemma bs_pad l o n k : (o + n <= k)%nat -> (length l <= k)%nat -> bs_ l o n = slice o n (zero_pad k l).
Proof.
  intros H Hl. rewrite <- bs_slice by (unfold zero_pad; rewrite app_length, repeat_length; lia).
  unfold bs_. apply map_ext. intros i. unfold zero_pad.
  destruct (Nat.lt_ge_cases (o + i) (length l)) as [A|A].
  - now rewrite app_nth1.
  - rewrite app_nth2, nth_overflow by lia. now rewrite nth_repeat.
Qed.

Section Loads.
  Variables (k : nat) (ld : list N -> nat -> N).
  Lemma loads_le n l : (forall l o, bytes_ok l -> ld l o = le_val (bs_ l o k)) -> bytes_ok l -> (length l <= k * n)%nat ->
    loads ld k n l = le_words k n (zero_pad (k * n) l).
  Proof.
    intros Hld Hb Hl. unfold loads, le_words. apply map_ext_in. intros i Hi. apply in_seq in Hi.
    rewrite Hld by exact Hb. f_equal. apply bs_pad; [nia|exact Hl].
  Qed.
  Lemma loads_be n l : (forall l o, bytes_ok l -> ld l o = be_val (bs_ l o k)) -> bytes_ok l -> (length l <= k * n)%nat ->
    loads ld k n l = be_words k n (zero_pad (k * n) l).
  Proof.
    intros Hld Hb Hl. unfold loads, be_words. apply map_ext_in. intros i Hi. apply in_seq in Hi.
    rewrite Hld by exact Hb. f_equal. apply bs_pad; [nia|exact Hl].
  Qed.
End Loads.
Lemma zero_pad_full n l : (n <= length l)%nat -> zero_pad n l = l.
Proof. intros H. unfold zero_pad. replace (n - length l)%nat with 0%nat by lia. apply app_nil_r. Qed.
Lemma length_zero_pad n l : (length l <= n)%nat -> length (zero_pad n l) = n.
Proof. intros H. unfold zero_pad. rewrite app_length, repeat_length. lia. Qed.
Lemma bytes_zero_pad n l : bytes_ok l -> bytes_ok (zero_pad n l).
Proof. intros H. apply bytes_app. split; [exact H|apply bytes_repeat0]. Qed.
Lemma length_repeated n l : length (repeated n l) = n.
Proof. unfold repeated. now rewrite map_length, seq_length. Qed.
Lemma bytes_repeated n l : bytes_ok l -> bytes_ok (repeated n l).
Proof.
  intros H. apply Forall_forall. intros x Hx. apply in_map_iff in Hx. destruct Hx as (i & <- & _). now apply bytes_nth.
Qed.
Lemma nth_repeated n l i : (i < n)%nat -> nth i (repeated n l) 0 = nth (i mod length l) l 0.
Proof.
  intros H. unfold repeated. rewrite nth_indep with (d' := (fun i => nth (i mod length l) l 0) 0%nat) by (now rewrite map_length, seq_length).
  rewrite map_nth with (f := fun i => nth (i mod length l) l 0). now rewrite seq_nth.
Qed.
Lemma repeated_full l n : length l = n -> repeated n l = l.
Proof.
  intros <-. apply nth_ext with (d := 0) (d' := 0); [apply length_repeated|]. rewrite length_repeated. intros i Hi.
  rewrite nth_repeated by exact Hi. now rewrite Nat.mod_small.
Qed.
Lemma loads32l_le n l : bytes_ok l -> (length l <= 4 * n)%nat -> loads load32l 4 n l = le_words 4 n (zero_pad (4 * n) l).
Proof. apply loads_le. exact load32l_val. Qed.
Lemma loads32b_be n l : bytes_ok l -> (length l <= 4 * n)%nat -> loads load32b 4 n l = be_words 4 n (zero_pad (4 * n) l).
Proof. apply loads_be. exact load32b_val. Qed.
Lemma loads64l_le n l : bytes_ok l -> (length l <= 8 * n)%nat -> loads load64l 8 n l = le_words 8 n (zero_pad (8 * n) l).
Proof. apply loads_le. exact load64l_val. Qed.
Lemma loads64b_be n l : bytes_ok l -> (length l <= 8 * n)%nat -> loads load64b 8 n l = be_words 8 n (zero_pad (8 * n) l).
Proof. apply loads_be. exact load64b_val. Qed.

Lemma stores32l_le ws : stores store32l ws = le_string 4 ws.
Proof. unfold stores, le_string. induction ws as [|x t IH]; cbn [flat_map]; [reflexivity|]. now rewrite store32l_bytes, IH. Qed.
Lemma stores32b_be ws : stores store32b ws = be_string 4 ws.
Proof. unfold stores, be_string. induction ws as [|x t IH]; cbn [flat_map]; [reflexivity|]. now rewrite store32b_bytes, IH. Qed.
Lemma stores64l_le ws : stores store64l ws = le_string 8 ws.
Proof. unfold stores, le_string. induction ws as [|x t IH]; cbn [flat_map]; [reflexivity|]. now rewrite store64l_bytes, IH. Qed.
Lemma stores64b_be ws : stores store64b ws = be_string 8 ws.
Proof. unfold stores, be_string. induction ws as [|x t IH]; cbn [flat_map]; [reflexivity|]. now rewrite store64b_bytes, IH. Qed.
Lemma length_le_words k n l : length (le_words k n l) = n.
Proof. unfold le_words. now rewrite map_length, seq_length. Qed.
Lemma length_be_words k n l : length (be_words k n l) = n.
Proof. unfold be_words. now rewrite map_length, seq_length. Qed.
