(** Tiger of the library is Tiger of Anderson and Biham, for every number of passes. *)
From Coq Require Import NArith Arith List Bool Lia.
From Verif Require Import Lib.Word Lib.Res Lib.Bytes Lib.WordSpec Lib.MemLemmas Lib.Lists Lib.WordsP Model.LoadStore Model.HashApi Model.Md Model.Tiger
  Spec.Words Spec.Modes Spec.Hash Spec.TigerSbox Spec.Tiger Proof.LoadStoreP Proof.MdP.
Import ListNotations.
Local Open Scope N_scope.

Lemma tables_eq : tiger_s0 = tiger_t1 /\ tiger_s1 = tiger_t2 /\ tiger_s2 = tiger_t3 /\ tiger_s3 = tiger_t4.
Proof. repeat split; reflexivity. Qed.
Lemma tables_length : length tiger_s0 = 256%nat /\ length tiger_s1 = 256%nat /\ length tiger_s2 = 256%nat /\ length tiger_s3 = 256%nat.
Proof. repeat split; reflexivity. Qed.
Lemma sbox_eq s c i : tg_s s c (8 * i) = sbox s i c.
Proof.
  unfold tg_s, sbox, byte_of. do 2 f_equal. unfold byte, wshr. change 255 with (N.ones 8). rewrite N.land_ones, N.shiftr_div_pow2, N.pow_mul_r. reflexivity.
Qed.
Lemma wsub_minus x y : wsub 64 x y = minus_w 64 x y.
Proof. unfold wsub, minus_w. now rewrite !mask_mod. Qed.
Lemma wmul_times x y : wmul 64 x y = (x * y) mod 2 ^ 64.
Proof. unfold wmul. now rewrite mask_mod. Qed.
Lemma R_eq a b c x mul : tg_R a b c x mul = tiger_round a b c x mul.
Proof.
  unfold tg_R, tiger_round. cbv zeta. destruct tables_eq as (-> & -> & -> & ->).
  repeat match goal with |- context[tg_s ?s ?c ?n] => let i := eval vm_compute in (n / 8) in change (tg_s s c n) with (tg_s s c (8 * i)); rewrite (sbox_eq s c i) end.
  rewrite wsub_minus, wmul_times, plus_w_wadd. reflexivity.
Qed.
Lemma PASS_eq a b c mul x : length x = 8%nat -> tg_PASS a b c mul x = tiger_pass mul x (a, b, c).
Proof.
  intros H. do 8 (destruct x as [|? x]; [discriminate H|]). destruct x; [|discriminate H]. clear H.
  unfold tg_PASS, tiger_pass. cbn [tiger_rounds].
  repeat (rewrite R_eq; match goal with |- context[tiger_round ?a ?b ?c ?x ?m] => destruct (tiger_round a b c x m) as [[? ?] ?] end).
  reflexivity.
Qed.
Lemma KS_eq x : length x = 8%nat -> tg_KS x = tiger_schedule x /\ length (tg_KS x) = 8%nat.
Proof.
  intros H. do 8 (destruct x as [|? x]; [discriminate H|]). destruct x; [|discriminate H]. clear H. split; [|reflexivity].
  unfold tg_KS, tiger_schedule. cbn [nth].
  unfold lsl, lsr, complement. change (2 ^ 64 - 1) with (N.ones 64).
  rewrite <- !wsub_minus, <- !plus_w_wadd, <- !N.shiftr_div_pow2, <- !N.shiftl_mul_pow2, <- !mask_mod.
  reflexivity.
Qed.
Lemma passes_more n no a b c x : length x = 8%nat -> (2 <= no)%nat ->
  (let '(a, b, c, _) := pfor n (S no) (fun _ '(a, b, c, x) => let x := tg_KS x in let '(a, b, c) := tg_PASS a b c 9 x in (c, a, b, x)) (a, b, c, x) in (a, b, c))
  = tiger_passes n (S no) x (a, b, c).
Proof.
  revert no a b c x. induction n as [|n IH]; intros no a b c x Hx Hn; [reflexivity|]. cbn [pfor tiger_passes].
  destruct no as [|[|no]]; [lia|lia|]. cbn [Nat.eqb]. destruct (KS_eq x Hx) as [E L]. rewrite <- E, PASS_eq by exact L.
  destruct (tiger_pass 9 (tg_KS x) (a, b, c)) as [[a' b'] c']. now apply IH; [|lia].
Qed.
Definition passes_of (r : N) : nat := Nat.max 3 (N.to_nat r).
Lemma process_eq r h m : length h = 3%nat -> blk 64 m ->
  tg_process r h m = Ok (tiger_compress (passes_of r) h m) /\ length (tiger_compress (passes_of r) h m) = 3%nat.
Proof.
  intros Lh [Lm Bm]. do 3 (destruct h as [|? h]; [discriminate Lh|]). destruct h; [|discriminate Lh]. clear Lh.
  unfold tg_process, tiger_compress. cbn [nth].
  assert (E0 : map (fun i => load64l m (8 * i)) (seq 0 8) = le_words 8 8 m).
  { transitivity (map (fun i => nth i (le_words 8 8 m) 0) (seq 0 8)); [|apply map_nth_seq; symmetry; apply length_le_words].
    apply map_ext_in. intros i Hi. apply in_seq in Hi. apply nth_load64l; [exact Bm|lia|lia]. }
  rewrite E0. set (x := le_words 8 8 m). assert (Lx : length x = 8%nat) by apply length_le_words. clearbody x.
  assert (P : passes_of r = (3 + N.to_nat (r - 3))%nat) by (unfold passes_of; lia). rewrite P. cbn [Nat.add tiger_passes Nat.eqb].
  rewrite PASS_eq by exact Lx. destruct (tiger_pass 5 x (n, n0, n1)) as [[a b] c].
  destruct (KS_eq x Lx) as [E1 L1]. rewrite <- E1, PASS_eq by exact L1. destruct (tiger_pass 7 (tg_KS x) (c, a, b)) as [[c' a'] b'].
  destruct (KS_eq _ L1) as [E2 L2]. rewrite <- E2, PASS_eq by exact L2. destruct (tiger_pass 9 (tg_KS (tg_KS x)) (b', c', a')) as [[b'' c''] a''].
  rewrite <- (passes_more _ 2) by (assumption || lia).
  destruct (pfor (N.to_nat (r - 3)) 3 _ _) as [[[a3 b3] c3] x3]. split; [|reflexivity].
  now rewrite wsub_minus, plus_w_wadd.
Qed.
Lemma tiger_computes r n : (n <= 24)%nat -> computes hash_tiger r [] n 24 (fun len => N.of_nat len < 2 ^ 61) (tiger (passes_of r)).
Proof.
  intros Hn. set (r' := if r =? 0 then 3 else r).
  assert (Er : passes_of r = passes_of r') by (unfold passes_of, r'; destruct (N.eqb_spec r 0) as [->|]; reflexivity).
  rewrite Er. eapply computes_weaken; [apply (rmd_computes tiger_md tiger_start 8 1 le_bytes (tiger_compress (passes_of r')) (fun h => length h = 3%nat) (le_string 8) tiger_h0 r r')|..];
    try md_side; try exact Hn.
  - intros x. apply blk_le_bytes.
  - intros l Hl Wl. cbn [mp_len tiger_md]. rewrite len_le by exact Wl. now rewrite Hl.
  - intros h b Hh Hb. now apply process_eq.
  - intros h i k Hh Hk. cbn [mp_out tiger_md]. rewrite store64l_array_eq, stores64l_le; [reflexivity|]. rewrite Hh. exact Hk.
  - reflexivity.
  - intros x Hx. apply (len_bits 1 (2 ^ 61)); [reflexivity|exact Hx].
  - intros m k _. reflexivity.
Qed.
