(** Strings of bits and the numbers they stand for. *)
From Coq Require Import NArith Arith List Bool Lia.
From Verif Require Import Lib.Word Lib.Res Lib.Bytes Lib.Lists Lib.Bij Lib.Bits Lib.BlockLemmas Lib.WordSpec Spec.Words Spec.DesPub.
Import ListNotations.
Local Open Scope N_scope.

Lemma length_to_bits n x : length (to_bits n x) = n.
Proof. unfold to_bits. now rewrite map_length, seq_length. Qed.
Lemma nth_map_any {A B} (f : A -> B) l i d d' : (i < length l)%nat -> nth i (map f l) d = f (nth i l d').
Proof. revert i. induction l as [|x l IH]; intros i H; [inversion H|]. destruct i; [reflexivity|]. cbn. apply IH. cbn in H. lia. Qed.
Lemma nth_to_bits n x i : (i < n)%nat -> nth i (to_bits n x) false = N.testbit x (N.of_nat (n - 1 - i)).
Proof. intros H. unfold to_bits. rewrite nth_map_any with (d' := 0%nat) by now rewrite seq_length. now rewrite seq_nth by exact H. Qed.
Lemma of_bits_snoc b c : of_bits (b ++ [c]) = 2 * of_bits b + N.b2n c.
Proof. unfold of_bits. rewrite fold_left_app. cbn [fold_left]. now destruct c. Qed.
Lemma of_bits_spec b : forall i, N.testbit (of_bits b) (N.of_nat i) = if (i <? length b)%nat then nth (length b - 1 - i) b false else false.
Proof.
  induction b as [|c b IH] using rev_ind; intros i; [apply N.bits_0|].
  rewrite of_bits_snoc, app_length. cbn [length]. destruct i as [|i].
  - change (N.of_nat 0) with 0. rewrite N.testbit_0_r. rewrite (proj2 (Nat.ltb_lt 0 _)) by lia.
    rewrite app_nth2 by lia. replace (_ - _)%nat with 0%nat by lia. reflexivity.
  - rewrite Nat2N.inj_succ, N.testbit_succ_r. rewrite IH.
    destruct (Nat.ltb_spec i (length b)), (Nat.ltb_spec (S i) (length b + 1)); try lia.
    rewrite app_nth1 by lia. f_equal. lia.
Qed.
Lemma of_bits_inw b w : N.of_nat (length b) <= w -> inw w (of_bits b).
Proof.
  intros H. apply (inw_mono (N.of_nat (length b))); [exact H|]. clear H. unfold inw. induction b as [|c b IH] using rev_ind; [reflexivity|].
  rewrite of_bits_snoc, app_length. cbn [length]. rewrite Nat.add_1_r, Nat2N.inj_succ, N.pow_succ_r'. destruct c; cbn [N.b2n]; lia.
Qed.
Lemma to_of_bits b n : length b = n -> to_bits n (of_bits b) = b.
Proof.
  intros <-. apply nth_ext with (d := false) (d' := false); [apply length_to_bits|]. intros i Hi. rewrite length_to_bits in Hi.
  rewrite nth_to_bits by exact Hi. rewrite of_bits_spec. rewrite (proj2 (Nat.ltb_lt _ _)) by lia. f_equal. lia.
Qed.
Lemma of_to_bits n x : inw (N.of_nat n) x -> of_bits (to_bits n x) = x.
Proof.
  intros H. apply N.bits_inj. intros i. rewrite <- (N2Nat.id i), of_bits_spec, length_to_bits.
  destruct (Nat.ltb_spec (N.to_nat i) n) as [L|L].
  - rewrite nth_to_bits by lia. f_equal. f_equal. lia.
  - symmetry. apply (inw_high (N.of_nat n)); [exact H|lia].
Qed.
Lemma length_xor_bits a b : length (xor_bits a b) = Nat.min (length a) (length b).
Proof. unfold xor_bits. now rewrite map_length, combine_length. Qed.
Lemma nth_xor_bits a b i : length a = length b -> nth i (xor_bits a b) false = xorb (nth i a false) (nth i b false).
Proof. revert b i. induction a as [|x a IH]; intros [|y b] i H; try discriminate; [now destruct i|]. destruct i; [reflexivity|]. cbn. apply IH. now injection H. Qed.
Lemma bits_ext (a b : list bool) : length a = length b -> (forall i, (i < length a)%nat -> nth i a false = nth i b false) -> a = b.
Proof. intros L H. now apply nth_ext with (d := false) (d' := false). Qed.
Lemma to_bits_lxor n a b : to_bits n (N.lxor a b) = xor_bits (to_bits n a) (to_bits n b).
Proof.
  apply bits_ext; [rewrite length_xor_bits, !length_to_bits; lia|]. intros i Hi. rewrite length_to_bits in Hi.
  rewrite nth_xor_bits by now rewrite !length_to_bits. rewrite !nth_to_bits by exact Hi. apply N.lxor_spec.
Qed.
Lemma of_bits_xor a b : length a = length b -> of_bits (xor_bits a b) = N.lxor (of_bits a) (of_bits b).
Proof.
  intros L. apply N.bits_inj. intros i. rewrite N.lxor_spec, <- (N2Nat.id i), !of_bits_spec, length_xor_bits, <- L, Nat.min_id.
  destruct (Nat.ltb_spec (N.to_nat i) (length a)); [|reflexivity]. now apply nth_xor_bits.
Qed.
Lemma select_xor t a b : length a = length b -> select t (xor_bits a b) = xor_bits (select t a) (select t b).
Proof.
  intros L. unfold select. apply bits_ext; [rewrite length_xor_bits, !map_length; lia|]. intros i Hi. rewrite map_length in Hi.
  rewrite nth_xor_bits by now rewrite !map_length.
  assert (E : forall l, nth i (map (fun i => nth (i - 1) l false) t) false = nth (nth i t 0%nat - 1) l false).
  { intros l. exact (nth_map_any (fun i => nth (i - 1) l false) t i false 0%nat Hi). }
  rewrite !E. now apply nth_xor_bits.
Qed.
Lemma app_xor a b c d : length a = length c -> xor_bits a c ++ xor_bits b d = xor_bits (a ++ b) (c ++ d).
Proof. revert c. induction a as [|x a IH]; intros [|y c] H; try discriminate; [reflexivity|]. cbn. f_equal. apply IH. now injection H. Qed.
Lemma length_select t b : length (select t b) = length t.
Proof. apply map_length. Qed.
Lemma skipn_map {A B} (f : A -> B) n l : skipn n (map f l) = map f (skipn n l).
Proof. revert l. induction n; intros [|x l]; cbn; auto. Qed.
Lemma slice_map {A B} (f : A -> B) o n l : slice o n (map f l) = map f (slice o n l).
Proof. unfold slice. now rewrite skipn_map, firstn_map. Qed.
Lemma slice_select o n t b : slice o n (select t b) = select (slice o n t) b.
Proof. apply slice_map. Qed.
Lemma nth_slice_gen {A} (d : A) o n l i : (i < n)%nat -> nth i (slice o n l) d = nth (o + i) l d.
Proof.
  intros H. unfold slice. assert (G : forall (m : list A), nth i (firstn n m) d = nth i m d).
  { intros m. revert i m H. induction n as [|n IH]; intros i m H; [lia|]. destruct m; [now destruct i|]. destruct i; [reflexivity|]. cbn. apply IH. lia. }
  rewrite G. clear. revert l. induction o as [|o IH]; intros l; [reflexivity|]. destruct l; [now destruct i|]. cbn. apply IH.
Qed.
Lemma slice_xor o n a b : length a = length b -> slice o n (xor_bits a b) = xor_bits (slice o n a) (slice o n b).
Proof.
  intros L. unfold slice. revert a b L n. induction o as [|o IH]; intros a b L n.
  - cbn [skipn]. revert a b L. induction n as [|n IH]; intros a b L; [reflexivity|]. destruct a, b; try discriminate; [reflexivity|].
    cbn. f_equal. apply IH. now injection L.
  - destruct a, b; try discriminate; [cbn; now rewrite firstn_nil|]. cbn. apply IH. now injection L.
Qed.

(** Functions of two words that are linear over exclusive or. *)
Definition x2 (x y : N * N) : N * N := (N.lxor (fst x) (fst y), N.lxor (snd x) (snd y)).
Definition lin2 (w : N) (f : N * N -> N) : Prop := forall x y, @w2 w x -> @w2 w y -> f (x2 x y) = N.lxor (f x) (f y).
Lemma lin2_ext w f g : lin2 w f -> lin2 w g ->
  forallb (fun i => (f (2 ^ N.of_nat i, 0) =? g (2 ^ N.of_nat i, 0)) && (f (0, 2 ^ N.of_nat i) =? g (0, 2 ^ N.of_nat i))) (seq 0 (N.to_nat w)) = true ->
  forall x, @w2 w x -> f x = g x.
Proof.
  intros Hf Hg C [a b] [Ha Hb]. cbn [fst snd] in Ha, Hb.
  assert (S : forall f, lin2 w f -> f (a, b) = N.lxor (f (a, 0)) (f (0, b))).
  { intros h Hh. rewrite <- Hh by (split; cbn [fst snd]; wb). unfold x2. cbn [fst snd]. now rewrite N.lxor_0_r, N.lxor_0_l. }
  rewrite (S f Hf), (S g Hg). rewrite forallb_forall in C. f_equal.
  - apply (xlin_ext w (fun a => f (a, 0)) (fun a => g (a, 0))); [| | |exact Ha].
    + intros u v Hu Hv. rewrite <- Hf by (split; cbn [fst snd]; wb). unfold x2. cbn [fst snd]. now rewrite N.lxor_0_r.
    + intros u v Hu Hv. rewrite <- Hg by (split; cbn [fst snd]; wb). unfold x2. cbn [fst snd]. now rewrite N.lxor_0_r.
    + apply forallb_forall. intros i Hi. specialize (C i Hi). apply andb_true_iff in C. apply C.
  - apply (xlin_ext w (fun a => f (0, a)) (fun a => g (0, a))); [| | |exact Hb].
    + intros u v Hu Hv. rewrite <- Hf by (split; cbn [fst snd]; wb). unfold x2. cbn [fst snd]. now rewrite N.lxor_0_r.
    + intros u v Hu Hv. rewrite <- Hg by (split; cbn [fst snd]; wb). unfold x2. cbn [fst snd]. now rewrite N.lxor_0_r.
    + apply forallb_forall. intros i Hi. specialize (C i Hi). apply andb_true_iff in C. apply C.
Qed.

(** Bytes *)
Lemma string_bits_app a b : string_bits (a ++ b) = string_bits a ++ string_bits b.
Proof. apply flat_map_app. Qed.
Lemma length_string_bits l : length (string_bits l) = (8 * length l)%nat.
Proof. induction l as [|x l IH]; [reflexivity|]. unfold string_bits in *. cbn [flat_map]. rewrite app_length, IH, length_to_bits. cbn [length]. lia. Qed.
Lemma nth_string_bits l i : nth i (string_bits l) false = N.testbit (nth (i / 8) l 0) (N.of_nat (7 - i mod 8)).
Proof.
  revert i. induction l as [|x l IH]; intros i.
  - replace (nth (i / 8) [] 0) with 0 by now destruct (i / 8)%nat. rewrite N.bits_0. now destruct i.
  - unfold string_bits in *. cbn [flat_map]. destruct (Nat.lt_ge_cases i 8) as [H|H].
    + rewrite app_nth1 by (rewrite length_to_bits; exact H). rewrite nth_to_bits by exact H. rewrite Nat.div_small, Nat.mod_small by exact H. reflexivity.
    + rewrite app_nth2 by (rewrite length_to_bits; exact H). rewrite length_to_bits, IH.
      replace i with ((i - 8) + 1 * 8)%nat at 3 4 by lia. rewrite Nat.div_add, Nat.mod_add by lia. rewrite Nat.add_1_r. reflexivity.
Qed.
