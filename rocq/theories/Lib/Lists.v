(** Facts on lists which the standard library does not have. *)
From Coq Require Import Arith List Lia.
Import ListNotations.

Lemma firstn_S_nth {A} (l : list A) n d : n < length l -> firstn (S n) l = firstn n l ++ [nth n l d].
Proof.
  revert n. induction l as [|x l IH]; intros n H; [cbn in H; lia|].
  destruct n as [|n]; [reflexivity|]. cbn [length] in H. cbn [nth]. rewrite (firstn_cons (S n)), (firstn_cons n), IH by lia. reflexivity.
Qed.
Lemma combine_snoc {A B} (l : list A) (m : list B) x y : length l = length m -> combine (l ++ [x]) (m ++ [y]) = combine l m ++ [(x, y)].
Proof.
  revert m. induction l as [|a l IH]; intros [|b m] H; try discriminate H; [reflexivity|]. cbn [app combine]. f_equal. apply IH. now injection H.
Qed.
Lemma map_nth_seq {A} (l : list A) n d : n = length l -> map (fun i => nth i l d) (seq 0 n) = l.
Proof.
  intros ->. apply (nth_ext _ _ d d); rewrite map_length, seq_length; [reflexivity|]. intros i Hi.
  rewrite (nth_indep _ d (nth 0 l d)) by (rewrite map_length, seq_length; exact Hi).
  rewrite (map_nth (fun i => nth i l d) (seq 0 (length l)) 0 i), seq_nth by exact Hi. reflexivity.
Qed.
Lemma nth_map_lt {A B} (f : A -> B) l i d e : i < length l -> nth i (map f l) d = f (nth i l e).
Proof. intros H. rewrite (nth_indep _ d (f e)) by (rewrite map_length; exact H). apply map_nth. Qed.
Lemma nth_map_seq {B} (f : nat -> B) a n i d : i < n -> nth i (map f (seq a n)) d = f (a + i).
Proof. intros H. rewrite (nth_map_lt f (seq a n) i d 0) by (rewrite seq_length; exact H). now rewrite seq_nth. Qed.
