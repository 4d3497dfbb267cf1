(** Exclusive or of byte strings. *)
From Coq Require Import NArith Arith List Bool Lia.
From Verif Require Import Lib.Word Lib.Res Lib.Bytes Spec.Modes.
Import ListNotations.
Local Open Scope N_scope.

Lemma length_xor a : forall b, length (xor_bytes a b) = Nat.min (length a) (length b).
Proof. induction a as [|x a IH]; intros [|y b]; cbn [xor_bytes length]; [reflexivity..|]. now rewrite IH. Qed.
Lemma bytes_xor a : forall b, bytes_ok a -> bytes_ok b -> bytes_ok (xor_bytes a b).
Proof.
  induction a as [|x a IH]; intros [|y b] Ha Hb; cbn [xor_bytes]; [constructor..|]. inversion_clear Ha. inversion_clear Hb. constructor; [|now apply IH].
  change 256 with (2 ^ 8) in *. now apply (inw_lxor 8).
Qed.
Lemma xor_app a : forall b a' b', length a = length a' -> xor_bytes (a ++ b) (a' ++ b') = xor_bytes a a' ++ xor_bytes b b'.
Proof. induction a as [|x a IH]; intros b [|y a'] b' H; try discriminate; [reflexivity|]. cbn [app xor_bytes]. rewrite IH by (now injection H). reflexivity. Qed.
Lemma xor_assoc a : forall b c, xor_bytes (xor_bytes a b) c = xor_bytes a (xor_bytes b c).
Proof. induction a as [|x a IH]; intros [|y b] [|z c]; cbn [xor_bytes]; [reflexivity..|]. now rewrite IH, N.lxor_assoc. Qed.
Lemma xor_comm a : forall b, xor_bytes a b = xor_bytes b a.
Proof. induction a as [|x a IH]; intros [|y b]; cbn [xor_bytes]; [reflexivity..|]. now rewrite IH, N.lxor_comm. Qed.
Lemma xor_short a : forall b, xor_bytes (firstn (length b) a) b = xor_bytes a b.
Proof. induction a as [|x a IH]; intros [|y b]; cbn [length firstn xor_bytes]; [reflexivity..|]. now rewrite IH. Qed.
Lemma xor_firstn n : forall a b, firstn n (xor_bytes a b) = xor_bytes (firstn n a) (firstn n b).
Proof. induction n as [|n IH]; intros [|x a] [|y b]; cbn [firstn xor_bytes]; [reflexivity..|]. now rewrite IH. Qed.
Lemma xor_zeros_r a : xor_bytes a (repeat 0 (length a)) = a.
Proof. induction a as [|x a IH]; [reflexivity|]. cbn [length repeat xor_bytes]. now rewrite IH, N.lxor_0_r. Qed.
Lemma xor_zeros_l a : xor_bytes (repeat 0 (length a)) a = a.
Proof. now rewrite xor_comm, xor_zeros_r. Qed.
Lemma xor_snoc c l x : (length l < length c)%nat -> xor_bytes c (l ++ [x]) = xor_bytes c l ++ [N.lxor (nth (length l) c 0) x].
Proof.
  revert c. induction l as [|y l IH]; intros [|a c] H; cbn [length] in *; try lia.
  - cbn [app xor_bytes nth]. now destruct c.
  - cbn [app xor_bytes nth]. now rewrite IH by lia.
Qed.
Lemma xor_same a : xor_bytes a a = repeat 0 (length a).
Proof. induction a as [|x a IH]; [reflexivity|]. cbn [xor_bytes length repeat]. now rewrite N.lxor_nilpotent, IH. Qed.
Lemma nth_xor a : forall b i, (i < length a)%nat -> (i < length b)%nat -> nth i (xor_bytes a b) 0 = N.lxor (nth i a 0) (nth i b 0).
Proof. induction a as [|x a IH]; intros [|y b] i Ha Hb; cbn [length] in *; try lia. destruct i; [reflexivity|]. cbn [xor_bytes nth]. apply IH; lia. Qed.
Lemma xor_list_bytes a : forall b, map (fun p => N.lxor (fst p) (snd p)) (combine a b) = xor_bytes a b.
Proof. induction a as [|x a IH]; intros [|y b]; cbn [combine map xor_bytes]; [reflexivity..|]. now rewrite IH. Qed.
Lemma upd_xor a : forall z i v, length a = length z -> upd (xor_bytes a z) i (N.lxor (nth i (xor_bytes a z) 0) v) = xor_bytes a (upd z i (N.lxor (nth i z 0) v)).
Proof.
  induction a as [|x a IH]; intros [|y z] i v H; try discriminate; [destruct i; reflexivity|]. destruct i as [|i]; cbn [xor_bytes nth upd].
  - now rewrite N.lxor_assoc.
  - f_equal. apply IH. now injection H.
Qed.
