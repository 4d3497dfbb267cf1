(** Rounds with a layer between them but not behind the last one, and their inverse. *)
From Coq Require Import NArith Arith List Bool Lia.
From Verif Require Import Lib.Res Lib.Bij.

Section Tele.
Context {A : Type} (P : A -> Prop) (G H : nat -> A -> A) (L M : A -> A).

Lemma tele_down m y :
  pford (S m) (fun g x => if Nat.ltb 0 g then M (H g x) else H g x) y =
  pford m (fun g x => H g (M x)) (H m y).
Proof.
  revert y. induction m as [|m IH]; intros y; [reflexivity|].
  change (pford (S (S m)) ?f y) with (pford (S m) f (f (S m) y)). cbn beta.
  change (Nat.ltb 0 (S m)) with true. cbn iota. now rewrite IH.
Qed.

Lemma pfor_last n i (f : nat -> A -> A) x : pfor (S n) i f x = f (i + n)%nat (pfor n i f x).
Proof.
  revert i x. induction n as [|n IH]; intros i x; [cbn; now rewrite Nat.add_0_r|].
  change (pfor (S (S n)) i f x) with (pfor (S n) (S i) f (f i x)). rewrite IH.
  replace (S i + n)%nat with (i + S n)%nat by lia. reflexivity.
Qed.

Lemma pfor_ext0 n i (f g : nat -> A -> A) x :
  (forall j y, (i <= j < i + n)%nat -> f j y = g j y) -> pfor n i f x = pfor n i g x.
Proof.
  revert i x. induction n as [|n IH]; intros i x E; [reflexivity|]. cbn [pfor].
  rewrite E by lia. apply IH. intros j y Hj. apply E. lia.
Qed.

Lemma tele_up m x :
  pfor (S m) 0 (fun g x => if Nat.ltb (S g) (S m) then L (G g x) else G g x) x =
  G m (pfor m 0 (fun g x => L (G g x)) x).
Proof.
  rewrite pfor_last. cbn [Nat.add]. rewrite (proj2 (Nat.ltb_ge (S m) (S m))) by lia.
  f_equal. apply pfor_ext0. intros j y Hj. rewrite (proj2 (Nat.ltb_lt (S j) (S m))) by lia. reflexivity.
Qed.

Lemma tele_pbij n : (forall g, (g < n)%nat -> pbij P (G g) (H g)) -> pbij P L M ->
  pbij P (pfor n 0 (fun g x => if Nat.ltb (S g) n then L (G g x) else G g x))
    (pford n (fun g x => if Nat.ltb 0 g then M (H g x) else H g x)).
Proof.
  intros HG HL. destruct n as [|m]; [apply pbij_id|].
  eapply pbij_ext; [intros x _; symmetry; apply tele_up|intros x _; symmetry; apply tele_down|].
  apply (pbij_comp P (pfor m 0 (fun g x => L (G g x))) (pford m (fun g x => H g (M x)))).
  - apply pbij_loop. intros j Hj. apply (pbij_comp P (G j) (H j) L M); [apply HG; lia|exact HL].
  - apply HG. lia.
Qed.
End Tele.
