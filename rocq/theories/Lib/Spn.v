(** Ciphers that decrypt with the encryption routine: an S layer [S i] before a
    self-inverse linear layer [L], the last round without [L], the keys of the
    way back reversed and sent through [L]. *)
From Coq Require Import NArith Arith List Bool Lia.
From Verif Require Import Lib.Res Lib.Bij Lib.Tele.

Definition spn {A} (X : A -> A -> A) (L : A -> A) (s : nat -> A -> A) (m : nat) (k : nat -> A) (x : A) : A :=
  X (s m (pfor m 1 (fun i x => X (L (s (i - 1)%nat x)) (k i)) (X x (k 0%nat)))) (k (S m)).

Section Spn.
Context {A : Type} (P : A -> Prop) (X : A -> A -> A) (L : A -> A).
Hypothesis Xc : forall a b, P a -> P b -> P (X a b).
Hypothesis XX : forall a b, P a -> P b -> X (X a b) b = a.
Hypothesis Lc : forall a, P a -> P (L a).
Hypothesis LX : forall a b, P a -> P b -> L (X a b) = X (L a) (L b).
Hypothesis LL : forall a, P a -> L (L a) = a.

Lemma spn_steps s m k x : (forall i a, (i <= m)%nat -> P a -> P (s i a)) -> (forall i, (i <= m)%nat -> P (k i)) ->
  P x -> forall j, (j <= m)%nat -> P (pfor j 1 (fun i x => X (L (s (i - 1)%nat x)) (k i)) (X x (k 0%nat))).
Proof.
  intros Hs Hk Hx. induction j as [|j IH]; intros Hj; [apply Xc; [exact Hx|apply Hk; lia]|].
  rewrite pfor_last. apply Xc; [apply Lc, Hs; [lia|apply IH; lia]|apply Hk; lia].
Qed.

Lemma spn_closed s m k x : (forall i a, (i <= m)%nat -> P a -> P (s i a)) -> (forall i, (i <= S m)%nat -> P (k i)) ->
  P x -> P (spn X L s m k x).
Proof.
  intros Hs Hk Hx. unfold spn. apply Xc; [|apply Hk; lia]. apply Hs; [lia|].
  apply (spn_steps s m); auto.
Qed.

Lemma spn_inv s t m k dk x :
  (forall i a, (i <= m)%nat -> P a -> P (s i a)) -> (forall i, (i <= S m)%nat -> P (k i)) ->
  (forall i a, (i <= m)%nat -> P a -> t i (s (m - i)%nat a) = a) ->
  dk 0%nat = k (S m) -> dk (S m) = k 0%nat -> (forall i, (0 < i <= m)%nat -> dk i = L (k (S m - i)%nat)) ->
  P x -> spn X L t m dk (spn X L s m k x) = x.
Proof.
  intros Hs Hk Ht D0 Dr Di Hx.
  assert (E : forall j, (j <= m)%nat -> P (pfor j 1 (fun i x => X (L (s (i - 1)%nat x)) (k i)) (X x (k 0%nat)))).
  { intros j Hj. apply (spn_steps s m); auto. }
  set (f := fun i x => X (L (s (i - 1)%nat x)) (k i)) in *.
  set (y := spn X L s m k x).
  assert (D : forall j, (j <= m)%nat ->
    pfor j 1 (fun i x => X (L (t (i - 1)%nat x)) (dk i)) (X y (dk 0%nat)) = s (m - j)%nat (pfor (m - j) 1 f (X x (k 0%nat)))).
  { induction j as [|j IH]; intros Hj.
    - cbn [pfor]. rewrite Nat.sub_0_r, D0. unfold y, spn. fold f. apply XX; [apply Hs; [lia|apply E; lia]|apply Hk; lia].
    - rewrite pfor_last, IH by lia. replace (1 + j - 1)%nat with j by lia.
      rewrite (Ht j) by (try apply E; lia).
      replace (m - j)%nat with (S (m - S j)) by lia. rewrite pfor_last. unfold f at 1. cbn beta.
      replace (1 + (m - S j) - 1)%nat with (m - S j)%nat by lia.
      assert (Q : P (s (m - S j)%nat (pfor (m - S j) 1 f (X x (k 0%nat))))) by (apply Hs; [lia|apply E; lia]).
      assert (K : P (k (1 + (m - S j))%nat)) by (apply Hk; lia).
      rewrite LX, LL by auto. rewrite (Di (1 + j)%nat) by lia.
      replace (S m - (1 + j))%nat with (1 + (m - S j))%nat by lia. apply XX; auto. }
  unfold spn at 1. fold y. rewrite D by lia. rewrite Ht by (try apply E; lia).
  rewrite Nat.sub_diag. cbn [pfor]. rewrite Dr. apply XX; [exact Hx|apply Hk; lia].
Qed.

Lemma spn_pbij s t m k dk :
  (forall i a, (i <= m)%nat -> P a -> P (s i a)) -> (forall i a, (i <= m)%nat -> P a -> P (t i a)) ->
  (forall i, (i <= S m)%nat -> P (k i)) ->
  (forall i a, (i <= m)%nat -> P a -> t i (s (m - i)%nat a) = a) ->
  (forall i a, (i <= m)%nat -> P a -> s i (t (m - i)%nat a) = a) ->
  dk 0%nat = k (S m) -> dk (S m) = k 0%nat -> (forall i, (0 < i <= m)%nat -> dk i = L (k (S m - i)%nat)) ->
  pbij P (spn X L s m k) (spn X L t m dk).
Proof.
  intros Hs Ht Hk Hts Hst D0 Dr Di.
  assert (Hd : forall i, (i <= S m)%nat -> P (dk i)).
  { intros i Hi. destruct (Nat.eq_dec i 0) as [->|N0]; [rewrite D0; apply Hk; lia|].
    destruct (Nat.eq_dec i (S m)) as [->|N1]; [rewrite Dr; apply Hk; lia|].
    rewrite Di by lia. apply Lc, Hk. lia. }
  assert (C1 : forall x, P x -> P (spn X L s m k x)) by (intros x Hx; apply spn_closed; auto).
  assert (C2 : forall x, P x -> P (spn X L t m dk x)) by (intros x Hx; apply spn_closed; auto).
  assert (I1 : forall x, P x -> spn X L t m dk (spn X L s m k x) = x) by (intros x Hx; apply spn_inv; auto).
  assert (I2 : forall x, P x -> spn X L s m k (spn X L t m dk x) = x).
  { intros x Hx. apply spn_inv; auto.
    intros i Hi. rewrite Di by lia. replace (S m - (S m - i))%nat with i by lia. symmetry. apply LL, Hk. lia. }
  split; intros x Hx; split; auto.
Qed.
End Spn.
