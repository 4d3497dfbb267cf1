(** Ciphers whose decryption is the encryption with the keys in reverse order,
    up to a swap at the ends; tables read at masked indices. *)
From Coq Require Import NArith Arith List Bool Lia.
From Verif Require Import Lib.Word Lib.Res Lib.Bytes Lib.Bij.
Import ListNotations.

(** If every round [F i] is undone by [sw (G i (sw ..))] then [sw] after the rounds
    in order is undone by [sw] after the rounds [G] in reverse order. *)
Lemma feistel_bij {A} (P : A -> Prop) (sw : A -> A) n (F G : nat -> A -> A) :
  (forall x, P x -> P (sw x) /\ sw (sw x) = x) ->
  (forall i x, (i < n)%nat -> P x -> P (F i x) /\ sw (G i (sw (F i x))) = x) ->
  (forall i x, (i < n)%nat -> P x -> P (G i x) /\ sw (F i (sw (G i x))) = x) ->
  pbij P (fun x => sw (pfor n 0 F x)) (fun x => sw (pford n G x)).
Proof.
  intros Hs HF HG.
  assert (Q : forall m x, (m <= n)%nat -> P x ->
    pford m (fun i y => sw (G i (sw y))) (sw x) = sw (pford m G x)).
  { induction m as [|m IH]; intros x Hm Hx; [reflexivity|]. cbn [pford].
    rewrite (proj2 (Hs x Hx)). apply IH; [lia|]. apply HG; [lia|exact Hx]. }
  eapply pbij_ext; [reflexivity|intros x Hx; apply Q; [lia|exact Hx]|].
  apply (pbij_comp P _ _ sw sw).
  - apply pbij_loop. intros j Hj. split; intros x Hx.
    + now apply HF.
    + destruct (Hs x Hx) as [S1 S2]. destruct (HG j _ Hj S1) as [G1 G2].
      split; [now apply Hs|]. rewrite <- (proj2 (Hs _ (proj1 (HF j _ Hj (proj1 (Hs _ G1)))))).
      rewrite G2. exact S2.
  - split; exact Hs.
Qed.

Lemma words_okb w l : forallb (fun x => N.ltb x (2 ^ w)) l = true -> words_ok w l.
Proof. intros H. apply Forall_forall. intros x Hx. rewrite forallb_forall in H. now apply N.ltb_lt, H. Qed.

Lemma pford_ext {A} n (f g : nat -> A -> A) x :
  (forall i y, (i < n)%nat -> f i y = g i y) -> pford n f x = pford n g x.
Proof.
  revert x. induction n as [|n IH]; intros x H; [reflexivity|]. cbn [pford].
  rewrite H by lia. apply IH. intros i y Hi. apply H. lia.
Qed.

Lemma mford_ext {A} n (f g : nat -> A -> res A) x :
  (forall i y, (i < n)%nat -> f i y = g i y) -> mford n f x = mford n g x.
Proof.
  revert x. induction n as [|n IH]; intros x H; [reflexivity|]. cbn [mford].
  rewrite H by lia. destruct (g n x); [|reflexivity]. cbn [bind]. apply IH. intros i y Hi. apply H. lia.
Qed.

Lemma pfor_rev {A} n (g : nat -> A -> A) x : pfor n 0 (fun j => g (n - 1 - j)%nat) x = pford n g x.
Proof.
  assert (H : forall q i x, (i + q = n)%nat -> pfor q i (fun j => g (n - 1 - j)%nat) x = pford q g x).
  { induction q as [|q IH]; intros i y Hi; [reflexivity|]. cbn [pfor pford].
    rewrite IH by lia. now replace (n - 1 - i)%nat with q by lia. }
  apply H. lia.
Qed.
