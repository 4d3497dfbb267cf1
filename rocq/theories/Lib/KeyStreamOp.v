(** Sessions of operations given by what one call does: at position [i] a call xors the key stream from [i] on. *)
From Coq Require Import NArith Arith List Bool Lia.
From Verif Require Import Lib.Res Lib.Bytes Model.Mem Spec.Modes Lib.MemLemmas.
Import ListNotations.
Local Open Scope nat_scope.

Section Op.
  Context {S : Type} (op : S -> mem -> nat -> nat -> nat -> res (S * mem)) (gop : S -> mem -> nat -> nat -> res (S * mem))
    (at_ : nat -> S -> Prop) (ks : nat -> N).
  Hypothesis Hop : forall i s m src dst len, at_ i s -> buffers_ok src dst len ->
    exists s' m', op s m src dst len = Ok (s', m') /\ at_ (i + len) s' /\ rd m' dst len = xor_ks ks i (rd m src len) /\ frame m m' dst len.
  Hypothesis Hgop : forall i s m dst len, at_ i s ->
    exists s' m', gop s m dst len = Ok (s', m') /\ at_ (i + len) s' /\ rd m' dst len = map ks (seq i len) /\ frame m m' dst len.
  Lemma op_session i s inp s' out : at_ i s -> session op s inp s' out -> out = xor_ks ks i inp /\ at_ (i + length inp) s'.
  Proof.
    intros Hs H. revert i Hs. induction H as [s|s m src dst len s1 m1 inp s2 out Hb Hi E H IH]; intros i Hs.
    - cbn [xor_ks length]. now rewrite Nat.add_0_r.
    - destruct (Hop i s m src dst len Hs Hb) as (s1' & m1' & E' & Hs' & R & _).
      rewrite E in E'. apply Ok_inj in E'. injection E' as <- <-.
      destruct (IH _ Hs') as [-> HA]. rewrite R, xor_ks_app, length_rd. split; [reflexivity|].
      rewrite app_length, length_rd. now rewrite Nat.add_assoc.
  Qed.
  Lemma op_safe i s mult : at_ i s -> call_safe op mult s.
  Proof. intros Hs m src dst len _ Hb _. destruct (Hop i s m src dst len Hs Hb) as (s' & m' & E & _ & _ & F). now exists s', m'. Qed.
  Lemma op_gsession i s s' out : at_ i s -> gsession gop s s' out -> out = map ks (seq i (length out)) /\ at_ (i + length out) s'.
  Proof.
    intros Hs H. revert i Hs. induction H as [s|s m dst len s1 m1 s2 out E H IH]; intros i Hs.
    - cbn [seq map length]. now rewrite Nat.add_0_r.
    - destruct (Hgop i s m dst len Hs) as (s1' & m1' & E' & Hs' & R & _).
      rewrite E in E'. apply Ok_inj in E'. injection E' as <- <-.
      destruct (IH _ Hs') as [E2 HA]. rewrite app_length, length_rd, seq_app, map_app, <- E2, <- R.
      split; [reflexivity|]. now rewrite Nat.add_assoc.
  Qed.
  Lemma op_gsafe i s : at_ i s -> gcall_safe gop s.
  Proof. intros Hs m dst len. destruct (Hgop i s m dst len Hs) as (s' & m' & E & _ & _ & F). now exists s', m'. Qed.
End Op.
