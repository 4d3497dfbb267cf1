(** A hash computes a function when each of its calls does its part. *)
From Coq Require Import NArith Arith List Bool Lia.
From Verif Require Import Lib.Word Lib.Res Lib.Bytes Lib.MemLemmas Spec.Modes Spec.Hash Model.HashApi Proof.MdP.
Import ListNotations.
Local Open Scope nat_scope.

Lemma firstn_plus {A} a b (l : list A) : firstn (a + b) l = firstn a l ++ firstn b (skipn a l).
Proof. revert l. induction a as [|a IH]; intros l; [reflexivity|]. destruct l; [now rewrite !firstn_nil|]. cbn. now rewrite IH. Qed.

Section Intro.
  Variables (d : hash) (r : N) (salt : list N) (n cap : nat) (okm : nat -> Prop) (H : list N -> list N).
  (** [ready msg s]: the message so far; [done msg i s]: i bytes of its digest have been read *)
  Variables (ready : list N -> hs_st d -> Prop) (done : list N -> nat -> hs_st d -> Prop).
  Hypothesis args : hash_args_ok d salt n = true.
  Hypothesis ncap : n <= cap.
  Hypothesis capmax : hs_maxout d = 0 \/ cap <= hs_maxout d.
  Hypothesis okm_le : forall a b, a <= b -> okm b -> okm a.
  Hypothesis Hc : exists s, hs_create d r salt n = Ok s /\ ready [] s.
  Hypothesis Hr : forall s, exists s', hs_recreate d s r salt n = Ok s' /\ ready [] s'.
  Hypothesis Hi : forall msg s l, ready msg s -> bytes_ok msg -> bytes_ok l -> okm (length (msg ++ l)) -> exists s', hs_input d s l = Ok s' /\ ready (msg ++ l) s'.
  Hypothesis Ho1 : forall msg s k, ready msg s -> bytes_ok msg -> okm (length msg) -> k <= cap -> exists s', hs_output d s k = Ok (s', firstn k (H msg)) /\ done msg k s'.
  Hypothesis Ho2 : forall msg i s k, done msg i s -> bytes_ok msg -> i + k <= cap -> exists s', hs_output d s k = Ok (s', firstn k (skipn i (H msg))) /\ done msg (i + k) s'.
  Hypothesis Hall : forall l, bytes_ok l -> okm (length l) -> hs_all d r salt l n = Ok (firstn n (H l)).

  Lemma out_assert k (s : hs_st d) : k <= cap -> hash_output d s k = hs_output d s k.
  Proof.
    intros Hk. unfold hash_output. destruct capmax as [E|E].
    - rewrite E. reflexivity.
    - rewrite (proj2 (Nat.leb_le k _)) by lia. rewrite orb_true_r. reflexivity.
  Qed.
  Lemma feed_ready parts msg s : ready msg s -> bytes_ok msg -> Forall bytes_ok parts -> okm (length (msg ++ concat parts)) ->
    exists s', feed d s parts = Ok s' /\ ready (msg ++ concat parts) s'.
  Proof.
    revert msg s. induction parts as [|x parts IH]; intros msg s R Hm Hp Ho.
    - exists s. cbn [concat]. rewrite app_nil_r. auto.
    - inversion Hp; subst. cbn [feed concat] in *. rewrite app_assoc in Ho. destruct (Hi msg s x R) as (s1 & E & R1); [assumption..| |].
      + eapply okm_le; [|exact Ho]. rewrite (app_length (msg ++ x)). lia.
      + unfold hash_input. rewrite E. cbn [bind]. rewrite app_assoc. apply IH; [exact R1|apply Forall_app; split; assumption|assumption..].
  Qed.
  Lemma drain_done lens msg i s : done msg i s -> bytes_ok msg -> i + list_sum lens <= cap -> drain d s lens = Ok (firstn (list_sum lens) (skipn i (H msg))).
  Proof.
    revert i s. induction lens as [|k lens IH]; intros i s D Hm Hs; [now rewrite firstn_O|].
    cbn [drain list_sum fold_right] in *. change (fold_right Nat.add 0 lens) with (list_sum lens) in *.
    rewrite out_assert by lia. destruct (Ho2 msg i s k D Hm) as (s1 & -> & D1); [lia|]. cbn [bind fst snd].
    rewrite (IH (i + k) s1 D1 Hm) by lia. cbn [bind]. f_equal. rewrite Nat.add_comm, <- skipn_skipn. symmetry. apply firstn_plus.
  Qed.
  Lemma drain_ready lens msg s : ready msg s -> bytes_ok msg -> okm (length msg) -> list_sum lens <= cap -> drain d s lens = Ok (firstn (list_sum lens) (H msg)).
  Proof.
    intros R Hm Ho Hs. destruct lens as [|k lens]; [reflexivity|]. cbn [drain list_sum fold_right] in *.
    change (fold_right Nat.add 0 lens) with (list_sum lens) in *. rewrite out_assert by lia.
    destruct (Ho1 msg s k R Hm Ho) as (s1 & -> & D1); [lia|]. cbn [bind fst snd]. rewrite (drain_done lens msg k s1 D1 Hm) by lia.
    cbn [bind]. f_equal. symmetry. apply firstn_plus.
  Qed.
  Theorem computes_intro : computes d r salt n cap okm H.
  Proof.
    intros parts Hp Ho.
    assert (Hm : bytes_ok (concat parts)) by (clear Ho; induction Hp; [constructor|cbn; apply Forall_app; split; assumption]).
    assert (G : forall s, ready [] s -> forall lens, list_sum lens <= cap ->
      (let* s := feed d s parts in drain d s lens) = Ok (firstn (list_sum lens) (H (concat parts)))).
    { intros s R lens Hs. destruct (feed_ready parts [] s R) as (s1 & -> & R1); [constructor|assumption..|]. cbn [bind]. now apply drain_ready. }
    split.
    - intros lens Hs. split.
      + destruct Hc as (s & E & R). unfold digest, hash_create. rewrite args, E. cbn [assert_ bind]. now apply G.
      + intros s0. destruct (Hr s0) as (s & E & R). unfold digest, hash_recreate. rewrite args, E. cbn [assert_ bind]. now apply G.
    - unfold hash_all. rewrite args. cbn [assert_]. now apply Hall.
  Qed.
End Intro.
