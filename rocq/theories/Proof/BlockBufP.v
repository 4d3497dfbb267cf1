(** The byte buffer passes the message to the block function block by block, however it is split. *)
From Coq Require Import NArith Arith List Bool Lia.
From Verif Require Import Lib.Word Lib.Res Lib.Bytes Lib.MemLemmas Spec.Modes Model.Md Model.BlockBuf Proof.MdP.
Import ListNotations.
Local Open Scope nat_scope.

Section Buf.
  Context {A : Type}.
  Variable bs : nat.
  Hypothesis Hbs : 0 < bs.
  (** the buffer begins with [t] *)
  Definition hold (t : list N) (s : bb A) : Prop := length t <= length (bb_buf s) /\ firstn (length t) (bb_buf s) = t.
  Definition rep (t : list N) (s : bb A) : Prop := bb_i s = length t /\ hold t s.

  Lemma rep_nil a buf : rep [] {| bb_a := a; bb_buf := buf; bb_i := 0 |}.
  Proof. clear. repeat split. cbn. apply Nat.le_0_l. Qed.
  Lemma put_ok t s v : rep t s -> length t < bs -> exists s', bb_put bs v s = Ok s' /\ rep (t ++ [v]) s' /\ bb_a s' = bb_a s.
  Proof.
    intros (Hi & Hl & Ht) H. unfold bb_put. rewrite Hi.
    destruct (bput_ok bs (bb_buf s) (length t) v H Hl) as (b & -> & E & L). cbn [bind]. eexists. split; [reflexivity|].
    split; [|reflexivity]. repeat split; cbn; rewrite app_length; cbn [length]; rewrite Nat.add_1_r; [reflexivity|exact L|].
    rewrite E, Ht. reflexivity.
  Qed.
  Lemma zeros_ok n t s : rep t s -> length t <= n -> n <= bs ->
    exists s', bb_zeros bs n s = Ok s' /\ rep (t ++ repeat 0%N (n - length t)) s' /\ bb_a s' = bb_a s.
  Proof.
    intros R H1 H2. unfold bb_zeros. rewrite (proj1 R). remember (n - length t) as k eqn:Ek.
    assert (Hk : length t + k <= bs) by lia. clear Ek H1 H2 n. revert t s R Hk. generalize 0. induction k as [|k IH]; intros j t s R Hk.
    - exists s. split; [reflexivity|]. cbn [repeat]. now rewrite app_nil_r.
    - cbn [mfor]. destruct (put_ok t s 0%N R) as (s1 & -> & R1 & A1); [lia|]. cbn [bind].
      destruct (IH (S j) (t ++ [0%N]) s1 R1) as (s2 & E & R2 & A2); [rewrite app_length; cbn; lia|].
      exists s2. split; [exact E|]. rewrite <- app_assoc in R2. split; [exact R2|congruence].
  Qed.
  Lemma store_ok bytes t s : hold t s -> length t + length bytes <= bs ->
    exists s', bb_store bs (length t) bytes s = Ok s' /\ hold (t ++ bytes) s' /\ bb_i s' = bb_i s /\ bb_a s' = bb_a s.
  Proof.
    intros H Hb. unfold bb_store.
    assert (E : forall bytes t buf, length t <= length buf -> firstn (length t) buf = t -> length t + length bytes <= bs ->
      exists buf', fold_left (fun q b => let* q := q in let* m := bput bs (fst q) (snd q) b in Ok (m, S (snd q))) bytes (Ok (buf, length t))
        = Ok (buf', length t + length bytes) /\ length (t ++ bytes) <= length buf' /\ firstn (length (t ++ bytes)) buf' = t ++ bytes).
    { clear. induction bytes as [|b bytes IH]; intros t buf H1 H2 H3.
      - exists buf. cbn [fold_left length]. rewrite Nat.add_0_r, app_nil_r. auto.
      - cbn [fold_left bind fst snd]. cbn [length] in H3. destruct (bput_ok bs buf (length t) b) as (buf1 & E1 & F1 & L1); [lia|exact H1|].
        rewrite E1. cbn [bind]. destruct (IH (t ++ [b]) buf1) as (buf2 & E2 & L2 & F2).
        + rewrite app_length. cbn [length]. lia.
        + rewrite app_length. cbn [length]. rewrite Nat.add_1_r, F1, H2. reflexivity.
        + rewrite app_length. cbn [length]. lia.
        + rewrite app_length in E2. cbn [length] in E2. rewrite Nat.add_1_r in E2. rewrite <- app_assoc in L2, F2. cbn [app] in L2, F2.
          exists buf2. split; [|auto]. rewrite E2. do 2 f_equal. cbn [length]. lia. }
    destruct (E bytes t (bb_buf s) (proj1 H) (proj2 H) Hb) as (buf' & -> & L & F). cbn [bind fst].
    eexists. split; [reflexivity|]. repeat split; assumption.
  Qed.
  Lemma flush_ok f b a s : hold b s -> length b = bs -> f (bb_a s) b = Ok a ->
    exists s', bb_flush bs f s = Ok s' /\ rep [] s' /\ bb_a s' = a.
  Proof.
    intros [H1 H2] Hb E. unfold bb_flush. rewrite <- Hb. rewrite (proj2 (Nat.ltb_ge _ _) H1), H2, E. cbn [bind].
    eexists. split; [reflexivity|]. split; [apply rep_nil|reflexivity].
  Qed.

  (** [inv l a]: the value of the block function after the whole blocks [l] *)
  Variables (f : A -> list N -> res A) (inv : list N -> A -> Prop) (okm : nat -> Prop).
  Hypothesis okm_le : forall m n, m <= n -> okm n -> okm m.
  Hypothesis step_ok : forall l a b, inv l a -> length l mod bs = 0 -> blk bs b -> okm (length l + bs) -> exists a', f a b = Ok a' /\ inv (l ++ b) a'.
  Definition has_read (msg : list N) (s : bb A) : Prop :=
    exists l t, msg = l ++ t /\ length t < bs /\ length l mod bs = 0 /\ bytes_ok t /\ inv l (bb_a s) /\ rep t s.
  Lemma byte_ok msg s b : has_read msg s -> (b < 256)%N -> okm (S (length msg)) -> exists s', bb_byte bs f s b = Ok s' /\ has_read (msg ++ [b]) s'.
  Proof.
    intros (l & t & -> & Ht & Hl & Hb & Hi & R) Hv Ho. unfold bb_byte. destruct (put_ok t s b R Ht) as (s1 & -> & R1 & A1). cbn [bind].
    rewrite (proj1 R1), app_length. cbn [length]. assert (Hb1 : bytes_ok (t ++ [b])) by (apply Forall_app; split; [assumption|repeat constructor; assumption]).
    destruct (Nat.eqb_spec (length t + 1) bs) as [E|E].
    - destruct (step_ok l (bb_a s1) (t ++ [b])) as (a & Ea & Ia).
      + now rewrite A1.
      + exact Hl.
      + split; [rewrite app_length; exact E|exact Hb1].
      + rewrite app_length in Ho. eapply okm_le; [|exact Ho]. lia.
      + destruct (flush_ok f (t ++ [b]) a s1 (proj2 R1)) as (s2 & -> & R2 & A2); [rewrite app_length; exact E|exact Ea|].
        exists s2. split; [reflexivity|]. exists (l ++ t ++ [b]), []. rewrite A2, !app_nil_r, <- app_assoc. repeat split; try assumption; try apply R2.
        * rewrite !app_length. cbn [length]. rewrite E. rewrite <- (Nat.mul_1_l bs) at 1. rewrite Nat.mod_add by lia. exact Hl.
        * constructor.
    - exists s1. split; [reflexivity|]. exists l, (t ++ [b]). rewrite A1, <- app_assoc. repeat split; try assumption; try apply R1.
      rewrite app_length. cbn [length]. lia.
  Qed.
  Lemma bb_input_ok x msg s : has_read msg s -> bytes_ok x -> okm (length (msg ++ x)) -> exists s', bb_input bs f s x = Ok s' /\ has_read (msg ++ x) s'.
  Proof.
    revert msg s. induction x as [|b x IH]; intros msg s H Hx Ho.
    - exists s. rewrite app_nil_r. auto.
    - inversion Hx; subst. cbn [bb_input]. destruct (byte_ok msg s b H) as (s1 & -> & H1); [assumption|eapply okm_le; [|exact Ho]; rewrite app_length; cbn; lia|].
      cbn [bind]. destruct (IH (msg ++ [b]) s1 H1) as (s2 & E & HR); [assumption|rewrite <- app_assoc; exact Ho|].
      exists s2. split; [exact E|]. rewrite <- app_assoc in HR. exact HR.
  Qed.
End Buf.
