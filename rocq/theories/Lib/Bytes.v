(** Byte strings, little/big endian values, and facts about the load/store helpers. *)
From Coq Require Import NArith Arith List Bool Lia.
From Verif Require Import Lib.Word Lib.Res Model.LoadStore.
Import ListNotations.
Local Open Scope N_scope.

Definition bytes_ok (l : list N) : Prop := Forall (fun b => b < 256) l.
(** a block of [n] bytes *)
Definition blk (n : nat) (l : list N) : Prop := length l = n /\ bytes_ok l.
Definition words_ok (w : N) (l : list N) : Prop := Forall (inw w) l.

Definition slice {A} (o n : nat) (l : list A) : list A := firstn n (skipn o l).

(** value of a byte string *)
Fixpoint le_val (l : list N) : N :=
  match l with [] => 0 | b :: t => b + 256 * le_val t end.
Definition be_val (l : list N) : N := le_val (rev l).
Fixpoint le_bytes (n : nat) (x : N) : list N :=
  match n with O => [] | S n' => x mod 256 :: le_bytes n' (x / 256) end.
Definition be_bytes (n : nat) (x : N) : list N := rev (le_bytes n x).

Lemma byte_mod x : byte x = x mod 256.
Proof. apply (mask_mod 8). Qed.

Lemma length_le_bytes n x : length (le_bytes n x) = n.
Proof. revert x; induction n as [|n IH]; intros x; cbn; auto. Qed.
Lemma length_be_bytes n x : length (be_bytes n x) = n.
Proof. unfold be_bytes. now rewrite rev_length, length_le_bytes. Qed.
Lemma bytes_le_bytes n x : bytes_ok (le_bytes n x).
Proof.
  revert x; induction n as [|n IH]; intros x; cbn; constructor; [|apply IH].
  apply N.mod_lt. lia.
Qed.
Lemma bytes_rev l : bytes_ok l -> bytes_ok (rev l).
Proof. unfold bytes_ok. intros H. rewrite Forall_forall in *. intros x Hx. apply H. now apply in_rev. Qed.
Lemma bytes_be_bytes n x : bytes_ok (be_bytes n x).
Proof. apply bytes_rev, bytes_le_bytes. Qed.
Lemma bytes_app a b : bytes_ok (a ++ b) <-> bytes_ok a /\ bytes_ok b.
Proof. apply Forall_app. Qed.
Lemma bytes_repeat0 n : bytes_ok (repeat 0 n).
Proof. induction n; cbn; constructor; [lia|assumption]. Qed.
Lemma bytes_firstn n l : bytes_ok l -> bytes_ok (firstn n l).
Proof.
  intros H. unfold bytes_ok in *. rewrite Forall_forall in *. intros x Hx. apply H.
  rewrite <- (firstn_skipn n l). apply in_or_app. now left.
Qed.
Lemma bytes_skipn n l : bytes_ok l -> bytes_ok (skipn n l).
Proof.
  intros H. unfold bytes_ok in *. rewrite Forall_forall in *. intros x Hx. apply H.
  rewrite <- (firstn_skipn n l). apply in_or_app. now right.
Qed.
Lemma bytes_slice o n l : bytes_ok l -> bytes_ok (slice o n l).
Proof. intros H. now apply bytes_firstn, bytes_skipn. Qed.
Lemma words_firstn w n l : words_ok w l -> words_ok w (firstn n l).
Proof.
  intros H. unfold words_ok in *. rewrite Forall_forall in *. intros x Hx. apply H.
  rewrite <- (firstn_skipn n l). apply in_or_app. now left.
Qed.
Lemma words_skipn w n l : words_ok w l -> words_ok w (skipn n l).
Proof.
  intros H. unfold words_ok in *. rewrite Forall_forall in *. intros x Hx. apply H.
  rewrite <- (firstn_skipn n l). apply in_or_app. now right.
Qed.
Lemma words_slice w o n l : words_ok w l -> words_ok w (slice o n l).
Proof. intros H. now apply words_firstn, words_skipn. Qed.
Lemma bytes_nth l i : bytes_ok l -> nth i l 0 < 256.
Proof.
  intros H. destruct (Nat.lt_ge_cases i (length l)) as [L|L].
  - unfold bytes_ok in H. rewrite Forall_forall in H. apply H, nth_In, L.
  - rewrite nth_overflow by exact L. lia.
Qed.
Lemma words_nth w l i : words_ok w l -> inw w (nth i l 0).
Proof.
  intros H. destruct (Nat.lt_ge_cases i (length l)) as [L|L].
  - unfold words_ok in H. rewrite Forall_forall in H. apply H, nth_In, L.
  - rewrite nth_overflow by exact L. apply inw_0.
Qed.
#[global] Hint Resolve words_nth : wb.

Lemma length_slice {A} o n (l : list A) : (o + n <= length l)%nat -> length (slice o n l) = n.
Proof. intros H. unfold slice. rewrite firstn_length, skipn_length. lia. Qed.

Lemma nth_firstn {A} n (l : list A) i d : (i < n)%nat -> nth i (firstn n l) d = nth i l d.
Proof.
  revert l i; induction n as [|n IH]; intros [|h t] [|i] H; cbn; try lia; auto.
  apply IH. lia.
Qed.
Lemma nth_skipn {A} n (l : list A) i d : nth i (skipn n l) d = nth (n + i) l d.
Proof.
  revert l i; induction n as [|n IH]; intros [|h t] i; cbn; auto. now destruct i.
Qed.
Lemma skipn_skipn {A} n m (l : list A) : skipn n (skipn m l) = skipn (n + m) l.
Proof.
  revert l; induction m as [|m IH]; intros l.
  - now rewrite Nat.add_0_r.
  - rewrite Nat.add_succ_r. destruct l as [|h t]; [now rewrite !skipn_nil|]. cbn [skipn]. apply IH.
Qed.
Lemma nth_slice {A} o n (l : list A) i d :
  (i < n)%nat -> nth i (slice o n l) d = nth (o + i) l d.
Proof. intros H. unfold slice. rewrite nth_firstn by exact H. apply nth_skipn. Qed.

Lemma slice_nth o n (l : list N) :
  (o + n <= length l)%nat -> slice o n l = map (fun i => nth (o + i) l 0) (seq 0 n).
Proof.
  intros H. apply nth_ext with (d := 0) (d' := nth (o + 0) l 0).
  - rewrite length_slice, map_length, seq_length; auto.
  - rewrite length_slice by exact H. intros i Hi.
    rewrite nth_slice by exact Hi.
    rewrite (map_nth (fun i => nth (o + i) l 0) (seq 0 n) 0%nat).
    rewrite seq_nth by exact Hi. reflexivity.
Qed.

(** ** Values and digits *)

Lemma le_val_bytes n x : le_val (le_bytes n x) = x mod 256 ^ N.of_nat n.
Proof.
  revert x; induction n as [|n IH]; intros x; cbn [le_bytes le_val].
  - change (256 ^ N.of_nat 0) with 1. now rewrite N.mod_1_r.
  - rewrite IH. rewrite Nat2N.inj_succ, N.pow_succ_r'.
    rewrite N.mod_mul_r; [reflexivity|lia|]. apply N.pow_nonzero. lia.
Qed.

Lemma le_val_bound l : bytes_ok l -> le_val l < 256 ^ N.of_nat (length l).
Proof.
  induction 1 as [|b t Hb Ht IH]; cbn [le_val length].
  - change (256 ^ N.of_nat 0) with 1. lia.
  - rewrite Nat2N.inj_succ, N.pow_succ_r'. lia.
Qed.

Lemma le_bytes_val l : bytes_ok l -> le_bytes (length l) (le_val l) = l.
Proof.
  induction 1 as [|b t Hb Ht IH]; cbn [le_val length le_bytes]; [reflexivity|].
  rewrite (N.mul_comm 256). rewrite N.mod_add, N.div_add by lia.
  rewrite N.mod_small, N.div_small by lia. rewrite N.add_0_l, IH. reflexivity.
Qed.

Lemma be_bytes_val l : bytes_ok l -> be_bytes (length l) (be_val l) = l.
Proof.
  intros H. unfold be_bytes, be_val.
  rewrite <- (rev_length l), le_bytes_val by now apply bytes_rev. apply rev_involutive.
Qed.

Lemma be_val_bytes n x : be_val (be_bytes n x) = x mod 256 ^ N.of_nat n.
Proof. unfold be_val, be_bytes. rewrite rev_involutive. apply le_val_bytes. Qed.

Lemma be_val_bound l : bytes_ok l -> be_val l < 256 ^ N.of_nat (length l).
Proof. intros H. unfold be_val. rewrite <- (rev_length l). apply le_val_bound. now apply bytes_rev. Qed.

Lemma le_val_inj a b : bytes_ok a -> bytes_ok b -> length a = length b -> le_val a = le_val b -> a = b.
Proof.
  intros Ha Hb Hl He. rewrite <- (le_bytes_val a Ha), <- (le_bytes_val b Hb). now rewrite Hl, He.
Qed.

Lemma lor_add a b n : a < 2 ^ n -> N.lor a (N.shiftl b n) = a + b * 2 ^ n.
Proof.
  intros H. assert (L : N.land a (N.shiftl b n) = 0).
  { apply N.bits_inj. intros i. rewrite N.land_spec, N.bits_0.
    destruct (N.lt_ge_cases i n) as [L|L].
    - now rewrite N.shiftl_spec_low, andb_false_r.
    - now rewrite (inw_high n a i). }
  rewrite <- N.lxor_lor by exact L. rewrite <- N.add_nocarry_lxor by exact L.
  now rewrite N.shiftl_mul_pow2.
Qed.

Lemma byten_div x k : byte (N.shiftr x k) = (x / 2 ^ k) mod 256.
Proof. now rewrite byte_mod, N.shiftr_div_pow2. Qed.

(** The byte order macros as values of byte strings. *)
Definition bs_ (l : list N) (o n : nat) : list N := map (fun i => nth (o + i) l 0) (seq 0 n).

Lemma load16l_val l o : bytes_ok l -> load16l l o = le_val (bs_ l o 2).
Proof.
  intros H. unfold load16l, bs_, b_. cbn [map seq le_val].
  rewrite Nat.add_0_r.
  pose proof (bytes_nth l o H).
  rewrite lor_add by assumption. lia.
Qed.
Lemma load16b_val l o : bytes_ok l -> load16b l o = be_val (bs_ l o 2).
Proof.
  intros H. unfold load16b, bs_, b_, be_val. cbn [map seq rev app le_val].
  rewrite Nat.add_0_r.
  pose proof (bytes_nth l (o+1) H).
  rewrite lor_add by assumption. lia.
Qed.

Lemma load32l_val l o : bytes_ok l -> load32l l o = le_val (bs_ l o 4).
Proof.
  intros H. unfold load32l, bs_, b_. cbn [map seq le_val].
  rewrite Nat.add_0_r.
  pose proof (bytes_nth l o H). pose proof (bytes_nth l (o+1) H). pose proof (bytes_nth l (o+2) H).
  rewrite (lor_add (nth _ l 0)) by assumption.
  do 2 rewrite (lor_add (_ + _)) by lia. lia.
Qed.
Lemma load32b_val l o : bytes_ok l -> load32b l o = be_val (bs_ l o 4).
Proof.
  intros H. unfold load32b, bs_, b_, be_val. cbn [map seq rev app le_val].
  rewrite Nat.add_0_r.
  pose proof (bytes_nth l (o+3) H). pose proof (bytes_nth l (o+1) H). pose proof (bytes_nth l (o+2) H).
  rewrite (lor_add (nth _ l 0)) by assumption.
  do 2 rewrite (lor_add (_ + _)) by lia. lia.
Qed.
Lemma load64l_val l o : bytes_ok l -> load64l l o = le_val (bs_ l o 8).
Proof.
  intros H. unfold load64l, bs_, b_. cbn [map seq le_val].
  rewrite Nat.add_0_r.
  pose proof (bytes_nth l o H). pose proof (bytes_nth l (o+1) H). pose proof (bytes_nth l (o+2) H).
  pose proof (bytes_nth l (o+3) H). pose proof (bytes_nth l (o+4) H). pose proof (bytes_nth l (o+5) H).
  pose proof (bytes_nth l (o+6) H).
  rewrite (lor_add (nth _ l 0)) by assumption.
  do 6 rewrite (lor_add (_ + _)) by lia. lia.
Qed.
Lemma load64b_val l o : bytes_ok l -> load64b l o = be_val (bs_ l o 8).
Proof.
  intros H. unfold load64b, bs_, b_, be_val. cbn [map seq rev app le_val].
  rewrite Nat.add_0_r.
  pose proof (bytes_nth l (o+7) H). pose proof (bytes_nth l (o+1) H). pose proof (bytes_nth l (o+2) H).
  pose proof (bytes_nth l (o+3) H). pose proof (bytes_nth l (o+4) H). pose proof (bytes_nth l (o+5) H).
  pose proof (bytes_nth l (o+6) H).
  rewrite (lor_add (nth _ l 0)) by assumption.
  do 6 rewrite (lor_add (_ + _)) by lia. lia.
Qed.

Lemma le_bytes_shiftr n x : le_bytes n x = map (fun i => byte (N.shiftr x (8 * N.of_nat i))) (seq 0 n).
Proof.
  revert x; induction n as [|n IH]; intros x; cbn [le_bytes seq map]; [reflexivity|].
  f_equal.
  - now rewrite N.mul_0_r, N.shiftr_0_r, byte_mod.
  - rewrite IH, <- seq_shift, map_map. apply map_ext. intros i.
    change 256 with (2 ^ 8). rewrite <- N.shiftr_div_pow2, N.shiftr_shiftr.
    do 2 f_equal. lia.
Qed.

Lemma store16l_bytes x : store16l x = le_bytes 2 x.
Proof. now rewrite le_bytes_shiftr. Qed.
Lemma store32l_bytes x : store32l x = le_bytes 4 x.
Proof. now rewrite le_bytes_shiftr. Qed.
Lemma store64l_bytes x : store64l x = le_bytes 8 x.
Proof. now rewrite le_bytes_shiftr. Qed.
Lemma store16b_bytes x : store16b x = be_bytes 2 x.
Proof. unfold be_bytes. now rewrite le_bytes_shiftr. Qed.
Lemma store32b_bytes x : store32b x = be_bytes 4 x.
Proof. unfold be_bytes. now rewrite le_bytes_shiftr. Qed.
Lemma store64b_bytes x : store64b x = be_bytes 8 x.
Proof. unfold be_bytes. now rewrite le_bytes_shiftr. Qed.

(** ** Load/store pairs *)

Record codec (w : N) (k : nat) (ld : list N -> nat -> N) (st : N -> list N) : Prop := {
  c_len : forall x, length (st x) = k;
  c_bytes : forall x, bytes_ok (st x);
  c_ldst : forall x pre post, inw w x -> ld (pre ++ st x ++ post) (length pre) = x;
  c_inw : forall l o, bytes_ok l -> inw w (ld l o);
  c_stld : forall l o, bytes_ok l -> (o + k <= length l)%nat -> st (ld l o) = slice o k l;
}.

Lemma bs_app (pre s post : list N) : bs_ (pre ++ s ++ post) (length pre) (length s) = s.
Proof.
  unfold bs_. transitivity (slice (length pre) (length s) (pre ++ s ++ post)).
  - symmetry. apply slice_nth. rewrite !app_length. lia.
  - unfold slice. rewrite skipn_app, skipn_all, Nat.sub_diag. cbn [app skipn].
    rewrite firstn_app, firstn_all, Nat.sub_diag. cbn [firstn]. apply app_nil_r.
Qed.

Lemma length_bs l o n : length (bs_ l o n) = n.
Proof. unfold bs_. now rewrite map_length, seq_length. Qed.
Lemma bytes_bs l o n : bytes_ok l -> bytes_ok (bs_ l o n).
Proof.
  intros H. unfold bs_, bytes_ok. rewrite Forall_forall. intros x Hx.
  apply in_map_iff in Hx. destruct Hx as (i & E & _). subst x. now apply bytes_nth.
Qed.

Lemma pow256 k : 256 ^ N.of_nat k = 2 ^ (8 * N.of_nat k).
Proof. change 256 with (2 ^ 8). now rewrite <- N.pow_mul_r. Qed.

Lemma nth_bs l o n i : (i < n)%nat -> nth i (bs_ l o n) 0 = nth (o + i) l 0.
Proof.
  intros H. unfold bs_.
  rewrite (nth_indep _ 0 (nth (o + 0) l 0)) by (rewrite map_length, seq_length; exact H).
  rewrite (map_nth (fun i => nth (o + i) l 0) (seq 0 n) 0%nat). rewrite seq_nth by exact H. reflexivity.
Qed.

Lemma codec_of (w : N) (k : nat) ld st (val : list N -> N) (dig : nat -> N -> list N) :
  w = 8 * N.of_nat k ->
  (forall l o, bytes_ok l -> ld l o = val (bs_ l o k)) ->
  (forall l o, ld l o = ld (bs_ l o k) 0%nat) ->
  (forall x, st x = dig k x) ->
  (forall n x, length (dig n x) = n) ->
  (forall n x, bytes_ok (dig n x)) ->
  (forall n x, val (dig n x) = x mod 256 ^ N.of_nat n) ->
  (forall l, bytes_ok l -> dig (length l) (val l) = l) ->
  (forall l, bytes_ok l -> val l < 256 ^ N.of_nat (length l)) ->
  codec w k ld st.
Proof.
  intros Hw Hld Hloc Hst Hlen Hby Hvd Hdv Hb. split.
  - intros x. now rewrite Hst.
  - intros x. now rewrite Hst.
  - intros x pre post Hx. rewrite Hloc.
    replace (bs_ (pre ++ st x ++ post) (length pre) k) with (st x).
    + rewrite Hld by (rewrite Hst; apply Hby).
      replace (bs_ (st x) 0 k) with (st x).
      * rewrite Hst, Hvd, pow256, <- Hw. now apply N.mod_small.
      * rewrite <- (Hlen k x), <- Hst. symmetry.
        pose proof (bs_app [] (st x) []) as E. cbn [app length] in E. rewrite app_nil_r in E.
        exact E.
    + rewrite <- (Hlen k x), <- Hst. symmetry. apply bs_app.
  - intros l o Hl. rewrite Hld by exact Hl. unfold inw. rewrite Hw, <- pow256.
    pose proof (Hb (bs_ l o k) (bytes_bs l o k Hl)) as B. now rewrite length_bs in B.
  - intros l o Hl Ho. rewrite Hst, Hld by exact Hl.
    rewrite <- (length_bs l o k) at 1. rewrite Hdv by now apply bytes_bs.
    symmetry. now apply slice_nth.
Qed.

Ltac loc := intros l o; cbv [load16l load16b load32l load32b load64l load64b b_];
  rewrite !nth_bs by (cbn; lia); rewrite ?Nat.add_0_l, ?Nat.add_0_r; reflexivity.

Lemma codec16l : codec 16 2 load16l store16l.
Proof.
  apply (codec_of 16 2 load16l store16l le_val le_bytes); [reflexivity|apply load16l_val|loc|
    apply store16l_bytes|apply length_le_bytes|apply bytes_le_bytes|apply le_val_bytes|apply le_bytes_val|apply le_val_bound].
Qed.
Lemma codec32l : codec 32 4 load32l store32l.
Proof.
  apply (codec_of 32 4 load32l store32l le_val le_bytes); [reflexivity|apply load32l_val|loc|
    apply store32l_bytes|apply length_le_bytes|apply bytes_le_bytes|apply le_val_bytes|apply le_bytes_val|apply le_val_bound].
Qed.
Lemma codec64l : codec 64 8 load64l store64l.
Proof.
  apply (codec_of 64 8 load64l store64l le_val le_bytes); [reflexivity|apply load64l_val|loc|
    apply store64l_bytes|apply length_le_bytes|apply bytes_le_bytes|apply le_val_bytes|apply le_bytes_val|apply le_val_bound].
Qed.
Lemma codec16b : codec 16 2 load16b store16b.
Proof.
  apply (codec_of 16 2 load16b store16b be_val be_bytes); [reflexivity|apply load16b_val|loc|
    apply store16b_bytes|apply length_be_bytes|apply bytes_be_bytes|apply be_val_bytes|apply be_bytes_val|apply be_val_bound].
Qed.
Lemma codec32b : codec 32 4 load32b store32b.
Proof.
  apply (codec_of 32 4 load32b store32b be_val be_bytes); [reflexivity|apply load32b_val|loc|
    apply store32b_bytes|apply length_be_bytes|apply bytes_be_bytes|apply be_val_bytes|apply be_bytes_val|apply be_val_bound].
Qed.
Lemma codec64b : codec 64 8 load64b store64b.
Proof.
  apply (codec_of 64 8 load64b store64b be_val be_bytes); [reflexivity|apply load64b_val|loc|
    apply store64b_bytes|apply length_be_bytes|apply bytes_be_bytes|apply be_val_bytes|apply be_bytes_val|apply be_val_bound].
Qed.

(** ** Word vectors *)

Section Vectors.
  Context {w : N} {k : nat} {ld : list N -> nat -> N} {st : N -> list N} (C : codec w k ld st).

  Lemma length_stores ws : length (stores st ws) = (k * length ws)%nat.
  Proof.
    unfold stores. induction ws as [|a t IH]; cbn [flat_map length].
    - now rewrite Nat.mul_0_r.
    - rewrite app_length, IH, (c_len _ _ _ _ C), Nat.mul_succ_r. apply Nat.add_comm.
  Qed.

  Lemma bytes_stores ws : bytes_ok (stores st ws).
  Proof.
    unfold stores. induction ws as [|a t IH]; cbn [flat_map].
    - constructor.
    - apply bytes_app. split; [apply C|exact IH].
  Qed.

  Lemma length_loads n l : length (loads ld k n l) = n.
  Proof. unfold loads. now rewrite map_length, seq_length. Qed.

  Lemma words_loads n l : bytes_ok l -> words_ok w (loads ld k n l).
  Proof.
    intros H. unfold loads, words_ok. rewrite Forall_forall. intros x Hx.
    apply in_map_iff in Hx. destruct Hx as (i & E & _). subst x. now apply C.
  Qed.

  Lemma stores_loads_gen n o l :
    bytes_ok l -> (o + k * n <= length l)%nat ->
    stores st (map (fun i => ld l (o + k * i)%nat) (seq 0 n)) = slice o (k * n) l.
  Proof.
    intros H. revert o. induction n as [|n IH]; intros o Ho.
    - rewrite Nat.mul_0_r. reflexivity.
    - cbn [seq map]. unfold stores. cbn [flat_map]. fold (stores st).
      rewrite <- seq_shift, map_map.
      rewrite Nat.mul_0_r, Nat.add_0_r, (c_stld _ _ _ _ C) by (assumption || lia).
      erewrite map_ext.
      2:{ intros i. replace (o + k * S i)%nat with (o + k + k * i)%nat by lia. reflexivity. }
      change (flat_map st) with (stores st). rewrite IH by lia.
      unfold slice.
      replace (k * S n)%nat with (k + k * n)%nat by lia.
      replace (o + k)%nat with (k + o)%nat by lia.
      rewrite <- skipn_skipn. generalize (skipn o l). intros m.
      rewrite <- (firstn_skipn k m) at 3.
      destruct (Nat.le_gt_cases k (length m)) as [L|L].
      + rewrite firstn_app. rewrite firstn_length, Nat.min_l by exact L.
        rewrite firstn_firstn, Nat.min_r by lia. f_equal. f_equal. lia.
      + rewrite (skipn_all2 m) by lia. rewrite firstn_nil, !app_nil_r.
        rewrite (firstn_all2 m) by lia. symmetry. apply firstn_all2. lia.
  Qed.

  Lemma stores_loads n l : blk (k * n) l -> stores st (loads ld k n l) = l.
  Proof.
    intros [Hl Hb]. unfold loads. pose proof (stores_loads_gen n 0 l Hb) as E.
    cbn [Nat.add] in E. rewrite E by lia. unfold slice. cbn [skipn].
    apply firstn_all2. lia.
  Qed.

  Lemma loads_stores ws : words_ok w ws -> loads ld k (length ws) (stores st ws) = ws.
  Proof.
    intros H. unfold loads.
    enough (G : forall pre, bytes_ok pre ->
      map (fun i => ld (pre ++ stores st ws) (length pre + k * i)%nat) (seq 0 (length ws)) = ws).
    { apply (G []). constructor. }
    induction H as [|a t Ha Ht IH]; intros pre Hp; [reflexivity|].
    cbn [length seq map]. f_equal.
    - rewrite Nat.mul_0_r, Nat.add_0_r. unfold stores. cbn [flat_map]. now apply C.
    - rewrite <- seq_shift, map_map. unfold stores. cbn [flat_map]. change (flat_map st) with (stores st).
      specialize (IH (pre ++ st a)). rewrite <- app_assoc, app_length, (c_len _ _ _ _ C) in IH.
      rewrite <- IH at 2 by (apply bytes_app; split; [exact Hp|apply C]).
      apply map_ext. intros i. f_equal. lia.
  Qed.

  Definition wlist (n : nat) (ws : list N) : Prop := length ws = n /\ words_ok w ws.

  (** Bijection between blocks and word vectors. *)
  Lemma loads_bij n : bij_on (blk (k * n)) (wlist n) (fun l => Ok (loads ld k n l)) (fun ws => Ok (stores st ws)).
  Proof.
    apply bij_pure.
    - intros l [Hl Hb]. split; [split; [apply length_loads|now apply words_loads]|].
      apply stores_loads. now split.
    - intros ws [Hl Hw]. split; [split; [rewrite length_stores; now rewrite Hl|apply bytes_stores]|].
      rewrite <- Hl. now apply loads_stores.
  Qed.

  Definition w2 (x : N * N) : Prop := inw w (fst x) /\ inw w (snd x).
  Definition w3 (x : N * N * N) : Prop := let '(a, b, c) := x in inw w a /\ inw w b /\ inw w c.
  Definition w4 (x : N * N * N * N) : Prop :=
    let '(a, b, c, d) := x in inw w a /\ inw w b /\ inw w c /\ inw w d.

  Definition ld2 (l : list N) : N * N := (ld l 0%nat, ld l k).
  Definition st2 (x : N * N) : list N := st (fst x) ++ st (snd x).
  Definition ld3 (l : list N) : N * N * N := (ld l 0%nat, ld l k, ld l (2 * k)%nat).
  Definition st3 (x : N * N * N) : list N := let '(a, b, c) := x in st a ++ st b ++ st c.
  Definition ld4 (l : list N) : N * N * N * N := (ld l 0%nat, ld l k, ld l (2 * k)%nat, ld l (3 * k)%nat).
  Definition st4 (x : N * N * N * N) : list N := let '(a, b, c, d) := x in st a ++ st b ++ st c ++ st d.

  Lemma ld2_bij : bij_on (blk (2 * k)) w2 (fun l => Ok (ld2 l)) (fun ws => Ok (st2 ws)).
  Proof.
    destruct (loads_bij 2) as [H1 H2]. apply bij_pure.
    - intros l Hl. split.
      + destruct Hl as [_ Hl]. split; cbn; now apply C.
      + rewrite Nat.mul_comm in Hl. destruct (H1 l Hl) as (ws & E1 & _ & E2).
        apply Ok_inj in E1. apply Ok_inj in E2. etransitivity; [|exact E2]. rewrite <- E1. unfold loads, stores, st2, ld2.
        cbn [seq map flat_map fst snd]. now rewrite Nat.mul_0_r, Nat.mul_1_r, app_nil_r.
    - intros [a b] [Ha Hb]. cbn [fst snd] in *.
      destruct (H2 [a; b]) as (l & E1 & Hl & E2); [split; [reflexivity|repeat constructor; assumption]|].
      apply Ok_inj in E1. apply Ok_inj in E2. unfold stores in E1. cbn [flat_map] in E1.
      rewrite app_nil_r in E1. unfold st2, ld2. cbn [fst snd]. rewrite E1. rewrite Nat.mul_comm in Hl.
      split; [exact Hl|]. unfold loads in E2. cbn [seq map] in E2.
      rewrite Nat.mul_0_r, Nat.mul_1_r in E2. congruence.
  Qed.

  Lemma ld3_bij : bij_on (blk (3 * k)) w3 (fun l => Ok (ld3 l)) (fun ws => Ok (st3 ws)).
  Proof.
    destruct (loads_bij 3) as [H1 H2]. apply bij_pure.
    - intros l Hl. split.
      + destruct Hl as [_ Hl]. cbn. repeat split; now apply C.
      + rewrite Nat.mul_comm in Hl. destruct (H1 l Hl) as (ws & E1 & _ & E2).
        apply Ok_inj in E1. apply Ok_inj in E2. etransitivity; [|exact E2]. rewrite <- E1. unfold loads, stores, st3, ld3.
        cbn [seq map flat_map]. rewrite Nat.mul_0_r, Nat.mul_1_r, app_nil_r.
        now rewrite (Nat.mul_comm k 2).
    - intros [[a b] c] (Ha & Hb & Hc).
      destruct (H2 [a; b; c]) as (l & E1 & Hl & E2); [split; [reflexivity|repeat constructor; assumption]|].
      apply Ok_inj in E1. apply Ok_inj in E2. unfold stores in E1. cbn [flat_map] in E1.
      rewrite app_nil_r in E1. unfold st3, ld3. rewrite E1. rewrite Nat.mul_comm in Hl.
      split; [exact Hl|]. unfold loads in E2. cbn [seq map] in E2.
      rewrite Nat.mul_0_r, Nat.mul_1_r, (Nat.mul_comm k 2) in E2. congruence.
  Qed.

  Lemma ld4_bij : bij_on (blk (4 * k)) w4 (fun l => Ok (ld4 l)) (fun ws => Ok (st4 ws)).
  Proof.
    destruct (loads_bij 4) as [H1 H2]. apply bij_pure.
    - intros l Hl. split.
      + destruct Hl as [_ Hl]. cbn. repeat split; now apply C.
      + rewrite Nat.mul_comm in Hl. destruct (H1 l Hl) as (ws & E1 & _ & E2).
        apply Ok_inj in E1. apply Ok_inj in E2. etransitivity; [|exact E2]. rewrite <- E1. unfold loads, stores, st4, ld4.
        cbn [seq map flat_map]. rewrite Nat.mul_0_r, Nat.mul_1_r, app_nil_r.
        now rewrite (Nat.mul_comm k 2), (Nat.mul_comm k 3).
    - intros [[[a b] c] d] (Ha & Hb & Hc & Hd).
      destruct (H2 [a; b; c; d]) as (l & E1 & Hl & E2); [split; [reflexivity|repeat constructor; assumption]|].
      apply Ok_inj in E1. apply Ok_inj in E2. unfold stores in E1. cbn [flat_map] in E1.
      rewrite app_nil_r in E1. unfold st4, ld4. rewrite E1. rewrite Nat.mul_comm in Hl.
      split; [exact Hl|]. unfold loads in E2. cbn [seq map] in E2.
      rewrite Nat.mul_0_r, Nat.mul_1_r, (Nat.mul_comm k 2), (Nat.mul_comm k 3) in E2.
      congruence.
  Qed.
End Vectors.

(** Conjugation of a permutation by a change of representation. *)
Lemma lift_bij {A B} (P : A -> Prop) (Q : B -> Prop) ld st E D :
  bij_on P Q (fun l => Ok (ld l)) (fun x => Ok (st x)) ->
  bij_on Q Q E D ->
  bij_on P P (fun l => let* y := E (ld l) in Ok (st y)) (fun l => let* y := D (ld l) in Ok (st y)).
Proof.
  intros HL HE.
  assert (G : forall E D, inv_on Q Q E D ->
    inv_on P P (fun l => let* y := E (ld l) in Ok (st y)) (fun l => let* y := D (ld l) in Ok (st y))).
  { destruct HL as [L1 L2]. clear -L1 L2. intros E D H l Hl.
    destruct (L1 l Hl) as (ws & E1 & Hws & E2). apply Ok_inj in E1. apply Ok_inj in E2.
    destruct (H ws Hws) as (y & E3 & Hy & E4).
    destruct (L2 y Hy) as (l' & E5 & Hl' & E6). apply Ok_inj in E5. apply Ok_inj in E6.
    exists l'. rewrite E1, E3. cbn [bind]. rewrite E5. split; [reflexivity|]. split; [exact Hl'|].
    rewrite E6, E4. cbn [bind]. now rewrite E2. }
  destruct HE as [H1 H2]. split; apply G; assumption.
Qed.

(** ** Key arrays *)

Lemma length_load_array k sh src dst n : length (load_array k sh src dst n) = length dst.
Proof.
  unfold load_array.
  apply (pfor_inv (fun _ d => length d = length dst)); [|reflexivity].
  intros j y _ H. now rewrite length_upd.
Qed.

Lemma words_load_array w k sh src dst n :
  bytes_ok src -> words_ok w dst -> (forall i, sh i + 8 <= w) ->
  words_ok w (load_array k sh src dst n).
Proof.
  intros Hs Hd Hsh. unfold load_array.
  apply (pfor_inv (fun _ d => words_ok w d)); [|exact Hd].
  intros j y _ H. apply Forall_upd; [exact H|].
  apply inw_lor; [wb|]. unfold inw. rewrite N.shiftl_mul_pow2.
  pose proof (bytes_nth src j Hs) as Hb. fold (b_ src j) in Hb.
  apply N.lt_le_trans with (2 ^ 8 * 2 ^ sh j).
  - apply N.mul_lt_mono_pos_r; [apply pow2_pos|exact Hb].
  - rewrite <- N.pow_add_r. apply N.pow_le_mono_r; [lia|]. specialize (Hsh j). lia.
Qed.

Lemma words_repeat0 w n : words_ok w (repeat 0 n).
Proof. induction n; cbn; constructor; [apply inw_0|assumption]. Qed.

Lemma sh_l_le k i : (k <> 0)%nat -> sh_l k i + 8 <= 8 * N.of_nat k.
Proof. intros H. unfold sh_l. pose proof (Nat.mod_upper_bound i k H). lia. Qed.
Lemma sh_b_le k i : (k <> 0)%nat -> sh_b k i + 8 <= 8 * N.of_nat k.
Proof. intros H. unfold sh_b. lia. Qed.

Lemma key16l_ok key n : bytes_ok key -> length (key16l key n) = n /\ words_ok 16 (key16l key n).
Proof.
  intros H. unfold key16l, load16l_array. rewrite length_load_array, repeat_length. split; [reflexivity|].
  apply words_load_array; [exact H|apply words_repeat0|]. intros i. now apply (sh_l_le 2).
Qed.
Lemma key16b_ok key n : bytes_ok key -> length (key16b key n) = n /\ words_ok 16 (key16b key n).
Proof.
  intros H. unfold key16b, load16b_array. rewrite length_load_array, repeat_length. split; [reflexivity|].
  apply words_load_array; [exact H|apply words_repeat0|]. intros i. now apply (sh_b_le 2).
Qed.
Lemma key32l_ok key n : bytes_ok key -> length (key32l key n) = n /\ words_ok 32 (key32l key n).
Proof.
  intros H. unfold key32l, load32l_array. rewrite length_load_array, repeat_length. split; [reflexivity|].
  apply words_load_array; [exact H|apply words_repeat0|]. intros i. now apply (sh_l_le 4).
Qed.
Lemma key32b_ok key n : bytes_ok key -> length (key32b key n) = n /\ words_ok 32 (key32b key n).
Proof.
  intros H. unfold key32b, load32b_array. rewrite length_load_array, repeat_length. split; [reflexivity|].
  apply words_load_array; [exact H|apply words_repeat0|]. intros i. now apply (sh_b_le 4).
Qed.
Lemma key64l_ok key n : bytes_ok key -> length (key64l key n) = n /\ words_ok 64 (key64l key n).
Proof.
  intros H. unfold key64l, load64l_array. rewrite length_load_array, repeat_length. split; [reflexivity|].
  apply words_load_array; [exact H|apply words_repeat0|]. intros i. now apply (sh_l_le 8).
Qed.
Lemma key64b_ok key n : bytes_ok key -> length (key64b key n) = n /\ words_ok 64 (key64b key n).
Proof.
  intros H. unfold key64b, load64b_array. rewrite length_load_array, repeat_length. split; [reflexivity|].
  apply words_load_array; [exact H|apply words_repeat0|]. intros i. now apply (sh_b_le 8).
Qed.

(** Loading a key equals loading the zero extended key. *)
Lemma load_array_ext k sh a b dst n :
  (forall i, (i < n)%nat -> b_ a i = b_ b i) -> load_array k sh a dst n = load_array k sh b dst n.
Proof.
  intros H. unfold load_array. apply pfor_ext. intros j y Hj. now rewrite H by lia.
Qed.

Lemma upd_same {A} (l : list A) i d : upd l i (nth i l d) = l.
Proof. revert i; induction l as [|h t IH]; intros [|i]; cbn; auto. now rewrite IH. Qed.

Lemma load_array_zero k sh key z dst :
  load_array k sh (key ++ repeat 0 z) dst (length key + z) = load_array k sh key dst (length key).
Proof.
  unfold load_array. rewrite pfor_app.
  replace (pfor (length key) 0 (fun i d => upd d (i / k) (N.lor (nth (i / k) d 0) (N.shiftl (b_ (key ++ repeat 0 z) i) (sh i)))) dst)
    with (pfor (length key) 0 (fun i d => upd d (i / k) (N.lor (nth (i / k) d 0) (N.shiftl (b_ key i) (sh i)))) dst).
  2:{ apply pfor_ext. intros j y Hj. unfold b_. now rewrite app_nth1 by lia. }
  generalize (pfor (length key) 0 (fun i d => upd d (i / k) (N.lor (nth (i / k) d 0) (N.shiftl (b_ key i) (sh i)))) dst).
  intros d0. apply (pfor_inv (fun _ d => d = d0)); [|reflexivity].
  intros j y Hj ->. unfold b_. rewrite app_nth2 by lia.
  replace (nth (j - length key) (repeat 0 z) 0) with 0.
  - rewrite N.shiftl_0_l, N.lor_0_r. apply upd_same.
  - symmetry. apply nth_repeat.
Qed.
