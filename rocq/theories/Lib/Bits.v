(** Bit-sliced straight line code and linear maps over exclusive or. *)
From Coq Require Import NArith Arith List Bool Lia Btauto.
From Verif Require Import Lib.Word Lib.Res Lib.Bytes Lib.Bij.
From Verif Require Export Lib.XorSolve.
Import ListNotations.
Local Open Scope N_scope.

(** Exclusive-or expressions that are equal bit by bit. *)
Ltac xors := xor_solve.
Ltac xors_list :=
  repeat match goal with |- _ :: _ = _ :: _ => apply f_equal2; [xors|] end; reflexivity.

Lemma wnot_spec w a i : N.testbit (wnot w a) i = xorb (N.testbit a i) (i <? w).
Proof. unfold wnot. rewrite N.lxor_spec. now rewrite ones_spec. Qed.

(** ** Three address code on machine words *)

Inductive bop := BXor | BAnd | BOr | BNot | BCopy.
(** [I o d a b]: register [d] := register [a] [o] register [b] *)
Inductive instr := I (o : bop) (d a b : nat).

Definition bop_w (w : N) (o : bop) (a b : N) : N :=
  match o with
  | BXor => N.lxor a b | BAnd => N.land a b | BOr => N.lor a b
  | BNot => wnot w a | BCopy => a
  end.
Definition bop_b (o : bop) (a b : bool) : bool :=
  match o with
  | BXor => xorb a b | BAnd => andb a b | BOr => orb a b
  | BNot => negb a | BCopy => a
  end.

Definition step_w (w : N) (s : instr) (x : list N) : list N :=
  let '(I o d a b) := s in upd x d (bop_w w o (nth a x 0) (nth b x 0)).
Definition step_b (s : instr) (x : list bool) : list bool :=
  let '(I o d a b) := s in upd x d (bop_b o (nth a x false) (nth b x false)).

(** Run [p] with [t] zeroed temporaries behind the registers; the results are the
    registers [out]. *)
Definition slices (w : N) (t : nat) (p : list instr) (out : list nat) (x : list N) : list N :=
  let y := prun (step_w w) p (x ++ repeat 0 t) in map (fun i => nth i y 0) out.
Definition slices_b (t : nat) (p : list instr) (out : list nat) (x : list bool) : list bool :=
  let y := prun step_b p (x ++ repeat false t) in map (fun i => nth i y false) out.

Lemma inw_bop w o a b : inw w a -> inw w b -> inw w (bop_w w o a b).
Proof. destruct o; cbn; wb. Qed.

Lemma step_w_ok w s x : words_ok w x -> words_ok w (step_w w s x).
Proof. intros H. destruct s as [o d a b]. apply Forall_upd; [exact H|]. apply inw_bop; wb. Qed.

Lemma map_upd {A B} (f : A -> B) l i a : map f (upd l i a) = upd (map f l) i (f a).
Proof. revert i; induction l as [|h t IH]; intros [|i]; cbn; auto. now rewrite IH. Qed.

Lemma step_bit w s x i : i < w ->
  map (fun v => N.testbit v i) (step_w w s x) = step_b s (map (fun v => N.testbit v i) x).
Proof.
  intros Hi. destruct s as [o d a b]. cbn [step_w step_b]. rewrite map_upd. f_equal.
  assert (N0 : forall j, nth j (map (fun v => N.testbit v i) x) false = N.testbit (nth j x 0) i).
  { intros j. change false with (N.testbit 0 i) at 1. apply (map_nth (fun v => N.testbit v i)). }
  rewrite !N0. destruct o; cbn [bop_w bop_b].
  - apply N.lxor_spec.
  - apply N.land_spec.
  - apply N.lor_spec.
  - rewrite wnot_spec, (proj2 (N.ltb_lt _ _) Hi). apply xorb_true_r.
  - reflexivity.
Qed.

Lemma run_bit w p x i : i < w ->
  map (fun v => N.testbit v i) (prun (step_w w) p x) = prun step_b p (map (fun v => N.testbit v i) x).
Proof.
  intros Hi. revert x. induction p as [|s p IH]; intros x; [reflexivity|].
  cbn [prun fold_left]. unfold prun in IH. rewrite IH. now rewrite step_bit.
Qed.

Lemma map_repeat {A B} (f : A -> B) a n : map f (repeat a n) = repeat (f a) n.
Proof. induction n; cbn; congruence. Qed.

Lemma run_words w p x : words_ok w x -> words_ok w (prun (step_w w) p x).
Proof.
  revert x. induction p as [|s p IH]; intros x H; [exact H|]. cbn. apply IH. now apply step_w_ok.
Qed.

Lemma slices_ok w t p out x : words_ok w x -> words_ok w (slices w t p out x).
Proof.
  intros H. unfold slices.
  assert (W : words_ok w (prun (step_w w) p (x ++ repeat 0 t))).
  { apply run_words. apply Forall_app. split; [exact H|apply words_repeat0]. }
  apply Forall_forall. intros v Hv. apply in_map_iff in Hv. destruct Hv as (i & <- & _). wb.
Qed.

Lemma slices_bit w t p out x i : i < w ->
  map (fun v => N.testbit v i) (slices w t p out x) = slices_b t p out (map (fun v => N.testbit v i) x).
Proof.
  intros Hi. unfold slices, slices_b. rewrite map_map.
  replace (repeat false t) with (map (fun v => N.testbit v i) (repeat 0 t)) by (now rewrite map_repeat).
  rewrite <- map_app, <- (run_bit w) by exact Hi. apply map_ext. intros j.
  symmetry. change false with (N.testbit 0 i) at 1. apply (map_nth (fun v => N.testbit v i)).
Qed.

Lemma words_ext w a b : length a = length b -> words_ok w a -> words_ok w b ->
  (forall i, i < w -> map (fun v => N.testbit v i) a = map (fun v => N.testbit v i) b) -> a = b.
Proof.
  revert b. induction a as [|x a IH]; intros [|y b] Hl Ha Hb H; cbn in Hl; try discriminate; [reflexivity|].
  inversion Ha; inversion Hb; subst. f_equal.
  - apply (word_ext w); auto. intros i Hi. specialize (H i Hi). cbn in H. congruence.
  - apply IH; auto. intros i Hi. specialize (H i Hi). cbn in H. congruence.
Qed.

Fixpoint all_bools (n : nat) : list (list bool) :=
  match n with
  | O => [[]]
  | S n' => map (cons true) (all_bools n') ++ map (cons false) (all_bools n')
  end.
Lemma all_bools_in n l : length l = n -> In l (all_bools n).
Proof.
  revert l. induction n as [|n IH]; intros [|b l] H; cbn in H; try discriminate; [now left|].
  cbn. apply in_or_app. destruct b; [left|right]; apply in_map, IH; lia.
Qed.

Fixpoint bools_eqb (a b : list bool) : bool :=
  match a, b with
  | [], [] => true
  | x :: a, y :: b => Bool.eqb x y && bools_eqb a b
  | _, _ => false
  end.
Lemma bools_eqb_eq a b : bools_eqb a b = true -> a = b.
Proof.
  revert b; induction a as [|x a IH]; intros [|y b]; cbn; try discriminate; auto.
  rewrite andb_true_iff. intros [H1 H2]. apply eqb_prop in H1. f_equal; auto.
Qed.

(** Whether the program [q] undoes [p], decided on single bits. *)
Definition undo_check (n : nat) (t : nat) p out (t' : nat) q out' : bool :=
  forallb (fun v => bools_eqb (slices_b t' q out' (slices_b t p out v)) v) (all_bools n).

Lemma slices_undo w n t p out t' q out' : length out = n -> length out' = n ->
  undo_check n t p out t' q out' = true ->
  pinv (regs w n) (slices w t p out) (slices w t' q out').
Proof.
  intros L L' C x [Hl Hw]. unfold undo_check in C. rewrite forallb_forall in C. split.
  - split; [unfold slices; now rewrite map_length|now apply slices_ok].
  - apply (words_ext w).
    + unfold slices at 1. rewrite map_length. lia.
    + now apply slices_ok, slices_ok.
    + exact Hw.
    + intros i Hi. rewrite !slices_bit by exact Hi. apply bools_eqb_eq. apply C.
      apply all_bools_in. now rewrite map_length.
Qed.

Lemma slices_pbij w n t p out t' q out' : length out = n -> length out' = n ->
  undo_check n t p out t' q out' = true -> undo_check n t' q out' t p out = true ->
  pbij (regs w n) (slices w t p out) (slices w t' q out').
Proof. intros L L' C C'. split; now apply slices_undo. Qed.

(** ** Linear maps on words *)

Definition xlin (w : N) (f : N -> N) : Prop :=
  forall a b, inw w a -> inw w b -> f (N.lxor a b) = N.lxor (f a) (f b).

Lemma xlin_0 w f : xlin w f -> f 0 = 0.
Proof.
  intros H. specialize (H 0 0 (inw_0 w) (inw_0 w)). rewrite N.lxor_0_l in H.
  rewrite H. apply N.lxor_nilpotent.
Qed.

Lemma xlin_ext_nat n w f g : N.of_nat n <= w -> xlin w f -> xlin w g ->
  (forall i, (i < n)%nat -> f (2 ^ N.of_nat i) = g (2 ^ N.of_nat i)) ->
  forall x, inw (N.of_nat n) x -> f x = g x.
Proof.
  intros Hn Hf Hg. induction n as [|n IH]; intros H x Hx.
  - unfold inw in Hx. change (2 ^ N.of_nat 0) with 1 in Hx. replace x with 0 by lia.
    now rewrite (xlin_0 w f Hf), (xlin_0 w g Hg).
  - set (y := mask (N.of_nat n) x).
    assert (Hy : inw (N.of_nat n) y) by (subst y; wb).
    assert (Hy' : inw w y) by (apply (inw_mono (N.of_nat n)); [lia|exact Hy]).
    destruct (N.testbit x (N.of_nat n)) eqn:B.
    + assert (P : inw w (2 ^ N.of_nat n)).
      { unfold inw. apply N.pow_lt_mono_r; lia. }
      assert (E : x = N.lxor y (2 ^ N.of_nat n)).
      { apply N.bits_inj. intros i. rewrite N.lxor_spec. subst y. rewrite mask_spec, N.pow2_bits_eqb.
        destruct (N.ltb_spec i (N.of_nat n)), (N.eqb_spec (N.of_nat n) i); subst; try lia; cbn [andb xorb].
        - now rewrite xorb_false_r.
        - exact B.
        - apply (inw_high (N.of_nat (S n))); [exact Hx|lia]. }
      rewrite E, (Hf _ _ Hy' P), (Hg _ _ Hy' P). f_equal; [apply IH; auto; lia|apply H; lia].
    + assert (E : x = y).
      { apply N.bits_inj. intros i. subst y. rewrite mask_spec.
        destruct (N.ltb_spec i (N.of_nat n)); [reflexivity|]. cbn [andb].
        destruct (N.eq_dec i (N.of_nat n)) as [->|]; [exact B|].
        apply (inw_high (N.of_nat (S n))); [exact Hx|lia]. }
      rewrite E. apply IH; auto; lia.
Qed.

Lemma xlin_ext w f g : xlin w f -> xlin w g ->
  forallb (fun i => f (2 ^ N.of_nat i) =? g (2 ^ N.of_nat i)) (seq 0 (N.to_nat w)) = true ->
  forall x, inw w x -> f x = g x.
Proof.
  intros Hf Hg H x Hx. rewrite forallb_forall in H.
  apply (xlin_ext_nat (N.to_nat w) w); auto; [lia| |now rewrite N2Nat.id].
  intros i Hi. apply N.eqb_eq, H, in_seq. lia.
Qed.

Lemma xlin_id w : xlin w (fun x => x).
Proof. now intros a b _ _. Qed.
Lemma xlin_lxor w f g : xlin w f -> xlin w g -> xlin w (fun x => N.lxor (f x) (g x)).
Proof. intros Hf Hg a b Ha Hb. rewrite Hf, Hg by assumption. xors. Qed.
Lemma xlin_comp w v f g : xlin w f -> xlin v g -> (forall x, inw w x -> inw v (f x)) ->
  xlin w (fun x => g (f x)).
Proof. intros Hf Hg Hv a b Ha Hb. rewrite Hf, Hg by auto. reflexivity. Qed.

Lemma rol_lxor w a b n : n <= w -> inw w a -> inw w b ->
  rol w (N.lxor a b) n = N.lxor (rol w a n) (rol w b n).
Proof.
  intros Hn Ha Hb. apply (word_ext w); [wb|wb|]. intros i Hi.
  rewrite N.lxor_spec, !rol_spec by (wb || lia). apply N.lxor_spec.
Qed.
Lemma ror_lxor w a b n : n <= w -> inw w a -> inw w b ->
  ror w (N.lxor a b) n = N.lxor (ror w a n) (ror w b n).
Proof.
  intros Hn Ha Hb. apply (word_ext w); [wb|wb|]. intros i Hi.
  rewrite N.lxor_spec, !ror_spec by (wb || lia). apply N.lxor_spec.
Qed.
Lemma wshl_lxor w a b n : wshl w (N.lxor a b) n = N.lxor (wshl w a n) (wshl w b n).
Proof.
  apply N.bits_inj. intros i. rewrite N.lxor_spec, !wshl_spec, N.lxor_spec. btauto.
Qed.
Lemma wshr_lxor a b n : wshr (N.lxor a b) n = N.lxor (wshr a n) (wshr b n).
Proof. apply N.shiftr_lxor. Qed.
Lemma land_lxor a b c : N.land (N.lxor a b) c = N.lxor (N.land a c) (N.land b c).
Proof. apply N.bits_inj. intros i. rewrite ?N.lxor_spec, ?N.land_spec, ?N.lxor_spec. btauto. Qed.
Lemma lor_disjoint a b : N.land a b = 0 -> N.lor a b = N.lxor a b.
Proof.
  intros H. apply N.bits_inj. intros i. rewrite N.lor_spec, N.lxor_spec.
  assert (E : N.testbit (N.land a b) i = false) by (rewrite H; apply N.bits_0).
  rewrite N.land_spec in E. destruct (N.testbit a i), (N.testbit b i); try reflexivity. discriminate.
Qed.

(** ** Linear maps on vectors of words *)

Fixpoint vxor (a b : list N) : list N :=
  match a, b with
  | x :: a, y :: b => N.lxor x y :: vxor a b
  | _, _ => []
  end.

Lemma length_vxor a b : length (vxor a b) = Nat.min (length a) (length b).
Proof. revert b; induction a as [|x a IH]; intros [|y b]; cbn; auto. Qed.
Lemma regs_vxor w n a b : regs w n a -> regs w n b -> regs w n (vxor a b).
Proof.
  intros [La Wa] [Lb Wb]. split; [rewrite length_vxor; lia|].
  clear La Lb. revert b Wb. induction Wa as [|x a Hx Wa IH]; intros b Wb; cbn; [constructor|].
  destruct Wb as [|y b Hy Wb]; constructor; [wb|now apply IH].
Qed.
Lemma vxor_comm a b : vxor a b = vxor b a.
Proof. revert b; induction a as [|x a IH]; intros [|y b]; cbn; auto. now rewrite N.lxor_comm, IH. Qed.
Lemma vxor_assoc a b c : vxor (vxor a b) c = vxor a (vxor b c).
Proof.
  revert b c; induction a as [|x a IH]; intros [|y b] [|z c]; cbn; auto. now rewrite N.lxor_assoc, IH.
Qed.
Lemma vxor_cancel a b : length a = length b -> vxor (vxor a b) b = a.
Proof.
  revert b; induction a as [|x a IH]; intros [|y b] H; cbn in *; try discriminate; auto.
  now rewrite lxor_cancel, IH by lia.
Qed.
Lemma vxor_0_r a n : length a = n -> vxor a (repeat 0 n) = a.
Proof. intros <-. induction a as [|x a IH]; cbn; auto. now rewrite N.lxor_0_r, IH. Qed.
Lemma vxor_nil a n : length a = n -> vxor a a = repeat 0 n.
Proof. intros <-. induction a as [|x a IH]; cbn; auto. now rewrite N.lxor_nilpotent, IH. Qed.

Definition vlin (w : N) (n : nat) (f : list N -> list N) : Prop :=
  (forall x, regs w n x -> length (f x) = n) /\
  (forall a b, regs w n a -> regs w n b -> f (vxor a b) = vxor (f a) (f b)).

(** The vector with bit [i] of word [j] set. *)
Definition unitv (n j i : nat) : list N := upd (repeat 0 n) j (2 ^ N.of_nat i).

Lemma regs_zero w n : regs w n (repeat 0 n).
Proof. split; [apply repeat_length|apply words_repeat0]. Qed.

Lemma vlin_0 w n f : vlin w n f -> f (repeat 0 n) = repeat 0 n.
Proof.
  intros [L A]. pose proof (A _ _ (regs_zero w n) (regs_zero w n)) as H.
  rewrite vxor_0_r in H by apply repeat_length. rewrite H at 1.
  apply vxor_nil. apply L, regs_zero.
Qed.

Lemma nth_repeat0 i n : nth i (repeat 0 n) 0 = 0.
Proof. revert i; induction n; intros [|i]; cbn; auto. Qed.

Lemma upd_zero n j : upd (repeat 0 n) j 0 = repeat 0 n.
Proof. rewrite <- (nth_repeat0 j n) at 2. apply upd_same. Qed.

Lemma vxor_upd n j a b : vxor (upd (repeat 0 n) j a) (upd (repeat 0 n) j b) = upd (repeat 0 n) j (N.lxor a b).
Proof.
  revert j; induction n as [|n IH]; intros [|j]; cbn; auto.
  - f_equal. rewrite vxor_0_r; auto. apply repeat_length.
  - now rewrite IH.
Qed.

Lemma nth_eq_dec_ext (a b : list N) : length a = length b -> (forall i, nth i a 0 = nth i b 0) -> a = b.
Proof. intros L H. apply nth_ext with 0 0; auto. Qed.

Lemma nth_vxor a b i : length a = length b -> nth i (vxor a b) 0 = N.lxor (nth i a 0) (nth i b 0).
Proof.
  revert b i; induction a as [|x a IH]; intros [|y b] [|i] H; cbn in *; try discriminate; auto.
Qed.

Lemma vlin_ext w n f g : vlin w n f -> vlin w n g ->
  (forall j i, (j < n)%nat -> (i < N.to_nat w)%nat -> f (unitv n j i) = g (unitv n j i)) ->
  forall x, regs w n x -> f x = g x.
Proof.
  intros Hf Hg H.
  (* one word *)
  assert (One : forall j v, (j < n)%nat -> inw w v -> f (upd (repeat 0 n) j v) = g (upd (repeat 0 n) j v)).
  { intros j v Hj Hv.
    assert (R : forall v, inw w v -> regs w n (upd (repeat 0 n) j v)).
    { intros u Hu. apply regs_upd; [apply regs_zero|exact Hu]. }
    assert (Lf : forall v, inw w v -> length (f (upd (repeat 0 n) j v)) = n) by (intros; apply Hf, R; auto).
    assert (Lg : forall v, inw w v -> length (g (upd (repeat 0 n) j v)) = n) by (intros; apply Hg, R; auto).
    apply nth_eq_dec_ext; [rewrite Lf, Lg; auto|]. intros k.
    apply (xlin_ext_nat (N.to_nat w) w (fun v => nth k (f (upd (repeat 0 n) j v)) 0)
      (fun v => nth k (g (upd (repeat 0 n) j v)) 0)); [lia| | |intros i Hi; f_equal; now apply H|now rewrite N2Nat.id].
    - intros a b Ha Hb. rewrite <- vxor_upd. rewrite (proj2 Hf) by auto.
      apply nth_vxor. rewrite !Lf; auto.
    - intros a b Ha Hb. rewrite <- vxor_upd. rewrite (proj2 Hg) by auto.
      apply nth_vxor. rewrite !Lg; auto. }
  (* vectors that vanish from position m on *)
  assert (Many : forall m x, (m <= n)%nat -> regs w n x -> (forall i, (m <= i)%nat -> nth i x 0 = 0) -> f x = g x).
  { induction m as [|m IH]; intros x Hm Hx Z.
    - assert (E : x = repeat 0 n).
      { apply nth_eq_dec_ext; [destruct Hx; rewrite repeat_length; auto|]. intros i. rewrite nth_repeat0. apply Z. lia. }
      rewrite E, (vlin_0 w n f Hf), (vlin_0 w n g Hg). reflexivity.
    - set (y := upd x m 0).
      assert (Hy : regs w n y) by (apply regs_upd; [exact Hx|wb]).
      assert (Hu : regs w n (upd (repeat 0 n) m (nth m x 0))) by (apply regs_upd; [apply regs_zero|eapply regs_nth; eauto]).
      assert (E : x = vxor y (upd (repeat 0 n) m (nth m x 0))).
      { destruct Hx as [Lx Wx], Hy as [Ly Wy], Hu as [Lu Wu]. apply nth_eq_dec_ext; [rewrite length_vxor; lia|].
        intros i. rewrite nth_vxor by lia. destruct (Nat.eq_dec i m) as [->|D].
        - subst y. rewrite !nth_upd_eq by (rewrite ?repeat_length; lia). now rewrite N.lxor_0_l.
        - subst y. rewrite !nth_upd_neq by congruence. now rewrite nth_repeat0, N.lxor_0_r. }
      rewrite E. rewrite (proj2 Hf), (proj2 Hg) by auto. f_equal.
      + apply IH; [lia|exact Hy|]. intros i Hi. subst y. destruct (Nat.eq_dec i m) as [->|D].
        * rewrite nth_upd_eq; [reflexivity|destruct Hx; lia].
        * rewrite nth_upd_neq by congruence. apply Z. lia.
      + apply One; [lia|eapply regs_nth; eauto]. }
  intros x Hx. apply (Many n); [lia|exact Hx|]. intros i Hi. apply nth_overflow. destruct Hx. lia.
Qed.

Lemma vlin_id w n : vlin w n (fun x => x).
Proof. split; [now intros x [H _]|auto]. Qed.
Lemma vlin_comp w n f g : vlin w n f -> vlin w n g -> (forall x, regs w n x -> regs w n (f x)) ->
  vlin w n (fun x => g (f x)).
Proof.
  intros [Lf Af] [Lg Ag] R. split; [intros x Hx; apply Lg, R, Hx|].
  intros a b Ha Hb. rewrite Af by auto. now rewrite Ag by auto.
Qed.

Definition vlin_check (w : N) (n : nat) (f g : list N -> list N) : bool :=
  forallb (fun j => forallb (fun i =>
    if list_eq_dec N.eq_dec (f (unitv n j i)) (g (unitv n j i)) then true else false) (seq 0 (N.to_nat w))) (seq 0 n).
Lemma vlin_ext_check w n f g : vlin w n f -> vlin w n g -> vlin_check w n f g = true ->
  forall x, regs w n x -> f x = g x.
Proof.
  intros Hf Hg C. apply (vlin_ext w n f g Hf Hg). intros j i Hj Hi.
  unfold vlin_check in C. rewrite forallb_forall in C.
  assert (C1 := C j ltac:(apply in_seq; lia)). rewrite forallb_forall in C1.
  specialize (C1 i ltac:(apply in_seq; lia)). now destruct (list_eq_dec _ _ _).
Qed.

(** A linear map that moves bit [sg i] to bit [i], checked on single bits. *)
Lemma xlin_bitperm w f (sg : N -> N) : xlin w f ->
  forallb (fun i => forallb (fun j => Bool.eqb (N.testbit (f (2 ^ N.of_nat j)) (N.of_nat i)) (sg (N.of_nat i) =? N.of_nat j))
    (seq 0 (N.to_nat w))) (seq 0 (N.to_nat w)) = true ->
  forall x i, inw w x -> i < w -> N.testbit (f x) i = N.testbit x (sg i).
Proof.
  intros Hf C x i Hx Hi. rewrite forallb_forall in C.
  specialize (C (N.to_nat i) ltac:(apply in_seq; lia)). rewrite N2Nat.id, forallb_forall in C.
  assert (E : N.b2n (N.testbit (f x) i) = N.b2n (N.testbit x (sg i))).
  { apply (xlin_ext_nat (N.to_nat w) w (fun x => N.b2n (N.testbit (f x) i)) (fun x => N.b2n (N.testbit x (sg i)))).
    - lia.
    - intros a b Ha Hb. rewrite (Hf a b Ha Hb), N.lxor_spec. now destruct (N.testbit (f a) i), (N.testbit (f b) i).
    - intros a b Ha Hb. rewrite N.lxor_spec. now destruct (N.testbit a (sg i)), (N.testbit b (sg i)).
    - intros j Hj. f_equal. rewrite (eqb_prop _ _ (C j ltac:(apply in_seq; lia))).
      rewrite N.pow2_bits_eqb. apply N.eqb_sym.
    - now rewrite N2Nat.id. }
  now apply N.b2n_inj.
Qed.

Lemma xlin_shl w v n : xlin w (fun x => wshl v x n).
Proof. intros a b _ _. apply wshl_lxor. Qed.
Lemma xlin_shr w n : xlin w (fun x => wshr x n).
Proof. intros a b _ _. apply wshr_lxor. Qed.
Lemma xlin_rol w n : n <= w -> xlin w (fun x => rol w x n).
Proof. intros H a b Ha Hb. now apply rol_lxor. Qed.
Lemma xlin_ror w n : n <= w -> xlin w (fun x => ror w x n).
Proof. intros H a b Ha Hb. now apply ror_lxor. Qed.
Lemma xlin_land w c : xlin w (fun x => N.land x c).
Proof. intros a b _ _. apply land_lxor. Qed.
Lemma xlin_same w f g : (forall x, inw w x -> g x = f x) -> xlin w f -> xlin w g.
Proof. intros E H a b Ha Hb. rewrite !E by wb. now apply H. Qed.
