(** Multiplication by a constant in GF(2^8) is linear over GF(2). *)
From Coq Require Import NArith Arith List Bool Lia.
From Verif Require Import Lib.Word Lib.Res Lib.Bytes Lib.Bij Lib.Bits Spec.Gf.
Import ListNotations.
Local Open Scope N_scope.

Lemma bound8 x : x < 256 <-> (forall i, 8 <= i -> N.testbit x i = false).
Proof.
  split.
  - intros H i Hi. apply (inw_high 8); [exact H|exact Hi].
  - intros H. apply (inw_bits 8). exact H.
Qed.
Lemma lxor8 x y : x < 256 -> y < 256 -> N.lxor x y < 256.
Proof. rewrite !bound8. intros Hx Hy i Hi. rewrite N.lxor_spec, Hx, Hy by exact Hi. reflexivity. Qed.
Lemma xtime_alt p x : x < 256 -> xtime p x = N.lxor (2 * x) (if N.testbit x 7 then p else 0).
Proof.
  intros H. unfold xtime. cbv zeta. destruct (N.leb_spec 256 (2 * x)) as [G|G].
  - replace (N.testbit x 7) with true; [reflexivity|]. symmetry. apply N.testbit_true. change (2 ^ 7) with 128.
    assert (E : x / 128 = 1) by (symmetry; apply (N.div_unique x 128 1 (x - 128)); lia). now rewrite E.
  - replace (N.testbit x 7) with false; [now rewrite N.lxor_0_r|]. symmetry. apply N.testbit_false. change (2 ^ 7) with 128.
    rewrite N.div_small by lia. reflexivity.
Qed.
Lemma double_lxor x y : 2 * N.lxor x y = N.lxor (2 * x) (2 * y).
Proof.
  assert (E : forall v, 2 * v = N.shiftl v 1) by (intros v; rewrite N.shiftl_mul_pow2; change (2 ^ 1) with 2; apply N.mul_comm).
  rewrite !E. apply N.shiftl_lxor.
Qed.
Lemma xtime_lxor p x y : x < 256 -> y < 256 -> xtime p (N.lxor x y) = N.lxor (xtime p x) (xtime p y).
Proof.
  intros Hx Hy. rewrite !xtime_alt by (try apply lxor8; assumption). rewrite double_lxor, N.lxor_spec.
  apply N.bits_inj. intros i. destruct (N.testbit x 7), (N.testbit y 7); cbn [xorb]; rewrite !N.lxor_spec;
    destruct (N.testbit (2 * x) i), (N.testbit (2 * y) i), (N.testbit p i), (N.testbit 0 i) eqn:E; try reflexivity; rewrite N.bits_0 in E; discriminate.
Qed.
(** a polynomial of degree 8 *)
Definition poly8 (p : N) : Prop := 256 <= p < 512.
Lemma xtime_bound p x : poly8 p -> x < 256 -> xtime p x < 256.
Proof.
  intros [P1 P2] H. unfold xtime. cbv zeta. destruct (N.leb_spec 256 (2 * x)) as [G|G]; [|exact G].
  rewrite bound8. intros i Hi. rewrite N.lxor_spec.
  destruct (N.eq_dec i 8) as [->|D].
  - assert (B : forall v, 256 <= v < 512 -> N.testbit v 8 = true).
    { intros v Hv. apply N.testbit_true. change (2 ^ 8) with 256.
      assert (E : v / 256 = 1) by (symmetry; apply (N.div_unique v 256 1 (v - 256)); lia). now rewrite E. }
    rewrite !B by lia. reflexivity.
  - rewrite !(inw_high 9) by (try (unfold inw; change (2 ^ 9) with 512; lia); lia). reflexivity.
Qed.
Lemma gf_mul_pos_bound p c x : poly8 p -> x < 256 -> gf_mul_pos p c x < 256.
Proof.
  intros P H. induction c as [c IH|c IH|]; cbn [gf_mul_pos]; [apply lxor8; [exact H|now apply xtime_bound]|now apply xtime_bound|exact H].
Qed.
Lemma gf_mul_bound p c x : poly8 p -> x < 256 -> gf_mul p c x < 256.
Proof. intros P H. destruct c as [|c]; [reflexivity|]. now apply gf_mul_pos_bound. Qed.
Lemma gf_mul_pos_lxor p c x y : poly8 p -> x < 256 -> y < 256 -> gf_mul_pos p c (N.lxor x y) = N.lxor (gf_mul_pos p c x) (gf_mul_pos p c y).
Proof.
  intros P Hx Hy. induction c as [c IH|c IH|]; cbn [gf_mul_pos].
  - rewrite IH, xtime_lxor by now apply gf_mul_pos_bound. rewrite !N.lxor_assoc. f_equal. rewrite <- !N.lxor_assoc. f_equal. apply N.lxor_comm.
  - now rewrite IH, xtime_lxor by now apply gf_mul_pos_bound.
  - reflexivity.
Qed.
Lemma gf_mul_lxor p c x y : poly8 p -> x < 256 -> y < 256 -> gf_mul p c (N.lxor x y) = N.lxor (gf_mul p c x) (gf_mul p c y).
Proof. intros P Hx Hy. destruct c as [|c]; [reflexivity|]. now apply gf_mul_pos_lxor. Qed.

(** ** Matrices over GF(2^8) *)
Definition gmat (p : N) (m : list (list N)) (c : list N) : list N :=
  map (fun row => fold_left N.lxor (map (fun q => gf_mul p (fst q) (snd q)) (combine row c)) 0) m.
Lemma fold_lxor_acc l a : fold_left N.lxor l a = N.lxor a (fold_left N.lxor l 0).
Proof.
  revert a. induction l as [|x l IH]; intros a; cbn [fold_left]; [now rewrite N.lxor_0_r|].
  rewrite IH, (IH (N.lxor 0 x)), N.lxor_0_l. apply N.lxor_assoc.
Qed.
Definition gdot (p : N) (row c : list N) : N := fold_left N.lxor (map (fun q => gf_mul p (fst q) (snd q)) (combine row c)) 0.
Lemma gdot_cons p a row x c : gdot p (a :: row) (x :: c) = N.lxor (gf_mul p a x) (gdot p row c).
Proof. unfold gdot. cbn [combine map fold_left fst snd]. rewrite fold_lxor_acc, N.lxor_0_l. reflexivity. Qed.
Lemma gdot_bound p row c : poly8 p -> Forall (inw 8) c -> gdot p row c < 256.
Proof.
  intros P H. revert row. induction H as [|x c Hx Hc IH]; intros [|a row]; try reflexivity.
  rewrite gdot_cons. apply lxor8; [now apply gf_mul_bound|apply IH].
Qed.
Lemma gdot_vxor p row a b : poly8 p -> length a = length b -> Forall (inw 8) a -> Forall (inw 8) b ->
  gdot p row (vxor a b) = N.lxor (gdot p row a) (gdot p row b).
Proof.
  intros P. revert a b. induction row as [|c row IH]; intros [|x a] [|y b] L Ha Hb; try discriminate L; try reflexivity.
  inversion_clear Ha. inversion_clear Hb. cbn [vxor]. rewrite !gdot_cons. rewrite gf_mul_lxor by assumption.
  rewrite IH by (try assumption; now injection L). rewrite !N.lxor_assoc. f_equal. rewrite <- !N.lxor_assoc. f_equal. apply N.lxor_comm.
Qed.
Lemma gmat_regs p m c n : poly8 p -> regs 8 n c -> length m = n -> regs 8 n (gmat p m c).
Proof.
  intros P [L H] Lm. split; [unfold gmat; now rewrite map_length|]. apply Forall_forall. intros y Hy. apply in_map_iff in Hy.
  destruct Hy as (row & <- & _). now apply gdot_bound.
Qed.
Lemma gmat_vlin p m n : poly8 p -> length m = n -> vlin 8 n (gmat p m).
Proof.
  intros P Lm. split; [intros x _; unfold gmat; now rewrite map_length|].
  intros a b [La Ha] [Lb Hb]. unfold gmat. clear Lm. induction m as [|row m IH]; [reflexivity|]. cbn [map vxor]. f_equal; [|exact IH].
  apply gdot_vxor; [exact P|congruence|exact Ha|exact Hb].
Qed.
(** matrices that are inverse on the unit vectors are inverse *)
Lemma gmat_inverse p m m' n : poly8 p -> length m = n -> length m' = n -> vlin_check 8 n (fun x => gmat p m' (gmat p m x)) (fun x => x) = true ->
  forall x, regs 8 n x -> gmat p m' (gmat p m x) = x.
Proof.
  intros P L L' C. apply (vlin_ext_check 8 n _ _); [|apply vlin_id|exact C].
  apply (vlin_comp 8 n (gmat p m) (gmat p m')); [now apply gmat_vlin|now apply gmat_vlin|]. intros x Hx. now apply gmat_regs.
Qed.
