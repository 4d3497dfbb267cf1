From Coq Require Import NArith Arith List Bool Lia.
From Verif Require Import Lib.Word Lib.Res Lib.Bytes Lib.Bij Lib.BlockLemmas Spec.Block
  Model.LoadStore Model.BlockApi Model.Lea.
Import ListNotations.
Local Open Scope N_scope.

Lemma mrun_pure {I A} (f : I -> A -> res A) (g : I -> A -> A) l x :
  (forall i y, In i l -> f i y = Ok (g i y)) -> mrun f l x = Ok (prun g l x).
Proof.
  unfold mrun, prun. revert x. induction l as [|i l IH]; intros x H; [reflexivity|].
  cbn [fold_left bind]. rewrite H by now left. apply IH. intros j y Hj. apply H. now right.
Qed.

Definition lea_pop (ks : list N) (i : nat) (o : leaop) (x : list N) : list N :=
  let '(d, s, q, p) := o in
  upd x d (lea_rot q (wadd 32 (N.lxor (nth s x 0) (nth (i + p) ks 0)) (N.lxor (nth d x 0) (nth (i + p + 1) ks 0)))).
Definition lea_punop (ks : list N) (i : nat) (o : leaop) (x : list N) : list N :=
  let '(d, s, q, p) := o in
  upd x d (N.lxor (wsub 32 (lea_unrot q (nth d x 0)) (N.lxor (nth s x 0) (nth (i + p) ks 0))) (nth (i + p + 1) ks 0)).

Definition lea_op_ok (o : leaop) : bool :=
  let '(d, s, q, p) := o in Nat.ltb d 4 && negb (Nat.eqb d s) && (snd q <=? 32) && Nat.ltb (p + 1) 24.

Lemma lea_op_bij ks i o : words_ok 32 ks -> lea_op_ok o = true ->
  pbij (regs 32 4) (lea_pop ks i o) (lea_punop ks i o).
Proof.
  destruct o as [[[d s] q] p]. unfold lea_op_ok. rewrite !andb_true_iff. intros Hk [[[Hd Hs] Hq] _].
  apply Nat.ltb_lt in Hd. apply N.leb_le in Hq. apply negb_true_iff, Nat.eqb_neq in Hs.
  assert (K : forall j, inw 32 (nth j ks 0)) by (intros; wb).
  unfold lea_pop, lea_punop.
  apply (pbij_reg 32 4 d
    (fun x u => lea_rot q (wadd 32 (N.lxor (nth s x 0) (nth (i + p) ks 0)) (N.lxor u (nth (i + p + 1) ks 0))))
    (fun x u => N.lxor (wsub 32 (lea_unrot q u) (N.lxor (nth s x 0) (nth (i + p) ks 0))) (nth (i + p + 1) ks 0)));
    auto; intros; try (rewrite nth_upd_neq by congruence; reflexivity);
    (assert (inw 32 (nth s x 0)) by now apply regs_nth with 4%nat);
    destruct q as [[|] c]; unfold lea_rot, lea_unrot; cbn [fst snd] in *; (split; [wb|]).
  - now rewrite ror_rol, wadd_wsub_l, lxor_cancel by (wb || lia).
  - now rewrite rol_ror, wadd_wsub_l, lxor_cancel by (wb || lia).
  - now rewrite lxor_cancel, wadd_comm, wsub_wadd, rol_ror by (wb || lia).
  - now rewrite lxor_cancel, wadd_comm, wsub_wadd, ror_rol by (wb || lia).
Qed.

Lemma lea_grp_bij ks i : words_ok 32 ks -> (i + 24 <= length ks)%nat ->
  bij_on (regs 32 4) (regs 32 4) (mrun (lea_op ks i) lea_enc_ops) (mrun (lea_unop ks i) lea_dec_ops).
Proof.
  intros Hk Hi.
  assert (B : forall o, lea_op_ok o = true -> let '(d, s, q, p) := o in (p + 1 < 24)%nat).
  { intros [[[d s] q] p]. unfold lea_op_ok. rewrite !andb_true_iff. intros [_ H]. now apply Nat.ltb_lt in H. }
  assert (A : forallb lea_op_ok lea_enc_ops = true) by reflexivity. rewrite forallb_forall in A.
  assert (D : forallb lea_op_ok lea_dec_ops = true) by reflexivity. rewrite forallb_forall in D.
  eapply bij_ext.
  3:{ apply pbij_bij. apply (pbij_run (regs 32 4) (lea_pop ks i) (lea_punop ks i) lea_enc_ops).
      intros o Ho. apply lea_op_bij; [exact Hk|now apply A]. }
  - intros x _. symmetry. apply mrun_pure. intros o y Ho. specialize (B o (A o Ho)).
    destruct o as [[[d s] q] p]. unfold lea_op, lea_pop. now gets.
  - intros x _. symmetry. change (rev lea_enc_ops) with lea_dec_ops. apply mrun_pure. intros o y Ho. specialize (B o (D o Ho)).
    destruct o as [[[d s] q] p]. unfold lea_unop, lea_punop. now gets.
Qed.

Lemma lea_bij s m : N.to_nat (lea_r s) = (4 * m)%nat -> words_ok 32 (lea_k s) ->
  length (lea_k s) = (24 * m)%nat ->
  bij_on (blk 16) (blk 16) (lea_encrypt s) (lea_decrypt s).
Proof.
  intros Hr Hw Hl. unfold lea_encrypt, lea_decrypt. rewrite Hr.
  replace ((4 * m + 3) / 4)%nat with m by (apply Nat.div_unique with 3%nat; lia).
  replace ((4 * m) / 4)%nat with m by (apply Nat.div_unique with 0%nat; lia).
  replace (Nat.modulo (4 * m) 4)%nat with 0%nat by (apply Nat.mod_unique with m; lia).
  cbn [Nat.eqb Nat.mul Nat.add].
  apply (lift_bij (blk 16) (regs 32 4) _ _
    (mfor m 0 (fun j => mrun (lea_op (lea_k s) (24 * j)) lea_enc_ops))
    (mford m (fun j => mrun (lea_unop (lea_k s) (24 * j)) lea_dec_ops))).
  - apply (loads_bij codec32l 4).
  - apply bij_loop. intros j Hj. apply lea_grp_bij; [exact Hw|lia].
Qed.

Lemma lea_sched_step_ok n m ix out i t k r : length k = (length out * i)%nat -> words_ok 32 k ->
  words_ok 32 t -> r = lea_sched_step n m ix out i (t, k) ->
  length (snd r) = (length out * S i)%nat /\ words_ok 32 (snd r) /\ words_ok 32 (fst r).
Proof.
  intros Hl Hk Ht ->. unfold lea_sched_step. cbn [fst snd].
  set (t' := prun _ _ t).
  assert (Ht' : words_ok 32 t').
  { subst t'. unfold prun. generalize (seq 0 n) as l. intros l. revert t Ht.
    induction l as [|c l IH]; intros t Ht; [exact Ht|]. cbn [fold_left]. apply IH.
    apply Forall_upd; [exact Ht|wb]. }
  split; [|split; [|exact Ht']].
  - rewrite app_length, map_length. lia.
  - apply Forall_app. split; [exact Hk|]. apply Forall_forall. intros x Hx.
    apply in_map_iff in Hx. destruct Hx as (c & <- & _). wb.
Qed.

Lemma lea_sched_gen n m ix out r t : words_ok 32 t ->
  let k := snd (pfor r 0 (lea_sched_step n m ix out) (t, [])) in
  length k = (length out * r)%nat /\ words_ok 32 k.
Proof.
  intros Ht. cbv zeta.
  pose proof (pfor_inv (fun i st => length (snd st) = (length out * i)%nat /\ words_ok 32 (snd st) /\ words_ok 32 (fst st))
    r 0 (lea_sched_step n m ix out) (t, [])) as I.
  destruct I as (I1 & I2 & _).
  - intros j [t' k'] _ (H1 & H2 & H3). eapply lea_sched_step_ok; eauto.
  - cbn [fst snd length]. repeat split; [lia|constructor|exact Ht].
  - split; [exact I1|exact I2].
Qed.

Lemma lea_sched_ok r key : bytes_ok key ->
  length (lea_sched r key) = (6 * r)%nat /\ words_ok 32 (lea_sched r key).
Proof.
  intros Hb. unfold lea_sched.
  destruct (Nat.ltb 24 (length key)); [|destruct (Nat.ltb 16 (length key))];
    apply lea_sched_gen; now apply key32l_ok.
Qed.

Lemma lea_perm r key : key_ok 32 key -> r mod 4 = 0 -> r * 24 < 2 ^ 32 ->
  exists s, lea_create r key = Ok s /\ permutation 16 (lea_encrypt s) (lea_decrypt s).
Proof.
  intros Hk Hm Hr. exists (lea_setup (lea_rounds r key) key).
  assert (Hr' : exists m, lea_rounds r key = 4 * m /\ lea_rounds r key * 24 < 2 ^ 32).
  { unfold lea_rounds. destruct (N.eqb_spec r 0) as [E|E].
    - destruct (Nat.ltb 24 (length key)); [exists 8; split; reflexivity|].
      destruct (Nat.ltb 16 (length key)); [exists 7|exists 6]; split; reflexivity.
    - exists (r / 4). split; [|exact Hr]. pose proof (N.div_mod r 4 ltac:(discriminate)). lia. }
  destruct Hr' as (m & Em & Hr'). split.
  - unfold lea_create. rewrite assert_true by now apply key_len_ok_true.
    apply fits_ok. rewrite mask_id by exact Hr'.
    replace (lea_rounds r key * 24) with (6 * lea_rounds r key * 4) by lia.
    rewrite N.div_mul by discriminate. apply N.le_refl.
  - apply perm_of_bij. destruct (lea_sched_ok (N.to_nat (lea_rounds r key)) key (proj1 Hk)) as [L W].
    apply (lea_bij _ (N.to_nat m)); cbn [lea_r lea_k lea_setup]; [lia|exact W|rewrite L; lia].
Qed.

(** A round count that is not a multiple of 4 makes every decryption read in front
    of the key array. *)
Lemma mford_ok_or {A} n f (x : A) : (exists y, mford n f x = Ok y) \/ (exists e, mford n f x = Err e).
Proof. destruct (mford n f x); eauto. Qed.

Lemma lea_odd_refuted r key : key_ok 32 key -> r mod 4 <> 0 -> r * 24 < 2 ^ 32 ->
  exists s, lea_create r key = Ok s /\ forall ct pt, lea_decrypt s ct <> Ok pt.
Proof.
  intros Hk Hm Hr. exists (lea_setup (lea_rounds r key) key).
  assert (E : lea_rounds r key = r).
  { unfold lea_rounds. destruct (N.eqb_spec r 0) as [->|_]; [|reflexivity]. now elim Hm. }
  rewrite E. split.
  - unfold lea_create. rewrite assert_true by now apply key_len_ok_true. rewrite E.
    apply fits_ok. rewrite mask_id by exact Hr.
    replace (r * 24) with (6 * r * 4) by lia. rewrite N.div_mul by discriminate. apply N.le_refl.
  - intros ct pt. unfold lea_decrypt. cbn [lea_r lea_k lea_setup].
    destruct (mford _ _ _); cbn [bind]; [|discriminate].
    destruct (Nat.eqb_spec (Nat.modulo (N.to_nat r) 4) 0) as [Z|Z]; [|discriminate].
    exfalso. apply Hm. apply N2Nat.inj. rewrite N2Nat.inj_mod. exact Z.
Qed.
