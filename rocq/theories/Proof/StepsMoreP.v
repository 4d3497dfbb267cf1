(** RC4, the multiplication of IDEA and pkcs7.c as programs: the models, and steps that do depend on secrets. *)
From Coq Require Import NArith Arith List Bool Lia.
From Verif Require Import Lib.Word Lib.Res Lib.Bytes Lib.Lists Spec.Steps Model.Mem Model.Util Model.Rc4 Model.Idea Model.StepCode Proof.StepsP Proof.StepsRunP Proof.StepsMemP.
Import ListNotations.
Local Open Scope nat_scope.

Lemma nth_arr (f : nat -> N) n i : i < n -> nth i (map f (seq 0 n)) 0%N = f i.
Proof. intros H. rewrite (nth_indep _ 0%N (f 0)) by now rewrite map_length, seq_length. now rewrite map_nth, seq_nth. Qed.
Lemma get_arr (f : nat -> N) n i : i < n -> get (map f (seq 0 n)) i = Ok (f i).
Proof. intros H. unfold get. rewrite (nth_error_nth' _ 0%N) by now rewrite map_length, seq_length. now rewrite nth_arr. Qed.
Lemma put_arr (f : nat -> N) n i v : i < n -> put (map f (seq 0 n)) i v = Ok (map (fun j => if j =? i then v else f j) (seq 0 n)).
Proof.
  intros H. unfold put. rewrite map_length, seq_length, (proj2 (Nat.ltb_lt i n) H). f_equal.
  apply (nth_ext _ _ 0%N 0%N); [now rewrite length_upd, !map_length|]. intros j Hj. rewrite length_upd, map_length, seq_length in Hj.
  rewrite nth_upd, map_length, seq_length, (proj2 (Nat.ltb_lt i n) H), !nth_arr by exact Hj. now rewrite andb_true_r.
Qed.
Lemma small_byte x : N.to_nat (mask 8 x) < 256.
Proof. pose proof (inw_mask 8 x) as H. unfold inw in H. change (2 ^ 8)%N with 256%N in H. lia. Qed.

(** the object of Model/Rc4.v in the state *)
Definition rc4_of (s : state) : rc4 := {| rc4_p := map (arrs s 0) (seq 0 256); rc4_i := vars s 0; rc4_j := vars s 1 |}.
Lemma rc4_runs fuel s : exists s', goes false fuel rc4_code s s' /\ rc4_next (rc4_of s) = Ok (rc4_of s', vars s' 3).
Proof.
  eexists. split; [unfold rc4_code; repeat (eapply go_all_cons; [apply go_set || apply go_put|]); apply go_all_nil|].
  unfold rc4_next, rc4_of, rc4_swap. cbn [rc4_p rc4_i rc4_j ev val1 val2 vars arrs set_var set_arr Nat.eqb andb].
  set (i := wadd 8 (vars s 0) 1). assert (Hi : N.to_nat i < 256) by apply small_byte. clearbody i.
  rewrite get_arr by exact Hi. cbn [bind]. set (j := wadd 8 (vars s 1) (arrs s 0 (N.to_nat i))). assert (Hj : N.to_nat j < 256) by apply small_byte. clearbody j.
  rewrite !get_arr by assumption. cbn [bind]. rewrite put_arr by exact Hi. cbn [bind]. rewrite put_arr by exact Hj. cbn [bind].
  rewrite !get_arr by assumption. cbn [bind].
  set (g := fun j0 => if j0 =? N.to_nat j then arrs s 0 (N.to_nat i) else if j0 =? N.to_nat i then arrs s 0 (N.to_nat j) else arrs s 0 j0).
  rewrite get_arr by apply small_byte. cbn [bind]. unfold wadd. 
  assert (X : forall a, mask 8 (mask 32 a) = mask 8 a).
  { intros a. apply N.bits_inj. intros n. rewrite !mask_spec. destruct (N.ltb_spec n 8), (N.ltb_spec n 32); cbn [andb]; try reflexivity; lia. }
  rewrite X. reflexivity.
Qed.

(** IDEA: the product is zero just when a factor is *)
Lemma mask_16_32 x : mask 16 (mask 32 x) = mask 16 x.
Proof. apply N.bits_inj. intros n. rewrite !mask_spec. destruct (N.ltb_spec n 16), (N.ltb_spec n 32); cbn [andb]; try reflexivity; lia. Qed.
Lemma mod_16_32 x : (x mod 2 ^ 32 mod 2 ^ 16 = x mod 2 ^ 16)%N.
Proof. rewrite <- !mask_mod. apply mask_16_32. Qed.
Lemma sub_16_32 x y : (x < 2 ^ 32)%N -> (y < 2 ^ 16)%N -> mask 16 (wsub 32 x y) = wsub 16 (mask 16 x) y.
Proof.
  intros Hx Hy. unfold wsub. rewrite mask_16_32, (mask_id 32 y), (mask_id 16 y) by (unfold inw; lia). rewrite !mask_mod.
  replace (x + 2 ^ 32 - y)%N with (x + (2 ^ 16 - y) + 65535 * 2 ^ 16)%N by lia. rewrite N.mod_add by lia.
  rewrite <- (N.add_sub_assoc (x mod 2 ^ 16)) by lia. now rewrite N.add_mod_idemp_l by lia.
Qed.
Lemma mul_runs fuel s : (vars s 0 < 2 ^ 16)%N -> (vars s 1 < 2 ^ 16)%N ->
  exists s', exec fuel mul_code s = Some (s', [Goes (negb ((vars s 0 =? 0) || (vars s 1 =? 0))%N)], false) /\ vars s' 3 = idea_mul (vars s 0) (vars s 1).
Proof.
  intros Ha Hb. unfold mul_code, all. cbn [fold_right exec eval val1 val2 vars set_var Nat.eqb fst snd app].
  set (a := vars s 0) in *. set (b := vars s 1) in *. set (p := wmul 32 a b).
  assert (Hp : p = (a * b)%N).
  { unfold p, wmul. apply mask_id. unfold inw. change (2 ^ 32)%N with (2 ^ 16 * 2 ^ 16)%N. apply N.mul_lt_mono; assumption. }
  assert (Z : (p =? 0)%N = ((a =? 0) || (b =? 0))%N).
  { rewrite Hp. destruct (N.eqb_spec (a * b) 0) as [X|X], (N.eqb_spec a 0), (N.eqb_spec b 0); cbn [orb]; try reflexivity; nia. }
  unfold idea_mul. cbv zeta. fold p. rewrite Z. destruct ((a =? 0) || (b =? 0))%N eqn:Y; cbn [negb exec eval val1 val2 vars set_var Nat.eqb fst snd app].
  - eexists. split; [reflexivity|]. cbn [vars set_var Nat.eqb]. fold a b.
    assert (W : (wsub 32 1 a < 2 ^ 32)%N) by apply inw_mask. rewrite sub_16_32 by assumption. rewrite sub_16_32 by (reflexivity || assumption). reflexivity.
  - eexists. split; [reflexivity|]. cbn [vars set_var Nat.eqb]. set (q := wsub 32 (mask 16 p) (wshr p 16)).
    assert (Hq : (wshr q 16 < 2 ^ 16)%N).
    { unfold wshr. rewrite N.shiftr_div_pow2. apply N.div_lt_upper_bound; [discriminate|]. apply (inw_mask 32). }
    rewrite sub_16_32; [now rewrite mask_idem| |exact Hq]. apply N.lt_trans with (2 ^ 16)%N; [apply (inw_mask 16)|reflexivity].
Qed.

(** PKCS#7: the last byte is read, and again if it is below the length *)
Lemma rem_runs fuel s : (0 < vars s 0 < 2 ^ 64)%N -> (forall i, (arrs s 0 i < 256)%N) ->
  exists s', let n := N.to_nat (vars s 0 - 1) in let b := (arrs s 0 n <? vars s 0)%N in
    exec fuel rem_code s = Some (s', Reads 0 n :: Goes b :: (if b then [Reads 0 n] else []), false) /\
    forall m buf, (forall i, i <= n -> arrs s 0 i = m (buf + i)) -> pkcs7_rem m buf (vars s 0) = Ok (vars s' 1).
Proof.
  intros Hl B. set (len := vars s 0) in *. set (n := N.to_nat (len - 1)).
  assert (En : N.to_nat (wsub 64 len 1) = n).
  { unfold n. f_equal. replace len with (N.of_nat (S (N.to_nat (len - 1)))) by lia. rewrite wsub_nat by lia. lia. }
  assert (M : forall m buf, (forall i, i <= n -> arrs s 0 i = m (buf + i)) ->
    pkcs7_rem m buf len = Ok (if (arrs s 0 n <? len)%N then len - arrs s 0 n else len)%N).
  { intros m buf H. unfold pkcs7_rem. destruct (N.eqb_spec len 0); [lia|]. rewrite (H n) by lia. replace (buf + N.to_nat len - 1) with (buf + n) by (unfold n; lia). reflexivity. }
  unfold rem_code. cbn [exec eval val1 val2]. fold len. rewrite En. cbn [app].
  destruct (N.ltb_spec (arrs s 0 n) len) as [L|L]; change (1 =? 0)%N with false; change (0 =? 0)%N with true; cbn [negb exec eval val1 val2 app]; fold len; rewrite ?En; eexists; (split; [reflexivity|]); cbn [vars set_var Nat.eqb].
  - intros m buf H. rewrite M by exact H. f_equal. symmetry. unfold wsub. rewrite (mask_id 64 (arrs s 0 n)) by (unfold inw; lia). rewrite mask_mod.
    replace (len + 2 ^ 64 - arrs s 0 n)%N with (len - arrs s 0 n + 1 * 2 ^ 64)%N by lia. rewrite N.mod_add by lia. apply N.mod_small. lia.
  - intros m buf H. now rewrite M.
Qed.

Definition steps_of (r : result) : list step := match r with Some (_, t, _) => t | None => [] end.
(** the object after all 256 bytes of a key, or the other way round: the places read differ *)
Definition table (f : nat -> N) : state := {| vars := fun _ => 0%N; arrs := fun _ => f |}.
Lemma rc4_differ fuel : steps_of (exec fuel rc4_code (table (fun i => N.of_nat i))) <> steps_of (exec fuel rc4_code (table (fun i => N.of_nat (255 - i)))).
Proof. vm_compute. discriminate. Qed.
Lemma rc4_table_seen fuel : exists s s', vars s = vars s' /\
  (forall v, v < 256 -> (exists i, i < 256 /\ arrs s 0 i = N.of_nat v) /\ (exists i, i < 256 /\ arrs s' 0 i = N.of_nat v)) /\
  steps_of (exec fuel rc4_code s) <> steps_of (exec fuel rc4_code s').
Proof.
  exists (table (fun i => N.of_nat i)), (table (fun i => N.of_nat (255 - i))). split; [reflexivity|]. split; [|apply rc4_differ].
  intros v Hv. split; [exists v; now split|]. exists (255 - v). split; [lia|]. cbn [arrs table]. f_equal. lia.
Qed.
