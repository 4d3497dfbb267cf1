(** memory.c as a program: the models of its functions, and steps that depend on the length only. *)
From Coq Require Import NArith Arith List Bool Lia.
From Verif Require Import Lib.Word Lib.Res Lib.Bytes Lib.MemLemmas Spec.Steps Model.Mem Model.Util Model.StepCode Proof.UtilP Proof.StepsP Proof.StepsRunP.
Import ListNotations.
Local Open Scope nat_scope.

Lemma wadd_nat w i n : (N.of_nat n < 2 ^ w)%N -> i < n -> wadd w (N.of_nat i) 1 = N.of_nat (S i).
Proof. intros H Hi. unfold wadd. rewrite mask_id; [lia|]. unfold inw. lia. Qed.
Lemma wsub_nat w i : (N.of_nat (S i) < 2 ^ w)%N -> wsub w (N.of_nat (S i)) 1 = N.of_nat i.
Proof.
  intros H. unfold wsub. rewrite (mask_id w 1) by (unfold inw; lia). rewrite mask_mod.
  replace (N.of_nat (S i) + 2 ^ w - 1)%N with (N.of_nat i + 1 * 2 ^ w)%N by lia. rewrite N.mod_add by lia. apply N.mod_small. lia.
Qed.

Definition equals_turn (s : state) (i : nat) (x : N) : N := byte (N.lor x (N.lxor (arrs s 0 i) (arrs s 1 i))).
Lemma equals_loop fuel len n i s : (N.of_nat len < 2 ^ 64)%N -> i + n = len -> vars s 1 = N.of_nat i -> vars s 2 = N.of_nat len ->
  exists s', spins fuel (Bin Lt (Var 1) (Var 2))
      (all [Set_ 0 (Un (Mask 8) (Bin Or (Var 0) (Bin Xor (At 0 (Var 1)) (At 1 (Var 1))))); Set_ 1 (Bin (Add 64) (Var 1) (Lit 1))]) (S n) s s' /\
    vars s' 0 = pfor n i (equals_turn s) (vars s 0).
Proof.
  intros Hl. revert i s. induction n as [|n IH]; intros i s Hn H1 H2.
  - exists s. split; [|reflexivity]. apply spin_end. cbn [ev val2]. rewrite H1, H2. now rewrite (proj2 (N.ltb_ge _ _)) by lia.
  - destruct (IH (S i) (set_var (set_var s 0 (equals_turn s i (vars s 0))) 1 (N.of_nat (S i)))) as (s' & G & E); [lia|reflexivity|exact H2|].
    exists s'. split; [|exact E].
    eapply spin_turn; [|eapply go_all_cons; [apply go_set|eapply go_all_cons; [apply go_set|apply go_all_nil]]|].
    + cbn [ev val2]. rewrite H1, H2, (proj2 (N.ltb_lt _ _)) by lia. discriminate.
    + cbn [ev val1 val2 vars arrs set_var Nat.eqb]. rewrite H1, Nat2N.id. rewrite (wadd_nat 64 i len) by (assumption || lia). exact G.
Qed.
Lemma equals_runs len s : (N.of_nat len < 2 ^ 64)%N -> vars s 2 = N.of_nat len ->
  exists s', goes false (S len) equals_code s s' /\
    forall m a b, (forall i, i < len -> arrs s 0 i = m (a + i) /\ arrs s 1 i = m (b + i)) -> vars s' 3 = memory_equals m a b len.
Proof.
  intros Hl H2. set (s0 := set_var (set_var s 0 0) 1 0).
  destruct (equals_loop (S len) len len 0 s0 Hl eq_refl eq_refl H2) as (s' & G & E).
  exists (set_var s' 3 (val1 Not (vars s' 0))). split.
  - unfold equals_code. eapply go_all_cons; [apply go_set|]. eapply go_all_cons; [apply go_set|]. cbn [ev].
    eapply go_all_cons; [apply go_while; exact G|]. eapply go_all_cons; [apply go_set|]. cbn [ev]. apply go_all_nil.
  - intros m a b H. cbn [vars set_var Nat.eqb val1]. rewrite E. unfold memory_equals. cbn [vars set_var Nat.eqb s0].
    rewrite (pfor_ext len 0 (equals_turn s0) (fun i x => byte (N.lor x (N.lxor (m (a + i)) (m (b + i)))))); [reflexivity|].
    intros j y Hj. unfold equals_turn. cbn [arrs set_var s0]. destruct (H j ltac:(lia)) as [-> ->]. reflexivity.
Qed.
Lemma equals_fixed len : (N.of_nat len < 2 ^ 64)%N -> exists t, forall s, vars s 2 = N.of_nat len ->
  exists s', exec (S len) equals_code s = Some (s', t, false) /\
    forall m a b, (forall i, i < len -> arrs s 0 i = m (a + i) /\ arrs s 1 i = m (b + i)) -> vars s' 3 = memory_equals m a b len.
Proof.
  intros Hl. apply (fixed_steps _ _ [1; 2] [2] (fun _ => false) (fun s => vars s 2 = N.of_nat len)
    (fun s s' => forall m a b, (forall i, i < len -> arrs s 0 i = m (a + i) /\ arrs s 1 i = m (b + i)) -> vars s' 3 = memory_equals m a b len)
    {| vars := fun _ => N.of_nat len; arrs := fun _ _ => 0%N |}); [vm_compute; reflexivity|reflexivity| |].
  - intros s s' E E'. split; [|discriminate]. intros x Hx. cbn [isin existsb] in Hx. rewrite orb_false_r in Hx. apply Nat.eqb_eq in Hx. subst x. now rewrite E, E'.
  - intros s Hs. now apply equals_runs.
Qed.

Lemma wipe_loop fuel len n i s : (N.of_nat len < 2 ^ 64)%N -> i + n = len -> vars s 1 = N.of_nat i -> vars s 0 = N.of_nat n ->
  exists s', spins fuel (Var 0) (all [Set_ 0 (Bin (Sub 64) (Var 0) (Lit 1)); Put 0 (Var 1) (Lit 0); Set_ 1 (Bin (Add 64) (Var 1) (Lit 1))]) (S n) s s' /\
    (forall j, arrs s' 0 j = if (i <=? j) && (j <? len) then 0%N else arrs s 0 j) /\ (forall a j, a <> 0 -> arrs s' a j = arrs s a j).
Proof.
  intros Hl. revert i s. induction n as [|n IH]; intros i s Hn H1 H2.
  - exists s. split; [|split; [|reflexivity]]; [apply spin_end; exact H2|]. intros j. destruct (Nat.leb_spec i j), (Nat.ltb_spec j len); cbn [andb]; try reflexivity; lia.
  - destruct (IH (S i) (set_var (set_arr (set_var s 0 (N.of_nat n)) 0 i 0) 1 (N.of_nat (S i)))) as (s' & G & E & F); [lia|reflexivity|reflexivity|].
    exists s'. split; [|split].
    + eapply spin_turn; [|eapply go_all_cons; [apply go_set|eapply go_all_cons; [apply go_put|eapply go_all_cons; [apply go_set|apply go_all_nil]]]|].
      * cbn [ev]. rewrite H2. lia.
      * cbn [ev val1 val2 vars arrs set_var set_arr Nat.eqb]. rewrite H1, H2, Nat2N.id, (wadd_nat 64 i len), wsub_nat by (assumption || lia). exact G.
    + intros j. rewrite E. cbn [arrs set_var set_arr Nat.eqb andb].
      destruct (Nat.leb_spec (S i) j), (Nat.leb_spec i j), (Nat.ltb_spec j len), (Nat.eqb_spec j i); cbn [andb]; try reflexivity; lia.
    + intros a j Ha. rewrite F by exact Ha. cbn [arrs set_var set_arr]. now rewrite (proj2 (Nat.eqb_neq a 0) Ha).
Qed.
Lemma wipe_fixed len : (N.of_nat len < 2 ^ 64)%N -> exists t, forall s, vars s 0 = N.of_nat len ->
  exists s', exec (S len) wipe_code s = Some (s', t, false) /\
    forall m dst, (forall i, arrs s 0 i = m (dst + i)) -> forall i, arrs s' 0 i = memory_wipe m dst len (dst + i).
Proof.
  intros Hl. apply (fixed_steps _ _ [0; 1] [0] (fun _ => false) (fun s => vars s 0 = N.of_nat len)
    (fun s s' => forall m dst, (forall i, arrs s 0 i = m (dst + i)) -> forall i, arrs s' 0 i = memory_wipe m dst len (dst + i))
    {| vars := fun _ => N.of_nat len; arrs := fun _ _ => 0%N |}); [vm_compute; reflexivity|reflexivity| |].
  - intros s s' E E'. split; [|discriminate]. intros x Hx. cbn [isin existsb] in Hx. rewrite orb_false_r in Hx. apply Nat.eqb_eq in Hx. subst x. now rewrite E, E'.
  - intros s Hs. destruct (wipe_loop (S len) len len 0 (set_var s 1 0) Hl eq_refl eq_refl Hs) as (s' & G & E & _).
    exists s'. split; [eapply go_seq; [apply go_set|apply go_while; exact G]|].
    intros m dst H i. rewrite E. cbn [arrs set_var Nat.leb andb]. unfold memory_wipe. rewrite fill_spec.
    destruct (Nat.ltb_spec i len), (Nat.leb_spec dst (dst + i)), (Nat.ltb_spec (dst + i) (dst + len)); cbn [andb]; try lia; try reflexivity; try apply H.
Qed.
