(** Speck as a program: the model, with steps that depend on the number of rounds only. *)
From Coq Require Import NArith Arith List Bool Lia.
From Verif Require Import Lib.Word Lib.Res Lib.Bytes Lib.MemLemmas Lib.Lists Spec.Steps Model.LoadStore Model.Speck Model.StepCode Proof.StepsP Proof.StepsRunP Proof.StepsMemP.
Import ListNotations.
Local Open Scope nat_scope.

Definition is_speck (p : speck_par) : Prop := p = speck32 \/ p = speck64 \/ p = speck128.
Lemma spk_load p s o : is_speck p -> (forall i, (arrs s 1 i < 256)%N) -> forall l, (forall i, i < sp_k p -> b_ l (o + i) = arrs s 1 (o + i)) ->
  ev s (ldl 1 o (sp_k p)) = sp_ld p l o.
Proof.
  intros [->|[->| ->]] B l H; cbn [sp_k sp_ld speck32 speck64 speck128] in *; unfold ldl, lit; cbn [Nat.sub seq fold_left ev val1 val2];
    rewrite !Nat2N.id; rewrite !shl_byte by (apply B || (cbn; lia)); unfold load16l, load32l, load64l;
    (assert (H0 := H 0 ltac:(lia)); rewrite Nat.add_0_r in H0; rewrite H0); repeat rewrite H by lia; reflexivity.
Qed.
Lemma spk_store p x : is_speck p -> sp_st p x = map (fun i => mask 8 (wshr x (N.of_nat (8 * i)))) (seq 0 (sp_k p)).
Proof. intros [->|[->| ->]]; reflexivity. Qed.

Section Run.
  Variable p : speck_par.
  Hypothesis Hp : is_speck p.
  Notation k := (sp_k p).
  Definition spk_of (s : state) (r : nat) : speck := {| speck_rounds := N.of_nat r; speck_ks := map (arrs s 0) (seq 0 r) |}.
  Lemma get_ks s r i : i < r -> get (map (arrs s 0) (seq 0 r)) i = Ok (arrs s 0 i).
  Proof.
    intros H. unfold get. rewrite (nth_error_nth' _ 0%N) by now rewrite map_length, seq_length.
    rewrite (nth_indep _ 0%N (arrs s 0 0)) by now rewrite map_length, seq_length. rewrite map_nth, seq_nth by exact H. reflexivity.
  Qed.
  Lemma enc_loop fuel r n i s : (N.of_nat r < 2 ^ 32)%N -> i + n = r -> vars s 2 = N.of_nat i -> vars s 3 = N.of_nat r ->
    exists s', spins fuel (Bin Lt (Var 2) (Var 3)) (all (spk_R p ++ [Set_ 2 (Bin (Add 32) (Var 2) (Lit 1))])) (S n) s s' /\ arrs s' = arrs s /\
      mfor n i (fun i y => let* k := get (speck_ks (spk_of s r)) i in Ok (speck_R p k y)) (vars s 0, vars s 1) = Ok (vars s' 0, vars s' 1).
  Proof.
    intros Hr. revert i s. induction n as [|n IH]; intros i s Hn H2 H3.
    - exists s. split; [|now split]. apply spin_end. cbn [ev val2]. rewrite H2, H3. now rewrite (proj2 (N.ltb_ge _ _)) by lia.
    - set (x := speck_R p (arrs s 0 i) (vars s 0, vars s 1)).
      destruct (IH (S i) (set_var (set_var (set_var s 0 (fst x)) 1 (snd x)) 2 (N.of_nat (S i)))) as (s' & G & A & E); [lia|reflexivity|exact H3|].
      exists s'. split; [|split; [exact A|]].
      + eapply spin_turn; [|cbn [spk_R app]; eapply go_all_cons; [apply go_set|eapply go_all_cons; [apply go_set|eapply go_all_cons; [apply go_set|apply go_all_nil]]]|].
        * cbn [ev val2]. rewrite H2, H3, (proj2 (N.ltb_lt _ _)) by lia. discriminate.
        * cbn [ev val1 val2 vars arrs set_var Nat.eqb]. rewrite H2, Nat2N.id, (wadd_nat 32 i r) by (assumption || lia). exact G.
      + cbn [mfor]. cbn [spk_of speck_ks] in E |- *. rewrite get_ks by lia. cbn [bind]. fold x. cbn [vars set_var Nat.eqb arrs] in E.
        rewrite (surjective_pairing x). exact E.
  Qed.
  Lemma mford_snoc {A} n (f : nat -> A -> res A) x : mford (S n) f x = (let* y := f n x in mford n f y).
  Proof. reflexivity. Qed.
  Lemma dec_loop fuel r n s : (N.of_nat r < 2 ^ 32)%N -> n <= r -> vars s 2 = N.of_nat n ->
    exists s', spins fuel (Var 2) (all (Set_ 2 (Bin (Sub 32) (Var 2) (Lit 1)) :: spk_IR p)) (S n) s s' /\ arrs s' = arrs s /\
      mford n (fun i y => let* k := get (speck_ks (spk_of s r)) i in Ok (speck_IR p k y)) (vars s 0, vars s 1) = Ok (vars s' 0, vars s' 1).
  Proof.
    intros Hr. revert s. induction n as [|n IH]; intros s Hn H2.
    - exists s. split; [|now split]. apply spin_end. exact H2.
    - set (x := speck_IR p (arrs s 0 n) (vars s 0, vars s 1)).
      destruct (IH (set_var (set_var (set_var s 2 (N.of_nat n)) 1 (snd x)) 0 (fst x))) as (s' & G & A & E); [lia|reflexivity|].
      exists s'. split; [|split; [exact A|]].
      + eapply spin_turn; [|cbn [spk_IR]; eapply go_all_cons; [apply go_set|eapply go_all_cons; [apply go_set|eapply go_all_cons; [apply go_set|apply go_all_nil]]]|].
        * cbn [ev]. rewrite H2. lia.
        * cbn [ev val1 val2 vars arrs set_var Nat.eqb]. rewrite H2, wsub_nat by lia. rewrite Nat2N.id. exact G.
      + rewrite mford_snoc. cbn [spk_of speck_ks] in E |- *. rewrite get_ks by lia. cbn [bind]. fold x. cbn [vars set_var Nat.eqb arrs] in E.
        rewrite (surjective_pairing x). exact E.
  Qed.
  (** the two stores *)
  Lemma stores_two fuel s : exists s', goes false fuel (all (stl 0 2 k k ++ stl 1 2 0 k)) s s' /\
    map (arrs s' 2) (seq 0 (2 * k)) = speck_store p (vars s 0, vars s 1).
  Proof.
    destruct (run_stl fuel 0 2 k k s) as (s1 & G1 & V1 & E1 & F1). destruct (run_stl fuel 1 2 0 k s1) as (s2 & G2 & V2 & E2 & F2).
    exists s2. split; [eapply go_all_app; [exact G1|exact G2]|].
    unfold speck_store, speck_swap, st2. cbn [fst snd]. rewrite !spk_store by exact Hp. replace (2 * k) with (k + k) by lia. rewrite seq_app, map_app. cbn [Nat.add]. f_equal.
    - apply map_ext_in. intros i Hi. apply in_seq in Hi. replace i with (0 + i) at 1 by lia. rewrite E2 by lia. now rewrite V1.
    - rewrite (seq_off k k), !map_map. apply map_ext_in. intros i Hi. apply in_seq in Hi. rewrite F2 by lia. apply E1. lia.
  Qed.
  Lemma b_map s n o i : o + i < n -> b_ (map (arrs s 1) (seq 0 n)) (o + i) = arrs s 1 (o + i).
  Proof.
    intros H. unfold b_. rewrite (nth_indep _ 0%N (arrs s 1 0)) by now rewrite map_length, seq_length. rewrite map_nth, seq_nth by exact H. reflexivity.
  Qed.
  (** what a call computes *)
  Definition spk_call (enc : bool) (r : nat) (s s' : state) : Prop :=
    (if enc then speck_encrypt p else speck_decrypt p) (spk_of s r) (map (arrs s 1) (seq 0 (2 * k))) = Ok (map (arrs s' 2) (seq 0 (2 * k))).
  Definition spk_start (r : nat) (s : state) : Prop := vars s 3 = N.of_nat r /\ forall i, (arrs s 1 i < 256)%N.
  Lemma enc_runs r s : (N.of_nat r < 2 ^ 32)%N -> spk_start r s -> exists s', goes false (S r) (spk_enc p) s s' /\ spk_call true r s s'.
  Proof.
    intros Hr [H3 B]. set (l := map (arrs s 1) (seq 0 (2 * k))).
    set (s0 := set_var (set_var (set_var s 0 (sp_ld p l k)) 1 (sp_ld p l 0)) 2 0).
    destruct (enc_loop (S r) r r 0 s0 Hr eq_refl eq_refl H3) as (s1 & G1 & A1 & E1).
    destruct (stores_two (S r) s1) as (s2 & G2 & E2). exists s2. split.
    - unfold spk_enc. apply go_all_app with (s1 := s1); [|exact G2].
      eapply go_all_cons; [apply go_set|]. eapply go_all_cons; [apply go_set|]. eapply go_all_cons; [apply go_set|].
      rewrite (spk_load p s k Hp B l) by (intros i Hi; apply b_map; lia).
      rewrite (spk_load p (set_var s 0 _) 0 Hp B l) by (intros i Hi; apply (b_map s); lia).
      eapply go_all_cons; [apply go_while; exact G1|apply go_all_nil].
    - unfold spk_call, speck_encrypt, speck_enc_words. cbn [speck_rounds spk_of]. rewrite Nat2N.id. fold l.
      unfold speck_load, ld2, speck_swap. cbn [fst snd]. cbn [vars set_var Nat.eqb s0] in E1.
      change (spk_of s0 r) with (spk_of s r) in E1. cbn [spk_of speck_ks] in E1 |- *. rewrite E1. cbn [bind]. now rewrite E2.
  Qed.
  Lemma dec_runs r s : (N.of_nat r < 2 ^ 32)%N -> spk_start r s -> exists s', goes false (S r) (spk_dec p) s s' /\ spk_call false r s s'.
  Proof.
    intros Hr [H3 B]. set (l := map (arrs s 1) (seq 0 (2 * k))).
    set (s0 := set_var (set_var (set_var s 0 (sp_ld p l k)) 1 (sp_ld p l 0)) 2 (N.of_nat r)).
    destruct (dec_loop (S r) r r s0 Hr (le_n r) eq_refl) as (s1 & G1 & A1 & E1).
    destruct (stores_two (S r) s1) as (s2 & G2 & E2). exists s2. split.
    - unfold spk_dec. apply go_all_app with (s1 := s1); [|exact G2].
      eapply go_all_cons; [apply go_set|]. eapply go_all_cons; [apply go_set|]. eapply go_all_cons; [apply go_set|].
      rewrite (spk_load p s k Hp B l) by (intros i Hi; apply b_map; lia).
      rewrite (spk_load p (set_var s 0 _) 0 Hp B l) by (intros i Hi; apply (b_map s); lia).
      cbn [ev vars set_var Nat.eqb]. rewrite H3.
      eapply go_all_cons; [apply go_while; exact G1|apply go_all_nil].
    - unfold spk_call, speck_decrypt, speck_dec_words. cbn [speck_rounds spk_of]. rewrite Nat2N.id. fold l.
      unfold speck_load, ld2, speck_swap. cbn [fst snd]. cbn [vars set_var Nat.eqb s0] in E1.
      change (spk_of s0 r) with (spk_of s r) in E1. cbn [spk_of speck_ks] in E1 |- *. rewrite E1. cbn [bind]. now rewrite E2.
  Qed.
  Lemma spk_fixed (enc : bool) r : (N.of_nat r < 2 ^ 32)%N -> exists t, forall s, spk_start r s ->
    exists s', exec (S r) (if enc then spk_enc p else spk_dec p) s = Some (s', t, false) /\ spk_call enc r s s'.
  Proof.
    intros Hr. apply (fixed_steps _ _ [2; 3] [3] (fun _ => false) (spk_start r) (spk_call enc r)
      {| vars := fun _ => N.of_nat r; arrs := fun _ _ => 0%N |}).
    - destruct Hp as [->|[->| ->]], enc; vm_compute; reflexivity.
    - split; [reflexivity|]. intros i. cbn [arrs]. lia.
    - intros s s' [E _] [E' _]. split; [|discriminate]. intros x Hx. cbn [isin existsb] in Hx. rewrite orb_false_r in Hx. apply Nat.eqb_eq in Hx. subst x. now rewrite E, E'.
    - intros s Hs. destruct enc; [now apply enc_runs|now apply dec_runs].
  Qed.
End Run.
