(** The cores of ChaCha and Salsa20 as programs: the models, with steps that depend on the number of rounds only. *)
From Coq Require Import NArith Arith List Bool Lia.
From Verif Require Import Lib.Word Lib.Res Lib.Bytes Lib.Lists Spec.Steps Model.LoadStore Model.Chacha Model.Salsa20 Model.StepCode Proof.StepsP Proof.StepsRunP Proof.StepsMemP.
Import ListNotations.
Local Open Scope nat_scope.

Definition wl (s : state) : list N := map (vars s) (seq 0 16).
Definition keeps (s s' : state) : Prop := vars s' 16 = vars s 16 /\ vars s' 17 = vars s 17 /\ arrs s' = arrs s.
Lemma keeps_trans s s1 s2 : keeps s s1 -> keeps s1 s2 -> keeps s s2.
Proof. intros (A & B & C) (D & E & F). unfold keeps. now rewrite D, E, F. Qed.

Section Core.
  Variable qr : nat * nat * nat * nat -> stmt.
  Variable f : N -> N -> N -> N -> N * N * N * N.
  Variables even_ odd_ : list (nat * nat * nat * nat).
  Hypothesis Hqr : forall q, In q (even_ ++ odd_) -> forall fuel s, exists s', goes false fuel (qr q) s s' /\ wl s' = qr_at f (wl s) q /\ keeps s s'.

  Lemma run_half fuel l s : (forall q, In q l -> In q (even_ ++ odd_)) -> exists s', goes false fuel (all (map qr l)) s s' /\ wl s' = fold_left (qr_at f) l (wl s) /\ keeps s s'.
  Proof.
    revert s. induction l as [|q l IH]; intros s H; [exists s; split; [apply go_all_nil|now repeat split]|].
    destruct (Hqr q (H q (or_introl eq_refl)) fuel s) as (s1 & G1 & E1 & K1).
    destruct (IH s1 (fun x Hx => H x (or_intror Hx))) as (s2 & G2 & E2 & K2). exists s2. split; [|split].
    - cbn [map]. eapply go_all_cons; [exact G1|exact G2].
    - cbn [fold_left]. now rewrite E2, E1.
    - exact (keeps_trans _ _ _ K1 K2).
  Qed.
  Definition turn (i : nat) (x : list N) : list N := fold_left (qr_at f) (if Nat.even i then even_ else odd_) x.
  Definition body : stmt := all (map qr even_ ++ [Set_ 16 (Bin (Add 32) (Var 16) (Lit 1)); If (Bin Eq (Var 16) (Var 17)) Break Skip] ++
      map qr odd_ ++ [Set_ 16 (Bin (Add 32) (Var 16) (Lit 1))]).
  Lemma wl_16 s v : wl (set_var s 16 v) = wl s.
  Proof. reflexivity. Qed.
  Lemma go_all_out fuel c l s s1 : goes true fuel c s s1 -> goes true fuel (all (c :: l)) s s1.
  Proof. apply go_out. Qed.
  Lemma core_loop fuel r n : (N.of_nat r < 2 ^ 32)%N -> forall m i s, n < m -> i + n = r -> Nat.even i = true -> vars s 16 = N.of_nat i -> vars s 17 = N.of_nat r ->
    exists s', spins fuel (Bin Lt (Var 16) (Var 17)) body m s s' /\ wl s' = pfor n i turn (wl s) /\ arrs s' = arrs s.
  Proof.
    intros Hr. induction n as [n IH] using lt_wf_ind. intros m i s Hm Hn Hi H6 H7. destruct m as [|m]; [lia|]. destruct n as [|n].
    { exists s. split; [|now split]. apply spin_end. cbn [ev val2]. rewrite H6, H7. now rewrite (proj2 (N.ltb_ge _ _)) by lia. }
    destruct (run_half fuel even_ s (fun q H => in_or_app _ _ _ (or_introl H))) as (s1 & G1 & E1 & K1 & K2 & K3).
    set (s2 := set_var s1 16 (N.of_nat (S i))).
    assert (G2 : goes false fuel (Set_ 16 (Bin (Add 32) (Var 16) (Lit 1))) s1 s2).
    { unfold s2. rewrite <- (wadd_nat 32 i r) by (assumption || lia). rewrite <- H6, <- K1. apply (go_set fuel s1 16 (Bin (Add 32) (Var 16) (Lit 1))). }
    assert (C : ev s (Bin Lt (Var 16) (Var 17)) <> 0%N).
    { cbn [ev val2]. rewrite H6, H7, (proj2 (N.ltb_lt _ _)) by lia. discriminate. }
    assert (W2 : wl s2 = turn i (wl s)) by (unfold s2, turn; now rewrite wl_16, E1, Hi).
    destruct n as [|n].
    - exists s2. split; [|split; [exact W2|exact K3]]. apply spin_out; [exact C|].
      unfold body. eapply go_all_app; [exact G1|]. cbn [app]. eapply go_all_cons; [exact G2|]. apply go_all_out.
      apply go_if. cbn [ev val2 vars set_var s2 Nat.eqb]. rewrite K2, H7. replace (S i) with r by lia. rewrite N.eqb_refl. apply go_break.
    - destruct (run_half fuel odd_ s2 (fun q H => in_or_app _ _ _ (or_intror H))) as (s3 & G3 & E3 & J1 & J2 & J3).
      set (s4 := set_var s3 16 (N.of_nat (S (S i)))).
      assert (G4 : goes false fuel (Set_ 16 (Bin (Add 32) (Var 16) (Lit 1))) s3 s4).
      { unfold s4. rewrite <- (wadd_nat 32 (S i) r) by (assumption || lia).
        replace (N.of_nat (S i)) with (vars s3 16) by (rewrite J1; reflexivity). apply (go_set fuel s3 16 (Bin (Add 32) (Var 16) (Lit 1))). }
      destruct (IH n ltac:(lia) m (S (S i)) s4) as (s' & G & E & A); [lia|lia|exact Hi|reflexivity| |].
      { unfold s4. cbn [vars set_var Nat.eqb]. rewrite J2. unfold s2. cbn [vars set_var Nat.eqb]. now rewrite K2. }
      exists s'. split; [|split].
      + apply (spin_turn fuel _ _ m s s4 s'); [exact C| |exact G].
        unfold body. eapply go_all_app; [exact G1|]. cbn [app]. eapply go_all_cons; [exact G2|]. eapply go_all_cons; [|eapply go_all_app; [exact G3|eapply go_all_cons; [exact G4|apply go_all_nil]]].
        apply go_if. cbn [ev val2 vars set_var s2 Nat.eqb]. rewrite K2, H7, (proj2 (N.eqb_neq (N.of_nat (S i)) (N.of_nat r))) by lia. apply go_skip.
      + rewrite E. cbn [pfor]. f_equal. unfold s4. rewrite wl_16, E3, W2. generalize (turn i (wl s)). intros w. unfold turn. rewrite Nat.even_succ, <- Nat.negb_even, Hi. reflexivity.
      + rewrite A. unfold s4. cbn [arrs set_var]. rewrite J3. exact K3.
  Qed.
  Lemma loads_run fuel n s : exists s', goes false fuel (all (map (fun j => Set_ j (At 0 (lit j))) (seq 0 n))) s s' /\ arrs s' = arrs s /\
    forall x, vars s' x = if x <? n then arrs s 0 x else vars s x.
  Proof.
    induction n as [|n (s1 & G & A & V)]; [exists s; split; [apply go_all_nil|now split]|].
    exists (set_var s1 n (arrs s 0 n)). split; [|split; [exact A|]].
    - rewrite seq_S, map_app. eapply go_all_app; [exact G|]. cbn [map Nat.add]. eapply go_all_cons; [apply go_set|].
      unfold lit. cbn [ev]. rewrite Nat2N.id, A. apply go_all_nil.
    - intros x. cbn [vars set_var]. rewrite V. destruct (Nat.eqb_spec x n), (Nat.ltb_spec x n), (Nat.ltb_spec x (S n)); try lia; now subst.
  Qed.
  Lemma adds_run fuel n s : exists s', goes false fuel (all (map (fun j => Set_ j (Bin (Add 32) (Var j) (At 0 (lit j)))) (seq 0 n))) s s' /\ arrs s' = arrs s /\
    forall x, vars s' x = if x <? n then wadd 32 (vars s x) (arrs s 0 x) else vars s x.
  Proof.
    induction n as [|n (s1 & G & A & V)]; [exists s; split; [apply go_all_nil|now split]|].
    exists (set_var s1 n (wadd 32 (vars s n) (arrs s 0 n))). split; [|split; [exact A|]].
    - rewrite seq_S, map_app. eapply go_all_app; [exact G|]. cbn [map Nat.add]. eapply go_all_cons; [apply go_set|].
      unfold lit. cbn [ev val2]. rewrite Nat2N.id, A, V. rewrite (proj2 (Nat.ltb_ge n n)) by lia. apply go_all_nil.
    - intros x. cbn [vars set_var]. rewrite V. destruct (Nat.eqb_spec x n), (Nat.ltb_spec x n), (Nat.ltb_spec x (S n)); try lia; now subst.
  Qed.
  Lemma out_run fuel n s : exists s', goes false fuel (all (flat_map (fun j => stl j 1 (4 * j) 4) (seq 0 n))) s s' /\ vars s' = vars s /\
    map (arrs s' 1) (seq 0 (4 * n)) = stores store32l (map (vars s) (seq 0 n)).
  Proof.
    induction n as [|n (s1 & G & V & E)]; [exists s; split; [apply go_all_nil|now split]|].
    destruct (run_stl fuel n 1 (4 * n) 4 s1) as (s2 & G2 & V2 & E2 & F2). exists s2. split; [|split; [now rewrite V2|]].
    - rewrite seq_S, flat_map_app. eapply go_all_app; [exact G|]. cbn [flat_map Nat.add]. rewrite app_nil_r. exact G2.
    - replace (4 * S n) with (4 * n + 4) by lia. rewrite seq_app, map_app, (seq_S n 0), map_app. unfold stores in *. rewrite flat_map_app. f_equal.
      + rewrite <- E. apply map_ext_in. intros i Hi. apply in_seq in Hi. apply F2. lia.
      + cbn [Nat.add map flat_map]. rewrite app_nil_r. rewrite seq_off, map_map. rewrite <- V. unfold store32l.
        change (seq 0 4) with [0; 1; 2; 3]. cbn [map]. rewrite !E2 by lia. reflexivity.
  Qed.
  Lemma core_runs r s : (N.of_nat r < 2 ^ 32)%N -> vars s 17 = N.of_nat r ->
    exists s', goes false (S r) (core_code qr even_ odd_) s s' /\
      map (arrs s' 1) (seq 0 64) = stores store32l (add_words (pfor r 0 turn (map (arrs s 0) (seq 0 16))) (map (arrs s 0) (seq 0 16))).
  Proof.
    intros Hr H7. destruct (loads_run (S r) 16 s) as (s1 & G1 & A1 & V1).
    destruct (core_loop (S r) r r Hr (S r) 0 (set_var s1 16 0) ltac:(lia) eq_refl eq_refl eq_refl) as (s2 & G2 & E2 & A2).
    { cbn [vars set_var Nat.eqb]. now rewrite V1. }
    destruct (adds_run (S r) 16 s2) as (s3 & G3 & A3 & V3). destruct (out_run (S r) 16 s3) as (s4 & G4 & V4 & E4).
    exists s4. split.
    - unfold core_code. eapply go_all_app; [exact G1|]. eapply go_all_app; [|eapply go_all_app; [exact G3|exact G4]].
      eapply go_all_cons; [apply go_set|]. eapply go_all_cons; [apply go_while; exact G2|apply go_all_nil].
    - etransitivity; [exact E4|]. f_equal.
      assert (X : wl (set_var s1 16 0) = map (arrs s 0) (seq 0 16)).
      { rewrite wl_16. unfold wl. apply map_ext_in. intros j Hj. apply in_seq in Hj. rewrite V1. now rewrite (proj2 (Nat.ltb_lt j 16)) by lia. }
      rewrite X in E2. rewrite <- E2. unfold wl.
      assert (Y : map (vars s3) (seq 0 16) = map (fun j => wadd 32 (vars s2 j) (arrs s 0 j)) (seq 0 16)).
      { apply map_ext_in. intros j Hj. apply in_seq in Hj. rewrite V3, A2. cbn [arrs set_var]. rewrite A1. now rewrite (proj2 (Nat.ltb_lt j 16)) by lia. }
      rewrite Y. reflexivity.
  Qed.
End Core.

Lemma cc_qr_runs q : In q (cc_columns ++ cc_diagonals) -> forall fuel s, exists s', goes false fuel (cc_qr_code q) s s' /\ wl s' = qr_at cc_qr (wl s) q /\ keeps s s'.
Proof.
  intros H fuel s. cbn [app cc_columns cc_diagonals In] in H.
  repeat (destruct H as [<-|H]; [eexists; split; [unfold cc_qr_code; repeat (eapply go_all_cons; [apply go_set|]); apply go_all_nil|split; [reflexivity|now repeat split]]|]). destruct H.
Qed.
Lemma s20_qr_runs q : In q (s20_columns ++ s20_rows) -> forall fuel s, exists s', goes false fuel (s20_qr_code q) s s' /\ wl s' = qr_at s20_qr (wl s) q /\ keeps s s'.
Proof.
  intros H fuel s. cbn [app s20_columns s20_rows In] in H.
  repeat (destruct H as [<-|H]; [eexists; split; [unfold s20_qr_code; repeat (eapply go_all_cons; [apply go_set|]); apply go_all_nil|split; [reflexivity|now repeat split]]|]). destruct H.
Qed.

(** what a call computes *)
Definition core_call (f : N -> list N -> list N) (r : nat) (s s' : state) : Prop :=
  map (arrs s' 1) (seq 0 64) = f (N.of_nat r) (map (arrs s 0) (seq 0 16)).
Lemma core_fixed (qr : nat * nat * nat * nat -> stmt) ev_ od (f : N -> list N -> list N) r : passes (fun _ => false) [16; 17] [17] (core_code qr ev_ od) = true ->
  (forall s, vars s 17 = N.of_nat r -> exists s', goes false (S r) (core_code qr ev_ od) s s' /\ core_call f r s s') ->
  exists t, forall s, vars s 17 = N.of_nat r -> exists s', exec (S r) (core_code qr ev_ od) s = Some (s', t, false) /\ core_call f r s s'.
Proof.
  intros C R. apply (fixed_steps _ _ [16; 17] [17] (fun _ => false) (fun s => vars s 17 = N.of_nat r) (core_call f r)
    {| vars := fun _ => N.of_nat r; arrs := fun _ _ => 0%N |}); [exact C|reflexivity| |exact R].
  intros s s' E E'. split; [|discriminate]. intros x Hx. cbn [isin existsb] in Hx. rewrite orb_false_r in Hx. apply Nat.eqb_eq in Hx. subst x. now rewrite E, E'.
Qed.
Lemma chacha_fixed r : (N.of_nat r < 2 ^ 32)%N -> exists t, forall s, vars s 17 = N.of_nat r ->
  exists s', exec (S r) (core_code cc_qr_code cc_columns cc_diagonals) s = Some (s', t, false) /\ core_call cc_core r s s'.
Proof.
  intros Hr. apply core_fixed; [vm_compute; reflexivity|]. intros s Hs.
  destruct (core_runs cc_qr_code cc_qr cc_columns cc_diagonals cc_qr_runs r s Hr Hs) as (s' & G & E). exists s'. split; [exact G|].
  unfold core_call, cc_core, cc_rounds. rewrite Nat2N.id. exact E.
Qed.
Lemma salsa_fixed r : (N.of_nat r < 2 ^ 32)%N -> exists t, forall s, vars s 17 = N.of_nat r ->
  exists s', exec (S r) (core_code s20_qr_code s20_columns s20_rows) s = Some (s', t, false) /\ core_call s20_core r s s'.
Proof.
  intros Hr. apply core_fixed; [vm_compute; reflexivity|]. intros s Hs.
  destruct (core_runs s20_qr_code s20_qr s20_columns s20_rows s20_qr_runs r s Hr Hs) as (s' & G & E). exists s'. split; [exact G|].
  unfold core_call, s20_core, s20_rounds. rewrite Nat2N.id. exact E.
Qed.
