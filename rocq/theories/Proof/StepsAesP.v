(** Rijndael with a block of 128 bits as a program: the model, and what its steps show. *)
From Coq Require Import NArith Arith List Bool Lia.
From Verif Require Import Lib.Word Lib.Res Lib.Bytes Lib.Lists Spec.Steps Model.LoadStore Model.Rijndael Model.StepCode Proof.StepsP Proof.StepsRunP Proof.StepsMemP Proof.StepsMoreP.
Import ListNotations.
Local Open Scope nat_scope.

(** the tables are in the arrays *)
Definition tabs (s : state) : Prop := forall i, arrs s 1 i = nth i rj_te0 0%N /\ arrs s 2 i = nth i rj_te1 0%N /\ arrs s 3 i = nth i rj_te2 0%N /\
  arrs s 4 i = nth i rj_te3 0%N /\ arrs s 5 i = nth i rj_te4 0%N.
Lemma mask_byte x : mask 8 x = byte x.
Proof. reflexivity. Qed.
Lemma ev_E s a b c d : tabs s -> ev s (aes_E a b c d) = rj_E (vars s a) (vars s b) (vars s c) (vars s d).
Proof.
  intros T. unfold rj_E, tab, aes_E. cbn [ev val1 val2]. rewrite !mask_byte.
  rewrite (proj1 (T _)), (proj1 (proj2 (T _))), (proj1 (proj2 (proj2 (T _)))), (proj1 (proj2 (proj2 (proj2 (T _))))). exact eq_refl.
Qed.
Lemma ev_EL s a b c d : tabs s -> ev s (aes_EL a b c d) = rj_EL (vars s a) (vars s b) (vars s c) (vars s d).
Proof.
  intros T. unfold rj_EL, tab, aes_EL. cbn [ev val1 val2]. rewrite !mask_byte.
  rewrite !(proj2 (proj2 (proj2 (proj2 (T _))))). exact eq_refl.
Qed.
Lemma ev_ldb s o l : (forall i, (arrs s 6 i < 256)%N) -> (forall i, i < 4 -> b_ l (o + i) = arrs s 6 (o + i)) -> ev s (ldb 6 o) = load32b l o.
Proof.
  intros B H. unfold ldb, lit, load32b. cbn [ev val1 val2]. rewrite !Nat2N.id, !shl_byte by (apply B || lia).
  assert (H0 := H 0 ltac:(lia)). rewrite Nat.add_0_r in H0. rewrite H0, !H by lia. reflexivity.
Qed.
Lemma go_word fuel t e s i : t <> 8 -> vars s 8 = N.of_nat i -> (N.of_nat (S i) < 2 ^ 32)%N ->
  goes false fuel (all (aes_word t e)) s (set_var (set_var s t (N.lxor (ev s e) (arrs s 0 i))) 8 (N.of_nat (S i))).
Proof.
  intros Ht H8 Hi. unfold aes_word. eapply go_all_cons; [apply go_set|]. eapply go_all_cons; [apply go_set|].
  cbn [ev val2 vars set_var]. rewrite (proj2 (Nat.eqb_neq 8 t)) by auto. rewrite H8, Nat2N.id, (wadd_nat 32 i (S i)) by (assumption || lia). apply go_all_nil.
Qed.
Definition xs (s : state) : list N := [vars s 0; vars s 1; vars s 2; vars s 3].
Definition ts (s : state) : list N := [vars s 4; vars s 5; vars s 6; vars s 7].
Definition keys (s : state) (i : nat) : list N := map (fun j => arrs s 0 (i + j)) (seq 0 4).

Lemma go_round fuel s i : tabs s -> vars s 8 = N.of_nat i -> (N.of_nat (i + 4) < 2 ^ 32)%N ->
  exists s', goes false fuel (all aes_round) s s' /\ xs s' = xors (rj_layer rj_E rj_ix128 (xs s)) (keys s i) /\
    vars s' 8 = N.of_nat (i + 4) /\ vars s' 9 = vars s 9 /\ arrs s' = arrs s.
Proof.
  intros T H8 Hi.
  assert (G0 := go_word fuel 4 (aes_E 0 1 2 3) s i ltac:(discriminate) H8 ltac:(lia)).
  set (s1 := set_var (set_var s 4 _) 8 _) in G0. assert (T1 : tabs s1) by exact T.
  assert (G1 := go_word fuel 5 (aes_E 1 2 3 0) s1 (S i) ltac:(discriminate) eq_refl ltac:(lia)).
  set (s2 := set_var (set_var s1 5 _) 8 _) in G1. assert (T2 : tabs s2) by exact T.
  assert (G2 := go_word fuel 6 (aes_E 2 3 0 1) s2 (S (S i)) ltac:(discriminate) eq_refl ltac:(lia)).
  set (s3 := set_var (set_var s2 6 _) 8 _) in G2. assert (T3 : tabs s3) by exact T.
  assert (G3 := go_word fuel 7 (aes_E 3 0 1 2) s3 (S (S (S i))) ltac:(discriminate) eq_refl ltac:(lia)).
  set (s4 := set_var (set_var s3 7 _) 8 _) in G3.
  eexists. split; [|split; [|split; [|split]]].
  - unfold aes_round. eapply go_all_app; [exact G0|]. eapply go_all_app; [exact G1|]. eapply go_all_app; [exact G2|]. eapply go_all_app; [exact G3|].
    repeat (eapply go_all_cons; [apply go_set|]). apply go_all_nil.
  - unfold xs at 1. cbn [vars set_var Nat.eqb ev s4 s3 s2 s1]. fold s1 s2 s3.
    rewrite (ev_E s), (ev_E s1), (ev_E s2), (ev_E s3) by assumption. cbn [vars set_var Nat.eqb arrs s3 s2 s1].
    unfold xors, rj_layer, rj_ix128, keys, xs. cbn [map seq nth combine fst snd].
    replace (i + 0) with i by lia. replace (i + 1) with (S i) by lia. replace (i + 2) with (S (S i)) by lia. replace (i + 3) with (S (S (S i))) by lia. exact eq_refl.
  - cbn [vars set_var Nat.eqb s4]. f_equal. lia.
  - exact eq_refl.
  - exact eq_refl.
Qed.

Lemma go_loop fuel r n i s : (N.of_nat r < 2 ^ 30)%N -> 1 <= i -> i + n = r -> tabs s -> vars s 8 = N.of_nat (4 * i) -> vars s 9 = N.of_nat r ->
  exists s', spins fuel aes_cond (all aes_round) (S n) s s' /\
    mfor n i (fun i x => let* ki := Ok (keys s (4 * i)) in Ok (xors (rj_layer rj_E rj_ix128 x) ki)) (xs s) = Ok (xs s') /\
    vars s' 8 = N.of_nat (4 * r) /\ vars s' 9 = vars s 9 /\ arrs s' = arrs s.
Proof.
  intros Hr. revert i s. induction n as [|n IH]; intros i s H1 Hi T H8 H9.
  - exists s. split; [|split; [reflexivity|split; [rewrite H8; f_equal; lia|split; reflexivity]]].
    apply spin_end. unfold aes_cond. cbn [ev val1 val2]. rewrite H8, H9. unfold wshl. rewrite mask_id by (unfold inw; rewrite N.shiftl_mul_pow2; change (2 ^ 32)%N with (2 ^ 30 * 2 ^ 2)%N; apply N.mul_lt_mono_pos_r; [reflexivity|exact Hr]).
    rewrite N.shiftl_mul_pow2. change (2 ^ 2)%N with 4%N. rewrite (proj2 (N.ltb_ge _ _)) by lia. reflexivity.
  - destruct (go_round fuel s (4 * i) T H8) as (s1 & G & X & V8 & V9 & A).
    { change (2 ^ 32)%N with (4 * 2 ^ 30)%N. lia. }
    destruct (IH (S i) s1) as (s2 & G2 & X2 & W8 & W9 & A2); [lia|lia|intros j; rewrite A; apply T|rewrite V8; f_equal; lia|now rewrite V9|].
    exists s2. split; [|split; [|split; [exact W8|split; [now rewrite W9|now rewrite A2]]]].
    + apply spin_turn with (s1 := s1); [|exact G|exact G2].
      unfold aes_cond. cbn [ev val1 val2]. rewrite H8, H9. unfold wshl. rewrite mask_id by (unfold inw; rewrite N.shiftl_mul_pow2; change (2 ^ 32)%N with (2 ^ 30 * 2 ^ 2)%N; apply N.mul_lt_mono_pos_r; [reflexivity|exact Hr]).
      rewrite N.shiftl_mul_pow2. change (2 ^ 2)%N with 4%N. rewrite (proj2 (N.ltb_lt (N.of_nat (4 * i)) (N.of_nat r * 4))) by lia. discriminate.
    + cbn [mfor bind]. rewrite <- X. unfold keys in *. rewrite A in X2. exact X2.
Qed.
Lemma go_last fuel s i : tabs s -> vars s 8 = N.of_nat i -> (N.of_nat (i + 4) < 2 ^ 32)%N ->
  exists s', goes false fuel (all aes_last) s s' /\ ts s' = xors (rj_layer rj_EL rj_ix128 (xs s)) (keys s i) /\ arrs s' = arrs s.
Proof.
  intros T H8 Hi.
  assert (G0 := go_word fuel 4 (aes_EL 0 1 2 3) s i ltac:(discriminate) H8 ltac:(lia)).
  set (s1 := set_var (set_var s 4 _) 8 _) in G0. assert (T1 : tabs s1) by exact T.
  assert (G1 := go_word fuel 5 (aes_EL 1 2 3 0) s1 (S i) ltac:(discriminate) eq_refl ltac:(lia)).
  set (s2 := set_var (set_var s1 5 _) 8 _) in G1. assert (T2 : tabs s2) by exact T.
  assert (G2 := go_word fuel 6 (aes_EL 2 3 0 1) s2 (S (S i)) ltac:(discriminate) eq_refl ltac:(lia)).
  set (s3 := set_var (set_var s2 6 _) 8 _) in G2. assert (T3 : tabs s3) by exact T.
  assert (E3 : ev s3 (Bin Xor (aes_EL 3 0 1 2) (At 0 (Var 8))) = N.lxor (ev s3 (aes_EL 3 0 1 2)) (arrs s 0 (S (S (S i))))).
  { cbn [ev val2]. f_equal. change (vars s3 8) with (N.of_nat (S (S (S i)))). rewrite Nat2N.id. reflexivity. }
  eexists. split; [|split].
  - unfold aes_last. eapply go_all_app; [exact G0|]. eapply go_all_app; [exact G1|]. eapply go_all_app; [exact G2|].
    eapply go_all_cons; [apply go_set|]. rewrite E3. apply go_all_nil.
  - unfold ts. cbn [vars set_var Nat.eqb s3 s2 s1]. fold s1 s2 s3.
    rewrite (ev_EL s), (ev_EL s1), (ev_EL s2), (ev_EL s3) by assumption. cbn [vars set_var Nat.eqb arrs s3 s2 s1].
    unfold xors, rj_layer, rj_ix128, keys, xs. cbn [map seq nth combine fst snd].
    replace (i + 0) with i by lia. replace (i + 1) with (S i) by lia. replace (i + 2) with (S (S i)) by lia. replace (i + 3) with (S (S (S i))) by lia. exact eq_refl.
  - exact eq_refl.
Qed.
Lemma go_start1 fuel s l j : j < 4 -> (forall i, (arrs s 6 i < 256)%N) -> (forall i, i < 16 -> b_ l i = arrs s 6 i) ->
  goes false fuel (Set_ j (Bin Xor (ldb 6 (4 * j)) (At 0 (lit j)))) s (set_var s j (N.lxor (load32b l (4 * j)) (arrs s 0 j))).
Proof.
  intros Hj B L. assert (E : ev s (Bin Xor (ldb 6 (4 * j)) (At 0 (lit j))) = N.lxor (load32b l (4 * j)) (arrs s 0 j)).
  { rewrite <- (ev_ldb s (4 * j) l B) by (intros i Hi; apply L; lia). unfold lit. cbn [ev val2]. rewrite Nat2N.id. reflexivity. }
  rewrite <- E. apply go_set.
Qed.
Lemma go_start fuel s l : (forall i, (arrs s 6 i < 256)%N) -> (forall i, i < 16 -> b_ l i = arrs s 6 i) ->
  exists s', goes false fuel (all aes_start) s s' /\ xs s' = xors (loads load32b 4 4 l) (keys s 0) /\ vars s' 8 = 4%N /\ vars s' 9 = vars s 9 /\ arrs s' = arrs s.
Proof.
  intros B L. unfold loads. cbn [map seq]. unfold aes_start. cbn [map seq app].
  assert (G0 := go_start1 fuel s l 0 ltac:(lia) B L). set (e0 := ldb 6 (4 * 0)) in *. set (w0 := load32b l (4 * 0)) in *. clearbody e0 w0.
  assert (G1 := fun s' B L => go_start1 fuel s' l 1 ltac:(lia) B L). set (e1 := ldb 6 (4 * 1)) in *. set (w1 := load32b l (4 * 1)) in *. clearbody e1 w1.
  assert (G2 := fun s' B L => go_start1 fuel s' l 2 ltac:(lia) B L). set (e2 := ldb 6 (4 * 2)) in *. set (w2 := load32b l (4 * 2)) in *. clearbody e2 w2.
  assert (G3 := fun s' B L => go_start1 fuel s' l 3 ltac:(lia) B L). set (e3 := ldb 6 (4 * 3)) in *. set (w3 := load32b l (4 * 3)) in *. clearbody e3 w3.
  eexists. split; [|split; [|split; [|split]]].
  - eapply go_all_cons; [exact G0|]. eapply go_all_cons; [exact (G1 (set_var s 0 _) B L)|]. eapply go_all_cons; [exact (G2 (set_var (set_var s 0 _) 1 _) B L)|].
    eapply go_all_cons; [exact (G3 (set_var (set_var (set_var s 0 _) 1 _) 2 _) B L)|]. eapply go_all_cons; [apply go_set|]. apply go_all_nil.
  - reflexivity.
  - reflexivity.
  - reflexivity.
  - reflexivity.
Qed.
Lemma go_stb fuel x a o s : goes false fuel (all (stb x a o)) s
  (set_arr (set_arr (set_arr (set_arr s a o (mask 8 (wshr (vars s x) 24))) a (o + 1) (mask 8 (wshr (vars s x) 16))) a (o + 2) (mask 8 (wshr (vars s x) 8))) a (o + 3) (mask 8 (vars s x))).
Proof.
  unfold stb. repeat (eapply go_all_cons; [apply go_put|]). unfold lit. cbn [ev val1]. rewrite !Nat2N.id. apply go_all_nil.
Qed.
Lemma go_stores fuel s : exists s', goes false fuel (all (stb 4 7 0 ++ stb 5 7 4 ++ stb 6 7 8 ++ stb 7 7 12)) s s' /\
  map (arrs s' 7) (seq 0 16) = stores store32b (ts s).
Proof.
  eexists. split.
  - eapply go_all_app; [apply go_stb|]. eapply go_all_app; [apply go_stb|]. eapply go_all_app; apply go_stb.
  - cbn [map seq arrs set_arr Nat.eqb andb Nat.add vars]. unfold stores, ts, store32b. cbn [flat_map app concat map]. reflexivity.
Qed.

(** the program is the function of the model *)
Definition aes_start_ok (r : nat) (s : state) : Prop := tabs s /\ vars s 9 = N.of_nat r /\ (forall i, (arrs s 6 i < 256)%N).
Lemma b_arr (f : nat -> N) n i : i < n -> b_ (map f (seq 0 n)) i = f i.
Proof. intros H. unfold b_. apply nth_arr. exact H. Qed.
Lemma reads_keys s r i : i <= r -> reads (map (arrs s 0) (seq 0 (4 * S r))) (4 * i) 4 = Ok (keys s (4 * i)).
Proof.
  intros Hi. unfold reads. rewrite map_length, seq_length. rewrite (proj2 (Nat.leb_le _ _)) by lia. f_equal. unfold keys.
  rewrite skipn_map, firstn_map. replace (4 * S r) with (4 * i + (4 + 4 * (r - i))) by lia. rewrite seq_app.
  rewrite skipn_app, seq_length, Nat.sub_diag, skipn_all2 by (rewrite seq_length; lia). cbn [app skipn]. rewrite seq_app, firstn_app, seq_length, Nat.sub_diag, firstn_all2 by (rewrite seq_length; lia).
  cbn [firstn]. rewrite app_nil_r. rewrite (seq_off (0 + 4 * i)), map_map. reflexivity.
Qed.
Lemma aes_runs r s : (N.of_nat (S r) < 2 ^ 30)%N -> 1 <= r -> aes_start_ok r s ->
  exists s', goes false r aes_code s s' /\
    rijndael128_encrypt {| rj_r := N.of_nat r; rj_k := map (arrs s 0) (seq 0 (4 * S r)); rj_dk := [] |} (map (arrs s 6) (seq 0 16)) = Ok (map (arrs s' 7) (seq 0 16)).
Proof.
  intros Hr H1 (T & H9 & B).
  destruct (go_start r s (map (arrs s 6) (seq 0 16)) B ltac:(intros i Hi; apply b_arr; exact Hi)) as (s1 & G1 & X1 & V8 & V9 & A1).
  destruct (go_loop r r (r - 1) 1 s1) as (s2 & G2 & X2 & W8 & W9 & A2); [lia|lia|lia|intros j; rewrite A1; apply T|rewrite V8; reflexivity|rewrite V9; exact H9|].
  destruct (go_last r s2 (4 * r)) as (s3 & G3 & X3 & A3); [intros j; rewrite A2, A1; apply T|exact W8|change (2 ^ 32)%N with (4 * 2 ^ 30)%N; lia|].
  destruct (go_stores r s3) as (s4 & G4 & X4). exists s4. split.
  - unfold aes_code. eapply go_all_app; [exact G1|]. eapply go_all_app; [|eapply go_all_app; [exact G3|exact G4]].
    eapply go_all_cons; [|apply go_all_nil]. apply go_while. replace (S (r - 1)) with r in G2 by lia. exact G2.
  - unfold rijndael128_encrypt. cbn [Rijndael.rj_r Rijndael.rj_k]. unfold rj_crypt. rewrite Nat2N.id. pose proof (reads_keys s r 0 ltac:(lia)) as R0. change (4 * 0) with 0 in R0. rewrite R0. cbn [bind]. rewrite <- X1.
    rewrite (mfor_ext (r - 1) 1 _ (fun i x => let* ki := Ok (keys s1 (4 * i)) in Ok (xors (rj_layer rj_E rj_ix128 x) ki))).
    + rewrite X2. cbn [bind]. rewrite Nat.max_r by lia. rewrite reads_keys by lia. cbn [bind]. unfold keys in X3. rewrite A2, A1 in X3. unfold keys. rewrite <- X3, X4. reflexivity.
    + intros i x Hi. rewrite reads_keys by lia. unfold keys. rewrite A1. reflexivity.
Qed.

(** what the steps show *)
Lemma exec_app fuel l1 l2 s s1 t1 : exec fuel (all l1) s = Some (s1, t1, false) ->
  exec fuel (all (l1 ++ l2)) s = match exec fuel (all l2) s1 with Some (s2, t2, b) => Some (s2, t1 ++ t2, b) | None => None end.
Proof.
  revert s t1. induction l1 as [|c l IH]; intros s t1 H.
  - injection H as -> <-. cbn [app]. destruct (exec fuel (all l2) s1) as [[[s2 t2] b]|]; reflexivity.
  - cbn [all fold_right exec app] in *. fold (all l) in H. fold (all (l ++ l2)). destruct (exec fuel c s) as [[[s' t'] []]|]; try discriminate.
    destruct (exec fuel (all l) s') as [[[s3 t3] b3]|] eqn:E3; try discriminate. injection H as -> <- ->. rewrite (IH s' t3 E3).
    destruct (exec fuel (all l2) s1) as [[[s2 t2] b]|]; [|reflexivity]. now rewrite app_assoc.
Qed.
Lemma app_same {A} (a b c d : list A) : length a = length b -> a ++ c = b ++ d -> a = b.
Proof. revert b. induction a as [|x a IH]; intros [|y b] L E; try discriminate; [reflexivity|]. cbn [length app] in *. injection L as L. injection E as -> E. f_equal. now apply IH. Qed.

(** the places of the tables read in a round *)
Definition seen (x : nat -> N) (a b c d : nat) : list step :=
  [Reads 1 (N.to_nat (wshr (x a) 24)); Reads 2 (N.to_nat (mask 8 (wshr (x b) 16))); Reads 3 (N.to_nat (mask 8 (wshr (x c) 8))); Reads 4 (N.to_nat (mask 8 (x d)))].
Definition round_seen (x : nat -> N) : list step :=
  (seen x 0 1 2 3 ++ [Reads 0 (N.to_nat (x 8))]) ++ (seen x 1 2 3 0 ++ [Reads 0 (N.to_nat (wadd 32 (x 8) 1))]) ++
  (seen x 2 3 0 1 ++ [Reads 0 (N.to_nat (wadd 32 (wadd 32 (x 8) 1) 1))]) ++ (seen x 3 0 1 2 ++ [Reads 0 (N.to_nat (wadd 32 (wadd 32 (wadd 32 (x 8) 1) 1) 1))]).
Lemma word_steps fuel t e s : t <> 8 -> exists s', exec fuel (all (aes_word t e)) s = Some (s', snd (eval s e) ++ [Reads 0 (N.to_nat (vars s 8))], false) /\
  vars s' 8 = wadd 32 (vars s 8) 1 /\ forall x, x <> t -> x <> 8 -> vars s' x = vars s x.
Proof.
  intros Ht. unfold aes_word. cbn [all fold_right exec eval]. destruct (eval s e) as [v te]. cbn [snd app]. eexists. split; [rewrite app_nil_r; reflexivity|]. cbn [vars set_var].
  rewrite (proj2 (Nat.eqb_neq 8 t)) by auto. split; [reflexivity|]. intros x H1 H2. rewrite (proj2 (Nat.eqb_neq x 8)), (proj2 (Nat.eqb_neq x t)) by assumption. reflexivity.
Qed.
Lemma E_steps s a b c d : snd (eval s (aes_E a b c d)) = seen (vars s) a b c d.
Proof. reflexivity. Qed.
Lemma round_steps fuel s : exists s', exec fuel (all aes_round) s = Some (s', round_seen (vars s), false).
Proof.
  destruct (word_steps fuel 4 (aes_E 0 1 2 3) s ltac:(discriminate)) as (s1 & R1 & K1 & V1).
  destruct (word_steps fuel 5 (aes_E 1 2 3 0) s1 ltac:(discriminate)) as (s2 & R2 & K2 & V2).
  destruct (word_steps fuel 6 (aes_E 2 3 0 1) s2 ltac:(discriminate)) as (s3 & R3 & K3 & V3).
  destruct (word_steps fuel 7 (aes_E 3 0 1 2) s3 ltac:(discriminate)) as (s4 & R4 & _).
  rewrite E_steps in R1, R2, R3, R4. unfold aes_round. rewrite (exec_app _ _ _ _ _ _ R1), (exec_app _ _ _ _ _ _ R2), (exec_app _ _ _ _ _ _ R3), (exec_app _ _ _ _ _ _ R4).
  clear R1 R2 R3 R4. cbn [all fold_right exec eval]. eexists. f_equal. f_equal. f_equal. unfold round_seen, seen.
  rewrite K3, K2, K1. rewrite !V3, !V2, !V1 by discriminate. reflexivity.
Qed.
Lemma start_steps fuel : exists t, forall s, (forall i, (arrs s 6 i < 256)%N) -> exists s', exec fuel (all aes_start) s = Some (s', t, false) /\
  xs s' = xors (loads load32b 4 4 (map (arrs s 6) (seq 0 16))) (keys s 0) /\ vars s' 8 = 4%N /\ vars s' 9 = vars s 9 /\ arrs s' = arrs s.
Proof.
  apply (fixed_steps _ _ [] [] (fun _ => false) (fun s => forall i, (arrs s 6 i < 256)%N) (fun s s' => xs s' = xors (loads load32b 4 4 (map (arrs s 6) (seq 0 16))) (keys s 0) /\ vars s' 8 = 4%N /\ vars s' 9 = vars s 9 /\ arrs s' = arrs s)
    {| vars := fun _ => 0%N; arrs := fun _ _ => 0%N |}); [vm_compute; reflexivity|reflexivity| |].
  - intros s s' _ _. split; discriminate.
  - intros s B. destruct (go_start fuel s (map (arrs s 6) (seq 0 16)) B ltac:(intros i Hi; apply b_arr; exact Hi)) as (s1 & G & H). exists s1. now split.
Qed.
Lemma word_same x y : (x < 2 ^ 32)%N -> (y < 2 ^ 32)%N -> N.to_nat (wshr x 24) = N.to_nat (wshr y 24) -> N.to_nat (mask 8 (wshr x 16)) = N.to_nat (mask 8 (wshr y 16)) ->
  N.to_nat (mask 8 (wshr x 8)) = N.to_nat (mask 8 (wshr y 8)) -> N.to_nat (mask 8 x) = N.to_nat (mask 8 y) -> x = y.
Proof.
  intros Hx Hy E0 E1 E2 E3. apply N2Nat.inj in E0, E1, E2, E3.
  assert (S : store32b x = store32b y). { unfold store32b, wshr in *. rewrite !mask_byte in E1, E2, E3. now rewrite E0, E1, E2, E3. }
  pose proof (c_ldst _ _ _ _ codec32b x [] [] Hx) as Lx. pose proof (c_ldst _ _ _ _ codec32b y [] [] Hy) as Ly. rewrite S in Lx. congruence.
Qed.
Lemma some_mid {A B C} (a a' : A) (b b' : B) (c c' : C) : Some (a, b, c) = Some (a', b', c') -> b = b'.
Proof. congruence. Qed.
Lemma loop_prefix r e body l1 l2 s s1 s2 t0 t1 v sf t : exec (S r) (all l1) s = Some (s1, t0, false) -> eval s1 e = (v, []) -> (v =? 0)%N = false ->
  exec (S r) body s1 = Some (s2, t1, false) -> exec (S r) (all (l1 ++ [While e body] ++ l2)) s = Some (sf, t, false) -> exists t', t = t0 ++ Goes true :: t1 ++ t'.
Proof.
  intros E C V R. rewrite (exec_app _ _ _ _ _ _ E). cbn [app]. change (all (While e body :: l2)) with (Seq (While e body) (all l2)). set (c2 := all l2). clearbody c2.
  cbn [exec turns]. rewrite C, V, R. destruct (turns e (exec (S r) body) r s2) as [[[s3 t3] []]|]; [| |discriminate].
  - discriminate.
  - destruct (exec (S r) c2 s3) as [[[s4 t4] b4]|]; [|discriminate]. intros X. apply some_mid in X. rewrite <- X. exists (t3 ++ t4). cbn [app]. rewrite <- app_assoc. reflexivity.
Qed.
Lemma aes_prefix r t0 s s1 : 2 <= r -> (N.of_nat (S r) < 2 ^ 30)%N -> vars s 9 = N.of_nat r -> exec r (all aes_start) s = Some (s1, t0, false) -> vars s1 8 = 4%N -> vars s1 9 = vars s 9 ->
  (exists s', goes false r aes_code s s') -> exists t, steps_of (exec r aes_code s) = t0 ++ Goes true :: round_seen (vars s1) ++ t.
Proof.
  intros H2 Hr H9 E V8 V9 (s' & t & G). rewrite G. cbn [steps_of]. destruct r as [|r]; [lia|].
  assert (C : eval s1 aes_cond = (1%N, [])).
  { unfold aes_cond. cbn [eval val1 val2 app]. rewrite V8, V9, H9. unfold wshl. rewrite mask_id.
    - rewrite N.shiftl_mul_pow2. change (2 ^ 2)%N with 4%N. rewrite (proj2 (N.ltb_lt 4 (N.of_nat (S r) * 4))) by lia. reflexivity.
    - unfold inw. rewrite N.shiftl_mul_pow2. change (2 ^ 32)%N with (2 ^ 30 * 2 ^ 2)%N. apply N.mul_lt_mono_pos_r; [reflexivity|lia]. }
  destruct (round_steps (S r) s1) as (s2 & R). unfold aes_code in G. set (l2 := aes_last ++ _) in G. clearbody l2. exact (loop_prefix r aes_cond (all aes_round) aes_start l2 s s1 s2 t0 _ 1%N s' t E C eq_refl R G).
Qed.
Lemma tail_same {A} (x y : A) a b : x :: a = y :: b -> a = b.
Proof. congruence. Qed.
Lemma reads_same a0 a1 a2 a3 a4 b0 b1 b2 b3 b4 c0 c1 c2 c3 c4 d0 d1 d2 d3 d4 a0' a1' a2' a3' a4' b0' b1' b2' b3' b4' c0' c1' c2' c3' c4' d0' d1' d2' d3' d4' :
  [Reads 1 a0; Reads 2 a1; Reads 3 a2; Reads 4 a3; Reads 0 a4; Reads 1 b0; Reads 2 b1; Reads 3 b2; Reads 4 b3; Reads 0 b4; Reads 1 c0; Reads 2 c1; Reads 3 c2; Reads 4 c3; Reads 0 c4; Reads 1 d0; Reads 2 d1; Reads 3 d2; Reads 4 d3; Reads 0 d4] =
  [Reads 1 a0'; Reads 2 a1'; Reads 3 a2'; Reads 4 a3'; Reads 0 a4'; Reads 1 b0'; Reads 2 b1'; Reads 3 b2'; Reads 4 b3'; Reads 0 b4'; Reads 1 c0'; Reads 2 c1'; Reads 3 c2'; Reads 4 c3'; Reads 0 c4'; Reads 1 d0'; Reads 2 d1'; Reads 3 d2'; Reads 4 d3'; Reads 0 d4'] ->
  a0 = a0' /\ a1 = a1' /\ a2 = a2' /\ a3 = a3' /\ b0 = b0' /\ b1 = b1' /\ b2 = b2' /\ b3 = b3' /\ c0 = c0' /\ c1 = c1' /\ c2 = c2' /\ c3 = c3' /\ d0 = d0' /\ d1 = d1' /\ d2 = d2' /\ d3 = d3'.
Proof. intros E. injection E as ->  ->  ->  ->  ->  ->  ->  ->  ->  ->  ->  ->  ->  ->  ->  ->  ->  ->  ->  -> . repeat split. Qed.
Lemma aes_shows r s s' : 2 <= r -> (N.of_nat (S r) < 2 ^ 30)%N -> aes_start_ok r s -> aes_start_ok r s' ->
  (forall i, i < 4 -> (arrs s 0 i < 2 ^ 32)%N /\ (arrs s' 0 i < 2 ^ 32)%N) ->
  steps_of (exec r aes_code s) = steps_of (exec r aes_code s') ->
  forall j, j < 4 -> N.lxor (load32b (map (arrs s 6) (seq 0 16)) (4 * j)) (arrs s 0 j) = N.lxor (load32b (map (arrs s' 6) (seq 0 16)) (4 * j)) (arrs s' 0 j).
Proof.
  intros H2 Hr Hs Hs' K E. destruct (start_steps r) as (t0 & S0).
  assert (H1 : 1 <= r) by lia.
  destruct (aes_runs r s Hr H1 Hs) as (f & G & _). destruct (aes_runs r s' Hr H1 Hs') as (f' & G' & _).
  destruct Hs as (T & H9 & B), Hs' as (T' & H9' & B').
  destruct (S0 s B) as (s1 & E1 & X1 & V8 & V9 & A1). destruct (S0 s' B') as (s1' & E1' & X1' & V8' & V9' & A1').
  destruct (aes_prefix r t0 s s1 H2 Hr H9 E1 V8 V9 (ex_intro _ f G)) as (t & P). destruct (aes_prefix r t0 s' s1' H2 Hr H9' E1' V8' V9' (ex_intro _ f' G')) as (t' & P').
  rewrite P, P' in E. apply app_inv_head in E. apply tail_same in E. apply (app_same (round_seen (vars s1)) (round_seen (vars s1'))) in E; [|reflexivity].
  assert (W : forall z, (forall i, (arrs z 6 i < 256)%N) -> (forall i, i < 4 -> (arrs z 0 i < 2 ^ 32)%N) -> forall j, j < 4 -> (N.lxor (load32b (map (arrs z 6) (seq 0 16)) (4 * j)) (arrs z 0 j) < 2 ^ 32)%N).
  { intros z Bz Kz j Hj. apply inw_lxor; [|apply Kz, Hj]. apply (c_inw _ _ _ _ codec32b). apply Forall_forall. intros b Hb. apply in_map_iff in Hb. destruct Hb as (i & <- & _). apply Bz. }
  assert (Wa := W s B ltac:(intros i Hi; apply K, Hi)). assert (Wb := W s' B' ltac:(intros i Hi; apply K, Hi)). clear W.
  unfold xs, xors, loads, keys in X1, X1'. cbn [map seq combine fst snd Nat.add] in X1, X1'.
  set (w := fun j => N.lxor (load32b (map (arrs s 6) (seq 0 16)) (4 * j)) (arrs s 0 j)) in *. set (w' := fun j => N.lxor (load32b (map (arrs s' 6) (seq 0 16)) (4 * j)) (arrs s' 0 j)) in *.
  change ([vars s1 0; vars s1 1; vars s1 2; vars s1 3] = [w 0; w 1; w 2; w 3]) in X1. change ([vars s1' 0; vars s1' 1; vars s1' 2; vars s1' 3] = [w' 0; w' 1; w' 2; w' 3]) in X1'.
  assert (Wc : forall j, j < 4 -> (w j < 2 ^ 32)%N) by exact Wa. assert (Wd : forall j, j < 4 -> (w' j < 2 ^ 32)%N) by exact Wb. change (forall j, j < 4 -> w j = w' j).
  clearbody w w'. clear Wa Wb. injection X1 as Y0 Y1 Y2 Y3. injection X1' as Y0' Y1' Y2' Y3'.
  unfold round_seen, seen in E. cbn [app] in E. rewrite Y0, Y1, Y2, Y3, Y0', Y1', Y2', Y3' in E. apply reads_same in E. destruct E as (Ea0 & Ea1 & Ea2 & Ea3 & Eb0 & Eb1 & Eb2 & Eb3 & Ec0 & Ec1 & Ec2 & Ec3 & Ed0 & Ed1 & Ed2 & Ed3).
  intros j Hj. destruct j as [|[|[|[|j]]]]; [| | | |lia]; (apply word_same; [now apply Wc; lia|now apply Wd; lia|assumption..]).
Qed.
