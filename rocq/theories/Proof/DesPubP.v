(** DES and triple DES are the published ciphers. *)
From Coq Require Import NArith PArith Arith List Bool Lia.
From Verif Require Import Lib.Word Lib.Res Lib.Bytes Lib.Bij Lib.Bits Lib.BitsP Lib.XorSolve Lib.Lists Lib.WordSpec Lib.WordsP Lib.BlockLemmas Spec.Words Spec.Block Spec.Cipher Spec.Arx Spec.DesPub
  Model.LoadStore Model.BlockApi Model.Des Model.Ciphers
  Proof.LoadStoreP Proof.DesP Proof.CiphersP Proof.Sha1P Proof.RekeyP Proof.ArxP Proof.SpeckPubP Proof.PubLib.
Import ListNotations.
Local Open Scope N_scope.

(** * The initial and final permutations *)
Definition lin22 (f : N * N -> N * N) : Prop := forall x y, @w2 32 x -> @w2 32 y -> f (x2 x y) = x2 (f x) (f y).
Definition keeps (f : N * N -> N * N) : Prop := forall x, @w2 32 x -> @w2 32 (f x).
Lemma lin22_comp f g : lin22 f -> keeps f -> lin22 g -> lin22 (fun x => g (f x)).
Proof. intros Hf Kf Hg x y Hx Hy. rewrite Hf by assumption. apply Hg; now apply Kf. Qed.
Lemma keeps_comp f g : keeps f -> keeps g -> keeps (fun x => g (f x)).
Proof. intros Hf Hg x Hx. apply Hg, Hf, Hx. Qed.
Lemma lin22_delta n m : lin22 (des_delta n m).
Proof.
  intros [a b] [c d] _ _. unfold des_delta, x2. cbn [fst snd]. rewrite wshr_lxor.
  assert (E : N.land (N.lxor (N.lxor (wshr a n) (wshr c n)) (N.lxor b d)) m = N.lxor (N.land (N.lxor (wshr a n) b) m) (N.land (N.lxor (wshr c n) d) m)).
  { rewrite !land_lxor. xors. }
  rewrite E, wshl_lxor. f_equal; xors.
Qed.
Lemma keeps_delta n m : inw 32 m -> keeps (des_delta n m).
Proof. intros H [a b] [Ha Hb]. cbn [fst snd] in *. unfold des_delta. split; cbn [fst snd]; wb. Qed.
Lemma lin22_sw : lin22 des_sw. Proof. intros [a b] [c d] _ _. reflexivity. Qed.
Lemma keeps_sw : keeps des_sw. Proof. intros [a b] [Ha Hb]. now split. Qed.
Lemma lin22_aa : lin22 des_aa.
Proof.
  intros [a b] [c d] _ _. unfold des_aa, x2. cbn [fst snd].
  assert (E : N.land (N.lxor (N.lxor a c) (N.lxor b d)) 0xAAAAAAAA = N.lxor (N.land (N.lxor a b) 0xAAAAAAAA) (N.land (N.lxor c d) 0xAAAAAAAA)).
  { rewrite !land_lxor. xors. }
  rewrite E. f_equal; xors.
Qed.
Lemma keeps_aa : keeps des_aa.
Proof. intros [a b] [Ha Hb]. cbn [fst snd] in *. unfold des_aa. split; cbn [fst snd]; wb. Qed.
Definition on_snd (g : N -> N) (x : N * N) : N * N := (fst x, g (snd x)).
Definition on_fst (g : N -> N) (x : N * N) : N * N := (g (fst x), snd x).
Lemma lin22_snd g : xlin 32 g -> lin22 (on_snd g).
Proof. intros H [a b] [c d] [_ Hb] [_ Hd]. unfold on_snd, x2. cbn [fst snd] in *. now rewrite H. Qed.
Lemma lin22_fst g : xlin 32 g -> lin22 (on_fst g).
Proof. intros H [a b] [c d] [Ha _] [Hc _]. unfold on_fst, x2. cbn [fst snd] in *. now rewrite H. Qed.
Lemma keeps_snd g : (forall x, inw 32 x -> inw 32 (g x)) -> keeps (on_snd g).
Proof. intros H [a b] [Ha Hb]. split; cbn in *; auto. Qed.
Lemma keeps_fst g : (forall x, inw 32 x -> inw 32 (g x)) -> keeps (on_fst g).
Proof. intros H [a b] [Ha Hb]. split; cbn in *; auto. Qed.
Ltac lk := match goal with
  | |- lin22 (des_delta _ _) => apply lin22_delta
  | |- keeps (des_delta _ _) => apply keeps_delta; reflexivity
  | |- lin22 des_sw => apply lin22_sw
  | |- keeps des_sw => apply keeps_sw
  | |- lin22 des_aa => apply lin22_aa
  | |- keeps des_aa => apply keeps_aa
  | |- lin22 (on_snd _) => apply lin22_snd; (apply xlin_rol || apply xlin_ror); discriminate
  | |- lin22 (on_fst _) => apply lin22_fst; (apply xlin_rol || apply xlin_ror); discriminate
  | |- keeps (on_snd _) => apply keeps_snd; intros; wb
  | |- keeps (on_fst _) => apply keeps_fst; intros; wb
  end.
Fixpoint seqf (l : list (N * N -> N * N)) (x : N * N) : N * N := match l with [] => x | f :: l => seqf l (f x) end.
Lemma seqf_ok l : Forall (fun f => lin22 f /\ keeps f) l -> lin22 (seqf l) /\ keeps (seqf l).
Proof.
  induction 1 as [|f l [Hf Kf] _ [I J]]; [split; [now intros x y|now intros x]|].
  split; cbn [seqf]; [now apply (lin22_comp f (seqf l))|now apply (keeps_comp f (seqf l))].
Qed.
Definition ip_steps : list (N * N -> N * N) :=
  [des_delta 4 0x0F0F0F0F; des_delta 16 0x0000FFFF; des_sw; des_delta 2 0x33333333; des_sw; des_sw; des_delta 8 0x00FF00FF; des_sw;
   on_snd (fun x => rol 32 x 1); des_aa; on_fst (fun x => rol 32 x 1)].
Definition fp_steps : list (N * N -> N * N) :=
  [on_snd (fun x => ror 32 x 1); des_aa; on_fst (fun x => ror 32 x 1); des_delta 8 0x00FF00FF; des_delta 2 0x33333333;
   des_sw; des_delta 16 0x0000FFFF; des_sw; des_sw; des_delta 4 0x0F0F0F0F; des_sw; des_sw].
Lemma des_ip_steps x : des_ip x = seqf ip_steps x. Proof. reflexivity. Qed.
Lemma des_fp_steps x : des_fp x = seqf fp_steps x. Proof. reflexivity. Qed.
Lemma ip_ok : lin22 des_ip /\ keeps des_ip.
Proof. apply (seqf_ok ip_steps). unfold ip_steps. repeat (constructor; [split; lk|]). constructor. Qed.
Lemma fp_ok : lin22 des_fp /\ keeps des_fp.
Proof. apply (seqf_ok fp_steps). unfold fp_steps. repeat (constructor; [split; lk|]). constructor. Qed.

(** a word of the code and the 32 bits it stands for *)
Definition U (x : N) : list bool := to_bits 32 (ror 32 x 1).
Lemma length_U x : length (U x) = 32%nat. Proof. apply length_to_bits. Qed.
Lemma U_lxor a b : inw 32 a -> inw 32 b -> U (N.lxor a b) = xor_bits (U a) (U b).
Proof. intros Ha Hb. unfold U. rewrite ror_lxor by (assumption || discriminate). apply to_bits_lxor. Qed.

Lemma lin2_fst f g : lin22 f -> keeps f -> xlin 32 g -> lin2 32 (fun x => g (fst (f x))).
Proof. intros Hf Kf Hg x y Hx Hy. rewrite Hf by assumption. cbn [x2 fst]. apply Hg; now apply Kf. Qed.
Lemma lin2_snd f g : lin22 f -> keeps f -> xlin 32 g -> lin2 32 (fun x => g (snd (f x))).
Proof. intros Hf Kf Hg x y Hx Hy. rewrite Hf by assumption. cbn [x2 snd]. apply Hg; now apply Kf. Qed.
Lemma lin2_select t (f g : N -> N) : xlin 32 f -> xlin 32 g -> lin2 32 (fun x => of_bits (select t (to_bits 32 (f (fst x)) ++ to_bits 32 (g (snd x))))).
Proof.
  intros Hf Hg [a b] [c d] [Ha Hb] [Hc Hd]. unfold x2. cbn [fst snd] in *. rewrite Hf, Hg by assumption. rewrite !to_bits_lxor.
  rewrite app_xor by now rewrite !length_to_bits. rewrite select_xor by (rewrite !app_length, !length_to_bits; reflexivity).
  apply of_bits_xor. unfold select. now rewrite !map_length.
Qed.
Lemma lin2_select' t (f g : N -> N) : xlin 32 f -> xlin 32 g -> lin2 32 (fun x => of_bits (select t (to_bits 32 (f (snd x)) ++ to_bits 32 (g (fst x))))).
Proof.
  intros Hf Hg [a b] [c d] [Ha Hb] [Hc Hd]. unfold x2. cbn [fst snd] in *. rewrite Hf, Hg by assumption. rewrite !to_bits_lxor.
  rewrite app_xor by now rewrite !length_to_bits. rewrite select_xor by (rewrite !app_length, !length_to_bits; reflexivity).
  apply of_bits_xor. unfold select. now rewrite !map_length.
Qed.
Lemma to_bits_eq n b x : length b = n -> of_bits b = x -> to_bits n x = b.
Proof. intros L <-. now apply to_of_bits. Qed.
Lemma des_ip_bits a b : inw 32 a -> inw 32 b ->
  U (fst (des_ip (a, b))) = slice 0 32 (select fips_IP (to_bits 32 a ++ to_bits 32 b)) /\
  U (snd (des_ip (a, b))) = slice 32 32 (select fips_IP (to_bits 32 a ++ to_bits 32 b)).
Proof.
  intros Ha Hb. destruct ip_ok as [L K]. rewrite !slice_select. split.
  - unfold U. apply to_bits_eq; [apply length_select|].
    pose proof (lin2_ext 32 (fun x => of_bits (select (slice 0 32 fips_IP) (to_bits 32 (fst x) ++ to_bits 32 (snd x)))) (fun x => ror 32 (fst (des_ip x)) 1)
      (lin2_select _ _ _ (xlin_id 32) (xlin_id 32)) (lin2_fst _ _ L K (xlin_ror 32 1 ltac:(discriminate)))) as G.
    apply (G ltac:(vm_compute; reflexivity) (a, b)). now split.
  - unfold U. apply to_bits_eq; [apply length_select|].
    pose proof (lin2_ext 32 (fun x => of_bits (select (slice 32 32 fips_IP) (to_bits 32 (fst x) ++ to_bits 32 (snd x)))) (fun x => ror 32 (snd (des_ip x)) 1)
      (lin2_select _ _ _ (xlin_id 32) (xlin_id 32)) (lin2_snd _ _ L K (xlin_ror 32 1 ltac:(discriminate)))) as G.
    apply (G ltac:(vm_compute; reflexivity) (a, b)). now split.
Qed.
Lemma slice_halves {A} (l : list A) : length l = 64%nat -> slice 0 32 l ++ slice 32 32 l = l.
Proof. intros H. unfold slice. cbn [skipn]. rewrite (firstn_all2 (skipn 32 l)) by (rewrite skipn_length; lia). apply firstn_skipn. Qed.
Lemma des_fp_bits l r : inw 32 l -> inw 32 r ->
  to_bits 32 (fst (des_fp (l, r))) ++ to_bits 32 (snd (des_fp (l, r))) = select fips_IP_inverse (U r ++ U l).
Proof.
  intros Hl Hr. destruct fp_ok as [L K].
  rewrite <- (slice_halves (select fips_IP_inverse (U r ++ U l))) by apply length_select. rewrite !slice_select. f_equal.
  - apply to_bits_eq; [apply length_select|]. unfold U.
    pose proof (lin2_ext 32 (fun x => of_bits (select (slice 0 32 fips_IP_inverse) (to_bits 32 (ror 32 (snd x) 1) ++ to_bits 32 (ror 32 (fst x) 1)))) (fun x => fst (des_fp x))
      (lin2_select' _ _ _ (xlin_ror 32 1 ltac:(discriminate)) (xlin_ror 32 1 ltac:(discriminate))) (lin2_fst _ _ L K (xlin_id 32))) as G.
    apply (G ltac:(vm_compute; reflexivity) (l, r)). now split.
  - apply to_bits_eq; [apply length_select|]. unfold U.
    pose proof (lin2_ext 32 (fun x => of_bits (select (slice 32 32 fips_IP_inverse) (to_bits 32 (ror 32 (snd x) 1) ++ to_bits 32 (ror 32 (fst x) 1)))) (fun x => snd (des_fp x))
      (lin2_select' _ _ _ (xlin_ror 32 1 ltac:(discriminate)) (xlin_ror 32 1 ltac:(discriminate))) (lin2_snd _ _ L K (xlin_id 32))) as G.
    apply (G ltac:(vm_compute; reflexivity) (l, r)). now split.
Qed.

(** * The round function *)
Definition sps : list (list N) := [des_sp1; des_sp2; des_sp3; des_sp4; des_sp5; des_sp6; des_sp7; des_sp8].
Definition spj (j : nat) : list N := nth j sps [].
Definition eword (j : nat) (r : N) : N := if Nat.even j then ror 32 r 4 else r.
Definition esh (j : nat) : N := 24 - 8 * N.of_nat (j / 2).
Definition six (x : N) (s : N) : N := N.land (wshr x s) 63.
Lemma six_lxor a b s : six (N.lxor a b) s = N.lxor (six a s) (six b s).
Proof. unfold six. now rewrite wshr_lxor, land_lxor. Qed.

Lemma E_group j r : (j < 8)%nat -> inw 32 r -> six (eword j r) (esh j) = of_bits (select (slice (6 * j) 6 fips_E) (U r)).
Proof.
  intros Hj Hr.
  assert (X : xlin 32 (fun r => six (eword j r) (esh j))).
  { intros a b Ha Hb. unfold eword. destruct (Nat.even j); [rewrite ror_lxor by (assumption || discriminate)|]; apply six_lxor. }
  assert (Y : xlin 32 (fun r => of_bits (select (slice (6 * j) 6 fips_E) (U r)))).
  { intros a b Ha Hb. rewrite U_lxor by assumption. rewrite select_xor by now rewrite !length_U. apply of_bits_xor. now rewrite !length_select. }
  apply (xlin_ext 32 _ _ X Y); [|exact Hr].
  assert (C : forallb (fun j => forallb (fun i => six (eword j (2 ^ N.of_nat i)) (esh j) =? of_bits (select (slice (6 * j) 6 fips_E) (U (2 ^ N.of_nat i)))) (seq 0 (N.to_nat 32))) (seq 0 8) = true)
    by (vm_compute; reflexivity).
  rewrite forallb_forall in C. apply C, in_seq. lia.
Qed.
Fixpoint beqb (a b : list bool) : bool :=
  match a, b with [], [] => true | x :: a, y :: b => Bool.eqb x y && beqb a b | _, _ => false end.
Lemma beqb_eq a b : beqb a b = true -> a = b.
Proof. revert b. induction a as [|x a IH]; intros [|y b]; cbn; try discriminate; [reflexivity|]. intros H. apply andb_true_iff in H. destruct H as [H1 H2]. apply eqb_prop in H1. f_equal; auto. Qed.
Definition placed (j : nat) (b : list bool) : list bool := repeat false (4 * j) ++ b ++ repeat false (28 - 4 * j).
Lemma sp_check : forallb (fun j => forallb (fun v => beqb (U (nth v (spj j) 0)) (select fips_P (placed j (fips_sbox j (to_bits 6 (N.of_nat v)))))) (seq 0 64)) (seq 0 8) = true.
Proof. vm_compute. reflexivity. Qed.
Lemma six_lt x s : six x s < 64.
Proof. unfold six. change 63 with (N.ones 6). rewrite N.land_ones. apply N.mod_lt. discriminate. Qed.
Lemma tab6_six t x s : tab6 t (wshr x s) = nth (N.to_nat (six x s)) t 0. Proof. reflexivity. Qed.
Lemma sp_bits j b : (j < 8)%nat -> length b = 6%nat -> U (nth (N.to_nat (of_bits b)) (spj j) 0) = select fips_P (placed j (fips_sbox j b)).
Proof.
  intros Hj Hb. pose proof sp_check as C. rewrite forallb_forall in C. specialize (C j ltac:(apply in_seq; lia)). rewrite forallb_forall in C.
  pose proof (of_bits_inw b 6 ltac:(rewrite Hb; discriminate)) as I. unfold inw in I. change (2 ^ 6) with 64 in I.
  specialize (C (N.to_nat (of_bits b)) ltac:(apply in_seq; lia)). apply beqb_eq in C. rewrite C. rewrite N2Nat.id, to_of_bits by exact Hb. reflexivity.
Qed.
(** boxes that are or-ed use different bits *)
Definition sp_mask (j : nat) : N := fold_left N.lor (spj j) 0.
Lemma fold_lor_in l : forall a i, N.testbit (fold_left N.lor l a) i = N.testbit a i || existsb (fun x => N.testbit x i) l.
Proof.
  induction l as [|x l IH]; intros a i; [cbn; now rewrite orb_false_r|]. cbn [fold_left existsb]. rewrite IH, N.lor_spec. now rewrite orb_assoc.
Qed.
Lemma in_mask l v i : N.testbit (nth v l 0) i = true -> N.testbit (fold_left N.lor l 0) i = true.
Proof.
  intros H. rewrite fold_lor_in. rewrite N.bits_0. cbn [orb]. apply existsb_exists. exists (nth v l 0). split; [|exact H].
  destruct (Nat.lt_ge_cases v (length l)) as [L|L]; [now apply nth_In|]. rewrite nth_overflow in H by exact L. now rewrite N.bits_0 in H.
Qed.
Lemma disjoint4 (s t u v : list N) a b c d :
  N.land (fold_left N.lor s 0) (fold_left N.lor t 0) = 0 -> N.land (fold_left N.lor s 0) (fold_left N.lor u 0) = 0 ->
  N.land (fold_left N.lor s 0) (fold_left N.lor v 0) = 0 -> N.land (fold_left N.lor t 0) (fold_left N.lor u 0) = 0 ->
  N.land (fold_left N.lor t 0) (fold_left N.lor v 0) = 0 -> N.land (fold_left N.lor u 0) (fold_left N.lor v 0) = 0 ->
  N.lor (N.lor (N.lor (nth a s 0) (nth b t 0)) (nth c u 0)) (nth d v 0) = N.lxor (N.lxor (N.lxor (nth a s 0) (nth b t 0)) (nth c u 0)) (nth d v 0).
Proof.
  intros H1 H2 H3 H4 H5 H6. apply N.bits_inj. intros i. rewrite !N.lor_spec, !N.lxor_spec.
  pose proof (in_mask s a i) as A. pose proof (in_mask t b i) as B. pose proof (in_mask u c i) as C. pose proof (in_mask v d i) as D.
  assert (E : forall x y, N.land x y = 0 -> N.testbit x i = true -> N.testbit y i = true -> False).
  { intros x y Z Hx Hy. assert (F : N.testbit (N.land x y) i = false) by (rewrite Z; apply N.bits_0). rewrite N.land_spec, Hx, Hy in F. discriminate. }
  destruct (N.testbit (nth a s 0) i), (N.testbit (nth b t 0) i), (N.testbit (nth c u 0) i), (N.testbit (nth d v 0) i); try reflexivity; exfalso; eauto.
Qed.
Lemma sp_inw j v : inw 32 (nth v (spj j) 0).
Proof.
  apply words_nth. destruct (Nat.lt_ge_cases j 8) as [L|L].
  - apply des_sp_inw. change (In (nth j sps []) sps). apply nth_In. exact L.
  - unfold spj. rewrite nth_overflow by exact L. constructor.
Qed.
Lemma placed_sum g0 g1 g2 g3 g4 g5 g6 g7 :
  length g0 = 4%nat -> length g1 = 4%nat -> length g2 = 4%nat -> length g3 = 4%nat -> length g4 = 4%nat -> length g5 = 4%nat -> length g6 = 4%nat -> length g7 = 4%nat ->
  xor_bits (xor_bits (xor_bits (xor_bits (placed 6 g6) (placed 4 g4)) (placed 2 g2)) (placed 0 g0))
    (xor_bits (xor_bits (xor_bits (placed 7 g7) (placed 5 g5)) (placed 3 g3)) (placed 1 g1)) = g0 ++ g1 ++ g2 ++ g3 ++ g4 ++ g5 ++ g6 ++ g7.
Proof.
  intros H0 H1 H2 H3 H4 H5 H6 H7.
  do 4 (destruct g0 as [|? g0]; [discriminate H0|]). destruct g0; [|discriminate H0].
  do 4 (destruct g1 as [|? g1]; [discriminate H1|]). destruct g1; [|discriminate H1].
  do 4 (destruct g2 as [|? g2]; [discriminate H2|]). destruct g2; [|discriminate H2].
  do 4 (destruct g3 as [|? g3]; [discriminate H3|]). destruct g3; [|discriminate H3].
  do 4 (destruct g4 as [|? g4]; [discriminate H4|]). destruct g4; [|discriminate H4].
  do 4 (destruct g5 as [|? g5]; [discriminate H5|]). destruct g5; [|discriminate H5].
  do 4 (destruct g6 as [|? g6]; [discriminate H6|]). destruct g6; [|discriminate H6].
  do 4 (destruct g7 as [|? g7]; [discriminate H7|]). destruct g7; [|discriminate H7].
  cbn [placed repeat Nat.mul Nat.add Nat.sub app xor_bits combine map fst snd]. rewrite ?xorb_false_l, ?xorb_false_r. reflexivity.
Qed.
Lemma length_placed j b : (j < 8)%nat -> length b = 4%nat -> length (placed j b) = 32%nat.
Proof. intros Hj Hb. unfold placed. rewrite !app_length, !repeat_length, Hb. lia. Qed.
Lemma length_sbox j b : length (fips_sbox j b) = 4%nat. Proof. apply length_to_bits. Qed.

(** the key words [k0], [k1] hold the eight groups of [K] *)
Definition holds_key (k0 k1 : N) (K : list bool) : Prop :=
  length K = 48%nat /\ forall j, (j < 8)%nat -> six (if Nat.even j then k0 else k1) (esh j) = of_bits (slice (6 * j) 6 K).
Lemma length_slice6 (K : list bool) j : length K = 48%nat -> (j < 8)%nat -> length (slice (6 * j) 6 K) = 6%nat.
Proof. intros H Hj. unfold slice. rewrite firstn_length, skipn_length. lia. Qed.
Lemma length_slice6E j : (j < 8)%nat -> length (slice (6 * j) 6 fips_E) = 6%nat.
Proof. intros H. unfold slice. rewrite firstn_length, skipn_length. change (length fips_E) with 48%nat. lia. Qed.
Lemma sp_part j r k0 k1 K : (j < 8)%nat -> inw 32 r -> holds_key k0 k1 K ->
  let v := nth (N.to_nat (six (N.lxor (eword j r) (if Nat.even j then k0 else k1)) (esh j))) (spj j) 0 in
  inw 32 v /\ U v = select fips_P (placed j (fips_sbox j (slice (6 * j) 6 (xor_bits (select fips_E (U r)) K)))).
Proof.
  intros Hj Hr [LK HK]. cbv zeta. split; [apply sp_inw|].
  rewrite six_lxor, E_group by assumption. rewrite HK by exact Hj.
  rewrite <- of_bits_xor by (rewrite length_select, length_slice6E, length_slice6 by assumption; reflexivity).
  rewrite slice_xor by (rewrite length_select, LK; reflexivity). rewrite slice_select. apply sp_bits; [exact Hj|].
  rewrite length_xor_bits, length_select, length_slice6E, length_slice6 by assumption. reflexivity.
Qed.
Lemma wshr_0 x : wshr x 0 = x. Proof. apply N.shiftr_0_r. Qed.
Lemma des_f_fips l r k0 k1 K : inw 32 l -> inw 32 r -> holds_key k0 k1 K ->
  U (des_f l r k0 k1) = xor_bits (U l) (fips_f (U r) K).
Proof.
  intros Hl Hr HK. unfold des_f. cbv zeta.
  rewrite <- (wshr_0 (N.lxor (ror 32 r 4) k0)) at 1. rewrite <- (wshr_0 (N.lxor r k1)) at 1. rewrite !tab6_six.
  destruct (sp_part 0 r k0 k1 K ltac:(lia) Hr HK) as [I0 P0]. destruct (sp_part 1 r k0 k1 K ltac:(lia) Hr HK) as [I1 P1].
  destruct (sp_part 2 r k0 k1 K ltac:(lia) Hr HK) as [I2 P2]. destruct (sp_part 3 r k0 k1 K ltac:(lia) Hr HK) as [I3 P3].
  destruct (sp_part 4 r k0 k1 K ltac:(lia) Hr HK) as [I4 P4]. destruct (sp_part 5 r k0 k1 K ltac:(lia) Hr HK) as [I5 P5].
  destruct (sp_part 6 r k0 k1 K ltac:(lia) Hr HK) as [I6 P6]. destruct (sp_part 7 r k0 k1 K ltac:(lia) Hr HK) as [I7 P7].
  cbv beta in *.
  rewrite (disjoint4 des_sp7 des_sp5 des_sp3 des_sp1) by (vm_compute; reflexivity).
  rewrite (disjoint4 des_sp8 des_sp6 des_sp4 des_sp2) by (vm_compute; reflexivity).
  set (B := xor_bits (select fips_E (U r)) K) in *.
  change (nth (N.to_nat (six (N.lxor (eword 0 r) (if Nat.even 0 then k0 else k1)) (esh 0))) (spj 0) 0) with (nth (N.to_nat (six (N.lxor (ror 32 r 4) k0) 24)) des_sp1 0) in I0, P0.
  change (nth (N.to_nat (six (N.lxor (eword 1 r) (if Nat.even 1 then k0 else k1)) (esh 1))) (spj 1) 0) with (nth (N.to_nat (six (N.lxor r k1) 24)) des_sp2 0) in I1, P1.
  change (nth (N.to_nat (six (N.lxor (eword 2 r) (if Nat.even 2 then k0 else k1)) (esh 2))) (spj 2) 0) with (nth (N.to_nat (six (N.lxor (ror 32 r 4) k0) 16)) des_sp3 0) in I2, P2.
  change (nth (N.to_nat (six (N.lxor (eword 3 r) (if Nat.even 3 then k0 else k1)) (esh 3))) (spj 3) 0) with (nth (N.to_nat (six (N.lxor r k1) 16)) des_sp4 0) in I3, P3.
  change (nth (N.to_nat (six (N.lxor (eword 4 r) (if Nat.even 4 then k0 else k1)) (esh 4))) (spj 4) 0) with (nth (N.to_nat (six (N.lxor (ror 32 r 4) k0) 8)) des_sp5 0) in I4, P4.
  change (nth (N.to_nat (six (N.lxor (eword 5 r) (if Nat.even 5 then k0 else k1)) (esh 5))) (spj 5) 0) with (nth (N.to_nat (six (N.lxor r k1) 8)) des_sp6 0) in I5, P5.
  change (nth (N.to_nat (six (N.lxor (eword 6 r) (if Nat.even 6 then k0 else k1)) (esh 6))) (spj 6) 0) with (nth (N.to_nat (six (N.lxor (ror 32 r 4) k0) 0)) des_sp7 0) in I6, P6.
  change (nth (N.to_nat (six (N.lxor (eword 7 r) (if Nat.even 7 then k0 else k1)) (esh 7))) (spj 7) 0) with (nth (N.to_nat (six (N.lxor r k1) 0)) des_sp8 0) in I7, P7.
  set (v0 := nth (N.to_nat (six (N.lxor (ror 32 r 4) k0) 24)) des_sp1 0) in *. set (v1 := nth (N.to_nat (six (N.lxor r k1) 24)) des_sp2 0) in *.
  set (v2 := nth (N.to_nat (six (N.lxor (ror 32 r 4) k0) 16)) des_sp3 0) in *. set (v3 := nth (N.to_nat (six (N.lxor r k1) 16)) des_sp4 0) in *.
  set (v4 := nth (N.to_nat (six (N.lxor (ror 32 r 4) k0) 8)) des_sp5 0) in *. set (v5 := nth (N.to_nat (six (N.lxor r k1) 8)) des_sp6 0) in *.
  set (v6 := nth (N.to_nat (six (N.lxor (ror 32 r 4) k0) 0)) des_sp7 0) in *. set (v7 := nth (N.to_nat (six (N.lxor r k1) 0)) des_sp8 0) in *.
  clearbody v0 v1 v2 v3 v4 v5 v6 v7.
  rewrite N.lxor_assoc. rewrite !U_lxor by wb. f_equal. rewrite P0, P1, P2, P3, P4, P5, P6, P7.
  assert (L : forall j, (j < 8)%nat -> length (placed j (fips_sbox j (slice (6 * j) 6 B))) = 32%nat) by (intros; apply length_placed; [assumption|apply length_sbox]).
  rewrite <- !select_xor by (rewrite ?length_xor_bits, !L by lia; reflexivity).
  unfold fips_f. f_equal. rewrite placed_sum by apply length_sbox. cbn [flat_map seq]. rewrite app_nil_r. reflexivity.
Qed.

(** * The key schedule *)
Lemma kn_bits (b : nat -> bool) n : (n <= 24)%nat ->
  fold_left (fun v j => if b j then N.lor v (N.shiftl 1 (23 - N.of_nat j)) else v) (seq 0 n) 0 = N.shiftl (of_bits (map b (seq 0 n))) (24 - N.of_nat n).
Proof.
  induction n as [|n IH]; intros Hn; [reflexivity|].
  rewrite seq_S, fold_left_app, map_app. cbn [fold_left map Nat.add]. rewrite IH by lia. rewrite of_bits_snoc.
  replace (24 - N.of_nat n) with (1 + (24 - N.of_nat (S n))) by lia. rewrite <- N.shiftl_shiftl. replace (23 - N.of_nat n) with (24 - N.of_nat (S n)) by lia.
  set (X := of_bits _). clearbody X. destruct (b n).
  - rewrite <- N.shiftl_lor. f_equal. now destruct X.
  - f_equal. now destruct X.
Qed.
Lemma des_kn_bits p o : des_kn p o = of_bits (map (fun j => nth (N.to_nat (nth (o + j) des_pc2 0)) p false) (seq 0 24)).
Proof. unfold des_kn. rewrite (kn_bits (fun j => nth (N.to_nat (nth (o + j) des_pc2 0)) p false)) by lia. change (24 - N.of_nat 24) with 0. apply N.shiftl_0_r. Qed.
Lemma six_of_bits b m : length b = 24%nat -> (m < 4)%nat -> six (of_bits b) (18 - 6 * N.of_nat m) = of_bits (slice (6 * m) 6 b).
Proof.
  intros L Hm. apply N.bits_inj. intros i. unfold six. rewrite N.land_spec, wshr_spec. change 63 with (N.ones 6). rewrite ones_spec.
  rewrite <- (N2Nat.id i) at 3. rewrite of_bits_spec.
  assert (Ls : length (slice (6 * m) 6 b) = 6%nat) by (unfold slice; rewrite firstn_length, skipn_length; lia). rewrite Ls.
  destruct (N.ltb_spec i 6), (Nat.ltb_spec (N.to_nat i) 6); try lia.
  rewrite andb_true_r. replace (i + (18 - 6 * N.of_nat m)) with (N.of_nat (N.to_nat i + (18 - 6 * m))) by lia. rewrite of_bits_spec, L.
  rewrite (proj2 (Nat.ltb_lt _ _)) by lia. rewrite nth_slice_gen by lia. f_equal. lia.
Qed.
Lemma cook_groups a b j : (j < 8)%nat ->
  six (nth (if Nat.even j then 0 else 1) (des_cook a b) 0) (esh j) = if (j <? 4)%nat then six a (18 - 6 * N.of_nat j) else six b (18 - 6 * N.of_nat (j - 4)).
Proof.
  intros Hj. apply N.bits_inj. intros i. destruct (N.lt_ge_cases i 6) as [H|H].
  2: { assert (Z : forall x s, N.testbit (six x s) i = false).
       { intros x s. unfold six. rewrite N.land_spec. change 63 with (N.ones 6). rewrite ones_spec, (proj2 (N.ltb_ge _ _)) by exact H. apply andb_false_r. }
       rewrite Z. destruct (j <? 4)%nat; now rewrite Z. }
  assert (Hi : In i [0; 1; 2; 3; 4; 5]) by (cbn [In]; lia).
  assert (Hjj : In j (seq 0 8)) by (apply in_seq; lia). clear H Hj. unfold six, des_cook.
  cbn [seq In] in Hjj.
  repeat (destruct Hjj as [<-|Hjj]; [repeat (destruct Hi as [<-|Hi];
    [cbn [Nat.even nth Nat.ltb Nat.leb Nat.sub]; rewrite !N.land_spec, !wshr_spec, !N.lor_spec, ?wshl_spec, ?wshr_spec, !N.land_spec;
     repeat match goal with |- context [N.testbit (Npos ?p) ?k] => let v := eval vm_compute in (N.testbit (Npos p) k) in change (N.testbit (Npos p) k) with v end;
     repeat match goal with |- context [N.testbit ?x ?k] => progress (let v := eval vm_compute in k in change k with v) end;
     repeat match goal with |- context [?x <? ?k] => let v := eval vm_compute in (x <? k) in change (x <? k) with v end;
     repeat match goal with |- context [?x <=? ?k] => let v := eval vm_compute in (x <=? k) in change (x <=? k) with v end;
     rewrite ?andb_false_r, ?andb_true_r, ?orb_false_r, ?orb_false_l, ?andb_true_l, ?andb_false_l; cbn [andb orb]; try reflexivity|]); destruct Hi|]).
  destruct Hjj.
Qed.
Definition CD_of (c : list bool) (n : nat) : list bool * list bool :=
  fold_left (fun cd s => (left_shift s (fst cd), left_shift s (snd cd))) (firstn (S n) fips_shifts) (slice 0 28 c, slice 28 28 c).
Lemma pcr_CD c n : length c = 56%nat -> (n < 16)%nat -> des_pcr c n = fst (CD_of c n) ++ snd (CD_of c n).
Proof.
  intros L Hn. do 56 (destruct c as [|? c]; [discriminate L|]). destruct c; [|discriminate L].
  do 16 (destruct n as [|n]; [reflexivity|]). lia.
Qed.
Lemma pc1m_select key : des_pc1m key = select fips_PC1 (string_bits key).
Proof.
  unfold des_pc1m, select. assert (E : des_pc1 = map (fun i => N.of_nat (i - 1)) fips_PC1) by reflexivity. rewrite E, map_map.
  apply map_ext. intros i. rewrite nth_string_bits. set (m := (i - 1)%nat). clearbody m. unfold des_bytebit.
  assert (D : N.to_nat (N.of_nat m / 8) = (m / 8)%nat) by (change 8 with (N.of_nat 8); rewrite <- Nat2N.inj_div; apply Nat2N.id).
  assert (M : N.of_nat m mod 8 = N.of_nat (m mod 8)) by (change 8 with (N.of_nat 8); now rewrite <- Nat2N.inj_mod).
  rewrite D, M. f_equal. pose proof (Nat.mod_upper_bound m 8 ltac:(lia)). lia.
Qed.
Lemma des_pcr_K key n : (n < 16)%nat ->
  select fips_PC2 (des_pcr (des_pc1m key) n) = fips_K (string_bits key) n.
Proof. intros Hn. rewrite pc1m_select. rewrite pcr_CD by (exact Hn || apply length_select). reflexivity. Qed.
Lemma kn_select p o : (o = 0 \/ o = 24)%nat -> des_kn p o = of_bits (slice o 24 (select fips_PC2 p)).
Proof.
  intros Ho. rewrite des_kn_bits. f_equal.
  assert (E : forall j, (j < 24)%nat -> N.to_nat (nth (o + j) des_pc2 0) = (nth (o + j) fips_PC2 0 - 1)%nat).
  { intros j Hj. assert (G : des_pc2 = map (fun i => N.of_nat (i - 1)) fips_PC2) by reflexivity. rewrite G.
    rewrite nth_map_any with (d' := 0%nat) by (change (length fips_PC2) with 48%nat; lia). apply Nat2N.id. }
  apply bits_ext.
  - rewrite map_length, seq_length. unfold slice. rewrite firstn_length, skipn_length, length_select. change (length fips_PC2) with 48%nat. lia.
  - rewrite map_length, seq_length. intros j Hj. rewrite nth_slice_gen by exact Hj. rewrite nth_map_any with (d' := 0%nat) by (rewrite seq_length; exact Hj).
    rewrite seq_nth by exact Hj. cbn [Nat.add]. rewrite E by exact Hj. unfold select. rewrite (nth_map_any (fun i => nth (i - 1) p false) fips_PC2 (o + j) false 0%nat) by (change (length fips_PC2) with 48%nat; lia).
    reflexivity.
Qed.
Lemma cook_holds p : let K := select fips_PC2 p in
  let w := des_cook (des_kn p 0) (des_kn p 24) in holds_key (nth 0 w 0) (nth 1 w 0) K.
Proof.
  cbv zeta. split; [apply length_select|]. intros j Hj.
  set (K := select fips_PC2 p). assert (LK : length K = 48%nat) by apply length_select.
  assert (E : (if Nat.even j then nth 0 (des_cook (des_kn p 0) (des_kn p 24)) 0 else nth 1 (des_cook (des_kn p 0) (des_kn p 24)) 0) =
    nth (if Nat.even j then 0 else 1) (des_cook (des_kn p 0) (des_kn p 24)) 0) by now destruct (Nat.even j).
  rewrite E, cook_groups by exact Hj. rewrite !kn_select by lia. fold K.
  assert (L : forall o, (o <= 24)%nat -> length (slice o 24 K) = 24%nat) by (intros o Ho; unfold slice; rewrite firstn_length, skipn_length; lia).
  assert (S : forall o m, (m < 4)%nat -> (o <= 24)%nat -> slice (6 * m) 6 (slice o 24 K) = slice (o + 6 * m) 6 K).
  { intros o m Hm Ho. apply bits_ext.
    - unfold slice. rewrite !firstn_length, !skipn_length, firstn_length, skipn_length. lia.
    - intros i Hi. assert (i < 6)%nat by (unfold slice in Hi; rewrite firstn_length in Hi; lia).
      rewrite !nth_slice_gen by lia. f_equal. lia. }
  destruct (Nat.ltb_spec j 4) as [H|H].
  - rewrite six_of_bits by (auto; apply L; lia). rewrite S by lia. reflexivity.
  - rewrite six_of_bits by (lia || (apply L; lia)). rewrite S by lia. f_equal. f_equal. lia.
Qed.

(** * The cipher *)
Definition round_idx (dec : bool) (q : nat) : nat := if dec then (15 - q)%nat else q.
Lemma des_key_holds dec key q : (q < 16)%nat ->
  holds_key (nth (2 * q) (des_key dec key) 0) (nth (2 * q + 1) (des_key dec key) 0) (fips_K (string_bits key) (round_idx dec q)).
Proof.
  intros Hq.
  set (g := fun m => des_cook (des_kn (des_pcr (des_pc1m key) m) 0) (des_kn (des_pcr (des_pc1m key) m) 24)).
  assert (E : des_key dec key = flat_map (fun q => [nth 0 (g (round_idx dec q)) 0; nth 1 (g (round_idx dec q)) 0]) (seq 0 16)).
  { assert (C : forall a b, des_cook a b = [nth 0 (des_cook a b) 0; nth 1 (des_cook a b) 0]) by reflexivity.
    unfold des_key. cbv zeta. apply flat_map_ext. intros m. unfold g, round_idx. exact (C _ _). }
  rewrite E. destruct (des_pairs_nth (fun q => nth 0 (g (round_idx dec q)) 0) (fun q => nth 1 (g (round_idx dec q)) 0) q Hq) as [-> ->].
  rewrite <- des_pcr_K by (destruct dec; cbn [round_idx]; lia). apply cook_holds.
Qed.
Lemma des_key_len dec key : length (des_key dec key) = 32%nat. Proof. reflexivity. Qed.
Definition fips_step (key : list bool) (lr : list bool * list bool) (n : nat) : list bool * list bool :=
  (snd lr, xor_bits (fst lr) (fips_f (snd lr) (fips_K key n))).
Lemma des_round_pair dec key i x : (i < 8)%nat -> @w2 32 x ->
  let y := des_body (des_key dec key) i x in
  @w2 32 y /\ (U (fst y), U (snd y)) =
    fips_step (string_bits key) (fips_step (string_bits key) (U (fst x), U (snd x)) (round_idx dec (2 * i))) (round_idx dec (2 * i + 1)).
Proof.
  intros Hi [Hl Hr]. cbv zeta. unfold des_body, des_pair, fips_step. cbn [fst snd].
  pose proof (des_key_holds dec key (2 * i) ltac:(lia)) as K1. pose proof (des_key_holds dec key (2 * i + 1) ltac:(lia)) as K2.
  replace (2 * (2 * i))%nat with (4 * i)%nat in K1 by lia.
  replace (2 * (2 * i + 1))%nat with (4 * i + 2)%nat in K2 by lia. replace (4 * i + 2 + 1)%nat with (4 * i + 3)%nat in K2 by lia.
  pose proof (des_f_inw (fst x) (snd x) (nth (4 * i) (des_key dec key) 0) (nth (4 * i + 1) (des_key dec key) 0) Hl) as I1.
  pose proof (des_f_fips _ _ _ _ _ Hl Hr K1) as E1. 
  set (l := des_f (fst x) (snd x) _ _) in *. clearbody l.
  split; [split; [exact I1|now apply des_f_inw]|]. rewrite (des_f_fips _ _ _ _ _ Hr I1 K2), E1. reflexivity.
Qed.
Lemma fold_pairs {A} (f : A -> nat -> A) (idx : nat -> nat) n x :
  fold_left f (map idx (seq 0 (2 * n))) x = fold_left (fun y i => f (f y (idx (2 * i)%nat)) (idx (2 * i + 1)%nat)) (seq 0 n) x.
Proof.
  induction n as [|n IH]; [reflexivity|]. replace (2 * S n)%nat with (S (S (2 * n))) by lia.
  rewrite (seq_S n), !seq_S, !map_app, !fold_left_app, IH. cbn [map fold_left Nat.add]. now rewrite Nat.add_1_r.
Qed.
Lemma des_crypt_fips dec key a b : inw 32 a -> inw 32 b ->
  exists c d, des_crypt (des_key dec key) (a, b) = Ok (c, d) /\ inw 32 c /\ inw 32 d /\
    to_bits 32 c ++ to_bits 32 d = (if dec then fips_decrypt else fips_encrypt) key (to_bits 32 a ++ to_bits 32 b).
Proof.
  intros Ha Hb. rewrite des_crypt_eq by apply des_key_len.
  destruct ip_ok as [_ KI]. pose proof (KI (a, b) (conj Ha Hb)) as W. destruct (des_ip_bits a b Ha Hb) as [EL ER].
  set (blk := to_bits 32 a ++ to_bits 32 b) in *.
  assert (E : (if dec then fips_decrypt else fips_encrypt) key blk = fips_rounds (string_bits key) (map (round_idx dec) (seq 0 16)) blk) by (destruct dec; reflexivity).
  rewrite E. unfold fips_rounds. cbv zeta.
  change (fun (lr : list bool * list bool) n => (snd lr, xor_bits (fst lr) (fips_f (snd lr) (fips_K (string_bits key) n)))) with (fips_step (string_bits key)).
  change (seq 0 16) with (seq 0 (2 * 8)). rewrite fold_pairs. rewrite <- EL, <- ER.
  pose proof (pfor_fold (fun _ (x : N * N) (u : list bool * list bool) => @w2 32 x /\ (U (fst x), U (snd x)) = u) 8 0 (des_body (des_key dec key))
    (fun y i => fips_step (string_bits key) (fips_step (string_bits key) y (round_idx dec (2 * i))) (round_idx dec (2 * i + 1)))
    (des_ip (a, b)) (U (fst (des_ip (a, b))), U (snd (des_ip (a, b))))) as P. cbv beta in P.
  destruct P as [W' P'].
  - intros t y u Ht [Wy <-]. apply des_round_pair; [lia|exact Wy].
  - split; [exact W|reflexivity].
  - rewrite <- P'. cbn [fst snd]. set (x := pfor 8 0 _ _) in *. clearbody x. destruct x as [l r]. destruct W' as [Hl Hr]. cbn [fst snd] in *.
    destruct fp_ok as [_ KF]. pose proof (KF (l, r) (conj Hl Hr)) as [Wc Wd]. pose proof (des_fp_bits l r Hl Hr) as F.
    exists (fst (des_fp (l, r))), (snd (des_fp (l, r))). split; [now destruct (des_fp (l, r))|]. now repeat split.
Qed.

Lemma bits_words pt : blk 8 pt -> let w := be_words 4 2 pt in string_bits pt = to_bits 32 (word w 0) ++ to_bits 32 (word w 1).
Proof.
  intros [L B]. cbv zeta. do 8 (destruct pt as [|? pt]; [discriminate L|]). destruct pt; [|discriminate L].
  apply bits_ext; [rewrite app_length, !length_to_bits, length_string_bits; reflexivity|].
  intros i Hi. rewrite length_string_bits in Hi. cbn [length Nat.mul Nat.add] in Hi. rewrite nth_string_bits.
  unfold bytes_ok, words_ok in B. repeat match goal with H : Forall _ (_ :: _) |- _ => inversion H; clear H; subst end.
  assert (S : forall a b c d k, a < 256 -> b < 256 -> c < 256 -> d < 256 -> (k < 32)%nat -> nth k (to_bits 32 (be_val [a; b; c; d])) false = N.testbit (nth (k / 8) [a; b; c; d] 0) (N.of_nat (7 - k mod 8))).
  { intros a b c d k Ha Hb Hc Hd Hk. rewrite nth_to_bits by exact Hk.
    assert (V : be_val [a; b; c; d] = N.lor (N.lor (N.lor d (N.shiftl c 8)) (N.shiftl b 16)) (N.shiftl a 24)).
    { rewrite (lor_add d c 8) by exact Hd. change (2 ^ 8) with 256.
      rewrite (lor_add _ b 16) by (change (2 ^ 16) with 65536; lia). change (2 ^ 16) with 65536.
      rewrite (lor_add _ a 24) by (change (2 ^ 24) with 16777216; lia).
      unfold be_val. cbn [rev app le_val]. change (2 ^ 24) with 16777216. change (2 ^ 16) with 65536. change (2 ^ 8) with 256. lia. }
    rewrite V, !N.lor_spec.
    assert (Z : forall x m, x < 256 -> 8 <= m -> N.testbit x m = false) by (intros x m Hx Hm; apply (inw_high 8); [exact Hx|exact Hm]).
    do 32 (destruct k as [|k]; [cbn [Nat.sub N.of_nat Pos.of_succ_nat Pos.succ];
      match goal with |- context [(?x / 8)%nat] => let v := eval compute in (x / 8)%nat in change (x / 8)%nat with v end;
      match goal with |- context [(?x mod 8)%nat] => let v := eval compute in (x mod 8)%nat in change (x mod 8)%nat with v end;
      cbn [Nat.sub N.of_nat Pos.of_succ_nat Pos.succ nth];
      repeat match goal with
      | |- context [N.testbit (N.shiftl ?x ?s) ?n] =>
          let v := eval vm_compute in (n <? s) in
          match v with true => rewrite (N.shiftl_spec_low x s n) by reflexivity
          | false => rewrite (N.shiftl_spec_high' x s n) by discriminate end
      end;
      repeat match goal with |- context [N.testbit ?x (?n - ?m)] => let v := eval vm_compute in (n - m) in change (n - m) with v end;
      repeat match goal with |- context [N.testbit ?x ?n] => rewrite (Z x n) by (assumption || discriminate) end;
      rewrite ?orb_false_r, ?orb_false_l; reflexivity|]). lia. }
  unfold word, be_words. cbn [map seq slice Nat.mul Nat.add skipn firstn nth].
  destruct (Nat.lt_ge_cases i 32) as [H|H].
  - rewrite app_nth1 by (rewrite length_to_bits; exact H). rewrite S by assumption.
    assert (D : (i / 8 < 4)%nat) by (apply Nat.div_lt_upper_bound; lia). set (q := (i / 8)%nat) in *. clearbody q.
    do 4 (destruct q as [|q]; [reflexivity|]). lia.
  - rewrite app_nth2 by (rewrite length_to_bits; exact H). rewrite length_to_bits, S by (assumption || lia).
    replace i with ((i - 32) + 4 * 8)%nat at 1 2 by lia. rewrite Nat.div_add, Nat.mod_add by lia.
    assert (D : ((i - 32) / 8 < 4)%nat) by (apply Nat.div_lt_upper_bound; lia). set (q := ((i - 32) / 8)%nat) in *. clearbody q.
    do 4 (destruct q as [|q]; [reflexivity|]). lia.
Qed.

Lemma string_words w0 w1 : inw 32 w0 -> inw 32 w1 -> bits_string 8 (to_bits 32 w0 ++ to_bits 32 w1) = be_string 4 [w0; w1].
Proof.
  intros H0 H1.
  pose proof (blk_be_string 4 [w0; w1]) as B. change (4 * length [w0; w1])%nat with 8%nat in B.
  pose proof (bits_words _ B) as E. cbv zeta in E.
  assert (W : be_words 4 2 (be_string 4 [w0; w1]) = [w0; w1]) by (apply (be_words_string 4 32 [w0; w1]); [reflexivity|repeat constructor; assumption]).
  rewrite W in E. cbn [word nth] in E. unfold word in E. cbn [nth] in E. rewrite <- E.
  set (l := be_string 4 [w0; w1]) in *. clearbody l. clear E W.
  destruct B as [L B]. unfold bits_string. apply nth_ext with (d := 0) (d' := 0); [now rewrite map_length, seq_length|].
  intros i Hi. rewrite map_length, seq_length in Hi. rewrite nth_map_seq by exact Hi. cbn [Nat.add].
  assert (S : slice (8 * i) 8 (string_bits l) = to_bits 8 (nth i l 0)).
  { apply bits_ext.
    - unfold slice. rewrite firstn_length, skipn_length, length_string_bits, length_to_bits. lia.
    - intros k Hk. assert (Hk8 : (k < 8)%nat) by (unfold slice in Hk; rewrite firstn_length in Hk; lia).
      rewrite nth_slice_gen, nth_string_bits, nth_to_bits by exact Hk8. replace (8 * i + k)%nat with (k + i * 8)%nat by lia.
      rewrite Nat.div_add, Nat.mod_add by lia. rewrite Nat.div_small, Nat.mod_small by exact Hk8. f_equal. }
  rewrite S. apply of_to_bits. change (N.of_nat 8) with 8. now apply words_nth.
Qed.

Lemma des_part_slice key o : (8 * o + 8 <= 24)%nat -> (length key <= 24)%nat -> des_part key (8 * o) = slice (8 * o) 8 (zero_pad 24 key).
Proof.
  intros Ho L. unfold des_part. apply nth_ext with (d := 0) (d' := 0).
  - rewrite map_length, seq_length. unfold slice. rewrite firstn_length, skipn_length, length_zero_pad by exact L. lia.
  - intros i Hi. rewrite map_length, seq_length in Hi. rewrite nth_map_seq by exact Hi. rewrite nth_slice_gen by exact Hi. cbn [Nat.add].
    unfold zero_pad. destruct (Nat.lt_ge_cases (8 * o + i) (length key)) as [H|H]; [now rewrite app_nth1|].
    rewrite app_nth2 by exact H. rewrite nth_overflow by exact H. symmetry. apply nth_repeat0.
Qed.
Definition fips_crypt (dec : bool) := if dec then fips_decrypt else fips_encrypt.
Lemma des_crypts_fips ks : forall a b, inw 32 a -> inw 32 b ->
  exists c d, des_crypts (map (fun k => des_key (fst k) (snd k)) ks) (a, b) = Ok (c, d) /\ inw 32 c /\ inw 32 d /\
    to_bits 32 c ++ to_bits 32 d = fold_left (fun x k => fips_crypt (fst k) (snd k) x) ks (to_bits 32 a ++ to_bits 32 b).
Proof.
  induction ks as [|[dec key] ks IH]; intros a b Ha Hb; [exists a, b; now repeat split|].
  cbn [map des_crypts fold_left fst snd]. destruct (des_crypt_fips dec key a b Ha Hb) as (c & d & E & Hc & Hd & F). rewrite E. cbn [bind].
  destruct (IH c d Hc Hd) as (e & f & G & He & Hf & H). exists e, f. rewrite G. repeat split; try assumption. rewrite H, F. reflexivity.
Qed.
Lemma des_published : is_cipher des_desc (up_to 24) des_cipher.
Proof.
  apply (is_cipher_default _ _ _ des_default); [intros key H; exact H|].
  intros key s Hb Hk Es pt Hp. cbn [des_desc bc_create bc_enc bc_bs] in *. unfold des_create in Es. apply assert_inv in Es. destruct Es as [_ Es].
  apply Ok_inj in Es. subst s. unfold des_encrypt. rewrite ld2_be32 by exact Hp.
  assert (W0 : inw 32 (word (be_words 4 2 pt) 0)) by (apply (be_words_word 4); [apply Hp|reflexivity]).
  assert (W1 : inw 32 (word (be_words 4 2 pt) 1)) by (apply (be_words_word 4); [apply Hp|reflexivity]).
  unfold des_cipher. cbv zeta. rewrite (bits_words pt Hp). cbv zeta.
  set (k := fun i => slice (8 * i) 8 (zero_pad 24 key)).
  assert (P : forall i, (i < 3)%nat -> des_part key (8 * i) = k i) by (intros i Hi; apply des_part_slice; [lia|apply Hk]).
  set (ks := if (length key <=? 8)%nat then [(false, k 0%nat)]
    else [(false, k 0%nat); (true, k 1%nat); (false, k (if (length key <=? 16)%nat then 0 else 2)%nat)]).
  assert (E : des_ek (des_setup key) = map (fun k => des_key (fst k) (snd k)) ks).
  { unfold ks, des_setup. cbv zeta. rewrite !P by lia.
    destruct (Nat.leb_spec (length key) 8), (Nat.ltb_spec 16 (length key)), (Nat.ltb_spec 8 (length key)), (Nat.leb_spec (length key) 16); try lia; reflexivity. }
  rewrite E. destruct (des_crypts_fips ks _ _ W0 W1) as (c & d & Ec & Hc & Hd & F). rewrite Ec. cbn [bind]. rewrite st2_be32. f_equal.
  rewrite <- string_words by assumption. f_equal. rewrite F. unfold ks. destruct (length key <=? 8)%nat; reflexivity.
Qed.
