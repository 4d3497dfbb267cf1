(** Bit-sliced code and S-boxes on columns; Noekeon is the published cipher. *)
From Coq Require Import NArith Arith List Bool Lia.
From Verif Require Import Lib.Word Lib.Res Lib.Bytes Lib.Bij Lib.Bits Lib.Lists Lib.BlockLemmas Lib.WordSpec Lib.WordsP Lib.XorSolve
  Spec.Words Spec.Block Spec.Arx Spec.Gf Spec.Affine Spec.Pub2 Model.LoadStore Model.BlockApi Model.Noekeon Model.Ciphers
  Proof.LoadStoreP Proof.Sha1P Proof.ArxP Proof.LeaPubP Proof.PubLib Proof.NoekeonP Proof.RekeyP Proof.CiphersP.
Import ListNotations.
Local Open Scope N_scope.

Lemma of_bits_spec l : forall i, N.testbit (of_bits l) i = nth (N.to_nat i) l false.
Proof.
  induction l as [|b l IH]; intros i; [destruct (N.to_nat i); apply N.bits_0|].
  cbn [of_bits fold_right]. fold (of_bits l). rewrite N.add_comm. destruct i as [|p].
  - rewrite N.testbit_0_r. reflexivity.
  - replace (N.pos p) with (N.succ (N.pred (N.pos p))) by lia. rewrite N.testbit_succ_r, IH.
    replace (N.to_nat (N.succ (N.pred (N.pos p)))) with (S (N.to_nat (N.pred (N.pos p)))) by lia. reflexivity.
Qed.
Lemma of_bits_inw l : inw (N.of_nat (length l)) (of_bits l).
Proof.
  induction l as [|b l IH]; [reflexivity|]. cbn [of_bits fold_right length]. fold (of_bits l). unfold inw in *.
  rewrite Nat2N.inj_succ, N.pow_succ_r'. destruct b; cbn [N.b2n]; lia.
Qed.
Lemma length_sub_columns w S x : length (sub_columns w S x) = 4%nat.
Proof. unfold sub_columns. cbv zeta. now rewrite map_length, seq_length. Qed.
Lemma sub_columns_ok w S x : words_ok (N.of_nat w) (sub_columns w S x).
Proof.
  unfold sub_columns. cbv zeta. apply Forall_forall. intros v Hv. apply in_map_iff in Hv. destruct Hv as (i & <- & _).
  match goal with |- inw _ (of_bits ?l) => pose proof (of_bits_inw l) as H end. now rewrite !map_length, seq_length in H.
Qed.
Lemma sub_columns_regs w S x n : n = N.of_nat w -> regs n 4 (sub_columns w S x).
Proof. intros ->. split; [apply length_sub_columns|apply sub_columns_ok]. Qed.
Definition column_check (t : nat) p out S : bool :=
  forallb (fun v => bools_eqb (slices_b t p out v) (map (fun i => N.testbit (nth (N.to_nat (of_bits v)) S 0) (N.of_nat i)) (seq 0 4))) (all_bools 4).
Lemma slices_columns n w t p out S x : n = N.of_nat w -> length x = 4%nat -> words_ok n x -> length out = 4%nat ->
  column_check t p out S = true -> slices n t p out x = sub_columns w S x.
Proof.
  intros -> Lx Wx Lo C. apply (words_ext (N.of_nat w)).
  - rewrite length_sub_columns. unfold slices. now rewrite map_length.
  - now apply slices_ok.
  - apply sub_columns_ok.
  - intros i Hi. rewrite slices_bit by exact Hi. unfold column_check in C. rewrite forallb_forall in C.
    rewrite (bools_eqb_eq _ _ (C (map (fun v => N.testbit v i) x) ltac:(apply all_bools_in; now rewrite map_length))).
    unfold sub_columns. cbv zeta. rewrite map_map. apply map_ext. intros j.
    rewrite of_bits_spec, map_map.
    rewrite nth_map_seq by lia. cbn [Nat.add]. unfold column. now rewrite N2Nat.id.
Qed.

Lemma xor_list4 a b c d e f g h : xor_list [a; b; c; d] [e; f; g; h] = [N.lxor a e; N.lxor b f; N.lxor c g; N.lxor d h].
Proof. reflexivity. Qed.

Lemma noek_gamma_columns x : regs 32 4 x -> noek_gamma x = sub_columns 32 noekeon_S x.
Proof. intros [L W]. unfold noek_gamma. apply slices_columns; try reflexivity; auto. Qed.
Lemma noek_T_t x : inw 32 x -> noek_T x = noekeon_t x.
Proof. intros H. unfold noek_T, noekeon_t. rewrite rol_rotl, ror_rotr by (auto; lia). xor_solve. Qed.
Lemma noek_theta_first k x i : regs 32 4 k -> regs 32 4 x -> inw 32 (noekeon_rc i) ->
  noek_theta k (xor_at 0 (noekeon_rc i) x) = noekeon_first k i x /\ regs 32 4 (noekeon_first k i x).
Proof.
  intros Hk Hx. unfold noekeon_first. generalize (noekeon_rc i) as c. intros c Hc.
  assert (E : noek_theta k (xor_at 0 c x) = noekeon_theta k [N.lxor (word x 0) c; word x 1; word x 2; word x 3]).
  { list_cases Hk. list_cases Hx. unfold xor_at. cbn [nth upd word]. rewrite noek_theta_eq. unfold noekeon_theta. cbv zeta.
    unfold word. cbn [nth]. rewrite xor_list4. cbn [nth]. rewrite !noek_T_t by wb.
    reflexivity. }
  rewrite <- E. split; [reflexivity|]. apply noek_theta_inv; [exact Hk|]. apply (xor_at_bij 32 4 0 c); [lia|exact Hc|exact Hx].
Qed.
Lemma noek_rc_get i : (i < 34)%nat -> get noek_rc i = Ok (noekeon_rc i) /\ inw 32 (noekeon_rc i).
Proof.
  intros Hi.
  assert (C : forallb (fun i => match get noek_rc i with Ok c => (c =? noekeon_rc i) && (c <? 2 ^ 32) | _ => false end) (seq 0 34) = true)
    by (vm_compute; reflexivity).
  rewrite forallb_forall in C. specialize (C i ltac:(apply in_seq; lia)). destruct (get noek_rc i) as [c|e]; [|discriminate].
  apply andb_prop in C. destruct C as [C1 C2]. apply N.eqb_eq in C1. apply N.ltb_lt in C2. subst c. split; [reflexivity|exact C2].
Qed.
Lemma noek_pi1_eq x : regs 32 4 x -> noek_pi1 x = noekeon_pi1 x /\ regs 32 4 (noekeon_pi1 x).
Proof.
  intros Hx. assert (E : noek_pi1 x = noekeon_pi1 x).
  { list_cases Hx. unfold noek_pi1, noekeon_pi1, word. cbn [nth]. now rewrite !rol_rotl by (auto; lia). }
  rewrite <- E. split; [reflexivity|]. now apply noek_pi_bij.
Qed.
Lemma noek_pi2_eq x : regs 32 4 x -> noek_pi2 x = noekeon_pi2 x /\ regs 32 4 (noekeon_pi2 x).
Proof.
  intros Hx. assert (E : noek_pi2 x = noekeon_pi2 x).
  { list_cases Hx. unfold noek_pi2, noekeon_pi2, word. cbn [nth]. now rewrite !ror_rotr by (auto; lia). }
  rewrite <- E. split; [reflexivity|]. now apply noek_pi_bij.
Qed.
Lemma noek_words k r x : regs 32 4 k -> (r < 34)%nat -> regs 32 4 x -> forall dk,
  noek_enc_words {| noek_rounds := N.of_nat r; noek_k := k; noek_dk := dk |} x =
  Ok (noekeon_first k r (fold_left (noekeon_round k) (seq 0 r) x)).
Proof.
  intros Hk Hr Hx dk. unfold noek_enc_words. cbn [noek_rounds noek_k]. rewrite Nat2N.id.
  match goal with |- context [mfor r 0 ?f x] => 
    destruct (mfor_fold (fun _ y u => u = y /\ regs 32 4 y) r 0%nat f (noekeon_round k) x x) as (z & Ez & Hz & Rz) end.
  - intros t y u Ht [-> Hy]. destruct (noek_rc_get t ltac:(lia)) as [G Gi]. rewrite G. cbn [bind].
    destruct (noek_theta_first k y t Hk Hy Gi) as [E1 R1]. rewrite E1.
    destruct (noek_pi1_eq _ R1) as [E2 R2]. rewrite E2. rewrite noek_gamma_columns by exact R2.
    pose proof (sub_columns_regs 32 noekeon_S (noekeon_pi1 (noekeon_first k t y)) 32 eq_refl) as R3.
    destruct (noek_pi2_eq _ R3) as [E4 R4]. rewrite E4. eexists. split; [reflexivity|]. split; [reflexivity|exact R4].
  - split; [reflexivity|exact Hx].
  - rewrite Ez. cbn [bind]. destruct (noek_rc_get r Hr) as [G Gi]. rewrite G. cbn [bind]. rewrite Hz.
    destruct (noek_theta_first k z r Hk Rz Gi) as [E1 _]. now rewrite E1.
Qed.
Lemma noek_create_inv key s : noek_create 0 key = Ok s ->
  s = {| noek_rounds := N.of_nat 16; noek_k := key32b key 4; noek_dk := noek_theta [0; 0; 0; 0] (key32b key 4) |}.
Proof. intros Es. unfold noek_create in Es. apply assert_inv in Es. destruct Es as [_ Es]. apply Ok_inj in Es. now subst s. Qed.
Lemma be_words_regs k w n l : bytes_ok l -> w = 8 * N.of_nat k -> regs w n (be_words k n l).
Proof. intros B E. split; [apply length_be_words|now apply be_words_inw]. Qed.
Lemma le_words_regs k w n l : bytes_ok l -> w = 8 * N.of_nat k -> regs w n (le_words k n l).
Proof. intros B E. split; [apply length_le_words|now apply le_words_inw]. Qed.
Lemma noekeon_published : is_cipher noekeon_desc (up_to 16) noekeon_cipher.
Proof.
  apply (is_cipher_default _ _ _ noekeon_default); [intros key Hk; exact Hk|].
  intros key s Hb Hk Es pt Hp. apply noek_create_inv in Es. subst s. unfold up_to in Hk.
  unfold noekeon_cipher. cbv zeta. rewrite key32b_words by (auto; lia). change (4 * 4)%nat with 16%nat.
  change (bc_enc noekeon_desc) with noek_encrypt. unfold noek_encrypt. destruct Hp as [Lp Bp]. change (bc_bs noekeon_desc) with 16%nat in Lp.
  rewrite loads32b_be by (auto; lia). rewrite (zero_pad_full (4 * 4) pt) by lia.
  rewrite noek_words; [|apply be_words_regs; [now apply bytes_zero_pad|reflexivity]|lia|now apply be_words_regs].
  cbn [bind]. now rewrite stores32b_be.
Qed.
