(** 3-Way and CRAX are the published ciphers. *)
From Coq Require Import NArith Arith List Bool Lia.
From Verif Require Import Lib.Word Lib.Res Lib.Bytes Lib.Bij Lib.Bits Lib.Lists Lib.BlockLemmas Lib.WordSpec Lib.WordsP Lib.XorSolve
  Spec.Words Spec.Block Spec.Arx Spec.Affine Spec.Pub2 Model.LoadStore Model.BlockApi Model.Threeway Model.Sparx Model.Ciphers
  Proof.LoadStoreP Proof.KeccakCoreP Proof.Sha1P Proof.ArxP Proof.LeaPubP Proof.PubLib Proof.ThreewayP Proof.RekeyP Proof.CiphersP Proof.ColumnsP.
Import ListNotations.
Local Open Scope N_scope.

(** * 3-Way *)
Lemma add_lxor a b n : a < 2 ^ n -> a + 2 ^ n * b = N.lxor a (N.shiftl b n).
Proof.
  intros H. rewrite N.mul_comm, <- lor_add by exact H. apply lor_disjoint. apply N.bits_inj. intros i. rewrite N.land_spec, N.bits_0.
  destruct (N.lt_ge_cases i n) as [L|L]; [now rewrite N.shiftl_spec_low, andb_false_r by exact L|].
  now rewrite (inw_high n a i H L).
Qed.
Lemma way_96_lxor a : regs 32 3 a -> way_96 a = N.lxor (word a 0) (N.lxor (N.shiftl (word a 1) 32) (N.shiftl (word a 2) 64)).
Proof.
  intros Ha. assert (I : forall j, inw 32 (word a j)) by (intros; apply words_nth, Ha). unfold way_96.
  replace (word a 0 + 2 ^ 32 * word a 1 + 2 ^ 64 * word a 2) with (word a 0 + 2 ^ 32 * (word a 1 + 2 ^ 32 * word a 2)).
  2:{ change (2 ^ 64) with (2 ^ 32 * 2 ^ 32). lia. }
  rewrite !add_lxor by apply I. rewrite N.shiftl_lxor. now rewrite N.shiftl_shiftl.
Qed.
Lemma way_96_inw a : regs 32 3 a -> inw 96 (way_96 a).
Proof.
  intros Ha. assert (I : forall j, inw 32 (word a j)) by (intros; apply words_nth, Ha). unfold way_96, inw in *.
  pose proof (I 0%nat). pose proof (I 1%nat). pose proof (I 2%nat). change (2 ^ 96) with (2 ^ 32 * (2 ^ 32 * 2 ^ 32)). change (2 ^ 64) with (2 ^ 32 * 2 ^ 32).
  change (2 ^ 32) with 4294967296 in *. lia.
Qed.
Lemma word_vxor a b j : regs 32 3 a -> regs 32 3 b -> (j < 3)%nat -> word (vxor a b) j = N.lxor (word a j) (word b j).
Proof. intros Ha Hb Hj. list_cases Ha. list_cases Hb. do 3 (destruct j as [|j]; [reflexivity|]). lia. Qed.
Lemma way_words_lin x y : way_words (N.lxor x y) = vxor (way_words x) (way_words y).
Proof.
  unfold way_words. cbn [vxor]. rewrite <- !mask_mod, <- !N.shiftr_div_pow2.
  assert (M : forall a b, mask 32 (N.lxor a b) = N.lxor (mask 32 a) (mask 32 b)) by (intros; apply land_lxor).
  now rewrite !N.shiftr_lxor, !M.
Qed.
Lemma way_theta_lin : vlin 32 3 way_theta.
Proof.
  split; [reflexivity|]. intros a b Ha Hb. unfold way_theta. cbv zeta.
  pose proof (way_96_inw a Ha) as Ia. pose proof (way_96_inw b Hb) as Ib. pose proof (regs_vxor 32 3 a b Ha Hb) as Hab.
  assert (E : way_96 (vxor a b) = N.lxor (way_96 a) (way_96 b)).
  { rewrite !way_96_lxor by assumption. rewrite !word_vxor by (auto; lia). rewrite !N.shiftl_lxor. xor_solve. }
  rewrite E. set (x := way_96 a) in *. set (y := way_96 b) in *. clearbody x y. clear E Hab Ha Hb.
  assert (Ixy : inw 96 (N.lxor x y)) by wb. cbn [fold_left].
  rewrite <- way_words_lin. apply f_equal. rewrite <- !ror_rotr by (auto; lia). rewrite !ror_lxor by (auto; lia). xor_solve.
Qed.
Lemma tw_theta_way x : regs 32 3 x -> tw_theta x = way_theta x.
Proof. apply vlin_ext_check; [exact tw_theta_lin|exact way_theta_lin|]. vm_compute. reflexivity. Qed.
Lemma way_not_wnot x : inw 32 x -> wnot 32 x = way_not x.
Proof. intros H. unfold way_not. now apply (KeccakCoreP.wnot_sub 32). Qed.
Lemma tw_pgp_way x : regs 32 3 x -> tw_pgp x = way_pi2 (way_gamma (way_pi1 x)).
Proof.
  intros Hx. list_cases Hx. unfold tw_pgp, way_pi1, way_gamma, way_pi2, word. cbn [nth]. cbv zeta.
  rewrite <- (rol_rotl 32 n1 1), <- (ror_rotr 32 n 10) by (assumption || lia). rewrite !(rol_is_ror 32 _ 22) by lia. change (32 - 22) with 10.
  rewrite <- !way_not_wnot by wb. rewrite <- !rol_rotl, <- !ror_rotr by (wb || lia). reflexivity.
Qed.
Lemma tw_rc_way i : (i < 12)%nat -> nth i tw_rc_e 0 = way_rc i.
Proof. intros H. do 12 (destruct i as [|i]; [reflexivity|]). lia. Qed.
Lemma tw_add_way k i x : (i < 12)%nat -> regs 32 3 k -> regs 32 3 x -> tw_add k (nth i tw_rc_e 0) x = way_add k i x /\ regs 32 3 (way_add k i x).
Proof.
  intros Hi Hk Hx. pose proof (rc_e_ok i) as Hc. unfold way_add. rewrite <- tw_rc_way by exact Hi.
  assert (E : nth i tw_rc_e 0 * 2 ^ 16 = wshl 32 (nth i tw_rc_e 0) 16) by (do 12 (destruct i as [|i]; [reflexivity|]); lia).
  rewrite E. set (c := nth i tw_rc_e 0) in *. clearbody c. list_cases Hk. list_cases Hx. unfold tw_add. cbn [nth].
  cbn [xor_list combine map fst snd]. rewrite !N.lxor_0_r, !N.lxor_assoc. split; [reflexivity|]. regs_list.
Qed.
Lemma tw_create_inv key s : tw_create 0 key = Ok s -> s = tw_setup 0 key.
Proof.
  intros Es. unfold tw_create in Es. apply assert_inv in Es. destruct Es as [_ Es]. apply Ok_inj in Es. now symmetry.
Qed.
Lemma tw_rounds_way k x : regs 32 3 k -> regs 32 3 x ->
  tw_rounds tw_rc_e k 11 x = Ok (way_theta (way_add k 11 (fold_left (way_round k) (seq 0 11) x))).
Proof.
  intros Hk Hx. unfold tw_rounds.
  destruct (mfor_fold (fun _ u v => u = v /\ regs 32 3 u) 11 0
    (fun i x => let* c := get tw_rc_e i in Ok (tw_pgp (tw_theta (tw_add k c x)))) (way_round k) x x) as (z & Ez & F1 & F2).
  - intros t y u Ht [<- Hy]. rewrite (get_ok _ _ 0) by (change (length tw_rc_e) with 12%nat; lia). cbn [bind]. eexists. split; [reflexivity|].
    destruct (tw_add_way k t y ltac:(lia) Hk Hy) as [E R]. rewrite E. rewrite tw_pgp_way by now apply tw_theta_regs.
    rewrite tw_theta_way by exact R. split; [reflexivity|]. rewrite <- tw_theta_way by exact R.
    rewrite <- tw_pgp_way by now apply tw_theta_regs. now apply tw_pgp_regs, tw_theta_regs.
  - now split.
  - rewrite Ez. cbn [bind]. rewrite (get_ok _ _ 0) by (change (length tw_rc_e) with 12%nat; lia). cbn [bind].
    destruct (tw_add_way k 11 z ltac:(lia) Hk F2) as [E R]. rewrite E, tw_theta_way by exact R. now rewrite F1.
Qed.
Lemma threeway_published : is_cipher threeway_desc (up_to 12) threeway_cipher.
Proof.
  apply (is_cipher_default _ _ _ threeway_default); [intros key Hk; exact Hk|].
  intros key s Hb Hk Es pt Hp. apply tw_create_inv in Es. subst s. unfold up_to in Hk.
  change (bc_enc threeway_desc) with tw_encrypt. unfold tw_encrypt, threeway_cipher. destruct Hp as [Lp Bp]. change (bc_bs threeway_desc) with 12%nat in Lp.
  rewrite loads32b_be by (auto; lia). rewrite (zero_pad_full (4 * 3) pt) by lia.
  change (N.to_nat (tw_r (tw_setup 0 key))) with 11%nat. change (tw_k (tw_setup 0 key)) with (key32b key 3).
  rewrite key32b_words by (auto; lia). change (4 * 3)%nat with 12%nat. cbv zeta.
  rewrite tw_rounds_way; [|apply be_words_regs; [now apply bytes_zero_pad|reflexivity]|now apply be_words_regs].
  cbn [bind]. rewrite stores32b_be. exact eq_refl.
Qed.

(** * CRAX *)
Lemma alz_grp_round a b c v : a <= 32 -> b <= 32 -> inw 32 (fst v) -> inw 32 (snd v) -> inw 32 c ->
  alz_grp (Some a) b c v = alzette_round c v (a, b) /\ inw 32 (fst (alzette_round c v (a, b))) /\ inw 32 (snd (alzette_round c v (a, b))).
Proof.
  intros Ha Hb H1 H2 Hc. assert (E : alz_grp (Some a) b c v = alzette_round c v (a, b)).
  { unfold alz_grp, alzette_round, alz_ror. cbn [fst snd]. cbv zeta. rewrite <- (ror_rotr 32 (snd v)) by (wb || lia). rewrite !add32_wadd, <- ror_rotr by (wb || lia). reflexivity. }
  rewrite <- E. split; [reflexivity|]. unfold alz_grp, alz_ror. cbn [fst snd]. split; wb.
Qed.
Lemma alz_none b c v : inw 32 (snd v) -> alz_grp None b c v = alz_grp (Some 0) b c v.
Proof. intros H. unfold alz_grp, alz_ror. rewrite (ror_rotr 32 (snd v) 0) by (auto; lia). unfold rotr. change (2 ^ 0) with 1. rewrite N.sub_0_r, N.div_1_r, N.mod_mul by discriminate. rewrite N.add_0_r. reflexivity. Qed.
Lemma alzette_eq c v : inw 32 c -> inw 32 (fst v) -> inw 32 (snd v) ->
  alzette c v = alzette_box c v /\ inw 32 (fst (alzette_box c v)) /\ inw 32 (snd (alzette_box c v)).
Proof.
  intros Hc H1 H2. unfold alzette, alzette_box, alzette_rots. cbn [fold_left]. cbv zeta.
  destruct (alz_grp_round 31 24 c v ltac:(lia) ltac:(lia) H1 H2 Hc) as (-> & I1 & I2). set (v1 := alzette_round c v (31, 24)) in *. clearbody v1.
  destruct (alz_grp_round 17 17 c v1 ltac:(lia) ltac:(lia) I1 I2 Hc) as (-> & J1 & J2). set (v2 := alzette_round c v1 (17, 17)) in *. clearbody v2.
  rewrite alz_none by exact J2.
  destruct (alz_grp_round 0 31 c v2 ltac:(lia) ltac:(lia) J1 J2 Hc) as (-> & K1 & K2). set (v3 := alzette_round c v2 (0, 31)) in *. clearbody v3.
  now apply alz_grp_round.
Qed.
Lemma crax_key_add k i v : crax_key k i v = crax_add k i v.
Proof.
  unfold crax_key, crax_add, word. cbv zeta. destruct (Nat.odd i) eqn:O.
  - apply Nat.odd_spec in O. destruct O as [m ->]. replace ((2 * m + 1) mod 2)%nat with 1%nat; [reflexivity|].
    rewrite Nat.add_comm, Nat.mul_comm, Nat.mod_add by discriminate. reflexivity.
  - rewrite <- Nat.negb_even in O. apply negb_false_iff in O. apply Nat.even_spec in O. destruct O as [m ->].
    replace ((2 * m) mod 2)%nat with 0%nat; [reflexivity|]. rewrite Nat.mul_comm, Nat.mod_mul by discriminate. reflexivity.
Qed.
Lemma crax_words k v : words_ok 32 k -> inw 32 (fst v) -> inw 32 (snd v) ->
  pfor 10 0 (crax_enc_step k) v = fold_left (crax_step k) (seq 0 10) v.
Proof.
  intros Hk H1 H2.
  apply (pfor_fold (fun _ u v => u = v /\ inw 32 (fst u) /\ inw 32 (snd u)) 10 0 (crax_enc_step k) (crax_step k) v v); [|now repeat split].
  intros t y u Ht (<- & I1 & I2). unfold crax_enc_step, crax_step. cbv zeta. rewrite crax_key_add.
  change crax_rcon with crax_c. unfold word at 1. 
  assert (T : inw 32 (N.of_nat t)) by (unfold inw; change (2 ^ 32) with 4294967296; lia).
  assert (Kw : forall j, inw 32 (word k j)) by (intros; now apply words_nth).
  destruct (alzette_eq (nth (t mod 5) crax_c 0) (crax_add k t (N.lxor (fst y) (N.of_nat t), snd y))) as (-> & J1 & J2).
  - apply words_nth. repeat constructor.
  - unfold crax_add. cbn [fst snd]. cbv zeta. wb.
  - unfold crax_add. cbn [fst snd]. cbv zeta. wb.
  - now repeat split.
Qed.
Lemma crax_create_inv key s : crax_create 0 key = Ok s -> s = crax_setup 0 key.
Proof.
  intros Es. unfold crax_create in Es. apply assert_inv in Es. destruct Es as [_ Es]. apply Ok_inj in Es. now symmetry.
Qed.
Lemma crax_published : is_cipher crax_desc (up_to 16) crax_cipher.
Proof.
  apply (is_cipher_default _ _ _ crax_default); [intros key Hk; exact Hk|].
  intros key s Hb Hk Es pt Hp. apply crax_create_inv in Es. subst s. unfold up_to in Hk.
  change (bc_enc crax_desc) with crax_encrypt. unfold crax_encrypt, crax_cipher. destruct Hp as [Lp Bp]. change (bc_bs crax_desc) with 8%nat in Lp.
  change (N.to_nat (crax_steps (crax_setup 0 key))) with 10%nat. change (crax_k (crax_setup 0 key)) with (key32l key 4).
  rewrite key32l_words by (auto; lia). change (4 * 4)%nat with 16%nat. cbv zeta.
  assert (Kr : regs 32 4 (le_words 4 4 (zero_pad 16 key))) by (apply le_words_regs; [now apply bytes_zero_pad|reflexivity]).
  assert (Pr : regs 32 2 (le_words 4 2 pt)) by now apply le_words_regs.
  rewrite ld2_le32 by (split; assumption). apply f_equal. 
  rewrite crax_words; [|apply Kr|apply words_nth, Pr|apply words_nth, Pr].
  rewrite crax_key_add. set (v := crax_add _ _ _). clearbody v. destruct v as [a b]. now rewrite st2_le32.
Qed.
