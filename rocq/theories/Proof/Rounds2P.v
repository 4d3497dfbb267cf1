(** Chosen round counts of SAFER, Noekeon, CRAX, Khazad, Anubis, SEED, SHACAL-2, Threefish, SM4, RECTANGLE and Serpent. *)
From Coq Require Import NArith PArith Arith List Bool Lia.
From Verif Require Import Lib.Word Lib.Res Lib.Bytes Lib.Bits Lib.Bij Lib.Lists Lib.Lin Lib.Spn Lib.GfP Lib.XorBytes Lib.WordSpec Lib.WordsP Lib.BlockLemmas Spec.Words Spec.Block Spec.Cipher Spec.Gf Spec.Affine Spec.Arx Spec.Pub2 Spec.Pub3 Spec.Pub6 Spec.Rounds
  Model.LoadStore Model.BlockApi Model.Table Model.Safer Model.Saferpp Model.Noekeon Model.Sparx Model.Khazad Model.Anubis Model.Seed Model.Shacal2 Model.Threefish Model.Sm4 Model.Rectangle Model.Serpent Model.Ciphers
  Proof.LoadStoreP Proof.Sha1P Proof.ArxP Proof.PubLib Proof.KhazadP Proof.CiphersP Proof.RekeyP Proof.SaferPubP Proof.ColumnsP Proof.WayPubP Proof.KhazadPubP Proof.AnubisPubP Proof.SeedPubP Proof.Shacal2PubP Proof.ThreefishP Proof.ThreefishPubP Proof.Sm4PubP Proof.RectanglePubP Proof.SerpentPubP Proof.RoundsP.
Import ListNotations.
Local Open Scope N_scope.

Lemma safer_rounds_any sk : is_rounds (safer_desc sk) (fun r key => (length key = 8 \/ length key = 16)%nat /\ N.of_nat r < 2 ^ 28 - 1) (safer_any sk).
Proof.
  apply (is_rounds_intro _ _ _ _ (safer_works sk)).
  { intros r key _ [H1 H2]. split; [change (bc_maxkey (safer_desc sk)) with 16%nat; lia|now split]. }
  intros r key s Hb Hr [Hk _] Es pt Hp. change (bc_enc (safer_desc sk)) with safer_encrypt. rewrite (safer_any_enc sk (N.of_nat r) key s pt Hb Hk Es Hp).
  unfold safer_rounds. rewrite pos_eqb by exact Hr. now rewrite Nat2N.id.
Qed.
Lemma saferpp_rounds_any : is_rounds saferpp_desc (fun r key => (length key = 16 \/ length key = 32)%nat /\ N.of_nat r < 2 ^ 27 - 1) saferpp_any.
Proof.
  apply (is_rounds_intro _ _ _ _ saferpp_works).
  { intros r key _ [H1 H2]. split; [change (bc_maxkey saferpp_desc) with 32%nat; lia|now split]. }
  intros r key s Hb Hr [Hk _] Es pt Hp. change (bc_enc saferpp_desc) with saferpp_encrypt. rewrite (saferpp_any_enc (N.of_nat r) key s pt Hb Hk Es Hp).
  unfold saferpp_rounds. rewrite pos_eqb by exact Hr. now rewrite Nat2N.id.
Qed.

Lemma noekeon_rounds_any : is_rounds noekeon_desc (fun r key => (0 < length key <= 16)%nat /\ (r < 34)%nat) noekeon_any.
Proof.
  apply (is_rounds_intro _ _ _ _ noekeon_works).
  { intros r key _ [H1 H2]. split; [exact H1|lia]. }
  intros r key s Hb Hr [Hk Hr2] Es pt Hp. change (bc_create noekeon_desc) with noek_create in Es. unfold noek_create in Es. apply assert_inv in Es. destruct Es as [_ Es]. apply Ok_inj in Es. subst s.
  unfold noek_setup. rewrite pos_eqb by exact Hr. cbv zeta.
  unfold noekeon_any. cbv zeta. rewrite key32b_words by (auto; lia). change (4 * 4)%nat with 16%nat.
  change (bc_enc noekeon_desc) with noek_encrypt. unfold noek_encrypt. destruct Hp as [Lp Bp]. change (bc_bs noekeon_desc) with 16%nat in Lp.
  rewrite loads32b_be by (auto; lia). rewrite (zero_pad_full (4 * 4) pt) by lia.
  rewrite noek_words; [|apply be_words_regs; [now apply bytes_zero_pad|reflexivity]|exact Hr2|now apply be_words_regs].
  cbn [bind]. now rewrite stores32b_be.
Qed.

Lemma crax_words_any r k v : N.of_nat r < 2 ^ 32 -> words_ok 32 k -> inw 32 (fst v) -> inw 32 (snd v) ->
  pfor r 0 (crax_enc_step k) v = fold_left (crax_step k) (seq 0 r) v.
Proof.
  intros Hr Hk H1 H2.
  apply (pfor_fold (fun _ u v => u = v /\ inw 32 (fst u) /\ inw 32 (snd u)) r 0 (crax_enc_step k) (crax_step k) v v); [|now repeat split].
  intros t y u Ht (<- & I1 & I2). unfold crax_enc_step, crax_step. cbv zeta. rewrite crax_key_add.
  change crax_rcon with crax_c. unfold word at 1.
  assert (T : inw 32 (N.of_nat t)) by (unfold inw; lia).
  assert (Kw : forall j, inw 32 (word k j)) by (intros; now apply words_nth).
  destruct (alzette_eq (nth (t mod 5) crax_c 0) (crax_add k t (N.lxor (fst y) (N.of_nat t), snd y))) as (-> & J1 & J2).
  - apply words_nth. repeat constructor.
  - unfold crax_add. cbn [fst snd]. cbv zeta. wb.
  - unfold crax_add. cbn [fst snd]. cbv zeta. wb.
  - now repeat split.
Qed.
Lemma crax_rounds_any : is_rounds crax_desc (fun r key => (0 < length key <= 16)%nat /\ N.of_nat r < 2 ^ 32) crax_any.
Proof.
  apply (is_rounds_intro _ _ _ _ crax_works).
  { intros r key _ H. exact H. }
  intros r key s Hb Hr [Hk Hr2] Es pt Hp. change (bc_create crax_desc) with crax_create in Es. unfold crax_create in Es. apply assert_inv in Es. destruct Es as [_ Es]. apply Ok_inj in Es. subst s.
  change (bc_enc crax_desc) with crax_encrypt. unfold crax_encrypt, crax_any. destruct Hp as [Lp Bp]. change (bc_bs crax_desc) with 8%nat in Lp.
  unfold crax_setup. cbn [crax_steps crax_k]. rewrite pos_eqb by exact Hr. rewrite Nat2N.id.
  rewrite key32l_words by (auto; lia). change (4 * 4)%nat with 16%nat. cbv zeta.
  assert (Kr : regs 32 4 (le_words 4 4 (zero_pad 16 key))) by (apply le_words_regs; [now apply bytes_zero_pad|reflexivity]).
  assert (Pr : regs 32 2 (le_words 4 2 pt)) by now apply le_words_regs.
  rewrite ld2_le32 by (split; assumption). apply f_equal.
  rewrite crax_words_any; [|exact Hr2|apply Kr|apply words_nth, Pr|apply words_nth, Pr].
  rewrite crax_key_add. set (v := crax_add _ _ _). clearbody v. destruct v as [a b]. now rewrite st2_le32.
Qed.

Lemma khazad_rounds_any : is_rounds khazad_desc (fun r key => (0 < length key <= 16)%nat /\ (r <= 8)%nat) khazad_any.
Proof.
  apply (is_rounds_intro _ _ _ _ khazad_works).
  { intros r key _ [H1 H2]. split; [exact H1|lia]. }
  intros r key s Hb Hr [Hk Hr2] Es pt Hp. apply khazad_create_gen in Es. unfold khazad_rounds in Es. rewrite pos_eqb in Es by exact Hr.
  change (bc_enc khazad_desc) with khazad_encrypt. destruct Hp as [Lp Bp]. change (bc_bs khazad_desc) with 8%nat in Lp.
  unfold khz_setup in Es. rewrite Nat2N.id in Es. destruct (khz_key_inw key Hb) as [H0 H1]. destruct (khz_key key) as [k0 k1] eqn:Ek. cbn [fst snd] in H0, H1.
  destruct (khz_keys_ok (S r) 0 k0 k1 ltac:(lia) H0 H1) as (ks & Eks & Lks & Wks). rewrite Eks in Es. cbn [bind] in Es. apply Ok_inj in Es. subst s.
  unfold khazad_encrypt. cbn [khz_k khz_r]. rewrite khz_crypt_eq by (rewrite ?Nat2N.id; auto; lia). rewrite Nat2N.id. f_equal. rewrite store64b_bytes.
  assert (Z : key ++ repeat 0 (16 - length key) = zero_pad 16 key) by reflexivity.
  unfold khz_key in Ek. rewrite Z in Ek. pose proof (bytes_zero_pad 16 key Hb) as BZ. pose proof (length_zero_pad 16 key (proj2 Hk)) as LZ.
  assert (SL : forall o, (o + 8 <= 16)%nat -> be_bytes 8 (load64b (zero_pad 16 key) o) = slice o 8 (zero_pad 16 key)).
  { intros o Ho. rewrite <- store64b_bytes. apply (c_stld _ _ _ _ codec64b); [exact BZ|lia]. }
  injection Ek as <- <-.
  unfold khazad_any. cbv zeta. unfold khazad_keys.
  rewrite (khz_keys_pub (r + 1) 0 [slice 0 8 (zero_pad 16 key); slice 8 8 (zero_pad 16 key)] (load64b (zero_pad 16 key) 8) (load64b (zero_pad 16 key) 0) ks);
    [|reflexivity|lia|symmetry; apply SL; lia|symmetry; apply SL; lia|rewrite Nat.add_1_r; exact Eks].
  set (K := fun i => nth i ks 0). set (K' := fun i => nth (i + 2) ([slice 0 8 (zero_pad 16 key); slice 8 8 (zero_pad 16 key)] ++ map (be_bytes 8) ks) []).
  assert (KK : forall i, (i < r + 1)%nat -> be_bytes 8 (K i) = K' i).
  { intros i Hi. unfold K, K'. rewrite app_nth2 by (cbn [length]; lia). cbn [length]. replace (i + 2 - 2)%nat with i by lia.
    rewrite (nth_indep _ [] (be_bytes 8 0)) by (rewrite map_length; lia). symmetry. apply map_nth. }
  unfold spn. fold K. cbv beta.
  assert (X : be_bytes 8 (load64b pt 0) = pt).
  { rewrite <- store64b_bytes. rewrite (c_stld _ _ _ _ codec64b) by (auto; lia). unfold slice. cbn [skipn]. apply firstn_all2. lia. }
  change (nth 0 ks 0) with (K 0%nat). change (nth r ks 0) with (K r). 
  rewrite be_bytes_lxor, khz_sub_pub, !xor_list_vxor. rewrite (khazad_fold (r - 1) 1 K K') by (intros i Hi; apply KK; lia).
  rewrite be_bytes_lxor, X, !KK by lia. replace (S (r - 1)) with r by lia. reflexivity.
Qed.

Lemma anubis_rounds_any : is_rounds anubis_desc (fun r key => (0 < length key <= 40)%nat /\ (r <= 64)%nat) anubis_any.
Proof.
  apply (is_rounds_intro _ _ _ _ anubis_works).
  { intros r key _ [H1 H2]. split; [exact H1|lia]. }
  intros r key s Hb Hr [Hk Hr2] Es pt Hp. change (bc_create anubis_desc) with anubis_create in Es. apply anubis_create_gen in Es.
  unfold anubis_rounds in Es. rewrite pos_eqb in Es by exact Hr. change (bc_enc anubis_desc) with anubis_encrypt.
  apply (anubis_any_enc (N.of_nat r) r key s pt Hb Hk); [apply Nat2N.id|lia|exact Es|exact Hp].
Qed.

Lemma seed_rounds_any : is_rounds seed_desc (fun r key => (0 < length key <= 16)%nat /\ N.of_nat r < 2 ^ 29) seed_any.
Proof.
  apply (is_rounds_intro _ _ _ _ seed_works).
  { intros r key _ H. exact H. }
  intros r key s Hb Hr [Hk Hr2] Es pt Hp. change (bc_create seed_desc) with seed_create in Es. unfold seed_create in Es. apply assert_inv in Es. destruct Es as [_ Es].
  cbv zeta in Es. apply fits_inv in Es. destruct Es as [_ Es]. apply Ok_inj in Es. subst s. unfold seed_rounds. rewrite pos_eqb by exact Hr.
  change (bc_enc seed_desc) with seed_encrypt. apply seed_any_enc; [apply Nat2N.id|exact Hb|lia|exact Hp].
Qed.

Lemma shacal2_rounds_any : is_rounds shacal2_desc (fun r key => (0 < length key <= 64)%nat /\ (r mod 8 = 0)%nat /\ (16 <= r <= 64)%nat) shacal2_any.
Proof.
  apply (is_rounds_intro _ _ _ _ shacal2_works).
  { intros r key _ [H1 [H2 H3]]. split; [exact H1|]. right. split; [|lia]. change 8 with (N.of_nat 8). rewrite <- Nnat.Nat2N.inj_mod. now rewrite H2. }
  intros r key s Hb Hr [Hk [Hm Hr2]] Es pt Hp. change (bc_create shacal2_desc) with shacal2_create in Es. unfold shacal2_create in Es.
  apply assert_inv in Es. destruct Es as [_ Es]. apply assert_inv in Es. destruct Es as [_ Es].
  cbv zeta in Es. apply fits_inv in Es. destruct Es as [_ Es]. apply Ok_inj in Es. subst s. unfold shacal2_rounds. rewrite pos_eqb by exact Hr.
  cbn [shacal2_desc bc_enc bc_bs] in *.
  assert (Em : (8 * (r / 8) = r)%nat) by (pose proof (Nat.div_mod r 8 ltac:(discriminate)); lia).
  set (m := (r / 8)%nat) in *. clearbody m.
  apply (shac_any_enc (N.of_nat r) m r); [exact Em|apply Nat2N.id| |lia|exact Hb|lia|exact Hp].
  unfold shac_passes. replace (N.of_nat r + 7) with (7 + N.of_nat m * 8) by lia. rewrite N.div_add by discriminate. change (7 / 8) with 0. lia.
Qed.

(** Threefish with a tweak, the number of rounds a multiple of 8 *)
Lemma tf_rounds_any p perm rots : tf_good p ->
  forallb (forallb (fun r => r <=? 64)) rots = true -> rounds4 p perm rots 0 (tf_e1 p) -> rounds4 p perm rots 4 (tf_e2 p) ->
  is_tweak_rounds p (threefish_cipher (tf_n p) perm rots).
Proof.
  intros G Hrot H1 H2 r key tw Hr [Hm _] Hk Bt Lt.
  assert (Em : (8 * (r / 8) = r)%nat) by (pose proof (Nat.div_mod r 8 ltac:(discriminate)); lia).
  set (m := (r / 8)%nat) in *. clearbody m. subst r.
  assert (Ho : tf_rounds_ok p (N.of_nat (8 * m))).
  { unfold tf_rounds_ok. rewrite pos_eqb by exact Hr. replace (N.of_nat (8 * m)) with (2 * N.of_nat m * 4) by lia. rewrite N.div_mul by discriminate. apply N.even_spec. now exists (N.of_nat m). }
  destruct (tf_perm_tweak p (N.of_nat (8 * m)) key tw G Hk Ho Lt) as (s & s' & E1 & E2 & P). exists s, s'. split; [exact E1|]. split; [exact E2|].
  assert (Es : s' = tweaked (tf_setup p (N.of_nat (8 * m)) key) tw).
  { unfold tf_create in E1. apply assert_inv in E1. destruct E1 as [_ E1]. apply Ok_inj in E1. subst s. rewrite tf_tweaked in E2 by exact Lt. now apply Ok_inj in E2. }
  intros pt Hp. destruct Hk as (Hb & Hk1 & Hk2).
  assert (Ee : tf_encrypt p s' pt = Ok (threefish_cipher (tf_n p) perm rots (8 * m) key tw pt)).
  { rewrite Es. apply tf_pub_any; auto. now rewrite pos_eqb by exact Hr. }
  split; [exact Ee|]. destruct P as (U & _). destruct (U pt (proj1 Hp) (proj2 Hp)) as (ct & F1 & _ & _ & F2).
  rewrite Ee in F1. apply Ok_inj in F1. now rewrite F1.
Qed.
Lemma threefish256_rounds : is_tweak_rounds threefish256 threefish256_any.
Proof. apply (tf_rounds_any threefish256 perm256 rots256 threefish256_good eq_refl tf256_e1 tf256_e2). Qed.
Lemma threefish512_rounds : is_tweak_rounds threefish512 threefish512_any.
Proof. apply (tf_rounds_any threefish512 perm512 rots512 threefish512_good eq_refl tf512_e1 tf512_e2). Qed.
Lemma threefish1024_rounds : is_tweak_rounds threefish1024 threefish1024_any.
Proof. apply (tf_rounds_any threefish1024 perm1024 rots1024 threefish1024_good eq_refl tf1024_e1 tf1024_e2). Qed.

Lemma sm4_rounds_any : is_rounds sm4_desc (fun r key => (0 < length key <= 16)%nat /\ (r mod 4 = 0)%nat /\ (r <= 32)%nat) sm4_any.
Proof.
  apply (is_rounds_intro _ _ _ _ sm4_works).
  { intros r key _ [H1 [H2 H3]]. split; [exact H1|]. split; [|lia]. change 4 with (N.of_nat 4). rewrite <- Nnat.Nat2N.inj_mod. now rewrite H2. }
  intros r key s Hb Hr [Hk [Hm Hr2]] Es pt Hp. change (bc_create sm4_desc) with sm4_create in Es. unfold sm4_create in Es.
  apply assert_inv in Es. destruct Es as [_ Es]. cbv zeta in Es. unfold sm4_rounds in Es. rewrite pos_eqb in Es by exact Hr.
  assert (Em : (4 * (r / 4) = r)%nat) by (pose proof (Nat.div_mod r 4 ltac:(discriminate)); lia).
  set (m := (r / 4)%nat) in *. clearbody m. change (bc_enc sm4_desc) with sm4_encrypt. rewrite <- Em.
  refine (sm4_any_enc _ (N.of_nat r) m key s pt _ _ Hb (proj2 Hk) Es Hp); [|lia].
  replace (N.of_nat r + 3) with (3 + N.of_nat m * 4) by lia. rewrite N.div_add by discriminate. change (3 / 4) with 0. lia.
Qed.
Lemma rectangle_rounds_any : is_rounds rectangle_desc (fun r key => (0 < length key <= 16)%nat /\ (r <= 25)%nat) rectangle_any.
Proof.
  apply (is_rounds_intro _ _ _ _ rectangle_works).
  { intros r key _ [H1 H2]. split; [exact H1|lia]. }
  intros r key s Hb Hr [Hk Hr2] Es pt Hp. change (bc_create rectangle_desc) with rect_create in Es. unfold rect_create in Es.
  apply assert_inv in Es. destruct Es as [_ Es]. apply assert_inv in Es. destruct Es as [_ Es]. apply Ok_inj in Es. subst s.
  unfold rect_r. rewrite pos_eqb by exact Hr. change (bc_enc rectangle_desc) with rect_encrypt.
  apply rectangle_any_enc; [apply Nat2N.id|exact Hr2|exact Hb|exact Hk|exact Hp].
Qed.

Lemma serpent_rounds_any : is_rounds serpent_desc (fun r key => (0 < length key <= 32)%nat /\ (r mod 8 = 0)%nat /\ N.of_nat r < 2 ^ 28) serpent_any.
Proof.
  apply (is_rounds_intro _ _ _ _ serpent_works).
  { intros r key _ [H1 [H2 H3]]. split; [exact H1|]. split; [|exact H3]. change 8 with (N.of_nat 8). rewrite <- Nnat.Nat2N.inj_mod. now rewrite H2. }
  intros r key s Hb Hr [Hk [Hm Hr2]] Es pt Hp. change (bc_create serpent_desc) with serpent_create in Es. unfold serpent_create in Es.
  apply assert_inv in Es. destruct Es as [_ Es]. cbv zeta in Es. apply fits_inv in Es. destruct Es as [_ Es]. apply Ok_inj in Es. subst s.
  unfold serpent_rounds. rewrite pos_eqb by exact Hr. change (bc_enc serpent_desc) with serpent_encrypt.
  assert (Em : (8 * S (r / 8 - 1) = r)%nat).
  { pose proof (Nat.div_mod r 8 ltac:(discriminate)). assert (r / 8 <> 0)%nat by (intros E0; rewrite E0 in *; lia). lia. }
  set (m := (r / 8 - 1)%nat) in *. clearbody m.
  apply (serpent_any_enc (N.of_nat r) m); [apply Nat2N.id| |exact Em|exact Hr2|exact Hb|exact (proj2 Hk)|exact Hp].
  unfold serp_passes. replace (N.of_nat r + 7) with (7 + N.of_nat (S m) * 8) by lia. rewrite N.div_add by discriminate. change (7 / 8) with 0. lia.
Qed.

(** * The published members *)
Lemma noekeon_any_16 key pt : noekeon_any 16 key pt = noekeon_cipher key pt.
Proof. unfold noekeon_any, noekeon_cipher. reflexivity. Qed.
Lemma crax_any_10 key pt : crax_any 10 key pt = crax_cipher key pt.
Proof. unfold crax_any, crax_cipher. reflexivity. Qed.
Lemma khazad_any_8 key pt : khazad_any 8 key pt = khazad_cipher key pt.
Proof. unfold khazad_any, khazad_cipher. change (8 + 1)%nat with 9%nat. change (8 - 1)%nat with 7%nat. reflexivity. Qed.
Lemma anubis_any_std key pt : anubis_any (Nat.max 12 (8 + (length key + 3) / 4)) key pt = anubis_cipher key pt.
Proof. unfold anubis_any, anubis_cipher. reflexivity. Qed.
Lemma threefish_any_std : threefish256_any 72 = threefish256_cipher /\ threefish512_any 72 = threefish512_cipher /\ threefish1024_any 80 = threefish1024_cipher.
Proof. unfold threefish256_any, threefish256_cipher, threefish512_any, threefish512_cipher, threefish1024_any, threefish1024_cipher. repeat split. Qed.
