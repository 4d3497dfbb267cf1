(** Chosen round counts give the member of the family with that many rounds. *)
From Coq Require Import NArith PArith Arith List Bool Lia.
From Verif Require Import Lib.Word Lib.Res Lib.Bytes Lib.Lists Lib.WordSpec Lib.WordsP Lib.BlockLemmas Spec.Words Spec.Block Spec.Cipher Spec.Arx Spec.GostAny Spec.Rounds
  Model.LoadStore Model.BlockApi Model.Tea Model.Xtea Model.Rc5 Model.Rc6 Model.Gost Model.Speck Model.Simon Model.Lea Model.Idea Model.Ciphers
  Proof.LoadStoreP Proof.TeaP Proof.XteaP Proof.Rc5P Proof.Rc6P Proof.GostP Proof.SpeckP Proof.SimonP Proof.LeaP Proof.IdeaP Proof.CiphersP Proof.Sha1P Proof.RekeyP
  Proof.ArxP Proof.SpeckPubP Proof.LeaPubP Proof.IdeaPubP Proof.GostAnyP.
Import ListNotations.
Local Open Scope N_scope.

Lemma is_rounds_intro c (P : N -> list N -> Prop) (ok : nat -> list N -> Prop) E : works_when P c ->
  (forall r key, (0 < r)%nat -> ok r key -> (0 < length key <= bc_maxkey c)%nat /\ P (N.of_nat r) key) ->
  (forall r key s, bytes_ok key -> (0 < r)%nat -> ok r key -> bc_create c (N.of_nat r) key = Ok s ->
    forall pt, blk (bc_bs c) pt -> bc_enc c s pt = Ok (E r key pt)) ->
  is_rounds c ok E.
Proof.
  intros W B H r key Hb Hr Hk. destruct (B r key Hr Hk) as [B1 B2]. destruct (W (N.of_nat r) key (conj Hb B1) B2) as (s & Es & _ & U & _).
  exists s. split; [exact Es|]. intros pt Hp. pose proof (H r key s Hb Hr Hk Es pt Hp) as Ee. split; [exact Ee|].
  destruct (U pt (proj1 Hp) (proj2 Hp)) as (ct & E1 & _ & _ & E2). rewrite Ee in E1. apply Ok_inj in E1. now rewrite E1.
Qed.
Lemma pos_eqb r : (0 < r)%nat -> (N.of_nat r =? 0) = false.
Proof. intros H. apply N.eqb_neq. lia. Qed.
Lemma words_of_ge k n : (k <> 0)%nat -> (n <= k * words_of k n)%nat.
Proof. intros H. unfold words_of. pose proof (Nat.div_mod_eq (n + (k - 1)) k). pose proof (Nat.mod_upper_bound (n + (k - 1)) k H). lia. Qed.
Lemma words_of_pos k n : (k <> 0)%nat -> (0 < n)%nat -> (0 < words_of k n)%nat.
Proof. intros H Hn. unfold words_of. apply Nat.div_str_pos. lia. Qed.
Lemma words_of_le k n m : (k <> 0)%nat -> (n <= k * m)%nat -> (words_of k n <= m)%nat.
Proof. intros H Hn. unfold words_of. apply Nat.lt_succ_r, Nat.div_lt_upper_bound; nia. Qed.
Lemma words_of_mul k m : (k <> 0)%nat -> words_of k (k * m) = m.
Proof. intros H. unfold words_of. symmetry. apply Nat.div_unique with (k - 1)%nat; lia. Qed.

(** TEA *)
Lemma tea_rounds : is_rounds tea_desc (fun r key => (0 < length key <= 16)%nat /\ N.of_nat r < 2 ^ 32) tea_cipher.
Proof.
  apply (is_rounds_intro _ _ _ _ tea_works); [intros r key _ [H1 H2]; split; [exact H1|exact H2]|].
  intros r key s Hb Hr [Hk Hr2] Es pt Hp. cbn [tea_desc bc_create bc_enc] in *. unfold tea_create in Es. apply assert_inv in Es. destruct Es as [_ Es].
  apply Ok_inj in Es. subst s. unfold tea_encrypt.
  assert (C : tea_c (tea_setup (N.of_nat r) key) = tea_ci r).
  { unfold tea_setup. cbn [tea_c]. rewrite pos_eqb by exact Hr. unfold wmul, tea_ci. now rewrite mask_mod. }
  rewrite (tea_enc_run _ r) by (exact C || exact Hr2). cbn [bind].
  rewrite ld2_be32 by exact Hp. unfold tea_cipher.
  set (K := be_words 4 4 (zero_pad 16 key)).
  pose proof (pfor_fold (fun _ x v => x = v /\ inw 32 (fst v) /\ inw 32 (snd v)) r 0 (tea_enc_round (tea_setup (N.of_nat r) key)) (tea_cycle K)
    (word (be_words 4 2 pt) 0, word (be_words 4 2 pt) 1) (word (be_words 4 2 pt) 0, word (be_words 4 2 pt) 1)) as P. cbv beta in P.
  destruct P as [P _].
  - intros t y v _ (-> & H1 & H2). unfold tea_enc_round, tea_cycle. cbn [tea_setup tea_k].
    rewrite (key32b_words key 4) by (auto; lia). change (4 * 4)%nat with 16%nat. fold K. unfold word.
    rewrite tea_ci_sum. rewrite (tea_f_mix (snd v)) by exact H2. rewrite tea_f_mix by wb. unfold add32. rewrite !plus_w_wadd.
    repeat split; cbn [fst snd]; rewrite <- ?plus_w_wadd; wb.
  - split; [reflexivity|]. cbn [fst snd]. split; apply (be_words_word 4); (apply Hp || reflexivity).
  - rewrite P. destruct (fold_left _ _ _) as [a b]. now rewrite st2_be32.
Qed.

(** XTEA *)
Lemma xtea_rounds_any : is_rounds xtea_desc (fun r key => (0 < length key <= 16)%nat /\ Nat.even r = true /\ N.of_nat r < 2 ^ 30) (fun r => xtea_any (r / 2)).
Proof.
  apply (is_rounds_intro _ _ _ _ xtea_works).
  { intros r key _ (H1 & H2 & H3). split; [exact H1|]. split; [|exact H3]. apply Nat.even_spec in H2. destruct H2 as [m ->]. apply N.even_spec. exists (N.of_nat m). lia. }
  intros r key s Hb Hr (Hk & He & _) Es pt Hp. apply Nat.even_spec in He. destruct He as [m ->].
  rewrite (Nat.mul_comm 2 m) at 1. rewrite Nat.div_mul by discriminate.
  cbn [xtea_desc bc_create bc_enc] in *. unfold xtea_create in Es. apply assert_inv in Es. destruct Es as [_ Es].
  apply fits_inv in Es. destruct Es as [_ Es]. apply Ok_inj in Es. subst s. unfold xtea_encrypt. cbn [xtea_setup xtea_k xtea_rounds].
  unfold xtea_r. rewrite pos_eqb by exact Hr. rewrite Nat2N.id.
  assert (En : wshr (N.of_nat (length key) + 3) 2 = N.of_nat (words_of 4 (length key))).
  { rewrite wshr_div. unfold words_of. rewrite Nat2N.inj_div, Nat2N.inj_add. reflexivity. }
  rewrite En. unfold xtea_any. set (n := words_of 4 (length key)) in *.
  assert (Hn : (0 < n <= 4)%nat /\ (length key <= 4 * n)%nat).
  { subst n. split; [split; [apply words_of_pos|apply words_of_le]|apply words_of_ge]; lia. }
  clearbody n. destruct Hn as [Hn Hn4].
  set (ks := xtea_sched _ _ _ _ _). assert (L : length ks = (2 * m)%nat) by apply length_xtea_sched.
  pose proof (xtea_enc_even ks m 0) as XE. change (2 * 0)%nat with 0%nat in XE. rewrite XE by (rewrite L; lia). rewrite mfor_Ok. cbn [bind].
  rewrite ld2_be32 by exact Hp.
  set (K := be_words 4 n (zero_pad (4 * n) key)).
  pose proof (pfor_fold (fun _ x v => x = v) m 0 (xtea_pair ks) (xtea_cycle_any n K)
    (word (be_words 4 2 pt) 0, word (be_words 4 2 pt) 1) (word (be_words 4 2 pt) 0, word (be_words 4 2 pt) 1)) as P. cbv beta in P.
  rewrite P; [destruct (fold_left _ _ _) as [a b]; now rewrite st2_be32| |reflexivity].
  intros t y v Ht ->. unfold xtea_pair, xtea_cycle_any, xtea_add.
  assert (KE : forall i, (i < n)%nat -> nth i (key32b key 4) 0 = nth i K 0).
  { intros i Hi. unfold K. rewrite <- (key32b_words key n) by (auto; lia). rewrite !key32b_loads by (auto; lia). unfold loads.
    rewrite !nth_map_seq by lia. reflexivity. }
  destruct (xtea_sched_nth (key32b key 4) m n 0 0 eq_refl ltac:(lia) t ltac:(lia)) as [E0 E1]. fold ks in E0, E1.
  change (0 + t)%nat with t in E0, E1.
  assert (B : forall x, (N.to_nat (x mod N.of_nat n) < n)%nat) by (intros x; pose proof (N.mod_lt x (N.of_nat n) ltac:(lia)); lia).
  rewrite (KE _ (B _)) in E0. rewrite (KE _ (B _)) in E1.
  rewrite E0, E1, !xtea_F_mix. unfold add32, word. rewrite !plus_w_wadd, tea_ci_sum.
  replace (tea_ci t) with ((N.of_nat t * golden) mod 2 ^ 32); [reflexivity|].
  unfold tea_ci, golden, tea_delta. f_equal. lia.
Qed.

(** RC5 and RC6, for keys of at most as many words as the table *)
Lemma rc5_rounds_any : is_rounds rc5_desc (fun r key => (0 < length key <= 8 * (r + 1))%nat /\ (length key <= 255)%nat /\ N.of_nat r < 2 ^ 29 - 1) rc5_cipher.
Proof.
  apply (is_rounds_intro _ _ _ _ rc5_works); [intros r key _ (H1 & H2 & H3); split; [split; [lia|exact H2]|exact H3]|].
  intros r key s Hb Hr (Hk & _ & _) Es pt Hp. cbn [rc5_desc bc_create bc_enc] in *. unfold rc5_create in Es. apply assert_inv in Es. destruct Es as [_ Es].
  apply fits_inv in Es. destruct Es as [_ Es]. apply Ok_inj in Es. subst s. unfold rc5_encrypt, rc5_enc_words. cbn [rc5_setup rc5_k rc5_r].
  unfold rc5_rounds. rewrite pos_eqb by exact Hr. rewrite Nat2N.id. replace (N.to_nat (2 * (N.of_nat r + 1))) with (2 * (r + 1))%nat by lia.
  unfold rc5_cipher. set (t := (2 * (r + 1))%nat) in *. assert (Ht : t = (2 * (r + 1))%nat) by reflexivity. clearbody t.
  assert (C : ((length key + 3) / 4 <= t)%nat) by (apply Nat.lt_succ_r, Nat.div_lt_upper_bound; lia).
  rewrite <- rc5_sched_table by (auto; lia).
  destruct (rc5_sched_ok t key) as [L W]. set (T := rc5_sched t key) in *. clearbody T. clear Hk C.
  rewrite !(get_ok T _ 0) by lia. cbn [bind]. rewrite ld2_le32 by exact Hp. cbn [fst snd].
  rewrite fold_shift.
  match goal with |- context [mfor ?n 0 ?f ?x] => match goal with |- context [fold_left ?g _ ?v] =>
    destruct (mfor_fold (fun _ y u => y = u /\ @w2 32 u) n 0%nat f g x v) as (z & Ez & Hz & _) end end.
  - intros i y u Hi (-> & Hu). rewrite !(get_ok T _ 0) by lia. cbn [bind]. eexists. split; [reflexivity|].
    rewrite rc5_round_eq by exact Hu. split; [reflexivity|]. unfold rc5_round, w2. rewrite !add32_wadd. cbn [fst snd]. split; wb.
  - unfold word. rewrite !add32_wadd. split; [reflexivity|]. split; cbn [fst snd]; wb.
  - rewrite Ez. cbn [bind]. rewrite Hz. cbv zeta. destruct (fold_left _ _ _). now rewrite st2_le32.
Qed.
Lemma rc6_rounds_any : is_rounds rc6_desc (fun r key => (0 < length key <= 8 * (r + 2))%nat /\ (length key <= 255)%nat /\ N.of_nat r < 2 ^ 29 - 2) rc6_cipher.
Proof.
  apply (is_rounds_intro _ _ _ _ rc6_works); [intros r key _ (H1 & H2 & H3); split; [split; [lia|exact H2]|exact H3]|].
  intros r key s Hb Hr (Hk & _ & _) Es pt Hp. cbn [rc6_desc bc_create bc_enc] in *. unfold rc6_create in Es. apply assert_inv in Es. destruct Es as [_ Es].
  apply fits_inv in Es. destruct Es as [_ Es]. apply Ok_inj in Es. subst s. unfold rc6_r. rewrite pos_eqb by exact Hr.
  assert (C : ((length key + 3) / 4 <= 2 * r + 4)%nat) by (apply Nat.lt_succ_r, Nat.div_lt_upper_bound; lia).
  assert (Et : N.to_nat (2 * (N.of_nat r + 2)) = (2 * r + 4)%nat) by lia.
  rewrite (rc6_body_eq (rc6_setup (N.of_nat r) key) r pt Hp); cbn [rc6_setup rc6_k rc6_rounds].
  - rewrite Et, rc5_sched_table by (auto; lia). now rewrite rc6_cipher_body.
  - apply Nat2N.id.
  - rewrite Et, (proj1 (rc5_sched_ok (2 * r + 4) key)). lia.
Qed.

(** GOST *)
Lemma gost_rounds_any sb : nibbles sb -> is_rounds (gost_desc sb)
  (fun r key => (0 < length key <= 32)%nat /\ Nat.even r = true /\ N.of_nat r < 2 ^ 30 /\ (2 * words_of 4 (length key) <= r)%nat) (gost_any sb).
Proof.
  intros Hs. apply (is_rounds_intro _ _ _ _ (gost_works sb)).
  - intros r key Hr (H1 & H2 & H3 & H4). split; [exact H1|]. split; [exact H3|]. split.
    + apply Nat.even_spec in H2. destruct H2 as [m ->]. apply N.even_spec. exists (N.of_nat m). lia.
    + unfold gost_rounds. rewrite pos_eqb by exact Hr. change (gost_kl key) with (words_of 4 (length key)). lia.
  - intros r key s Hb Hr (_ & H2 & _) Es pt Hp. apply Nat.even_spec in H2. destruct H2 as [m ->].
    apply (gost_any_ok sb (N.of_nat (2 * m)) key s pt m Hs Hb Es); [|exact Hp].
    unfold gost_rounds. rewrite pos_eqb by exact Hr. lia.
Qed.
Lemma gost_any_32 sb key pt : length key = 32%nat -> gost_any sb 32 key pt = gost_cipher sb key pt.
Proof. intros L. unfold gost_any, gost_cipher. rewrite L. change ((32 + 3) / 4)%nat with 8%nat. now rewrite zero_pad_full by lia. Qed.

(** IDEA *)
Lemma idea_rounds_any : is_rounds idea_desc (fun r key => (0 < length key <= 16)%nat /\ 24 * N.of_nat r + 16 < 2 ^ 32) idea_any.
Proof.
  apply (is_rounds_intro _ _ _ _ idea_works); [intros r key _ [H1 H2]; split; [exact H1|exact H2]|].
  intros r key s Hb Hr (Hk & _) Es pt Hp. cbn [idea_desc bc_create bc_enc bc_bs] in *. unfold idea_create in Es. apply assert_inv in Es. destruct Es as [_ Es].
  apply fits_inv in Es. destruct Es as [_ Es]. apply Ok_inj in Es. subst s.
  unfold idea_encrypt, idea_setup. cbn [idea_ek idea_r]. unfold idea_rounds. rewrite pos_eqb by exact Hr. rewrite Nat2N.id.
  destruct (idea_keys key (6 * r + 4)) as [LE E]; [exact Hb|apply Hk|lia|].
  set (ek := pfor (6 * r + 4 - 8) 8 idea_ext (key16b key 8)) in *. clearbody ek.
  unfold idea_crypt, idea_any. rewrite Nat2N.id. rewrite ld4_be16 by exact Hp.
  pose proof (idea_subkey_inw (zero_pad 16 key)) as Hi. set (k := idea_subkey (zero_pad 16 key)) in *. clearbody k. cbv zeta.
  match goal with |- context [mfor ?n 0 ?f ?x] => match goal with |- context [fold_left ?g _ ?v] =>
    destruct (mfor_fold (fun _ y u => y = u /\ @w4 16 u) n 0%nat f g x v) as (z & Ez & Hz & Wz) end end.
  - intros t y u Ht [-> Hu]. rewrite !(get_ok ek _ 0) by lia. cbn [bind]. eexists. split; [reflexivity|].
    rewrite !E by lia. replace (t * 6)%nat with (6 * t)%nat by lia. rewrite <- (Nat.add_0_r (6 * t)) at 1. now apply idea_body_round.
  - split; [reflexivity|]. repeat split; apply (be_words_word 2); (apply Hp || reflexivity).
  - rewrite Ez. cbn [bind]. rewrite Hz in *. clear Ez Hz.
    match goal with |- context [fold_left ?g ?l ?v] => destruct (fold_left g l v) as [[[x0 x1] x2] x3] end.
    destruct Wz as (H0 & H1 & H2 & H3). rewrite !(get_ok ek _ 0) by lia. cbn [bind]. rewrite !E by lia.
    replace (r * 6)%nat with (6 * r)%nat by lia.
    rewrite st4_be16. unfold add16. rewrite <- !plus_w_wadd. rewrite !idea_mul_times by (assumption || apply Hi). reflexivity.
Qed.
Lemma idea_any_8 key pt : idea_any 8 key pt = idea_cipher key pt.
Proof.
  unfold idea_any, idea_cipher. generalize (idea_subkey (zero_pad 16 key)). intros k. cbv zeta.
  generalize (fold_left (idea_round k) (seq 0 8) (word (be_words 2 4 pt) 0, word (be_words 2 4 pt) 1, word (be_words 2 4 pt) 2, word (be_words 2 4 pt) 3)).
  intros [[[x1 x2] x3] x4]. change (6 * 8)%nat with 48%nat. change (48 + 1)%nat with 49%nat. change (48 + 2)%nat with 50%nat. change (48 + 3)%nat with 51%nat. reflexivity.
Qed.

(** LEA *)
Lemma lea_rounds_any : is_rounds lea_desc (fun r key => (0 < length key <= 32)%nat /\ (r mod 4 = 0)%nat /\ N.of_nat r * 24 < 2 ^ 32) lea_any.
Proof.
  apply (is_rounds_intro _ _ _ _ lea_works).
  { intros r key _ (H1 & H2 & H3). split; [exact H1|]. split; [|exact H3]. change 4 with (N.of_nat 4). rewrite <- Nat2N.inj_mod. now rewrite H2. }
  intros r key s Hb Hr (Hk & H4 & _) Es pt Hp. cbn [lea_desc bc_create bc_enc bc_bs] in *. unfold lea_create in Es. apply assert_inv in Es. destruct Es as [_ Es].
  apply fits_inv in Es. destruct Es as [_ Es]. apply Ok_inj in Es. subst s.
  apply Nat.mod_divides in H4; [|discriminate]. destruct H4 as [m Er].
  unfold lea_rounds. rewrite pos_eqb by exact Hr. unfold lea_setup. rewrite Nat2N.id.
  destruct (lea_sched_ok r key Hb) as [Lk _].
  rewrite (lea_enc_keyed {| lea_r := N.of_nat r; lea_k := lea_sched r key |} m pt) by
    (cbn [lea_r lea_k]; rewrite ?Nat2N.id, ?Lk; (exact Er || lia || exact Hp)).
  cbn [lea_k]. rewrite <- Er. unfold lea_any, lea_sched. apply f_equal. apply f_equal.
  destruct (Nat.leb_spec (length key) 16) as [A|A].
  - rewrite (proj2 (Nat.ltb_ge 24 (length key))), (proj2 (Nat.ltb_ge 16 (length key))) by lia.
    rewrite lea_run_keyed by reflexivity. rewrite (key32l_words key 4) by (auto; lia).
    rewrite (lea_sched_keys 4 4 (fun _ c => c) [0; 1; 2; 1; 3; 1]%nat lea_key128) by reflexivity. reflexivity.
  - destruct (Nat.leb_spec (length key) 24) as [B|B].
    + rewrite (proj2 (Nat.ltb_ge 24 (length key))), (proj2 (Nat.ltb_lt 16 (length key))) by lia.
      rewrite lea_run_keyed by reflexivity. rewrite (key32l_words key 6) by (auto; lia).
      rewrite (lea_sched_keys 6 6 (fun _ c => c) (seq 0 6) lea_key192) by reflexivity. reflexivity.
    + rewrite (proj2 (Nat.ltb_lt 24 (length key))) by lia.
      rewrite lea_run_keyed by reflexivity. rewrite (key32l_words key 8) by (auto; lia).
      rewrite (lea_sched_keys 6 8 (fun i c => Nat.modulo (i * 6 + c) 8) (seq 0 6) lea_key256); [reflexivity|].
      intros T i. unfold lea_key256. rewrite (Nat.mul_comm 6 i). reflexivity.
Qed.

(** Speck *)
Lemma speck_rounds_any p : speck_good p -> words_std (sp_w p) (sp_k p) (sp_ld p) (sp_st p) (sp_key p) ->
  (forall key n m, sp_key p (key ++ repeat 0 n) m = sp_key p key m) -> sp_maxkey p = (4 * sp_k p)%nat ->
  is_rounds (speck_desc p) (fun r key => (sp_k p < length key <= 4 * sp_k p)%nat /\ N.of_nat r < 2 ^ sp_w p /\ N.of_nat r * N.of_nat (sp_k p) < 2 ^ 32)
    (speck_any (sp_w p) (sp_k p) (sp_ra p) (sp_rb p)).
Proof.
  intros G S_ Hz Hm. pose proof (sg_k p G) as K0. apply (is_rounds_intro _ _ _ _ (speck_works p G)).
  - intros r key Hr (H1 & H2 & H3). unfold speck_r. rewrite pos_eqb by exact Hr. cbn [speck_desc bc_maxkey]. rewrite Hm.
    split; [lia|]. split; [lia|]. split; [lia|exact H3].
  - intros r key s Hb Hr (H1 & H2 & H3) Es pt Hp. cbn [speck_desc bc_enc bc_bs bc_create] in *.
    set (nw := words_of (sp_k p) (length key)).
    assert (Hn : (2 <= nw <= 4)%nat /\ (length key <= sp_k p * nw)%nat).
    { subst nw. split; [split|now apply words_of_ge].
      - unfold words_of. apply Nat.div_le_lower_bound; lia.
      - apply words_of_le; lia. }
    destruct Hn as [Hn Hl].
    unfold speck_create in Es. apply assert_inv in Es. destruct Es as [_ Es].
    apply fits_inv in Es. destruct Es as [_ Es]. unfold speck_r in Es. rewrite pos_eqb in Es by exact Hr.
    set (key' := zero_pad (sp_k p * nw) key).
    assert (L' : length key' = (sp_k p * nw)%nat) by now apply length_zero_pad.
    assert (B' : bytes_ok key') by (apply Forall_app; split; [exact Hb|apply bytes_repeat0]).
    assert (E' : speck_setup p (N.of_nat r) key' = Ok s).
    { rewrite <- Es. unfold speck_setup. change (speck_words p key') with (words_of (sp_k p) (length key')). rewrite L', words_of_mul by exact K0.
      change (speck_words p key) with nw. unfold key', zero_pad. now rewrite Hz. }
    destruct (speck_setup_pub p G S_ (N.of_nat r) key' nw B' L' Hn) as (s' & E'' & R' & K' & W' & LK); [now rewrite Nat2N.id|lia|].
    rewrite E'' in E'. apply Ok_inj in E'. subst s'. rewrite Nat2N.id in *.
    rewrite (speck_enc_pub p G S_ s r pt _ Hp eq_refl W' ltac:(rewrite R'; apply Nat2N.id) LK). rewrite K'.
    unfold speck_any, speck_cipher. fold nw. fold key'. rewrite L'. rewrite Nat.mul_comm, Nat.div_mul by assumption. reflexivity.
Qed.

(** Simon *)
Lemma simon_rounds_any p (j : nat -> nat) : simon_good p -> words_std (si_w p) (si_k p) (si_ld p) (si_st p) (si_key p) ->
  (forall key n m, si_key p (key ++ repeat 0 n) m = si_key p key m) -> si_maxkey p = (4 * si_k p)%nat -> (si_min p <= 4)%nat ->
  (forall m, (si_min p <= m <= 4)%nat -> z_ok p m (j m) = true) ->
  is_rounds (simon_desc p) (fun r key => (0 < length key <= 4 * si_k p)%nat /\ (simon_words_of (si_k p) (si_min p) key <= r)%nat /\ N.of_nat r * N.of_nat (si_k p) < 2 ^ 32)
    (fun r key => let m := simon_words_of (si_k p) (si_min p) key in simon_cipher (si_w p) (si_k p) (j m) r (zero_pad (si_k p * m) key)).
Proof.
  intros G S_ Hz Hm Hm4 Hj. pose proof (ig_k p G) as K0. apply (is_rounds_intro _ _ _ _ (simon_works p G)).
  - intros r key Hr (H1 & H2 & H3). unfold simon_r. rewrite pos_eqb by exact Hr. cbn [simon_desc bc_maxkey]. rewrite Hm.
    split; [lia|]. split; [|exact H3]. change (simon_m p key) with (simon_words_of (si_k p) (si_min p) key). lia.
  - intros r key s Hb Hr (H1 & H2 & H3) Es pt Hp. cbn [simon_desc bc_enc bc_bs bc_create] in *.
    assert (Em : simon_m p key = simon_words_of (si_k p) (si_min p) key) by reflexivity.
    set (m := simon_words_of (si_k p) (si_min p) key) in *.
    assert (Hn : (si_min p <= m <= 4)%nat /\ (length key <= si_k p * m)%nat).
    { subst m. unfold simon_words_of. pose proof (words_of_le (si_k p) (length key) 4 K0 ltac:(lia)).
      pose proof (words_of_ge (si_k p) (length key) K0). split; [lia|]. nia. }
    destruct Hn as [Hn Hl]. clearbody m.
    unfold simon_create in Es. apply assert_inv in Es. destruct Es as [_ Es].
    apply fits_inv in Es. destruct Es as [_ Es]. unfold simon_r in Es. rewrite pos_eqb in Es by exact Hr. apply Ok_inj in Es.
    set (key' := zero_pad (si_k p * m) key).
    assert (L' : length key' = (si_k p * m)%nat) by now apply length_zero_pad.
    assert (B' : bytes_ok key') by (apply Forall_app; split; [exact Hb|apply bytes_repeat0]).
    assert (E' : simon_setup p (N.of_nat r) key' = s).
    { rewrite <- Es. unfold simon_setup. rewrite Em.
      assert (M' : simon_m p key' = m).
      { change (simon_m p key') with (Nat.max (si_min p) (words_of (si_k p) (length key'))). rewrite L', words_of_mul by exact K0. lia. }
      rewrite M'. unfold key', zero_pad. now rewrite Hz. }
    rewrite <- E'. destruct (simon_setup_ok p G (N.of_nat r) key' B') as [LK W'].
    rewrite (simon_enc_pub p G S_ _ (N.to_nat (N.of_nat r)) pt _ Hp eq_refl W' eq_refl LK).
    rewrite (simon_setup_pub p G S_ (N.of_nat r) key' m (j m) B' L' ltac:(lia) (Hj m Hn)).
    rewrite Nat2N.id. cbv zeta. fold key'. unfold simon_cipher. rewrite L'. rewrite (Nat.mul_comm (si_k p) m), Nat.div_mul by assumption. reflexivity.
Qed.

Lemma speck32_rounds : is_rounds (speck_desc speck32) (speck_when 2 16) (speck_any 16 2 7 2).
Proof. exact (speck_rounds_any speck32 speck32_good std16 key16l_zeros eq_refl). Qed.
Lemma speck64_rounds : is_rounds (speck_desc speck64) (speck_when 4 32) (speck_any 32 4 8 3).
Proof. exact (speck_rounds_any speck64 speck64_good std32 key32l_zeros eq_refl). Qed.
Lemma speck128_rounds : is_rounds (speck_desc speck128) (speck_when 8 64) (speck_any 64 8 8 3).
Proof. exact (speck_rounds_any speck128 speck128_good std64 key64l_zeros eq_refl). Qed.
Lemma is_rounds_ext c (ok : nat -> list N -> Prop) E E' : (forall r key pt, ok r key -> E r key pt = E' r key pt) -> is_rounds c ok E -> is_rounds c ok E'.
Proof.
  intros H R r key Hb Hr Hk. destruct (R r key Hb Hr Hk) as (s & Es & P). exists s. split; [exact Es|]. intros pt Hp. rewrite <- H by exact Hk. now apply P.
Qed.
Lemma simon32_rounds : is_rounds (simon_desc simon32) (simon_when 2 4) simon32_any.
Proof.
  apply (is_rounds_ext _ _ (fun r key => let m := simon_words_of 2 4 key in simon_cipher 16 2 0 r (zero_pad (2 * m) key))).
  - intros r key pt (H & _). cbv zeta. unfold simon32_any. replace (simon_words_of 2 4 key) with 4%nat; [reflexivity|].
    unfold simon_words_of. pose proof (words_of_le 2 (length key) 4). lia.
  - apply (simon_rounds_any simon32 (fun _ => 0%nat) simon32_good std16 key16l_zeros eq_refl); [cbn; lia|].
    intros m Hm. cbn [si_min simon32] in Hm. replace m with 4%nat by lia. reflexivity.
Qed.
Lemma simon64_rounds : is_rounds (simon_desc simon64) (simon_when 4 3) simon64_any.
Proof.
  apply (simon_rounds_any simon64 (fun m => m - 1)%nat simon64_good std32 key32l_zeros eq_refl); [cbn; lia|].
  intros m Hm. cbn [si_min simon64] in Hm. assert (m = 3%nat \/ m = 4%nat) as [->| ->] by lia; reflexivity.
Qed.
Lemma simon128_rounds : is_rounds (simon_desc simon128) (simon_when 8 2) simon128_any.
Proof.
  apply (simon_rounds_any simon128 (fun m => m) simon128_good std64 key64l_zeros eq_refl); [cbn; lia|].
  intros m Hm. cbn [si_min simon128] in Hm. assert (m = 2%nat \/ m = 3%nat \/ m = 4%nat) as [->|[->| ->]] by lia; reflexivity.
Qed.
Lemma xtea_any_32 key pt : length key = 16%nat -> xtea_any 32 key pt = xtea_cipher 32 key pt.
Proof.
  intros L. unfold xtea_any, xtea_cipher. rewrite L. change (words_of 4 16) with 4%nat. now rewrite zero_pad_full by lia.
Qed.
