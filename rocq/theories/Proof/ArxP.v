(** The small ARX ciphers are the published ones: TEA, XTEA, RC5, RC6. *)
From Coq Require Import NArith PArith Arith List Bool Lia.
From Verif Require Import Lib.Word Lib.Res Lib.Bytes Lib.Lists Lib.WordSpec Lib.WordsP Lib.BlockLemmas Spec.Words Spec.Block Spec.Cipher Spec.Arx
  Model.LoadStore Model.BlockApi Model.Tea Model.Xtea Model.Rc5 Model.Rc6 Model.Ciphers
  Proof.LoadStoreP Proof.TeaP Proof.XteaP Proof.Rc5P Proof.Rc6P Proof.CiphersP Proof.Sha1P Proof.RekeyP.
Import ListNotations.
Local Open Scope N_scope.

Lemma is_cipher_intro c (ok : list N -> Prop) (E : list N -> list N -> list N) :
  (forall key, bytes_ok key -> ok key -> exists s, bc_create c 0 key = Ok s /\ works c s) ->
  (forall key s, bytes_ok key -> ok key -> bc_create c 0 key = Ok s -> forall pt, blk (bc_bs c) pt -> bc_enc c s pt = Ok (E key pt)) ->
  is_cipher c ok E.
Proof.
  intros W H key Hb Hk. destruct (W key Hb Hk) as (s & Es & _ & U & _). exists s. split; [exact Es|].
  intros pt Hp. pose proof (H key s Hb Hk Es pt Hp) as Ee. split; [exact Ee|].
  destruct (U pt (proj1 Hp) (proj2 Hp)) as (ct & E1 & _ & _ & E2). rewrite Ee in E1. apply Ok_inj in E1. now rewrite E1.
Qed.
Lemma is_cipher_default c (ok : list N -> Prop) E : works_default c ->
  (forall key, ok key -> (0 < length key <= bc_maxkey c)%nat) ->
  (forall key s, bytes_ok key -> ok key -> bc_create c 0 key = Ok s -> forall pt, blk (bc_bs c) pt -> bc_enc c s pt = Ok (E key pt)) ->
  is_cipher c ok E.
Proof. intros W B H. apply is_cipher_intro; [|exact H]. intros key Hb Hk. apply W. split; [exact Hb|now apply B]. Qed.

(** Loads and stores of two and four words. *)
Lemma ld2_be32 pt : blk 8 pt -> ld2 (k := 4) (ld := load32b) pt = (word (be_words 4 2 pt) 0, word (be_words 4 2 pt) 1).
Proof. intros [L B]. unfold ld2, word. rewrite <- (nth_load32b 2 pt 0), <- (nth_load32b 2 pt 1) by (auto; lia). reflexivity. Qed.
Lemma ld2_le32 pt : blk 8 pt -> ld2 (k := 4) (ld := load32l) pt = (word (le_words 4 2 pt) 0, word (le_words 4 2 pt) 1).
Proof. intros [L B]. unfold ld2, word. rewrite <- (nth_load32l 2 pt 0), <- (nth_load32l 2 pt 1) by (auto; lia). reflexivity. Qed.
Lemma ld2_le64 pt : blk 16 pt -> ld2 (k := 8) (ld := load64l) pt = (word (le_words 8 2 pt) 0, word (le_words 8 2 pt) 1).
Proof. intros [L B]. unfold ld2, word. rewrite <- (nth_load64l 2 pt 0), <- (nth_load64l 2 pt 1) by (auto; lia). reflexivity. Qed.
Lemma nth_load16l n l i : bytes_ok l -> (2 * n <= length l)%nat -> (i < n)%nat -> load16l l (2 * i) = nth i (le_words 2 n l) 0.
Proof. nth_load load16l_val. Qed.
Lemma nth_load16b n l i : bytes_ok l -> (2 * n <= length l)%nat -> (i < n)%nat -> load16b l (2 * i) = nth i (be_words 2 n l) 0.
Proof. nth_load load16b_val. Qed.
Lemma ld2_le16 pt : blk 4 pt -> ld2 (k := 2) (ld := load16l) pt = (word (le_words 2 2 pt) 0, word (le_words 2 2 pt) 1).
Proof. intros [L B]. unfold ld2, word. rewrite <- (nth_load16l 2 pt 0), <- (nth_load16l 2 pt 1) by (auto; lia). reflexivity. Qed.
Lemma ld4_le32 pt : blk 16 pt -> ld4 (k := 4) (ld := load32l) pt =
  (word (le_words 4 4 pt) 0, word (le_words 4 4 pt) 1, word (le_words 4 4 pt) 2, word (le_words 4 4 pt) 3).
Proof.
  intros [L B]. unfold ld4, word.
  rewrite <- (nth_load32l 4 pt 0), <- (nth_load32l 4 pt 1), <- (nth_load32l 4 pt 2), <- (nth_load32l 4 pt 3) by (auto; lia). reflexivity.
Qed.
Lemma st2_be32 a b : st2 (st := store32b) (a, b) = be_string 4 [a; b].
Proof. unfold st2, be_string. cbn [fst snd flat_map]. now rewrite !store32b_bytes, app_nil_r. Qed.
Lemma st2_le32 a b : st2 (st := store32l) (a, b) = le_string 4 [a; b].
Proof. unfold st2, le_string. cbn [fst snd flat_map]. now rewrite !store32l_bytes, app_nil_r. Qed.
Lemma st4_le32 a b c d : st4 (st := store32l) (a, b, c, d) = le_string 4 [a; b; c; d].
Proof. unfold st4, le_string. cbn [fst snd flat_map]. now rewrite !store32l_bytes, app_nil_r. Qed.

Lemma add32_wadd a b : add32 a b = wadd 32 a b.
Proof. unfold add32. now rewrite plus_w_wadd. Qed.
Lemma key32b_words key n : bytes_ok key -> (length key <= 4 * n)%nat -> key32b key n = be_words 4 n (zero_pad (4 * n) key).
Proof. intros B L. rewrite key32b_loads by assumption. now apply loads32b_be. Qed.
Lemma key32l_words key n : bytes_ok key -> (length key <= 4 * n)%nat -> key32l key n = le_words 4 n (zero_pad (4 * n) key).
Proof. intros B L. rewrite key32l_loads by assumption. now apply loads32l_le. Qed.
Lemma be_words_word k w n l i : bytes_ok l -> w = 8 * N.of_nat k -> inw w (word (be_words k n l) i).
Proof. intros B E. unfold word. apply words_nth. now apply be_words_inw. Qed.
Lemma le_words_word k w n l i : bytes_ok l -> w = 8 * N.of_nat k -> inw w (word (le_words k n l) i).
Proof. intros B E. unfold word. apply words_nth. now apply le_words_inw. Qed.

(** TEA *)
Lemma tea_f_mix z sum ka kb : inw 32 z -> tea_f z sum ka kb = tea_mix z sum ka kb.
Proof.
  intros H. unfold tea_f, tea_mix, add32. rewrite !plus_w_wadd, wshl_mul, wshr_div. reflexivity.
Qed.
Lemma tea_ci_sum i : tea_ci (S i) = ((N.of_nat i + 1) * golden) mod 2 ^ 32.
Proof. unfold tea_ci, golden, tea_delta. f_equal. rewrite Nat2N.inj_succ. lia. Qed.
Lemma tea_published : is_cipher tea_desc (up_to 16) (tea_cipher 32).
Proof.
  apply (is_cipher_default _ _ _ tea_default); [intros key H; exact H|].
  intros key s Hb Hk Es pt Hp. cbn [tea_desc bc_create bc_enc] in *. unfold tea_create in Es. apply assert_inv in Es. destruct Es as [_ Es].
  apply Ok_inj in Es. subst s. unfold tea_encrypt. rewrite (tea_enc_run _ 32) by reflexivity. cbn [bind].
  rewrite ld2_be32 by exact Hp. unfold tea_cipher.
  set (K := be_words 4 4 (zero_pad 16 key)).
  pose proof (pfor_fold (fun _ x v => x = v /\ inw 32 (fst v) /\ inw 32 (snd v)) 32 0 (tea_enc_round (tea_setup 0 key)) (tea_cycle K)
    (word (be_words 4 2 pt) 0, word (be_words 4 2 pt) 1) (word (be_words 4 2 pt) 0, word (be_words 4 2 pt) 1)) as P. cbv beta in P.
  destruct P as [P _].
  - intros t y v _ (-> & H1 & H2). unfold tea_enc_round, tea_cycle. cbn [tea_setup tea_k].
    rewrite (key32b_words key 4) by (auto; red in Hk; lia). change (4 * 4)%nat with 16%nat. fold K. unfold word.
    rewrite tea_ci_sum. rewrite (tea_f_mix (snd v)) by exact H2. rewrite tea_f_mix by wb. unfold add32. rewrite !plus_w_wadd.
    repeat split; cbn [fst snd]; rewrite <- ?plus_w_wadd; wb.
  - split; [reflexivity|]. cbn [fst snd]. split; apply (be_words_word 4); (apply Hp || reflexivity).
  - rewrite P. destruct (fold_left _ _ _) as [a b]. now rewrite st2_be32.
Qed.

(** XTEA *)
Lemma xtea_sched_nth k n m : forall i c, c = tea_ci i -> (m <> 0)%nat ->
  forall j, (j < n)%nat ->
  nth (2 * j) (xtea_sched (2 * n) false c k (N.of_nat m)) 0 = wadd 32 (tea_ci (i + j)) (nth (N.to_nat (tea_ci (i + j) mod N.of_nat m)) k 0) /\
  nth (2 * j + 1) (xtea_sched (2 * n) false c k (N.of_nat m)) 0 =
    wadd 32 (tea_ci (S (i + j))) (nth (N.to_nat (tea_ci (S (i + j)) / 2 ^ 11 mod N.of_nat m)) k 0).
Proof.
  induction n as [|n IH]; intros i c -> Hm j Hj; [lia|].
  replace (2 * S n)%nat with (S (S (2 * n))) by lia. cbn [xtea_sched].
  change (wadd 32 (tea_ci i) xtea_delta) with (wadd 32 (tea_ci i) tea_delta). rewrite <- tea_ci_S.
  destruct j as [|j].
  - cbn [Nat.mul Nat.add nth]. rewrite Nat.add_0_r, wshr_div. split; reflexivity.
  - replace (2 * S j)%nat with (S (S (2 * j))) by lia. cbn [nth Nat.add].
    replace (i + S j)%nat with (S i + j)%nat by lia. apply (IH (S i)); [reflexivity|exact Hm|lia].
Qed.
Lemma xtea_F_mix z : xtea_F z = xtea_mix z.
Proof. unfold xtea_F, xtea_mix, add32. now rewrite plus_w_wadd, wshl_mul, wshr_div. Qed.
Lemma xtea_published : is_cipher xtea_desc (sized [16%nat]) (xtea_cipher 32).
Proof.
  apply (is_cipher_default _ _ _ xtea_default); [intros key [H|[]]; cbn; unfold xtea_maxkey; lia|].
  intros key s Hb [Hk|[]] Es pt Hp. cbn [xtea_desc bc_create bc_enc] in *. unfold xtea_create in Es. apply assert_inv in Es. destruct Es as [_ Es].
  apply fits_inv in Es. destruct Es as [_ Es]. apply Ok_inj in Es. subst s. unfold xtea_encrypt. cbn [xtea_setup xtea_k xtea_rounds].
  change (N.to_nat (xtea_r 0)) with (2 * 32)%nat. rewrite <- Hk. change (wshr (N.of_nat 16 + 3) 2) with (N.of_nat 4).
  set (ks := xtea_sched _ _ _ _ _). assert (L : length ks = 64%nat) by apply length_xtea_sched.
  rewrite (xtea_enc_even ks 32 0) by (rewrite L; lia). rewrite mfor_Ok. cbn [bind].
  rewrite ld2_be32 by exact Hp. unfold xtea_cipher.
  set (K := be_words 4 4 key).
  pose proof (pfor_fold (fun _ x v => x = v) 32 0 (xtea_pair ks) (xtea_cycle K)
    (word (be_words 4 2 pt) 0, word (be_words 4 2 pt) 1) (word (be_words 4 2 pt) 0, word (be_words 4 2 pt) 1)) as P. cbv beta in P.
  rewrite P; [destruct (fold_left _ _ _) as [a b]; now rewrite st2_be32| |reflexivity].
  intros t y v Ht ->. unfold xtea_pair, xtea_cycle, xtea_add.
  assert (KE : key32b key 4 = K).
  { rewrite (key32b_words key 4) by (auto; lia). now rewrite zero_pad_full by lia. }
  destruct (xtea_sched_nth (key32b key 4) 32 4 0 0 eq_refl ltac:(lia) t ltac:(lia)) as [E0 E1]. fold ks in E0, E1.
  change (nth (2 * t) ks 0 = wadd 32 (tea_ci t) (nth (N.to_nat (tea_ci t mod N.of_nat 4)) (key32b key 4) 0)) in E0.
  change (nth (2 * t + 1) ks 0 = wadd 32 (tea_ci (S t)) (nth (N.to_nat (tea_ci (S t) / 2 ^ 11 mod N.of_nat 4)) (key32b key 4) 0)) in E1.
  rewrite E0, E1, KE, !xtea_F_mix. unfold add32. rewrite !plus_w_wadd, tea_ci_sum.
  replace (tea_ci t) with ((N.of_nat t * golden) mod 2 ^ 32); [reflexivity|].
  unfold tea_ci, golden, tea_delta. f_equal. lia.
Qed.

(** RC5 and RC6: the key table *)
Lemma rolv_rot32 x n : inw 32 x -> rolv 32 x n = rot32 x n.
Proof.
  intros H. unfold rolv, rot32. apply rol_rotl; [exact H|].
  pose proof (N.mod_lt n 32 ltac:(discriminate)). lia.
Qed.
Lemma rc5_init_eq n : forall i x, x = (0xB7E15163 + N.of_nat i * golden) mod 2 ^ 32 ->
  rc5_init n x = map (fun i => (0xB7E15163 + N.of_nat i * golden) mod 2 ^ 32) (seq i n).
Proof.
  induction n as [|n IH]; intros i x ->; [reflexivity|]. cbn [rc5_init seq map]. apply f_equal2; [reflexivity|]. apply IH.
  rewrite wadd_mod, N.add_mod_idemp_l by discriminate. f_equal. unfold golden. rewrite Nat2N.inj_succ. lia.
Qed.
Lemma mod_next n t : (t <> 0)%nat -> (if Nat.eqb (S (n mod t)) t then 0%nat else S (n mod t)) = (S n mod t)%nat.
Proof.
  intros H. pose proof (Nat.mod_upper_bound n t H). pose proof (Nat.div_mod_eq n t).
  destruct (Nat.eqb_spec (S (n mod t)) t) as [E|E].
  - apply Nat.mod_unique with (S (n / t)); [lia|]. nia.
  - apply Nat.mod_unique with (n / t)%nat; [lia|]. lia.
Qed.
Lemma rc5_sched_table t key : bytes_ok key -> (0 < length key)%nat -> (t <> 0)%nat -> ((length key + 3) / 4 <= t)%nat ->
  rc5_sched t key = rc5_table t key.
Proof.
  intros Hb Hl Ht Hc. unfold rc5_sched, rc5_table. rewrite Nat.max_l by exact Hc.
  set (c := ((length key + 3) / 4)%nat) in *.
  assert (C : (c <> 0)%nat /\ (length key <= 4 * c)%nat).
  { subst c. pose proof (Nat.div_mod_eq (length key + 3) 4). pose proof (Nat.mod_upper_bound (length key + 3) 4 ltac:(lia)). lia. }
  destruct C as [C1 C2].
  match goal with |- mx_k (pfor ?cnt 0 ?f ?m0) = ks_S (fold_left ?g ?l ?s0) =>
    pose proof (pfor_fold (fun n m s => mx_k m = ks_S s /\ mx_x m = ks_L s /\ mx_a m = ks_A s /\ mx_b m = ks_B s /\
      mx_i m = (n mod t)%nat /\ mx_j m = (n mod c)%nat /\ length (mx_k m) = t /\ length (mx_x m) = c) cnt 0%nat f g m0 s0) as P end.
  cbv beta in P. apply P.
  - intros n m s _ (H1 & H2 & H3 & H4 & H5 & H6 & H7 & H8). unfold rc5_mix_step, rc5_mixing. cbn [mx_a mx_b mx_i mx_j mx_k mx_x ks_S ks_L ks_A ks_B].
    rewrite !length_upd, H7, H8, H5, H6, !mod_next by assumption. rewrite H1, H2, H3, H4. unfold word, add32. rewrite <- !plus_w_wadd.
    rewrite rolv_rot32 by wb. rewrite rol_rotl by (wb || lia). repeat split; reflexivity.
  - cbn [mx_a mx_b mx_i mx_j mx_k mx_x ks_S ks_L ks_A ks_B].
    repeat split.
    + now apply rc5_init_eq.
    + now apply key32l_words.
    + now rewrite Nat.mod_0_l.
    + now rewrite Nat.mod_0_l.
    + apply length_rc5_init.
    + rewrite key32l_words by assumption. apply length_le_words.
Qed.

Lemma rc5_round_eq T j y : @w2 32 y -> rc5_enc_round (nth (2 * j + 2) T 0) (nth (2 * j + 3) T 0) y = rc5_round T y (S j).
Proof.
  intros [H1 H2]. unfold rc5_enc_round, rc5_round, word. rewrite !add32_wadd.
  replace (2 * S j)%nat with (2 * j + 2)%nat by lia. replace (2 * j + 2 + 1)%nat with (2 * j + 3)%nat by lia.
  rewrite !rolv_rot32 by wb. reflexivity.
Qed.
Lemma fold_shift {A} (g : A -> nat -> A) n i x : fold_left g (seq (S i) n) x = fold_left (fun y j => g y (S j)) (seq i n) x.
Proof. revert i x. induction n as [|n IH]; intros i x; cbn [seq fold_left]; [reflexivity|]. apply IH. Qed.
Lemma rc5_published : is_cipher rc5_desc (up_to 104) (rc5_cipher 12).
Proof.
  apply (is_cipher_default _ _ _ rc5_default); [intros key H; cbn; unfold up_to, rc5_maxkey in *; lia|].
  intros key s Hb Hk Es pt Hp. cbn [rc5_desc bc_create bc_enc] in *. unfold rc5_create in Es. apply assert_inv in Es. destruct Es as [_ Es].
  apply fits_inv in Es. destruct Es as [_ Es]. apply Ok_inj in Es. subst s. unfold rc5_encrypt, rc5_enc_words. cbn [rc5_setup rc5_k rc5_r].
  change (rc5_rounds 0) with 12. change (N.to_nat (2 * (12 + 1))) with 26%nat. change (N.to_nat 12) with 12%nat.
  unfold rc5_cipher. change (2 * (12 + 1))%nat with 26%nat.
  assert (C : ((length key + 3) / 4 <= 26)%nat).
  { red in Hk. apply Nat.lt_succ_r, Nat.div_lt_upper_bound; lia. }
  rewrite <- rc5_sched_table by (auto; red in Hk; lia).
  destruct (rc5_sched_ok 26 key) as [L W]. set (T := rc5_sched 26 key) in *. clearbody T. clear Hk C.
  rewrite !(get_ok T _ 0) by lia. cbn [bind]. rewrite ld2_le32 by exact Hp. cbn [fst snd].
  rewrite fold_shift.
  match goal with |- context [mfor ?n 0 ?f ?x] => match goal with |- context [fold_left ?g _ ?v] =>
    destruct (mfor_fold (fun _ y u => y = u /\ @w2 32 u) n 0%nat f g x v) as (z & Ez & Hz & _) end end.
  - intros t y u Ht (-> & Hu). rewrite !(get_ok T _ 0) by lia. cbn [bind]. eexists. split; [reflexivity|].
    rewrite rc5_round_eq by exact Hu. split; [reflexivity|]. unfold rc5_round, w2. rewrite !add32_wadd. cbn [fst snd]. split; wb.
  - unfold word. rewrite !add32_wadd. split; [reflexivity|]. split; cbn [fst snd]; wb.
  - rewrite Ez. cbn [bind]. rewrite Hz. cbv zeta. destruct (fold_left _ _ _). now rewrite st2_le32.
Qed.

Lemma lor_1 y : N.lor (2 * y) 1 = 2 * y + 1.
Proof. destruct y as [|y]; reflexivity. Qed.
Lemma rc6_m_f x : rc6_m x = rc6_f x.
Proof.
  unfold rc6_m, rc6_f. rewrite rol_rotl by (wb || lia). f_equal. unfold wmul. rewrite mask_mod, wshl_mul.
  replace ((x * 2 ^ 1) mod 2 ^ 32) with (2 * (x mod 2 ^ 31)).
  2:{ rewrite <- N.mul_mod_distr_l by discriminate. change (2 * 2 ^ 31) with (2 ^ 32). f_equal. change (2 ^ 1) with 2. lia. }
  rewrite lor_1. rewrite <- N.mul_mod_idemp_r by discriminate. symmetry. rewrite <- N.mul_mod_idemp_r by discriminate. symmetry. f_equal. f_equal.
  rewrite <- N.mul_mod_distr_l by discriminate. change (2 * 2 ^ 31) with (2 ^ 32). now rewrite N.add_mod_idemp_l by discriminate.
Qed.
Lemma rc6_f_inw x : inw 32 (rc6_f x).
Proof. rewrite <- rc6_m_f. apply rc6_m_inw. Qed.
Lemma rc6_round_eq T j y : @w4 32 y -> rc6_enc_round (nth (2 * j + 2) T 0) (nth (2 * j + 3) T 0) y = rc6_round T y (S j).
Proof.
  destruct y as [[[a b] c] d]. intros (H1 & H2 & H3 & H4). unfold rc6_enc_round, rc6_round, word. rewrite !add32_wadd.
  replace (2 * S j)%nat with (2 * j + 2)%nat by lia. replace (2 * j + 2 + 1)%nat with (2 * j + 3)%nat by lia.
  rewrite !rc6_m_f. pose proof (rc6_f_inw b). pose proof (rc6_f_inw d). rewrite !rolv_rot32 by wb. reflexivity.
Qed.
Definition rc6_body (r : nat) (T pt : list N) : list N :=
  let w := le_words 4 4 pt in
  let '(A, B, C, D) := fold_left (rc6_round T) (seq 1 r)
    (word w 0, add32 (word w 1) (word T 0), word w 2, add32 (word w 3) (word T 1)) in
  le_string 4 [add32 A (word T (2 * r + 2)); B; add32 C (word T (2 * r + 3)); D].
Lemma rc6_cipher_body r key pt : rc6_cipher r key pt = rc6_body r (rc5_table (2 * r + 4) key) pt.
Proof. reflexivity. Qed.
Lemma rc6_body_eq s r pt : blk 16 pt -> N.to_nat (rc6_rounds s) = r -> (2 * r + 4 <= length (rc6_k s))%nat ->
  rc6_encrypt s pt = Ok (rc6_body r (rc6_k s) pt).
Proof.
  intros Hp Hr L. unfold rc6_encrypt, rc6_enc_words. rewrite Hr. generalize dependent (rc6_k s). intros T L. 
  rewrite !(get_ok T _ 0) by lia. cbn [bind]. rewrite ld4_le32 by exact Hp. unfold rc6_body. rewrite fold_shift.
  assert (Iw : forall i, inw 32 (word (le_words 4 4 pt) i)) by (intros i; apply (le_words_word 4); [apply Hp|reflexivity]).
  match goal with |- context [mfor ?n 0 ?f ?x] => match goal with |- context [fold_left ?g _ ?v] =>
    destruct (mfor_fold (fun _ y u => y = u /\ @w4 32 u) n 0%nat f g x v) as (z & Ez & Hz & _) end end.
  - intros t y u Ht (-> & Hu). rewrite !(get_ok T _ 0) by lia. cbn [bind]. eexists. split; [reflexivity|].
    rewrite rc6_round_eq by exact Hu. split; [reflexivity|]. destruct u as [[[a b] c] d]. destruct Hu as (H1 & H2 & H3 & H4).
    unfold rc6_round, w4. rewrite !add32_wadd. repeat split; wb.
  - rewrite !add32_wadd. split; [reflexivity|]. split; [apply Iw|split; [wb|split; [apply Iw|wb]]].
  - rewrite Ez. cbn [bind]. rewrite Hz. destruct (fold_left _ _ _) as [[[a b] c] d]. cbn [bind]. rewrite st4_le32, !add32_wadd. reflexivity.
Qed.
Lemma rc6_published : is_cipher rc6_desc (up_to 176) (rc6_cipher 20).
Proof.
  apply (is_cipher_default _ _ _ rc6_default); [intros key H; cbn; unfold up_to, rc6_maxkey in *; lia|].
  intros key s Hb Hk Es pt Hp. cbn [rc6_desc bc_create bc_enc] in *. unfold rc6_create in Es. apply assert_inv in Es. destruct Es as [_ Es].
  apply fits_inv in Es. destruct Es as [_ Es]. apply Ok_inj in Es. subst s.
  assert (C : ((length key + 3) / 4 <= 44)%nat).
  { red in Hk. apply Nat.lt_succ_r, Nat.div_lt_upper_bound; lia. }
  rewrite (rc6_body_eq (rc6_setup (rc6_r 0) key) 20 pt Hp eq_refl).
  - cbn [rc6_setup rc6_k]. change (N.to_nat (2 * (rc6_r 0 + 2))) with 44%nat. rewrite rc5_sched_table by (auto; red in Hk; lia). rewrite rc6_cipher_body. apply f_equal, f_equal2; [apply f_equal|]; reflexivity.
  - cbn [rc6_setup rc6_k]. change (N.to_nat (2 * (rc6_r 0 + 2))) with 44%nat. rewrite (proj1 (rc5_sched_ok 44 key)). lia.
Qed.

(** With longer keys than the table has words the mixing loop of rc5.c and rc6.c stops too early. *)
Definition long_key (n : nat) : list N := map (fun i => N.of_nat i mod 256) (seq 1 n).
Lemma long_key_bytes n : bytes_ok (long_key n).
Proof. apply Forall_forall. intros x Hx. apply in_map_iff in Hx. destruct Hx as (i & <- & _). apply N.mod_lt. discriminate. Qed.
Lemma not_cipher c (ok : list N -> Prop) E key pt : bytes_ok key -> ok key -> blk (bc_bs c) pt ->
  match (let* s := bc_create c 0 key in bc_enc c s pt) with Ok ct => if list_eq_dec N.eq_dec ct (E key pt) then false else true | Err _ => true end = true ->
  ~ is_cipher c ok E.
Proof.
  intros Hb Hk Hp Hn H. destruct (H key Hb Hk) as (s & Es & P). rewrite Es in Hn. cbn [bind] in Hn. rewrite (proj1 (P pt Hp)) in Hn.
  destruct (list_eq_dec N.eq_dec (E key pt) (E key pt)); [discriminate|congruence].
Qed.
Lemma rc5_long_refuted : ~ is_cipher rc5_desc (up_to 105) (rc5_cipher 12).
Proof.
  apply (not_cipher _ _ _ (long_key 105) (repeat 0 8)).
  - apply long_key_bytes.
  - unfold up_to, long_key. rewrite map_length, seq_length. lia.
  - split; [reflexivity|repeat constructor].
  - vm_compute. reflexivity.
Qed.
Lemma rc6_long_refuted : ~ is_cipher rc6_desc (up_to 177) (rc6_cipher 20).
Proof.
  apply (not_cipher _ _ _ (long_key 177) (repeat 0 16)).
  - apply long_key_bytes.
  - unfold up_to, long_key. rewrite map_length, seq_length. lia.
  - split; [reflexivity|repeat constructor].
  - vm_compute. reflexivity.
Qed.
