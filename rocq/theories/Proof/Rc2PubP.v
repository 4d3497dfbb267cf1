(** RC2 is the cipher of RFC 2268. *)
From Coq Require Import NArith Arith List Bool Lia.
From Verif Require Import Lib.Word Lib.Res Lib.Bytes Lib.Bij Lib.Bits Lib.Lists Lib.BlockLemmas Lib.WordSpec Lib.WordsP Lib.XorSolve
  Spec.Words Spec.Block Spec.Arx Spec.Affine Spec.Pub2 Model.LoadStore Model.BlockApi Model.Rc2 Model.Ciphers
  Proof.LoadStoreP Proof.KeccakCoreP Proof.Sha1P Proof.ArxP Proof.LeaPubP Proof.PubLib Proof.Rc2P Proof.ModesP Proof.RekeyP Proof.CiphersP Proof.ColumnsP.
Import ListNotations.
Local Open Scope N_scope.

Lemma sp_PI x : x < 256 -> sp_ x = rc2_PI x.
Proof. intros H. unfold sp_, rc2_PI. now rewrite (mask_id 8 x H : byte x = x). Qed.
Lemma rc2_PI_byte x : x < 256 -> rc2_PI x < 256.
Proof. intros H. rewrite <- sp_PI by exact H. apply rc2_sp_ok. Qed.

(** the first pass over the buffer *)
Lemma rc2_front n m : forall i L, length L = i -> (0 < n <= i)%nat -> bytes_ok L ->
  let L' := fold_left (fun L i => L ++ [rc2_PI ((word L (i - 1) + word L (i - n)) mod 256)]) (seq i m) L in
  pfor m i (fun i t => upd t i (sp_ (wadd 8 (nth (i - 1) t 0) (nth (i - n) t 0)))) (L ++ repeat 0 m) = L' /\ bytes_ok L' /\ length L' = (i + m)%nat.
Proof.
  induction m as [|m IH]; intros i L Li Hn B; cbn [pfor seq fold_left repeat]; [rewrite app_nil_r, Nat.add_0_r; now repeat split|].
  rewrite !app_nth1 by lia. fold (word L (i - 1)). fold (word L (i - n)).
  set (v := rc2_PI ((word L (i - 1) + word L (i - n)) mod 256)).
  assert (E : sp_ (wadd 8 (word L (i - 1)) (word L (i - n))) = v).
  { rewrite wadd_mod. change (2 ^ 8) with 256. apply sp_PI. now apply N.mod_lt. }
  rewrite E. assert (U : upd (L ++ 0 :: repeat 0 m) i v = L ++ [v] ++ repeat 0 m) by (rewrite <- Li; apply ModesP.upd_app_at). rewrite U. rewrite app_assoc.
  replace (i + S m)%nat with (S i + m)%nat by lia. apply IH; [rewrite app_length; cbn [length]; lia|lia|].
  apply Forall_app. split; [exact B|]. constructor; [|constructor]. apply rc2_PI_byte. now apply N.mod_lt.
Qed.
(** the second pass *)
Lemma skipn_upd_ge {A} (l : list A) i j v : (i < j)%nat -> skipn j (upd l i v) = skipn j l.
Proof. revert i j. induction l as [|a l IH]; intros [|i] [|j] H; cbn [upd skipn]; try lia; auto. apply IH. lia. Qed.
Lemma skipn_upd_at {A} (l : list A) i v : (i < length l)%nat -> skipn i (upd l i v) = v :: skipn (S i) l.
Proof. revert i. induction l as [|a l IH]; intros [|i] H; cbn [length upd skipn] in *; try lia; auto. rewrite IH by lia. reflexivity. Qed.
Lemma rc2_back n m : forall i t B, (m + n <= length t)%nat -> (0 < n)%nat -> skipn m t = B -> bytes_ok t ->
  pford m (fun i t => upd t i (sp_ (N.lxor (nth (i + 1) t 0) (nth (i + n) t 0)))) t =
  fold_left (fun B i => rc2_PI (N.lxor (word B 0) (word B (n - 1))) :: B) (seq i m) B.
Proof.
  induction m as [|m IH]; intros i t B L Hn E Bt; [exact E|]. cbn [pford seq fold_left].
  assert (Bi : forall j, nth j t 0 < 256) by (intros; now apply bytes_nth).
  assert (W0 : word B 0 = nth (m + 1) t 0) by (unfold word; rewrite <- E, nth_skipn; f_equal; lia).
  assert (W1 : word B (n - 1) = nth (m + n) t 0) by (unfold word; rewrite <- E, nth_skipn; f_equal; lia).
  rewrite W0, W1. rewrite sp_PI by (apply (inw_lxor 8); apply Bi). set (v := rc2_PI _).
  assert (Hv : v < 256) by (apply rc2_PI_byte, (inw_lxor 8); apply Bi).
  apply (IH (S i)); [rewrite length_upd; lia|exact Hn| |now apply Forall_upd].
  rewrite skipn_upd_at by lia. now rewrite E.
Qed.
Lemma rc2_expand_buffer key : bytes_ok key -> (0 < length key <= 128)%nat -> rc2_expand key = rc2_buffer key /\ length (rc2_buffer key) = 128%nat.
Proof.
  intros B H. unfold rc2_expand, rc2_buffer. cbv zeta. set (n := length key) in *.
  destruct (rc2_front n (128 - n) n key eq_refl ltac:(lia) B) as (E & BL & LL). cbv zeta in E, BL, LL. rewrite E.
  set (L := fold_left _ _ key) in *. clearbody L. replace (n + (128 - n))%nat with 128%nat in LL by lia.
  assert (Bi : forall j, nth j L 0 < 256) by (intros; now apply bytes_nth).
  assert (V : sp_ (N.land (nth (128 - n) L 0) 0xFF) = rc2_PI (word L (128 - n))).
  { change 0xFF with (N.ones 8). fold (mask 8 (nth (128 - n) L 0)). rewrite (mask_id 8) by apply Bi. apply sp_PI, Bi. }
  rewrite V. set (v := rc2_PI _). assert (Hv : v < 256) by apply rc2_PI_byte, Bi.
  rewrite (rc2_back n (128 - n) 0 _ (v :: skipn (129 - n) L)).
  - split; [reflexivity|]. 
    assert (G : forall m i B, length (fold_left (fun B (i : nat) => rc2_PI (N.lxor (word B 0) (word B (n - 1))) :: B) (seq i m) B) = (m + length B)%nat).
    { induction m as [|m IH]; intros i B'; cbn [seq fold_left]; [reflexivity|]. rewrite IH. cbn [length]. lia. }
    rewrite G. cbn [length]. rewrite skipn_length. lia.
  - rewrite length_upd. lia.
  - lia.
  - rewrite skipn_upd_at by lia. now replace (S (128 - n)) with (129 - n)%nat by lia.
  - now apply Forall_upd.
Qed.

(** the rounds *)
Lemma rc2_mix_word x a b c k d n : inw 16 (nth b x 0) -> n <= 16 ->
  rol 16 (wadd 16 d (rc2_f x a b c k)) n =
  rotl 16 ((d + k + N.land (nth b x 0) (nth c x 0) + N.land (2 ^ 16 - 1 - nth b x 0) (nth a x 0)) mod 2 ^ 16) n.
Proof.
  intros Hb Hn. rewrite rol_rotl by (auto; wb). f_equal. unfold rc2_f. rewrite wnot_sub by exact Hb. rewrite !wadd_mod.
  rewrite N.add_mod_idemp_r by discriminate. rewrite N.add_assoc, N.add_mod_idemp_r by discriminate. f_equal. rewrite (N.land_comm (nth a x 0)), (N.land_comm (nth c x 0)).
  generalize (N.land (2 ^ 16 - 1 - nth b x 0) (nth a x 0)) (N.land (nth b x 0) (nth c x 0)). intros. lia.
Qed.
Lemma rc2_mixing_eq k i x : regs 16 4 x -> prun (rc2_mix k i) rc2_mix_ops x = rc2_mixing k x i.
Proof.
  intros Hx. unfold prun, rc2_mixing, rc2_mix_ops. change (seq 0 4) with [0; 1; 2; 3]%nat. cbn [fold_left]. unfold ro.
  assert (S : forall d a b c n y, (d < 4)%nat -> a = ((d + 4 - 3) mod 4)%nat -> b = ((d + 4 - 1) mod 4)%nat -> c = ((d + 4 - 2) mod 4)%nat ->
    n = nth d [1; 2; 3; 5] 0 -> regs 16 4 y -> rc2_mix k i (d, a, b, c, n) y = rc2_mixup k i y d /\ regs 16 4 (rc2_mixup k i y d)).
  { intros d a b c n y Hd -> -> -> -> Hy.
    assert (N16 : nth d [1; 2; 3; 5] 0 <= 16) by (do 4 (destruct d as [|d]; [cbn [nth]; lia|]); lia).
    assert (E : rc2_mix k i (d, ((d + 4 - 3) mod 4)%nat, ((d + 4 - 1) mod 4)%nat, ((d + 4 - 2) mod 4)%nat, nth d [1; 2; 3; 5] 0) y = rc2_mixup k i y d).
    { unfold rc2_mix, rc2_mixup. cbv zeta. rewrite rc2_mix_word; [reflexivity|apply words_nth, Hy|exact N16]. }
    assert (D : d <> ((d + 4 - 3) mod 4)%nat /\ d <> ((d + 4 - 1) mod 4)%nat /\ d <> ((d + 4 - 2) mod 4)%nat).
    { do 4 (destruct d as [|d]; [repeat split; discriminate|]). lia. }
    destruct D as (D1 & D2 & D3). rewrite <- E. split; [reflexivity|].
    apply (proj1 (rc2_mix_bij k i d _ _ _ _ Hd D1 D2 D3 N16) y Hy). }
  destruct (S 0%nat 1%nat 3%nat 2%nat 1 x ltac:(lia) eq_refl eq_refl eq_refl eq_refl Hx) as [-> H1]. set (x1 := rc2_mixup k i x 0) in *. clearbody x1.
  destruct (S 1%nat 2%nat 0%nat 3%nat 2 x1 ltac:(lia) eq_refl eq_refl eq_refl eq_refl H1) as [-> H2]. set (x2 := rc2_mixup k i x1 1) in *. clearbody x2.
  destruct (S 2%nat 3%nat 1%nat 0%nat 3 x2 ltac:(lia) eq_refl eq_refl eq_refl eq_refl H2) as [-> H3]. set (x3 := rc2_mixup k i x2 2) in *. clearbody x3.
  now destruct (S 3%nat 0%nat 2%nat 1%nat 5 x3 ltac:(lia) eq_refl eq_refl eq_refl eq_refl H3) as [-> H4].
Qed.
Lemma rc2_mashing_eq k x : prun (rc2_mash k) rc2_mash_ops x = rc2_mashing k x.
Proof.
  unfold prun, rc2_mashing, rc2_mash_ops. change (seq 0 4) with [0; 1; 2; 3]%nat. cbn [fold_left].
  assert (S : forall d b y, b = ((d + 3) mod 4)%nat -> rc2_mash k (d, b) y = upd y d ((word y d + word k (N.to_nat (word y ((d + 3) mod 4) mod 64))) mod 2 ^ 16)).
  { intros d b y ->. unfold rc2_mash, word. cbn [fst snd]. rewrite wadd_mod. change 63 with (N.ones 6). rewrite N.land_ones. reflexivity. }
  rewrite !S by reflexivity. reflexivity.
Qed.
Lemma rc2_rounds_eq k m : forall i x, words_ok 16 k -> regs 16 4 x -> (forall j, (i <= j < i + m)%nat -> rc2_mashes j = false) ->
  pfor m i (rc2_enc_round k) x = fold_left (rc2_mixing k) (seq i m) x /\ regs 16 4 (fold_left (rc2_mixing k) (seq i m) x).
Proof.
  intros i x Hk Hx Hm.
  apply (pfor_fold (fun _ u v => u = v /\ regs 16 4 v) m i (rc2_enc_round k) (rc2_mixing k) x x); [|now split].
  intros t y u Ht [<- Hy]. assert (E : rc2_enc_round k t y = rc2_mixing k y t) by (unfold rc2_enc_round; rewrite Hm by exact Ht; now apply rc2_mixing_eq).
  rewrite <- E. split; [reflexivity|]. now apply (proj1 (rc2_round_bij k t Hk) y Hy).
Qed.
Lemma rc2_last_eq k i x : words_ok 16 k -> regs 16 4 x -> rc2_mashes i = true ->
  rc2_enc_round k i x = rc2_mashing k (rc2_mixing k x i) /\ regs 16 4 (rc2_mashing k (rc2_mixing k x i)).
Proof.
  intros Hk Hx Hm. assert (E : rc2_enc_round k i x = rc2_mashing k (rc2_mixing k x i)).
  { unfold rc2_enc_round. cbv zeta. rewrite Hm, rc2_mashing_eq. now rewrite rc2_mixing_eq. }
  rewrite <- E. split; [reflexivity|]. now apply (proj1 (rc2_round_bij k i Hk) x Hx).
Qed.
Lemma seq_S n i : seq i (S n) = seq i n ++ [(i + n)%nat].
Proof. exact (seq_S n i). Qed.
Lemma rc2_words_eq k x : words_ok 16 k -> regs 16 4 x ->
  pfor 16 0 (rc2_enc_round k) x =
  fold_left (rc2_mixing k) (seq 11 5) (rc2_mashing k (fold_left (rc2_mixing k) (seq 5 6) (rc2_mashing k (fold_left (rc2_mixing k) (seq 0 5) x)))).
Proof.
  intros Hk Hx. change 16%nat with (4 + (1 + (5 + (1 + 5))))%nat. rewrite !pfor_app. cbn [Nat.add].
  assert (P1 : forall i (f : nat -> list N -> list N) y, pfor 1 i f y = f i y) by reflexivity.
  assert (M : forall i m, (forall j, (i <= j < i + m)%nat -> j <> 4%nat /\ j <> 10%nat) -> forall j, (i <= j < i + m)%nat -> rc2_mashes j = false).
  { intros i m H j Hj. destruct (H j Hj) as [A B]. unfold rc2_mashes. now rewrite (proj2 (Nat.eqb_neq j 4) A), (proj2 (Nat.eqb_neq j 10) B). }
  destruct (rc2_rounds_eq k 4 0 x Hk Hx ltac:(apply M; intros; lia)) as [E1 H1].
  rewrite E1. rewrite (seq_S 4 0), fold_left_app. cbn [fold_left Nat.add]. set (x1 := fold_left _ (seq 0 4) x) in *. clearbody x1.
  rewrite (P1 4%nat). destruct (rc2_last_eq k 4 x1 Hk H1 eq_refl) as [E2 H2]. rewrite E2. set (x2 := rc2_mashing k _) in *. clearbody x2.
  destruct (rc2_rounds_eq k 5 5 x2 Hk H2 ltac:(apply M; intros; lia)) as [E3 H3]. rewrite (seq_S 5 5), fold_left_app. cbn [fold_left Nat.add].
  rewrite <- E3 in *. set (x3 := pfor 5 5 _ _) in *. clearbody x3. rewrite (P1 10%nat).
  destruct (rc2_last_eq k 10 x3 Hk H3 eq_refl) as [E4 H4]. rewrite E4. set (x4 := rc2_mashing k _) in *. clearbody x4.
  destruct (rc2_rounds_eq k 5 11 x4 Hk H4 ltac:(apply M; intros; lia)) as [E5 H5]. exact E5.
Qed.
Lemma rc2_create_inv key s : rc2_create 0 key = Ok s -> s = rc2_setup key.
Proof.
  intros Es. unfold rc2_create in Es. apply assert_inv in Es. destruct Es as [_ Es]. apply Ok_inj in Es. now symmetry.
Qed.
Lemma stores16l_le ws : stores store16l ws = le_string 2 ws.
Proof. unfold stores, le_string. induction ws as [|x t IH]; cbn [flat_map]; [reflexivity|]. now rewrite store16l_bytes, IH. Qed.
Lemma rc2_published : is_cipher rc2_desc (up_to 128) rc2_cipher.
Proof.
  apply (is_cipher_default _ _ _ rc2_default); [intros key Hk; exact Hk|].
  intros key s Hb Hk Es pt Hp. apply rc2_create_inv in Es. subst s. unfold up_to in Hk.
  change (bc_enc rc2_desc) with rc2_encrypt. unfold rc2_encrypt, rc2_cipher. destruct Hp as [Lp Bp]. change (bc_bs rc2_desc) with 8%nat in Lp.
  rewrite (loads_le 2 load16l 4 pt load16l_val Bp) by lia. rewrite (zero_pad_full (2 * 4) pt) by lia.
  change (rc2_k (rc2_setup key)) with (loads load16l 2 64 (rc2_expand key)).
  destruct (rc2_expand_buffer key Hb Hk) as [E L]. pose proof (rc2_expand_ok key Hb) as BB. rewrite E in *.
  set (b := rc2_buffer key) in *. clearbody b. cbv zeta.
  rewrite (loads_le 2 load16l 64 b load16l_val BB) by (rewrite L; exact (le_n 128)). rewrite (zero_pad_full (2 * 64) b) by (rewrite L; exact (le_n 128)).
  rewrite rc2_words_eq; [|apply (le_words_regs 2 16); [exact BB|reflexivity]|now apply le_words_regs].
  cbn [bind]. rewrite stores16l_le. exact eq_refl.
Qed.
