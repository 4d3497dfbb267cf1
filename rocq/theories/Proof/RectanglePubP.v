(** Rectangle is the published cipher. *)
From Coq Require Import NArith Arith List Bool Lia.
From Verif Require Import Lib.Word Lib.Res Lib.Bytes Lib.Bij Lib.Bits Lib.Lists Lib.BlockLemmas Lib.WordSpec Lib.WordsP Lib.XorSolve
  Spec.Words Spec.Block Spec.Arx Spec.Affine Spec.Pub2 Spec.Rounds Model.LoadStore Model.BlockApi Model.Rectangle Model.Ciphers
  Proof.LoadStoreP Proof.Sha1P Proof.ArxP Proof.LeaPubP Proof.PubLib Proof.IdeaPubP Proof.RectangleP Proof.RekeyP Proof.CiphersP Proof.ColumnsP Proof.SerpentPubP.
Import ListNotations.
Local Open Scope N_scope.

Lemma map_mask_ok w x : words_ok w (map (mask w) x).
Proof. apply Forall_forall. intros v Hv. apply in_map_iff in Hv. destruct Hv as (u & <- & _). wb. Qed.
Lemma slices_low n c t p out x : c <= n -> map (mask c) (slices n t p out x) = slices c t p out (map (mask c) x).
Proof.
  intros H. apply (words_ext c).
  - unfold slices. now rewrite !map_length.
  - apply map_mask_ok.
  - apply slices_ok, map_mask_ok.
  - intros i Hi. rewrite slices_bit by exact Hi. rewrite !map_map.
    rewrite (map_ext (fun v => N.testbit (mask c v) i) (fun v => N.testbit v i)).
    2:{ intros v. rewrite mask_spec. now rewrite (proj2 (N.ltb_lt i c) Hi). }
    rewrite slices_bit by lia. f_equal. apply map_ext. intros v. rewrite mask_spec. now rewrite (proj2 (N.ltb_lt i c) Hi).
Qed.
Lemma rect_sub_columns w n x : n = N.of_nat w -> regs n 4 x -> rect_sub n x = sub_columns w rectangle_S x.
Proof. intros E [L W]. unfold rect_sub. now apply slices_columns. Qed.
Lemma rect_sub_low c n w k : (4 <= length k)%nat -> n <= w -> n = N.of_nat c ->
  map (mask n) (rect_sub w (firstn 4 k)) = sub_columns c rectangle_S (map (fun v => v mod 2 ^ n) (firstn 4 k)).
Proof.
  intros L H E. unfold rect_sub. rewrite slices_low by exact H.
  replace (map (mask n) (firstn 4 k)) with (map (fun v => v mod 2 ^ n) (firstn 4 k)) by (apply map_ext; intros; now rewrite mask_mod).
  apply slices_columns; try reflexivity; [exact E|rewrite map_length, firstn_length; lia|].
  rewrite (map_ext _ (mask n)) by (intros; now rewrite mask_mod). apply map_mask_ok.
Qed.
Lemma land_high w c x m : inw w x -> c <= w -> m = N.ones w - N.ones c -> N.land x m = x / 2 ^ c * 2 ^ c.
Proof.
  intros Hx Hc ->. rewrite <- N.shiftr_div_pow2, <- N.shiftl_mul_pow2.
  assert (E : N.ones w - N.ones c = N.shiftl (N.ones (w - c)) c).
  { rewrite !N.ones_equiv, N.shiftl_mul_pow2.
    pose proof (N.pow_add_r 2 (w - c) c) as P. replace (w - c + c) with w in P by lia. pose proof (pow2_pos c). pose proof (pow2_pos (w - c)). nia. }
  rewrite E. apply N.bits_inj. intros i. rewrite N.land_spec. destruct (N.lt_ge_cases i c) as [H|H].
  - rewrite !N.shiftl_spec_low by exact H. now rewrite andb_false_r.
  - rewrite !N.shiftl_spec_high' by exact H. rewrite N.shiftr_spec'. replace (i - c + c) with i by lia.
    destruct (N.lt_ge_cases i w) as [Hw|Hw]; [rewrite N.ones_spec_low by lia; now rewrite andb_true_r|].
    rewrite (inw_high w x i Hx Hw). reflexivity.
Qed.
Lemma lor_high x c y : inw c y -> N.lor (x * 2 ^ c) y = x * 2 ^ c + y.
Proof. intros Hy. rewrite N.lor_comm, N.add_comm. pose proof (lor_add y x c Hy) as E. now rewrite N.shiftl_mul_pow2 in E. Qed.
Lemma nth_mapm w l i : nth i (map (mask w) l) 0 = mask w (nth i l 0).
Proof. exact (map_nth (mask w) l 0 i). Qed.
Lemma rect_rc_eq i : (i < 25)%nat -> nth i rect_rc 0 = rectangle_rc i.
Proof. intros H. do 25 (destruct i as [|i]; [reflexivity|]). lia. Qed.

Definition sub_of (c : N) (k t : list N) (j : nat) : N := N.lor (nth j k 0 / 2 ^ c * 2 ^ c) (nth j t 0).
Lemma low_word c n k j : n = N.of_nat c -> (j < 4)%nat -> (4 <= length k)%nat ->
  word (rectangle_low c k) j = nth j k 0 / 2 ^ n * 2 ^ n + nth j (sub_columns c rectangle_S (map (fun v => v mod 2 ^ n) (firstn 4 k))) 0.
Proof.
  intros -> Hj L. unfold rectangle_low, word. cbv zeta. rewrite app_nth1 by (now rewrite map_length, seq_length). now rewrite nth_map_seq by exact Hj.
Qed.
Lemma low_inw c n w k j : n = N.of_nat c -> (j < 4)%nat -> (4 <= length k)%nat -> n <= w -> words_ok w k -> inw w (word (rectangle_low c k) j).
Proof.
  intros E Hj L Hn W. rewrite (low_word c n) by assumption.
  assert (S' : inw n (nth j (sub_columns c rectangle_S (map (fun v => v mod 2 ^ n) (firstn 4 k))) 0)) by (apply words_nth; rewrite E; apply sub_columns_ok).
  set (y := nth j (sub_columns _ _ _) 0) in *. clearbody y. assert (X : inw w (nth j k 0)) by now apply words_nth. set (x := nth j k 0) in *. clearbody x.
  unfold inw in *. pose proof (N.pow_add_r 2 (w - n) n) as P. replace (w - n + n) with w in P by lia. rewrite P in *. pose proof (pow2_pos n).
  pose proof (N.div_lt_upper_bound x (2 ^ n) (2 ^ (w - n))). assert (x / 2 ^ n < 2 ^ (w - n)) by (apply N.div_lt_upper_bound; lia). nia.
Qed.

Lemma rect_next80_eq i k : (i < 25)%nat -> regs 16 5 k -> rect_next80 i k = rectangle_next80 k i /\ regs 16 5 (rectangle_next80 k i).
Proof.
  intros Hi [L W].
  assert (G : forall j, (j < 4)%nat -> N.lor (N.land (nth j k 0) 0xFFF0) (N.land (nth j (rect_sub 16 (firstn 4 k)) 0) 0xF) = word (rectangle_low 4 k) j).
  { intros j Hj. rewrite (low_word 4 4) by (auto; lia). rewrite <- (rect_sub_low 4 4 16) by (auto; lia). rewrite nth_mapm.
    rewrite (land_high 16 4) by (try (now apply words_nth); try reflexivity; lia).
    rewrite <- lor_high by wb. reflexivity. }
  assert (I : forall j, (j < 4)%nat -> inw 16 (word (rectangle_low 4 k) j)) by (intros; apply (low_inw 4 4); auto; lia).
  assert (E4 : word (rectangle_low 4 k) 4 = nth 4 k 0).
  { unfold rectangle_low, word. cbv zeta. rewrite app_nth2 by (rewrite map_length, seq_length; lia). rewrite map_length, seq_length. now rewrite nth_skipn. }
  assert (I4 : inw 16 (nth 4 k 0)) by now apply words_nth.
  assert (R : inw 16 (rectangle_rc i)).
  { rewrite <- rect_rc_eq by exact Hi. apply words_nth. unfold rect_rc. repeat constructor. }
  unfold rect_next80, rectangle_next80. cbv zeta. rewrite !G by lia. rewrite E4, rect_rc_eq by exact Hi.
  rewrite <- !rol_rotl by (try apply I; lia). split; [reflexivity|].
  split; [reflexivity|]. repeat (constructor; [repeat first [apply inw_lxor | apply inw_rol | apply I | assumption | lia]|]). constructor.
Qed.
Lemma rect_next128_eq i k : (i < 25)%nat -> regs 32 4 k -> rect_next128 i k = rectangle_next128 k i /\ regs 32 4 (rectangle_next128 k i).
Proof.
  intros Hi [L W].
  assert (G : forall j, (j < 4)%nat -> N.lor (N.land (nth j k 0) 0xFFFFFF00) (nth j (rect_sub 8 (map byte k)) 0) = word (rectangle_low 8 k) j).
  { intros j Hj. rewrite (low_word 8 8) by (auto; lia). 
    assert (B : rect_sub 8 (map byte k) = sub_columns 8 rectangle_S (map (fun v => v mod 2 ^ 8) (firstn 4 k))).
    { rewrite firstn_all2 by lia. rewrite (map_ext byte (fun v => v mod 2 ^ 8)) by (intros; apply (mask_mod 8)).
      apply rect_sub_columns; [reflexivity|]. split; [now rewrite map_length|]. rewrite (map_ext _ (mask 8)) by (intros; now rewrite mask_mod). apply map_mask_ok. }
    rewrite B. rewrite (land_high 32 8) by (try (now apply words_nth); try reflexivity; lia).
    rewrite <- lor_high by (apply words_nth; apply (sub_columns_ok 8)). reflexivity. }
  assert (I : forall j, (j < 4)%nat -> inw 32 (word (rectangle_low 8 k) j)) by (intros; apply (low_inw 8 8); auto; lia).
  assert (R : inw 32 (rectangle_rc i)).
  { rewrite <- rect_rc_eq by exact Hi. apply words_nth. unfold rect_rc. repeat constructor. }
  unfold rect_next128, rectangle_next128. cbv zeta. rewrite !G by lia. rewrite rect_rc_eq by exact Hi.
  rewrite <- !rol_rotl by (try apply I; lia). split; [reflexivity|].
  split; [reflexivity|]. repeat (constructor; [repeat first [apply inw_lxor | apply inw_rol | apply I | assumption | lia]|]). constructor.
Qed.

Lemma rect_sched_slice (P : list N -> Prop) next nxt : (forall k, P k -> (4 <= length k)%nat) ->
  (forall i k, (i < 25)%nat -> P k -> next i k = nxt k i /\ P (nxt k i)) ->
  forall n i k j, P k -> (i + n <= 25)%nat -> (j <= n)%nat ->
  slice (4 * j) 4 (rect_sched next n i k) = map (fun v => v mod 2 ^ 16) (firstn 4 (fold_left nxt (seq i j) k)).
Proof.
  intros HL HN. assert (M : forall l, map (mask 16) l = map (fun v => v mod 2 ^ 16) l) by (intros; apply map_ext; intros; now rewrite mask_mod).
  induction n as [|n IH]; intros i k j Hk Hi Hj; cbn [rect_sched]; rewrite M;
    assert (L4 : length (map (fun v => v mod 2 ^ 16) (firstn 4 k)) = 4%nat) by (rewrite map_length, firstn_length; specialize (HL k Hk); lia).
  - replace j with 0%nat by lia. cbn [seq fold_left]. rewrite app_nil_r. rewrite Nat.mul_0_r. unfold slice. rewrite skipn_O. apply firstn_all2. now rewrite L4.
  - destruct j as [|j].
    + rewrite Nat.mul_0_r. unfold slice. rewrite skipn_O. cbn [seq fold_left]. rewrite firstn_app, L4, Nat.sub_diag, firstn_O, app_nil_r. apply firstn_all2. now rewrite L4.
    + destruct (HN i k ltac:(lia) Hk) as [E Hk']. cbn [seq fold_left]. rewrite <- (IH (S i) (nxt k i) j Hk' ltac:(lia) ltac:(lia)). rewrite E.
      unfold slice. rewrite skipn_app, L4, (skipn_all2 (map _ _)) by lia. cbn [app]. now replace (4 * S j - 4)%nat with (4 * j)%nat by lia.
Qed.

Lemma rect_add_xor ks i x : length x = 4%nat -> (4 * i + 4 <= length ks)%nat -> rect_add ks i x = Ok (xor_list x (slice (4 * i) 4 ks)).
Proof.
  intros Lx Li. unfold rect_add. gets. cbn [bind]. rewrite slice_nth by exact Li. cbn [seq map]. rewrite Nat.add_0_r.
  destruct x as [|a [|b [|c [|d [|]]]]]; try discriminate Lx. reflexivity.
Qed.
Lemma rect_words_eq r n ks next k x : N.to_nat r = n -> length ks = (4 * (n + 1))%nat -> words_ok 16 ks ->
  (forall j, (j <= n)%nat -> slice (4 * j) 4 ks = map (fun v => v mod 2 ^ 16) (firstn 4 (rectangle_reg next k j))) -> regs 16 4 x ->
  rect_enc_words {| rect_rounds := r; rect_k := ks |} x = Ok (rectangle_rounds_any n next k x).
Proof.
  intros Hn L W E Hx. unfold rect_enc_words. cbn [rect_rounds rect_k]. cbv zeta. rewrite Hn.
  destruct (mfor_fold (fun _ u v => u = v /\ regs 16 4 u) n 0
    (fun i x => let* x := rect_add ks i x in Ok (rect_shift (rect_sub 16 x))) (rectangle_round next k) x x) as (z & Ez & F1 & F2).
  - intros t y u Ht [<- Hy]. rewrite rect_add_xor by (try apply Hy; lia). cbn [bind]. eexists. split; [reflexivity|].
    assert (Hz : regs 16 4 (xor_list y (slice (4 * t) 4 ks))).
    { assert (Ws : words_ok 16 (slice (4 * t) 4 ks)) by now apply words_slice.
      assert (Ls : length (slice (4 * t) 4 ks) = 4%nat) by (rewrite length_slice; lia).
      pose proof (conj Ls Ws : regs 16 4 (slice (4 * t) 4 ks)) as Rs. clear Ls Ws. set (v := slice (4 * t) 4 ks) in *. clearbody v.
      list_cases Rs. list_cases Hy. rewrite xor_list4. regs_list. }
    rewrite (rect_sub_columns 16) by (try reflexivity; exact Hz).
    pose proof (sub_columns_regs 16 rectangle_S (xor_list y (slice (4 * t) 4 ks)) 16 eq_refl) as R.
    split; [|now apply rect_shift_bij].
    unfold rectangle_round, rectangle_add. rewrite <- E by lia. cbv zeta. unfold rect_shift.
    rewrite !rol_rotl by (try (now apply words_nth, R); lia). reflexivity.
  - now split.
  - rewrite Ez. cbn [bind]. rewrite rect_add_xor by (try apply F2; lia). rewrite E by lia. rewrite F1. unfold rectangle_rounds_any, rectangle_add. generalize (fold_left (rectangle_round next k) (seq 0 n) x). intros v.
    generalize (rectangle_reg next k n). intros q. exact eq_refl.
Qed.
Lemma rect_create_inv key s : rect_create 0 key = Ok s -> s = rect_setup 25 key.
Proof.
  intros Es. unfold rect_create in Es. apply assert_inv in Es. destruct Es as [_ Es]. apply assert_inv in Es. destruct Es as [_ Es].
  apply Ok_inj in Es. now symmetry.
Qed.
Lemma rect_setup_eta r key : rect_setup r key = {| rect_rounds := r; rect_k := rect_k (rect_setup r key) |}.
Proof. reflexivity. Qed.
Lemma rect_setup_k r key : rect_k (rect_setup r key) = if Nat.ltb 10 (length key)
       then rect_sched rect_next128 (N.to_nat r) 0 (key32b key 4)
       else rect_sched rect_next80 (N.to_nat r) 0 (key16b key 5).
Proof. reflexivity. Qed.
Lemma stores16b_be ws : stores store16b ws = be_string 2 ws.
Proof. unfold stores, be_string. induction ws as [|x t IH]; cbn [flat_map]; [reflexivity|]. now rewrite store16b_bytes, IH. Qed.

Lemma rectangle_any_enc r n key pt : N.to_nat r = n -> (n <= 25)%nat -> bytes_ok key -> (0 < length key <= 16)%nat -> blk 8 pt ->
  rect_encrypt (rect_setup r key) pt = Ok (rectangle_any n key pt).
Proof.
  intros Hn Hn25 Hb Hk Hp.
  unfold rect_encrypt, rectangle_any. destruct Hp as [Lp Bp].
  rewrite (loads_be 2 load16b 4 pt load16b_val Bp) by lia. rewrite (zero_pad_full (2 * 4) pt) by lia.
  assert (Hx : regs 16 4 (be_words 2 4 pt)) by now apply be_words_regs.
  rewrite rect_setup_eta, rect_setup_k. rewrite Hn.
  destruct (Nat.leb_spec (length key) 10) as [H|H].
  - rewrite (proj2 (Nat.ltb_ge 10 (length key)) H). rewrite key16b_words by (auto; lia). change (2 * 5)%nat with 10%nat.
    set (k := be_words 2 5 (zero_pad 10 key)). assert (Kr : regs 16 5 k) by (apply be_words_regs; [now apply bytes_zero_pad|reflexivity]).
    clearbody k. destruct (rect_sched_ok rect_next80 5 ltac:(lia) (fun _ _ => eq_refl) n 0 k (proj1 Kr)) as [L W].
    rewrite (rect_words_eq r n _ rectangle_next80 k); [|exact Hn|exact L|exact W| |exact Hx].
    + cbn [bind]. rewrite stores16b_be. exact eq_refl.
    + intros j Hj. unfold rectangle_reg. apply (rect_sched_slice (regs 16 5)); [intros ? [E _]; rewrite E; lia|exact rect_next80_eq|exact Kr|lia|exact Hj].
  - rewrite (proj2 (Nat.ltb_lt 10 (length key)) H). rewrite key32b_words by (auto; lia). change (4 * 4)%nat with 16%nat.
    set (k := be_words 4 4 (zero_pad 16 key)). assert (Kr : regs 32 4 k) by (apply be_words_regs; [now apply bytes_zero_pad|reflexivity]).
    clearbody k. destruct (rect_sched_ok rect_next128 4 ltac:(lia) (fun _ _ => eq_refl) n 0 k (proj1 Kr)) as [L W].
    rewrite (rect_words_eq r n _ rectangle_next128 k); [|exact Hn|exact L|exact W| |exact Hx].
    + cbn [bind]. rewrite stores16b_be. exact eq_refl.
    + intros j Hj. unfold rectangle_reg. apply (rect_sched_slice (regs 32 4)); [intros ? [E _]; rewrite E; lia|exact rect_next128_eq|exact Kr|lia|exact Hj].
Qed.
Lemma rectangle_any_25 key pt : rectangle_any 25 key pt = rectangle_cipher key pt.
Proof.
  unfold rectangle_any, rectangle_cipher, rectangle_rounds_any, rectangle_rounds. generalize (seq 0 25) as l. intros l. reflexivity.
Qed.
Lemma rectangle_published : is_cipher rectangle_desc (up_to 16) rectangle_cipher.
Proof.
  apply (is_cipher_default _ _ _ rectangle_default); [intros key Hk; exact Hk|].
  intros key s Hb Hk Es pt Hp. apply rect_create_inv in Es. subst s. rewrite <- rectangle_any_25.
  change (bc_enc rectangle_desc) with rect_encrypt. apply rectangle_any_enc; [reflexivity|lia|exact Hb|exact Hk|exact Hp].
Qed.
