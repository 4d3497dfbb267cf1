(** SHACAL-2 is the compression function of SHA-256 as FIPS 180-4 defines it, without the last addition. *)
From Coq Require Import NArith Arith List Bool Lia.
From Verif Require Import Lib.Word Lib.Res Lib.Bytes Lib.Bits Lib.Bij Lib.Feistel Lib.Lists Lib.MemLemmas Lib.BlockLemmas Lib.WordSpec Lib.WordsP
  Spec.Words Spec.Block Spec.Arx Spec.Sha2 Spec.Pub1 Spec.Rounds Model.LoadStore Model.BlockApi Model.Table Model.Sha2 Model.Shacal2 Model.Ciphers
  Proof.LoadStoreP Proof.Sha1P Proof.Sha2P Proof.ArxP Proof.LeaPubP Proof.PubLib Proof.Shacal2P Proof.RekeyP Proof.CiphersP.
Import ListNotations.
Local Open Scope N_scope.

Lemma shac_maj_eq x y z : shac_maj x y z = Maj x y z. Proof. exact (maj_eq x y z). Qed.
Lemma shac_ch_eq x y z : inw 32 x -> inw 32 z -> shac_ch x y z = Ch 32 x y z. Proof. exact (ch_eq 32 x y z). Qed.

Section Abstract.
  Variable f : sha2_fn.
  Hypothesis W32 : f_w f = 32.
  Hypothesis HE0 : forall x, inw 32 x -> shac_e0 x = f_Sigma0 f x.
  Hypothesis HE1 : forall x, inw 32 x -> shac_e1 x = f_Sigma1 f x.
  Hypothesis HS0 : forall x, inw 32 x -> shac_s0 x = f_sigma0 f x.
  Hypothesis HS1 : forall x, inw 32 x -> shac_s1 x = f_sigma1 f x.

  Lemma shac_round_turn t k wt x : (t < 8)%nat -> regs 32 8 x ->
    turn ((8 - t + 7) mod 8) (shac_round t (wadd 32 wt k) x) = sha2_step f k wt (turn ((8 - t) mod 8) x).
  Proof.
    intros Ht [Hl Hx]. explode8 x Hl. unfold words_ok in Hx. rewrite !Forall_cons_iff in Hx.
    destruct Hx as (X0 & X1 & X2 & X3 & X4 & X5 & X6 & X7 & _).
    unfold sha2_step, turn. cbn [seq map].
    do 8 (destruct t as [|t]; [
      cbn [Nat.add Nat.sub]; cbv [Nat.modulo Nat.divmod Nat.sub]; cbn [fst snd];
      unfold shac_round, shac_t1, shac_t2, shac_reg; cbv zeta;
      cbn [Nat.add Nat.sub]; cbv [Nat.modulo Nat.divmod Nat.sub]; cbn [fst snd nth upd];
      rewrite W32, !HE0, !HE1 by assumption;
      rewrite shac_maj_eq, shac_ch_eq, <- !plus_w_wadd by assumption;
      repeat (apply f_equal2; [rewrite ?(wadd_comm 32 wt k), ?wadd_assoc; reflexivity|]); try reflexivity|]). lia.
  Qed.
  Lemma shac_schedule n : forall pre win, length win = 16%nat -> words_ok 32 win ->
    schedule f n (pre ++ win) = pre ++ win ++ shac_words n win.
  Proof.
    induction n as [|n IH]; intros pre win Hl Hw; cbn [schedule shac_words]; [now rewrite app_nil_r|]. cbv zeta.
    assert (N : forall k, (0 < k <= 16)%nat -> nth (length (pre ++ win) - k) (pre ++ win) 0 = nth (16 - k) win 0).
    { intros k Hk. rewrite app_length, Hl, app_nth2 by lia. f_equal. lia. }
    rewrite !N by lia. cbn [Nat.sub]. rewrite W32, <- !plus_w_wadd, <- HS0, <- HS1 by (now apply words_nth).
    set (v1 := wadd 32 (wadd 32 (wadd 32 (shac_s1 (nth 14 win 0)) (nth 9 win 0)) (shac_s0 (nth 1 win 0))) (nth 0 win 0)).
    assert (E : wadd 32 (wadd 32 (wadd 32 (nth 0 win 0) (shac_s0 (nth 1 win 0))) (nth 9 win 0)) (shac_s1 (nth 14 win 0)) = v1).
    { unfold v1. rewrite (wadd_comm 32 _ (shac_s1 _)). rewrite !wadd_assoc. f_equal.
      rewrite (wadd_comm 32 (nth 0 win 0)). rewrite <- (wadd_assoc 32 (nth 9 win 0)). rewrite (wadd_comm 32 (nth 9 win 0) (shac_s0 _)).
      rewrite !wadd_assoc. reflexivity. }
    rewrite E. assert (Hv : inw 32 v1) by apply inw_wadd. clearbody v1. clear E N.
    destruct win as [|a win]; [discriminate Hl|]. cbn [tl].
    replace ((pre ++ a :: win) ++ [v1]) with ((pre ++ [a]) ++ (win ++ [v1])) by (now rewrite <- !app_assoc).
    rewrite IH.
    - rewrite <- !app_assoc. reflexivity.
    - rewrite app_length. cbn [length] in *. lia.
    - unfold words_ok in *. apply Forall_app. split; [now inversion Hw|]. constructor; [exact Hv|constructor].
  Qed.
End Abstract.

Lemma f256_shac : (forall x, inw 32 x -> shac_e0 x = f_Sigma0 f256 x) /\ (forall x, inw 32 x -> shac_e1 x = f_Sigma1 f256 x) /\
  (forall x, inw 32 x -> shac_s0 x = f_sigma0 f256 x) /\ (forall x, inw 32 x -> shac_s1 x = f_sigma1 f256 x).
Proof.
  repeat split; intros x Hx; unfold f256; cbn [f_Sigma0 f_Sigma1 f_sigma0 f_sigma1]; unfold shac_e0, shac_e1, shac_s0, shac_s1, xor3, shr;
  rewrite !ror_rotr by (assumption || lia); rewrite ?wshr_div; apply N.lxor_assoc.
Qed.
Lemma shac_rc_k : shac_rc = f_k f256.
Proof. exact f256_rc. Qed.
Lemma shac_round_regs t k x : regs 32 8 x -> regs 32 8 (shac_round t k x).
Proof. intros H. unfold shac_round. cbv zeta. repeat (apply regs_upd; [|apply inw_wadd]). exact H. Qed.
Lemma shac_turn_mod i t : (t < 8)%nat -> ((8 - t + 7) mod 8 = (8 - (8 * i + S t) mod 8) mod 8)%nat /\ ((8 - t) mod 8 = (8 - (8 * i + t) mod 8) mod 8)%nat.
Proof.
  intros Ht. rewrite !(Nat.add_comm (8 * i)), !(Nat.mul_comm 8 i), !Nat.mod_add by lia.
  do 8 (destruct t as [|t]; [split; reflexivity|]). lia.
Qed.

Lemma shac_run r m n rc W h : shac_passes r = m -> (8 * m = n)%nat -> length rc = n -> length W = n -> regs 32 8 h ->
  shac_enc_words {| shac_r := r; shac_k := map (fun i => wadd 32 (nth i W 0) (nth i rc 0)) (seq 0 n) |} h = Ok (sha2_steps f256 rc W h).
Proof.
  intros Hm Hn Lr Lw Hh. unfold shac_enc_words. cbn [shac_r shac_k]. rewrite Hm.
  set (ks := map _ (seq 0 n)).
  assert (Lk : length ks = n) by (unfold ks; now rewrite map_length, seq_length).
  assert (Nk : forall j, (j < n)%nat -> nth j ks 0 = wadd 32 (nth j W 0) (nth j rc 0)).
  { intros j Hj. unfold ks. exact (nth_map_seq (fun i => wadd 32 (nth i W 0) (nth i rc 0)) 0 n j 0 Hj). }
  clearbody ks.
  set (P := fun t x => regs 32 8 x /\ turn ((8 - t mod 8) mod 8) x = sha2_steps f256 (firstn t rc) (firstn t W) h).
  destruct f256_shac as (HE0 & HE1 & _ & _).
  assert (H8 : (0 < N.to_nat (f_w f256 / 8))%nat) by (change (f_w f256) with 32; change (N.to_nat (32 / 8)) with 4%nat; lia).
  destruct (Res.mfor_inv (fun i x => P (8 * i)%nat x) m 0 (fun i x => mfor 8 0 (fun t x => let* k := get ks (8 * i + t) in Ok (shac_round t k x)) x) h) as (z & Ez & Hz).
  - intros i y Hi Hy.
    destruct (Res.mfor_inv (fun t x => P (8 * i + t)%nat x) 8 0 (fun t x => let* k := get ks (8 * i + t) in Ok (shac_round t k x)) y) as (u & Eu & Hu).
    + intros t x Ht [Hx Tx]. rewrite (get_ok ks _ 0) by lia. cbn [bind]. eexists. split; [reflexivity|]. split; [now apply shac_round_regs|].
      destruct (shac_turn_mod i t ltac:(lia)) as [M1 M2]. rewrite <- M1. rewrite <- M2 in Tx. rewrite Nk by lia.
      rewrite (shac_round_turn f256 eq_refl HE0 HE1) by (auto; lia). rewrite Tx.
      replace (8 * i + S t)%nat with (S (8 * i + t)) by lia. now rewrite (steps_snoc sha2_256p f256 eq_refl H8) by lia.
    + now rewrite Nat.add_0_r.
    + exists u. split; [exact Eu|]. now replace (8 * S i)%nat with (8 * i + (0 + 8))%nat by lia.
  - split; [exact Hh|]. apply turn_0, Hh.
  - rewrite Ez. f_equal. destruct Hz as [[L _] Hz].
    replace ((8 - 8 * (0 + m) mod 8) mod 8)%nat with 0%nat in Hz by (rewrite Nat.mul_comm, Nat.mod_mul by discriminate; reflexivity). rewrite turn_0 in Hz by exact L. rewrite Hz.
    replace (8 * (0 + m))%nat with n by lia. rewrite !firstn_all2 by lia. reflexivity.
Qed.

Lemma length_shac_words n : forall w, length (shac_words n w) = n.
Proof. induction n as [|n IH]; intros w; cbn [shac_words length]; [reflexivity|]. now rewrite IH. Qed.
Lemma shac_create_inv key s : shacal2_create 0 key = Ok s -> s = shac_setup 64 key.
Proof.
  intros Es. unfold shacal2_create in Es. apply assert_inv in Es. destruct Es as [_ Es]. apply assert_inv in Es. destruct Es as [_ Es].
  cbv zeta in Es. apply fits_inv in Es. destruct Es as [_ Es]. apply Ok_inj in Es. now symmetry.
Qed.
Lemma nth_firstn_lt (l : list N) n i : (n <= length l)%nat -> (i < n)%nat -> nth i l 0 = nth i (firstn n l) 0.
Proof. intros Hn Hi. rewrite <- (firstn_skipn n l) at 1. apply app_nth1. rewrite firstn_length. lia. Qed.
Lemma shac_rc64 i : (i < 64)%nat -> nth i shac_rc 0 = nth i (firstn 64 shac_rc) 0.
Proof. apply nth_firstn_lt. change (length shac_rc) with 128%nat. lia. Qed.
Lemma shac_setup_gen f rc n m n0 key : f_w f = 32 -> (forall x, inw 32 x -> shac_s0 x = f_sigma0 f x) -> (forall x, inw 32 x -> shac_s1 x = f_sigma1 f x) ->
  (forall i, (i < n)%nat -> nth i shac_rc 0 = nth i rc 0) -> N.to_nat n0 = n -> (n - 16 = m)%nat -> (16 + m = n)%nat -> bytes_ok key -> (length key <= 64)%nat ->
  let W := schedule f m (be_words 4 16 (zero_pad 64 key)) in
  length W = n /\ shac_setup n0 key = {| shac_r := n0; shac_k := map (fun i => wadd 32 (nth i W 0) (nth i rc 0)) (seq 0 n) |}.
Proof.
  intros W32 HS0 HS1 Hrc Hn Hm Hm2 Hb Hl W. unfold shac_setup. cbv zeta. rewrite Hn, Hm.
  rewrite (key32b_words key 16) by (auto; lia).
  assert (Hw : words_ok 32 (be_words 4 16 (zero_pad (4 * 16) key))) by (apply be_words_inw; [apply bytes_zero_pad, Hb|reflexivity]).
  assert (L16 := length_be_words 4 16 (zero_pad (4 * 16) key)).
  unfold W. clear W. change (zero_pad 64 key) with (zero_pad (4 * 16) key). set (w := be_words 4 16 (zero_pad (4 * 16) key)) in *. clearbody w.
  pose proof (shac_schedule f W32 HS0 HS1 m [] w L16 Hw) as E. cbn [app] in E. rewrite E.
  split; [now rewrite app_length, length_shac_words, L16|].
  apply (f_equal (fun k => {| shac_r := n0; shac_k := k |})). apply map_ext_in. intros i Hi. apply in_seq in Hi. now rewrite Hrc by lia.
Qed.
Lemma shac_rc_f n i : (n <= 64)%nat -> (i < n)%nat -> nth i shac_rc 0 = nth i (firstn n (f_k f256)) 0.
Proof. rewrite <- shac_rc_k. intros Hn. apply nth_firstn_lt. change (length shac_rc) with 128%nat. lia. Qed.
Lemma f256_w : f_w f256 = 32. Proof. reflexivity. Qed.
Lemma shac_any_enc r m n key pt : (8 * m = n)%nat -> N.to_nat r = n -> shac_passes r = m -> (2 <= m <= 8)%nat -> bytes_ok key -> (length key <= 64)%nat -> blk 32 pt ->
  shacal2_encrypt (shac_setup r key) pt = Ok (shacal2_any n key pt).
Proof.
  intros Hn Hr Hp8 Hm Hb Hk Hp. unfold shacal2_any.
  destruct (shac_setup_gen f256 (firstn n (f_k f256)) n (n - 16) r key f256_w (proj1 (proj2 (proj2 f256_shac))) (proj2 (proj2 (proj2 f256_shac)))
    (fun i => shac_rc_f n i ltac:(lia)) Hr eq_refl ltac:(lia) Hb Hk) as [LW E]. cbv zeta in LW, E. rewrite E. clear E.
  unfold shacal2_encrypt. destruct Hp as [Lp Bp]. rewrite loads32b_be by (auto; lia). rewrite (zero_pad_full (4 * 8) pt) by lia.
  set (W := schedule f256 _ _) in *. clearbody W.
  rewrite (shac_run r m n); [|exact Hp8|exact Hn| |exact LW|].
  - cbn [bind]. now rewrite stores32b_be.
  - rewrite <- shac_rc_k, firstn_length. change (length shac_rc) with 128%nat. lia.
  - split; [apply length_be_words|]. apply be_words_inw; [exact Bp|reflexivity].
Qed.
Lemma shacal2_any_64 key pt : shacal2_any 64 key pt = shacal2_cipher key pt.
Proof. unfold shacal2_any, shacal2_cipher. generalize (f_k f256). intros k. change (64 - 16)%nat with 48%nat. reflexivity. Qed.
Lemma shacal2_published : is_cipher shacal2_desc (up_to 64) shacal2_cipher.
Proof.
  apply (is_cipher_default _ _ _ shacal2_default); [intros key Hk; exact Hk|].
  intros key s Hb Hk Es pt Hp. apply shac_create_inv in Es. subst s. cbn [shacal2_desc bc_enc bc_bs] in *.
  rewrite <- shacal2_any_64. apply (shac_any_enc 64 8 64); [reflexivity|reflexivity|reflexivity|lia|exact Hb|exact (proj2 Hk)|exact Hp].
Qed.
