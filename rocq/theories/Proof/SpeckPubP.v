(** Speck and Simon are the published ciphers. *)
From Coq Require Import NArith PArith Arith List Bool Lia.
From Verif Require Import Lib.Word Lib.Res Lib.Bytes Lib.Bij Lib.XorSolve Lib.Lists Lib.WordSpec Lib.WordsP Lib.BlockLemmas Spec.Words Spec.Block Spec.Cipher Spec.Arx
  Model.LoadStore Model.BlockApi Model.Speck Model.Simon Model.Ciphers
  Proof.LoadStoreP Proof.SpeckP Proof.SimonP Proof.CiphersP Proof.Sha1P Proof.RekeyP Proof.ArxP.
Import ListNotations.
Local Open Scope N_scope.

Lemma key16l_words key n : bytes_ok key -> (length key <= 2 * n)%nat -> key16l key n = le_words 2 n (zero_pad (2 * n) key).
Proof.
  intros B L. rewrite key16l_loads by assumption. apply loads_le; [exact load16l_val|exact B|exact L].
Qed.
Lemma key64l_words key n : bytes_ok key -> (length key <= 8 * n)%nat -> key64l key n = le_words 8 n (zero_pad (8 * n) key).
Proof. intros B L. rewrite key64l_loads by assumption. now apply loads64l_le. Qed.

(** A record of what links the parameters to byte strings. *)
Record words_std (w : N) (k : nat) (ld : list N -> nat -> N) (st : N -> list N) (kl : list N -> nat -> list N) : Prop := {
  ws_w : w = 8 * N.of_nat k;
  ws_ld : forall pt, blk (2 * k) pt -> ld2 (k := k) (ld := ld) pt = (word (le_words k 2 pt) 0, word (le_words k 2 pt) 1);
  ws_st : forall a b, st2 (st := st) (a, b) = le_string k [a; b];
  ws_key : forall key n, bytes_ok key -> (length key <= k * n)%nat -> kl key n = le_words k n (zero_pad (k * n) key);
}.
Lemma st2_le16 a b : st2 (st := store16l) (a, b) = le_string 2 [a; b].
Proof. unfold st2, le_string. cbn [fst snd flat_map]. now rewrite !store16l_bytes, app_nil_r. Qed.
Lemma st2_le64 a b : st2 (st := store64l) (a, b) = le_string 8 [a; b].
Proof. unfold st2, le_string. cbn [fst snd flat_map]. now rewrite !store64l_bytes, app_nil_r. Qed.
Lemma std16 : words_std 16 2 load16l store16l key16l.
Proof. split; [reflexivity|exact ld2_le16|exact st2_le16|exact key16l_words]. Qed.
Lemma std32 : words_std 32 4 load32l store32l key32l.
Proof. split; [reflexivity|exact ld2_le32|exact st2_le32|exact key32l_words]. Qed.
Lemma std64 : words_std 64 8 load64l store64l key64l.
Proof. split; [reflexivity|exact ld2_le64|exact st2_le64|exact key64l_words]. Qed.

Lemma nth_le_words_pad k m n l i : length l = (k * m)%nat -> (m <= n)%nat -> (i < m)%nat ->
  nth i (le_words k n (zero_pad (k * n) l)) 0 = nth i (le_words k m l) 0.
Proof.
  intros L Hm Hi. rewrite !nth_le_words by lia. f_equal. unfold zero_pad, slice. rewrite skipn_app, firstn_app.
  replace (k - length (skipn (k * i) l))%nat with 0%nat; [cbn [firstn]; apply app_nil_r|]. rewrite skipn_length, L. nia.
Qed.
Lemma mod_apart m i j : (m <> 0)%nat -> (i < j < i + m)%nat -> (j mod m <> i mod m)%nat.
Proof.
  intros Hm H E. pose proof (Nat.div_mod_eq i m). pose proof (Nat.div_mod_eq j m).
  assert ((j / m <= i / m)%nat \/ (S (i / m) <= j / m)%nat) as [D|D] by lia; nia.
Qed.

Section SpeckPub.
  Variable p : speck_par.
  Hypothesis G : speck_good p.
  Hypothesis S_ : words_std (sp_w p) (sp_k p) (sp_ld p) (sp_st p) (sp_key p).
  Let w := sp_w p.
  Let fn := speck_fn w (sp_ra p) (sp_rb p).

  Lemma speck_R_fn k x : inw w k -> @w2 w x -> speck_R p k x = fn k x.
  Proof.
    intros Hk [H1 H2]. pose proof (sg_ra p G) as Ra. pose proof (sg_rb p G) as Rb. fold w in Ra, Rb.
    unfold speck_R, fn, speck_fn. fold w. rewrite mask_id by exact Hk.
    rewrite ror_rotr by (wb || lia). rewrite rol_rotl by (wb || lia). now rewrite plus_w_wadd.
  Qed.
  Lemma speck_fn_w2 k x : inw w k -> @w2 w x -> @w2 w (fn k x).
  Proof. intros Hk H. rewrite <- speck_R_fn by assumption. now apply speck_R_inw. Qed.

  Definition sp_rel (m i : nat) (st st' : list N * list N) : Prop :=
    length (fst st) = 4%nat /\ snd st = rev (snd st') /\ length (snd st') = S i /\ length (fst st') = (m + i)%nat /\
    words_ok w (fst st') /\ words_ok w (snd st') /\ nth 0 (fst st) 0 = word (snd st') i /\
    (forall j, (i <= j < i + m)%nat -> nth (S (j mod m)) (fst st) 0 = word (fst st') j).
  Lemma speck_step_rel m i st st' : (1 <= m <= 3)%nat -> inw w (N.of_nat i) -> sp_rel m i st st' ->
    exists z, speck_sched_step p m i st = Ok z /\ sp_rel m (S i) z (speck_more w (sp_ra p) (sp_rb p) st' i).
  Proof.
    destruct st as [karr out], st' as [l k]. unfold sp_rel. cbn [fst snd]. intros Hm Hi (H1 & H2 & H3 & H4 & H5 & H6 & H7 & H8).
    unfold speck_sched_step, speck_more. destruct (Nat.eqb_spec m 0); [lia|].
    rewrite (H8 i ltac:(lia)), H7. unfold word in *.
    rewrite speck_R_fn by (auto; split; cbn [fst snd]; apply words_nth; assumption). change (speck_fn w (sp_ra p) (sp_rb p)) with fn.
    destruct (fn (N.of_nat i) (nth i l 0, nth i k 0)) as [l' k'] eqn:Ef.
    assert (W : @w2 w (l', k')).
    { rewrite <- Ef. apply speck_fn_w2; [exact Hi|]. split; cbn [fst snd]; apply words_nth; assumption. }
    destruct W as [W1 W2]. cbn [fst snd] in W1, W2.
    eexists. split; [reflexivity|]. cbn [fst snd]. pose proof (Nat.mod_upper_bound i m n) as Bi.
    split; [now rewrite !length_upd|]. split; [rewrite rev_app_distr; cbn [rev app]; now rewrite H2|].
    split; [rewrite app_length; cbn [length]; lia|]. split; [rewrite app_length; cbn [length]; lia|].
    split; [apply Forall_app; split; [exact H5|constructor; [exact W1|constructor]]|].
    split; [apply Forall_app; split; [exact H6|constructor; [exact W2|constructor]]|].
    split.
    - rewrite nth_upd_eq by (rewrite length_upd; lia). rewrite app_nth2 by lia. now replace (S i - length k)%nat with 0%nat by lia.
    - intros j Hj. rewrite nth_upd_neq by lia. destruct (Nat.eq_dec j (i + m)) as [->|Hne].
      + replace ((i + m) mod m)%nat with (i mod m)%nat.
        2:{ replace (i + m)%nat with (i + 1 * m)%nat by lia. now rewrite Nat.mod_add. }
        rewrite nth_upd_eq by lia. rewrite app_nth2 by lia. now replace (i + m - length l)%nat with 0%nat by lia.
      + rewrite nth_upd_neq by (pose proof (mod_apart m i j n ltac:(lia)); lia). rewrite app_nth1 by lia. apply H8. lia.
  Qed.

  Lemma speck_setup_pub T key nw : bytes_ok key -> length key = (sp_k p * nw)%nat -> (2 <= nw <= 4)%nat -> N.of_nat (N.to_nat T) < 2 ^ w -> (1 <= N.to_nat T)%nat ->
    exists s, speck_setup p T key = Ok s /\ speck_rounds s = T /\
      speck_ks s = snd (fold_left (speck_more w (sp_ra p) (sp_rb p)) (seq 0 (N.to_nat T - 1)) (tl (le_words (sp_k p) nw key), [word (le_words (sp_k p) nw key) 0])) /\
      words_ok w (speck_ks s) /\ length (speck_ks s) = N.to_nat T.
  Proof.
    intros Hb L Hn HT HT1. pose proof (sg_k p G) as K0. unfold speck_setup.
    assert (Ew : speck_words p key = nw).
    { unfold speck_words. rewrite L. symmetry. apply Nat.div_unique with (sp_k p - 1)%nat; lia. }
    rewrite Ew. rewrite (ws_key _ _ _ _ _ S_ key 4) by (auto; nia).
    set (K := le_words (sp_k p) nw key). set (A := le_words (sp_k p) 4 (zero_pad (sp_k p * 4) key)).
    assert (KW : words_ok w K) by (apply le_words_inw; [exact Hb|exact (ws_w _ _ _ _ _ S_)]).
    assert (AK : forall i, (i < nw)%nat -> nth i A 0 = nth i K 0) by (intros i Hi; apply nth_le_words_pad; lia).
    assert (LK : length K = nw) by apply length_le_words.
    destruct (mfor_fold (sp_rel (nw - 1)) (N.to_nat T - 1) 0 (speck_sched_step p (nw - 1)) (speck_more w (sp_ra p) (sp_rb p))
      (A, [nth 0 A 0]) (tl K, [word K 0])) as (z & Ez & Hz).
    - intros t y u Ht H. apply speck_step_rel; [lia| |exact H]. unfold inw. eapply N.lt_trans; [|exact HT]. lia.
    - unfold sp_rel. cbn [fst snd]. rewrite (AK 0%nat) by lia.
      destruct K as [|K0' K'] eqn:EK; [cbn [length] in LK; lia|]. cbn [tl]. unfold word. cbn [nth].
      inversion KW; subst.
      split; [apply length_le_words|]. split; [reflexivity|]. split; [reflexivity|]. split; [cbn [length] in LK; lia|].
      split; [assumption|]. split; [constructor; [assumption|constructor]|]. split; [reflexivity|].
      intros j Hj. rewrite Nat.mod_small by lia. rewrite AK by lia. reflexivity.
    - rewrite Ez. cbn [bind]. destruct z as [k out]. destruct Hz as (_ & Ho & Hl & _ & _ & Hw & _). cbn [fst snd] in *.
      eexists. split; [reflexivity|]. cbn [speck_rounds speck_ks]. rewrite Ho, rev_involutive.
      split; [reflexivity|]. split; [reflexivity|]. split; [exact Hw|lia].
  Qed.

  Lemma speck_enc_pub s T pt ks : blk (2 * sp_k p) pt -> speck_ks s = ks -> words_ok w ks -> N.to_nat (speck_rounds s) = T -> length ks = T ->
    speck_encrypt p s pt = Ok (let v := le_words (sp_k p) 2 pt in
      let '(x, y) := fold_left (fun v i => speck_fn w (sp_ra p) (sp_rb p) (word ks i) v) (seq 0 T) (word v 1, word v 0) in
      le_string (sp_k p) [y; x]).
  Proof.
    intros Hp Ek Hw Er L. unfold speck_encrypt, speck_enc_words. rewrite Ek, Er. unfold speck_load, speck_swap.
    rewrite (ws_ld _ _ _ _ _ S_ pt Hp). cbn [fst snd]. cbv zeta. fold fn.
    match goal with |- context [mfor ?n 0 ?f ?x] => match goal with |- context [fold_left ?g _ ?v] =>
      destruct (mfor_fold (fun _ y u => y = u /\ @w2 w u) n 0%nat f g x v) as (z & Ez & Hz & _) end end.
    - intros t y u Ht (-> & Hu). rewrite (get_ok ks t 0) by lia. cbn [bind]. eexists. split; [reflexivity|].
      rewrite speck_R_fn by (auto; apply words_nth; assumption). split; [reflexivity|]. apply speck_fn_w2; [apply words_nth; assumption|exact Hu].
    - split; [reflexivity|]. split; cbn [fst snd]; apply (le_words_word (sp_k p)); (apply Hp || exact (ws_w _ _ _ _ _ S_)).
    - rewrite Ez. cbn [bind]. rewrite Hz. destruct (fold_left _ _ _) as [x y]. unfold speck_store, speck_swap. cbn [fst snd].
      now rewrite (ws_st _ _ _ _ _ S_).
  Qed.

  Lemma speck_pub key s nw T : bytes_ok key -> length key = (sp_k p * nw)%nat -> (2 <= nw <= 4)%nat ->
    speck_r p 0 key = T -> T < 2 ^ w -> (1 <= N.to_nat T)%nat -> speck_create p 0 key = Ok s ->
    forall pt, blk (2 * sp_k p) pt -> speck_encrypt p s pt = Ok (speck_cipher w (sp_k p) (sp_ra p) (sp_rb p) (N.to_nat T) key pt).
  Proof.
    intros Hb L Hn Er HT HT1 Es pt Hp. unfold speck_create in Es. apply assert_inv in Es. destruct Es as [_ Es].
    apply fits_inv in Es. destruct Es as [_ Es]. rewrite Er in Es.
    destruct (speck_setup_pub T key nw Hb L Hn ltac:(now rewrite N2Nat.id) HT1) as (s' & E' & R' & K' & W' & L').
    rewrite E' in Es. apply Ok_inj in Es. subst s'.
    rewrite (speck_enc_pub s (N.to_nat T) pt _ Hp eq_refl W' ltac:(now rewrite R') L'). rewrite K'.
    unfold speck_cipher. rewrite L. pose proof (sg_k p G). rewrite Nat.mul_comm, Nat.div_mul by assumption. reflexivity.
  Qed.
End SpeckPub.

Ltac size_cases H := unfold sized in H; cbn [In] in H; repeat (destruct H as [H|H]); try contradiction.
Lemma speck32_published : is_cipher (speck_desc speck32) (sized [8%nat]) (speck_cipher 16 2 7 2 22).
Proof.
  apply is_cipher_intro.
  - intros key Hb Hk. size_cases Hk. apply speck32_default; [split; [exact Hb|]|]; rewrite <- Hk; lia.
  - intros key s Hb Hk. size_cases Hk. apply (speck_pub speck32 speck32_good std16 key s 4 22 Hb); try (symmetry; exact Hk); try reflexivity; cbn; lia.
Qed.
Lemma speck64_published : is_cipher (speck_desc speck64) (sized [12; 16]%nat) (fun key => speck_cipher 32 4 8 3 (length key / 4 + 23) key).
Proof.
  apply is_cipher_intro.
  - intros key Hb Hk. size_cases Hk; (apply speck64_default; [split; [exact Hb|]|]; rewrite <- Hk; lia).
  - intros key s Hb Hk. size_cases Hk; rewrite <- Hk.
    + apply (speck_pub speck64 speck64_good std32 key s 3 26 Hb); try (symmetry; exact Hk); try reflexivity; try (cbn; lia).
      unfold speck_r, speck_words. now rewrite <- Hk.
    + apply (speck_pub speck64 speck64_good std32 key s 4 27 Hb); try (symmetry; exact Hk); try reflexivity; try (cbn; lia).
      unfold speck_r, speck_words. now rewrite <- Hk.
Qed.
Lemma speck128_published : is_cipher (speck_desc speck128) (sized [16; 24; 32]%nat) (fun key => speck_cipher 64 8 8 3 (length key / 8 + 30) key).
Proof.
  apply is_cipher_intro.
  - intros key Hb Hk. size_cases Hk; (apply speck128_default; [split; [exact Hb|]|]; rewrite <- Hk; lia).
  - intros key s Hb Hk. size_cases Hk; rewrite <- Hk.
    + apply (speck_pub speck128 speck128_good std64 key s 2 32 Hb); try (symmetry; exact Hk); try reflexivity; try (cbn; lia).
      unfold speck_r, speck_words. now rewrite <- Hk.
    + apply (speck_pub speck128 speck128_good std64 key s 3 33 Hb); try (symmetry; exact Hk); try reflexivity; try (cbn; lia).
      unfold speck_r, speck_words. now rewrite <- Hk.
    + apply (speck_pub speck128 speck128_good std64 key s 4 34 Hb); try (symmetry; exact Hk); try reflexivity; try (cbn; lia).
      unfold speck_r, speck_words. now rewrite <- Hk.
Qed.

(** Simon *)
Section SimonPub.
  Variable p : simon_par.
  Hypothesis G : simon_good p.
  Hypothesis S_ : words_std (si_w p) (si_k p) (si_ld p) (si_st p) (si_key p).
  Let w := si_w p.

  Lemma simon_F_fn x : inw w x -> simon_F p x = simon_fn w x.
  Proof.
    intros H. pose proof (ig_w p G) as W. fold w in W. unfold simon_F, simon_fn. fold w. now rewrite !rol_rotl by (wb || lia).
  Qed.
  (** the constant sequence, bit by bit *)
  Definition z_ok (m j : nat) : bool := forallb (fun t => N.land (N.shiftr (si_z p m) (N.of_nat t)) 1 =? z_bit j t) (seq 0 62).
  Lemma z_bits m j i : z_ok m j = true -> N.land (N.shiftr (si_z p m) (N.of_nat (i mod 62))) 1 = z_bit j i.
  Proof.
    intros H. unfold z_ok in H. rewrite forallb_forall in H. specialize (H (i mod 62)%nat).
    assert (B : (i mod 62 < 62)%nat) by (apply Nat.mod_upper_bound; lia).
    rewrite in_seq in H. specialize (H ltac:(lia)). apply N.eqb_eq in H. rewrite H. unfold z_bit. now rewrite Nat.mod_mod by lia.
  Qed.
  Lemma wnot_sub x : inw w x -> wnot w x = 2 ^ w - 1 - x.
  Proof.
    intros H. unfold wnot. change (N.lxor x (N.ones w)) with (N.lnot x w).
    destruct (N.eq_dec x 0) as [->|Nz].
    - unfold N.lnot. now rewrite N.lxor_0_l, N.ones_equiv, N.sub_0_r, N.sub_1_r.
    - rewrite N.lnot_sub_low by (apply N.log2_lt_pow2; [lia|exact H]). now rewrite N.ones_equiv, N.sub_1_r.
  Qed.
  Lemma simon_next_more m j ks i : z_ok m j = true -> words_ok w ks -> ks ++ [simon_next p m ks i] = simon_more w m j ks i.
  Proof.
    intros Hz Hw. pose proof (ig_w p G) as W. fold w in W. unfold simon_next, simon_more. fold w. apply f_equal. apply f_equal2; [|reflexivity].
    rewrite (z_bits m j) by exact Hz. unfold word.
    assert (In : forall i, inw w (nth i ks 0)) by (intros; wb).
    rewrite (ror_rotr w (nth (i - 1) ks 0) 3) by (wb || lia). rewrite wnot_sub by wb.
    assert (Ht : inw w (if Nat.eqb m 4 then N.lxor (rotr w (nth (i - 1) ks 0) 3) (nth (i - 3) ks 0) else rotr w (nth (i - 1) ks 0) 3)).
    { rewrite <- ror_rotr by (wb || lia). destruct (Nat.eqb m 4); wb. }
    revert Ht. set (t := if Nat.eqb m 4 then _ else _). intros Ht. rewrite (ror_rotr w t 1) by (wb || lia). xor_solve.
  Qed.
  Lemma simon_setup_pub T key nw j : bytes_ok key -> length key = (si_k p * nw)%nat -> (si_min p <= nw)%nat -> z_ok nw j = true ->
    simon_ks (simon_setup p T key) = fold_left (simon_more w nw j) (seq nw (N.to_nat T - nw)) (le_words (si_k p) nw key).
  Proof.
    intros Hb L Hn Hz. pose proof (ig_k p G) as K0. pose proof (ig_w p G) as W0. fold w in W0. unfold simon_setup. cbn [simon_ks].
    assert (Em : simon_m p key = nw).
    { unfold simon_m, simon_words. rewrite L. replace ((si_k p * nw + (si_k p - 1)) / si_k p)%nat with nw; [lia|].
      apply Nat.div_unique with (si_k p - 1)%nat; lia. }
    rewrite Em. rewrite (ws_key _ _ _ _ _ S_ key nw) by (auto; lia). rewrite zero_pad_full by lia.
    pose proof (pfor_fold (fun _ y u => y = u /\ words_ok w y) (N.to_nat T - nw) nw (fun i ks => ks ++ [simon_next p nw ks i]) (simon_more w nw j)
      (le_words (si_k p) nw key) (le_words (si_k p) nw key)) as P.
    apply P.
    - intros t y u _ (-> & H2). split; [now apply simon_next_more|].
      apply Forall_app. split; [exact H2|]. constructor; [|constructor].
      assert (In : forall i, inw w (nth i u 0)) by (intros i; wb).
      unfold simon_next. fold w. rewrite (z_bits nw j) by exact Hz. apply inw_lxor.
      + apply inw_lxor; [destruct (Nat.eqb nw 4); wb|].
        apply inw_lxor; [destruct (Nat.eqb nw 4); wb|]. apply inw_mono with 8; [lia|reflexivity].
      + apply inw_mono with 8; [lia|]. rewrite <- (z_bits nw j) by exact Hz.
        change 1 with (N.ones 1). rewrite N.land_ones. change (2 ^ 1) with 2. unfold inw.
        eapply N.lt_trans; [apply N.mod_lt; discriminate|reflexivity].
    - split; [reflexivity|]. apply le_words_inw; [exact Hb|exact (ws_w _ _ _ _ _ S_)].
  Qed.

  Lemma simon_enc_pub s T pt ks : blk (2 * si_k p) pt -> simon_ks s = ks -> words_ok w ks -> N.to_nat (simon_rounds s) = T -> (T <= length ks)%nat ->
    simon_encrypt p s pt = Ok (let v := le_words (si_k p) 2 pt in
      let '(x, y) := fold_left (simon_round w ks) (seq 0 T) (word v 1, word v 0) in
      le_string (si_k p) [y; x]).
  Proof.
    intros Hp Ek Hw Er L. unfold simon_encrypt. rewrite Ek, Er. unfold simon_load, simon_swap.
    rewrite (ws_ld _ _ _ _ _ S_ pt Hp). cbn [fst snd]. cbv zeta. rewrite simon_enc_loop_eq by lia.
    match goal with |- context [mfor ?n 0 ?f ?x] => match goal with |- context [fold_left ?g _ ?v] =>
      destruct (mfor_fold (fun _ y u => y = u /\ @w2 w u) n 0%nat f g x v) as (z & Ez & Hz & _) end end.
    - intros t y u Ht (-> & Hu). eexists. split; [reflexivity|]. destruct u as [x y]. destruct Hu as [H1 H2]. cbn [fst snd] in *.
      unfold simon_rnd, simon_round. cbn [fst snd]. rewrite simon_F_fn by exact H1. unfold word. rewrite N.lxor_assoc. split; [reflexivity|].
      split; cbn [fst snd]; [|exact H1]. rewrite <- simon_F_fn by exact H1. apply inw_lxor; [exact H2|]. apply inw_lxor; [now apply simon_F_inw|now apply words_nth].
    - split; [reflexivity|]. split; cbn [fst snd]; apply (le_words_word (si_k p)); (apply Hp || exact (ws_w _ _ _ _ _ S_)).
    - rewrite Ez. cbn [bind]. rewrite Hz. destruct (fold_left _ _ _) as [x y]. unfold simon_store, simon_swap. cbn [fst snd].
      now rewrite (ws_st _ _ _ _ _ S_).
  Qed.

  Lemma simon_pub key s nw j T : bytes_ok key -> length key = (si_k p * nw)%nat -> (si_min p <= nw)%nat -> z_ok nw j = true ->
    simon_r p 0 key = T -> simon_create p 0 key = Ok s ->
    forall pt, blk (2 * si_k p) pt -> simon_encrypt p s pt = Ok (simon_cipher w (si_k p) j (N.to_nat T) key pt).
  Proof.
    intros Hb L Hn Hz Er Es pt Hp. unfold simon_create in Es. apply assert_inv in Es. destruct Es as [_ Es].
    apply fits_inv in Es. destruct Es as [_ Es]. rewrite Er in Es. apply Ok_inj in Es. subst s.
    destruct (simon_setup_ok p G T key Hb) as [L' W'].
    rewrite (simon_enc_pub _ (N.to_nat T) pt _ Hp eq_refl W' eq_refl L'). rewrite (simon_setup_pub T key nw j Hb L Hn Hz).
    unfold simon_cipher. rewrite L. pose proof (ig_k p G). rewrite (Nat.mul_comm (si_k p) nw), Nat.div_mul by assumption. reflexivity.
  Qed.
End SimonPub.

Lemma simon32_published : is_cipher (simon_desc simon32) (sized [8%nat]) (simon_cipher 16 2 0 32).
Proof.
  apply (is_cipher_default _ _ _ simon32_default); [intros key Hk; size_cases Hk; rewrite <- Hk; cbn; lia|].
  intros key s Hb Hk. size_cases Hk. apply (simon_pub simon32 simon32_good std16 key s 4 0 32 Hb); try (symmetry; exact Hk); try reflexivity; cbn; lia.
Qed.
Lemma simon64_published : is_cipher (simon_desc simon64) (sized [12; 16]%nat) simon64_cipher.
Proof.
  apply (is_cipher_default _ _ _ simon64_default); [intros key Hk; size_cases Hk; rewrite <- Hk; cbn; lia|].
  intros key s Hb Hk. unfold simon64_cipher. size_cases Hk; rewrite <- Hk; cbn [Nat.eqb].
  - apply (simon_pub simon64 simon64_good std32 key s 3 2 42 Hb); try (symmetry; exact Hk); try reflexivity; try (cbn; lia).
    unfold simon_r, simon_words. now rewrite <- Hk.
  - apply (simon_pub simon64 simon64_good std32 key s 4 3 44 Hb); try (symmetry; exact Hk); try reflexivity; try (cbn; lia).
    unfold simon_r, simon_words. now rewrite <- Hk.
Qed.
Lemma simon128_published : is_cipher (simon_desc simon128) (sized [16; 24; 32]%nat) simon128_cipher.
Proof.
  apply (is_cipher_default _ _ _ simon128_default); [intros key Hk; size_cases Hk; rewrite <- Hk; cbn; lia|].
  intros key s Hb Hk. unfold simon128_cipher. size_cases Hk; rewrite <- Hk; cbn [Nat.eqb].
  - apply (simon_pub simon128 simon128_good std64 key s 2 2 68 Hb); try (symmetry; exact Hk); try reflexivity; try (cbn; lia).
    unfold simon_r, simon_words. now rewrite <- Hk.
  - apply (simon_pub simon128 simon128_good std64 key s 3 3 69 Hb); try (symmetry; exact Hk); try reflexivity; try (cbn; lia).
    unfold simon_r, simon_words. now rewrite <- Hk.
  - apply (simon_pub simon128 simon128_good std64 key s 4 4 72 Hb); try (symmetry; exact Hk); try reflexivity; try (cbn; lia).
    unfold simon_r, simon_words. now rewrite <- Hk.
Qed.
