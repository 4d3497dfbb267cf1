(** TRAX-L is the published cipher. *)
From Coq Require Import NArith Arith List Bool Lia.
From Verif Require Import Lib.Word Lib.Res Lib.Bytes Lib.Bij Lib.Bits Lib.Lists Lib.BlockLemmas Lib.WordSpec Lib.WordsP Lib.XorSolve
  Spec.Words Spec.Block Spec.Arx Spec.Pub2 Spec.Pub9 Model.LoadStore Model.BlockApi Model.Sparx
  Proof.LoadStoreP Proof.Sha1P Proof.ArxP Proof.LeaPubP Proof.PubLib Proof.SparxP Proof.ColumnsP Proof.WayPubP.
Import ListNotations.
Local Open Scope N_scope.

Lemma sched_slice next n (Hn : forall i k, length k = n -> length (next i k) = n) m : forall i k j, length k = n -> (j <= m)%nat ->
  slice (n * j) n (trax_sched next m i k) = fold_left (fun k t => next t k) (seq i j) k.
Proof.
  induction m as [|m IH]; intros i k j Lk Hj; cbn [trax_sched].
  - replace j with 0%nat by lia. cbn [seq fold_left]. rewrite Nat.mul_0_r. unfold slice. cbn [skipn]. rewrite <- Lk. apply firstn_all.
  - destruct j as [|j]; cbn [seq fold_left].
    + rewrite Nat.mul_0_r. unfold slice. cbn [skipn]. rewrite firstn_app, Lk, Nat.sub_diag, firstn_O, app_nil_r, <- Lk. apply firstn_all.
    + rewrite <- (IH (S i) (next i k) j); [|now apply Hn|lia]. unfold slice. f_equal.
      replace (n * S j)%nat with (length k + n * j)%nat by lia. rewrite skipn_app.
      rewrite skipn_all2 by lia. cbn [app]. f_equal. lia.
Qed.
Lemma trax_const_eq i : trax_rc i = trax_const i. Proof. reflexivity. Qed.
Lemma trax_const_ok i : inw 32 (trax_const i). Proof. rewrite <- trax_const_eq. apply trax_rc_ok. Qed.
Definition trax_lin_x (x : N) : N := N.lxor (N.lxor (wshr x 16) (N.land x (N.ones 16))) (wshl 32 (N.land x (N.ones 16)) 16).
Lemma trax_lin_eq x : inw 32 x -> trax_ell x = trax_lin x.
Proof.
  intros H. transitivity (trax_lin_x x).
  - apply (xlin_ext 32 trax_ell trax_lin_x); [| |vm_compute; reflexivity|exact H].
    + apply (xlin_comp 32 32 (fun x => N.lxor x (wshl 32 x 16)) (fun x => rol 32 x 16)).
      * apply (xlin_lxor 32 (fun x => x) (fun x => wshl 32 x 16)); [apply xlin_id|apply xlin_shl].
      * apply xlin_rol. lia.
      * intros y Hy. wb.
    + apply (xlin_lxor 32 (fun x => N.lxor (wshr x 16) (N.land x (N.ones 16))) (fun x => wshl 32 (N.land x (N.ones 16)) 16)).
      * apply (xlin_lxor 32 (fun x => wshr x 16) (fun x => N.land x (N.ones 16))); [apply xlin_shr|apply xlin_land].
      * intros a b _ _. now rewrite land_lxor, wshl_lxor.
  - unfold trax_lin_x, trax_lin. rewrite N.land_ones. unfold wshr. rewrite N.shiftr_div_pow2.
    assert (B : x mod 2 ^ 16 < 2 ^ 16) by (apply N.mod_lt; discriminate).
    assert (A : x / 2 ^ 16 < 2 ^ 16) by (apply N.div_lt_upper_bound; [discriminate|exact H]).
    rewrite N.add_comm, (N.mul_comm (x mod _)), add_lxor by (apply (inw_lxor 16); assumption). f_equal.
    unfold wshl. apply mask_id. unfold inw. rewrite N.shiftl_mul_pow2. change (2 ^ 32) with (2 ^ 16 * 2 ^ 16).
    apply N.mul_lt_mono_pos_r; [reflexivity|exact B].
Qed.
Lemma add3_32 a b c : add32 a (add32 b c) = wadd 32 (wadd 32 a b) c.
Proof.
  unfold add32, plus_w, wadd, mask. rewrite !N.land_ones, N.add_mod_idemp_r, N.add_mod_idemp_l by discriminate. f_equal. lia.
Qed.
Lemma trax_update_eq i k : regs 32 8 k -> N.of_nat i < 2 ^ 32 -> trax_l_next i k = trax_update i k /\ regs 32 8 (trax_update i k).
Proof.
  intros Hk Hi. assert (E : trax_l_next i k = trax_update i k).
  { unfold trax_l_next, trax_update. cbv zeta. rewrite !trax_const_eq, !add3_32. unfold word. cbn [skipn firstn app].
    rewrite !N.lxor_assoc. unfold wshl, mask. rewrite N.shiftl_mul_pow2, N.land_ones. reflexivity. }
  split; [exact E|]. rewrite <- E. exact (xg_next trax_l trax_l_good i k (proj2 Hk) Hi).
Qed.
Lemma trax_add_eq k x : regs 32 8 x -> regs 32 8 k -> trax_pairs (xor_front x k) = trax_add k (trax_pairs x).
Proof. intros Hx Hk. list_cases Hx. list_cases Hk. reflexivity. Qed.
Lemma trax_tweak_eq t x : regs 32 8 x -> regs 32 4 t -> trax_pairs (xor_front x t) = trax_add t (trax_pairs x).
Proof.
  intros Hx Ht. list_cases Hx. list_cases Ht. unfold trax_pairs, trax_add, branch, word. cbn [map seq nth xor_front fst snd Nat.mul Nat.add].
  rewrite !N.lxor_0_r. reflexivity.
Qed.
Lemma alz_pair c x y : inw 32 c -> inw 32 x -> inw 32 y -> exists u v, alzette c (x, y) = (u, v) /\ alzette_box c (x, y) = (u, v) /\ inw 32 u /\ inw 32 v.
Proof.
  intros Hc Hx Hy. destruct (alzette_eq c (x, y) Hc Hx Hy) as (E & A & B). destruct (alzette_box c (x, y)) as [u v] eqn:F.
  exists u, v. now repeat split.
Qed.
Lemma trax_mix_eq i x : regs 32 8 x -> trax_pairs (trax_l_mix i x) = trax_layer (trax_boxes i (trax_pairs x)).
Proof.
  intros Hx. list_cases Hx. unfold trax_boxes, trax_l_mix. change trax_rc with trax_const.
  generalize (trax_const_ok (4 * i + 0)) (trax_const_ok (4 * i + 1)) (trax_const_ok (4 * i + 2)) (trax_const_ok (4 * i + 3)).
  cbn [map seq]. rewrite Nat.add_0_r.
  generalize (trax_const (4 * i)) (trax_const (4 * i + 1)) (trax_const (4 * i + 2)) (trax_const (4 * i + 3)). intros c0 c1 c2 c3 C0 C1 C2 C3.
  change (branch (trax_pairs [n; n0; n1; n2; n3; n4; n5; n6]) 0) with (n, n0). change (branch (trax_pairs [n; n0; n1; n2; n3; n4; n5; n6]) 1) with (n1, n2).
  change (branch (trax_pairs [n; n0; n1; n2; n3; n4; n5; n6]) 2) with (n3, n4). change (branch (trax_pairs [n; n0; n1; n2; n3; n4; n5; n6]) 3) with (n5, n6).
  destruct (alz_pair c0 n n0) as (x0 & y0 & -> & -> & ? & ?); [assumption..|].
  cbv beta iota. destruct (alz_pair c1 n1 n2) as (x1 & y1 & -> & -> & ? & ?); [assumption..|].
  cbv beta iota. destruct (alz_pair c2 n3 n4) as (x2 & y2 & -> & -> & ? & ?); [assumption..|].
  cbv beta iota. destruct (alz_pair c3 n5 n6) as (x3 & y3 & -> & -> & ? & ?); [assumption..|].
  cbv zeta. rewrite !trax_lin_eq by wb. reflexivity.
Qed.
Lemma trax_l_mix_ok i x : regs 32 8 x -> regs 32 8 (trax_l_mix i x).
Proof. intros H. apply (xg_mix trax_l trax_l_good i). exact H. Qed.
Lemma trax_next_len i k : length k = 8%nat -> length (trax_l_next i k) = 8%nat. Proof. reflexivity. Qed.
Lemma xor_front_ok k x : regs 32 8 x -> words_ok 32 k -> regs 32 8 (xor_front x k).
Proof. intros H Hk. apply (xor_front_bij 32 8 k Hk). exact H. Qed.

Section Run.
  Variables (key tw pt : list N).
  Hypotheses (Hk : key_ok 32 key) (Ht : bytes_ok tw) (Lt : (length tw <= 16)%nat) (Hp : blk 32 pt).
  Let s := {| trax_steps := 17; trax_k := trax_sched trax_l_next 17 0 (key32l key 8); trax_tweak := key32l tw 4 |}.
  Let K := le_words 4 8 (zero_pad 32 key).
  Let T := le_words 4 4 (zero_pad 16 tw).
  Let P := le_words 4 8 pt.
  Lemma run_key j : (j <= 17)%nat -> gets (trax_k s) (8 * j) 8 = Ok (fold_left (fun k t => trax_l_next t k) (seq 0 j) K).
  Proof.
    intros Hj. destruct Hk as (Bk & _ & Lk).
    assert (EK : key32l key 8 = K) by (apply key32l_words; [exact Bk|exact Lk]).
    assert (LK : length K = 8%nat) by apply length_le_words.
    rewrite gets_ok.
    - cbn [s trax_k]. rewrite EK. now rewrite (sched_slice trax_l_next 8 trax_next_len 17 0 K j LK Hj).
    - cbn [s trax_k]. rewrite EK.
      assert (G : forall m i k, length k = 8%nat -> length (trax_sched trax_l_next m i k) = (8 * (m + 1))%nat).
      { induction m as [|m IH]; intros i k L; cbn [trax_sched]; [lia|]. rewrite app_length, L, IH by reflexivity. lia. }
      rewrite (G 17%nat 0%nat K LK). lia.
  Qed.
  Lemma run_published : trax_encrypt trax_l s pt = Ok (trax_l_cipher key tw pt).
  Proof.
    destruct Hk as (Bk & _ & Lk). destruct Hp as [Lp Bp].
    assert (RK : regs 32 8 K) by (apply le_words_regs; [now apply bytes_zero_pad|reflexivity]).
    assert (RT : regs 32 4 T) by (apply le_words_regs; [now apply bytes_zero_pad|reflexivity]).
    assert (RP : regs 32 8 P) by (apply le_words_regs; [exact Bp|reflexivity]).
    assert (ET : trax_tweak s = T) by (apply key32l_words; [exact Ht|exact Lt]).
    unfold trax_encrypt, trax_l_cipher. cbv zeta. change (tr_n trax_l) with 8%nat. change (N.to_nat (trax_steps s)) with 17%nat.
    rewrite loads32l_le by (auto; lia). rewrite zero_pad_full by lia. fold P K T.
    destruct (mfor_fold (fun t x kv => regs 32 8 x /\ snd kv = trax_pairs x /\ regs 32 8 (fst kv) /\ fst kv = fold_left (fun k t => trax_l_next t k) (seq 0 t) K)
      17 0 (trax_enc_step trax_l s) (trax_step T) P (K, trax_pairs P)) as (z & -> & Rz & Ez & Rk & Ek).
    - intros t y kv Ht' (Ry & Ev & Rk & Ek). unfold trax_enc_step. change (tr_n trax_l) with 8%nat. rewrite run_key by lia. rewrite <- Ek. cbn [bind].
      destruct kv as [k v]. cbn [fst snd] in *. subst v. change (tr_mix trax_l) with trax_l_mix. eexists. split; [reflexivity|].
      assert (Ry' : regs 32 8 (trax_tw s t y)) by (unfold trax_tw; rewrite ET; destruct (Nat.odd t); [apply xor_front_ok; [exact Ry|apply RT]|exact Ry]).
      destruct (trax_update_eq t k Rk) as [Eu Ru]; [change (2 ^ 32) with 4294967296; lia|].
      split; [now apply trax_l_mix_ok, xor_front_ok; [|apply Rk]|]. unfold trax_step. cbn [fst snd]. split; [|split; [exact Ru|]].
      + rewrite trax_mix_eq by (apply xor_front_ok; [exact Ry'|apply Rk]). rewrite trax_add_eq by assumption. f_equal. f_equal. f_equal.
        unfold trax_tw. rewrite ET. replace (Nat.odd t) with (t mod 2 =? 1)%nat.
        * destruct (t mod 2 =? 1)%nat; [now rewrite trax_tweak_eq|reflexivity].
        * rewrite <- Nat.bit0_mod, Nat.bit0_odd. now destruct (Nat.odd t).
      + rewrite <- Eu, Ek. rewrite seq_S, fold_left_app. reflexivity.
    - split; [exact RP|]. split; [reflexivity|]. split; [exact RK|reflexivity].
    - cbn [bind]. rewrite run_key by lia. change (0 + 17)%nat with 17%nat in Ek, Rk. rewrite <- Ek. cbn [bind].
      destruct (fold_left (trax_step T) (seq 0 17) (K, trax_pairs P)) as [k v]. cbn [fst snd] in *. subst v.
      rewrite <- trax_add_eq by assumption. rewrite stores32l_le. do 2 f_equal.
      assert (Rx : regs 32 8 (xor_front z k)) by (apply xor_front_ok; [exact Rz|apply Rk]).
      clear Ek. set (x := xor_front z k) in *. clearbody x. clear -Rx. list_cases Rx. reflexivity.
  Qed.
End Run.
Lemma trax_l_published : is_trax_cipher trax_l trax_l_cipher.
Proof.
  intros key tw Hk Bt Lt. change (2 * tr_n trax_l)%nat with 16%nat in Lt.
  destruct (trax_perm_tweak trax_l trax_l_good 0 key tw Hk ltac:(reflexivity) Bt Lt) as (s & s' & E1 & E2 & P). exists s, s'.
  split; [exact E1|]. split; [exact E2|].
  assert (Es : s' = {| trax_steps := 17; trax_k := trax_sched trax_l_next 17 0 (key32l key 8); trax_tweak := key32l tw 4 |}).
  { destruct (trax_create_ok trax_l trax_l_good 0 key Hk ltac:(reflexivity)) as [E1' _]. rewrite E1' in E1. apply Ok_inj in E1. subst s.
    unfold trax_set_tweak in E2. destruct (length tw <=? trax_maxtweak trax_l)%nat; [|discriminate E2]. apply Ok_inj in E2. now subst s'. }
  intros pt Hp. assert (Ee : trax_encrypt trax_l s' pt = Ok (trax_l_cipher key tw pt)) by (rewrite Es; now apply run_published).
  split; [exact Ee|]. destruct P as (U & _). destruct (U pt (proj1 Hp) (proj2 Hp)) as (ct & F1 & _ & _ & F2).
  rewrite Ee in F1. apply Ok_inj in F1. now rewrite F1.
Qed.
