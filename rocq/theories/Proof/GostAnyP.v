(** GOST with any key and any even number of rounds. *)
From Coq Require Import NArith PArith Arith List Bool Lia.
From Verif Require Import Lib.Word Lib.Res Lib.Bytes Lib.Lists Lib.WordSpec Lib.WordsP Lib.BlockLemmas Spec.Words Spec.Block Spec.Cipher Spec.Arx Spec.GostAny
  Model.LoadStore Model.BlockApi Model.Gost Proof.LoadStoreP Proof.GostP Proof.Sha1P Proof.RekeyP Proof.ArxP Proof.LeaPubP.
Import ListNotations.
Local Open Scope N_scope.

Lemma nth_map_seq (f : nat -> N) n i : (i < n)%nat -> nth i (map f (seq 0 n)) 0 = f i.
Proof. intros H. rewrite (nth_indep _ 0 (f 0%nat)) by now rewrite map_length, seq_length. rewrite (map_nth f), seq_nth by lia. reflexivity. Qed.
Lemma gost_keys_any K n r : length K = n -> (0 < n)%nat -> (2 * n <= r)%nat ->
  K ++ map (fun m => nth (m mod n) K 0) (seq 0 (r - 2 * n)) ++ rev K = map (word K) (gost_order_any n r).
Proof.
  intros L H0 Hr. apply (nth_ext _ _ 0 0).
  - rewrite !app_length, rev_length, !map_length. unfold gost_order_any. rewrite map_length, !seq_length. lia.
  - intros i Hi. rewrite !app_length, rev_length, map_length, seq_length in Hi.
    unfold gost_order_any. rewrite map_map, (nth_map_seq _ r i) by lia. unfold word.
    destruct (Nat.ltb_spec i n) as [H1|H1].
    + rewrite app_nth1 by lia. rewrite (proj2 (Nat.ltb_lt i (r - n))) by lia. now rewrite Nat.mod_small by lia.
    + rewrite app_nth2 by lia. rewrite L. destruct (Nat.ltb_spec i (r - n)) as [H2|H2].
      * rewrite app_nth1 by (rewrite map_length, seq_length; lia).
        rewrite nth_map_seq by lia. f_equal.
        replace i with ((i - n) + 1 * n)%nat at 2 by lia. now rewrite Nat.mod_add by lia.
      * rewrite app_nth2 by (rewrite map_length, seq_length; lia). rewrite map_length, seq_length. rewrite rev_nth by lia. f_equal. lia.
Qed.
Lemma length_order n r : length (gost_order_any n r) = r.
Proof. unfold gost_order_any. now rewrite map_length, seq_length. Qed.
Lemma gost_any_ok sb r key s pt m : nibbles sb -> bytes_ok key -> gost_create sb r key = Ok s -> gost_rounds r = 2 * N.of_nat m -> blk 8 pt ->
  gost_encrypt s pt = Ok (gost_any sb (2 * m) key pt).
Proof.
  intros Hs Hb Es Er Hp. unfold gost_create in Es. apply assert_inv in Es. destruct Es as [Hk Es].
  apply fits_inv in Es. destruct Es as [_ Es]. apply fits_inv in Es. destruct Es as [Hf Es]. apply Ok_inj in Es. subst s.
  rewrite Er in *. apply N.leb_le in Hf. unfold key_len_ok in Hk. apply andb_prop in Hk. destruct Hk as [Hk _]. apply Nat.ltb_lt in Hk.
  unfold gost_encrypt, gost_setup. cbn [gost_k gost_r gost_s].
  replace (N.to_nat ((2 * N.of_nat m + 1) / 2)) with m by (rewrite N.mul_comm, N.div_add_l by discriminate; change (1 / 2) with 0; lia).
  assert (Hn : (0 < gost_kl key)%nat) by (unfold gost_kl; apply Nat.div_str_pos; lia).
  assert (Hl : (length key <= 4 * gost_kl key)%nat) by (unfold gost_kl; pose proof (Nat.div_mod (length key + 3) 4 ltac:(discriminate)); pose proof (Nat.mod_upper_bound (length key + 3) 4 ltac:(discriminate)); lia).
  rewrite (key32l_words key (gost_kl key)) by assumption. replace (N.to_nat (2 * N.of_nat m)) with (2 * m)%nat by lia.
  rewrite gost_keys_any by (apply length_le_words || lia). unfold gost_any. fold (gost_kl key). rewrite ld2_le32 by exact Hp.
  set (KS := map (word (le_words 4 (gost_kl key) _)) _).
  assert (LK : length KS = (2 * m)%nat) by (unfold KS; rewrite map_length; apply length_order). clearbody KS.
  assert (EK : map (word KS) (seq 0 (2 * m)) = KS) by (apply (map_nth_seq KS (2 * m) 0); now rewrite LK).
  match goal with |- context [fold_left ?g KS ?v] => replace (fold_left g KS v) with (fold_left g (map (word KS) (seq 0 (2 * m))) v) by now rewrite EK end.
  rewrite fold_left_map. rewrite (fold_twos _ m 0).
  match goal with |- context [mfor ?n 0 ?f ?x] => match goal with |- context [fold_left ?g _ ?v] =>
    destruct (mfor_fold (fun _ y u => y = u) n 0%nat f g x v) as (z & Ez & Hz) end end.
  - intros t y u Ht ->. rewrite !(get_ok KS _ 0) by lia. cbn [bind]. eexists. split; [reflexivity|].
    unfold gost_step, gost_round, word. rewrite !gost_f_fn by exact Hs. cbn [fst snd]. rewrite !add32_wadd. reflexivity.
  - reflexivity.
  - rewrite Ez. cbn [bind]. rewrite Hz. cbn [Nat.add]. now rewrite st2_le32.
Qed.
