From Coq Require Import NArith Arith List Bool Lia.
From Verif Require Import Lib.Word Lib.Res Lib.Bytes Lib.BlockLemmas Lib.Bij Lib.Bits Lib.Lin Lib.Spn Lib.Tele Lib.Feistel Spec.Block
  Model.LoadStore Model.BlockApi Model.Table Model.Anubis Proof.TableP.
Import ListNotations.
Local Open Scope N_scope.

(** the S-box, found in the last byte of ks0 *)
Definition anu_sb (b : N) : N := byte (tab8 anu_ks0 b).
Definition anu_c : list (list N) := Eval vm_compute in map (fun t => cols t anu_sb) [anu_s0; anu_s1; anu_s2; anu_s3].

Lemma anu_sb_bound b : b < 256 -> anu_sb b < 256.
Proof. intros _. apply byte_lt. Qed.
Lemma anu_sb_sb b : b < 256 -> anu_sb (anu_sb b) = b.
Proof.
  intros Hb. apply N.eqb_eq.
  apply (bytes_check (fun b => anu_sb (anu_sb b) =? b)); [vm_compute; reflexivity|exact Hb].
Qed.
Definition anu_col_ (j : nat) : list N := nth j anu_c [].
Lemma anu_lins : tab_lin anu_s0 (anu_col_ 0) anu_sb && tab_lin anu_s1 (anu_col_ 1) anu_sb && tab_lin anu_s2 (anu_col_ 2) anu_sb
  && tab_lin anu_s3 (anu_col_ 3) anu_sb = true.
Proof. vm_compute. reflexivity. Qed.
Lemma anu_msks : tab_msk anu_s0 0xFF000000 24 anu_sb && tab_msk anu_s1 0x00FF0000 16 anu_sb && tab_msk anu_s2 0x0000FF00 8 anu_sb
  && tab_msk anu_s3 0xFF 0 anu_sb = true.
Proof. vm_compute. reflexivity. Qed.

(** the linear layer, on each word *)
Definition anu_lw (x : N) : N := mixw 4 [anu_col_ 0; anu_col_ 1; anu_col_ 2; anu_col_ 3] x.
Lemma anu_lw_inw x : inw 32 (anu_lw x).
Proof.
  apply mixl_inw. repeat (apply Forall_cons; [apply words_okb; vm_compute; reflexivity|]). apply Forall_nil.
Qed.
Lemma anu_lw_lw x : inw 32 x -> anu_lw (anu_lw x) = x.
Proof.
  intros Hx. apply (xlin_ext 32 (fun x => anu_lw (anu_lw x)) (fun x => x)); [|apply xlin_id|vm_compute; reflexivity|exact Hx].
  intros a b _ _. unfold anu_lw. now rewrite !mixw_lxor.
Qed.

(** the S layer, with the transposition *)
Definition anu_sc (sh : N) (x : list N) : N :=
  be_val [anu_sb (byte (wshr (nth 0 x 0) sh)); anu_sb (byte (wshr (nth 1 x 0) sh));
          anu_sb (byte (wshr (nth 2 x 0) sh)); anu_sb (byte (wshr (nth 3 x 0) sh))].
Definition anu_sub (x : list N) : list N := [anu_sc 24 x; anu_sc 16 x; anu_sc 8 x; anu_sc 0 x].

Lemma anu_t_eq sh x : anu_t sh x = anu_lw (anu_sc sh x).
Proof.
  exact (tab4_lin anu_s0 anu_s1 anu_s2 anu_s3 (anu_col_ 0) (anu_col_ 1) (anu_col_ 2) (anu_col_ 3) anu_sb anu_sb anu_sb anu_sb
    anu_sb_bound anu_sb_bound anu_sb_bound anu_sb_bound _ _ _ _ anu_lins).
Qed.
Lemma anu_l_eq sh x : anu_l sh x = anu_sc sh x.
Proof.
  exact (tab4_last anu_s0 anu_s1 anu_s2 anu_s3 anu_sb anu_sb anu_sb anu_sb
    anu_sb_bound anu_sb_bound anu_sb_bound _ _ _ _ anu_msks).
Qed.
Lemma anu_round_eq x : anu_round x = map anu_lw (anu_sub x).
Proof. unfold anu_round, anu_sub. now rewrite !anu_t_eq. Qed.
Lemma anu_last_eq x : anu_last x = anu_sub x.
Proof. unfold anu_last, anu_sub. now rewrite !anu_l_eq. Qed.
Lemma anu_inv_eq x : anu_inv x = mixw 4 [anu_col_ 0; anu_col_ 1; anu_col_ 2; anu_col_ 3] (be_val [byte (wshr x 24); byte (wshr x 16); byte (wshr x 8); byte x]).
Proof.
  assert (Q : forall b, anu_sb (byte (tab8 anu_ks0 b)) = byte b).
  { intros b. transitivity (anu_sb (anu_sb (byte b))); [|apply anu_sb_sb, byte_lt]. f_equal. unfold anu_sb, tab8. now rewrite byte_byte. }
  rewrite <- (Q (wshr x 24)), <- (Q (wshr x 16)), <- (Q (wshr x 8)), <- (Q x) at 1.
  exact (tab4_lin anu_s0 anu_s1 anu_s2 anu_s3 (anu_col_ 0) (anu_col_ 1) (anu_col_ 2) (anu_col_ 3) anu_sb anu_sb anu_sb anu_sb
    anu_sb_bound anu_sb_bound anu_sb_bound anu_sb_bound _ _ _ _ anu_lins).
Qed.
Lemma anu_inv_lw x : inw 32 x -> anu_inv x = anu_lw x.
Proof. intros Hx. rewrite anu_inv_eq, be4_id by exact Hx. reflexivity. Qed.

Lemma anu_sc_inw sh x : inw 32 (anu_sc sh x).
Proof. apply be4_inw; apply anu_sb_bound, byte_lt. Qed.
Lemma anu_sub_regs x : regs 32 4 (anu_sub x).
Proof. split; [reflexivity|]. repeat (apply Forall_cons; [apply anu_sc_inw|]). apply Forall_nil. Qed.
Lemma anu_sub_sub x : regs 32 4 x -> anu_sub (anu_sub x) = x.
Proof.
  intros Hx. list_cases Hx.
  unfold anu_sub at 1. unfold anu_sc at 1 2 3 4. unfold anu_sub. cbn [nth].
  assert (Q : forall sh x,  byte (wshr (anu_sc sh x) 24) = anu_sb (byte (wshr (nth 0 x 0) sh)) /\
    byte (wshr (anu_sc sh x) 16) = anu_sb (byte (wshr (nth 1 x 0) sh)) /\
    byte (wshr (anu_sc sh x) 8) = anu_sb (byte (wshr (nth 2 x 0) sh)) /\
    byte (anu_sc sh x) = anu_sb (byte (wshr (nth 3 x 0) sh))).
  { intros sh x. apply be4_val; apply anu_sb_bound, byte_lt. }
  assert (W0 : forall x, wshr x 0 = x) by (intros x; apply N.shiftr_0_r).
  assert (Q0 : forall sh x, byte (wshr (anu_sc sh x) 24) = anu_sb (byte (wshr (nth 0 x 0) sh))) by (intros sh x; exact (proj1 (Q sh x))).
  assert (Q1 : forall sh x, byte (wshr (anu_sc sh x) 16) = anu_sb (byte (wshr (nth 1 x 0) sh))) by (intros sh x; exact (proj1 (proj2 (Q sh x)))).
  assert (Q2 : forall sh x, byte (wshr (anu_sc sh x) 8) = anu_sb (byte (wshr (nth 2 x 0) sh))) by (intros sh x; exact (proj1 (proj2 (proj2 (Q sh x))))).
  assert (Q3 : forall sh x, byte (anu_sc sh x) = anu_sb (byte (wshr (nth 3 x 0) sh))) by (intros sh x; exact (proj2 (proj2 (proj2 (Q sh x))))).
  rewrite !(W0 (anu_sc _ _)), !Q0, !Q1, !Q2, !Q3. cbn [nth]. rewrite !W0.
  rewrite !anu_sb_sb by apply byte_lt. rewrite !be4_id by assumption. reflexivity.
Qed.

Lemma anu_xor_eq a b : length a = 4%nat -> length b = 4%nat -> anu_xor a b = vxor a b.
Proof.
  intros Ha Hb. do 4 (destruct a as [|? a]; [discriminate Ha|]). destruct a; [|discriminate Ha].
  do 4 (destruct b as [|? b]; [discriminate Hb|]). destruct b; [|discriminate Hb]. reflexivity.
Qed.

(** ** The key schedule *)
Lemma anu_mix_inw t : inw 32 t -> inw 32 (anu_mix t).
Proof.
  intros Ht. unfold anu_mix. repeat apply inw_lor; try apply inw_wshl.
  - apply inw_land; exact Ht.
  - apply tab8_inw. apply words_okb. vm_compute. reflexivity.
Qed.
Lemma anu_ks0_inw b : inw 32 (tab8 anu_ks0 b).
Proof. apply tab8_inw. apply words_okb. vm_compute. reflexivity. Qed.
Lemma anu_col_inw sh kx : inw 32 (anu_col sh kx).
Proof.
  unfold anu_col. generalize (anu_ks0_inw (wshr (nth (length kx - 1) kx 0) sh)).
  generalize (tab8 anu_ks0 (wshr (nth (length kx - 1) kx 0) sh)) as t. generalize (length kx - 1)%nat as n.
  induction n as [|n IH]; intros t Ht; [exact Ht|]. cbn [pford]. apply IH.
  apply inw_lxor; [apply anu_ks0_inw|now apply anu_mix_inw].
Qed.
Lemma anu_rkey_regs kx : regs 32 4 (anu_rkey kx).
Proof. split; [reflexivity|]. repeat (apply Forall_cons; [apply anu_col_inw|]). apply Forall_nil. Qed.
Lemma anu_keys_ok n : forall i kx, (i + n <= 64)%nat ->
  exists ks, anu_keys n i kx = Ok ks /\ length ks = S n /\ Forall (regs 32 4) ks.
Proof.
  induction n as [|n IH]; intros i kx Hi; cbn [anu_keys].
  - eexists. split; [reflexivity|]. split; [reflexivity|]. constructor; [apply anu_rkey_regs|constructor].
  - rewrite (get_ok _ _ 0) by (change (length anu_rc) with 64%nat; lia). cbn [bind].
    destruct (IH (S i) (anu_next kx (nth i anu_rc 0)) ltac:(lia)) as (ks & -> & L & W). cbn [bind].
    eexists. split; [reflexivity|]. split; [cbn [length]; lia|]. constructor; [apply anu_rkey_regs|exact W].
Qed.
Lemma anu_keys_oob n : forall i kx, (i <= 64)%nat -> (64 < i + n)%nat -> anu_keys n i kx = Err OobRead.
Proof.
  induction n as [|n IH]; intros i kx Hi Hn; [lia|]. cbn [anu_keys].
  destruct (Nat.eq_dec i 64) as [->|Ne]; [reflexivity|].
  rewrite (get_ok _ _ 0) by (change (length anu_rc) with 64%nat; lia). cbn [bind]. now rewrite IH by lia.
Qed.

Lemma anu_nth_regs ks i : Forall (regs 32 4) ks -> (i < length ks)%nat -> regs 32 4 (nth i ks []).
Proof. intros H Hi. rewrite Forall_forall in H. apply H. now apply nth_In. Qed.

Lemma anu_crypt_eq k r b : length k = S (N.to_nat r) -> Forall (regs 32 4) k -> 0 < r -> blk 16 b ->
  anu_crypt k r b = Ok (stores store32b (spn vxor (map anu_lw) (fun _ => anu_sub) (N.to_nat r - 1) (fun i => nth i k []) (loads load32b 4 4 b))).
Proof.
  intros Hl Hk Hr Hb. unfold anu_crypt, spn. rewrite (get_ok _ _ []) by lia. cbn [bind].
  rewrite (mfor_ext (N.to_nat r - 1) 1 _ (fun i x => Ok (vxor (map anu_lw (anu_sub x)) (nth i k [])))).
  - rewrite mfor_Ok. cbn [bind]. rewrite (get_ok _ _ []) by lia. cbn [bind].
    rewrite anu_last_eq. replace (S (N.to_nat r - 1)) with (N.to_nat r) by lia.
    rewrite (anu_xor_eq (loads load32b 4 4 b)) by (apply length_loads || (apply anu_nth_regs; [exact Hk|lia])).
    rewrite anu_xor_eq; [reflexivity|reflexivity|apply anu_nth_regs; [exact Hk|lia]].
  - intros j y Hj. rewrite (get_ok _ _ []) by lia. cbn [bind]. rewrite anu_round_eq.
    rewrite anu_xor_eq; [reflexivity|reflexivity|apply anu_nth_regs; [exact Hk|lia]].
Qed.

Lemma anu_map_regs x : regs 32 4 x -> regs 32 4 (map anu_lw x).
Proof.
  intros [L _]. split; [now rewrite map_length|]. apply Forall_forall. intros y Hy. apply in_map_iff in Hy.
  destruct Hy as (z & <- & _). apply anu_lw_inw.
Qed.
Lemma anu_map_xor a : forall b, map anu_lw (vxor a b) = vxor (map anu_lw a) (map anu_lw b).
Proof.
  induction a as [|x a IH]; intros [|y b]; cbn [vxor map]; try reflexivity. rewrite IH. f_equal. apply mixw_lxor.
Qed.
Lemma anu_map_map x : regs 32 4 x -> map anu_lw (map anu_lw x) = x.
Proof.
  intros [_ W]. induction W as [|a l Ha W IH]; [reflexivity|]. cbn [map]. now rewrite IH, anu_lw_lw.
Qed.

Lemma anu_setup_perm q key : 0 < q <= 64 ->
  exists s, anu_setup q key = Ok s /\ permutation 16 (anubis_encrypt s) (anubis_decrypt s).
Proof.
  intros Hq. unfold anu_setup. cbv zeta. set (n := N.to_nat q) in *.
  destruct (anu_keys_ok n 0 (key32b key (anu_words key)) ltac:(lia)) as (k & -> & Hl & Hw). cbn [bind].
  eexists. split; [reflexivity|]. apply perm_of_bij. unfold anubis_encrypt, anubis_decrypt. cbn [anu_k anu_r anu_dk].
  set (dk := nth n k [] :: map (fun i => map anu_inv (nth (n - i) k [])) (seq 1 (n - 1)) ++ [nth 0 k []]).
  assert (Ld : length dk = S n) by (unfold dk; cbn [length]; rewrite app_length, map_length, seq_length; cbn [length]; lia).
  assert (Wd : Forall (regs 32 4) dk).
  { unfold dk. constructor; [apply anu_nth_regs; [exact Hw|lia]|]. apply Forall_app. split.
    - apply Forall_forall. intros y Hy. apply in_map_iff in Hy. destruct Hy as (i & <- & Hi). apply in_seq in Hi.
      assert (R : regs 32 4 (nth (n - i) k [])) by (apply anu_nth_regs; [exact Hw|lia]).
      rewrite (map_ext_in _ anu_lw); [now apply anu_map_regs|]. intros a Ha. apply anu_inv_lw.
      destruct R as [_ R]. unfold words_ok in R. rewrite Forall_forall in R. now apply R.
    - constructor; [apply anu_nth_regs; [exact Hw|lia]|constructor]. }
  assert (B : pbij (regs 32 4) (spn vxor (map anu_lw) (fun _ => anu_sub) (n - 1) (fun i => nth i k []))
                               (spn vxor (map anu_lw) (fun _ => anu_sub) (n - 1) (fun i => nth i dk []))).
  { assert (En : S (n - 1) = n) by lia.
    apply spn_pbij.
    - intros a b Ha Hb. now apply regs_vxor.
    - intros a b [La _] [Lb _]. apply vxor_cancel. lia.
    - intros a Ha. now apply anu_map_regs.
    - intros a b _ _. apply anu_map_xor.
    - intros a Ha. now apply anu_map_map.
    - intros i a _ _. apply anu_sub_regs.
    - intros i a _ _. apply anu_sub_regs.
    - intros i Hi. apply anu_nth_regs; [exact Hw|lia].
    - intros i a _ Ha. now apply anu_sub_sub.
    - intros i a _ Ha. now apply anu_sub_sub.
    - rewrite En. reflexivity.
    - rewrite En. unfold dk. clear - Hq En. destruct n as [|n'] eqn:E; [lia|]. cbn [nth].
      rewrite app_nth2; rewrite map_length, seq_length; [|lia]. replace (n' - (S n' - 1))%nat with 0%nat by lia. reflexivity.
    - intros i Hi. rewrite En. unfold dk. destruct i as [|i]; [lia|]. cbn [nth].
      rewrite app_nth1 by (rewrite map_length, seq_length; lia).
      rewrite (nth_indep _ [] (map anu_inv (nth (n - 0) k []))) by (rewrite map_length, seq_length; lia).
      rewrite (map_nth (fun i => map anu_inv (nth (n - i) k [])) (seq 1 (n - 1)) 0%nat i), seq_nth by lia.
      apply map_ext_in. intros a Ha. apply anu_inv_lw.
      assert (R : regs 32 4 (nth (n - (1 + i)) k [])) by (apply anu_nth_regs; [exact Hw|lia]).
      destruct R as [_ R]. unfold words_ok in R. rewrite Forall_forall in R. now apply R. }
  pose proof (lift_bij (blk 16) (regs 32 4) _ _ _ _ (loads_bij codec32b 4) (pbij_bij _ _ _ B)) as G.
  eapply bij_ext; [| |exact G]; intros x Hx; cbn [bind]; symmetry; apply anu_crypt_eq; try assumption; lia.
Qed.

Lemma anu_fits q : q < 2 ^ 27 - 1 -> 8 * (q + 1) <= wshl 32 (wadd 32 q 1) 5 / 4.
Proof.
  change (2 ^ 27) with 134217728. intros Hq. unfold wshl, wadd. rewrite N.shiftl_mul_pow2. change (2 ^ 5) with 32.
  rewrite !mask_id by (rewrite ?mask_id by (unfold inw; change (2 ^ 32) with 4294967296; lia); unfold inw; change (2 ^ 32) with 4294967296; lia).
  apply N.div_le_lower_bound; lia.
Qed.
Lemma anu_words_bound key : key_ok 40 key -> (1 <= anu_words key <= 10)%nat.
Proof.
  intros [_ Hl]. unfold anu_words. split.
  - apply Nat.div_le_lower_bound; lia.
  - apply Nat.lt_succ_r. apply Nat.div_lt_upper_bound; lia.
Qed.

Lemma anubis_perm r key : key_ok 40 key -> r <= 64 ->
  exists s, anubis_create r key = Ok s /\ permutation 16 (anubis_encrypt s) (anubis_decrypt s).
Proof.
  intros Hk Hr. unfold anubis_create. rewrite assert_true by now apply key_len_ok_true. cbv zeta.
  pose proof (anu_words_bound key Hk) as Hn.
  assert (R : 0 < anubis_rounds r key <= 64) by (unfold anubis_rounds; destruct (N.eqb_spec r 0); lia).
  rewrite fits_ok by (apply anu_fits; change (2 ^ 27) with 134217728; lia).
  now apply anu_setup_perm.
Qed.

(** more than 64 rounds read behind the round constants *)
Lemma anubis_many_rounds r key : key_ok 40 key -> 64 < r < 2 ^ 27 - 1 -> anubis_create r key = Err OobRead.
Proof.
  intros Hk Hr. unfold anubis_create. rewrite assert_true by now apply key_len_ok_true. cbv zeta.
  unfold anubis_rounds. rewrite (proj2 (N.eqb_neq r 0)) by lia. rewrite fits_ok by (apply anu_fits; lia).
  unfold anu_setup. cbv zeta. rewrite anu_keys_oob by lia. reflexivity.
Qed.
