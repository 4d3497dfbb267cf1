(** SM4 is the cipher of the standard. *)
From Coq Require Import NArith Arith List Bool Lia.
From Verif Require Import Lib.Word Lib.Res Lib.Bytes Lib.Bits Lib.Lists Lib.BlockLemmas Lib.Lin Lib.WordSpec Lib.WordsP Lib.XorSolve
  Spec.Words Spec.Block Spec.Arx Spec.Gf Spec.Affine Spec.Pub1 Spec.Rounds Model.LoadStore Model.BlockApi Model.Table Model.Sm4 Model.Ciphers
  Proof.LoadStoreP Proof.Sha1P Proof.ArxP Proof.LeaPubP Proof.PubLib Proof.TableP Proof.Sm4P Proof.RekeyP Proof.CiphersP.
Import ListNotations.
Local Open Scope N_scope.

Lemma sm4_s_table : is_table sm4_s sm4_sbox = true. Proof. vm_compute. reflexivity. Qed.
Lemma sm4_tau_bytes x : sm4_tau x = on_bytes 4 sm4_sbox x.
Proof.
  unfold sm4_tau, on_bytes. rewrite be4. cbn [map]. rewrite <- !(tab8_fun sm4_s sm4_sbox) by exact sm4_s_table.
  apply be4_lor; apply (tab8_inw 8), sm4_s_inw.
Qed.
Lemma sm4_l_T x : sm4_l (sm4_tau x) = sm4_T x.
Proof. unfold sm4_l, sm4_T. cbv zeta. rewrite !rol_rotl by (apply sm4_tau_inw || lia). now rewrite sm4_tau_bytes. Qed.
Lemma sm4_ls_T x : sm4_ls (sm4_tau x) = sm4_T' x.
Proof. unfold sm4_ls, sm4_T'. cbv zeta. rewrite !rol_rotl by (apply sm4_tau_inw || lia). now rewrite sm4_tau_bytes. Qed.

Lemma sm4_quad_next f T k0 k1 k2 k3 x : (forall a b c d k, f a b c d k = N.lxor a (T (N.lxor (N.lxor (N.lxor b c) d) k))) ->
  list4 (sm4_quad f k0 k1 k2 k3 x) = sm4_next T (sm4_next T (sm4_next T (sm4_next T (list4 x) k0) k1) k2) k3.
Proof. intros H. destruct x as [[[a b] c] d]. unfold sm4_quad. cbv zeta. rewrite !H. reflexivity. Qed.

Lemma sm4_load16 key : bytes_ok key -> length key = 16%nat -> sm4_load key = xor_list (be_words 4 4 key) sm4_FK.
Proof.
  intros B L. do 16 (destruct key as [|? key]; [discriminate L|]). destruct key; [|discriminate L].
  unfold bytes_ok in B. repeat match goal with H : Forall _ (_ :: _) |- _ => inversion H; clear H; subst end.
  match goal with |- sm4_load [?a; ?b; ?c; ?d; ?e; ?f; ?g; ?h; ?i; ?j; ?k; ?l; ?m; ?n; ?o; ?p] = _ =>
    assert (E : sm4_load [a; b; c; d; e; f; g; h; i; j; k; l; m; n; o; p] =
      [N.lxor (N.lxor (N.lxor (N.lxor 0xA3B1BAC6 (wshl 32 a 24)) (wshl 32 b 16)) (wshl 32 c 8)) (wshl 32 d 0);
       N.lxor (N.lxor (N.lxor (N.lxor 0x56AA3350 (wshl 32 e 24)) (wshl 32 f 16)) (wshl 32 g 8)) (wshl 32 h 0);
       N.lxor (N.lxor (N.lxor (N.lxor 0x677D9197 (wshl 32 i 24)) (wshl 32 j 16)) (wshl 32 k 8)) (wshl 32 l 0);
       N.lxor (N.lxor (N.lxor (N.lxor 0xB27022DC (wshl 32 m 24)) (wshl 32 n 16)) (wshl 32 o 8)) (wshl 32 p 0)]) by reflexivity;
    assert (E2 : be_words 4 4 [a; b; c; d; e; f; g; h; i; j; k; l; m; n; o; p] =
      [be_val [a; b; c; d]; be_val [e; f; g; h]; be_val [i; j; k; l]; be_val [m; n; o; p]]) by reflexivity
  end.
  rewrite E, E2. unfold xor_list, sm4_FK. cbn [combine map fst snd].
  assert (Z : forall a, a < 256 -> wshl 32 a 0 = a) by (intros a Ha; rewrite wshl_byte by lia; apply N.shiftl_0_r).
  rewrite !be4_shifts, !Z by assumption. repeat (apply f_equal2; [xor_solve|]). reflexivity.
Qed.
Lemma sm4_ck_CK : sm4_ck = map sm4_CK (seq 0 32). Proof. vm_compute. reflexivity. Qed.

Definition sm4_kstep (s : list N * list N) (c : N) : list N * list N := let K := sm4_next sm4_T' (fst s) c in (K, snd s ++ [word K 3]).
Lemma sm4_next4 T X a b c d : exists x0 x1 x2 x3,
  word (sm4_next T X a) 3 = x0 /\ word (sm4_next T (sm4_next T X a) b) 3 = x1 /\ word (sm4_next T (sm4_next T (sm4_next T X a) b) c) 3 = x2 /\
  sm4_next T (sm4_next T (sm4_next T (sm4_next T X a) b) c) d = [x0; x1; x2; x3].
Proof. do 4 eexists. repeat split. Qed.
Definition sm4_kstep4 (s : list N * list N) (i : nat) : list N * list N :=
  sm4_kstep (sm4_kstep (sm4_kstep (sm4_kstep s (sm4_CK (4 * i))) (sm4_CK (4 * i + 1))) (sm4_CK (4 * i + 2))) (sm4_CK (4 * i + 3)).
Lemma sm4_CK_nth j : (j < 32)%nat -> nth j sm4_ck 0 = sm4_CK j.
Proof.
  intros Hj. rewrite sm4_ck_CK. rewrite (nth_indep _ 0 (sm4_CK 0)) by (rewrite map_length, seq_length; exact Hj).
  rewrite map_nth, seq_nth by exact Hj. reflexivity.
Qed.
Lemma sm4_kstep_four c0 c1 c2 c3 x s a b c d : fst s = list4 x -> list4 (sm4_quad sm4_fs c0 c1 c2 c3 x) = [a; b; c; d] ->
  sm4_kstep (sm4_kstep (sm4_kstep (sm4_kstep s c0) c1) c2) c3 = ([a; b; c; d], snd s ++ [a; b; c; d]).
Proof.
  intros Hx Q. rewrite (sm4_quad_next sm4_fs sm4_T' c0 c1 c2 c3 x (fun a b c d k => f_equal (N.lxor a) (sm4_ls_T _))) in Q.
  unfold sm4_kstep. cbn [fst snd]. rewrite Hx.
  destruct (sm4_next4 sm4_T' (list4 x) c0 c1 c2 c3) as (x0 & x1 & x2 & x3 & E0 & E1 & E2 & E3).
  rewrite E0, E1, E2, E3 in *. rewrite <- !app_assoc. cbn [app]. injection Q as -> -> -> ->. reflexivity.
Qed.
Lemma sm4_step_kstep i ks x s : (i < 8)%nat -> snd s = ks -> fst s = list4 x ->
  exists y, sm4_step i (ks, x) = Ok y /\ snd (sm4_kstep4 s i) = fst y /\ fst (sm4_kstep4 s i) = list4 (snd y).
Proof.
  intros Hi <- Hx. unfold sm4_step. rewrite !(get_ok _ _ 0) by (change (length sm4_ck) with 32%nat; lia). cbn [bind fst snd].
  rewrite !sm4_CK_nth by lia. unfold sm4_kstep4.
  generalize (sm4_CK (4 * i)) as c0, (sm4_CK (4 * i + 1)) as c1, (sm4_CK (4 * i + 2)) as c2, (sm4_CK (4 * i + 3)) as c3. intros c0 c1 c2 c3.
  pose proof (sm4_kstep_four c0 c1 c2 c3 x s) as Q.
  destruct (sm4_quad sm4_fs c0 c1 c2 c3 x) as [[[a b] c] d]. eexists. split; [reflexivity|].
  rewrite (Q a b c d Hx eq_refl). split; reflexivity.
Qed.
Lemma length_kstep l : forall s, length (snd (fold_left sm4_kstep l s)) = (length (snd s) + length l)%nat.
Proof.
  induction l as [|c l IH]; intros s; cbn [fold_left length]; [lia|]. rewrite IH. unfold sm4_kstep. cbn [snd]. rewrite app_length. cbn [length]. lia.
Qed.
Definition sm4_keyrun (m : nat) (X : list N) : list N := snd (fold_left sm4_kstep (map sm4_CK (seq (4 * 0) (4 * m))) (X, [])).
Lemma length_keyrun m X : length (sm4_keyrun m X) = (4 * m)%nat.
Proof. unfold sm4_keyrun. rewrite length_kstep, map_length, seq_length. reflexivity. Qed.
Lemma sm4_keys_run m key : sm4_keys_any (4 * m) key = sm4_keyrun m (xor_list (be_words 4 4 key) sm4_FK).
Proof.
  unfold sm4_keyrun. rewrite fold_left_map. unfold sm4_keys_any, sm4_kstep. generalize (xor_list (be_words 4 4 key) sm4_FK) as X. intros X.
  change (4 * 0)%nat with 0%nat. generalize (seq 0 (4 * m)) as l. reflexivity.
Qed.
Lemma sm4_sched_run m x : (m <= 8)%nat -> exists z, mfor m 0 sm4_step ([], x) = Ok z /\ fst z = sm4_keyrun m (list4 x).
Proof.
  intros Hm. unfold sm4_keyrun. rewrite fold_left_map, fold_fours.
  destruct (mfor_fold (fun _ y u => snd u = fst y /\ fst u = list4 (snd y)) m 0%nat sm4_step sm4_kstep4 ([], x) (list4 x, [])) as (z & Ez & Hz & _).
  - intros t y u Ht [H1 H2]. destruct y as [ks y]. cbn [fst snd] in *. apply sm4_step_kstep; [lia|exact H1|exact H2].
  - split; reflexivity.
  - exists z. split; [exact Ez|]. rewrite <- Hz. f_equal.
Qed.
Lemma sm4_quads r m ks pt : N.to_nat ((r + 3) / 4) = m -> length ks = (4 * m)%nat -> blk 16 pt ->
  sm4_encrypt {| sm4_r := r; sm4_k := ks |} pt = Ok (be_string 4 (rev (fold_left (sm4_next sm4_T) ks (be_words 4 4 pt)))).
Proof.
  intros Hm L Hp. unfold sm4_encrypt. cbn [sm4_r sm4_k]. rewrite Hm.
  assert (E : map (word ks) (seq (4 * 0) (4 * m)) = ks) by (apply (map_nth_seq ks (4 * m) 0); symmetry; exact L).
  match goal with |- context [fold_left ?g ks ?v] => replace (fold_left g ks v) with (fold_left g (map (word ks) (seq (4 * 0) (4 * m))) v) by (rewrite E; reflexivity) end.
  rewrite fold_left_map, fold_fours. rewrite ld4_be32 by exact Hp.
  match goal with |- context [mfor m 0 ?f ?x] => match goal with |- context [fold_left ?g (seq 0 m) ?v] =>
    destruct (mfor_fold (fun _ y u => u = list4 y) m 0%nat f g x v) as (z & Ez & Hz) end end.
  - intros t y u Ht ->. rewrite !(get_ok ks _ 0) by lia. cbn [bind]. eexists. split; [reflexivity|].
    symmetry. exact (sm4_quad_next sm4_f sm4_T _ _ _ _ y (fun a b c d k => f_equal (N.lxor a) (sm4_l_T _))).
  - reflexivity.
  - rewrite Ez. cbn [bind]. rewrite Hz. destruct z as [[[a b] c] d]. unfold sm4_rev. now rewrite st4_be32.
Qed.
Lemma sm4_setup_inv room r m key s : N.to_nat ((r + 3) / 4) = m -> sm4_setup room r key = Ok s ->
  let k := sm4_load key in exists z, mfor m 0 sm4_step ([], (nth 0 k 0, nth 1 k 0, nth 2 k 0, nth 3 k 0)) = Ok z /\ s = {| sm4_r := r; sm4_k := fst z |}.
Proof.
  intros Hm Es. unfold sm4_setup in Es. cbv zeta in Es. apply fits_inv in Es. destruct Es as [_ Es].
  rewrite Hm in Es. cbv zeta. destruct (mfor m 0 sm4_step _) as [z|e]; [|discriminate Es].
  cbn [bind] in Es. apply Ok_inj in Es. exists z. split; [reflexivity|now symmetry].
Qed.
Lemma sm4_create_inv key s : sm4_create 0 key = Ok s -> exists room, sm4_setup room 32 key = Ok s.
Proof.
  intros Es. unfold sm4_create in Es. apply assert_inv in Es. destruct Es as [_ Es]. eexists. exact Es.
Qed.
Lemma sm4_any_enc room r m key s pt : N.to_nat ((r + 3) / 4) = m -> (m <= 8)%nat -> bytes_ok key -> (length key <= 16)%nat -> sm4_setup room r key = Ok s -> blk 16 pt ->
  sm4_encrypt s pt = Ok (sm4_any (4 * m) key pt).
Proof.
  intros Hm Hm8 Hb Hk Es Hp. apply (sm4_setup_inv room r m key s Hm) in Es. cbv zeta in Es. destruct Es as (z & Ez & ->).
  assert (EL : sm4_load key = xor_list (be_words 4 4 (zero_pad 16 key)) sm4_FK).
  { rewrite <- sm4_load16; [|apply bytes_zero_pad, Hb|apply length_zero_pad; exact Hk]. unfold zero_pad. now rewrite sm4_load_zeros. }
  unfold sm4_any. rewrite sm4_keys_run, <- EL.
  assert (L4 : length (sm4_load key) = 4%nat) by (rewrite EL; reflexivity).
  set (K := sm4_load key) in *. clearbody K. do 4 (destruct K as [|? K]; [discriminate L4|]). destruct K; [|discriminate L4].
  cbn [nth] in Ez. destruct (sm4_sched_run m (n, n0, n1, n2) Hm8) as (z' & Ez' & Hz).
  rewrite Ez in Ez'. apply Ok_inj in Ez'. subst z'. rewrite Hz. exact (sm4_quads r m _ _ Hm (length_keyrun m _) Hp).
Qed.
Lemma sm4_any_32 key pt : sm4_any 32 key pt = sm4_cipher key pt.
Proof. unfold sm4_any, sm4_cipher, sm4_keys_any, sm4_keys. generalize (seq 0 32) as l. reflexivity. Qed.
Lemma sm4_published : is_cipher sm4_desc (up_to 16) sm4_cipher.
Proof.
  apply (is_cipher_default _ _ _ sm4_default); [intros key Hk; exact Hk|].
  intros key s Hb Hk Es pt Hp. apply sm4_create_inv in Es. destruct Es as (room & Es). rewrite <- sm4_any_32.
  change (bc_enc sm4_desc) with sm4_encrypt. exact (sm4_any_enc room 32 8 key s pt eq_refl ltac:(lia) Hb (proj2 Hk) Es Hp).
Qed.
