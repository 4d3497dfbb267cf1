(** Khazad is the published cipher; linear maps over GF(2^8) on words and on byte strings. *)
From Coq Require Import NArith Arith List Bool Lia.
From Verif Require Import Lib.Word Lib.Res Lib.Bytes Lib.Bits Lib.Bij Lib.Lists Lib.BlockLemmas Lib.Lin Lib.Spn Lib.GfP Lib.WordSpec Lib.WordsP Lib.XorBytes
  Spec.Words Spec.Block Spec.Arx Spec.Gf Spec.Affine Spec.Pub3 Model.LoadStore Model.BlockApi Model.Table Model.Khazad Model.Ciphers
  Proof.LoadStoreP Proof.Sha1P Proof.ArxP Proof.PubLib Proof.TableP Proof.KhazadP Proof.RekeyP Proof.CiphersP.
Import ListNotations.
Local Open Scope N_scope.

Lemma xor_list_vxor a : forall b, xor_list a b = vxor a b.
Proof. induction a as [|x a IH]; intros [|y b]; try reflexivity. unfold xor_list. cbn [combine map fst snd vxor]. f_equal. apply IH. Qed.
Lemma be_id n w x : w = 8 * N.of_nat n -> inw w x -> be_val (be_bytes n x) = x.
Proof. intros -> H. rewrite be_val_bytes. apply N.mod_small. unfold inw in H. rewrite N.pow_mul_r in H. exact H. Qed.
Lemma be_val_vxor n a b : regs 8 n a -> regs 8 n b -> be_val (vxor a b) = N.lxor (be_val a) (be_val b).
Proof.
  intros [La Ba] [Lb Bb]. assert (Ba' : bytes_ok a) by exact Ba. assert (Bb' : bytes_ok b) by exact Bb.
  rewrite <- (be_bytes_val a Ba'), <- (be_bytes_val b Bb') at 1. rewrite La, Lb, <- be_bytes_lxor.
  apply (be_id n (8 * N.of_nat n)); [reflexivity|]. apply inw_lxor; apply (be_val_inw n); auto; lia.
Qed.
Lemma be_bytes_regs n x : regs 8 n (be_bytes n x).
Proof. split; [apply length_be_bytes|exact (bytes_be_bytes n x)]. Qed.
Lemma gmat_gf_mat p m l : gmat p m l = gf_mat p m l. Proof. reflexivity. Qed.

(** a matrix over GF(2^8) on the bytes of a word, compared on unit vectors *)
Lemma mat_words n w p m cs : poly8 p -> length m = n -> w = 8 * N.of_nat n ->
  forallb (fun i => mixw n cs (2 ^ N.of_nat i) =? be_val (gf_mat p m (be_bytes n (2 ^ N.of_nat i)))) (seq 0 (N.to_nat w)) = true ->
  forall x, inw w x -> be_bytes n (mixw n cs x) = gf_mat p m (be_bytes n x).
Proof.
  intros P L Hw C x Hx.
  rewrite (xlin_ext w (mixw n cs) (fun x => be_val (gf_mat p m (be_bytes n x))) (mixw_xlin w n cs)); [| |exact C|exact Hx].
  - pose proof (gmat_regs p m _ n P (be_bytes_regs n x) L) as [Lg Bg]. rewrite gmat_gf_mat in *. rewrite <- Lg at 1. apply be_bytes_val. exact Bg.
  - intros a b _ _. rewrite <- !gmat_gf_mat. rewrite be_bytes_lxor. rewrite (proj2 (gmat_vlin p m n P L)) by apply be_bytes_regs.
    apply (be_val_vxor n); apply gmat_regs; auto using be_bytes_regs.
Qed.

(** ** The layers *)
Lemma khz_s_pub b : b < 256 -> khz_s b = khazad_S b.
Proof. intros Hb. apply N.eqb_eq. apply (bytes_check (fun b => khz_s b =? khazad_S b)); [vm_compute; reflexivity|exact Hb]. Qed.
Lemma khz_sub_pub x : be_bytes 8 (khz_sub x) = khazad_gamma (be_bytes 8 x).
Proof.
  unfold khz_sub, khazad_gamma. rewrite be_bytes_subw by exact khz_s_bound. apply map_ext_in. intros b Hb. apply khz_s_pub.
  pose proof (bytes_be_bytes 8 x) as B. unfold bytes_ok in B. rewrite Forall_forall in B. now apply B.
Qed.
Lemma khazad_poly8 : poly8 khazad_poly.
Proof. split; [discriminate|reflexivity]. Qed.
Lemma khz_l_check : forallb (fun i => mixw 8 khz_c (2 ^ N.of_nat i) =? be_val (gf_mat khazad_poly (hadamard [1; 3; 4; 5; 6; 8; 11; 7]) (be_bytes 8 (2 ^ N.of_nat i)))) (seq 0 64) = true.
Proof. vm_compute. reflexivity. Qed.
Lemma khz_l_pub x : inw 64 x -> be_bytes 8 (khz_l x) = khazad_theta (be_bytes 8 x).
Proof. intros Hx. exact (mat_words 8 64 khazad_poly (hadamard [1; 3; 4; 5; 6; 8; 11; 7]) khz_c khazad_poly8 eq_refl eq_refl khz_l_check x Hx). Qed.
Lemma khz_rho k x : be_bytes 8 (N.lxor (khz_t x) k) = khazad_rho (be_bytes 8 k) (be_bytes 8 x).
Proof.
  rewrite khz_t_eq. unfold khazad_rho. rewrite be_bytes_lxor, xor_list_vxor. rewrite khz_l_pub by apply khz_sub_inw. now rewrite khz_sub_pub.
Qed.
Lemma khz_rho' k x : be_bytes 8 (N.lxor (khz_l (khz_sub x)) k) = khazad_rho (be_bytes 8 k) (be_bytes 8 x).
Proof. rewrite <- khz_t_eq. apply khz_rho. Qed.

(** ** The keys *)
Lemma khz_rc_pub : forallb (fun r => forallb (fun p => fst p =? snd p) (combine (be_bytes 8 (nth r khz_rc 0)) (khazad_const r))) (seq 0 9) = true.
Proof. vm_compute. reflexivity. Qed.
Lemma eqb_list a : forall b, length a = length b -> forallb (fun p => fst p =? snd p) (combine a b) = true -> a = b.
Proof.
  induction a as [|x a IH]; intros [|y b] L H; try discriminate L; [reflexivity|]. cbn [combine forallb fst snd] in H.
  apply andb_prop in H. destruct H as [E H]. apply N.eqb_eq in E. subst y. f_equal. apply IH; [now injection L|exact H].
Qed.
Lemma khz_rc_eq r : (r < 9)%nat -> be_bytes 8 (nth r khz_rc 0) = khazad_const r.
Proof.
  intros Hr. pose proof khz_rc_pub as H. rewrite forallb_forall in H. apply eqb_list.
  - rewrite length_be_bytes. unfold khazad_const. now rewrite map_length, seq_length.
  - apply H, in_seq. lia.
Qed.
Lemma khz_keys_pub n : forall i L k0 k1 ks, length L = (i + 2)%nat -> (i + n <= 9)%nat ->
  nth (i + 1) L [] = be_bytes 8 k0 -> nth i L [] = be_bytes 8 k1 -> khz_keys n i k0 k1 = Ok ks ->
  fold_left (fun k r => k ++ [xor_list (khazad_rho (khazad_const r) (nth (r + 1) k [])) (nth r k [])]) (seq i n) L = L ++ map (be_bytes 8) ks.
Proof.
  induction n as [|n IH]; intros i L k0 k1 ks HL Hi E0 E1 E; cbn [khz_keys] in E.
  - apply Ok_inj in E. subst ks. cbn [seq fold_left map]. now rewrite app_nil_r.
  - rewrite (get_ok _ _ 0) in E by (change (length khz_rc) with 9%nat; lia). cbn [bind] in E. cbn [seq fold_left].
    set (k := N.lxor (N.lxor (khz_t k0) (nth i khz_rc 0)) k1) in *.
    destruct (khz_keys n (S i) k k0) as [ks'|e] eqn:E'; [|discriminate E]. cbn [bind] in E. apply Ok_inj in E. subst ks.
    assert (K : xor_list (khazad_rho (khazad_const i) (nth (i + 1) L [])) (nth i L []) = be_bytes 8 k).
    { unfold k. rewrite be_bytes_lxor, khz_rho, E0, E1, khz_rc_eq by lia. apply xor_list_vxor. }
    rewrite K. cbn [map]. change (be_bytes 8 k :: map (be_bytes 8) ks') with ([be_bytes 8 k] ++ map (be_bytes 8) ks'). rewrite app_assoc.
    apply (IH (S i) (L ++ [be_bytes 8 k]) k k0 ks'); [rewrite app_length, HL; cbn [length]; lia|lia| | |exact E'].
    + rewrite app_nth2 by lia. rewrite HL. replace (S i + 1 - (i + 2))%nat with 0%nat by lia. reflexivity.
    + rewrite app_nth1 by lia. replace (S i) with (i + 1)%nat by lia. exact E0.
Qed.
Lemma khazad_create_gen r key s : khazad_create r key = Ok s -> khz_setup (khazad_rounds r) key = Ok s.
Proof. intros H. unfold khazad_create in H. apply assert_inv in H. destruct H as [_ H]. cbv zeta in H. apply fits_inv in H. exact (proj2 H). Qed.
Lemma khazad_create_inv key s : khazad_create 0 key = Ok s -> khz_setup 8 key = Ok s.
Proof. exact (khazad_create_gen 0 key s). Qed.
Lemma pfor_map {A B} (h : A -> B) f g n : forall i x, (forall j x, (i <= j < i + n)%nat -> h (f j x) = g (h x) j) ->
  h (pfor n i f x) = fold_left g (seq i n) (h x).
Proof.
  induction n as [|n IH]; intros i x H; [reflexivity|]. cbn [pfor seq fold_left].
  rewrite IH by (intros j y Hj; apply H; lia). now rewrite H by lia.
Qed.
Lemma khazad_fold n i (K : nat -> N) (K' : nat -> list N) x : (forall r, (i <= r < i + n)%nat -> be_bytes 8 (K r) = K' r) ->
  be_bytes 8 (pfor n i (fun i x => N.lxor (khz_l (khz_sub x)) (K i)) x) = fold_left (fun a r => khazad_rho (K' r) a) (seq i n) (be_bytes 8 x).
Proof.
  intros H. apply (pfor_map (be_bytes 8)). intros j y Hj. rewrite <- (H j Hj). apply khz_rho'.
Qed.

Lemma khazad_published : is_cipher khazad_desc (up_to 16) khazad_cipher.
Proof.
  apply (is_cipher_default _ _ _ khazad_default); [intros key Hk; exact Hk|].
  intros key s Hb Hk Es pt Hp. apply khazad_create_inv in Es. unfold up_to in Hk.
  change (bc_enc khazad_desc) with khazad_encrypt. destruct Hp as [Lp Bp]. change (bc_bs khazad_desc) with 8%nat in Lp.
  unfold khz_setup in Es. destruct (khz_key_inw key Hb) as [H0 H1]. destruct (khz_key key) as [k0 k1] eqn:Ek. cbn [fst snd] in H0, H1.
  destruct (khz_keys_ok (S (N.to_nat 8)) 0 k0 k1 ltac:(lia) H0 H1) as (ks & Eks & Lks & Wks). rewrite Eks in Es. cbn [bind] in Es. apply Ok_inj in Es. subst s.
  unfold khazad_encrypt. cbn [khz_k khz_r]. rewrite khz_crypt_eq by (auto; lia). f_equal. rewrite store64b_bytes.
  assert (Z : key ++ repeat 0 (16 - length key) = zero_pad 16 key) by reflexivity.
  unfold khz_key in Ek. rewrite Z in Ek. pose proof (bytes_zero_pad 16 key Hb) as BZ. pose proof (length_zero_pad 16 key (proj2 Hk)) as LZ.
  assert (SL : forall o, (o + 8 <= 16)%nat -> be_bytes 8 (load64b (zero_pad 16 key) o) = slice o 8 (zero_pad 16 key)).
  { intros o Ho. rewrite <- store64b_bytes. apply (c_stld _ _ _ _ codec64b); [exact BZ|lia]. }
  injection Ek as <- <-.
  unfold khazad_cipher. cbv zeta. unfold khazad_keys.
  rewrite (khz_keys_pub 9 0 [slice 0 8 (zero_pad 16 key); slice 8 8 (zero_pad 16 key)] (load64b (zero_pad 16 key) 8) (load64b (zero_pad 16 key) 0) ks);
    [|reflexivity|lia|symmetry; apply SL; lia|symmetry; apply SL; lia|exact Eks].
  set (K := fun i => nth i ks 0). set (K' := fun r => nth (r + 2) ([slice 0 8 (zero_pad 16 key); slice 8 8 (zero_pad 16 key)] ++ map (be_bytes 8) ks) []).
  assert (KK : forall r, (r < 9)%nat -> be_bytes 8 (K r) = K' r).
  { intros r Hr. unfold K, K'. rewrite app_nth2 by (cbn [length]; lia). cbn [length]. replace (r + 2 - 2)%nat with r by lia.
    rewrite (nth_indep _ [] (be_bytes 8 0)) by (rewrite map_length; lia). symmetry. apply map_nth. }
  unfold spn. change (N.to_nat 8 - 1)%nat with 7%nat. fold K. cbv beta.
  assert (X : be_bytes 8 (load64b pt 0) = pt).
  { rewrite <- store64b_bytes. rewrite (c_stld _ _ _ _ codec64b) by (auto; lia). unfold slice. cbn [skipn]. apply firstn_all2. lia. }
  change (nth 0 ks 0) with (K 0%nat). change (nth 8 ks 0) with (K 8%nat). 
  rewrite be_bytes_lxor, khz_sub_pub, !xor_list_vxor. rewrite (khazad_fold 7 1 K K') by (intros r Hr; apply KK; lia).
  rewrite be_bytes_lxor, X, !KK by lia. reflexivity.
Qed.
