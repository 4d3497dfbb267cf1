(** Camellia is the cipher of RFC 3713. *)
From Coq Require Import NArith Arith List Bool Lia.
From Verif Require Import Lib.Word Lib.Res Lib.Bytes Lib.Bits Lib.Bij Lib.Lists Lib.Feistel Lib.BlockLemmas Lib.Lin Lib.Spn Lib.GfP Lib.WordSpec Lib.WordsP Lib.XorBytes
  Spec.Words Spec.Block Spec.Arx Spec.Gf Spec.Affine Spec.Pub3 Spec.Pub4 Model.LoadStore Model.BlockApi Model.Table Model.Camellia Model.Ciphers
  Proof.LoadStoreP Proof.Sha1P Proof.ArxP Proof.PubLib Proof.TableP Proof.CamelliaP Proof.RekeyP Proof.CiphersP Proof.ColumnsP Proof.IdeaPubP Proof.SkipjackPubP Proof.KhazadPubP Proof.AriaPubP Proof.KeccakCoreP.
Import ListNotations.
Local Open Scope N_scope.

(** ** The S-boxes *)
Definition cs1 (b : N) : N := wshr (tab8 cam_sp1110 b) 24.
Definition cs2 (b : N) : N := N.land (tab8 cam_sp0222 b) 255.
Definition cs3 (b : N) : N := N.land (tab8 cam_sp3033 b) 255.
Definition cs4 (b : N) : N := N.land (tab8 cam_sp4404 b) 255.

Lemma cam_basis_eq : cam_basis = [1; 108; 18; 7; 2; 216; 36; 14].
Proof. vm_compute. reflexivity. Qed.
Definition cam_dual : list N := [1; 16; 25; 137; 20; 89; 203; 118].
Lemma cam_dual_check : forallb (fun x => (pick cam_dual (pick [1; 108; 18; 7; 2; 216; 36; 14] x) =? x) && (pick [1; 108; 18; 7; 2; 216; 36; 14] (pick cam_dual x) =? x) && (pick cam_dual x <? 256)) bytesN = true.
Proof. vm_compute. reflexivity. Qed.
Lemma cam_coord_dual y : y < 256 -> cam_coord y = pick cam_dual y.
Proof.
  intros Hy. unfold cam_coord. rewrite cam_basis_eq.
  assert (D : forall x, x < 256 -> pick cam_dual (pick [1; 108; 18; 7; 2; 216; 36; 14] x) = x /\ pick [1; 108; 18; 7; 2; 216; 36; 14] (pick cam_dual x) = x /\ pick cam_dual x < 256).
  { intros x Hx. pose proof (bytes_check _ x cam_dual_check Hx) as C. cbv beta in C. rewrite !andb_true_iff, !N.eqb_eq, N.ltb_lt in C. destruct C as [[C1 C2] C3]. exact (conj C1 (conj C2 C3)). }
  revert D. generalize (pick cam_dual) as d, (pick [1; 108; 18; 7; 2; 216; 36; 14]) as e. intros d e D.
  apply box_inverse_eq; [|now apply D|now apply D]. intros a Ha Ea. rewrite <- Ea. symmetry. now apply D.
Qed.
Definition cam_inv (x : N) : N := pick cam_dual (gf_inv cam_poly (pick [1; 108; 18; 7; 2; 216; 36; 14] x)).
Lemma cam_s_check : forallb (fun b =>
  (gf_inv cam_poly (pick [1; 108; 18; 7; 2; 216; 36; 14] (mat_vec cam_fm (N.lxor b 0xC5))) <? 256) &&
  (cs1 b =? N.lxor (mat_vec cam_hm (cam_inv (mat_vec cam_fm (N.lxor b 0xC5)))) 0x6E)) bytesN = true.
Proof. vm_compute. reflexivity. Qed.
Lemma cs1_pub b : b < 256 -> camellia_S1 b = cs1 b.
Proof.
  intros Hb. pose proof (bytes_check _ b cam_s_check Hb) as C. cbv beta in C. rewrite andb_true_iff, N.ltb_lt, N.eqb_eq in C. destruct C as [C1 C2].
  rewrite C2. unfold camellia_S1, cam_g, cam_inv. rewrite cam_basis_eq. rewrite cam_coord_dual by exact C1. exact eq_refl.
Qed.
Lemma cs_check : forallb (fun b => (cs1 b <? 256) && (cs2 b =? rotl 8 (cs1 b) 1) && (cs3 b =? rotl 8 (cs1 b) 7) && (cs4 b =? cs1 (rotl 8 b 1)) && (rotl 8 b 1 <? 256) && (rotl 8 b 7 <? 256)) bytesN = true.
Proof. vm_compute. reflexivity. Qed.
Lemma cs_pub b : b < 256 -> (camellia_S1 b = cs1 b /\ camellia_S2 b = cs2 b /\ camellia_S3 b = cs3 b /\ camellia_S4 b = cs4 b) /\
  (cs1 b < 256 /\ cs2 b < 256 /\ cs3 b < 256 /\ cs4 b < 256).
Proof.
  assert (C : forall b, b < 256 -> cs1 b < 256 /\ cs2 b = rotl 8 (cs1 b) 1 /\ cs3 b = rotl 8 (cs1 b) 7 /\ cs4 b = cs1 (rotl 8 b 1) /\ rotl 8 b 1 < 256 /\ rotl 8 b 7 < 256).
  { clear b. intros b Hb. pose proof (bytes_check _ b cs_check Hb) as C. cbv beta in C. rewrite !andb_true_iff, !N.eqb_eq, !N.ltb_lt in C.
    destruct C as [[[[[C1 C2] C3] C4] C5] C6]. exact (conj C1 (conj C2 (conj C3 (conj C4 (conj C5 C6))))). }
  intros Hb. destruct (C b Hb) as (C1 & C2 & C3 & C4 & C5 & C6). destruct (C _ C1) as (_ & _ & _ & _ & D5 & D6). destruct (C _ C5) as (D1 & _).
  rewrite C2, C3, C4. split; [|exact (conj C1 (conj D5 (conj D6 D1)))].
  unfold camellia_S2, camellia_S3, camellia_S4. rewrite (cs1_pub b Hb), (cs1_pub _ C5). exact (conj eq_refl (conj eq_refl (conj eq_refl eq_refl))).
Qed.

(** ** The round function *)
Definition cc1 : list N := map (fun i => 0x01010100 * 2 ^ i) [0; 1; 2; 3; 4; 5; 6; 7].
Definition cc2 : list N := map (fun i => 0x00010101 * 2 ^ i) [0; 1; 2; 3; 4; 5; 6; 7].
Definition cc3 : list N := map (fun i => 0x01000101 * 2 ^ i) [0; 1; 2; 3; 4; 5; 6; 7].
Definition cc4 : list N := map (fun i => 0x01010001 * 2 ^ i) [0; 1; 2; 3; 4; 5; 6; 7].
Lemma cam_tabs_lin : tab_lin cam_sp1110 cc1 cs1 && tab_lin cam_sp0222 cc2 cs2 && tab_lin cam_sp3033 cc3 cs3 && tab_lin cam_sp4404 cc4 cs4 = true.
Proof. vm_compute. reflexivity. Qed.
Definition cam_M (l : list N) : N := mixl [cc1; cc2; cc3; cc4] l.
Definition cam_L (t : list N) : list N :=
  let lo := cam_M [nth 0 t 0; nth 1 t 0; nth 2 t 0; nth 3 t 0] in
  let hi := cam_M [nth 7 t 0; nth 4 t 0; nth 5 t 0; nth 6 t 0] in
  be_bytes 4 (N.lxor hi lo) ++ be_bytes 4 (N.lxor (ror 32 lo 8) (N.lxor hi lo)).
Lemma cam_M_inw l : inw 32 (cam_M l).
Proof. apply mixl_inw. repeat constructor. Qed.
Lemma cam_M_vxor a b : length a = length b -> cam_M (vxor a b) = N.lxor (cam_M a) (cam_M b).
Proof. apply mixl_vxor. Qed.
Lemma xor_swap a b c d : N.lxor (N.lxor a b) (N.lxor c d) = N.lxor (N.lxor a c) (N.lxor b d).
Proof. rewrite !N.lxor_assoc. f_equal. rewrite <- !N.lxor_assoc. f_equal. apply N.lxor_comm. Qed.
Lemma cam_L_lin : vlin 8 8 cam_L.
Proof.
  split; [intros x _; unfold cam_L; cbv zeta; now rewrite app_length, !length_be_bytes|].
  intros a b [La _] [Lb _]. unfold cam_L. cbv zeta. rewrite !nth_vxor by now rewrite La.
  assert (V : forall p q r s p' q' r' s' : N, [N.lxor p p'; N.lxor q q'; N.lxor r r'; N.lxor s s'] = vxor [p; q; r; s] [p'; q'; r'; s']) by reflexivity.
  rewrite !V, !cam_M_vxor by reflexivity. rewrite ror_lxor by (try discriminate; apply cam_M_inw).
  rewrite vxor_app by (now rewrite !length_be_bytes). rewrite <- !be_bytes_lxor.
  set (p := cam_M _). set (q := cam_M _). set (r := cam_M _). set (s := cam_M _). clearbody p q r s. set (u := ror 32 _ 8). set (v := ror 32 _ 8). clearbody u v.
  rewrite (xor_swap p q r s). rewrite (xor_swap u v). reflexivity.
Qed.
Lemma camellia_P_lin : vlin 8 8 camellia_P.
Proof.
  split; [reflexivity|]. intros a b [La _] [Lb _]. unfold camellia_P. generalize camellia_sums as T. induction T as [|t T IH]; [reflexivity|]. cbn [map vxor].
  rewrite IH. f_equal. rewrite <- (map_map (fun i => i - 1)%nat (fun i => nth i (vxor a b) 0)), <- (map_map (fun i => i - 1)%nat (fun i => nth i a 0)), <- (map_map (fun i => i - 1)%nat (fun i => nth i b 0)).
  apply xor_sum_vxor. now rewrite La.
Qed.
Lemma cam_L_pub t : regs 8 8 t -> cam_L t = camellia_P t.
Proof. apply (vlin_ext_check 8 8 _ _ cam_L_lin camellia_P_lin). vm_compute. reflexivity. Qed.
Lemma be8 x : be_bytes 8 x = [byte (wshr x 56); byte (wshr x 48); byte (wshr x 40); byte (wshr x 32); byte (wshr x 24); byte (wshr x 16); byte (wshr x 8); byte x].
Proof.
  rewrite !be_bytes_S. unfold be_bytes at 1. cbn [le_bytes rev].
  replace (wshr x (8 * N.of_nat 0)) with x by (unfold wshr; change (8 * N.of_nat 0) with 0; now rewrite N.shiftr_0_r). reflexivity.
Qed.
Lemma camellia_S_list (f1 f2 f3 f4 : N -> N) a b c d e f g h : camellia_S1 a = f1 a -> camellia_S2 b = f2 b -> camellia_S3 c = f3 c -> camellia_S4 d = f4 d ->
  camellia_S2 e = f2 e -> camellia_S3 f = f3 f -> camellia_S4 g = f4 g -> camellia_S1 h = f1 h ->
  camellia_S [a; b; c; d; e; f; g; h] = [f1 a; f2 b; f3 c; f4 d; f2 e; f3 f; f4 g; f1 h].
Proof.
  intros A B C D E F G H. rewrite <- A, <- B, <- C, <- D, <- E, <- F, <- G, <- H. unfold camellia_S, camellia_boxes. generalize camellia_S1, camellia_S2, camellia_S3, camellia_S4. reflexivity.
Qed.
Lemma cam_join_add hi lo : inw 32 lo -> cam_join hi lo = hi * 2 ^ 32 + lo.
Proof. intros Hl. unfold cam_join. rewrite N.lor_comm, lor_add by exact Hl. apply N.add_comm. Qed.
Lemma cam_join_bytes hi lo : inw 32 hi -> inw 32 lo -> be_val (be_bytes 4 hi ++ be_bytes 4 lo) = cam_join hi lo.
Proof.
  intros Hh Hl. rewrite be_val_app, length_be_bytes, !(be_id 4 32) by (reflexivity || assumption). rewrite cam_join_add by exact Hl. reflexivity.
Qed.
Lemma cam_tab4 a b c d : N.lxor (N.lxor (N.lxor (tab8 cam_sp1110 a) (tab8 cam_sp0222 b)) (tab8 cam_sp3033 c)) (tab8 cam_sp4404 d) =
  cam_M [cs1 (byte a); cs2 (byte b); cs3 (byte c); cs4 (byte d)].
Proof.
  pose proof cam_tabs_lin as H. apply andb_true_iff in H. destruct H as [H E3]. apply andb_true_iff in H. destruct H as [H E2]. apply andb_true_iff in H. destruct H as [E0 E1].
  unfold cam_M. cbn [mixl]. rewrite N.lxor_0_r. rewrite (tab_lin_eq _ _ _ a E0), (tab_lin_eq _ _ _ b E1), (tab_lin_eq _ _ _ c E2), (tab_lin_eq _ _ _ d E3).
  now rewrite !N.lxor_assoc.
Qed.
Lemma reg8 a b c d e f g h : a < 256 -> b < 256 -> c < 256 -> d < 256 -> e < 256 -> f < 256 -> g < 256 -> h < 256 -> regs 8 8 [a; b; c; d; e; f; g; h].
Proof. intros. split; [reflexivity|]. repeat (constructor; [assumption|]). constructor. Qed.
Lemma cam_f_pub x k : cam_f (N.lxor x k) = camellia_F x k.
Proof.
  unfold camellia_F. set (y := N.lxor x k). clearbody y. clear x k. rewrite be8.
  assert (C : forall w, (camellia_S1 (byte w) = cs1 (byte w) /\ camellia_S2 (byte w) = cs2 (byte w) /\ camellia_S3 (byte w) = cs3 (byte w) /\ camellia_S4 (byte w) = cs4 (byte w)) /\
    (cs1 (byte w) < 256 /\ cs2 (byte w) < 256 /\ cs3 (byte w) < 256 /\ cs4 (byte w) < 256)) by (intros w; apply cs_pub, byte_lt).
  pose proof (fun w => proj1 (proj1 (C w))) as C1. pose proof (fun w => proj1 (proj2 (proj1 (C w)))) as C2. pose proof (fun w => proj1 (proj2 (proj2 (proj1 (C w))))) as C3.
  pose proof (fun w => proj2 (proj2 (proj2 (proj1 (C w))))) as C4. pose proof (fun w => proj1 (proj2 (C w))) as B1. pose proof (fun w => proj1 (proj2 (proj2 (C w)))) as B2.
  pose proof (fun w => proj1 (proj2 (proj2 (proj2 (C w))))) as B3. pose proof (fun w => proj2 (proj2 (proj2 (proj2 (C w))))) as B4. clear C.
  rewrite (camellia_S_list cs1 cs2 cs3 cs4 _ _ _ _ _ _ _ _ (C1 _) (C2 _) (C3 _) (C4 _) (C2 _) (C3 _) (C4 _) (C1 _)). clear C1 C2 C3 C4.
  rewrite <- cam_L_pub by exact (reg8 _ _ _ _ _ _ _ _ (B1 _) (B2 _) (B3 _) (B4 _) (B2 _) (B3 _) (B4 _) (B1 _)).
  unfold cam_f. rewrite !cam_tab4. cbv zeta.
  unfold cam_L. cbn [nth]. cbv zeta. set (p := cam_M _). set (q := cam_M _). assert (P : inw 32 p) by apply cam_M_inw. assert (Q : inw 32 q) by apply cam_M_inw. clearbody p q. symmetry. apply cam_join_bytes; wb.
Qed.
Lemma halves64 x : inw 64 x -> mask 32 (wshr x 32) = x / 2 ^ 32 /\ mask 32 x = x mod 2 ^ 32.
Proof.
  intros Hx. rewrite wshr_div, !mask_mod. split; [|reflexivity]. apply N.mod_small. apply N.div_lt_upper_bound; [discriminate|]. exact Hx.
Qed.
Lemma cam_fl0_pub x k : inw 64 x -> inw 64 k -> cam_fl0 x k = camellia_FL x k.
Proof.
  intros Hx Hk. unfold cam_fl0, camellia_FL. destruct (halves64 x Hx) as [<- <-]. destruct (halves64 k Hk) as [<- <-]. cbv zeta.
  rewrite <- rol_rotl by (try discriminate; wb). apply cam_join_add. wb.
Qed.
Lemma cam_fl1_pub x k : inw 64 x -> inw 64 k -> cam_fl1 x k = camellia_FLINV x k.
Proof.
  intros Hx Hk. unfold cam_fl1, camellia_FLINV. destruct (halves64 x Hx) as [<- <-]. destruct (halves64 k Hk) as [<- <-]. cbv zeta.
  rewrite <- rol_rotl by (try discriminate; wb). apply cam_join_add. wb.
Qed.

(** ** Blocks of 16 bytes *)
Lemma be_halves l : regs 8 16 l -> load64b l 0 = be_val l / 2 ^ 64 /\ load64b l 8 = be_val l mod 2 ^ 64.
Proof.
  intros [L B]. assert (Bl : bytes_ok l) by exact B. rewrite !load64b_val by exact Bl. rewrite !bs_slice by lia.
  assert (E : be_val l = be_val (slice 0 8 l) * 2 ^ 64 + be_val (slice 8 8 l)).
  { rewrite <- (firstn_skipn 8 l) at 1. rewrite be_val_app, skipn_length, L. unfold slice. rewrite skipn_O. rewrite (firstn_all2 (skipn 8 l)) by (rewrite skipn_length; lia). reflexivity. }
  assert (I : be_val (slice 8 8 l) < 2 ^ 64) by (apply (be_val_inw 8); [now apply bytes_slice|rewrite length_slice; lia|reflexivity]).
  rewrite E. rewrite N.div_add_l by discriminate. rewrite (N.div_small _ _ I), N.add_0_r. split; [reflexivity|]. rewrite N.add_comm, N.mod_add by discriminate. symmetry. now apply N.mod_small.
Qed.
Lemma be_val_16 l : regs 8 16 l -> inw 128 (be_val l).
Proof. intros [L B]. apply (be_val_inw 16); [exact B|rewrite L; lia|reflexivity]. Qed.
Lemma cam_xor_eq x y : regs 8 16 x -> regs 8 16 y -> cam_xor x y = vxor x y.
Proof. intros Hx Hy. list_cases Hx. list_cases Hy. reflexivity. Qed.
Lemma cam_xor_pub x y : regs 8 16 x -> regs 8 16 y -> be_val (cam_xor x y) = N.lxor (be_val x) (be_val y) /\ regs 8 16 (cam_xor x y).
Proof. intros Hx Hy. rewrite cam_xor_eq by assumption. split; [now apply (be_val_vxor 16)|now apply regs_vxor]. Qed.
Lemma store_pair a b : inw 64 a -> inw 64 b -> be_val (store64b a ++ store64b b) = a * 2 ^ 64 + b /\ regs 8 16 (store64b a ++ store64b b).
Proof.
  intros Ha Hb. rewrite !store64b_bytes. split.
  - rewrite be_val_app, length_be_bytes, !(be_id 8 64) by (reflexivity || assumption). reflexivity.
  - split; [now rewrite app_length, !length_be_bytes|]. apply Forall_app. split; apply bytes_be_bytes.
Qed.
Lemma cam_two_pub i t : regs 8 16 t -> be_val (cam_two (nth i Sigma 0) (nth (i + 1) Sigma 0) t) = camellia_two i (be_val t) /\
  regs 8 16 (cam_two (nth i Sigma 0) (nth (i + 1) Sigma 0) t).
Proof.
  intros Ht. unfold cam_two, camellia_two. destruct (be_halves t Ht) as [E0 E8]. rewrite <- E0, <- E8. cbv zeta. rewrite !cam_f_pub.
  assert (F : forall x k, inw 64 (camellia_F x k)) by (intros x k; rewrite <- cam_f_pub; apply cam_f_inw).
  apply store_pair; apply inw_lxor; try apply F; apply (c_inw _ _ _ _ codec64b), Ht.
Qed.

(** ** Rotation of 128 bits *)
Lemma cam_rot_lor r a b : inw 8 b -> r <= 8 -> N.lor (wshl 8 a r) (wshr b (8 - r)) = N.lxor (wshl 8 a r) (wshr b (8 - r)).
Proof.
  intros Hb Hr. apply lor_disjoint. apply N.bits_inj. intros i. rewrite N.land_spec, N.bits_0. unfold wshr, wshl. rewrite N.shiftr_spec'.
  destruct (N.lt_ge_cases i r) as [L|L].
  - rewrite mask_spec, N.shiftl_spec_low by exact L. now rewrite !andb_false_r.
  - rewrite (inw_high 8 b (i + (8 - r)) Hb) by lia. apply andb_false_r.
Qed.
Lemma cam_rot_lin n : vlin 8 16 (fun x => cam_rot128 x n).
Proof.
  split; [reflexivity|]. intros a b Ha Hb. unfold cam_rot128. cbv zeta.
  assert (R : N.land n 7 <= 8) by (change 7 with (N.ones 3); rewrite N.land_ones; pose proof (N.mod_lt n (2 ^ 3) ltac:(discriminate)); change (2 ^ 3) with 8 in *; lia).
  revert R. generalize (N.land n 7) as r. intros r R. generalize (seq 0 16) as T. induction T as [|j T IH]; [reflexivity|]. cbn [map vxor]. rewrite IH. f_equal.
  assert (L : length a = length b) by (rewrite (proj1 Ha); symmetry; apply Hb). rewrite !nth_vxor by exact L.
  rewrite !cam_rot_lor by (try exact R; try apply inw_lxor; apply words_nth; (apply Ha || apply Hb)).
  rewrite wshr_lxor, wshl_lxor. apply xor_swap.
Qed.
Lemma be_rol_lin n : n <= 128 -> vlin 8 16 (fun x => be_bytes 16 (rol 128 (be_val x) n)).
Proof.
  intros Hn. split; [intros x _; apply length_be_bytes|]. intros a b Ha Hb. rewrite (be_val_vxor 16) by assumption.
  rewrite rol_lxor by (try exact Hn; now apply be_val_16). apply be_bytes_lxor.
Qed.
Definition cam_amounts : list N := [15; 30; 45; 60; 77; 94; 111].
Lemma cam_rot_check : forallb (fun n => vlin_check 8 16 (fun x => cam_rot128 x n) (fun x => be_bytes 16 (rol 128 (be_val x) n))) cam_amounts = true.
Proof. vm_compute. reflexivity. Qed.
Lemma cam_rot_pub n x : In n cam_amounts -> regs 8 16 x -> cam_rot128 x n = be_bytes 16 (rotl 128 (be_val x) n).
Proof.
  intros Hn Hx. assert (N128 : n <= 128) by (unfold cam_amounts in Hn; cbn [In] in Hn; destruct Hn as [<-|[<-|[<-|[<-|[<-|[<-|[<-|[]]]]]]]]; discriminate).
  pose proof cam_rot_check as C. rewrite forallb_forall in C. specialize (C n Hn).
  rewrite (vlin_ext_check 8 16 _ _ (cam_rot_lin n) (be_rol_lin n N128) C x Hx). f_equal. apply rol_rotl; [now apply be_val_16|exact N128].
Qed.
Definition cam_half (K : cam_src -> N) (e : cam_src * N * N) : N :=
  let '(b, n, h) := e in if h =? 0 then hi64 (K b, n) else lo64 (K b, n).
Lemma cam_word_pub f e : (forall b, regs 8 16 (f b)) -> (snd (fst e) = 0 \/ In (snd (fst e)) cam_amounts) -> (snd e = 0 \/ snd e = 1) ->
  cam_word f e = cam_half (fun b => be_val (f b)) e.
Proof.
  destruct e as [[b n] h]. cbn [fst snd]. intros Hf Hn Hh. unfold cam_word, cam_half.
  set (y := if n =? 0 then f b else cam_rot128 (f b) n).
  assert (Y : be_val y = rotl 128 (be_val (f b)) n /\ regs 8 16 y).
  { unfold y. pose proof (be_val_16 _ (Hf b)) as I. destruct Hn as [->|Hn].
    - change (0 =? 0) with true. cbv iota. split; [|apply Hf]. unfold rotl. change (2 ^ 0) with 1. rewrite N.mul_1_r, N.sub_0_r. rewrite (N.div_small _ _ I), N.add_0_r. symmetry. apply N.mod_small. exact I.
    - destruct (N.eqb_spec n 0) as [->|Z]; [unfold cam_amounts in Hn; cbn [In] in Hn; exfalso; repeat (destruct Hn as [Hn|Hn]; [discriminate Hn|]); exact Hn|].
      rewrite cam_rot_pub by (try exact Hn; apply Hf). split; [|apply be_bytes_regs]. apply (be_id 16 128); [reflexivity|].
      rewrite <- rol_rotl; [apply inw_rol, I|exact I|]. unfold cam_amounts in Hn; cbn [In] in Hn; destruct Hn as [<-|[<-|[<-|[<-|[<-|[<-|[<-|[]]]]]]]]; discriminate. }
  clearbody y. destruct Y as [Y1 Y2]. destruct (be_halves y Y2) as [E0 E8]. unfold hi64, lo64. cbn [fst snd]. rewrite <- Y1.
  destruct Hh as [-> | ->].
  - change (0 =? 0) with true. cbv iota. change (8 * N.to_nat 0)%nat with 0%nat. exact E0.
  - change (1 =? 0) with false. cbv iota. change (8 * N.to_nat 1)%nat with 8%nat. exact E8.
Qed.
Definition cam_entry_ok (e : cam_src * N * N) : bool := existsb (N.eqb (snd (fst e))) (0 :: cam_amounts) && existsb (N.eqb (snd e)) [0; 1].
Lemma cam_words_pub f l : (forall b, regs 8 16 (f b)) -> forallb cam_entry_ok l = true -> map (cam_word f) l = map (cam_half (fun b => be_val (f b))) l.
Proof.
  intros Hf Hl. apply map_ext_in. intros e He. rewrite forallb_forall in Hl. specialize (Hl e He). unfold cam_entry_ok in Hl. rewrite andb_true_iff, !existsb_exists in Hl.
  destruct Hl as [(n & In1 & E1) (h & In2 & E2)]. apply N.eqb_eq in E1. apply N.eqb_eq in E2. apply cam_word_pub; [exact Hf| |].
  - rewrite E1. destruct In1 as [<-|In1]; [now left|now right].
  - rewrite E2. destruct In2 as [<-|[<-|[]]]; [now left|now right].
Qed.

(** ** The key *)
Definition cam_size (n : nat) : nat := if Nat.leb n 16 then 16 else if Nat.leb n 24 then 24 else 32.
Lemma be_val_zeros n : be_val (repeat 0 n) = 0.
Proof.
  unfold be_val. induction n as [|n IH]; [reflexivity|]. cbn [repeat rev]. rewrite le_val_app, IH, N.add_0_l. change (le_val [0]) with 0. apply N.mul_0_r.
Qed.
Lemma be_val_not l : bytes_ok l -> be_val (map cam_not l) = 256 ^ N.of_nat (length l) - 1 - be_val l.
Proof.
  intros H. assert (B : be_val l + be_val (map cam_not l) + 1 = 256 ^ N.of_nat (length l)); [|lia].
  induction l as [|a l IH] using rev_ind; [reflexivity|]. apply Forall_app in H. destruct H as [H Ha]. specialize (IH H).
  rewrite map_app, !be_val_app, app_length. cbn [map length]. replace (length l + 1)%nat with (S (length l)) by lia. rewrite (Nat2N.inj_succ (length l)), N.pow_succ_r', <- IH.
  inversion Ha as [|? ? Ha' _]; subst. unfold cam_not. rewrite wnot_sub by exact Ha'.
  change (be_val [a]) with (a + 256 * 0). change (be_val [2 ^ 8 - 1 - a]) with (2 ^ 8 - 1 - a + 256 * 0). change (256 ^ N.of_nat 1) with 256. change (2 ^ 8) with 256.
  unfold byte in *. lia.
Qed.
Lemma cam_expand_pub key : bytes_ok key -> camellia_lengths key ->
  let Z := zero_pad (cam_size (length key)) key in
  (be_val (slice 0 16 (cam_expand key)) = camellia_KL Z /\ regs 8 16 (slice 0 16 (cam_expand key))) /\
  (be_val (slice 16 16 (cam_expand key)) = camellia_KR Z /\ regs 8 16 (slice 16 16 (cam_expand key))).
Proof.
  intros Hb Hl. unfold camellia_lengths in Hl. cbv zeta.
  pose proof (cam_expand_bytes key Hb) as Be.
  assert (P8 : cam_pad 8 key = key) by (unfold cam_pad; replace (8 - length key)%nat with 0%nat by lia; apply app_nil_r).
  assert (LS : (length key <= cam_size (length key))%nat).
  { unfold cam_size. destruct (Nat.leb_spec (length key) 16); [lia|]. destruct (Nat.leb_spec (length key) 24); lia. }
  assert (LZ : length (zero_pad (cam_size (length key)) key) = cam_size (length key)) by now apply length_zero_pad.
  assert (BZ : bytes_ok (zero_pad (cam_size (length key)) key)) by now apply bytes_zero_pad.
  assert (S : length (cam_expand key) = 32%nat /\ firstn 16 (cam_expand key) = firstn 16 (zero_pad (cam_size (length key)) key) /\
    be_val (skipn 16 (cam_expand key)) = camellia_KR (zero_pad (cam_size (length key)) key)).
  { unfold cam_expand. cbv zeta. rewrite P8. rewrite (proj2 (Nat.ltb_ge (length key) 16)) by lia. unfold camellia_KR. rewrite LZ. unfold cam_size in *.
    destruct (Nat.leb_spec (length key) 16) as [L16|L16].
    - unfold cam_pad. rewrite zero_pad_full in * by lia. assert (E : length key = 16%nat) by lia. rewrite E. change (16 =? 16)%nat with true. cbv iota.
      rewrite app_length, repeat_length, E. split; [reflexivity|]. rewrite firstn_app, skipn_app, E. change (16 - 16)%nat with 0%nat. rewrite firstn_O, skipn_O, app_nil_r.
      split; [reflexivity|]. rewrite (skipn_all2 key) by lia. apply be_val_zeros.
    - destruct (Nat.leb_spec (length key) 24) as [L24|L24].
      + change (24 =? 16)%nat with false. change (24 =? 24)%nat with true. cbv iota.
        change (cam_pad 24 key) with (zero_pad 24 key). set (Z := zero_pad 24 key) in *. rewrite LZ. change (24 =? 24)%nat with true. cbv iota.
        assert (G : cam_grow Z = Z ++ map cam_not (skipn 16 Z)).
        { unfold cam_grow. f_equal. rewrite LZ. rewrite <- (map_map (fun i => nth (24 - 8 + i) Z 0) cam_not). f_equal. change (24 - 8)%nat with 16%nat.
          rewrite <- slice_nth by lia. unfold slice. apply firstn_all2. rewrite skipn_length. lia. }
        assert (LG : length (cam_grow Z) = 32%nat) by (rewrite G, app_length, map_length, skipn_length, LZ; reflexivity).
        assert (P : cam_pad 32 (cam_grow Z) = cam_grow Z) by (unfold cam_pad; rewrite LG; apply app_nil_r). rewrite P. split; [exact LG|].
        rewrite G. rewrite firstn_app, skipn_app, LZ. change (16 - 24)%nat with 0%nat. rewrite firstn_O, skipn_O, app_nil_r. split; [reflexivity|].
        rewrite be_val_app, map_length, skipn_length, LZ. rewrite be_val_not by now apply bytes_skipn. rewrite skipn_length, LZ. reflexivity.
      + change (32 =? 16)%nat with false. change (32 =? 24)%nat with false. cbv iota.
        assert (P24 : cam_pad 24 key = key) by (unfold cam_pad; replace (24 - length key)%nat with 0%nat by lia; apply app_nil_r). rewrite P24.
        rewrite (proj2 (Nat.eqb_neq (length key) 24)) by lia. change (cam_pad 32 key) with (zero_pad 32 key). rewrite LZ. exact (conj eq_refl (conj eq_refl eq_refl)). }
  destruct S as (L & F & K). split.
  - split; [unfold slice; rewrite skipn_O, F; reflexivity|]. split; [apply length_slice; lia|exact (bytes_slice 0 16 _ Be)].
  - split; [|split; [apply length_slice; lia|exact (bytes_slice 16 16 _ Be)]]. rewrite <- K. unfold slice. rewrite firstn_all2 by (rewrite skipn_length; lia). reflexivity.
Qed.
Lemma cam_keys_pub key : bytes_ok key -> camellia_lengths key ->
  let Z := zero_pad (cam_size (length key)) key in let s := cam_setup key in
  (cam_kw s, cam_k s, cam_kl s) = camellia_sub Z /\ cam_r s = (if Nat.eqb (length Z) 16 then 18 else 24) /\
  words_ok 64 (cam_kw s) /\ words_ok 64 (cam_k s) /\ words_ok 64 (cam_kl s).
Proof.
  intros Hb Hl Z s. destruct (cam_expand_pub key Hb Hl) as [[EL RL] [ER RR]]. fold Z in EL, ER.
  unfold s, cam_setup. cbv zeta. set (kl := slice 0 16 (cam_expand key)) in *. set (kr := slice 16 16 (cam_expand key)) in *. clearbody kl kr.
  destruct (cam_xor_pub kl kr RL RR) as [X1 R1]. destruct (cam_two_pub 0 _ R1) as [X2 R2]. destruct (cam_xor_pub _ kl R2 RL) as [X3 R3].
  destruct (cam_two_pub 2 _ R3) as [X4 R4]. destruct (cam_xor_pub _ kr R4 RR) as [X5 R5]. destruct (cam_two_pub 4 _ R5) as [X6 R6].
  cbn [Sigma nth Nat.add] in *.
  set (ka := cam_two 0xC6EF372FE94F82BE _ _) in *. set (kb := cam_two 0x10E527FADE682D1D _ _) in *.
  assert (EA : be_val ka = camellia_KA Z) by (rewrite X4, X3, X2, X1, EL, ER; exact eq_refl).
  assert (EB : be_val kb = camellia_KB Z) by (rewrite X6, X5, EA, ER; exact eq_refl). clearbody ka kb. clear X1 X2 X3 X4 X5 X6.
  assert (LZ : length Z = cam_size (length key)).
  { unfold Z. apply length_zero_pad. unfold cam_size, camellia_lengths in *. destruct (Nat.leb_spec (length key) 16); [lia|]. destruct (Nat.leb_spec (length key) 24); lia. }
  assert (W : forall f l, (forall b, bytes_ok (f b)) -> words_ok 64 (map (cam_word f) l)).
  { intros f l Hf. apply Forall_forall. intros y Hy. apply in_map_iff in Hy. destruct Hy as (e & <- & _). now apply cam_word_inw. }
  unfold camellia_sub. cbv zeta. rewrite LZ. unfold cam_size. destruct (Nat.leb_spec (length key) 16) as [L|L].
  - set (f := fun b => match b with ckl => kl | ckr => kr | _ => ka end).
    assert (Hf : forall b, regs 8 16 (f b)) by (intros []; assumption). change (16 =? 16)%nat with true. cbv iota. cbn [cam_kw cam_k cam_kl cam_r].
    split; [|split; [reflexivity|exact (conj (W f _ (fun b => proj2 (Hf b))) (conj (W f _ (fun b => proj2 (Hf b))) (W f _ (fun b => proj2 (Hf b)))))]].
    rewrite !(cam_words_pub f _ Hf) by reflexivity. unfold cam_half. rewrite <- EL, <- EA. unfold f, both64. clear. generalize hi64, lo64. intros h l. reflexivity.
  - assert (E24 : forall (A : Type) (x y : A), (if Nat.eqb (if Nat.leb (length key) 24 then 24 else 32) 16 then x else y) = y) by (intros; now destruct (Nat.leb (length key) 24)).
    rewrite !E24. set (f := fun b => match b with ckl => kl | ckr => kr | cka => ka | ckb => kb end).
    assert (Hf : forall b, regs 8 16 (f b)) by (intros []; assumption). cbn [cam_kw cam_k cam_kl cam_r].
    split; [|split; [reflexivity|exact (conj (W f _ (fun b => proj2 (Hf b))) (conj (W f _ (fun b => proj2 (Hf b))) (W f _ (fun b => proj2 (Hf b)))))]].
    rewrite !(cam_words_pub f _ Hf) by reflexivity. unfold cam_half. rewrite <- EL, <- EA, <- ER, <- EB. unfold f, both64. clear. generalize hi64, lo64. intros h l. reflexivity.
Qed.

(** ** Encryption *)
Section Gen.
  Context (F FL FI : N -> N -> N) (k ke : nat -> N).
  Definition cam_gstep (D : N * N) (i : nat) : N * N :=
    let '(D1, D2) := if (Nat.eqb (i mod 6) 0 && Nat.ltb 0 i)%bool
      then (FL (fst D) (ke (i / 3 - 2)%nat), FI (snd D) (ke (i / 3 - 1)%nat)) else D in
    if Nat.even i then (D1, N.lxor D2 (F D1 (k i))) else (N.lxor D1 (F D2 (k i)), D2).
  Definition cam_gsix (i : nat) (x : N * N) : N * N :=
    let l := fst x in let r := snd x in
    let r := N.lxor r (F l (k i)) in
    let l := N.lxor l (F r (k (i + 1)%nat)) in
    let r := N.lxor r (F l (k (i + 2)%nat)) in
    let l := N.lxor l (F r (k (i + 3)%nat)) in
    let r := N.lxor r (F l (k (i + 4)%nat)) in
    let l := N.lxor l (F r (k (i + 5)%nat)) in
    (l, r).
  Lemma cam_g0 x : fold_left cam_gstep (seq 0 6) x = cam_gsix 0 x.
  Proof. destruct x. reflexivity. Qed.
  Lemma cam_g1 x : fold_left cam_gstep (seq 6 6) x = cam_gsix 6 (FL (fst x) (ke 0%nat), FI (snd x) (ke 1%nat)).
  Proof. reflexivity. Qed.
  Lemma cam_g2 x : fold_left cam_gstep (seq 12 6) x = cam_gsix 12 (FL (fst x) (ke 2%nat), FI (snd x) (ke 3%nat)).
  Proof. reflexivity. Qed.
  Lemma cam_g3 x : fold_left cam_gstep (seq 18 6) x = cam_gsix 18 (FL (fst x) (ke 4%nat), FI (snd x) (ke 5%nat)).
  Proof. reflexivity. Qed.
  Lemma cam_g18 x : fold_left cam_gstep (seq 0 18) x = fold_left cam_gstep (seq 12 6) (fold_left cam_gstep (seq 6 6) (fold_left cam_gstep (seq 0 6) x)).
  Proof. now rewrite <- !fold_left_app. Qed.
  Lemma cam_g24 x : fold_left cam_gstep (seq 0 24) x = fold_left cam_gstep (seq 18 6) (fold_left cam_gstep (seq 12 6) (fold_left cam_gstep (seq 6 6) (fold_left cam_gstep (seq 0 6) x))).
  Proof. now rewrite <- !fold_left_app. Qed.
End Gen.
Definition cam_fx (x k : N) : N := cam_f (N.lxor x k).
Lemma cam_six_g k i x : cam_six (k i) (k (i + 1)%nat) (k (i + 2)%nat) (k (i + 3)%nat) (k (i + 4)%nat) (k (i + 5)%nat) x = cam_gsix cam_fx k i x.
Proof. unfold cam_six, cam_gsix, cam_fx. generalize cam_f. intros; reflexivity. Qed.
Lemma cam_core_fold k kl m x : (m = 2 \/ m = 3)%nat ->
  pfor (2 * m + 1) 0 (cam_step k kl) x = fold_left (cam_gstep cam_fx cam_fl0 cam_fl1 k kl) (seq 0 (6 * (m + 1))) x.
Proof.
  intros [-> | ->].
  - change (6 * (2 + 1))%nat with 18%nat. rewrite cam_g18, cam_g2, cam_g1, cam_g0, <- !cam_six_g. unfold cam_step, cam_fl2. generalize cam_six, cam_fl0, cam_fl1. intros; reflexivity.
  - change (6 * (3 + 1))%nat with 24%nat. rewrite cam_g24, cam_g3, cam_g2, cam_g1, cam_g0, <- !cam_six_g. unfold cam_step, cam_fl2. generalize cam_six, cam_fl0, cam_fl1. intros; reflexivity.
Qed.
Lemma cam_gstep_pub k ke n x : words_ok 64 k -> words_ok 64 ke -> @w2 64 x ->
  fold_left (cam_gstep cam_fx cam_fl0 cam_fl1 (fun i => nth i k 0) (fun i => nth i ke 0)) (seq 0 n) x = fold_left (camellia_step k ke) (seq 0 n) x.
Proof.
  intros Hk He Hx.
  assert (R : (fun (_ : nat) (a b : N * N) => a = b /\ @w2 64 b) (0 + n)%nat (fold_left (cam_gstep cam_fx cam_fl0 cam_fl1 (fun i => nth i k 0) (fun i => nth i ke 0)) (seq 0 n) x) (fold_left (camellia_step k ke) (seq 0 n) x)).
  { apply (fold_rel (fun (_ : nat) (a b : N * N) => a = b /\ @w2 64 b)); [|now split].
    intros t y u _ [-> [Hu1 Hu2]].
    assert (FI : forall a b, inw 64 (camellia_F a b)) by (intros a b; rewrite <- cam_f_pub; apply cam_f_inw).
    assert (KE : forall i, inw 64 (nth i ke 0)) by (intros i; now apply words_nth).
    unfold cam_gstep, camellia_step. rewrite <- cam_fl0_pub, <- cam_fl1_pub by (assumption || apply KE).
    pose proof (proj1 (proj1 (cam_fl_pbij (nth (t / 3 - 2) ke 0)) (fst u) Hu1)) as I1. pose proof (proj1 (proj2 (cam_fl_pbij (nth (t / 3 - 1) ke 0)) (snd u) Hu2)) as I2. cbv beta in I1, I2.
    set (c := (Nat.eqb (t mod 6) 0 && Nat.ltb 0 t)%bool). clearbody c.
    set (v := if c then (cam_fl0 (fst u) (nth (t / 3 - 2) ke 0), cam_fl1 (snd u) (nth (t / 3 - 1) ke 0)) else u).
    assert (V : @w2 64 v) by (unfold v; destruct c; split; assumption). clearbody v. destruct v as [D1 D2]. destruct V as [V1 V2]. cbn [fst snd] in V1, V2.
    unfold cam_fx. rewrite !cam_f_pub. destruct (Nat.even t); (split; [reflexivity|]); split; cbn [fst snd]; try assumption; apply inw_lxor; auto. }
  exact (proj1 R).
Qed.
Lemma camellia_create_gen r key s : camellia_create r key = Ok s -> s = cam_setup key.
Proof. intros H. unfold camellia_create in H. apply assert_inv in H. destruct H as [_ H]. apply assert_inv in H. destruct H as [_ H]. now apply Ok_inj in H. Qed.
Lemma camellia_published : is_cipher camellia_desc camellia_lengths camellia_cipher.
Proof.
  apply (is_cipher_default _ _ _ camellia_default); [intros key Hk; change (bc_maxkey camellia_desc) with 32%nat; unfold camellia_lengths in Hk; lia|].
  intros key s Hb Hk Es pt Hp. apply camellia_create_gen in Es.
  change (bc_enc camellia_desc) with camellia_encrypt. change (bc_bs camellia_desc) with 16%nat in Hp.
  destruct (cam_setup_fine key Hb) as (m & Hr & Hm & Lk & Ll & Lw & Ww). destruct (cam_keys_pub key Hb Hk) as (Es' & Er & _ & Wk & Wl).
  rewrite <- Es in *. unfold camellia_cipher. fold (cam_size (length key)). set (Z := zero_pad (cam_size (length key)) key) in *. clearbody Z. clear Es.
  unfold camellia_full. rewrite <- Es'. cbv zeta.
  assert (En : (if Nat.eqb (length Z) 16 then 18%nat else 24%nat) = (6 * (m + 1))%nat) by (rewrite Hr in Er; destruct (length Z =? 16)%nat; lia). rewrite En. clear En Er Es'.
  unfold camellia_encrypt. rewrite !(get_ok (cam_kw s) _ 0) by (rewrite Lw; lia). cbn [bind].
  rewrite (cam_core_eq s _ _ m) by (try assumption; intros; lia). cbn [bind]. destruct (be_halves pt) as [E0 E8]; [destruct Hp; now split|].
  unfold ld2. cbn [fst snd]. rewrite E0, E8.
  rewrite cam_core_fold by exact Hm. rewrite cam_gstep_pub; [|exact Wk|exact Wl|].
  2: { rewrite <- E0, <- E8. split; cbn [fst snd]; (apply inw_lxor; [apply (c_inw _ _ _ _ codec64b), Hp|apply words_nth, Ww]). }
  unfold st2. destruct (fold_left _ _ _) as [D1 D2]. cbn [fst snd]. rewrite !store64b_bytes. reflexivity.
Qed.
