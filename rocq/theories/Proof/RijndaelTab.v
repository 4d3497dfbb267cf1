(** Rijndael: what the tables hold. *)
From Coq Require Import NArith Arith List Bool Lia.
From Verif Require Import Lib.Word Lib.Res Lib.Bytes Lib.Bij Lib.Bits Lib.GfP Lib.WordSpec Lib.Lists Lib.WordsP Lib.BlockLemmas
  Model.LoadStore Model.BlockApi Model.Rijndael Spec.Block Spec.Gf Spec.Words Spec.Aes Proof.LoadStoreP.
Import ListNotations.
Local Open Scope N_scope.

Notation col := (be_bytes 4).
Notation cols := (map (be_bytes 4)).

(** ** Bytes of words *)
Definition byte4 (w : N) (j : nat) : N := byte (N.shiftr w (24 - 8 * N.of_nat j)).
Lemma byte4_lxor a b j : byte4 (N.lxor a b) j = N.lxor (byte4 a j) (byte4 b j).
Proof.
  unfold byte4, byte. apply N.bits_inj. intros i.
  rewrite N.lxor_spec, !N.land_spec, N.shiftr_lxor, N.lxor_spec.
  now destruct (N.testbit (N.shiftr a _) i), (N.testbit (N.shiftr b _) i), (N.testbit 255 i).
Qed.
Lemma byte_bound x : byte x < 256.
Proof. rewrite byte_mod. now apply N.mod_upper_bound. Qed.
Lemma byte4_bound w j : byte4 w j < 256.
Proof. apply byte_bound. Qed.
Lemma col_bytes w : col w = [byte4 w 0; byte4 w 1; byte4 w 2; byte4 w 3].
Proof.
  unfold be_bytes, byte4. cbn [le_bytes rev app N.of_nat Pos.of_succ_nat Pos.succ]. rewrite !byte_mod, !N.shiftr_div_pow2.
  rewrite !N.div_div by discriminate.
  change (256 * 256) with (2 ^ 16). change (2 ^ 16 * 256) with (2 ^ 24).
  change (24 - 8 * 0) with 24. change (24 - 8 * 1) with 16. change (24 - 8 * 2) with 8. change (24 - 8 * 3) with 0.
  change (2 ^ 0) with 1. change (2 ^ 8) with 256. now rewrite N.div_1_r.
Qed.
Lemma top_byte w : inw 32 w -> N.shiftr w 24 = byte4 w 0.
Proof.
  intros H. unfold byte4. change (24 - 8 * N.of_nat 0) with 24. symmetry. apply byte_small. rewrite N.shiftr_div_pow2.
  apply N.div_lt_upper_bound; [discriminate|]. exact H.
Qed.
Lemma low_byte w : byte w = byte4 w 3.
Proof. unfold byte4. change (24 - 8 * N.of_nat 3) with 0. now rewrite N.shiftr_0_r. Qed.
Lemma col_ext x y : inw 32 x -> inw 32 y -> col x = col y -> x = y.
Proof.
  intros Hx Hy E. apply (f_equal be_val) in E. rewrite !be_val_bytes in E. change (256 ^ N.of_nat 4) with (2 ^ 32) in E.
  rewrite !N.mod_small in E by assumption. exact E.
Qed.
Lemma bxor_vxor a b : bxor a b = vxor a b.
Proof. unfold bxor. revert b. induction a as [|x a IH]; intros [|y b]; cbn [combine map vxor fst snd]; try reflexivity. now rewrite IH. Qed.
Lemma col_lxor a b : col (N.lxor a b) = vxor (col a) (col b).
Proof. rewrite !col_bytes, !byte4_lxor. reflexivity. Qed.
Lemma col_regs w : regs 8 4 (col w).
Proof. split; [apply length_be_bytes|apply bytes_be_bytes]. Qed.
(** four bytes put together *)
Lemma pack_val a b c d : a < 256 -> b < 256 -> c < 256 -> d < 256 ->
  N.lor (N.lor (N.lor (wshl 32 a 24) (wshl 32 b 16)) (wshl 32 c 8)) d = be_val [a; b; c; d].
Proof.
  intros Ha Hb Hc Hd.
  assert (W : forall x n, x < 256 -> n <= 24 -> wshl 32 x n = N.shiftl x n).
  { intros x n Hx Hn. unfold wshl. rewrite mask_mod. apply N.mod_small. rewrite N.shiftl_mul_pow2.
    apply N.lt_le_trans with (256 * 2 ^ n); [apply N.mul_lt_mono_pos_r; [apply N.neq_0_lt_0, N.pow_nonzero; discriminate|exact Hx]|].
    change 256 with (2 ^ 8). rewrite <- N.pow_add_r. apply N.pow_le_mono_r; [discriminate|lia]. }
  rewrite !W by (try assumption; discriminate).
  assert (L : bytes_ok [a; b; c; d]) by (repeat constructor; assumption).
  pose proof (load32b_val [a; b; c; d] 0 L) as E. unfold load32b, bs_, b_ in E. cbn [map seq Nat.add nth] in E. rewrite <- E.
  rewrite (N.lor_comm _ d), !N.lor_assoc. rewrite (N.lor_comm (N.lor (N.lor d (N.shiftl a 24)) (N.shiftl b 16)) (N.shiftl c 8)).
  rewrite !N.lor_assoc, (N.lor_comm (N.shiftl c 8) d). rewrite <- !N.lor_assoc. do 2 f_equal. apply N.lor_comm.
Qed.
Lemma col_pack a b c d : a < 256 -> b < 256 -> c < 256 -> d < 256 ->
  col (N.lor (N.lor (N.lor (wshl 32 a 24) (wshl 32 b 16)) (wshl 32 c 8)) d) = [a; b; c; d].
Proof. intros Ha Hb Hc Hd. rewrite pack_val by assumption. apply (be_bytes_val [a; b; c; d]). repeat constructor; assumption. Qed.
Lemma pack_inw a b c d : a < 256 -> b < 256 -> c < 256 -> d < 256 ->
  inw 32 (N.lor (N.lor (N.lor (wshl 32 a 24) (wshl 32 b 16)) (wshl 32 c 8)) d).
Proof. intros Ha Hb Hc Hd. rewrite pack_val by assumption. apply (be_val_inw 4); [repeat constructor; assumption|cbn; lia|reflexivity]. Qed.

(** ** The tables *)
Lemma te4_eq : rj_te4 = aes_sbox. Proof. vm_compute. reflexivity. Qed.
Lemma td4_eq : rj_td4 = aes_isbox. Proof. vm_compute. reflexivity. Qed.
Definition table_ok (m : list (list N)) (s : list N) (k : nat) (t : list N) : bool :=
  (length t =? 256)%nat && forallb (fun q => (fst q <? 2 ^ 32) && if list_eq_dec N.eq_dec (col (fst q)) (map (fun row => aes_mul (nth k row 0) (snd q)) m) then true else false) (combine t s).
Lemma enc_tables : forallb (fun q => table_ok mix_m aes_sbox (fst q) (snd q)) (combine (seq 0 4) [rj_te0; rj_te1; rj_te2; rj_te3]) = true.
Proof. vm_compute. reflexivity. Qed.
Lemma dec_tables : forallb (fun q => table_ok unmix_m aes_isbox (fst q) (snd q)) (combine (seq 0 4) [rj_td0; rj_td1; rj_td2; rj_td3]) = true.
Proof. vm_compute. reflexivity. Qed.
Lemma sbox_ok : forallb (fun i => let x := N.of_nat i in (sb x <? 256) && (isb x <? 256) && (isb (sb x) =? x) && (sb (isb x) =? x)) (seq 0 256) = true.
Proof. vm_compute. reflexivity. Qed.
Lemma sboxes x : x < 256 -> sb x < 256 /\ isb x < 256 /\ isb (sb x) = x /\ sb (isb x) = x.
Proof.
  intros H. pose proof sbox_ok as F. rewrite forallb_forall in F. specialize (F (N.to_nat x) ltac:(apply in_seq; lia)).
  cbv zeta in F. rewrite N2Nat.id in F. apply andb_prop in F. destruct F as [F F4]. apply andb_prop in F. destruct F as [F F3]. apply andb_prop in F.
  destruct F as [F1 F2]. apply N.ltb_lt in F1. apply N.ltb_lt in F2. apply N.eqb_eq in F3. apply N.eqb_eq in F4. now repeat split.
Qed.
Lemma aes_sbox_length : length aes_sbox = 256%nat. Proof. unfold aes_sbox. now rewrite map_length, seq_length. Qed.
Lemma aes_isbox_length : length aes_isbox = 256%nat. Proof. unfold aes_isbox. now rewrite map_length, seq_length. Qed.
Lemma table_use m s k t x : table_ok m s k t = true -> length s = 256%nat -> x < 256 ->
  inw 32 (tab t x) /\ col (tab t x) = map (fun row => aes_mul (nth k row 0) (nth (N.to_nat x) s 0)) m.
Proof.
  intros H Ls Hx. unfold table_ok in H. apply andb_prop in H. destruct H as [L H]. apply Nat.eqb_eq in L. rewrite forallb_forall in H.
  specialize (H (tab t x, nth (N.to_nat x) s 0)).
  assert (I : In (tab t x, nth (N.to_nat x) s 0) (combine t s)).
  { unfold tab. rewrite <- combine_nth by congruence. apply nth_In. rewrite combine_length, L, Ls. cbn [Nat.min]. lia. }
  specialize (H I). cbn [fst snd] in H. apply andb_prop in H. destruct H as [B H]. apply N.ltb_lt in B. split; [exact B|].
  now destruct (list_eq_dec _ _ _).
Qed.
Opaque aes_sbox aes_isbox rj_te0 rj_te1 rj_te2 rj_te3 rj_te4 rj_td0 rj_td1 rj_td2 rj_td3 rj_td4.
Lemma te_use k t x : In (k, t) (combine (seq 0 4) [rj_te0; rj_te1; rj_te2; rj_te3]) -> x < 256 ->
  inw 32 (tab t x) /\ col (tab t x) = map (fun row => aes_mul (nth k row 0) (sb x)) mix_m.
Proof.
  intros I Hx. pose proof enc_tables as H. rewrite forallb_forall in H. specialize (H _ I). cbn [fst snd] in H.
  exact (table_use _ _ _ _ x H aes_sbox_length Hx).
Qed.
Lemma td_use k t x : In (k, t) (combine (seq 0 4) [rj_td0; rj_td1; rj_td2; rj_td3]) -> x < 256 ->
  inw 32 (tab t x) /\ col (tab t x) = map (fun row => aes_mul (nth k row 0) (isb x)) unmix_m.
Proof.
  intros I Hx. pose proof dec_tables as H. rewrite forallb_forall in H. specialize (H _ I). cbn [fst snd] in H.
  exact (table_use _ _ _ _ x H aes_isbox_length Hx).
Qed.
Lemma te4_sb x : tab rj_te4 x = sb x. Proof. unfold tab, sb. now rewrite te4_eq. Qed.
Lemma td4_isb x : tab rj_td4 x = isb x. Proof. unfold tab, isb. now rewrite td4_eq. Qed.

Opaque sb isb.
Lemma poly_aes : poly8 0x11B. Proof. split; [discriminate|reflexivity]. Qed.
Lemma mat_gmat m c : mat m c = gmat 0x11B m c. Proof. reflexivity. Qed.
(** the sum of four table entries is a product with the matrix *)
Definition sum4 (t0 t1 t2 t3 : list N) (a b c d : N) : N := N.lxor (N.lxor (N.lxor (tab t0 a) (tab t1 b)) (tab t2 c)) (tab t3 d).
Lemma sum_te a b c d : a < 256 -> b < 256 -> c < 256 -> d < 256 ->
  inw 32 (sum4 rj_te0 rj_te1 rj_te2 rj_te3 a b c d) /\ col (sum4 rj_te0 rj_te1 rj_te2 rj_te3 a b c d) = mat mix_m [sb a; sb b; sb c; sb d].
Proof.
  intros Ha Hb Hc Hd.
  destruct (te_use 0 rj_te0 a ltac:(cbn; auto) Ha) as [A1 A2]. destruct (te_use 1 rj_te1 b ltac:(cbn; auto) Hb) as [B1 B2].
  destruct (te_use 2 rj_te2 c ltac:(cbn; auto) Hc) as [C1 C2]. destruct (te_use 3 rj_te3 d ltac:(cbn; auto) Hd) as [D1 D2].
  unfold sum4. split; [wb|]. rewrite !col_lxor, A2, B2, C2, D2. unfold mat, mix_m. cbn [map nth vxor combine fold_left fst snd]. rewrite !N.lxor_0_l. reflexivity.
Qed.
Lemma sum_td a b c d : a < 256 -> b < 256 -> c < 256 -> d < 256 ->
  inw 32 (sum4 rj_td0 rj_td1 rj_td2 rj_td3 a b c d) /\ col (sum4 rj_td0 rj_td1 rj_td2 rj_td3 a b c d) = mat unmix_m [isb a; isb b; isb c; isb d].
Proof.
  intros Ha Hb Hc Hd.
  destruct (td_use 0 rj_td0 a ltac:(cbn; auto) Ha) as [A1 A2]. destruct (td_use 1 rj_td1 b ltac:(cbn; auto) Hb) as [B1 B2].
  destruct (td_use 2 rj_td2 c ltac:(cbn; auto) Hc) as [C1 C2]. destruct (td_use 3 rj_td3 d ltac:(cbn; auto) Hd) as [D1 D2].
  unfold sum4. split; [wb|]. rewrite !col_lxor, A2, B2, C2, D2. unfold mat, unmix_m. cbn [map nth vxor combine fold_left fst snd]. rewrite !N.lxor_0_l. reflexivity.
Qed.
Lemma E_col x0 x1 x2 x3 : inw 32 x0 -> inw 32 (rj_E x0 x1 x2 x3) /\ col (rj_E x0 x1 x2 x3) = mat mix_m [sb (byte4 x0 0); sb (byte4 x1 1); sb (byte4 x2 2); sb (byte4 x3 3)].
Proof. intros H. unfold rj_E. rewrite (top_byte x0 H), (low_byte x3). apply sum_te; apply byte4_bound. Qed.
Lemma D_col x0 x1 x2 x3 : inw 32 x0 -> inw 32 (rj_D x0 x1 x2 x3) /\ col (rj_D x0 x1 x2 x3) = mat unmix_m [isb (byte4 x0 0); isb (byte4 x1 1); isb (byte4 x2 2); isb (byte4 x3 3)].
Proof. intros H. unfold rj_D. rewrite (top_byte x0 H), (low_byte x3). apply sum_td; apply byte4_bound. Qed.
Lemma EL_col x0 x1 x2 x3 : inw 32 x0 -> inw 32 (rj_EL x0 x1 x2 x3) /\ col (rj_EL x0 x1 x2 x3) = [sb (byte4 x0 0); sb (byte4 x1 1); sb (byte4 x2 2); sb (byte4 x3 3)].
Proof.
  intros H. unfold rj_EL. rewrite (top_byte x0 H), (low_byte x3), !te4_sb. change (byte (N.shiftr x1 16)) with (byte4 x1 1). change (byte (N.shiftr x2 8)) with (byte4 x2 2).
  split; [apply pack_inw|apply col_pack]; exact (proj1 (sboxes _ (byte4_bound _ _))).
Qed.
Lemma DL_col x0 x1 x2 x3 : inw 32 x0 -> inw 32 (rj_DL x0 x1 x2 x3) /\ col (rj_DL x0 x1 x2 x3) = [isb (byte4 x0 0); isb (byte4 x1 1); isb (byte4 x2 2); isb (byte4 x3 3)].
Proof.
  intros H. unfold rj_DL. rewrite (top_byte x0 H), (low_byte x3), !td4_isb. change (byte (N.shiftr x1 16)) with (byte4 x1 1). change (byte (N.shiftr x2 8)) with (byte4 x2 2).
  split; [apply pack_inw|apply col_pack]; exact (proj1 (proj2 (sboxes _ (byte4_bound _ _)))).
Qed.
Lemma imc_col t : inw 32 t -> inw 32 (rj_imc t) /\ col (rj_imc t) = mat unmix_m (col t).
Proof.
  intros H. unfold rj_imc. change (N.land t 0xFF) with (byte t). change (N.land (N.shiftr t 16) 0xFF) with (byte4 t 1). change (N.land (N.shiftr t 8) 0xFF) with (byte4 t 2).
  rewrite (top_byte t H), (low_byte t), !te4_sb.
  pose proof (sum_td (sb (byte4 t 0)) (sb (byte4 t 1)) (sb (byte4 t 2)) (sb (byte4 t 3))) as S. 
  assert (B : forall j, sb (byte4 t j) < 256 /\ isb (sb (byte4 t j)) = byte4 t j) by (intros j; destruct (sboxes _ (byte4_bound t j)) as (? & _ & ? & _); now split).
  specialize (S (proj1 (B 0%nat)) (proj1 (B 1%nat)) (proj1 (B 2%nat)) (proj1 (B 3%nat))). rewrite !(proj2 (B _)) in S.
  rewrite (col_bytes t). exact S.
Qed.
