(** ARIA is the cipher of RFC 5794. *)
From Coq Require Import NArith Arith List Bool Lia.
From Verif Require Import Lib.Word Lib.Res Lib.Bytes Lib.Bits Lib.Bij Lib.Lists Lib.Feistel Lib.BlockLemmas Lib.Lin Lib.Spn Lib.GfP Lib.WordSpec Lib.WordsP Lib.XorBytes
  Spec.Words Spec.Block Spec.Arx Spec.Gf Spec.Affine Spec.Pub3 Spec.Rounds Model.LoadStore Model.BlockApi Model.Table Model.Aria Model.Ciphers
  Proof.LoadStoreP Proof.Sha1P Proof.ArxP Proof.PubLib Proof.TableP Proof.AriaP Proof.RekeyP Proof.CiphersP Proof.ColumnsP Proof.KhazadPubP.
Import ListNotations.
Local Open Scope N_scope.

Notation bst := (be_string 4).

Lemma bst_vxor a : forall b, length a = length b -> bst (vxor a b) = vxor (bst a) (bst b).
Proof.
  unfold be_string. induction a as [|x a IH]; intros [|y b] L; try discriminate L; [reflexivity|]. cbn [vxor flat_map].
  rewrite IH by (now injection L). rewrite be_bytes_lxor, vxor_app by (now rewrite !length_be_bytes). reflexivity.
Qed.
Lemma bst_regs n x : length x = n -> regs 8 (4 * n) (bst x).
Proof.
  intros <-. unfold be_string. split.
  - induction x as [|a x IH]; [reflexivity|]. cbn [flat_map length]. rewrite app_length, length_be_bytes, IH. lia.
  - induction x as [|a x IH]; cbn [flat_map]; [constructor|]. apply Forall_app. split; [exact (bytes_be_bytes 4 a)|exact IH].
Qed.
Lemma be4_bytes' a b c d : a < 256 -> b < 256 -> c < 256 -> d < 256 -> be_bytes 4 (be_val [a; b; c; d]) = [a; b; c; d].
Proof. intros. apply (be_bytes_val [a; b; c; d]). repeat constructor; assumption. Qed.

(** ** The S-boxes *)
Lemma aria_b_check : forallb (fun b => (aria_b1 b =? aria_S1 b) && (aria_b2 b =? aria_S2 b)) bytesN = true.
Proof. vm_compute. reflexivity. Qed.
Lemma aria_b_pub b : b < 256 -> aria_S1 b = aria_b1 b /\ aria_S2 b = aria_b2 b.
Proof.
  intros Hb. pose proof (bytes_check _ b aria_b_check Hb) as H. cbv beta in H. rewrite andb_true_iff, !N.eqb_eq in H. destruct H as [H1 H2]. exact (conj (eq_sym H1) (eq_sym H2)).
Qed.
Lemma box_inverse_eq S x y : (forall a, a < 256 -> S a = y -> a = x) -> S x = y -> x < 256 -> box_inverse S y = x.
Proof.
  intros U E Hx. unfold box_inverse. destruct (find _ _) as [a|] eqn:F.
  - apply find_some in F. destruct F as [I F]. apply N.eqb_eq in F. apply in_map_iff in I. destruct I as (n & <- & I). apply in_seq in I.
    apply U; [lia|exact F].
  - exfalso. apply (find_none _ _) with (x := x) in F; [|apply in_map_iff; exists (N.to_nat x); split; [apply N2Nat.id|apply in_seq; lia]].
    cbv beta in F. rewrite E, N.eqb_refl in F. discriminate F.
Qed.
Lemma aria_i1_pub b : b < 256 -> box_inverse aria_S1 b = aria_i1 b.
Proof.
  intros Hb. destruct (aria_boxes b Hb) as (_ & _ & E & _). pose proof (aria_i1_lt b Hb) as L. apply box_inverse_eq; [|now rewrite (proj1 (aria_b_pub _ L))|exact L].
  intros a Ha Ea. rewrite (proj1 (aria_b_pub a Ha)) in Ea. rewrite <- Ea. symmetry. now apply aria_boxes.
Qed.
Lemma aria_i2_pub b : b < 256 -> box_inverse aria_S2 b = aria_i2 b.
Proof.
  intros Hb. destruct (aria_boxes b Hb) as (_ & _ & _ & E). pose proof (aria_i2_lt b Hb) as L. apply box_inverse_eq; [|now rewrite (proj2 (aria_b_pub _ L))|exact L].
  intros a Ha Ea. rewrite (proj2 (aria_b_pub a Ha)) in Ea. rewrite <- Ea. symmetry. now apply aria_boxes.
Qed.
Lemma aria_SL4 (b0 b1 b2 b3 : N -> N) x0 x1 x2 x3 x4 x5 x6 x7 x8 x9 xa xb xc xd xe xf :
  aria_SL [b0; b1; b2; b3] [x0; x1; x2; x3; x4; x5; x6; x7; x8; x9; xa; xb; xc; xd; xe; xf] =
  [b0 x0; b1 x1; b2 x2; b3 x3; b0 x4; b1 x5; b2 x6; b3 x7; b0 x8; b1 x9; b2 xa; b3 xb; b0 xc; b1 xd; b2 xe; b3 xf].
Proof. reflexivity. Qed.
Lemma aria_sub_gen (b0 b1 b2 b3 c0 c1 c2 c3 : N -> N) (f : N -> N) x :
  (forall w, f w = be_val [b0 (byte (wshr w 24)); b1 (byte (wshr w 16)); b2 (byte (wshr w 8)); b3 (byte w)]) ->
  (forall b, b < 256 -> b0 b < 256 /\ b1 b < 256 /\ b2 b < 256 /\ b3 b < 256) ->
  (forall b, b < 256 -> c0 b = b0 b /\ c1 b = b1 b /\ c2 b = b2 b /\ c3 b = b3 b) -> length x = 4%nat ->
  bst (map f x) = aria_SL [c0; c1; c2; c3] (bst x).
Proof.
  intros Ef Hb Hc L. do 4 (destruct x as [|? x]; [discriminate L|]). destruct x; [|discriminate L]. clear L.
  unfold be_string. cbn [map flat_map]. rewrite !Ef. rewrite !be4_bytes' by (apply Hb, byte_lt). rewrite !be4. cbn [app]. rewrite aria_SL4.
  assert (C : forall w, c0 (byte w) = b0 (byte w) /\ c1 (byte w) = b1 (byte w) /\ c2 (byte w) = b2 (byte w) /\ c3 (byte w) = b3 (byte w)) by (intros w; apply Hc, byte_lt).
  rewrite !(fun w => proj1 (C w)), !(fun w => proj1 (proj2 (C w))), !(fun w => proj1 (proj2 (proj2 (C w)))), !(fun w => proj2 (proj2 (proj2 (C w)))).
  exact eq_refl.
Qed.
Lemma aria_sub1_pub x : length x = 4%nat -> bst (map aria_sub1 x) = aria_SL aria_boxes_odd (bst x).
Proof.
  apply (aria_sub_gen aria_b1 aria_b2 aria_i1 aria_i2); [reflexivity|intros b Hb; repeat split; apply byte_lt|].
  intros b Hb. exact (conj (proj1 (aria_b_pub b Hb)) (conj (proj2 (aria_b_pub b Hb)) (conj (aria_i1_pub b Hb) (aria_i2_pub b Hb)))).
Qed.
Lemma aria_sub2_pub x : length x = 4%nat -> bst (map aria_sub2 x) = aria_SL aria_boxes_even (bst x).
Proof.
  apply (aria_sub_gen aria_i1 aria_i2 aria_b1 aria_b2); [reflexivity|intros b Hb; repeat split; apply byte_lt|].
  intros b Hb. exact (conj (aria_i1_pub b Hb) (conj (aria_i2_pub b Hb) (conj (proj1 (aria_b_pub b Hb)) (proj2 (aria_b_pub b Hb))))).
Qed.

(** ** The linear layer *)
Lemma be_words_bst n x : regs 32 n x -> be_words 4 n (bst x) = x.
Proof.
  intros [<- W]. unfold be_string. induction W as [|a x Ha W IH]; [reflexivity|]. cbn [flat_map length]. rewrite be_words_cons by apply length_be_bytes.
  f_equal; [now apply (be_id 4 32)|exact IH].
Qed.
Lemma bst_be_words n l : regs 8 (4 * n) l -> bst (be_words 4 n l) = l.
Proof.
  intros [L B]. revert l L B. induction n as [|n IH]; intros l L B; [destruct l; [reflexivity|discriminate L]|].
  rewrite <- (firstn_skipn 4 l). assert (L4 : length (firstn 4 l) = 4%nat) by (rewrite firstn_length; lia).
  rewrite be_words_cons by exact L4. unfold be_string. cbn [flat_map]. fold (bst (be_words 4 n (skipn 4 l))).
  rewrite IH; [|rewrite skipn_length; lia|now apply bytes_skipn]. f_equal. rewrite <- L4 at 1. apply be_bytes_val. now apply bytes_firstn.
Qed.
Lemma be_words_vxor n a b : regs 8 (4 * n) a -> regs 8 (4 * n) b -> be_words 4 n (vxor a b) = vxor (be_words 4 n a) (be_words 4 n b).
Proof.
  intros Ha Hb. rewrite <- (bst_be_words n a Ha), <- (bst_be_words n b Hb) at 1.
  assert (La : forall l, length (be_words 4 n l) = n) by (intros; unfold be_words; now rewrite map_length, seq_length).
  rewrite <- bst_vxor by now rewrite !La. apply be_words_bst. apply regs_vxor; apply (be_words_regs 4 32); try reflexivity; [apply Ha|apply Hb].
Qed.
Lemma xor_sum_vxor a b : length a = length b -> forall t, fold_left N.lxor (map (fun i => nth i (vxor a b) 0) t) 0 =
  N.lxor (fold_left N.lxor (map (fun i => nth i a 0) t) 0) (fold_left N.lxor (map (fun i => nth i b 0) t) 0).
Proof.
  intros L. induction t as [|i t IH]; [reflexivity|]. cbn [map fold_left]. rewrite !N.lxor_0_l.
  rewrite (fold_lxor_acc _ (nth i (vxor a b) 0)), (fold_lxor_acc _ (nth i a 0)), (fold_lxor_acc _ (nth i b 0)), IH, nth_vxor by exact L.
  rewrite !N.lxor_assoc. f_equal. rewrite <- !N.lxor_assoc. f_equal. apply N.lxor_comm.
Qed.
Lemma aria_A_vxor a b : length a = length b -> aria_A (vxor a b) = vxor (aria_A a) (aria_A b).
Proof.
  intros L. unfold aria_A. generalize aria_sums as T. induction T as [|t T IH]; [reflexivity|]. cbn [map vxor]. now rewrite IH, xor_sum_vxor.
Qed.
Lemma aria_A_regs x : bytes_ok x -> regs 8 16 (aria_A x).
Proof.
  intros B. split; [reflexivity|]. apply Forall_forall. intros y Hy. apply in_map_iff in Hy. destruct Hy as (t & <- & _).
  induction t as [|i t IH]; [reflexivity|]. cbn [map fold_left]. rewrite N.lxor_0_l, fold_lxor_acc. apply (inw_lxor 8); [|exact IH]. exact (words_nth 8 _ _ B).
Qed.
Lemma aria_inv_pub x : regs 32 4 x -> bst (aria_inv x) = aria_A (bst x).
Proof.
  intros Hx. assert (R : forall y, regs 32 4 y -> regs 8 16 (aria_A (bst y))) by (intros y Hy; apply aria_A_regs, (bst_regs 4), Hy).
  rewrite (vlin_ext_check 32 4 aria_inv (fun x => be_words 4 4 (aria_A (bst x))) aria_inv_lin); [| |vm_compute; reflexivity|exact Hx].
  - apply (bst_be_words 4). now apply R.
  - split; [reflexivity|]. intros a b Ha Hb. rewrite bst_vxor by (rewrite (proj1 Ha); symmetry; apply Hb).
    rewrite aria_A_vxor by (rewrite (proj1 (bst_regs 4 a (proj1 Ha))), (proj1 (bst_regs 4 b (proj1 Hb))); reflexivity).
    apply be_words_vxor; now apply R.
Qed.
Lemma aria_odd_pub x k : regs 32 4 x -> regs 32 4 k -> bst (aria_odd (aria_xor x k)) = aria_FO (bst x) (bst k).
Proof.
  intros Hx Hk. rewrite aria_xor_eq by (apply Hx || apply Hk). rewrite aria_odd_eq. assert (R : regs 32 4 (vxor x k)) by now apply regs_vxor.
  rewrite aria_inv_pub by (apply sub_regs, R). rewrite aria_sub1_pub by apply R. unfold aria_FO. rewrite xor_list_vxor, bst_vxor; [reflexivity|].
  rewrite (proj1 Hx). symmetry. apply Hk.
Qed.
Lemma aria_even_pub x k : regs 32 4 x -> regs 32 4 k -> bst (aria_even (aria_xor x k)) = aria_FE (bst x) (bst k).
Proof.
  intros Hx Hk. rewrite aria_xor_eq by (apply Hx || apply Hk). assert (R : regs 32 4 (vxor x k)) by now apply regs_vxor. rewrite aria_even_eq by apply R.
  rewrite aria_inv_pub by (apply sub_regs, R). rewrite aria_sub2_pub by apply R. unfold aria_FE. rewrite xor_list_vxor, bst_vxor; [reflexivity|].
  rewrite (proj1 Hx). symmetry. apply Hk.
Qed.

(** ** The keys *)
Definition aria_two (r a b : N) : N := N.lor (wshr a r) (wshl 32 b (32 - r)).
Definition aria_rotw (n : N) (y : list N) : list N :=
  let i := (4 - N.to_nat (N.shiftr n 5))%nat in
  map (fun j => aria_two (N.land n 31) (nth ((i + j) mod 4) y 0) (nth ((i + j + 3) mod 4) y 0)) (seq 0 4).
Lemma aria_two_xor r a b : inw 32 a -> r <= 32 -> aria_two r a b = N.lxor (wshr a r) (wshl 32 b (32 - r)).
Proof.
  intros Ha Hr. apply lor_disjoint. apply N.bits_inj. intros i. rewrite N.land_spec, N.bits_0. unfold wshr, wshl. rewrite N.shiftr_spec'.
  destruct (N.lt_ge_cases i (32 - r)) as [L|L].
  - rewrite mask_spec, N.shiftl_spec_low by exact L. now rewrite !andb_false_r.
  - rewrite (inw_high 32 a (i + r) Ha) by lia. reflexivity.
Qed.
Lemma aria_rkey_rotw x y n : length x = 4%nat -> aria_rkey x y n = vxor x (aria_rotw n y).
Proof. intros L. do 4 (destruct x as [|? x]; [discriminate L|]). destruct x; [|discriminate L]. reflexivity. Qed.
Lemma aria_rotw_lin n : vlin 32 4 (aria_rotw n).
Proof.
  split; [reflexivity|]. intros a b Ha Hb. unfold aria_rotw. cbv zeta.
  assert (R : N.land n 31 <= 32) by (change 31 with (N.ones 5); rewrite N.land_ones; pose proof (N.mod_lt n (2 ^ 5) ltac:(discriminate)); change (2 ^ 5) with 32 in *; lia).
  revert R. generalize (N.land n 31) as r. intros r R. generalize (seq 0 4) as T. induction T as [|j T IH]; [reflexivity|]. cbn [map vxor]. rewrite IH. f_equal.
  assert (L : length a = length b) by (rewrite (proj1 Ha); symmetry; apply Hb). rewrite !nth_vxor by exact L.
  rewrite !aria_two_xor by (try exact R; try apply inw_lxor; now apply words_nth; (apply Ha || apply Hb)).
  rewrite wshr_lxor, wshl_lxor. rewrite !N.lxor_assoc. f_equal. rewrite <- !N.lxor_assoc. f_equal. apply N.lxor_comm.
Qed.
Definition aria_rotp (n : N) (y : list N) : list N := be_words 4 4 (be_bytes 16 (ror 128 (be_val (bst y)) n)).
Lemma aria_rotp_lin n : n <= 128 -> vlin 32 4 (aria_rotp n).
Proof.
  intros Hn. split; [reflexivity|]. intros a b Ha Hb. unfold aria_rotp.
  pose proof (bst_regs 4 a (proj1 Ha)) as Ra. pose proof (bst_regs 4 b (proj1 Hb)) as Rb.
  assert (I : forall l, regs 8 (4 * 4) l -> inw 128 (be_val l)) by (intros l [Ll Bl]; apply (be_val_inw 16); [exact Bl|rewrite Ll; lia|reflexivity]).
  rewrite bst_vxor by (rewrite (proj1 Ha); symmetry; apply Hb). rewrite (be_val_vxor 16) by assumption. rewrite ror_lxor by auto.
  rewrite be_bytes_lxor. apply (be_words_vxor 4); apply (be_bytes_regs 16).
Qed.
Lemma aria_rot_check : forallb (fun n => vlin_check 32 4 (aria_rotw n) (aria_rotp n)) [19; 31; 67; 97; 109] = true.
Proof. vm_compute. reflexivity. Qed.
Lemma aria_rot_pub n y : In n [19; 31; 67; 97; 109] -> regs 32 4 y -> bst (aria_rotw n y) = be_bytes 16 (rotr 128 (be_val (bst y)) n).
Proof.
  intros Hn Hy. assert (N128 : n <= 128) by (cbn [In] in Hn; destruct Hn as [<-|[<-|[<-|[<-|[<-|[]]]]]]; discriminate).
  pose proof aria_rot_check as C. rewrite forallb_forall in C. specialize (C n Hn).
  rewrite (vlin_ext_check 32 4 _ _ (aria_rotw_lin n) (aria_rotp_lin n N128) C y Hy). unfold aria_rotp.
  rewrite (bst_be_words 4) by apply (be_bytes_regs 16). f_equal. apply ror_rotr; [|exact N128].
  destruct (bst_regs 4 y (proj1 Hy)) as [Ll Bl]. apply (be_val_inw 16); [exact Bl|rewrite Ll; lia|reflexivity].
Qed.
Lemma aria_C_check : forallb (fun i => if list_eq_dec N.eq_dec (bst (nth i aria_kcon [])) (be_bytes 16 (nth i aria_C 0)) then true else false) (seq 0 3) = true.
Proof. vm_compute. reflexivity. Qed.
Lemma aria_C_pub i : (i < 3)%nat -> bst (nth i aria_kcon []) = be_bytes 16 (nth i aria_C 0) /\ regs 32 4 (nth i aria_kcon []).
Proof.
  intros Hi. split.
  - pose proof aria_C_check as C. rewrite forallb_forall in C. specialize (C i ltac:(apply in_seq; lia)). destruct (list_eq_dec _ _ _) as [E|E]; [exact E|discriminate C].
  - do 3 (destruct i as [|i]; [split; [reflexivity|apply words_okb; reflexivity]|]). lia.
Qed.
Lemma bst_xor_list a b : length a = length b -> bst (vxor a b) = xor_list (bst a) (bst b).
Proof. intros L. now rewrite bst_vxor, xor_list_vxor. Qed.
Lemma slice_bst (x : list N) i n : (4 * (i + n) <= length (bst x))%nat -> slice (4 * i) (4 * n) (bst x) = bst (slice i n x).
Proof.
  intros _. unfold slice. revert i. induction x as [|a x IH]; intros i.
  - unfold be_string. cbn [flat_map]. rewrite !skipn_nil, !firstn_nil. reflexivity.
  - destruct i as [|i].
    + rewrite Nat.mul_0_r, !skipn_O. clear IH. revert n. generalize (a :: x) as l. induction l as [|b l IH]; intros n.
      * unfold be_string. cbn [flat_map]. now rewrite !firstn_nil.
      * destruct n as [|n]; [now rewrite Nat.mul_0_r, !firstn_O|]. replace (4 * S n)%nat with (4 + 4 * n)%nat by lia.
        unfold be_string. cbn [flat_map firstn]. fold (bst l). rewrite firstn_app, length_be_bytes.
        rewrite (firstn_all2 (be_bytes 4 b)) by (rewrite length_be_bytes; lia). f_equal. replace (4 + 4 * n - 4)%nat with (4 * n)%nat by lia. apply IH.
    + replace (4 * S i)%nat with (4 + 4 * i)%nat by lia. unfold be_string. cbn [flat_map skipn]. fold (bst x). rewrite skipn_app, length_be_bytes.
      rewrite (skipn_all2 (be_bytes 4 a)) by (rewrite length_be_bytes; lia). cbn [app]. replace (4 + 4 * i - 4)%nat with (4 * i)%nat by lia. apply IH.
Qed.
Lemma aria_expand_pub key : bytes_ok key -> aria_lengths key ->
  map bst (aria_expand key) = aria_W (zero_pad (aria_size (length key)) key) /\ Forall (regs 32 4) (aria_expand key).
Proof.
  intros Hb Hl.
  assert (LZ : length (zero_pad (aria_size (length key)) key) = aria_size (length key)).
  { apply length_zero_pad. unfold aria_size. destruct (Nat.leb_spec (length key) 16); [lia|]. destruct (Nat.leb_spec (length key) 24); [lia|]. unfold aria_lengths in Hl. lia. }
  assert (Z : zero_pad 32 (zero_pad (aria_size (length key)) key) = zero_pad 32 key).
  { unfold zero_pad at 1. rewrite LZ. unfold zero_pad. rewrite <- app_assoc, <- repeat_app. do 2 f_equal.
    assert (aria_size (length key) <= 32 /\ length key <= aria_size (length key))%nat; [|lia].
    unfold aria_size. destruct (Nat.leb_spec (length key) 16); [lia|]. destruct (Nat.leb_spec (length key) 24); [lia|]. unfold aria_lengths in Hl. lia. }
  assert (I : match aria_words key with 8%nat => 2%nat | 6%nat => 1%nat | _ => 0%nat end = (aria_size (length key) / 8 - 2)%nat).
  { unfold aria_words, aria_size, aria_lengths in *. generalize dependent (length key). clear. intros n H.
    do 33 (destruct n as [|n]; [try reflexivity; lia|]). lia. }
  unfold aria_expand, aria_W. cbv zeta. rewrite LZ, Z, I.
  assert (Hi : (aria_size (length key) / 8 - 2 < 3)%nat).
  { unfold aria_size. destruct (Nat.leb _ 16); [cbn; lia|]. destruct (Nat.leb _ 24); cbn; lia. }
  assert (K8 : key32b key 8 = be_words 4 8 (zero_pad 32 key)) by (apply (key32b_words key 8 Hb); unfold aria_lengths in Hl; lia).
  assert (RK : regs 32 8 (key32b key 8)) by (rewrite K8; apply (be_words_regs 4 32); [now apply bytes_zero_pad|reflexivity]).
  assert (S0 : slice 0 16 (zero_pad 32 key) = bst (slice 0 4 (key32b key 8)) /\ slice 16 16 (zero_pad 32 key) = bst (slice 4 4 (key32b key 8))).
  { assert (E : zero_pad 32 key = bst (key32b key 8)).
    { rewrite K8. symmetry. apply (bst_be_words 8). split; [apply length_zero_pad; unfold aria_lengths in Hl; lia|exact (bytes_zero_pad 32 key Hb)]. }
    rewrite E. pose proof (proj1 (bst_regs 8 _ (proj1 RK))) as LB. split; [apply (slice_bst _ 0 4)|apply (slice_bst _ 4 4)]; rewrite LB; lia. }
  destruct S0 as [-> ->]. set (k := key32b key 8) in *. clearbody k. clear K8 Z I LZ.
  assert (F0 : firstn 4 k = slice 0 4 k) by reflexivity.
  assert (F4 : skipn 4 k = slice 4 4 k) by (unfold slice; symmetry; apply firstn_all2; rewrite skipn_length, (proj1 RK); lia). rewrite F0, F4.
  assert (R0 : regs 32 4 (slice 0 4 k)) by (split; [unfold slice; rewrite firstn_length, skipn_length, (proj1 RK); lia|apply words_slice, RK]).
  assert (R4 : regs 32 4 (slice 4 4 k)) by (split; [unfold slice; rewrite firstn_length, skipn_length, (proj1 RK); lia|apply words_slice, RK]).
  set (k0 := slice 0 4 k) in *. set (kr := slice 4 4 k) in *. clearbody k0 kr. clear F0 F4 RK k.
  set (c := (aria_size (length key) / 8 - 2)%nat) in *. clearbody c.
  assert (M : forall j, ((c + j) mod 3 < 3)%nat) by (intros; apply Nat.mod_upper_bound; lia).
  destruct (aria_C_pub _ (M 0%nat)) as [<- C0]. destruct (aria_C_pub _ (M 1%nat)) as [<- C1]. destruct (aria_C_pub _ (M 2%nat)) as [<- C2].
  set (c0 := nth ((c + 0) mod 3) aria_kcon []) in *. set (c1 := nth ((c + 1) mod 3) aria_kcon []) in *. set (c2 := nth ((c + 2) mod 3) aria_kcon []) in *. clearbody c0 c1 c2.
  assert (X : forall a b, regs 32 4 a -> regs 32 4 b -> bst (aria_xor a b) = xor_list (bst a) (bst b)).
  { intros a b Ha Hb'. rewrite aria_xor_eq by (apply Ha || apply Hb'). apply bst_xor_list. rewrite (proj1 Ha). symmetry. apply Hb'. }
  assert (XC : forall a b, regs 32 4 a -> regs 32 4 b -> bst (aria_xor a b) = xor_list (bst b) (bst a)).
  { intros a b Ha Hb'. rewrite X by assumption. rewrite !xor_list_vxor. apply vxor_comm. }
  assert (XR : forall a b, regs 32 4 a -> regs 32 4 b -> regs 32 4 (aria_xor a b)) by (intros a b Ha Hb'; apply aria_xor_regs; [apply Ha|apply Hb']).
  set (w1 := aria_xor kr (aria_odd (aria_xor k0 c0))).
  assert (O0 : regs 32 4 (aria_odd (aria_xor k0 c0))) by (apply aria_odd_regs, XR; assumption).
  assert (R1 : regs 32 4 w1) by (apply XR; assumption).
  assert (B1 : bst w1 = xor_list (aria_FO (bst k0) (bst c0)) (bst kr)) by (unfold w1; rewrite XC by assumption; now rewrite aria_odd_pub).
  rewrite <- B1. clearbody w1. clear B1.
  assert (O1 : regs 32 4 (aria_even (aria_xor w1 c1))) by (apply aria_even_regs, XR; assumption).
  set (w2 := aria_xor (aria_even (aria_xor w1 c1)) k0).
  assert (R2 : regs 32 4 w2) by (apply XR; assumption).
  assert (B2 : bst w2 = xor_list (aria_FE (bst w1) (bst c1)) (bst k0)) by (unfold w2; rewrite X by assumption; now rewrite aria_even_pub).
  rewrite <- B2. clearbody w2. clear B2.
  assert (O2 : regs 32 4 (aria_odd (aria_xor w2 c2))) by (apply aria_odd_regs, XR; assumption).
  rewrite <- aria_odd_pub by assumption. rewrite <- XC by assumption. split; [reflexivity|].
  repeat (apply Forall_cons; [assumption || (apply XR; assumption)|]). apply Forall_nil.
Qed.

Lemma aria_create_gen r key s : aria_create r key = Ok s -> s = aria_setup (aria_rounds r key) key.
Proof.
  intros H. unfold aria_create in H. apply assert_inv in H. destruct H as [_ H]. cbv zeta in H. apply fits_inv in H. destruct H as [_ H].
  apply Ok_inj in H. now symmetry.
Qed.
Lemma aria_keys_pub n key i : (n <= 16)%nat -> bytes_ok key -> aria_lengths key -> (i <= n)%nat ->
  bst (nth i (aria_keys n key) []) = aria_ek (aria_W (zero_pad (aria_size (length key)) key)) i.
Proof.
  intros Hn Hb Hl Hi. destruct (aria_expand_pub key Hb Hl) as [E R]. unfold aria_keys. cbv zeta.
  match goal with |- bst (nth i (map ?f ?l) []) = _ => rewrite (nth_indep _ [] (f 0%nat)) by (rewrite map_length, seq_length; lia);
    rewrite (map_nth f l 0%nat i) end.
  rewrite seq_nth by lia. rewrite Nat.add_0_l.
  assert (D : (i / 4 <= 4)%nat) by (apply (Nat.div_le_mono i 16 4); lia). rewrite (Nat.mod_small (i / 4) 5) by lia.
  unfold aria_ek. rewrite <- E. change (@nil N) with (bst []) at 3 4. rewrite !map_nth.
  assert (W : forall j, regs 32 4 (nth (j mod 4) (aria_expand key) [])).
  { intros j. rewrite Forall_forall in R. apply R, nth_In. change (length (aria_expand key)) with 4%nat. apply Nat.mod_upper_bound. lia. }
  rewrite aria_rkey_rotw by apply W. rewrite bst_xor_list by (rewrite (proj1 (W i)); reflexivity). f_equal.
  apply aria_rot_pub; [|apply W]. change aria_rot with [19; 31; 67; 97; 109]. apply nth_In. cbn [length]. lia.
Qed.

Lemma aria_any_enc q key pt : (0 < N.to_nat q <= 16)%nat -> bytes_ok key -> aria_lengths key -> blk 16 pt ->
  aria_encrypt (aria_setup q key) pt = Ok (aria_any (N.to_nat q) key pt).
Proof.
  intros Hn Hb Hk Hp. unfold aria_encrypt.
  change (aria_k (aria_setup q key)) with (aria_keys (N.to_nat q) key). change (aria_r (aria_setup q key)) with q.
  unfold aria_any, aria_full_any. cbv zeta. unfold aria_crypt. cbv zeta.
  set (n := N.to_nat q) in *. clearbody n. set (ek := aria_ek (aria_W (zero_pad (aria_size (length key)) key))).
  assert (KK : forall i, (i <= n)%nat -> bst (nth i (aria_keys n key) []) = ek i) by (intros i Hi; now apply aria_keys_pub).
  assert (KR : forall i, (i <= n)%nat -> regs 32 4 (nth i (aria_keys n key) [])) by (intros i Hi; now apply aria_keys_regs).
  assert (KL : length (aria_keys n key) = (n + 1)%nat) by (unfold aria_keys; cbv zeta; now rewrite map_length, seq_length).
  set (K := aria_keys n key) in *. clearbody K ek. destruct Hp as [Lp Bp].
  rewrite loads32b_be by (auto; lia). rewrite zero_pad_full by lia.
  assert (X : forall a b, regs 32 4 a -> regs 32 4 b -> bst (aria_xor a b) = xor_list (bst a) (bst b)).
  { intros a b Ha Hb'. rewrite aria_xor_eq by (apply Ha || apply Hb'). apply bst_xor_list. rewrite (proj1 Ha). symmetry. apply Hb'. }
  assert (XR : forall a b, regs 32 4 a -> regs 32 4 b -> regs 32 4 (aria_xor a b)) by (intros a b Ha Hb'; apply aria_xor_regs; [apply Ha|apply Hb']).
  destruct (mfor_fold (fun _ u v => v = bst u /\ regs 32 4 u) (n - 1) 0
    (fun i x => let* ki := get K i in Ok ((if Nat.even i then aria_odd else aria_even) (aria_xor x ki)))
    (fun p i => if Nat.even i then aria_FO p (ek i) else aria_FE p (ek i)) (be_words 4 4 pt) pt) as (x & Ex & Ep & Rx).
  - intros t y u Ht [-> Ry]. rewrite (get_ok _ _ []) by lia. cbn [bind]. eexists. split; [reflexivity|]. rewrite <- KK by lia.
    destruct (Nat.even t); [rewrite aria_odd_pub by (auto; apply KR; lia)|rewrite aria_even_pub by (auto; apply KR; lia)]; (split; [reflexivity|]);
      [apply aria_odd_regs|apply aria_even_regs]; apply XR; auto; apply KR; lia.
  - split; [symmetry; apply (bst_be_words 4); now split|now apply (be_words_regs 4 32)].
  - rewrite Ex. cbn [bind]. rewrite !(get_ok _ _ []) by lia. cbn [bind]. rewrite stores32b_be. f_equal. rewrite Ep.
    replace (S (n - 1)) with n by lia.
    assert (R0 : regs 32 4 (aria_xor x (nth (n - 1) K []))) by (apply XR; [exact Rx|apply KR; lia]).
    rewrite (map_ext aria_swl aria_sub2 aria_swl_eq).
    rewrite X by (apply sub_regs, R0 || (apply KR; lia)). rewrite aria_sub2_pub by apply R0. rewrite X by (auto; apply KR; lia).
    rewrite !KK by lia. exact eq_refl.
Qed.
Lemma aria_published : is_cipher aria_desc aria_lengths aria_cipher.
Proof.
  apply (is_cipher_default _ _ _ aria_default); [intros key Hk; change (bc_maxkey aria_desc) with 32%nat; unfold aria_lengths in Hk; lia|].
  intros key s Hb Hk Es pt Hp. apply aria_create_gen in Es.
  change (bc_enc aria_desc) with aria_encrypt. change (bc_bs aria_desc) with 16%nat in Hp.
  assert (LZ : length (zero_pad (aria_size (length key)) key) = aria_size (length key)).
  { apply length_zero_pad. unfold aria_size. destruct (Nat.leb_spec (length key) 16); [lia|]. destruct (Nat.leb_spec (length key) 24); [lia|]. unfold aria_lengths in Hk. lia. }
  assert (Er : N.to_nat (aria_rounds 0 key) = (8 + aria_size (length key) / 4)%nat).
  { unfold aria_rounds, aria_words. change (0 =? 0) with true. cbv iota zeta. unfold aria_size, aria_lengths in *. generalize dependent (length key). clear. intros n H _.
    do 33 (destruct n as [|n]; [try reflexivity; lia|]). lia. }
  assert (Hn : (12 <= N.to_nat (aria_rounds 0 key) <= 16)%nat).
  { rewrite Er. unfold aria_size. destruct (Nat.leb _ 16); [cbn; lia|]. destruct (Nat.leb _ 24); cbn; lia. }
  subst s. rewrite aria_any_enc by (assumption || lia). f_equal. rewrite Er. unfold aria_any, aria_cipher, aria_full, aria_full_any. cbv zeta. now rewrite LZ.
Qed.
