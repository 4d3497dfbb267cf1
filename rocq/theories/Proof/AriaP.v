From Coq Require Import NArith Arith List Bool Lia.
From Verif Require Import Lib.Word Lib.Res Lib.Bytes Lib.BlockLemmas Lib.Bij Lib.Bits Lib.Lin Lib.Spn Lib.Tele Lib.Feistel Spec.Block
  Model.LoadStore Model.BlockApi Model.Table Model.Aria Proof.TableP Proof.LoadStoreP.
Import ListNotations.
Local Open Scope N_scope.

(** ** The S layers *)
Definition aria_b1 (b : N) : N := byte (tab8 aria_s0 b).
Definition aria_b2 (b : N) : N := byte (tab8 aria_s1 b).
Definition aria_i1 (b : N) : N := byte (tab8 aria_is0 b).
Definition aria_i2 (b : N) : N := byte (wshr (tab8 aria_is1 b) 8).
Lemma aria_b1_lt b : b < 256 -> aria_b1 b < 256. Proof. intros _. apply byte_lt. Qed.
Lemma aria_b2_lt b : b < 256 -> aria_b2 b < 256. Proof. intros _. apply byte_lt. Qed.
Lemma aria_i1_lt b : b < 256 -> aria_i1 b < 256. Proof. intros _. apply byte_lt. Qed.
Lemma aria_i2_lt b : b < 256 -> aria_i2 b < 256. Proof. intros _. apply byte_lt. Qed.
Lemma aria_boxes b : b < 256 -> aria_i1 (aria_b1 b) = b /\ aria_i2 (aria_b2 b) = b /\ aria_b1 (aria_i1 b) = b /\ aria_b2 (aria_i2 b) = b.
Proof.
  intros Hb.
  pose proof (bytes_check (fun b => (aria_i1 (aria_b1 b) =? b) && (aria_i2 (aria_b2 b) =? b) && (aria_b1 (aria_i1 b) =? b) && (aria_b2 (aria_i2 b) =? b))
    b ltac:(vm_compute; reflexivity) Hb) as H.
  cbv beta in H. rewrite !andb_true_iff, !N.eqb_eq in H. tauto.
Qed.

Definition aria_sub1 (x : N) : N := be_val [aria_b1 (byte (wshr x 24)); aria_b2 (byte (wshr x 16)); aria_i1 (byte (wshr x 8)); aria_i2 (byte x)].
Definition aria_sub2 (x : N) : N := be_val [aria_i1 (byte (wshr x 24)); aria_i2 (byte (wshr x 16)); aria_b1 (byte (wshr x 8)); aria_b2 (byte x)].

Definition aria_c0 : list N := Eval vm_compute in cols aria_s0 aria_i1.
Definition aria_c1 : list N := Eval vm_compute in cols aria_s1 aria_i2.
Definition aria_c2 : list N := Eval vm_compute in cols aria_is0 aria_b1.
Definition aria_c3 : list N := Eval vm_compute in cols aria_is1 aria_b2.
Lemma aria_lins : tab_lin aria_s0 aria_c0 aria_b1 && tab_lin aria_s1 aria_c1 aria_b2 && tab_lin aria_is0 aria_c2 aria_i1 && tab_lin aria_is1 aria_c3 aria_i2 = true.
Proof. vm_compute. reflexivity. Qed.
Lemma aria_lins2 : tab_lin aria_is0 aria_c2 aria_i1 && tab_lin aria_is1 aria_c3 aria_i2 && tab_lin aria_s0 aria_c0 aria_b1 && tab_lin aria_s1 aria_c1 aria_b2 = true.
Proof.
  assert (H : forall a b c d, a && b && c && d = true -> c && d && a && b = true) by (now intros [] [] [] []).
  exact (H _ _ _ _ aria_lins).
Qed.
Lemma aria_msks : tab_msk aria_is0 0xFF000000 24 aria_i1 && tab_msk aria_is1 0x00FF0000 16 aria_i2 && tab_msk aria_s0 0x0000FF00 8 aria_b1
  && tab_msk aria_s1 0xFF 0 aria_b2 = true.
Proof. vm_compute. reflexivity. Qed.

Definition aria_mx1 (x : N) : N := mixw 4 [aria_c0; aria_c1; aria_c2; aria_c3] x.
Definition aria_mx2 (x : N) : N := mixw 4 [aria_c2; aria_c3; aria_c0; aria_c1] x.
Lemma aria_sw1_eq x : aria_sw1 x = aria_mx1 (aria_sub1 x).
Proof.
  exact (tab4_lin aria_s0 aria_s1 aria_is0 aria_is1 aria_c0 aria_c1 aria_c2 aria_c3 aria_b1 aria_b2 aria_i1 aria_i2
    aria_b1_lt aria_b2_lt aria_i1_lt aria_i2_lt (wshr x 24) (wshr x 16) (wshr x 8) x aria_lins).
Qed.
Lemma aria_sw2_eq x : aria_sw2 x = aria_mx2 (aria_sub2 x).
Proof.
  exact (tab4_lin aria_is0 aria_is1 aria_s0 aria_s1 aria_c2 aria_c3 aria_c0 aria_c1 aria_i1 aria_i2 aria_b1 aria_b2
    aria_i1_lt aria_i2_lt aria_b1_lt aria_b2_lt (wshr x 24) (wshr x 16) (wshr x 8) x aria_lins2).
Qed.
Lemma aria_swl_eq x : aria_swl x = aria_sub2 x.
Proof.
  exact (tab4_last aria_is0 aria_is1 aria_s0 aria_s1 aria_i1 aria_i2 aria_b1 aria_b2
    aria_i2_lt aria_b1_lt aria_b2_lt (wshr x 24) (wshr x 16) (wshr x 8) x aria_msks).
Qed.
Lemma aria_sub1_inw x : inw 32 (aria_sub1 x).
Proof. apply be4_inw; apply byte_lt. Qed.
Lemma aria_sub2_inw x : inw 32 (aria_sub2 x).
Proof. apply be4_inw; apply byte_lt. Qed.
Lemma aria_sub21 x : inw 32 x -> aria_sub2 (aria_sub1 x) = x.
Proof.
  intros Hx. unfold aria_sub2.
  destruct (be4_val (aria_b1 (byte (wshr x 24))) (aria_b2 (byte (wshr x 16))) (aria_i1 (byte (wshr x 8))) (aria_i2 (byte x))
    (byte_lt _) (byte_lt _) (byte_lt _) (byte_lt _)) as (E0 & E1 & E2 & E3).
  fold (aria_sub1 x) in E0, E1, E2, E3. rewrite E0, E1, E2, E3.
  destruct (aria_boxes _ (byte_lt (wshr x 24))) as (-> & _). destruct (aria_boxes _ (byte_lt (wshr x 16))) as (_ & -> & _).
  destruct (aria_boxes _ (byte_lt (wshr x 8))) as (_ & _ & -> & _). destruct (aria_boxes _ (byte_lt x)) as (_ & _ & _ & ->).
  now apply be4_id.
Qed.
Lemma aria_sub12 x : inw 32 x -> aria_sub1 (aria_sub2 x) = x.
Proof.
  intros Hx. unfold aria_sub1.
  destruct (be4_val (aria_i1 (byte (wshr x 24))) (aria_i2 (byte (wshr x 16))) (aria_b1 (byte (wshr x 8))) (aria_b2 (byte x))
    (byte_lt _) (byte_lt _) (byte_lt _) (byte_lt _)) as (E0 & E1 & E2 & E3).
  fold (aria_sub2 x) in E0, E1, E2, E3. rewrite E0, E1, E2, E3.
  destruct (aria_boxes _ (byte_lt (wshr x 24))) as (_ & _ & -> & _). destruct (aria_boxes _ (byte_lt (wshr x 16))) as (_ & _ & _ & ->).
  destruct (aria_boxes _ (byte_lt (wshr x 8))) as (-> & _). destruct (aria_boxes _ (byte_lt x)) as (_ & -> & _).
  now apply be4_id.
Qed.

(** ** The linear layer *)
Lemma aria_mx1_dm x : inw 32 x -> aria_mx1 x = aria_dm x.
Proof.
  intros Hx. apply (xlin_ext 32 aria_mx1 aria_dm); [apply mixw_xlin| |vm_compute; reflexivity|exact Hx].
  unfold aria_dm. repeat apply xlin_lxor; (apply xlin_shl || apply xlin_shr).
Qed.
Lemma aria_dm_lxor a b : aria_dm (N.lxor a b) = N.lxor (aria_dm a) (aria_dm b).
Proof. unfold aria_dm. rewrite !wshl_lxor, !wshr_lxor. xors. Qed.
Lemma aria_pb_lxor a b : aria_pb (N.lxor a b) = N.lxor (aria_pb a) (aria_pb b).
Proof.
  assert (E : forall x, aria_pb x = N.lxor (N.land (wshl 32 x 8) 0xFF00FF00) (N.land (wshr x 8) 0x00FF00FF)).
  { intros x. apply lor_disjoint. rewrite N.land_assoc, <- (N.land_assoc _ 0xFF00FF00), (N.land_comm 0xFF00FF00), N.land_assoc, <- N.land_assoc.
    change (N.land 0xFF00FF00 0x00FF00FF) with 0. apply N.land_0_r. }
  rewrite !E, wshl_lxor, wshr_lxor, !land_lxor. xors.
Qed.

Lemma byte_mask_bit n i : N.testbit (N.shiftl 255 n) i = (n <=? i) && (i <? n + 8).
Proof.
  change 255 with (N.ones 8). destruct (N.leb_spec n i) as [Le|Gt]; cbn [andb].
  - rewrite N.shiftl_spec_high' by exact Le. rewrite ones_spec.
    destruct (N.ltb_spec (i - n) 8), (N.ltb_spec i (n + 8)); reflexivity || lia.
  - now apply N.shiftl_spec_low.
Qed.
Lemma inw_bit w x i : inw w x -> w <= i -> N.testbit x i = false.
Proof. intros Hx Hi. rewrite <- (N.mod_small x (2 ^ w)) by exact Hx. now apply N.mod_pow2_bits_high. Qed.
Lemma aria_pd_xor d : inw 32 d -> aria_pd d =
  N.lxor (N.lxor (N.lxor (wshl 32 d 24) (wshr d 24)) (wshl 32 (N.land d 0x0000FF00) 8)) (wshr (N.land d 0x00FF0000) 8).
Proof.
  intros Hd. unfold aria_pd.
  change 0x0000FF00 with (N.shiftl 255 8). change 0x00FF0000 with (N.shiftl 255 16).
  apply N.bits_inj. intros i.
  rewrite !N.lor_spec, !N.lxor_spec, !wshl_spec, !wshr_spec, !N.land_spec, !byte_mask_bit.
  destruct (N.lt_ge_cases i 8) as [L8|G8].
  { rewrite (proj2 (N.leb_gt 24 i)), (proj2 (N.leb_gt 8 i)), (proj2 (N.leb_gt 16 (i + 8))) by lia. cbn [andb].
    rewrite !andb_false_r. cbn [orb xorb]. rewrite !orb_false_r, !xorb_false_r. now destruct (N.testbit d (i + 24)). }
  rewrite (inw_bit 32 d (i + 24)) by (exact Hd || lia).
  destruct (N.lt_ge_cases i 16) as [L16|G16].
  { rewrite (proj2 (N.leb_gt 24 i)), (proj2 (N.leb_gt 8 (i - 8))) by lia. cbn [andb].
    rewrite !andb_false_r. cbn [orb xorb]. now destruct (N.testbit d (i + 8)), ((16 <=? i + 8) && (i + 8 <? 16 + 8)). }
  rewrite (proj2 (N.ltb_ge (i + 8) (16 + 8))) by lia. rewrite !andb_false_r.
  destruct (N.lt_ge_cases i 24) as [L24|G24].
  { rewrite (proj2 (N.leb_gt 24 i)) by lia. cbn [andb]. rewrite !andb_false_r. cbn [orb xorb].
    rewrite ?orb_false_r, ?xorb_false_r, ?xorb_false_l.
    match goal with |- ?a = _ => now destruct a end. }
  rewrite (proj2 (N.ltb_ge (i - 8) (8 + 8))) by lia. rewrite !andb_false_r.
  rewrite ?orb_false_r, ?xorb_false_r. reflexivity.
Qed.
Lemma aria_pd_lxor a b : inw 32 a -> inw 32 b -> aria_pd (N.lxor a b) = N.lxor (aria_pd a) (aria_pd b).
Proof.
  intros Ha Hb. rewrite !aria_pd_xor by wb. rewrite !land_lxor, !wshl_lxor, !wshr_lxor. xors.
Qed.
Lemma aria_pc_lxor a b : inw 32 a -> inw 32 b -> aria_pc (N.lxor a b) = N.lxor (aria_pc a) (aria_pc b).
Proof. intros Ha Hb. apply rol_lxor; [discriminate|exact Ha|exact Hb]. Qed.
Lemma inw_shr w x n : inw w x -> inw w (wshr x n).
Proof. intros Hx. wb. Qed.
Lemma aria_pb_inw x : inw 32 x -> inw 32 (aria_pb x).
Proof. intros Hx. unfold aria_pb. apply inw_lor; apply inw_land; wb. Qed.
Lemma aria_pc_inw x : inw 32 x -> inw 32 (aria_pc x).
Proof. intros Hx. unfold aria_pc. wb. Qed.
Lemma aria_pd_inw x : inw 32 x -> inw 32 (aria_pd x).
Proof. intros Hx. unfold aria_pd. repeat apply inw_lor; try apply inw_wshl; apply inw_shr; [exact Hx|now apply inw_land]. Qed.
Lemma aria_dm_inw x : inw 32 x -> inw 32 (aria_dm x).
Proof. intros Hx. unfold aria_dm. repeat apply inw_lxor; (apply inw_wshl || now apply inw_shr). Qed.

Lemma aria_m_regs x : regs 32 4 x -> regs 32 4 (aria_m x).
Proof. intros Hx. list_cases Hx. unfold aria_m. cbn [nth]. cbv zeta. regs_list. Qed.
Lemma aria_p_regs x : regs 32 4 x -> regs 32 4 (aria_p x).
Proof.
  intros Hx. list_cases Hx. unfold aria_p. cbn [nth]. split; [reflexivity|].
  repeat (apply Forall_cons; [auto using aria_pb_inw, aria_pc_inw, aria_pd_inw|]). apply Forall_nil.
Qed.
Lemma aria_p2_regs x : regs 32 4 x -> regs 32 4 (aria_p2 x).
Proof.
  intros Hx. list_cases Hx. unfold aria_p2. cbn [nth]. split; [reflexivity|].
  repeat (apply Forall_cons; [auto using aria_pb_inw, aria_pc_inw, aria_pd_inw|]). apply Forall_nil.
Qed.
Lemma map_regs f n x : (forall a, inw 32 a -> inw 32 (f a)) -> regs 32 n x -> regs 32 n (map f x).
Proof.
  intros Hf [L W]. split; [now rewrite map_length|]. clear L. induction W; cbn [map]; constructor; auto.
Qed.
Lemma aria_m_lin : vlin 32 4 aria_m.
Proof.
  split; [reflexivity|]. intros a b Ha Hb. list_cases Ha. list_cases Hb. unfold aria_m. cbn [vxor nth]. cbv zeta. xors_list.
Qed.
Lemma aria_p_lin : vlin 32 4 aria_p.
Proof.
  split; [reflexivity|]. intros a b Ha Hb. list_cases Ha. list_cases Hb. unfold aria_p. cbn [vxor nth].
  now rewrite aria_pb_lxor, aria_pc_lxor, aria_pd_lxor by assumption.
Qed.
Lemma aria_p2_lin : vlin 32 4 aria_p2.
Proof.
  split; [reflexivity|]. intros a b Ha Hb. list_cases Ha. list_cases Hb. unfold aria_p2. cbn [vxor nth].
  now rewrite aria_pb_lxor, aria_pc_lxor, aria_pd_lxor by assumption.
Qed.
Lemma map_lin f n : (forall a b, f (N.lxor a b) = N.lxor (f a) (f b)) -> vlin 32 n (map f).
Proof.
  intros Hf. split; [intros x [L _]; now rewrite map_length|]. intros a b _ _. revert b.
  induction a as [|x a IH]; intros [|y b]; cbn [vxor map]; try reflexivity. now rewrite IH, Hf.
Qed.
Lemma aria_mx2_inw x : inw 32 (aria_mx2 x).
Proof. apply mixl_inw. repeat (apply Forall_cons; [apply words_okb; vm_compute; reflexivity|]). apply Forall_nil. Qed.

Lemma aria_inv_regs x : regs 32 4 x -> regs 32 4 (aria_inv x).
Proof. intros Hx. unfold aria_inv. apply aria_m_regs, aria_p_regs, aria_m_regs, map_regs; [exact aria_dm_inw|exact Hx]. Qed.
Lemma aria_inv_lin : vlin 32 4 aria_inv.
Proof.
  apply (vlin_comp 32 4 (fun x => aria_p (aria_m (map aria_dm x))) aria_m); [|apply aria_m_lin|].
  - apply (vlin_comp 32 4 (fun x => aria_m (map aria_dm x)) aria_p); [|apply aria_p_lin|].
    + apply (vlin_comp 32 4 (map aria_dm) aria_m); [apply map_lin, aria_dm_lxor|apply aria_m_lin|].
      intros x Hx. apply map_regs; [exact aria_dm_inw|exact Hx].
    + intros x Hx. apply aria_m_regs, map_regs; [exact aria_dm_inw|exact Hx].
  - intros x Hx. apply aria_p_regs, aria_m_regs, map_regs; [exact aria_dm_inw|exact Hx].
Qed.
Lemma aria_inv_inv x : regs 32 4 x -> aria_inv (aria_inv x) = x.
Proof.
  intros Hx. apply (vlin_ext_check 32 4 (fun x => aria_inv (aria_inv x)) (fun x => x)); [|apply vlin_id|vm_compute; reflexivity|exact Hx].
  apply (vlin_comp 32 4 aria_inv aria_inv); [apply aria_inv_lin|apply aria_inv_lin|exact aria_inv_regs].
Qed.
Lemma aria_other x : regs 32 4 x -> aria_m (aria_p2 (aria_m (map aria_mx2 x))) = aria_inv x.
Proof.
  assert (R : forall x, regs 32 4 x -> regs 32 4 (map aria_mx2 x)) by (intros y Hy; apply map_regs; [intros a _; apply aria_mx2_inw|exact Hy]).
  intros Hx. apply (vlin_ext_check 32 4 (fun x => aria_m (aria_p2 (aria_m (map aria_mx2 x)))) aria_inv); [|apply aria_inv_lin|vm_compute; reflexivity|exact Hx].
  apply (vlin_comp 32 4 (fun x => aria_p2 (aria_m (map aria_mx2 x))) aria_m); [|apply aria_m_lin|].
  - apply (vlin_comp 32 4 (fun x => aria_m (map aria_mx2 x)) aria_p2); [|apply aria_p2_lin|].
    + apply (vlin_comp 32 4 (map aria_mx2) aria_m); [apply map_lin; intros a b; apply mixw_lxor|apply aria_m_lin|exact R].
    + intros y Hy. apply aria_m_regs, R, Hy.
  - intros y Hy. apply aria_p2_regs, aria_m_regs, R, Hy.
Qed.

Lemma sub_regs n x : length x = n -> regs 32 n (map aria_sub2 x) /\ regs 32 n (map aria_sub1 x).
Proof.
  intros Hx. split; (split; [now rewrite map_length|]); apply Forall_forall; intros y Hy; apply in_map_iff in Hy;
    destruct Hy as (z & <- & _); [apply aria_sub2_inw|apply aria_sub1_inw].
Qed.
Lemma aria_odd_eq x : aria_odd x = aria_inv (map aria_sub1 x).
Proof.
  unfold aria_odd, aria_inv. do 3 f_equal. rewrite map_map. apply map_ext. intros a.
  rewrite aria_sw1_eq. apply aria_mx1_dm, aria_sub1_inw.
Qed.
Lemma aria_even_eq x : length x = 4%nat -> aria_even x = aria_inv (map aria_sub2 x).
Proof.
  intros Hx. unfold aria_even. rewrite (map_ext aria_sw2 (fun x => aria_mx2 (aria_sub2 x))) by exact aria_sw2_eq.
  rewrite <- (map_map aria_sub2 aria_mx2). apply aria_other. now apply sub_regs.
Qed.

Definition aria_sig (m i : nat) : list N -> list N := map (if Nat.ltb i m && Nat.even i then aria_sub1 else aria_sub2).

Lemma spn_regroup {A} (X : A -> A -> A) (L : A -> A) (s : nat -> A -> A) (k : nat -> A) x m :
  X (pfor m 0 (fun i x => L (s i (X x (k i)))) x) (k m) = pfor m 1 (fun i x => X (L (s (i - 1)%nat x)) (k i)) (X x (k 0%nat)).
Proof.
  induction m as [|m IH]; [reflexivity|]. rewrite !pfor_last, <- IH. cbn [Nat.add]. now rewrite Nat.sub_succ, Nat.sub_0_r.
Qed.

Lemma aria_crypt_eq k r b : length k = S (N.to_nat r) -> 0 < r ->
  aria_crypt k r b = Ok (stores store32b (spn aria_xor aria_inv (aria_sig (N.to_nat r - 1)) (N.to_nat r - 1) (fun i => nth i k []) (loads load32b 4 4 b))).
Proof.
  intros Hl Hr. unfold aria_crypt. set (m := (N.to_nat r - 1)%nat). cbv zeta.
  assert (Em : S m = N.to_nat r) by lia. clearbody m.
  rewrite (mfor_ext m 0 _ (fun i x => Ok (aria_inv (aria_sig m i (aria_xor x (nth i k [])))))).
  - rewrite mfor_Ok. cbn [bind]. rewrite !(get_ok _ _ []) by lia. cbn [bind].
    unfold spn. rewrite <- spn_regroup. assert (Z : forall y, map aria_swl y = aria_sig m m y).
    { intros y. unfold aria_sig. rewrite Nat.ltb_irrefl. cbn [andb]. apply map_ext. exact aria_swl_eq. }
    rewrite Z. reflexivity.
  - intros j y Hj. rewrite (get_ok _ _ []) by lia. cbn [bind]. f_equal. unfold aria_sig.
    rewrite (proj2 (Nat.ltb_lt j m)) by lia. cbn [andb]. destruct (Nat.even j); [apply aria_odd_eq|now apply aria_even_eq].
Qed.

Lemma aria_xor_eq a b : length a = 4%nat -> length b = 4%nat -> aria_xor a b = vxor a b.
Proof.
  intros Ha Hb. do 4 (destruct a as [|? a]; [discriminate Ha|]). destruct a; [|discriminate Ha].
  do 4 (destruct b as [|? b]; [discriminate Hb|]). destruct b; [|discriminate Hb]. reflexivity.
Qed.

Lemma aria_pbij m k dk : Nat.odd m = true -> (forall i, (i <= S m)%nat -> regs 32 4 (k i)) ->
  dk 0%nat = k (S m) -> dk (S m) = k 0%nat -> (forall i, (0 < i <= m)%nat -> dk i = aria_inv (k (S m - i)%nat)) ->
  pbij (regs 32 4) (spn aria_xor aria_inv (aria_sig m) m k) (spn aria_xor aria_inv (aria_sig m) m dk).
Proof.
  intros Hm Hk D0 Dr Di.
  assert (SR : forall i a, regs 32 4 a -> regs 32 4 (aria_sig m i a)).
  { intros i a [La _]. unfold aria_sig. destruct (_ && _); now apply sub_regs. }
  assert (SS : forall i a, (i <= m)%nat -> regs 32 4 a -> aria_sig m i (aria_sig m (m - i) a) = a).
  { intros i a Hi [_ Wa].
    assert (P : forall i, (i <= m)%nat -> Nat.ltb i m && Nat.even i = Nat.even i).
    { intros j Hj. destruct (Nat.ltb_spec j m); [reflexivity|]. assert (j = m) by lia. subst j.
      rewrite <- Nat.negb_odd, Hm. reflexivity. }
    unfold aria_sig. rewrite !P by lia. rewrite Nat.even_sub by exact Hi.
    rewrite <- (Nat.negb_odd m), Hm. cbn [negb]. rewrite map_map.
    rewrite <- (map_id a) at 2. apply map_ext_in. intros x Hx.
    unfold words_ok in Wa. rewrite Forall_forall in Wa. specialize (Wa x Hx).
    destruct (Nat.even i); cbn [Bool.eqb]; [now apply aria_sub12|now apply aria_sub21]. }
  apply spn_pbij; auto.
  - intros a b [La Wa] [Lb Wb]. rewrite aria_xor_eq by assumption. apply regs_vxor; now split.
  - intros a b [La Wa] [Lb Wb]. rewrite !aria_xor_eq by (rewrite ?aria_xor_eq, ?length_vxor by assumption; lia). apply vxor_cancel. lia.
  - exact aria_inv_regs.
  - intros a b Ha Hb. pose proof (aria_inv_regs a Ha) as Ra. pose proof (aria_inv_regs b Hb) as Rb.
    rewrite !aria_xor_eq by (apply Ha || apply Hb || apply Ra || apply Rb). now apply aria_inv_lin.
  - exact aria_inv_inv.
Qed.

(** ** The key schedule *)
Lemma aria_xor_regs a b : words_ok 32 a -> words_ok 32 b -> regs 32 4 (aria_xor a b).
Proof.
  intros Wa Wb. split; [reflexivity|]. unfold aria_xor.
  repeat (apply Forall_cons; [apply inw_lxor; now apply words_nth|]). apply Forall_nil.
Qed.
Lemma aria_odd_regs a : regs 32 4 a -> regs 32 4 (aria_odd a).
Proof. intros [L _]. rewrite aria_odd_eq. apply aria_inv_regs. now apply sub_regs. Qed.
Lemma aria_even_regs a : regs 32 4 a -> regs 32 4 (aria_even a).
Proof. intros [L _]. rewrite aria_even_eq by exact L. apply aria_inv_regs. now apply sub_regs. Qed.
Lemma aria_expand_words key : bytes_ok key -> Forall (words_ok 32) (aria_expand key).
Proof.
  intros Hk. destruct (key32b_ok key 8 Hk) as [Lk Wk]. unfold aria_expand. cbv zeta.
  assert (C : forall i, words_ok 32 (nth i aria_kcon [])).
  { intros i. assert (F : Forall (words_ok 32) aria_kcon)
      by (unfold aria_kcon; repeat (apply Forall_cons; [apply words_okb; vm_compute; reflexivity|]); apply Forall_nil).
    destruct (Nat.lt_ge_cases i (length aria_kcon)) as [Lt|Ge]; [|rewrite nth_overflow by exact Ge; constructor].
    rewrite Forall_forall in F. now apply F, nth_In. }
  set (k0 := firstn 4 (key32b key 8)). assert (W0 : words_ok 32 k0) by now apply words_firstn.
  set (k4 := skipn 4 (key32b key 8)). assert (W4 : words_ok 32 k4) by now apply words_skipn.
  match goal with |- context [aria_odd (aria_xor k0 ?c)] => set (x0 := aria_odd (aria_xor k0 c)) end.
  assert (X0 : words_ok 32 x0) by (apply aria_odd_regs, aria_xor_regs; auto).
  set (k1 := aria_xor k4 x0). assert (W1 : words_ok 32 k1) by now apply aria_xor_regs.
  match goal with |- context [aria_even (aria_xor k1 ?c)] => set (x1 := aria_even (aria_xor k1 c)) end.
  assert (X1 : words_ok 32 x1) by (apply aria_even_regs, aria_xor_regs; auto).
  set (k2 := aria_xor x1 k0). assert (W2 : words_ok 32 k2) by now apply aria_xor_regs.
  match goal with |- context [aria_odd (aria_xor k2 ?c)] => set (x2 := aria_odd (aria_xor k2 c)) end.
  assert (X2 : words_ok 32 x2) by (apply aria_odd_regs, aria_xor_regs; auto).
  repeat (apply Forall_cons; [assumption || now apply aria_xor_regs|]). apply Forall_nil.
Qed.
Lemma aria_rkey_regs x y n : words_ok 32 x -> words_ok 32 y -> regs 32 4 (aria_rkey x y n).
Proof.
  intros Wx Wy. split; [reflexivity|]. unfold aria_rkey.
  repeat (apply Forall_cons; [apply inw_lxor; [now apply words_nth|apply inw_lor; [apply inw_shr; now apply words_nth|apply inw_wshl]]|]).
  apply Forall_nil.
Qed.
Lemma aria_keys_regs n key i : bytes_ok key -> (i <= n)%nat -> regs 32 4 (nth i (aria_keys n key) []).
Proof.
  intros Hk Hi. pose proof (aria_expand_words key Hk) as W.
  assert (N4 : forall j, words_ok 32 (nth j (aria_expand key) [])).
  { intros j. destruct (Nat.lt_ge_cases j (length (aria_expand key))) as [Lt|Ge]; [|rewrite nth_overflow by exact Ge; constructor].
    rewrite Forall_forall in W. now apply W, nth_In. }
  unfold aria_keys. cbv zeta.
  match goal with |- regs 32 4 (nth i (map ?f ?l) []) => rewrite (nth_indep _ [] (f 0%nat)) by (rewrite map_length, seq_length; lia);
    rewrite (map_nth f l 0%nat i) end.
  rewrite seq_nth by lia. apply aria_rkey_regs; apply N4.
Qed.

(** the groups of dk: those written by the loop, then the last one *)
Lemma aria_nth_upd (l : list (list N)) i j x : nth i (upd l j x) [] = if Nat.eqb i j && Nat.ltb j (length l) then x else nth i l [].
Proof.
  revert i j. induction l as [|a l IH]; intros i j; cbn [upd length].
  - rewrite andb_false_r. reflexivity.
  - destruct j as [|j], i as [|i]; try reflexivity. cbn [nth]. rewrite IH. reflexivity.
Qed.
Lemma aria_length_upd (l : list (list N)) j x : length (upd l j x) = length l.
Proof. revert j. induction l as [|a l IH]; intros [|j]; cbn [upd length]; auto. Qed.

Lemma aria_dkeys_ok n k : (2 <= n)%nat -> let dk := aria_dkeys n k in
  length dk = S n /\ nth 0 dk [] = nth n k [] /\ nth n dk [] = nth 0 k [] /\
  (forall i, (0 < i < n)%nat -> nth i dk [] = aria_inv (nth (n - i) k [])).
Proof.
  intros Hn. cbv zeta. unfold aria_dkeys. cbv zeta.
  set (d0 := upd (upd (repeat [] (n + 1)) n (nth 0 k [])) 0 (nth n k [])).
  set (f := fun i dk => upd (upd dk (n - i) (aria_inv (nth i k []))) i (aria_inv (nth (n - i) k []))).
  assert (L0 : length d0 = S n) by (unfold d0; rewrite !aria_length_upd, repeat_length; lia).
  assert (Z0 : nth 0 d0 [] = nth n k []).
  { unfold d0. rewrite aria_nth_upd, aria_length_upd, repeat_length. replace (Nat.ltb 0 (n + 1)) with true by (symmetry; apply Nat.ltb_lt; lia). reflexivity. }
  assert (Zn : nth n d0 [] = nth 0 k []).
  { unfold d0. rewrite !aria_nth_upd, repeat_length. rewrite (proj2 (Nat.eqb_neq n 0)) by lia. cbn [andb].
    rewrite Nat.eqb_refl, (proj2 (Nat.ltb_lt n (n + 1))) by lia. reflexivity. }
  clearbody d0.
  pose proof (Nat.div_mod (n - 1) 2 ltac:(discriminate)) as D. pose proof (Nat.mod_upper_bound (n - 1) 2 ltac:(discriminate)) as T.
  set (m := ((n - 1) / 2)%nat) in *. set (t := ((n - 1) mod 2)%nat) in *. clearbody m t.
  assert (I : forall j, (j <= m)%nat -> let dk := pfor j 1 f d0 in
    length dk = S n /\ nth 0 dk [] = nth n k [] /\ nth n dk [] = nth 0 k [] /\
    (forall i, (0 < i <= j \/ n - j <= i < n)%nat -> nth i dk [] = aria_inv (nth (n - i) k []))).
  { induction j as [|j IH]; intros Hj; cbv zeta.
    - cbn [pfor]. repeat split; auto. intros i Hi. lia.
    - rewrite pfor_last. cbn [Nat.add]. destruct (IH ltac:(lia)) as (L & A0 & An & Ai).
      set (dk := pfor j 1 f d0) in *. clearbody dk. unfold f.
      assert (G : forall i, nth i (upd (upd dk (n - S j) (aria_inv (nth (S j) k []))) (S j) (aria_inv (nth (n - S j) k []))) [] =
        if Nat.eqb i (S j) then aria_inv (nth (n - S j) k []) else if Nat.eqb i (n - S j) then aria_inv (nth (S j) k []) else nth i dk []).
      { intros i. rewrite !aria_nth_upd, aria_length_upd, L. rewrite (proj2 (Nat.ltb_lt (S j) (S n))) by lia.
        rewrite (proj2 (Nat.ltb_lt (n - S j) (S n))) by lia. now rewrite !andb_true_r. }
      split; [now rewrite !aria_length_upd|]. rewrite !G.
      rewrite (proj2 (Nat.eqb_neq 0 (S j))), (proj2 (Nat.eqb_neq 0 (n - S j))) by lia.
      rewrite (proj2 (Nat.eqb_neq n (S j))), (proj2 (Nat.eqb_neq n (n - S j))) by lia.
      split; [exact A0|]. split; [exact An|]. intros i Hi. rewrite G.
      destruct (Nat.eqb_spec i (S j)) as [->|N1]; [reflexivity|].
      destruct (Nat.eqb_spec i (n - S j)) as [->|N2]; [do 2 f_equal; lia|]. apply Ai. lia. }
  destruct (I m ltac:(lia)) as (L & A0 & An & Ai). set (dk := pfor m 1 f d0) in *. clearbody dk.
  assert (G : forall i, nth i (upd dk (n - 1 - m) (aria_inv (nth (m + 1) k []))) [] =
    if Nat.eqb i (n - 1 - m) then aria_inv (nth (m + 1) k []) else nth i dk []).
  { intros i. rewrite aria_nth_upd, L. rewrite (proj2 (Nat.ltb_lt (n - 1 - m) (S n))) by lia. now rewrite andb_true_r. }
  split; [now rewrite aria_length_upd|]. rewrite !G.
  rewrite (proj2 (Nat.eqb_neq 0 (n - 1 - m))), (proj2 (Nat.eqb_neq n (n - 1 - m))) by lia.
  split; [exact A0|]. split; [exact An|]. intros i Hi. rewrite G.
  destruct (Nat.eqb_spec i (n - 1 - m)) as [->|N1]; [do 2 f_equal; lia|]. apply Ai. lia.
Qed.

Lemma aria_fits q : q < 2 ^ 27 - 1 -> 8 * (q + 1) <= wshl 32 (wadd 32 q 1) 5 / 4.
Proof.
  change (2 ^ 27) with 134217728. intros Hq. unfold wshl, wadd. rewrite N.shiftl_mul_pow2. change (2 ^ 5) with 32.
  rewrite !mask_id by (rewrite ?mask_id by (unfold inw; change (2 ^ 32) with 4294967296; lia); unfold inw; change (2 ^ 32) with 4294967296; lia).
  apply N.div_le_lower_bound; lia.
Qed.
Lemma aria_words_bound key : key_ok 32 key -> (1 <= aria_words key <= 8)%nat.
Proof.
  intros [_ Hl]. unfold aria_words. split.
  - apply Nat.div_le_lower_bound; lia.
  - apply Nat.lt_succ_r. apply Nat.div_lt_upper_bound; lia.
Qed.

Lemma aria_setup_perm m key : bytes_ok key -> 0 < m ->
  permutation 16 (aria_encrypt (aria_setup (2 * m) key)) (aria_decrypt (aria_setup (2 * m) key)).
Proof.
  intros Hk Hm. apply perm_of_bij. unfold aria_encrypt, aria_decrypt, aria_setup. cbv zeta. cbn [aria_k aria_r aria_dk].
  set (n := N.to_nat (2 * m)). set (k := aria_keys n key).
  destruct (aria_dkeys_ok n k ltac:(lia)) as (Ld & D0 & Dn & Di). set (dk := aria_dkeys n k) in *. clearbody dk.
  assert (Lk : length k = S n) by (unfold k, aria_keys; cbv zeta; rewrite map_length, seq_length; lia).
  assert (Rk : forall i, (i <= n)%nat -> regs 32 4 (nth i k [])) by (intros i Hi; now apply aria_keys_regs).
  clearbody k.
  assert (En : S (n - 1) = n) by lia.
  assert (B : pbij (regs 32 4) (spn aria_xor aria_inv (aria_sig (n - 1)) (n - 1) (fun i => nth i k []))
                               (spn aria_xor aria_inv (aria_sig (n - 1)) (n - 1) (fun i => nth i dk []))).
  { apply aria_pbij; rewrite ?En; auto.
    - apply Nat.odd_spec. exists (N.to_nat m - 1)%nat. lia.
    - intros i Hi. apply Di. lia. }
  pose proof (lift_bij (blk 16) (regs 32 4) _ _ _ _ (loads_bij codec32b 4) (pbij_bij _ _ _ B)) as G.
  eapply bij_ext; [| |exact G]; intros x Hx; cbn [bind]; symmetry; apply aria_crypt_eq; assumption || lia.
Qed.

Lemma aria_perm m key : key_ok 32 key -> 2 * m < 2 ^ 27 - 1 ->
  exists s, aria_create (2 * m) key = Ok s /\ permutation 16 (aria_encrypt s) (aria_decrypt s).
Proof.
  intros Hk Hm. unfold aria_create. rewrite assert_true by now apply key_len_ok_true. cbv zeta.
  pose proof (aria_words_bound key Hk) as Hn.
  assert (R : exists q, aria_rounds (2 * m) key = 2 * q /\ 0 < q /\ 2 * q < 2 ^ 27 - 1).
  { unfold aria_rounds. destruct (N.eqb_spec (2 * m) 0) as [E|E].
    - set (r := 8 + N.of_nat (aria_words key)). assert (Hr : r <= 16) by lia. clearbody r.
      assert (X : exists q, (if N.odd r then r + 1 else r) = 2 * q).
      { destruct (N.odd r) eqn:O.
        - apply N.odd_spec in O. destruct O as [y ->]. exists (y + 1). lia.
        - rewrite <- N.negb_even in O. apply negb_false_iff, N.even_spec in O. destruct O as [y ->]. now exists y. }
      destruct X as [q Eq]. rewrite Eq. assert (Q : 2 * q <= 17) by (rewrite <- Eq; destruct (N.odd r); lia).
      exists (N.max 6 q). change (2 ^ 27) with 134217728. lia.
    - exists m. lia. }
  destruct R as (q & -> & Hq & Hb). rewrite fits_ok by now apply aria_fits.
  eexists. split; [reflexivity|]. now apply aria_setup_perm; [apply Hk|].
Qed.

(** odd numbers of rounds: the last S layer is the wrong one for the way back *)
Definition aria_odd_bad (r : N) (key pt : list N) : bool :=
  match aria_create r key with
  | Ok s => match aria_encrypt s pt with
            | Ok ct => match aria_decrypt s ct with
                       | Ok p => if list_eq_dec N.eq_dec p pt then false else true
                       | Err _ => false end
            | Err _ => false end
  | Err _ => false end.
Lemma aria_odd_rounds : aria_odd_bad 1 (repeat 0 16) (repeat 0 16) && aria_odd_bad 13 (repeat 0 16) (repeat 0 16) = true.
Proof. vm_compute. reflexivity. Qed.
