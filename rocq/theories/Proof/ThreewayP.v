From Coq Require Import NArith Arith List Bool Lia.
From Verif Require Import Lib.Word Lib.Res Lib.Bytes Lib.Bij Lib.Bits Lib.BlockLemmas Spec.Block
  Model.LoadStore Model.BlockApi Model.Threeway.
Import ListNotations.
Local Open Scope N_scope.

Lemma land_masks x y a b : N.land a b = 0 -> N.land (N.land x a) (N.land y b) = 0.
Proof.
  intros H. apply N.bits_inj. intros i. rewrite !N.land_spec, N.bits_0.
  assert (E : N.testbit (N.land a b) i = false) by (rewrite H; apply N.bits_0). rewrite N.land_spec in E.
  destruct (N.testbit x i), (N.testbit y i), (N.testbit a i), (N.testbit b i); try reflexivity; discriminate.
Qed.

Lemma rev_bytes_inw x : inw 32 x -> inw 32 (rev_bytes x).
Proof. intros H. unfold rev_bytes. wb. Qed.
Lemma rev_bytes_lin : xlin 32 rev_bytes.
Proof.
  apply (xlin_same 32 (fun x => N.lxor (N.land (ror 32 x 8) 0xFF00FF00) (N.land (rol 32 x 8) 0x00FF00FF))).
  - intros x _. unfold rev_bytes. apply lor_disjoint. now apply land_masks.
  - intros a b Ha Hb. rewrite ror_lxor, rol_lxor, !land_lxor by (wb || lia). xors.
Qed.

(** (x & a) >> n | (x & b) << n with disjoint shifted masks *)
Lemma swap_disjoint x a b n : N.land (wshr a n) (wshl 32 b n) = 0 ->
  N.lor (wshr (N.land x a) n) (wshl 32 (N.land x b) n) = N.lxor (wshr (N.land x a) n) (wshl 32 (N.land x b) n).
Proof.
  intros H. apply lor_disjoint. apply N.bits_inj. intros i.
  assert (E : N.testbit (N.land (wshr a n) (wshl 32 b n)) i = false) by (rewrite H; apply N.bits_0).
  rewrite N.land_spec, wshr_spec, wshl_spec in *. rewrite !N.land_spec, N.bits_0.
  destruct (i <? 32), (n <=? i), (N.testbit x (i + n)), (N.testbit x (i - n)), (N.testbit a (i + n)), (N.testbit b (i - n));
    try reflexivity; discriminate.
Qed.
Lemma swap_lin a b n : N.land (wshr a n) (wshl 32 b n) = 0 ->
  xlin 32 (fun x => N.lor (wshr (N.land x a) n) (wshl 32 (N.land x b) n)).
Proof.
  intros H. eapply xlin_same; [intros x _; now apply swap_disjoint|].
  intros x y Hx Hy. rewrite !land_lxor, wshr_lxor, wshl_lxor. xors.
Qed.
Lemma swap_inw x a b n : inw 32 x -> inw 32 (N.lor (wshr (N.land x a) n) (wshl 32 (N.land x b) n)).
Proof. intros H. wb. Qed.

Lemma rev_bits_lin : xlin 32 rev_bits.
Proof.
  unfold rev_bits.
  apply (xlin_comp 32 32 (fun x => let x := N.lor (wshr (N.land x 0xAAAAAAAA) 1) (wshl 32 (N.land x 0x55555555) 1) in
     N.lor (wshr (N.land x 0xCCCCCCCC) 2) (wshl 32 (N.land x 0x33333333) 2))
     (fun x => N.lor (wshr (N.land x 0xF0F0F0F0) 4) (wshl 32 (N.land x 0x0F0F0F0F) 4))).
  - apply (xlin_comp 32 32 (fun x => N.lor (wshr (N.land x 0xAAAAAAAA) 1) (wshl 32 (N.land x 0x55555555) 1))
     (fun x => N.lor (wshr (N.land x 0xCCCCCCCC) 2) (wshl 32 (N.land x 0x33333333) 2))).
    + now apply swap_lin.
    + now apply swap_lin.
    + intros x. apply swap_inw.
  - now apply swap_lin.
  - intros x Hx. apply swap_inw, swap_inw, Hx.
Qed.
Lemma rev_bits_inw x : inw 32 x -> inw 32 (rev_bits x).
Proof. intros H. unfold rev_bits. cbv zeta. apply swap_inw, swap_inw, swap_inw, H. Qed.

Definition rho (x : N) : N := rev_bits (rev_bytes x).
Lemma rho_inw x : inw 32 x -> inw 32 (rho x).
Proof. intros H. apply rev_bits_inw, rev_bytes_inw, H. Qed.
#[local] Hint Resolve rho_inw rev_bits_inw rev_bytes_inw : wb.
Lemma rho_lin : xlin 32 rho.
Proof. apply (xlin_comp 32 32 rev_bytes rev_bits); [apply rev_bytes_lin|apply rev_bits_lin|apply rev_bytes_inw]. Qed.

Lemma rho_bit x i : inw 32 x -> i < 32 -> N.testbit (rho x) i = N.testbit x (31 - i).
Proof. apply (xlin_bitperm 32 rho (fun i => 31 - i) rho_lin). vm_compute. reflexivity. Qed.

Lemma rho_invol x : inw 32 x -> rho (rho x) = x.
Proof.
  intros H. apply (word_ext 32); [wb|wb|]. intros i Hi. rewrite !rho_bit by (wb || lia). f_equal. lia.
Qed.
Lemma rev_comm x : inw 32 x -> rev_bytes (rev_bits x) = rho x.
Proof.
  apply (xlin_ext 32 (fun x => rev_bytes (rev_bits x)) rho).
  - apply (xlin_comp 32 32 rev_bits rev_bytes); [apply rev_bits_lin|apply rev_bytes_lin|apply rev_bits_inw].
  - apply rho_lin.
  - vm_compute. reflexivity.
Qed.
Lemma rev_bytes_invol x : inw 32 x -> rev_bytes (rev_bytes x) = x.
Proof.
  apply (xlin_ext 32 (fun x => rev_bytes (rev_bytes x)) (fun x => x)).
  - apply (xlin_comp 32 32 rev_bytes rev_bytes); [apply rev_bytes_lin|apply rev_bytes_lin|apply rev_bytes_inw].
  - apply xlin_id.
  - vm_compute. reflexivity.
Qed.

Lemma rho_ror x n : inw 32 x -> n <= 32 -> rho (rol 32 x n) = ror 32 (rho x) n.
Proof.
  intros Hx Hn. apply (word_ext 32); [wb|wb|]. intros i Hi.
  rewrite rho_bit, rol_spec, ror_spec by (wb || lia).
  destruct (N.leb_spec n (31 - i)), (N.ltb_spec (i + n) 32); try lia; rewrite rho_bit by (wb || lia); f_equal; lia.
Qed.

Lemma load32l_rev l o : bytes_ok l -> load32l l o = rev_bytes (load32b l o).
Proof.
  intros H. unfold load32l, load32b.
  assert (B : forall i, inw 8 (b_ l i)) by (intros i; apply bytes_nth, H).
  assert (D : forall a b n, inw n a -> N.lor a (N.shiftl b n) = N.lxor a (N.shiftl b n)).
  { intros a b n Ha. apply lor_disjoint. apply N.bits_inj. intros i. rewrite N.land_spec, N.bits_0.
    destruct (N.lt_ge_cases i n) as [L|L]; [rewrite (N.shiftl_spec_low b) by exact L; apply andb_false_r|].
    now rewrite (inw_high n a i Ha L). }
  assert (S : forall a n, inw 8 a -> n <= 24 -> inw (8 + n) (N.shiftl a n)).
  { intros a n Ha Hn. unfold inw in *. rewrite N.shiftl_mul_pow2, N.pow_add_r. pose proof (pow2_pos n). change (2 ^ 8) with 256 in *. nia. }
  assert (M : forall v x, inw v x -> v <= 32 -> inw 32 x) by (intros v x Hv Hx; now apply (inw_mono v)).
  repeat match goal with |- context [b_ l ?e] =>
    let Hb := fresh "Hb" in pose proof (B e) as Hb; generalize dependent (b_ l e); intros end.
  assert (E : forall b0 b1 b2 b3, inw 8 b0 -> inw 8 b1 -> inw 8 b2 -> inw 8 b3 ->
    N.lor (N.lor (N.lor b0 (N.shiftl b1 8)) (N.shiftl b2 16)) (N.shiftl b3 24) =
    N.lxor (N.lxor (N.lxor b0 (N.shiftl b1 8)) (N.shiftl b2 16)) (N.shiftl b3 24)).
  { intros b0 b1 b2 b3 H0 H1 H2 H3.
    rewrite (D b0 b1 8) by exact H0.
    assert (I1 : inw 16 (N.lxor b0 (N.shiftl b1 8))).
    { apply inw_lxor; [apply (inw_mono 8); [lia|exact H0]|apply (S b1 8 H1); lia]. }
    rewrite (D _ b2 16) by exact I1.
    assert (I2 : inw 24 (N.lxor (N.lxor b0 (N.shiftl b1 8)) (N.shiftl b2 16))).
    { apply inw_lxor; [apply (inw_mono 16); [lia|exact I1]|apply (S b2 16 H2); lia]. }
    now rewrite (D _ b3 24) by exact I2. }
  rewrite !E by assumption.
  assert (L : forall b, inw 8 b -> rev_bytes (N.shiftl b 24) = b /\ rev_bytes (N.shiftl b 16) = N.shiftl b 8 /\
     rev_bytes (N.shiftl b 8) = N.shiftl b 16 /\ rev_bytes b = N.shiftl b 24).
  { assert (X : forall h, h <= 24 -> xlin 8 (fun b => rev_bytes (N.shiftl b h))).
    { intros h Hh a b Ha Hb'. rewrite N.shiftl_lxor. apply rev_bytes_lin.
      - apply (M (8 + h)); [now apply S|lia].
      - apply (M (8 + h)); [now apply S|lia]. }
    assert (Y : forall h, xlin 8 (fun b => N.shiftl b h)) by (intros h a b _ _; apply N.shiftl_lxor).
    intros b Hb'. repeat split.
    - apply (xlin_ext 8 (fun b => rev_bytes (N.shiftl b 24)) (fun b => b)); [apply X; lia|apply xlin_id|vm_compute; reflexivity|exact Hb'].
    - apply (xlin_ext 8 (fun b => rev_bytes (N.shiftl b 16)) (fun b => N.shiftl b 8)); [apply X; lia|apply Y|vm_compute; reflexivity|exact Hb'].
    - apply (xlin_ext 8 (fun b => rev_bytes (N.shiftl b 8)) (fun b => N.shiftl b 16)); [apply X; lia|apply Y|vm_compute; reflexivity|exact Hb'].
    - apply (xlin_ext 8 rev_bytes (fun b => N.shiftl b 24)); [|apply Y|vm_compute; reflexivity|exact Hb'].
      intros u v Hu Hv. apply rev_bytes_lin; apply (M 8); (assumption || lia). }
  assert (K : forall b h, inw 8 b -> h <= 24 -> inw 32 (N.shiftl b h)).
  { intros b h Hb' Hh. apply (M (8 + h)); [now apply S|lia]. }
  assert (K0 : forall b, inw 8 b -> inw 32 b) by (intros b Hb'; apply (M 8); [exact Hb'|lia]).
  rewrite !rev_bytes_lin by (repeat apply inw_lxor; first [apply K0; assumption | apply K; [assumption|lia]]).
  repeat match goal with H : inw 8 ?b |- _ => destruct (L b H) as (? & ? & ? & ?); clear H end.
  repeat match goal with H : rev_bytes _ = _ |- _ => rewrite H; clear H end. xors.
Qed.

Lemma loads_rev n l : bytes_ok l -> loads load32l 4 n l = map rev_bytes (loads load32b 4 n l).
Proof. intros H. unfold loads. rewrite map_map. apply map_ext. intros i. now apply load32l_rev. Qed.

Lemma store32l_rev x : inw 32 x -> store32l x = store32b (rev_bytes x).
Proof.
  intros H. unfold store32l, store32b.
  assert (E : forall n m, xlin 32 (fun x => byte (N.shiftr (rev_bytes x) n)) -> xlin 32 (fun x => byte (N.shiftr x m)) ->
    forallb (fun i => byte (N.shiftr (rev_bytes (2 ^ N.of_nat i)) n) =? byte (N.shiftr (2 ^ N.of_nat i) m)) (seq 0 32) = true ->
    byte (N.shiftr x m) = byte (N.shiftr (rev_bytes x) n)).
  { intros n m Hn Hm C. symmetry. exact (xlin_ext 32 _ _ Hn Hm C x H). }
  assert (X : forall n, xlin 32 (fun x => byte (N.shiftr (rev_bytes x) n))).
  { intros n a b Ha Hb. rewrite rev_bytes_lin, N.shiftr_lxor by assumption. apply land_lxor. }
  assert (Y : forall n, xlin 32 (fun x => byte (N.shiftr x n))).
  { intros n a b Ha Hb. rewrite N.shiftr_lxor. apply land_lxor. }
  pose proof (E 24 0 (X 24) (Y 0) eq_refl) as E0. rewrite N.shiftr_0_r in E0.
  pose proof (E 0 24 (X 0) (Y 24) eq_refl) as E3. rewrite (N.shiftr_0_r (rev_bytes x)) in E3.
  rewrite E0, E3, (E 16 8 (X 16) (Y 8) eq_refl), (E 8 16 (X 8) (Y 16) eq_refl). reflexivity.
Qed.
Lemma stores_rev x : words_ok 32 x -> stores store32l x = stores store32b (map rev_bytes x).
Proof.
  unfold stores. induction 1 as [|a x Ha Hx IH]; [reflexivity|]. cbn [flat_map map]. now rewrite IH, store32l_rev.
Qed.

(** Reversal of the 96 bits of the state *)
Definition tw_M (x : list N) : list N := [rho (nth 2 x 0); rho (nth 1 x 0); rho (nth 0 x 0)].

Lemma tw_M_regs x : regs 32 3 x -> regs 32 3 (tw_M x).
Proof. intros Hx. list_cases Hx. unfold tw_M. cbn [nth]. regs_list. Qed.
Lemma tw_M_invol x : regs 32 3 x -> tw_M (tw_M x) = x.
Proof. intros Hx. list_cases Hx. unfold tw_M. cbn [nth]. now rewrite !rho_invol by assumption. Qed.
Lemma tw_M_bij : pbij (regs 32 3) tw_M tw_M.
Proof. split; intros x Hx; (split; [now apply tw_M_regs|now apply tw_M_invol]). Qed.
Lemma tw_M_lin : vlin 32 3 tw_M.
Proof.
  split; [reflexivity|]. intros a b Ha Hb. list_cases Ha. list_cases Hb. unfold tw_M. cbn [nth vxor].
  now rewrite !rho_lin by assumption.
Qed.

Lemma tw_theta_regs x : regs 32 3 x -> regs 32 3 (tw_theta x).
Proof. intros Hx. list_cases Hx. unfold tw_theta. cbn [nth]. regs_list. Qed.
Lemma tw_theta_lin : vlin 32 3 tw_theta.
Proof.
  split; [reflexivity|]. intros a b Ha Hb. list_cases Ha. list_cases Hb. unfold tw_theta. cbn [nth vxor].
  replace (N.lxor (N.lxor (N.lxor n n2) (N.lxor n0 n3)) (N.lxor n1 n4))
    with (N.lxor (N.lxor (N.lxor n n0) n1) (N.lxor (N.lxor n2 n3) n4)) by xors.
  rewrite !rol_lxor by (wb || lia).
  repeat (rewrite ?wshl_lxor, ?wshr_lxor). xors_list.
Qed.

Lemma tw_theta_M x : regs 32 3 x -> tw_theta (tw_M (tw_theta x)) = tw_M x.
Proof.
  apply (vlin_ext_check 32 3 (fun x => tw_theta (tw_M (tw_theta x))) tw_M).
  - apply (vlin_comp 32 3 (fun x => tw_M (tw_theta x)) tw_theta).
    + apply (vlin_comp 32 3 tw_theta tw_M); [apply tw_theta_lin|apply tw_M_lin|apply tw_theta_regs].
    + apply tw_theta_lin.
    + intros y Hy. now apply tw_M_regs, tw_theta_regs.
  - apply tw_M_lin.
  - vm_compute. reflexivity.
Qed.

Lemma tw_pgp_regs x : regs 32 3 x -> regs 32 3 (tw_pgp x).
Proof. intros Hx. list_cases Hx. unfold tw_pgp. cbn [nth]. regs_list. Qed.

Lemma tw_pgp_M x : regs 32 3 x -> tw_pgp (tw_M (tw_pgp x)) = tw_M x.
Proof.
  intros Hx. list_cases Hx. unfold tw_pgp, tw_M. cbn [nth].
  rewrite !rho_ror by (wb || lia). rewrite !rol_ror by (wb || lia).
  set (u := rol 32 n 22). set (v := rol 32 n1 1).
  assert (Eu : n = ror 32 u 22) by (symmetry; apply ror_rol; (assumption || lia)).
  assert (Ev : n1 = ror 32 v 1) by (symmetry; apply ror_rol; (assumption || lia)).
  assert (Hu : inw 32 u) by (subst u; wb). assert (Hv : inw 32 v) by (subst v; wb).
  rewrite Eu, Ev. clearbody u v. subst n n1.
  assert (R : forall y k, inw 32 y -> k <= 32 -> rho (ror 32 y k) = rol 32 (rho y) k).
  { intros y k Hy Hk'. rewrite <- (rol_ror 32 (rho (ror 32 y k)) k) by (wb || lia).
    rewrite <- rho_ror by (wb || lia). now rewrite rol_ror by (wb || lia). }
  rewrite !R by (assumption || lia).
  repeat apply f_equal2; try reflexivity; try f_equal;
    (apply (word_ext 32); [wb|wb|]); intros i Hi;
    repeat (rewrite ?N.lxor_spec, ?N.lor_spec, ?wnot_spec || rewrite rho_bit by (wb || lia));
    rewrite ?(proj2 (N.ltb_lt (31 - i) 32)), ?(proj2 (N.ltb_lt i 32)) by lia;
    destruct (N.testbit u (31 - i)), (N.testbit v (31 - i)), (N.testbit n0 (31 - i)); reflexivity.
Qed.

Definition tw_c (rc : N) : list N := [wshl 32 rc 16; 0; rc].

Lemma tw_add_vxor k rc x : regs 32 3 k -> regs 32 3 x -> tw_add k rc x = vxor (vxor x k) (tw_c rc).
Proof.
  intros Hk Hx. list_cases Hk. list_cases Hx. unfold tw_add, tw_c. cbn [nth vxor]. xors_list.
Qed.

Lemma tw_const j : (j < 12)%nat ->
  tw_c (nth (11 - j) tw_rc_d 0) = tw_M (tw_theta (tw_c (nth j tw_rc_e 0))).
Proof.
  intros Hj. do 12 (destruct j as [|j]; [vm_compute; reflexivity|]). lia.
Qed.

Lemma rc_e_ok j : inw 32 (nth j tw_rc_e 0).
Proof. apply words_nth. repeat constructor. Qed.
Lemma rc_d_ok j : inw 32 (nth j tw_rc_d 0).
Proof. apply words_nth. repeat constructor. Qed.
Lemma tw_c_regs c : inw 32 c -> regs 32 3 (tw_c c).
Proof. intros H. unfold tw_c. regs_list. Qed.

(** The decryption step in the reversed representation undoes the encryption step. *)
Lemma tw_step_inv k j x : regs 32 3 k -> (j < 12)%nat -> regs 32 3 x ->
  tw_theta (tw_add (tw_M (tw_theta k)) (nth (11 - j) tw_rc_d 0) (tw_M (tw_theta (tw_add k (nth j tw_rc_e 0) x)))) = tw_M x.
Proof.
  intros Hk Hj Hx.
  pose proof (tw_c_regs _ (rc_e_ok j)) as Hc. pose proof (tw_c_regs _ (rc_d_ok (11 - j))) as Hd.
  assert (T : forall y, regs 32 3 y -> regs 32 3 (tw_theta y)) by exact tw_theta_regs.
  assert (M : forall y, regs 32 3 y -> regs 32 3 (tw_M y)) by exact tw_M_regs.
  assert (V : forall a b, regs 32 3 a -> regs 32 3 b -> regs 32 3 (vxor a b)) by (intros; now apply regs_vxor).
  rewrite (tw_add_vxor k) by auto. rewrite tw_add_vxor by auto 10. rewrite (tw_const j Hj).
  destruct tw_theta_lin as [_ TL]. destruct tw_M_lin as [_ ML].
  repeat ((rewrite TL by auto 10) || (rewrite ML by auto 10)).
  rewrite !tw_theta_M by auto.
  pose proof (M x Hx) as H1. pose proof (M k Hk) as H2. pose proof (M _ Hc) as H3.
  generalize dependent (tw_M x). generalize dependent (tw_M k). generalize dependent (tw_M (tw_c (nth j tw_rc_e 0))).
  clear. intros a Ha b Hb c Hc. list_cases Ha. list_cases Hb. list_cases Hc. cbn [vxor]. xors_list.
Qed.

Lemma mford_mfor {A} n (f : nat -> A -> res A) x : mford n f x = mfor n 0 (fun i => f (n - 1 - i)%nat) x.
Proof.
  revert f x. induction n as [|n IH]; intros f x; [reflexivity|]. cbn [mford].
  cbn [mfor]. replace (S n - 1 - 0)%nat with n by lia.
  destruct (f n x) as [y|e]; cbn [bind]; [|reflexivity].
  rewrite IH. rewrite (mfor_shift n 1). apply mfor_ext. intros j z Hj. f_equal. lia.
Qed.

(** 3-Way with 11 rounds (the default) is a permutation of the blocks. *)
Lemma tw_bij s : regs 32 3 (tw_k s) -> tw_dk s = tw_M (tw_theta (tw_k s)) -> tw_r s = 11 ->
  bij_on (blk 12) (blk 12) (tw_encrypt s) (tw_decrypt s).
Proof.
  intros Hk Hd Hr. set (k := tw_k s) in *.
  set (A := fun j x => Ok (tw_theta (tw_add k (nth j tw_rc_e 0) x))).
  set (A' := fun j x => Ok (tw_M (tw_theta (tw_add (tw_M (tw_theta k)) (nth (11 - j) tw_rc_d 0) (tw_M x))))).
  set (B := fun (j : nat) x => Ok (tw_pgp x)).
  set (B' := fun (j : nat) x => Ok (tw_M (tw_pgp (tw_M x)))).
  assert (AR : forall c x, inw 32 c -> regs 32 3 x -> regs 32 3 (tw_add k c x)).
  { intros c x Hc Hx. rewrite tw_add_vxor by assumption. apply regs_vxor; [now apply regs_vxor|now apply tw_c_regs]. }
  assert (Hmk : regs 32 3 (tw_M (tw_theta k))) by now apply tw_M_regs, tw_theta_regs.
  assert (AR' : forall c x, inw 32 c -> regs 32 3 x -> regs 32 3 (tw_add (tw_M (tw_theta k)) c x)).
  { intros c x Hc Hx. rewrite tw_add_vxor by assumption. apply regs_vxor; [now apply regs_vxor|now apply tw_c_regs]. }
  assert (I1 : forall j, (j <= 11)%nat -> pinv (regs 32 3) (fun x => tw_theta (tw_add k (nth j tw_rc_e 0) x))
     (fun x => tw_M (tw_theta (tw_add (tw_M (tw_theta k)) (nth (11 - j) tw_rc_d 0) (tw_M x))))).
  { intros j Hj x Hx. split; [apply tw_theta_regs, AR; [apply rc_e_ok|exact Hx]|].
    rewrite tw_step_inv by (assumption || lia). now apply tw_M_invol. }
  (* a one-sided inverse of a map built from invertible parts is two-sided *)
  assert (TI : pbij (regs 32 3) tw_theta (fun x => tw_M (tw_theta (tw_M x)))).
  { split; intros x Hx.
    - split; [now apply tw_theta_regs|]. rewrite tw_theta_M by exact Hx. now apply tw_M_invol.
    - split; [now apply tw_M_regs, tw_theta_regs, tw_M_regs|].
      rewrite tw_theta_M by now apply tw_M_regs. now apply tw_M_invol. }
  assert (PI : pbij (regs 32 3) tw_pgp (fun x => tw_M (tw_pgp (tw_M x)))).
  { split; intros x Hx.
    - split; [now apply tw_pgp_regs|]. rewrite tw_pgp_M by exact Hx. now apply tw_M_invol.
    - split; [now apply tw_M_regs, tw_pgp_regs, tw_M_regs|].
      rewrite tw_pgp_M by now apply tw_M_regs. now apply tw_M_invol. }
  assert (HA : forall j, (j <= 11)%nat -> bij_on (regs 32 3) (regs 32 3) (A j) (A' j)).
  { intros j Hj. apply pbij_bij. split; [now apply I1|]. intros y Hy.
    split; [apply tw_M_regs, tw_theta_regs, AR'; [apply rc_d_ok|now apply tw_M_regs]|].
    set (c := nth j tw_rc_e 0).
    (* y = theta (add k c x) for x the preimage *)
    set (x := vxor (vxor (tw_M (tw_theta (tw_M y))) k) (tw_c c)).
    assert (Hc : regs 32 3 (tw_c c)) by (apply tw_c_regs, rc_e_ok).
    assert (Hz : regs 32 3 (tw_M (tw_theta (tw_M y)))) by now apply TI.
    assert (Hx : regs 32 3 x) by (subst x; repeat apply regs_vxor; assumption).
    assert (Ey : y = tw_theta (tw_add k c x)).
    { rewrite tw_add_vxor by assumption.
      assert (E : vxor (vxor x k) (tw_c c) = tw_M (tw_theta (tw_M y))).
      { subst x. set (z := tw_M (tw_theta (tw_M y))) in *.
        rewrite (vxor_assoc (vxor z k)), (vxor_comm (tw_c c) k), <- vxor_assoc.
        assert (Lz : length z = 3%nat) by apply Hz. assert (Lk : length k = 3%nat) by apply Hk.
        assert (Lc : length (tw_c c) = 3%nat) by reflexivity.
        rewrite (vxor_cancel z k) by lia. apply vxor_cancel. lia. }
      rewrite E. symmetry. now apply TI. }
    rewrite Ey at 1. destruct (I1 j Hj x Hx) as [_ E]. fold c in E. rewrite E. now symmetry. }
  assert (HB : forall j, (j < 11)%nat -> bij_on (regs 32 3) (regs 32 3) (B j) (B' j)).
  { intros j _. now apply pbij_bij. }
  pose proof (bij_alt (regs 32 3) 11 A A' B B' HA HB) as G.
  pose proof (lift_bij (blk 12) (regs 32 3) (loads load32b 4 3) (stores store32b) _ _ (loads_bij codec32b 3) G) as G'.
  eapply bij_ext; [| |exact G'].
  - intros x _. unfold tw_encrypt, tw_rounds. rewrite Hr. change (N.to_nat 11) with 11%nat. fold k.
    rewrite (mfor_ext 11 0 (fun (j : nat) z => let* u := A j z in B j u)
      (fun i x => let* c := get tw_rc_e i in Ok (tw_pgp (tw_theta (tw_add k c x))))).
    + reflexivity.
    + intros j y Hj. subst A B. cbn [bind]. rewrite (get_ok tw_rc_e j 0) by (cbn; lia). reflexivity.
  - intros x Hx. unfold tw_decrypt, tw_rounds. rewrite Hr, Hd. change (N.to_nat 11) with 11%nat.
    rewrite (loads_rev 3 x) by apply Hx.
    assert (Hl : regs 32 3 (loads load32b 4 3 x)).
    { split; [reflexivity|apply (words_loads codec32b), Hx]. }
    assert (E0 : tw_mu (map rev_bytes (loads load32b 4 3 x)) = tw_M (loads load32b 4 3 x)) by reflexivity.
    rewrite E0. generalize dependent (loads load32b 4 3 x). intros y Hy _. clear x Hx.
    rewrite mford_mfor.
    (* both loops in step, related by M *)
    assert (Sim : forall n i y, (i + n <= 11)%nat -> regs 32 3 y ->
      exists z, mfor n i (fun i0 => (fun j z => let* u := A' (S j) z in B' j u) (11 - 1 - i0)%nat) y = Ok z /\ regs 32 3 z /\
        mfor n i (fun i x => let* c := get tw_rc_d i in Ok (tw_pgp (tw_theta (tw_add (tw_M (tw_theta k)) c x)))) (tw_M y) = Ok (tw_M z)).
    { induction n as [|n IH]; intros i z Hi Hz; [exists z; now split|].
      cbn [mfor]. rewrite (get_ok tw_rc_d i 0) by (cbn; lia). subst A' B'. cbn [bind]. cbv beta.
      replace (11 - S (11 - 1 - i))%nat with i by lia.
      set (v := tw_theta (tw_add (tw_M (tw_theta k)) (nth i tw_rc_d 0) (tw_M z))).
      assert (Hv : regs 32 3 v) by (apply tw_theta_regs, AR'; [apply rc_d_ok|now apply tw_M_regs]).
      rewrite (tw_M_invol v Hv).
      destruct (IH (S i) (tw_M (tw_pgp v))) as (w & E1 & Hw & E2); [lia|now apply tw_M_regs, tw_pgp_regs|].
      exists w. split; [exact E1|]. split; [exact Hw|].
      rewrite <- E2. now rewrite tw_M_invol by now apply tw_pgp_regs. }
    destruct (Sim 11%nat 0%nat y) as (z & E1 & Hz & E2); [lia|exact Hy|]. rewrite E1, E2. cbn [bind].
    subst A'. cbn [bind]. change (11 - 0)%nat with 11%nat.
    rewrite (get_ok tw_rc_d 11 0) by (cbn; lia). cbn [bind]. f_equal.
    set (v := tw_theta _).
    assert (Hv : regs 32 3 v) by (apply tw_theta_regs, AR'; [apply rc_d_ok|now apply tw_M_regs]).
    assert (W : words_ok 32 (tw_mu v)).
    { list_cases Hv. unfold tw_mu. cbn [nth]. repeat (apply Forall_cons || apply Forall_nil); wb. }
    rewrite (stores_rev _ W). f_equal. clearbody v. list_cases Hv. unfold tw_mu, tw_M. cbn [nth map].
    now rewrite !rev_comm.
Qed.

Lemma tw_perm key : key_ok 12 key -> exists s, tw_create 0 key = Ok s /\ permutation 12 (tw_encrypt s) (tw_decrypt s).
Proof.
  intros Hk. exists (tw_setup 0 key). split.
  - unfold tw_create. now rewrite assert_true by now apply key_len_ok_true.
  - apply perm_of_bij. destruct (key32b_ok key 3 (proj1 Hk)) as [L W].
    apply tw_bij; cbn [tw_setup tw_k tw_dk tw_r]; [now split| |reflexivity].
    assert (R : regs 32 3 (key32b key 3)) by now split.
    apply tw_theta_regs in R. destruct R as [L' W']. unfold tw_mu, tw_M. cbn [map].
    rewrite !rev_comm by wb. reflexivity.
Qed.

(** Any other number of rounds makes decryption wrong. *)
Lemma tw_rounds_refuted : exists s pt ct, tw_create 10 [1] = Ok s /\ tw_encrypt s pt = Ok ct /\
  length pt = 12%nat /\ bytes_ok pt /\ tw_decrypt s ct <> Ok pt.
Proof.
  exists (tw_setup 10 [1]), (repeat 0 12).
  destruct (tw_encrypt (tw_setup 10 [1]) (repeat 0 12)) as [ct|e] eqn:E; [|vm_compute in E; discriminate].
  exists ct. repeat split; [apply bytes_repeat0|]. vm_compute in E. apply Ok_inj in E. subst ct. vm_compute. discriminate.
Qed.
