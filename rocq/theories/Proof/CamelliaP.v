From Coq Require Import NArith Arith List Bool Lia.
From Verif Require Import Lib.Word Lib.Res Lib.Bytes Lib.BlockLemmas Lib.Bij Lib.Feistel Spec.Block
  Model.LoadStore Model.BlockApi Model.Table Model.Camellia Proof.TableP.
Import ListNotations.
Local Open Scope N_scope.

Lemma cam_tab_inw x : inw 32 (tab8 cam_sp1110 x) /\ inw 32 (tab8 cam_sp0222 x) /\ inw 32 (tab8 cam_sp3033 x) /\ inw 32 (tab8 cam_sp4404 x).
Proof. repeat split; apply tab8_inw, words_okb; vm_compute; reflexivity. Qed.

Lemma join_bit hi lo i : inw 32 lo -> N.testbit (cam_join hi lo) i = if i <? 32 then N.testbit lo i else N.testbit hi (i - 32).
Proof.
  intros Hl. unfold cam_join. rewrite N.lor_spec. destruct (N.ltb_spec i 32).
  - now rewrite N.shiftl_spec_low by assumption.
  - rewrite N.shiftl_spec_high' by assumption. rewrite (inw_high 32 lo i Hl) by assumption. apply orb_false_r.
Qed.
Lemma join_inw hi lo : inw 32 hi -> inw 32 lo -> inw 64 (cam_join hi lo).
Proof.
  intros Hh Hl. apply inw_bits. intros i Hi. rewrite join_bit by exact Hl.
  destruct (N.ltb_spec i 32); [lia|]. apply (inw_high 32 hi); [exact Hh|lia].
Qed.
Lemma join_hi hi lo : inw 32 hi -> inw 32 lo -> mask 32 (wshr (cam_join hi lo) 32) = hi.
Proof.
  intros Hh Hl. apply (word_ext 32); [wb|exact Hh|]. intros i Hi. rewrite mask_spec. unfold wshr.
  rewrite N.shiftr_spec', join_bit by exact Hl. rewrite (proj2 (N.ltb_lt i 32) Hi), andb_true_l.
  destruct (N.ltb_spec (i + 32) 32); [lia|]. now rewrite N.add_sub.
Qed.
Lemma join_lo hi lo : inw 32 lo -> mask 32 (cam_join hi lo) = lo.
Proof.
  intros Hl. apply (word_ext 32); [wb|exact Hl|]. intros i Hi. rewrite mask_spec, join_bit by exact Hl.
  now rewrite (proj2 (N.ltb_lt i 32) Hi).
Qed.
Lemma join_halves x : inw 64 x -> cam_join (mask 32 (wshr x 32)) (mask 32 x) = x.
Proof.
  intros Hx. apply N.bits_inj. intros i. rewrite join_bit by wb. rewrite !mask_spec. unfold wshr.
  rewrite N.shiftr_spec'. destruct (N.ltb_spec i 32); [reflexivity|].
  replace (i - 32 + 32) with i by lia. destruct (N.ltb_spec (i - 32) 32); [reflexivity|].
  symmetry. apply (inw_high 64 x); [exact Hx|lia].
Qed.

Lemma cam_f_inw x : inw 64 (cam_f x).
Proof.
  unfold cam_f. cbv zeta.
  assert (forall y, inw 32 (tab8 cam_sp1110 y)) by (intros; apply cam_tab_inw).
  assert (forall y, inw 32 (tab8 cam_sp0222 y)) by (intros; apply cam_tab_inw).
  assert (forall y, inw 32 (tab8 cam_sp3033 y)) by (intros; apply cam_tab_inw).
  assert (forall y, inw 32 (tab8 cam_sp4404 y)) by (intros; apply cam_tab_inw).
  apply join_inw; wb.
Qed.

Lemma cam_fl_pbij k : pbij (inw 64) (fun x => cam_fl0 x k) (fun x => cam_fl1 x k).
Proof.
  assert (Hk : inw 32 (mask 32 k)) by wb.
  split; intros x Hx; unfold cam_fl0, cam_fl1; cbv zeta;
    set (hi := mask 32 (wshr x 32)); set (lo := mask 32 x); set (kl := mask 32 k) in *; set (kh := mask 32 (wshr k 32));
    assert (Hh : inw 32 hi) by (unfold hi; wb); assert (Hlo : inw 32 lo) by (unfold lo; wb);
    assert (Hkh : inw 32 kh) by (unfold kh; wb).
  - split; [apply join_inw; wb|]. rewrite join_hi, join_lo by wb. rewrite !lxor_cancel. now apply join_halves.
  - split; [apply join_inw; wb|]. rewrite join_hi, join_lo by wb. rewrite !lxor_cancel. now apply join_halves.
Qed.

Definition cam_sw (x : N * N) : N * N := (snd x, fst x).
Lemma cam_six_sw k0 k1 k2 k3 k4 k5 x : @w2 64 x ->
  @w2 64 (cam_six k0 k1 k2 k3 k4 k5 x) /\
  cam_sw (cam_six k5 k4 k3 k2 k1 k0 (cam_sw (cam_six k0 k1 k2 k3 k4 k5 x))) = x.
Proof.
  destruct x as [l r]. intros [Hl Hr]. cbn [fst snd] in Hl, Hr. unfold cam_six, cam_sw. cbv zeta. cbn [fst snd]. split.
  - split; cbn [fst snd]; repeat first [assumption | apply inw_lxor | apply cam_f_inw].
  - now rewrite !lxor_cancel.
Qed.
Definition cam_fl2 (k0 k1 : N) (x : N * N) : N * N := (cam_fl0 (fst x) k0, cam_fl1 (snd x) k1).
Lemma cam_fl2_sw k0 k1 x : @w2 64 x ->
  @w2 64 (cam_fl2 k0 k1 x) /\ cam_sw (cam_fl2 k1 k0 (cam_sw (cam_fl2 k0 k1 x))) = x.
Proof.
  destruct x as [l r]. intros [Hl Hr]. cbn [fst snd] in Hl, Hr. unfold cam_fl2, cam_sw. cbn [fst snd].
  destruct (proj1 (cam_fl_pbij k0) l Hl) as [I0 E0]. destruct (proj2 (cam_fl_pbij k1) r Hr) as [I1 E1]. cbv beta in *.
  split; [now split|]. now rewrite E0, E1.
Qed.

(** the keys in the order in which the two directions use them *)
Definition cam_step (k kl : nat -> N) (i : nat) (x : N * N) : N * N :=
  let j := Nat.div2 i in
  if Nat.even i
  then cam_six (k (6 * j)%nat) (k (6 * j + 1)%nat) (k (6 * j + 2)%nat) (k (6 * j + 3)%nat) (k (6 * j + 4)%nat) (k (6 * j + 5)%nat) x
  else cam_fl2 (kl (2 * j)%nat) (kl (2 * j + 1)%nat) x.
Definition cam_back (k kl : nat -> N) (i : nat) (x : N * N) : N * N :=
  let j := Nat.div2 i in
  if Nat.even i
  then cam_six (k (6 * j + 5)%nat) (k (6 * j + 4)%nat) (k (6 * j + 3)%nat) (k (6 * j + 2)%nat) (k (6 * j + 1)%nat) (k (6 * j)%nat) x
  else cam_fl2 (kl (2 * j + 1)%nat) (kl (2 * j)%nat) x.

Lemma cam_steps_pbij k kl n :
  pbij (@w2 64) (fun x => cam_sw (pfor n 0 (cam_step k kl) x)) (fun x => cam_sw (pford n (cam_back k kl) x)).
Proof.
  apply feistel_bij.
  - intros [a b] [Ha Hb]. now split.
  - intros i x _ Hx. unfold cam_step, cam_back. cbv zeta. destruct (Nat.even i); [now apply cam_six_sw|now apply cam_fl2_sw].
  - intros i x _ Hx. unfold cam_step, cam_back. cbv zeta. destruct (Nat.even i); [now apply cam_six_sw|now apply cam_fl2_sw].
Qed.

Lemma cam_core_eq s ix iy m x :
  cam_r s = N.of_nat (6 * (m + 1)) ->
  (forall i, (i < 6 * (m + 1))%nat -> (ix i < length (cam_k s))%nat) ->
  (forall i, (i < 2 * m)%nat -> (iy i < length (cam_kl s))%nat) ->
  cam_core s ix iy x = Ok (pfor (2 * m + 1) 0 (cam_step (fun i => nth (ix i) (cam_k s) 0) (fun i => nth (iy i) (cam_kl s) 0)) x).
Proof.
  intros Hr Hk Hl. unfold cam_core. rewrite Hr, Nat2N.id.
  replace (6 * (m + 1) / 6 - 1)%nat with m by (rewrite Nat.mul_comm, Nat.div_mul by lia; lia).
  assert (S6 : forall i y, (i <= m)%nat -> cam_rounds6 (cam_k s) ix i y =
    Ok (cam_step (fun i => nth (ix i) (cam_k s) 0) (fun i => nth (iy i) (cam_kl s) 0) (2 * i) y)).
  { intros i y Hi. unfold cam_rounds6, cam_step. cbv zeta.
    replace (Nat.even (2 * i)) with true by (symmetry; apply Nat.even_spec; now exists i).
    rewrite Nat.div2_double.
    rewrite (get_ok _ (ix (6 * i)%nat) 0) by (apply Hk; lia). cbn [bind].
    rewrite (get_ok _ (ix (6 * i + 1)%nat) 0) by (apply Hk; lia). cbn [bind].
    rewrite (get_ok _ (ix (6 * i + 2)%nat) 0) by (apply Hk; lia). cbn [bind].
    rewrite (get_ok _ (ix (6 * i + 3)%nat) 0) by (apply Hk; lia). cbn [bind].
    rewrite (get_ok _ (ix (6 * i + 4)%nat) 0) by (apply Hk; lia). cbn [bind].
    rewrite (get_ok _ (ix (6 * i + 5)%nat) 0) by (apply Hk; lia). reflexivity. }
  assert (S2 : forall i y, (i < m)%nat -> cam_fls (cam_kl s) iy i y =
    Ok (cam_step (fun i => nth (ix i) (cam_k s) 0) (fun i => nth (iy i) (cam_kl s) 0) (S (2 * i)) y)).
  { intros i y Hi. unfold cam_fls, cam_step. cbv zeta.
    replace (Nat.even (S (2 * i))) with false
      by (rewrite Nat.even_succ, <- Nat.negb_even; symmetry; apply negb_false_iff, Nat.even_spec; now exists i).
    rewrite Nat.div2_succ_double.
    rewrite (get_ok _ (iy (2 * i)%nat) 0) by (apply Hl; lia). cbn [bind].
    rewrite (get_ok _ (iy (2 * i + 1)%nat) 0) by (apply Hl; lia). reflexivity. }
  rewrite (S6 0%nat) by lia. cbn [bind].
  set (F := cam_step _ _) in *. clearbody F.
  rewrite (mfor_ext m 0 _ (fun i y => Ok (F (2 * (i + 1))%nat (F (S (2 * i)) y)))).
  2: { intros j y Hj. rewrite S2 by lia. cbn [bind]. apply S6. lia. }
  rewrite mfor_Ok. f_equal. clear.
  induction m as [|m IH]; [reflexivity|].
  rewrite pfor_S, IH. replace (2 * S m + 1)%nat with (S (S (2 * m + 1))) by lia. rewrite !pfor_S.
  rewrite !Nat.add_0_l. replace (2 * (m + 1))%nat with (S (2 * m + 1)) by lia. now replace (S (2 * m)) with (2 * m + 1)%nat by lia.
Qed.

Definition cam_fine (s : camellia) : Prop := exists m,
  cam_r s = N.of_nat (6 * (m + 1)) /\ (m = 2 \/ m = 3)%nat /\ length (cam_k s) = (6 * (m + 1))%nat /\
  length (cam_kl s) = (2 * m)%nat /\ length (cam_kw s) = 4%nat /\ words_ok 64 (cam_kw s).

Lemma cam_rev k kl m y : (m = 2 \/ m = 3)%nat ->
  pfor (2 * m + 1) 0 (cam_step (fun i => nth (6 * (m + 1) - 1 - i) k 0) (fun i => nth (6 * (m + 1) / 4 - 1 - i) kl 0)) y =
  pford (2 * m + 1) (cam_back (fun i => nth i k 0) (fun i => nth i kl 0)) y.
Proof.
  unfold cam_step, cam_back. generalize cam_fl2, cam_six. intros fl six [-> | ->]; reflexivity.
Qed.

Lemma camellia_bij s : cam_fine s -> bij_on (blk 16) (blk 16) (camellia_encrypt s) (camellia_decrypt s).
Proof.
  intros (m & Hr & Hm & Hk & Hl & Hw & Ww).
  set (w := fun i => nth i (cam_kw s) 0). assert (Iw : forall i, inw 64 (w i)) by (intros i; now apply words_nth).
  set (X := fun a b (x : N * N) => (N.lxor (fst x) a, N.lxor (snd x) b)).
  assert (BX : forall a b, inw 64 a -> inw 64 b -> pbij (@w2 64) (X a b) (X a b)).
  { intros a b Ha Hb. split; intros [l r] [H1 H2]; cbn [fst snd] in *; unfold X; cbn [fst snd]; rewrite !lxor_cancel;
      (split; [split; cbn [fst snd]; wb|reflexivity]). }
  pose proof (cam_steps_pbij (fun i => nth i (cam_k s) 0) (fun i => nth i (cam_kl s) 0) (2 * m + 1)) as B.
  pose proof (pbij_comp _ _ _ _ _ (pbij_comp _ _ _ _ _ (BX (w 0%nat) (w 1%nat) (Iw _) (Iw _)) B)
    (BX (w 2%nat) (w 3%nat) (Iw _) (Iw _))) as P.
  pose proof (lift_bij (blk 16) (@w2 64) _ _ _ _ (ld2_bij codec64b) (pbij_bij _ _ _ P)) as G.
  eapply bij_ext; [| |exact G]; intros x _; cbn [bind].
  - unfold camellia_encrypt. rewrite !(get_ok (cam_kw s) _ 0) by (rewrite Hw; lia). cbn [bind].
    rewrite (cam_core_eq s _ _ m) by (try assumption; intros; lia). reflexivity.
  - unfold camellia_decrypt. cbv zeta. rewrite !(get_ok (cam_kw s) _ 0) by (rewrite Hw; lia). cbn [bind].
    rewrite (cam_core_eq s _ _ m); [|exact Hr|rewrite Hr, Nat2N.id; intros; lia|].
    2: { intros i Hi. rewrite Hr, Nat2N.id, Hl. destruct Hm as [-> | ->]; [change (6 * (2 + 1) / 4)%nat with 4%nat|change (6 * (3 + 1) / 4)%nat with 6%nat]; lia. }
    cbn [bind]. rewrite Hr, Nat2N.id. rewrite (cam_rev _ _ m) by exact Hm. reflexivity.
Qed.

Lemma byte_nth l i : bytes_ok l -> inw 8 (nth i l 0).
Proof. intros H. now apply (words_nth 8). Qed.
Lemma cam_rot128_bytes x r : bytes_ok x -> bytes_ok (cam_rot128 x r).
Proof.
  intros H. unfold cam_rot128. apply Forall_forall. intros y Hy. apply in_map_iff in Hy. destruct Hy as (i & <- & _).
  pose proof (byte_nth x ((i + N.to_nat (wshr r 3)) mod 16) H). pose proof (byte_nth x ((i + N.to_nat (wshr r 3) + 1) mod 16) H).
  change (inw 8 (N.lor (wshl 8 (nth ((i + N.to_nat (wshr r 3)) mod 16) x 0) (N.land r 7))
    (wshr (nth ((i + N.to_nat (wshr r 3) + 1) mod 16) x 0) (8 - N.land r 7)))). wb.
Qed.
Lemma cam_word_inw f e : (forall b, bytes_ok (f b)) -> inw 64 (cam_word f e).
Proof.
  intros H. destruct e as [[b n] h]. unfold cam_word. apply (c_inw _ _ _ _ codec64b).
  destruct (n =? 0); [apply H|]. apply cam_rot128_bytes, H.
Qed.
Lemma cam_grow_bytes t : bytes_ok t -> bytes_ok (cam_grow t).
Proof.
  intros H. unfold cam_grow. apply Forall_app. split; [exact H|]. apply Forall_forall. intros y Hy.
  apply in_map_iff in Hy. destruct Hy as (i & <- & _). unfold cam_not.
  change (inw 8 (wnot 8 (nth (length t - 8 + i) t 0))). pose proof (byte_nth t (length t - 8 + i) H). wb.
Qed.
Lemma cam_pad_bytes n t : bytes_ok t -> bytes_ok (cam_pad n t).
Proof. intros H. unfold cam_pad. apply Forall_app. split; [exact H|]. apply bytes_repeat0. Qed.
Lemma cam_expand_bytes key : bytes_ok key -> bytes_ok (cam_expand key).
Proof.
  intros H. unfold cam_expand. cbv zeta.
  repeat match goal with |- context [if ?b then _ else _] => destruct b end;
    repeat first [exact H | apply cam_pad_bytes | apply cam_grow_bytes].
Qed.
Lemma cam_xor_bytes x y : bytes_ok x -> bytes_ok y -> bytes_ok (cam_xor x y).
Proof.
  intros Hx Hy. unfold cam_xor. apply Forall_forall. intros z Hz. apply in_map_iff in Hz. destruct Hz as (i & <- & _).
  change (inw 8 (N.lxor (nth i x 0) (nth i y 0))). apply inw_lxor; now apply byte_nth.
Qed.
Lemma cam_two_bytes c0 c1 t : bytes_ok (cam_two c0 c1 t).
Proof. unfold cam_two. cbv zeta. apply Forall_app. split; apply (c_bytes _ _ _ _ codec64b). Qed.

Lemma cam_setup_fine key : bytes_ok key -> cam_fine (cam_setup key).
Proof.
  intros H. unfold cam_setup. cbv zeta. pose proof (cam_expand_bytes key H) as He.
  set (t := cam_expand key) in *. assert (Hl : bytes_ok (slice 0 16 t)) by now apply bytes_slice.
  assert (Hr : bytes_ok (slice 16 16 t)) by now apply bytes_slice.
  destruct (length key <=? 16)%nat; [exists 2%nat|exists 3%nat]; cbn [cam_r cam_k cam_kl cam_kw]; rewrite !map_length;
    (repeat split; [lia|]); apply Forall_forall; intros y Hy; apply in_map_iff in Hy; destruct Hy as (i & <- & _);
    apply cam_word_inw; intros []; try assumption; apply cam_two_bytes.
Qed.

Lemma camellia_perm key : key_ok 32 key ->
  exists s, camellia_create 0 key = Ok s /\ permutation 16 (camellia_encrypt s) (camellia_decrypt s).
Proof.
  intros Hk. exists (cam_setup key). split.
  - unfold camellia_create. now rewrite assert_true by now apply key_len_ok_true.
  - apply perm_of_bij, camellia_bij, cam_setup_fine, Hk.
Qed.
Lemma camellia_assert r key : key_ok 32 key -> r <> 0 -> camellia_create r key = Err AssertFail.
Proof.
  intros Hk Hr. unfold camellia_create. rewrite assert_true by now apply key_len_ok_true.
  now rewrite (proj2 (N.eqb_neq r 0) Hr).
Qed.
