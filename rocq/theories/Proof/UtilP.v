(** lib/memory.c, lib/pkcs7.c, include/kripto/rotate.h and include/kripto/loadstore.h. *)
From Coq Require Import NArith Arith List Bool Lia.
From Verif Require Import Lib.Word Lib.Res Lib.Bytes Lib.MemLemmas Spec.Modes Spec.Util
  Model.LoadStore Model.Mem Model.Rotate Model.Util.
Import ListNotations.
Local Open Scope N_scope.

(** ** memory.c *)
Lemma fill_spec (m : mem) a n b x :
  pfor n 0 (fun i m => wr1 m (a + i) b) m x = if ((a <=? x) && (x <? a + n))%nat then b else m x.
Proof.
  induction n as [|n IH].
  - cbn [pfor]. destruct (Nat.leb_spec a x), (Nat.ltb_spec x (a + 0)); cbn [andb]; try reflexivity; lia.
  - replace (S n) with (n + 1)%nat by lia. rewrite pfor_app. cbn [pfor Nat.add]. unfold wr1 at 1. rewrite IH.
    destruct (Nat.eqb_spec x (a + n)), (Nat.leb_spec a x), (Nat.ltb_spec x (a + n)), (Nat.ltb_spec x (a + (n + 1)));
    cbn [andb]; try reflexivity; lia.
Qed.

Lemma wipe_spec m dst len : rd (memory_wipe m dst len) dst len = repeat 0 len /\ frame m (memory_wipe m dst len) dst len.
Proof.
  split.
  - apply rd_list; [apply repeat_length|]. intros i Hi. unfold memory_wipe. rewrite fill_spec, nth_repeat.
    now rewrite (proj2 (Nat.leb_le dst (dst + i))), (proj2 (Nat.ltb_lt (dst + i) (dst + len))) by lia.
  - intros x Hx. unfold memory_wipe. rewrite fill_spec.
    destruct (Nat.leb_spec dst x), (Nat.ltb_spec x (dst + len)); cbn [andb]; try reflexivity; lia.
Qed.

Lemma lor_eq0 a b : N.lor a b = 0 <-> a = 0 /\ b = 0.
Proof. apply N.lor_eq_0_iff. Qed.

Lemma equals_acc m a b n : (forall i, (i < n)%nat -> m (a + i)%nat < 256) -> (forall i, (i < n)%nat -> m (b + i)%nat < 256) ->
  let x := pfor n 0 (fun i x => byte (N.lor x (N.lxor (m (a + i)%nat) (m (b + i)%nat)))) 0 in
  x < 256 /\ (x = 0 <-> forall i, (i < n)%nat -> m (a + i)%nat = m (b + i)%nat).
Proof.
  induction n as [|n IH]; intros Ha Hb.
  - cbn. split; [reflexivity|]. split; [intros _ i Hi; lia|reflexivity].
  - cbv zeta. replace (S n) with (n + 1)%nat by lia. rewrite pfor_app. cbn [pfor Nat.add].
    destruct IH as [B E]; [intros; apply Ha; lia|intros; apply Hb; lia|].
    set (y := pfor n 0 _ 0) in *. clearbody y.
    assert (Hx : inw 8 (N.lxor (m (a + n)%nat) (m (b + n)%nat))).
    { apply inw_lxor; [apply (Ha n)|apply (Hb n)]; lia. }
    assert (Hl : inw 8 (N.lor y (N.lxor (m (a + n)%nat) (m (b + n)%nat)))) by (apply inw_lor; [exact B|exact Hx]).
    change (byte (N.lor y (N.lxor (m (a + n)%nat) (m (b + n)%nat)))) with (mask 8 (N.lor y (N.lxor (m (a + n)%nat) (m (b + n)%nat)))).
    rewrite mask_id by exact Hl. split; [exact Hl|]. rewrite lor_eq0, N.lxor_eq_0_iff, E. split.
    + intros [H1 H2] i Hi. destruct (Nat.eq_dec i n) as [->|]; [exact H2|apply H1; lia].
    + intros H. split; [intros i Hi; apply H; lia|apply H; lia].
Qed.

Lemma equals_spec m a b len : bytes_ok (rd m a len) -> bytes_ok (rd m b len) ->
  (memory_equals m a b len = 1 <-> rd m a len = rd m b len) /\
  (memory_equals m a b len = 0 <-> rd m a len <> rd m b len).
Proof.
  intros Ha Hb.
  assert (X : forall a, bytes_ok (rd m a len) -> forall i, (i < len)%nat -> m (a + i)%nat < 256).
  { intros c Hc i Hi. rewrite <- (nth_rd m c len i Hi). apply bytes_nth. exact Hc. }
  destruct (equals_acc m a b len (X a Ha) (X b Hb)) as [_ E]. cbv zeta in E.
  unfold memory_equals. set (x := pfor len 0 _ 0) in *. clearbody x.
  assert (R : rd m a len = rd m b len <-> x = 0).
  { rewrite E. split.
    - intros H i Hi. rewrite <- (nth_rd m a len i Hi), <- (nth_rd m b len i Hi). now rewrite H.
    - intros H. apply rd_list; [apply length_rd|]. intros i Hi. rewrite nth_rd by exact Hi. now apply H. }
  rewrite R. destruct (N.eqb_spec x 0); split; split; intros; try congruence; try discriminate.
Qed.

(** ** pkcs7.c *)
Definition pads : list N := [1; 2; 4; 8; 16; 32; 64; 128].

Lemma pads_cases (P : N -> Prop) : Forall P pads -> forall pad, In pad pads -> P pad.
Proof. intros H pad. now apply Forall_forall. Qed.

Lemma land_pads len pad : In pad pads -> N.land len (wsub 32 pad 1) = len mod pad.
Proof.
  intros H. revert pad H. apply pads_cases.
  repeat apply Forall_cons; try apply Forall_nil.
  - change (wsub 32 1 1) with (N.ones 0). now rewrite N.land_ones.
  - change (wsub 32 2 1) with (N.ones 1). now rewrite N.land_ones.
  - change (wsub 32 4 1) with (N.ones 2). now rewrite N.land_ones.
  - change (wsub 32 8 1) with (N.ones 3). now rewrite N.land_ones.
  - change (wsub 32 16 1) with (N.ones 4). now rewrite N.land_ones.
  - change (wsub 32 32 1) with (N.ones 5). now rewrite N.land_ones.
  - change (wsub 32 64 1) with (N.ones 6). now rewrite N.land_ones.
  - change (wsub 32 128 1) with (N.ones 7). now rewrite N.land_ones.
Qed.
Lemma pads_bound pad : In pad pads -> 0 < pad <= 128.
Proof. revert pad. apply pads_cases. repeat apply Forall_cons; try apply Forall_nil; lia. Qed.

Lemma pad_bound len pad : In pad pads -> 0 < pkcs7_pad len pad <= 128.
Proof.
  intros H. apply pads_bound in H. unfold pkcs7_pad. pose proof (N.mod_upper_bound len pad ltac:(lia)). generalize dependent (len mod pad). intros q Hq. lia.
Qed.

Lemma add_pad len pad : In pad pads -> mask 32 (wsub 64 pad (N.land len (wsub 32 pad 1))) = pkcs7_pad len pad.
Proof.
  intros H. rewrite land_pads by exact H. pose proof (pad_bound len pad H) as B. unfold pkcs7_pad in *.
  apply pads_bound in H. pose proof (N.mod_upper_bound len pad ltac:(lia)).
  generalize dependent (len mod pad). intros q Hq1 Hq2.
  unfold wsub. rewrite (mask_id 64 q) by (unfold inw; change (2 ^ 64) with 18446744073709551616; lia).
  rewrite !mask_mod. change (2 ^ 64) with 18446744073709551616. change (2 ^ 32) with 4294967296.
  replace (pad + 18446744073709551616 - q) with (pad - q + 1 * 18446744073709551616) by lia.
  rewrite N.mod_add by lia. rewrite (N.mod_small (pad - q) 18446744073709551616), N.mod_small by lia. reflexivity.
Qed.

Lemma pkcs7_add_eq m buf len pad maxlen : In pad pads -> len + 128 < 2 ^ 64 ->
  pkcs7_add m buf len pad maxlen =
  (let p := pkcs7_pad len pad in
   if maxlen <? len + p then (0, m)
   else (len + p, pfor (N.to_nat p) 0 (fun i m => wr1 m (buf + N.to_nat len + i) p) m)).
Proof.
  intros H Hl. unfold pkcs7_add. rewrite add_pad by exact H. pose proof (pad_bound len pad H) as B.
  cbv zeta. set (p := pkcs7_pad len pad) in *. clearbody p.
  unfold wadd. rewrite (N.add_comm p len). rewrite !mask_id by (unfold inw; lia).
  change (byte p) with (mask 8 p). rewrite mask_id by (unfold inw; change (2 ^ 8) with 256; lia). reflexivity.
Qed.

Lemma pkcs7_add_spec m buf len pad maxlen n m' : In pad pads -> len + 128 < 2 ^ 64 ->
  pkcs7_add m buf len pad maxlen = (n, m') ->
  let p := pkcs7_pad len pad in
  (maxlen < len + p -> n = 0 /\ m' = m) /\
  (len + p <= maxlen -> n = len + p /\ n mod pad = 0 /\ 0 < n <= maxlen /\
    rd m' (buf + N.to_nat len) (N.to_nat p) = repeat p (N.to_nat p) /\
    frame m m' (buf + N.to_nat len) (N.to_nat p)).
Proof.
  intros H Hl E. rewrite pkcs7_add_eq in E by assumption. cbv zeta in *.
  pose proof (pad_bound len pad H) as B.
  assert (M : (len + pkcs7_pad len pad) mod pad = 0).
  { unfold pkcs7_pad. apply pads_bound in H. pose proof (N.mod_upper_bound len pad ltac:(lia)).
    pose proof (N.div_mod len pad ltac:(lia)) as D.
    generalize dependent (len mod pad). intros q Hq D. replace (len + (pad - q)) with ((len / pad + 1) * pad) by nia. apply N.mod_mul. lia. }
  set (p := pkcs7_pad len pad) in *. clearbody p. split; intros Hm.
  - rewrite (proj2 (N.ltb_lt _ _) Hm) in E. now injection E as <- <-.
  - destruct (N.ltb_spec maxlen (len + p)); [lia|]. injection E as <- <-.
    split; [reflexivity|]. split; [exact M|]. split; [lia|]. split.
    + apply rd_list; [apply repeat_length|]. intros i Hi. rewrite fill_spec.
      rewrite (proj2 (Nat.leb_le _ _)), (proj2 (Nat.ltb_lt _ _)) by lia. cbn [andb].
      rewrite (nth_indep _ 0 p) by (rewrite repeat_length; exact Hi). now rewrite nth_repeat.
    + intros x Hx. rewrite fill_spec.
      destruct (Nat.leb_spec (buf + N.to_nat len) x), (Nat.ltb_spec x (buf + N.to_nat len + N.to_nat p)); cbn [andb]; try reflexivity; lia.
Qed.

Lemma pkcs7_roundtrip m buf len pad maxlen n m' : In pad pads -> len + 128 < 2 ^ 64 -> 0 < len ->
  pkcs7_add m buf len pad maxlen = (n, m') -> n <> 0 ->
  pkcs7_rem m' buf n = Ok len /\ rd m' buf (N.to_nat len) = rd m buf (N.to_nat len).
Proof.
  intros H Hl H0 E Hn. destruct (pkcs7_add_spec m buf len pad maxlen n m' H Hl E) as [A1 A2].
  pose proof (pad_bound len pad H) as B. set (p := pkcs7_pad len pad) in *. clearbody p.
  destruct (N.lt_ge_cases maxlen (len + p)) as [L|L]; [now destruct (A1 L)|].
  destruct (A2 L) as (-> & _ & _ & R & F). split.
  - unfold pkcs7_rem. destruct (N.eqb_spec (len + p) 0); [lia|].
    replace (buf + N.to_nat (len + p) - 1)%nat with (buf + N.to_nat len + (N.to_nat p - 1))%nat by lia.
    rewrite <- (nth_rd m' (buf + N.to_nat len) (N.to_nat p)) by lia. rewrite R.
    rewrite (nth_indep _ 0 p) by (rewrite repeat_length; lia). rewrite nth_repeat.
    cbv zeta. destruct (N.ltb_spec p (len + p)); [f_equal; lia|lia].
  - apply rd_ext. intros x Hx. apply F. lia.
Qed.

(** the empty message comes back as a whole block *)
Lemma pkcs7_empty_refuted m buf pad maxlen : In pad pads -> pad <= maxlen ->
  exists m', pkcs7_add m buf 0 pad maxlen = (pad, m') /\ pkcs7_rem m' buf pad = Ok pad.
Proof.
  intros H Hm. pose proof (pads_bound pad H) as B.
  destruct (pkcs7_add m buf 0 pad maxlen) as [n m'] eqn:E.
  destruct (pkcs7_add_spec m buf 0 pad maxlen n m' H ltac:(reflexivity) E) as [_ A].
  assert (P : pkcs7_pad 0 pad = pad) by (unfold pkcs7_pad; rewrite N.mod_0_l; lia).
  rewrite P in A. destruct (A ltac:(lia)) as (-> & _ & _ & R & _).
  exists m'. split; [reflexivity|]. unfold pkcs7_rem. cbn [N.add]. destruct (N.eqb_spec pad 0); [lia|].
  replace (buf + N.to_nat pad - 1)%nat with (buf + N.to_nat 0 + (N.to_nat pad - 1))%nat by lia.
  rewrite <- (nth_rd m' (buf + N.to_nat 0) (N.to_nat pad)) by lia. rewrite R.
  rewrite (nth_indep _ 0 pad) by (rewrite repeat_length; lia). rewrite nth_repeat. cbv zeta.
  now rewrite N.ltb_irrefl.
Qed.

(** ** rotate.h *)
Lemma rol_rotates w x n : w <> 0 -> x < 2 ^ w -> n <= w -> rotated_left w x n (rol w x n).
Proof.
  intros Hw Hx Hn. split; [assert (H : inw w (rol w x n)) by (wb || auto); exact H|].
  intros i Hi. pose proof (N.mod_upper_bound (i + n) w Hw).
  rewrite rol_spec by assumption. f_equal.
  destruct (N.lt_ge_cases (i + n) w) as [L|L].
  - rewrite N.mod_small by exact L. destruct (N.leb_spec n (i + n)); lia.
  - assert (E : (i + n) mod w = i + n - w).
    { destruct (N.eq_dec (i + n) (w + w)) as [E|E]; [lia|].
      symmetry. apply (N.mod_unique (i + n) w 1); lia. }
    rewrite E. destruct (N.leb_spec n (i + n - w)); lia.
Qed.
Lemma ror_rotates w x n : w <> 0 -> x < 2 ^ w -> n <= w -> rotated_right w x n (ror w x n).
Proof.
  intros Hw Hx Hn. split; [assert (H : inw w (ror w x n)) by (wb || auto); exact H|].
  intros i Hi. rewrite ror_spec by assumption. f_equal.
  destruct (N.ltb_spec (i + n) w) as [L|L]; [now rewrite N.mod_small|].
  symmetry. replace (i + n) with ((i + n - w) + 1 * w) at 1 by lia. rewrite N.mod_add by exact Hw. apply N.mod_small. lia.
Qed.

Lemma rotated_left_mod w x r y : w <> 0 -> rotated_left w x (r mod w) y -> rotated_left w x r y.
Proof.
  intros Hw [H1 H2]. split; [exact H1|]. intros i Hi. rewrite <- (H2 i Hi). f_equal.
  now rewrite N.add_mod_idemp_r.
Qed.
Lemma rotated_right_mod w x r y : w <> 0 -> rotated_right w x (r mod w) y -> rotated_right w x r y.
Proof.
  intros Hw [H1 H2]. split; [exact H1|]. intros i Hi. rewrite (H2 i Hi). f_equal.
  now rewrite N.add_mod_idemp_r.
Qed.

(** the rotation instructions *)
Lemma rolv_rotates w x r : w <> 0 -> x < 2 ^ w -> rotated_left w x r (rolv w x r).
Proof.
  intros Hw Hx. apply rotated_left_mod; [exact Hw|]. apply rol_rotates; try assumption.
  pose proof (N.mod_upper_bound r w Hw). lia.
Qed.
Lemma rorv_rotates w x r : w <> 0 -> x < 2 ^ w -> rotated_right w x r (rorv w x r).
Proof.
  intros Hw Hx. apply rotated_right_mod; [exact Hw|]. apply ror_rotates; try assumption.
  pose proof (N.mod_upper_bound r w Hw). lia.
Qed.
(** left and right rotation are inverse, whatever computes them *)
Lemma rotated_inverse w x r y z : w <> 0 -> x < 2 ^ w -> rotated_left w x r y -> rotated_right w y r z -> z = x.
Proof.
  intros Hw Hx [Hy H1] [Hz H2]. apply (word_ext w); [exact Hz|exact Hx|]. intros i Hi.
  now rewrite H2, H1.
Qed.
Lemma mod_add_inj w i j r : w <> 0 -> i < w -> j < w -> (i + r) mod w = (j + r) mod w -> i = j.
Proof.
  intros Hw Hi Hj H.
  pose proof (N.div_mod (i + r) w Hw) as D1. pose proof (N.div_mod (j + r) w Hw) as D2. rewrite H in D1.
  destruct (N.lt_trichotomy ((i + r) / w) ((j + r) / w)) as [L|[L|L]]; [|rewrite L in D1; lia|]; nia.
Qed.
Lemma rotated_left_unique w x r y z : w <> 0 -> rotated_left w x r y -> rotated_left w x r z -> y = z.
Proof.
  intros Hw [Hy H1] [Hz H2]. apply (word_ext w); [exact Hy|exact Hz|]. intros i Hi.
  (* i = (j + r) mod w for j = (i + (w - r mod w)) mod w *)
  pose proof (N.mod_upper_bound r w Hw) as B.
  set (j := (i + (w - r mod w)) mod w).
  assert (Hj : j < w) by (apply N.mod_upper_bound; exact Hw).
  assert (E : (j + r) mod w = i).
  { unfold j. rewrite N.add_mod_idemp_l by exact Hw. rewrite <- (N.add_mod_idemp_r _ r) by exact Hw.
    replace (i + (w - r mod w) + r mod w) with (i + 1 * w) by lia. rewrite N.mod_add by exact Hw. now apply N.mod_small. }
  rewrite <- E. now rewrite H1, H2.
Qed.

Lemma shl_mask w x n : mask w (N.shiftl x n) = wshl w x n. Proof. reflexivity. Qed.
Lemma mask_lor w a b : mask w (N.lor a b) = N.lor (mask w a) (mask w b).
Proof. unfold mask. apply N.land_lor_distr_l. Qed.
Lemma shl_bound x n a b : x < 2 ^ a -> n <= b -> N.shiftl x n < 2 ^ (a + b).
Proof.
  intros Hx Hn. rewrite N.shiftl_mul_pow2, N.pow_add_r.
  apply N.lt_le_trans with (2 ^ a * 2 ^ n); [apply N.mul_lt_mono_pos_r; [apply pow2_pos|exact Hx]|].
  apply N.mul_le_mono_l. apply N.pow_le_mono_r; lia.
Qed.
Lemma shr_inw w x n : inw w x -> inw w (N.shiftr x n).
Proof. intros H. unfold inw in *. rewrite N.shiftr_div_pow2. eapply N.le_lt_trans; [|exact H]. apply N.div_le_upper_bound; [apply N.pow_nonzero; lia|]. pose proof (pow2_pos n). nia. Qed.

Definition widths : list N := [8; 16; 32; 64].
Lemma widths_cases w : In w widths -> w = 8 \/ w = 16 \/ w = 32 \/ w = 64.
Proof. cbn. intuition. Qed.
Lemma land_width w r : In w widths -> N.land r (w - 1) = r mod w.
Proof.
  intros H. destruct (widths_cases w H) as [->|[->|[->| ->]]].
  - change (8 - 1) with (N.ones 3). now rewrite N.land_ones.
  - change (16 - 1) with (N.ones 4). now rewrite N.land_ones.
  - change (32 - 1) with (N.ones 5). now rewrite N.land_ones.
  - change (64 - 1) with (N.ones 6). now rewrite N.land_ones.
Qed.

Ltac nums := try change (8 <? 32) with true; try change (16 <? 32) with true; try change (32 <? 32) with false;
  try change (64 <? 32) with false; cbv iota; try change (32 <=? 0) with false; try change (32 <=? 8) with false;
  try change (32 <=? 16) with false; cbv iota.

Lemma c_shl_ok w x n : In w widths -> inw w x -> n < w -> exists y, c_shl w x n = Ok y /\ mask w y = wshl w x n.
Proof.
  intros H Hx Hn. unfold c_shl, promoted.
  destruct (widths_cases w H) as [->|[->|[->| ->]]]; nums.
  - destruct (N.leb_spec 32 n); [lia|]. pose proof (shl_bound x n 8 7 Hx ltac:(lia)) as B.
    change (2 ^ (8 + 7)) with 32768 in B. destruct (N.leb_spec (2 ^ 31) (N.shiftl x n)) as [L|L];
    [change (2 ^ 31) with 2147483648 in L; lia|]. eauto.
  - destruct (N.leb_spec 32 n); [lia|]. pose proof (shl_bound x n 16 15 Hx ltac:(lia)) as B.
    change (16 + 15) with 31 in B. destruct (N.leb_spec (2 ^ 31) (N.shiftl x n)) as [L|L];
    [lia|]. eauto.
  - destruct (N.leb_spec 32 n); [lia|]. eexists. split; [reflexivity|]. apply mask_id. wb.
  - destruct (N.leb_spec 64 n); [lia|]. eexists. split; [reflexivity|]. apply mask_id. wb.
Qed.
Lemma c_shr_ok w x n : In w widths -> n < w -> c_shr w x n = Ok (N.shiftr x n).
Proof.
  intros H Hn. unfold c_shr, promoted.
  destruct (widths_cases w H) as [->|[->|[->| ->]]]; nums;
  match goal with |- context [?a <=? n] => destruct (N.leb_spec a n); [lia|reflexivity] end.
Qed.

(** the portable forms, when the count is no multiple of the width *)
Lemma ROL_ok w x r : In w widths -> x < 2 ^ w -> r mod w <> 0 ->
  exists y, ROL w x r = Ok y /\ rotated_left w x r y.
Proof.
  intros H Hx Hr. unfold ROL. rewrite land_width by exact H.
  assert (Hw : w <> 0) by (destruct (widths_cases w H) as [->|[->|[->| ->]]]; discriminate).
  pose proof (N.mod_upper_bound r w Hw) as B. set (n := r mod w) in *.
  destruct (c_shl_ok w x n H Hx B) as (y & E & M). rewrite E. cbn [bind].
  rewrite c_shr_ok by (assumption || lia). cbn [bind]. eexists. split; [reflexivity|].
  rewrite mask_lor, M, (mask_id w (N.shiftr _ _)) by (apply shr_inw; exact Hx).
  apply rotated_left_mod; [exact Hw|]. fold n. apply rol_rotates; (assumption || lia).
Qed.
Lemma ROR_ok w x r : In w widths -> x < 2 ^ w -> r mod w <> 0 ->
  exists y, ROR w x r = Ok y /\ rotated_right w x r y.
Proof.
  intros H Hx Hr. unfold ROR. rewrite land_width by exact H.
  assert (Hw : w <> 0) by (destruct (widths_cases w H) as [->|[->|[->| ->]]]; discriminate).
  pose proof (N.mod_upper_bound r w Hw) as B. set (n := r mod w) in *.
  destruct (c_shl_ok w x (w - n) H Hx ltac:(lia)) as (y & E & M).
  rewrite c_shr_ok by (assumption || lia). cbn [bind]. rewrite E. cbn [bind]. eexists. split; [reflexivity|].
  rewrite mask_lor, M, (mask_id w (N.shiftr _ _)) by (apply shr_inw; exact Hx).
  apply rotated_right_mod; [exact Hw|]. fold n. apply ror_rotates; (assumption || lia).
Qed.
(** the narrow left rotations are defined for every count *)
Lemma ROL_narrow_0 w x r : w = 8 \/ w = 16 -> x < 2 ^ w -> r mod w = 0 -> ROL w x r = Ok x.
Proof.
  intros H Hx Hr. unfold ROL. rewrite land_width by (destruct H as [-> | ->]; cbn; auto). rewrite Hr.
  rewrite N.sub_0_r. unfold c_shl, c_shr, promoted.
  assert (S : N.shiftr x w = 0) by (rewrite N.shiftr_div_pow2; apply N.div_small; exact Hx).
  destruct H as [-> | ->]; nums; rewrite N.shiftl_0_r;
  (destruct (N.leb_spec (2 ^ 31) x) as [L|L];
   [change (2 ^ 31) with 2147483648 in L; change (2 ^ 8) with 256 in Hx; change (2 ^ 16) with 65536 in Hx; lia|]);
  cbn [bind]; rewrite S, N.lor_0_r; f_equal; apply mask_id; exact Hx.
Qed.
Lemma ROR8_0 x r : x < 2 ^ 8 -> r mod 8 = 0 -> ROR 8 x r = Ok x.
Proof.
  intros Hx Hr. unfold ROR. rewrite land_width by (cbn; auto). rewrite Hr, N.sub_0_r. unfold c_shl, c_shr, promoted.
  nums. rewrite N.shiftr_0_r. cbn [bind].
  destruct (N.leb_spec (2 ^ 31) (N.shiftl x 8)) as [L|L].
  - pose proof (shl_bound x 8 8 8 Hx ltac:(lia)). change (2 ^ 31) with 2147483648 in L. change (2 ^ (8 + 8)) with 65536 in *. lia.
  - cbn [bind]. f_equal. rewrite mask_lor, shl_mask, (mask_id 8 x) by exact Hx.
    replace (wshl 8 x 8) with 0; [apply N.lor_0_r|]. symmetry. unfold wshl. rewrite mask_mod, N.shiftl_mul_pow2.
    apply N.mod_mul. discriminate.
Qed.
(** 32 and 64 bit rotations by a multiple of the width shift by the width: undefined *)
Lemma ROL_0_refuted w x r : w = 32 \/ w = 64 -> r mod w = 0 -> ROL w x r = Err BadShift.
Proof.
  intros H Hr. unfold ROL. rewrite land_width by (destruct H as [-> | ->]; cbn; auto). rewrite Hr, N.sub_0_r.
  unfold c_shl, c_shr, promoted. destruct H as [-> | ->]; reflexivity.
Qed.
Lemma ROR_0_refuted w x r : w = 32 \/ w = 64 -> r mod w = 0 -> ROR w x r = Err BadShift.
Proof.
  intros H Hr. unfold ROR. rewrite land_width by (destruct H as [-> | ->]; cbn; auto). rewrite Hr, N.sub_0_r.
  unfold c_shl, c_shr, promoted. destruct H as [-> | ->]; reflexivity.
Qed.
(** ... and ROR16 overflows int *)
Lemma ROR16_0_refuted x r : 2 ^ 15 <= x -> r mod 16 = 0 -> ROR 16 x r = Err BadShift.
Proof.
  intros Hx Hr. unfold ROR. rewrite land_width by (cbn; auto). rewrite Hr, N.sub_0_r.
  unfold c_shl, c_shr, promoted. nums; cbn [bind].
  destruct (N.leb_spec (2 ^ 31) (N.shiftl x 16)) as [L|L]; [reflexivity|].
  rewrite N.shiftl_mul_pow2 in L. change (2 ^ 31) with (2 ^ 15 * 2 ^ 16) in L. nia.
Qed.

(** the functions with a constant count *)
Definition rol_entry_ok (e : N * N * N * N * N) : bool :=
  let '(w, r, c, a, b) := e in (existsb (N.eqb w) widths && (0 <? r) && (r <? w) && (c =? r) && (a =? r) && (b =? w - r))%bool.
Lemma rol_consts_ok : forallb rol_entry_ok rol_consts = true. Proof. vm_compute. reflexivity. Qed.
Definition all_rols : list (N * N) := flat_map (fun w => map (fun i => (w, N.of_nat i)) (seq 1 (N.to_nat w - 1))) widths.
Lemma rol_consts_complete : map (fun e => let '(w, r, _, _, _) := e in (w, r)) rol_consts = all_rols.
Proof. vm_compute. reflexivity. Qed.
Lemma ror_macros_complete : map (fun e => let '(w, r, _, _) := e in (w, r)) ror_macros = all_rols.
Proof. vm_compute. reflexivity. Qed.

Lemma find_rol_ok w r c a b : find_rol w r = Some (c, a, b) -> In w widths /\ 0 < r < w /\ c = r /\ a = r /\ b = w - r.
Proof.
  unfold find_rol. destruct (find _ rol_consts) as [[[[[w' r'] c'] a'] b']|] eqn:E; [|discriminate].
  intros H. injection H as <- <- <-. apply find_some in E. destruct E as [I E].
  pose proof (proj1 (forallb_forall _ _) rol_consts_ok _ I) as O. unfold rol_entry_ok in O.
  apply andb_prop in E. destruct E as [E1 E2]. apply N.eqb_eq in E1, E2. subst w' r'.
  rewrite !andb_true_iff in O. destruct O as (((((O1 & O2) & O3) & O4) & O5) & O6).
  apply N.ltb_lt in O2, O3. apply N.eqb_eq in O4, O5, O6.
  split; [|auto]. apply existsb_exists in O1. destruct O1 as (y & Hy & Ey). apply N.eqb_eq in Ey. now subst y.
Qed.

Lemma rol_const_ok w r c a b x : find_rol w r = Some (c, a, b) -> x < 2 ^ w ->
  rotated_left w x r (rolv w x c) /\ exists y, ROL_const w a b x = Ok y /\ rotated_left w x r y.
Proof.
  intros H Hx. destruct (find_rol_ok w r c a b H) as (Hw & Hr & -> & -> & ->).
  assert (w <> 0) by lia. split; [now apply rolv_rotates|].
  unfold ROL_const. destruct (c_shl_ok w x r Hw Hx ltac:(lia)) as (y & E & M). rewrite E. cbn [bind].
  rewrite c_shr_ok by (assumption || lia). cbn [bind]. eexists. split; [reflexivity|].
  rewrite mask_lor, M, (mask_id w (N.shiftr _ _)) by (apply shr_inw; exact Hx).
  apply rol_rotates; (assumption || lia).
Qed.

Definition ror_entry_ok (e : N * N * N * N) : bool :=
  let '(w, r, v, q) := e in ((v =? w) && (q =? w - r) && (0 <? r) && (r <? w) || ((w =? 8) && (r =? 6)))%bool.
Lemma ror_macros_ok : forallb ror_entry_ok ror_macros = true. Proof. vm_compute. reflexivity. Qed.

Lemma rotated_left_right w x r y : 0 < r < w -> rotated_left w x (w - r) y -> rotated_right w x r y.
Proof.
  intros Hr [H1 H2]. split; [exact H1|]. intros i Hi.
  assert (Hw : w <> 0) by lia.
  rewrite <- (H2 ((i + r) mod w)) by (apply N.mod_upper_bound; exact Hw). f_equal.
  rewrite N.add_mod_idemp_l by exact Hw. replace (i + r + (w - r)) with (i + 1 * w) by lia.
  rewrite N.mod_add by exact Hw. symmetry. now apply N.mod_small.
Qed.

Lemma ror_macro_ok w r c a b x : (w, r) <> (8, 6) -> find_ror w r = Some (c, a, b) -> x < 2 ^ w ->
  rotated_right w x r (rolv w x c) /\ exists y, ROL_const w a b x = Ok y /\ rotated_right w x r y.
Proof.
  intros Hn. unfold find_ror. destruct (find _ ror_macros) as [[[[w' r'] v] q]|] eqn:E; [|discriminate].
  intros H Hx. apply find_some in E. destruct E as [I E].
  pose proof (proj1 (forallb_forall _ _) ror_macros_ok _ I) as O. unfold ror_entry_ok in O.
  apply andb_prop in E. destruct E as [E1 E2]. apply N.eqb_eq in E1, E2. subst w' r'.
  apply orb_true_iff in O. destruct O as [O|O].
  2:{ apply andb_prop in O. destruct O as [O1 O2]. apply N.eqb_eq in O1, O2. now subst. }
  rewrite !andb_true_iff in O. destruct O as (((O1 & O2) & O3) & O4).
  apply N.eqb_eq in O1, O2. apply N.ltb_lt in O3, O4. subst v q.
  destruct (rol_const_ok w (w - r) c a b x H Hx) as [H1 (y & E & H2)].
  split; [apply rotated_left_right; [lia|exact H1]|]. exists y. split; [exact E|].
  apply rotated_left_right; [lia|exact H2].
Qed.
(** ROR8_6 is defined as a rotation by 3 *)
Lemma ROR8_6_refuted : exists c a b y, find_ror 8 6 = Some (c, a, b) /\ ROL_const 8 a b 1 = Ok y /\ y = rolv 8 1 c /\
  ~ rotated_right 8 1 6 y.
Proof.
  eexists _, _, _, _. split; [vm_compute; reflexivity|]. split; [vm_compute; reflexivity|]. split; [vm_compute; reflexivity|].
  intros [_ H]. specialize (H 3 ltac:(lia)). vm_compute in H. discriminate.
Qed.
Lemma narrow_0 x r :
  (x < 2 ^ 8 -> r mod 8 = 0 -> ROL 8 x r = Ok x /\ ROR 8 x r = Ok x) /\
  (x < 2 ^ 16 -> r mod 16 = 0 -> ROL 16 x r = Ok x).
Proof.
  split; intros Hx Hr; [split|].
  - apply ROL_narrow_0; auto.
  - now apply ROR8_0.
  - apply ROL_narrow_0; auto.
Qed.
Lemma find_all w r : In w widths -> 0 < r < w -> find_rol w r <> None /\ find_ror w r <> None.
Proof.
  intros Hw Hr.
  assert (I : In (w, r) all_rols).
  { unfold all_rols. apply in_flat_map. exists w. split; [exact Hw|]. apply in_map_iff. exists (N.to_nat r).
    rewrite N2Nat.id. split; [reflexivity|]. apply in_seq. lia. }
  assert (F : forallb (fun p => match find_rol (fst p) (snd p), find_ror (fst p) (snd p) with Some _, Some _ => true | _, _ => false end) all_rols = true)
    by (vm_compute; reflexivity).
  pose proof (proj1 (forallb_forall _ _) F _ I) as G. cbn [fst snd] in G.
  destruct (find_rol w r), (find_ror w r); try discriminate. split; discriminate.
Qed.
