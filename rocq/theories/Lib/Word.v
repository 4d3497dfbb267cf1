(** Machine words as [N] with explicit masking.

    A C unsigned integer of width [w] is an [N] below [2^w].  Every C operation
    whose mathematical result can leave the range is written with [mask]. *)
From Coq Require Import NArith Bool Lia List.
Local Open Scope N_scope.

(** conversion to uintW_t *)
Definition mask (w x : N) : N := N.land x (N.ones w).
Definition inw (w x : N) : Prop := x < 2 ^ w.

Definition wadd (w a b : N) : N := mask w (a + b).
Definition wsub (w a b : N) : N := mask w (a + 2 ^ w - mask w b).
Definition wmul (w a b : N) : N := mask w (a * b).
Definition wnot (w a : N) : N := N.lxor a (N.ones w).
Definition wshl (w a n : N) : N := mask w (N.shiftl a n).
Definition wshr (a n : N) : N := N.shiftr a n.

(** include/kripto/rotate.h: rotation by a constant [0 <= n <= w]. *)
Definition rol (w a n : N) : N := N.lor (wshl w a n) (wshr a (w - n)).
Definition ror (w a n : N) : N := N.lor (wshr a n) (wshl w a (w - n)).

(** include/kripto/rotate.h: rotation by a variable, the count is taken modulo
    the width (x86 rol/ror instruction, or [r &= w - 1] in the portable form). *)
Definition rolv (w a n : N) : N := rol w a (n mod w).
Definition rorv (w a n : N) : N := ror w a (n mod w).

(** low byte, C cast to uint8_t *)
Definition byte (x : N) : N := N.land x 255.

(** byte number [i] of [x] counted from the least significant one *)
Definition byten (x i : N) : N := byte (N.shiftr x (8 * i)).

Lemma mask_mod w x : mask w x = x mod 2 ^ w.
Proof. apply N.land_ones. Qed.

Lemma pow2_pos w : 0 < 2 ^ w.
Proof. apply N.neq_0_lt_0, N.pow_nonzero. discriminate. Qed.

Lemma inw_mask w x : inw w (mask w x).
Proof. unfold inw. rewrite mask_mod. apply N.mod_lt. pose proof (pow2_pos w). lia. Qed.

Lemma mask_id w x : inw w x -> mask w x = x.
Proof. intros H. rewrite mask_mod. apply N.mod_small, H. Qed.

Lemma mask_idem w x : mask w (mask w x) = mask w x.
Proof. apply mask_id, inw_mask. Qed.

Lemma mask_spec w x i : N.testbit (mask w x) i = (i <? w) && N.testbit x i.
Proof.
  unfold mask. rewrite N.land_spec. rewrite andb_comm. f_equal.
  destruct (N.ltb_spec i w) as [H|H].
  - now apply N.ones_spec_low.
  - now apply N.ones_spec_high.
Qed.

Lemma ones_spec w i : N.testbit (N.ones w) i = (i <? w).
Proof.
  destruct (N.ltb_spec i w) as [H|H].
  - now apply N.ones_spec_low.
  - now apply N.ones_spec_high.
Qed.

(** A word is in range iff its high bits are zero. *)
Lemma inw_bits w x : inw w x <-> (forall i, w <= i -> N.testbit x i = false).
Proof.
  split.
  - intros H i Hi. rewrite <- (mask_id w x H), mask_spec.
    destruct (N.ltb_spec i w); [lia|reflexivity].
  - intros H. replace x with (mask w x); [apply inw_mask|].
    apply N.bits_inj. intros i. rewrite mask_spec.
    destruct (N.ltb_spec i w) as [L|L]; [reflexivity|].
    rewrite (H i L). reflexivity.
Qed.

Lemma inw_high w x i : inw w x -> w <= i -> N.testbit x i = false.
Proof. intros H. now apply inw_bits. Qed.

Lemma inw_0 w : inw w 0.
Proof. unfold inw. apply pow2_pos. Qed.

Lemma inw_lxor w a b : inw w a -> inw w b -> inw w (N.lxor a b).
Proof.
  rewrite !inw_bits. intros Ha Hb i Hi. now rewrite N.lxor_spec, (Ha i Hi), (Hb i Hi).
Qed.
Lemma inw_lor w a b : inw w a -> inw w b -> inw w (N.lor a b).
Proof.
  rewrite !inw_bits. intros Ha Hb i Hi. now rewrite N.lor_spec, (Ha i Hi), (Hb i Hi).
Qed.
Lemma inw_land w a b : inw w a -> inw w (N.land a b).
Proof.
  rewrite !inw_bits. intros Ha i Hi. now rewrite N.land_spec, (Ha i Hi).
Qed.
Lemma inw_land_r w a b : inw w b -> inw w (N.land a b).
Proof.
  rewrite !inw_bits. intros Ha i Hi. now rewrite N.land_spec, (Ha i Hi), andb_false_r.
Qed.
Lemma inw_wadd w a b : inw w (wadd w a b).
Proof. apply inw_mask. Qed.
Lemma inw_wsub w a b : inw w (wsub w a b).
Proof. apply inw_mask. Qed.
Lemma inw_wmul w a b : inw w (wmul w a b).
Proof. apply inw_mask. Qed.
Lemma inw_wshl w a b : inw w (wshl w a b).
Proof. apply inw_mask. Qed.
Lemma inw_wshr w a n : inw w a -> inw w (wshr a n).
Proof.
  rewrite !inw_bits. intros Ha i Hi. unfold wshr.
  rewrite N.shiftr_spec by lia. apply Ha. lia.
Qed.
Lemma inw_ones w : inw w (N.ones w).
Proof. apply inw_bits. intros i Hi. apply N.ones_spec_high; lia. Qed.
Lemma inw_wnot w a : inw w a -> inw w (wnot w a).
Proof. intros H. apply inw_lxor; [exact H|apply inw_ones]. Qed.
Lemma inw_rol w a n : inw w a -> inw w (rol w a n).
Proof. intros H. apply inw_lor; [apply inw_wshl|now apply inw_wshr]. Qed.
Lemma inw_ror w a n : inw w a -> inw w (ror w a n).
Proof. intros H. apply inw_lor; [now apply inw_wshr|apply inw_wshl]. Qed.
Lemma inw_rolv w a n : inw w a -> inw w (rolv w a n).
Proof. apply inw_rol. Qed.
Lemma inw_rorv w a n : inw w a -> inw w (rorv w a n).
Proof. apply inw_ror. Qed.
Lemma inw_mono v w a : v <= w -> inw v a -> inw w a.
Proof. intros H Ha. rewrite inw_bits in *. intros i Hi. apply Ha. lia. Qed.
Lemma inw_byte x : inw 8 (byte x).
Proof. apply (inw_mask 8). Qed.
Lemma byte_mask x : byte x = mask 8 x.
Proof. reflexivity. Qed.
Lemma byte_lt x : byte x < 256.
Proof. apply (inw_mask 8). Qed.
Lemma inw_byten x i : inw 8 (byten x i).
Proof. apply inw_byte. Qed.
Lemma byten_lt x i : byten x i < 256.
Proof. apply (inw_byten x i). Qed.

#[global] Hint Resolve inw_mask inw_0 inw_lxor inw_lor inw_land inw_wadd inw_wsub inw_wmul
  inw_wshl inw_wshr inw_ones inw_wnot inw_rol inw_ror inw_rolv inw_rorv inw_byte inw_byten : wb.

#[global] Hint Extern 8 (inw _ ?c) => is_ground c; reflexivity : wb.
#[global] Hint Extern 1 (_ <> 0) => discriminate : wb.

Ltac wb := auto 60 with wb.

(** ** Addition and subtraction *)

Lemma wadd_mod w a b : wadd w a b = (a + b) mod 2 ^ w.
Proof. apply mask_mod. Qed.

Lemma wsub_add w a b : inw w b -> wadd w (wsub w a b) b = mask w a.
Proof.
  unfold inw, wadd, wsub. intros Hb. rewrite !mask_mod.
  rewrite (N.mod_small b) by exact Hb.
  rewrite N.add_mod_idemp_l by (pose proof (pow2_pos w); lia).
  replace (a + 2 ^ w - b + b) with (a + 1 * 2 ^ w) by lia.
  apply N.mod_add. pose proof (pow2_pos w). lia.
Qed.

Lemma wadd_sub w a b : inw w b -> wsub w (wadd w a b) b = mask w a.
Proof.
  unfold inw, wadd, wsub. intros Hb. rewrite !mask_mod.
  rewrite (N.mod_small b) by exact Hb.
  pose proof (pow2_pos w) as Hp.
  assert (Hlt : (a + b) mod 2 ^ w < 2 ^ w) by (apply N.mod_lt; lia).
  generalize dependent (2 ^ w). intros p Hb Hp Hlt.
  replace ((a + b) mod p + p - b) with ((a + b) mod p + (p - b))
    by (generalize dependent ((a + b) mod p); intros; lia).
  rewrite N.add_mod_idemp_l by lia.
  replace (a + b + (p - b)) with (a + 1 * p) by lia.
  apply N.mod_add. lia.
Qed.

Lemma wadd_wsub w a b : inw w a -> inw w b -> wsub w (wadd w a b) b = a.
Proof. intros Ha Hb. rewrite wadd_sub by exact Hb. now apply mask_id. Qed.
Lemma wsub_wadd w a b : inw w a -> inw w b -> wadd w (wsub w a b) b = a.
Proof. intros Ha Hb. rewrite wsub_add by exact Hb. now apply mask_id. Qed.
Lemma wadd_comm w a b : wadd w a b = wadd w b a.
Proof. unfold wadd. now rewrite N.add_comm. Qed.
Lemma wadd_wsub_l w a b : inw w a -> inw w b -> wsub w (wadd w b a) b = a.
Proof. rewrite wadd_comm. apply wadd_wsub. Qed.
Lemma wadd_assoc w a b c : wadd w (wadd w a b) c = wadd w a (wadd w b c).
Proof.
  unfold wadd. rewrite !mask_mod. pose proof (pow2_pos w).
  rewrite N.add_mod_idemp_l, N.add_mod_idemp_r by lia. f_equal. lia.
Qed.
Lemma wadd_0_r w a : inw w a -> wadd w a 0 = a.
Proof. intros H. unfold wadd. rewrite N.add_0_r. now apply mask_id. Qed.

(** ** Exclusive or *)

Lemma lxor_cancel a b : N.lxor (N.lxor a b) b = a.
Proof. now rewrite N.lxor_assoc, N.lxor_nilpotent, N.lxor_0_r. Qed.
Lemma lxor_cancel_l a b : N.lxor b (N.lxor b a) = a.
Proof. now rewrite <- N.lxor_assoc, N.lxor_nilpotent, N.lxor_0_l. Qed.
Lemma lxor_cancel_m a b : N.lxor (N.lxor b a) b = a.
Proof. rewrite (N.lxor_comm b a). apply lxor_cancel. Qed.
Lemma lxor_cancel_m2 a b : N.lxor b (N.lxor a b) = a.
Proof. rewrite (N.lxor_comm a b). apply lxor_cancel_l. Qed.
Lemma wnot_invol w a : wnot w (wnot w a) = a.
Proof. unfold wnot. apply lxor_cancel. Qed.

(** ** Rotations *)

Lemma wshl_spec w a n i :
  N.testbit (wshl w a n) i = (i <? w) && ((n <=? i) && N.testbit a (i - n)).
Proof.
  unfold wshl. rewrite mask_spec. f_equal.
  destruct (N.leb_spec n i) as [H|H].
  - now rewrite N.shiftl_spec_high' by exact H.
  - now rewrite N.shiftl_spec_low by exact H.
Qed.

Lemma wshr_spec a n i : N.testbit (wshr a n) i = N.testbit a (i + n).
Proof. unfold wshr. apply N.shiftr_spec. lia. Qed.

(** Meaning of a rotation, bit by bit. *)
Lemma rol_spec w a n i :
  inw w a -> n <= w -> i < w ->
  N.testbit (rol w a n) i = N.testbit a (if n <=? i then i - n else i + w - n).
Proof.
  intros Ha Hn Hi. unfold rol. rewrite N.lor_spec, wshl_spec, wshr_spec.
  assert (E : (i <? w) = true) by (apply N.ltb_lt; exact Hi). rewrite E. cbn [andb].
  destruct (N.leb_spec n i) as [H|H]; cbn [andb orb].
  - rewrite (inw_high w a (i + (w - n))) by (exact Ha || lia).
    apply orb_false_r.
  - f_equal. lia.
Qed.

Lemma ror_spec w a n i :
  inw w a -> n <= w -> i < w ->
  N.testbit (ror w a n) i = N.testbit a (if i + n <? w then i + n else i + n - w).
Proof.
  intros Ha Hn Hi. unfold ror. rewrite N.lor_spec, wshl_spec, wshr_spec.
  assert (E : (i <? w) = true) by (apply N.ltb_lt; exact Hi). rewrite E. cbn [andb].
  destruct (N.ltb_spec (i + n) w) as [H|H]; cbn [andb orb].
  - destruct (N.leb_spec (w - n) i) as [H2|H2]; [lia|]. cbn [andb]. apply orb_false_r.
  - rewrite (inw_high w a (i + n)) by (exact Ha || lia).
    destruct (N.leb_spec (w - n) i) as [H2|H2]; [|lia]. cbn [andb orb]. f_equal. lia.
Qed.

Lemma word_ext w a b :
  inw w a -> inw w b -> (forall i, i < w -> N.testbit a i = N.testbit b i) -> a = b.
Proof.
  intros Ha Hb H. apply N.bits_inj. intros i.
  destruct (N.lt_ge_cases i w) as [L|L]; [now apply H|].
  now rewrite (inw_high w a i), (inw_high w b i).
Qed.

Lemma ror_rol w a n : inw w a -> n <= w -> ror w (rol w a n) n = a.
Proof.
  intros Ha Hn. apply (word_ext w); [wb|exact Ha|]. intros i Hi.
  rewrite ror_spec by (wb || lia).
  destruct (N.ltb_spec (i + n) w) as [H|H].
  - rewrite rol_spec by (wb || lia). destruct (N.leb_spec n (i + n)); [f_equal; lia|lia].
  - rewrite rol_spec by (wb || lia). destruct (N.leb_spec n (i + n - w)); f_equal; lia.
Qed.

Lemma rol_ror w a n : inw w a -> n <= w -> rol w (ror w a n) n = a.
Proof.
  intros Ha Hn. apply (word_ext w); [wb|exact Ha|]. intros i Hi.
  rewrite rol_spec by (wb || lia).
  destruct (N.leb_spec n i) as [H|H].
  - rewrite ror_spec by (wb || lia). destruct (N.ltb_spec (i - n + n) w); [f_equal; lia|lia].
  - rewrite ror_spec by (wb || lia). destruct (N.ltb_spec (i + w - n + n) w); f_equal; lia.
Qed.

Lemma rol_is_ror w a n : n <= w -> rol w a n = ror w a (w - n).
Proof.
  intros H. unfold rol, ror. rewrite N.lor_comm. f_equal. f_equal. lia.
Qed.

Lemma rorv_rolv w a n : w <> 0 -> inw w a -> rorv w (rolv w a n) n = a.
Proof. intros Hw Ha. apply ror_rol; [exact Ha|]. pose proof (N.mod_lt n w Hw). lia. Qed.
Lemma rolv_rorv w a n : w <> 0 -> inw w a -> rolv w (rorv w a n) n = a.
Proof. intros Hw Ha. apply rol_ror; [exact Ha|]. pose proof (N.mod_lt n w Hw). lia. Qed.


Global Arguments N.add : simpl never.
Global Arguments N.sub : simpl never.
Global Arguments N.mul : simpl never.
Global Arguments N.div : simpl never.
Global Arguments N.modulo : simpl never.
Global Arguments N.pow : simpl never.
Global Arguments N.ones : simpl never.
Global Arguments N.land : simpl never.
Global Arguments N.lor : simpl never.
Global Arguments N.lxor : simpl never.
Global Arguments N.shiftl : simpl never.
Global Arguments N.shiftr : simpl never.
Global Arguments N.testbit : simpl never.
Global Arguments N.ltb : simpl never.
Global Arguments N.leb : simpl never.
Global Arguments N.eqb : simpl never.
Global Arguments mask : simpl never.
Global Arguments wadd : simpl never.
Global Arguments wsub : simpl never.
Global Arguments wmul : simpl never.
Global Arguments wnot : simpl never.
Global Arguments wshl : simpl never.
Global Arguments wshr : simpl never.
Global Arguments rol : simpl never.
Global Arguments ror : simpl never.
Global Arguments rolv : simpl never.
Global Arguments rorv : simpl never.
Global Arguments byte : simpl never.
Global Arguments byten : simpl never.
