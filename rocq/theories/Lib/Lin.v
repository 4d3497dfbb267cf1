(** Linear maps on bytes given by their columns, S-boxes over the bytes of a word,
    and tables that hold an S-box followed by a linear map. *)
From Coq Require Import NArith Arith List Bool Lia.
From Verif Require Import Lib.Word Lib.Res Lib.Bytes Lib.Bits Lib.BlockLemmas Lib.WordsP Model.LoadStore Model.Table.
Import ListNotations.
Local Open Scope N_scope.

(** the linear map with columns [cs] (lowest bit first) *)
Fixpoint lin (cs : list N) (x : N) : N :=
  match cs with [] => 0 | c :: cs => N.lxor (if N.odd x then c else 0) (lin cs (N.div2 x)) end.

Lemma odd_lxor a b : N.odd (N.lxor a b) = xorb (N.odd a) (N.odd b).
Proof. rewrite <- !N.bit0_odd. apply N.lxor_spec. Qed.
Lemma div2_lxor a b : N.div2 (N.lxor a b) = N.lxor (N.div2 a) (N.div2 b).
Proof. rewrite !N.div2_spec. apply N.shiftr_lxor. Qed.
Lemma lin_lxor cs : forall a b, lin cs (N.lxor a b) = N.lxor (lin cs a) (lin cs b).
Proof.
  induction cs as [|c cs IH]; intros a b; [reflexivity|]. cbn [lin]. rewrite odd_lxor, div2_lxor, IH.
  destruct (N.odd a), (N.odd b); cbn [xorb]; rewrite ?N.lxor_0_l.
  - transitivity (N.lxor (N.lxor c c) (N.lxor (lin cs (N.div2 a)) (lin cs (N.div2 b)))); [now rewrite N.lxor_nilpotent, N.lxor_0_l|].
    rewrite !N.lxor_assoc. f_equal. rewrite <- !N.lxor_assoc. f_equal. apply N.lxor_comm.
  - now rewrite N.lxor_assoc.
  - rewrite <- !N.lxor_assoc. f_equal. apply N.lxor_comm.
  - reflexivity.
Qed.
Lemma lin_inw w cs : words_ok w cs -> forall x, inw w (lin cs x).
Proof.
  induction 1 as [|c cs Hc _ IH]; intros x; cbn [lin]; [apply inw_0|]. apply inw_lxor; [|apply IH].
  destruct (N.odd x); [exact Hc|apply inw_0].
Qed.

(** one such map per byte *)
Fixpoint mixl (cs : list (list N)) (l : list N) : N :=
  match cs, l with c :: cs, b :: l => N.lxor (lin c b) (mixl cs l) | _, _ => 0 end.
Lemma mixl_inw w cs : Forall (words_ok w) cs -> forall l, inw w (mixl cs l).
Proof.
  induction 1 as [|c cs Hc _ IH]; intros [|b l]; cbn [mixl]; try apply inw_0. apply inw_lxor; [now apply lin_inw|apply IH].
Qed.
Lemma mixl_vxor cs : forall a b, length a = length b -> mixl cs (vxor a b) = N.lxor (mixl cs a) (mixl cs b).
Proof.
  induction cs as [|c cs IH]; intros [|x a] [|y b] Hl; try discriminate; try reflexivity.
  cbn [mixl vxor]. rewrite lin_lxor, IH by (injection Hl; auto).
  rewrite !N.lxor_assoc. f_equal. rewrite <- !N.lxor_assoc. f_equal. apply N.lxor_comm.
Qed.

(** ** Bytes of a word *)
Lemma le_bytes_lxor n : forall a b, le_bytes n (N.lxor a b) = vxor (le_bytes n a) (le_bytes n b).
Proof.
  induction n as [|n IH]; intros a b; [reflexivity|]. cbn [le_bytes vxor]. f_equal.
  - rewrite <- !byte_mod. apply land_lxor.
  - change 256 with (2 ^ 8). rewrite <- !N.shiftr_div_pow2, N.shiftr_lxor. apply IH.
Qed.
Lemma vxor_app a b : forall c d, length a = length b -> vxor (a ++ c) (b ++ d) = vxor a b ++ vxor c d.
Proof.
  revert b. induction a as [|x a IH]; intros [|y b] c d Hl; try discriminate; [reflexivity|].
  cbn [app vxor]. f_equal. apply IH. now injection Hl.
Qed.
Lemma vxor_rev a : forall b, length a = length b -> vxor (rev a) (rev b) = rev (vxor a b).
Proof.
  induction a as [|x a IH]; intros [|y b] Hl; try discriminate; [reflexivity|].
  injection Hl as Hl. cbn [rev vxor]. rewrite vxor_app by (now rewrite !rev_length). now rewrite IH.
Qed.
Lemma be_bytes_lxor n a b : be_bytes n (N.lxor a b) = vxor (be_bytes n a) (be_bytes n b).
Proof. unfold be_bytes. rewrite vxor_rev by (now rewrite !length_le_bytes). now rewrite le_bytes_lxor. Qed.

Lemma be_bytes_S n x : be_bytes (S n) x = byte (wshr x (8 * N.of_nat n)) :: be_bytes n x.
Proof.
  unfold be_bytes. revert x. induction n as [|n IH]; intros x.
  - cbn [le_bytes rev app N.of_nat]. rewrite N.mul_0_r. unfold wshr. now rewrite N.shiftr_0_r, byte_mod.
  - change (le_bytes (S (S n)) x) with (x mod 256 :: le_bytes (S n) (x / 256)). cbn [rev].
    rewrite IH. cbn [app le_bytes rev]. f_equal. f_equal. unfold wshr. change 256 with (2 ^ 8).
    rewrite <- N.shiftr_div_pow2, N.shiftr_shiftr. f_equal. lia.
Qed.

Lemma be_val_cons a l : bytes_ok l -> be_val (a :: l) = N.lxor (N.shiftl a (8 * N.of_nat (length l))) (be_val l).
Proof.
  intros Hl.
  assert (E : be_val (a :: l) = N.shiftl a (8 * N.of_nat (length l)) + be_val l).
  { unfold be_val. cbn [rev]. rewrite N.shiftl_mul_pow2, N.pow_mul_r. change (2 ^ 8) with 256.
    rewrite <- (rev_length l). generalize (rev l) as m. induction m as [|b m IH]; cbn [app le_val length].
    - change (N.of_nat 0) with 0. rewrite N.pow_0_r. lia.
    - rewrite IH, Nat2N.inj_succ, N.pow_succ_r'. lia. }
  rewrite E. pose proof (be_val_bound l Hl) as B. change 256 with (2 ^ 8) in B. rewrite <- N.pow_mul_r in B.
  set (w := 8 * N.of_nat (length l)) in *. clearbody w. apply N.add_nocarry_lxor.
  apply N.bits_inj. intros i. rewrite N.land_spec, N.bits_0. destruct (N.lt_ge_cases i w) as [Hi|Hi].
  - now rewrite N.shiftl_spec_low.
  - replace (be_val l) with (be_val l mod 2 ^ w) by (now apply N.mod_small).
    rewrite N.mod_pow2_bits_high by exact Hi. apply andb_false_r.
Qed.

(** ** An S-box over the bytes of a word *)
Definition subw (n : nat) (s : N -> N) (x : N) : N := be_val (map s (be_bytes n x)).
Lemma bytes_map s l : (forall b, b < 256 -> s b < 256) -> bytes_ok l -> bytes_ok (map s l).
Proof. intros Hs. induction 1; cbn [map]; constructor; auto. Qed.
Lemma be_bytes_subw n s x : (forall b, b < 256 -> s b < 256) -> be_bytes n (subw n s x) = map s (be_bytes n x).
Proof.
  intros Hs. unfold subw. rewrite <- (length_be_bytes n x) at 1. rewrite <- (map_length s).
  apply be_bytes_val, bytes_map; [exact Hs|apply bytes_be_bytes].
Qed.
Lemma subw_inw n s x w : (forall b, b < 256 -> s b < 256) -> w = 8 * N.of_nat n -> inw w (subw n s x).
Proof.
  intros Hs Hw. apply be_val_inw with (k := n); [apply bytes_map; [exact Hs|apply bytes_be_bytes]|rewrite map_length, length_be_bytes; lia|exact Hw].
Qed.
Lemma subw_subw n s t x w : (forall b, b < 256 -> s b < 256) -> (forall b, b < 256 -> t (s b) = b) ->
  w = 8 * N.of_nat n -> inw w x -> subw n t (subw n s x) = x.
Proof.
  intros Hs Ht Hw Hx. unfold subw at 1. rewrite be_bytes_subw by exact Hs. rewrite map_map.
  rewrite (map_ext_in _ (fun b => b)).
  - rewrite map_id, be_val_bytes. apply N.mod_small. unfold inw in Hx. subst w. rewrite N.pow_mul_r in Hx. exact Hx.
  - intros b Hb. apply Ht. pose proof (bytes_be_bytes n x) as B. unfold bytes_ok in B. rewrite Forall_forall in B. now apply B.
Qed.

(** the linear map on a word *)
Definition mixw (n : nat) (cs : list (list N)) (x : N) : N := mixl cs (be_bytes n x).
Lemma mixw_lxor n cs a b : mixw n cs (N.lxor a b) = N.lxor (mixw n cs a) (mixw n cs b).
Proof. unfold mixw. rewrite be_bytes_lxor. apply mixl_vxor. now rewrite !length_be_bytes. Qed.
Lemma mixw_xlin w n cs : xlin w (mixw n cs).
Proof. intros a b _ _. apply mixw_lxor. Qed.

(** ** Tables *)
Lemma byte_byte b : byte (byte b) = byte b.
Proof. rewrite !byte_mod. apply N.mod_mod. discriminate. Qed.
(** the columns of table [t] behind the S-box with inverse [si] *)
Definition cols (t : list N) (si : N -> N) : list N := map (fun i => tab8 t (si (2 ^ N.of_nat i))) (seq 0 8).
Definition bytesN : list N := map N.of_nat (seq 0 256).
Lemma in_bytesN b : b < 256 -> In b bytesN.
Proof.
  intros H. unfold bytesN. rewrite <- (N2Nat.id b). apply in_map, in_seq. split; [lia|]. cbn [Nat.add]. lia.
Qed.
(** [t b = lin c (s b)] *)
Definition tab_lin (t : list N) (c : list N) (s : N -> N) : bool :=
  forallb (fun b => tab8 t b =? lin c (s b)) bytesN.
Lemma tab_lin_eq t c s b : tab_lin t c s = true -> tab8 t b = lin c (s (byte b)).
Proof.
  intros H. unfold tab_lin in H. rewrite forallb_forall in H.
  assert (Hb : byte b < 256) by (rewrite byte_mod; apply N.mod_lt; discriminate).
  specialize (H _ (in_bytesN _ Hb)). apply N.eqb_eq in H. rewrite <- H.
  unfold tab8. now rewrite byte_byte.
Qed.
(** [t b & m = s b << sh] *)
Definition tab_msk (t : list N) (m sh : N) (s : N -> N) : bool :=
  forallb (fun b => N.land (tab8 t b) m =? N.shiftl (s b) sh) bytesN.
Lemma tab_msk_eq t m sh s b : tab_msk t m sh s = true -> N.land (tab8 t b) m = N.shiftl (s (byte b)) sh.
Proof.
  intros H. unfold tab_msk in H. rewrite forallb_forall in H.
  assert (Hb : byte b < 256) by (rewrite byte_mod; apply N.mod_lt; discriminate).
  specialize (H _ (in_bytesN _ Hb)). apply N.eqb_eq in H. rewrite <- H.
  unfold tab8. now rewrite byte_byte.
Qed.
Lemma bytes_check (f : N -> bool) b : forallb f bytesN = true -> b < 256 -> f b = true.
Proof. intros H Hb. rewrite forallb_forall in H. apply H. now apply in_bytesN. Qed.

(** ** Words of four bytes *)
Lemma be_val_cons_lor a l : bytes_ok l -> be_val (a :: l) = N.lor (N.shiftl a (8 * N.of_nat (length l))) (be_val l).
Proof.
  intros Hl. rewrite be_val_cons by exact Hl. symmetry. apply lor_disjoint.
  pose proof (be_val_bound l Hl) as B. change 256 with (2 ^ 8) in B. rewrite <- N.pow_mul_r in B.
  set (w := 8 * N.of_nat (length l)) in *. clearbody w.
  apply N.bits_inj. intros i. rewrite N.land_spec, N.bits_0. destruct (N.lt_ge_cases i w) as [Hi|Hi].
  - now rewrite N.shiftl_spec_low.
  - replace (be_val l) with (be_val l mod 2 ^ w) by (now apply N.mod_small).
    rewrite N.mod_pow2_bits_high by exact Hi. apply andb_false_r.
Qed.
Lemma byte_lt b : byte b < 256.
Proof. rewrite byte_mod. apply N.mod_lt. discriminate. Qed.
Lemma be4 x : be_bytes 4 x = [byte (wshr x 24); byte (wshr x 16); byte (wshr x 8); byte x].
Proof.
  rewrite !be_bytes_S. unfold be_bytes at 1. cbn [le_bytes rev].
  replace (wshr x (8 * N.of_nat 0)) with x by (unfold wshr; change (8 * N.of_nat 0) with 0; now rewrite N.shiftr_0_r).
  reflexivity.
Qed.
Lemma be4_val a b c d : a < 256 -> b < 256 -> c < 256 -> d < 256 ->
  let x := be_val [a; b; c; d] in byte (wshr x 24) = a /\ byte (wshr x 16) = b /\ byte (wshr x 8) = c /\ byte x = d.
Proof.
  intros Ha Hb Hc Hd x. assert (L : bytes_ok [a; b; c; d]) by (repeat constructor; assumption).
  pose proof (be_bytes_val _ L) as E. cbn [length] in E. fold x in E. rewrite be4 in E. clearbody x.
  pose proof (f_equal (fun l => nth 0 l 0) E) as E0. pose proof (f_equal (fun l => nth 1 l 0) E) as E1.
  pose proof (f_equal (fun l => nth 2 l 0) E) as E2. pose proof (f_equal (fun l => nth 3 l 0) E) as E3.
  cbn [nth] in E0, E1, E2, E3. auto.
Qed.
Lemma be4_id x : inw 32 x -> be_val [byte (wshr x 24); byte (wshr x 16); byte (wshr x 8); byte x] = x.
Proof. intros Hx. rewrite <- be4, be_val_bytes. now apply N.mod_small. Qed.
Lemma be4_inw a b c d : a < 256 -> b < 256 -> c < 256 -> d < 256 -> inw 32 (be_val [a; b; c; d]).
Proof. intros Ha Hb Hc Hd. apply be_val_inw with (k := 4%nat); [repeat constructor; assumption|cbn; lia|reflexivity]. Qed.

Section Tab4.
Context (t0 t1 t2 t3 c0 c1 c2 c3 : list N) (s0 s1 s2 s3 : N -> N).
Context (B0 : forall b, b < 256 -> s0 b < 256) (B1 : forall b, b < 256 -> s1 b < 256)
  (B2 : forall b, b < 256 -> s2 b < 256) (B3 : forall b, b < 256 -> s3 b < 256).

Lemma tab4_lin a b c d :
  tab_lin t0 c0 s0 && tab_lin t1 c1 s1 && tab_lin t2 c2 s2 && tab_lin t3 c3 s3 = true ->
  N.lxor (N.lxor (N.lxor (tab8 t0 a) (tab8 t1 b)) (tab8 t2 c)) (tab8 t3 d) =
  mixw 4 [c0; c1; c2; c3] (be_val [s0 (byte a); s1 (byte b); s2 (byte c); s3 (byte d)]).
Proof.
  intros H. rewrite !andb_true_iff in H. destruct H as [[[E0 E1] E2] E3].
  unfold mixw. change 4%nat with (length [s0 (byte a); s1 (byte b); s2 (byte c); s3 (byte d)]).
  rewrite be_bytes_val by (repeat constructor; [apply B0|apply B1|apply B2|apply B3]; apply byte_lt).
  cbn [mixl]. rewrite N.lxor_0_r.
  rewrite (tab_lin_eq t0 c0 s0 a E0), (tab_lin_eq t1 c1 s1 b E1), (tab_lin_eq t2 c2 s2 c E2), (tab_lin_eq t3 c3 s3 d E3).
  now rewrite !N.lxor_assoc.
Qed.
Lemma tab4_last a b c d :
  tab_msk t0 0xFF000000 24 s0 && tab_msk t1 0x00FF0000 16 s1 && tab_msk t2 0x0000FF00 8 s2 && tab_msk t3 0xFF 0 s3 = true ->
  N.lor (N.lor (N.lor (N.land (tab8 t0 a) 0xFF000000) (N.land (tab8 t1 b) 0x00FF0000)) (N.land (tab8 t2 c) 0x0000FF00)) (N.land (tab8 t3 d) 0xFF) =
  be_val [s0 (byte a); s1 (byte b); s2 (byte c); s3 (byte d)].
Proof.
  intros H. rewrite !andb_true_iff in H. destruct H as [[[E0 E1] E2] E3].
  rewrite (tab_msk_eq _ _ _ _ a E0), (tab_msk_eq _ _ _ _ b E1), (tab_msk_eq _ _ _ _ c E2), (tab_msk_eq _ _ _ _ d E3).
  assert (H1 := B1 _ (byte_lt b)). assert (H2 := B2 _ (byte_lt c)). assert (H3 := B3 _ (byte_lt d)).
  rewrite !be_val_cons_lor by (repeat constructor; assumption).
  change (be_val []) with 0. rewrite N.lor_0_r. cbn [length].
  change (8 * N.of_nat 3) with 24. change (8 * N.of_nat 2) with 16. change (8 * N.of_nat 1) with 8. change (8 * N.of_nat 0) with 0.
  now rewrite <- !N.lor_assoc.
Qed.
End Tab4.
