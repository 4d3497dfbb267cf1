(** Skipjack is the cipher of the NIST specification, with all byte strings reversed. *)
From Coq Require Import NArith Arith List Bool Lia.
From Verif Require Import Lib.Word Lib.Res Lib.Bytes Lib.Bits Lib.Bij Lib.Feistel Lib.Lists Lib.BlockLemmas Lib.Lin Lib.WordSpec Lib.WordsP Lib.XorSolve
  Spec.Words Spec.Block Spec.Arx Spec.Gf Spec.Affine Spec.Pub1 Model.LoadStore Model.BlockApi Model.Table Model.Skipjack Model.Ciphers
  Proof.LoadStoreP Proof.Sha1P Proof.ArxP Proof.LeaPubP Proof.PubLib Proof.TableP Proof.SkipjackP Proof.RekeyP Proof.CiphersP.
Import ListNotations.
Local Open Scope N_scope.

Lemma sj_s_F : sj_s = sj_F. Proof. reflexivity. Qed.
Lemma tab8_lt t x : x < 256 -> tab8 t x = nth (N.to_nat x) t 0.
Proof. intros H. unfold tab8. rewrite byte_mod, N.mod_small by exact H. reflexivity. Qed.
Lemma hi_lo x : wshr x 8 * 256 + byte x = x.
Proof. rewrite wshr_div, byte_mod. change (2 ^ 8) with 256. pose proof (N.div_mod x 256 ltac:(discriminate)). lia. Qed.
Lemma pair_hi h l : l < 256 -> wshr (h * 256 + l) 8 = h.
Proof. intros H. rewrite wshr_div. change (2 ^ 8) with 256. rewrite N.div_add_l by discriminate. rewrite N.div_small by exact H. lia. Qed.
Lemma pair_lo h l : l < 256 -> byte (h * 256 + l) = l.
Proof. intros H. rewrite byte_mod, N.add_comm, N.mod_add by discriminate. now apply N.mod_small. Qed.
Lemma pair_xor h l : l < 256 -> h * 256 + l = N.lxor l (N.shiftl h 8).
Proof.
  intros H. rewrite <- lor_disjoint.
  - rewrite lor_add by exact H. change (2 ^ 8) with 256. lia.
  - apply N.bits_inj. intros i. rewrite N.land_spec, N.bits_0. destruct (N.lt_ge_cases i 8) as [L|L].
    + now rewrite N.shiftl_spec_low, andb_false_r.
    + pose proof (proj1 (inw_bits 8 l) H i L) as ->. reflexivity.
Qed.
Lemma sj_hi_pair k h l : h < 256 -> l < 256 -> k < 256 -> sj_hi k (h * 256 + l) = N.lxor h (nth (N.to_nat (N.lxor l k)) sj_F 0) * 256 + l.
Proof.
  intros Hh Hl Hk. unfold sj_hi. rewrite pair_lo by exact Hl. rewrite tab8_lt by exact (inw_lxor 8 l k Hl Hk).
  assert (S : nth (N.to_nat (N.lxor l k)) sj_s 0 < 256) by exact (words_nth 8 _ _ (words_okb 8 sj_s eq_refl)).
  rewrite sj_s_F in *. set (f := nth _ sj_F 0) in *. clearbody f. rewrite !pair_xor by exact Hl.
  assert (W : wshl 16 f 8 = N.shiftl f 8).
  { unfold wshl. apply mask_id. unfold inw. rewrite N.shiftl_mul_pow2. change (2 ^ 16) with (256 * 2 ^ 8). apply N.mul_lt_mono_pos_r; [reflexivity|exact S]. }
  rewrite W, N.shiftl_lxor. xor_solve.
Qed.
Lemma sj_lo_pair k h l : h < 256 -> l < 256 -> k < 256 -> sj_lo k (h * 256 + l) = h * 256 + N.lxor l (nth (N.to_nat (N.lxor h k)) sj_F 0).
Proof.
  intros Hh Hl Hk. unfold sj_lo. rewrite pair_hi by exact Hl. rewrite tab8_lt by exact (inw_lxor 8 h k Hh Hk).
  assert (S : nth (N.to_nat (N.lxor h k)) sj_s 0 < 256) by exact (words_nth 8 _ _ (words_okb 8 sj_s eq_refl)).
  rewrite sj_s_F in *. set (f := nth _ sj_F 0) in *. clearbody f. rewrite !pair_xor by (try exact (inw_lxor 8 l f Hl S); exact Hl). xor_solve.
Qed.
Lemma sj_F_lt x : nth x sj_F 0 < 256.
Proof. exact (words_nth 8 _ _ (words_okb 8 sj_F eq_refl)). Qed.
Lemma sj_g_G cv k w : bytes_ok cv -> inw 16 w ->
  sj_g (nth ((4 * k) mod 10) cv 0) (nth ((4 * k + 1) mod 10) cv 0) (nth ((4 * k + 2) mod 10) cv 0) (nth ((4 * k + 3) mod 10) cv 0) w = sj_G cv k w.
Proof.
  intros Hc Hw. unfold sj_g, sj_G. rewrite Nat.add_0_r.
  assert (C : forall i, nth i cv 0 < 256) by (intros i; exact (words_nth 8 _ _ Hc)).
  generalize (C ((4 * k) mod 10)%nat) (C ((4 * k + 1) mod 10)%nat) (C ((4 * k + 2) mod 10)%nat) (C ((4 * k + 3) mod 10)%nat).
  generalize (nth ((4 * k) mod 10) cv 0) as k0, (nth ((4 * k + 1) mod 10) cv 0) as k1, (nth ((4 * k + 2) mod 10) cv 0) as k2, (nth ((4 * k + 3) mod 10) cv 0) as k3.
  intros k0 k1 k2 k3 H0 H1 H2 H3.
  assert (Eh : wshr w 8 = w / 256) by apply wshr_div. assert (El : byte w = w mod 256) by apply byte_mod. rewrite <- Eh, <- El.
  assert (Hh : wshr w 8 < 256) by (rewrite Eh; apply N.div_lt_upper_bound; [discriminate|exact Hw]).
  pose proof (byte_lt w) as Hl. rewrite <- (hi_lo w) at 1. cbv zeta beta.
  set (g1 := wshr w 8) in *. set (g2 := byte w) in *. clearbody g1 g2. clear Eh El Hw.
  rewrite sj_hi_pair by assumption. rewrite (N.lxor_comm g1).
  set (f3 := nth _ sj_F 0). assert (F3 : f3 < 256) by apply sj_F_lt. clearbody f3. pose proof (inw_lxor 8 f3 g1 F3 Hh) as G3. change (inw 8 ?x) with (x < 256) in G3.
  set (g3 := N.lxor f3 g1) in *. clearbody g3.
  rewrite sj_lo_pair by assumption. rewrite (N.lxor_comm g2).
  set (f4 := nth _ sj_F 0). assert (F4 : f4 < 256) by apply sj_F_lt. clearbody f4. pose proof (inw_lxor 8 f4 g2 F4 Hl) as G4.
  set (g4 := N.lxor f4 g2) in *. clearbody g4.
  rewrite sj_hi_pair by assumption. rewrite (N.lxor_comm g3).
  set (f5 := nth _ sj_F 0). assert (F5 : f5 < 256) by apply sj_F_lt. clearbody f5. pose proof (inw_lxor 8 f5 g3 F5 G3) as G5.
  set (g5 := N.lxor f5 g3) in *. clearbody g5.
  rewrite sj_lo_pair by assumption. now rewrite (N.lxor_comm g4).
Qed.

(** the statements of step [k]; the register of w1 moves down by one in every step *)
Definition sj_reg (k : nat) : nat := ((4 - k mod 4) mod 4)%nat.
Definition sj_two (k : nat) : list sj_stmt :=
  let r := sj_reg k in
  let g := SG r ((4 * k) mod 10) ((4 * k + 1) mod 10) ((4 * k + 2) mod 10) ((4 * k + 3) mod 10) in
  if Nat.even (k / 8) then [g; SX ((r + 3) mod 4) r (N.of_nat (k + 1))] else [SX ((r + 1) mod 4) r (N.of_nat (k + 1)); g].
Lemma sj_enc_twos : sj_enc = flat_map sj_two (seq 0 32). Proof. reflexivity. Qed.
Definition sj_view (r : nat) (x : list N) : list N := map (fun i => nth ((r + i) mod 4) x 0) (seq 0 4).
Definition sj_R (k : nat) (x w : list N) : Prop := regs 16 4 x /\ w = sj_view (sj_reg k) x.

Lemma sj_reg_next k : (k < 32)%nat -> sj_reg k = 0%nat /\ sj_reg (S k) = 3%nat \/ sj_reg k = 3%nat /\ sj_reg (S k) = 2%nat \/
    sj_reg k = 2%nat /\ sj_reg (S k) = 1%nat \/ sj_reg k = 1%nat /\ sj_reg (S k) = 0%nat.
Proof.
  intros Hk. assert (C : forallb (fun k => (sj_reg k =? (sj_reg (S k) + 1) mod 4)%nat && (sj_reg (S k) <? 4)%nat) (seq 0 32) = true) by (vm_compute; reflexivity).
    rewrite forallb_forall in C. specialize (C k ltac:(apply in_seq; lia)). apply andb_true_iff in C. destruct C as [C1 C2].
    apply Nat.eqb_eq in C1. apply Nat.ltb_lt in C2. rewrite C1. clear C1. destruct (sj_reg (S k)) as [|[|[|[|r]]]]; cbn; try lia; tauto.
Qed.
Definition sj_pair (m : bool) (r i0 i1 i2 i3 : nat) (c : N) : list sj_stmt :=
  if m then [SG r i0 i1 i2 i3; SX ((r + 3) mod 4) r c] else [SX ((r + 1) mod 4) r c; SG r i0 i1 i2 i3].
Definition sj_pair_out (m : bool) (g : N -> N) (c : N) (w : list N) : list N :=
  if m then [N.lxor (N.lxor (g (word w 0)) (word w 3)) c; g (word w 0); word w 1; word w 2]
  else [word w 3; g (word w 0); N.lxor (N.lxor (word w 0) (word w 1)) c; word w 2].
Lemma sj_pair_step (f : N -> N -> N -> N -> N -> N) cv m r i0 i1 i2 i3 c g w0 w1 w2 w3 :
  (forall x, In x [w0; w1; w2; w3] -> f (nth i0 cv 0) (nth i1 cv 0) (nth i2 cv 0) (nth i3 cv 0) x = g x) -> (r < 4)%nat ->
  sj_view ((r + 3) mod 4) (prun (sj_exec f cv) (sj_pair m r i0 i1 i2 i3 c) [w0; w1; w2; w3]) = sj_pair_out m g c (sj_view r [w0; w1; w2; w3]).
Proof.
  intros G Hr. pose proof (G w0 (or_introl eq_refl)) as G0. pose proof (G w1 (or_intror (or_introl eq_refl))) as G1.
  pose proof (G w2 (or_intror (or_intror (or_introl eq_refl)))) as G2. pose proof (G w3 (or_intror (or_intror (or_intror (or_introl eq_refl))))) as G3. clear G.
  destruct r as [|[|[|[|r]]]]; [| | | |lia]; destruct m; unfold sj_pair, sj_pair_out;
  unfold sj_view, prun, word; cbn [map seq fold_left sj_exec upd nth Nat.modulo Nat.divmod Nat.add fst snd Nat.sub];
  rewrite ?G0, ?G1, ?G2, ?G3; repeat (apply f_equal2; [first [reflexivity|xor_solve]|]); reflexivity.
Qed.
Lemma sj_reg_dec k : (k < 32)%nat -> sj_reg (S k) = ((sj_reg k + 3) mod 4)%nat.
Proof. intros Hk. destruct (sj_reg_next k Hk) as [[-> ->]|[[-> ->]|[[-> ->]|[-> ->]]]]; reflexivity. Qed.
Lemma sj_step_out cv w k : sj_step cv w k = sj_pair_out (Nat.even (k / 8)) (sj_G cv k) (N.of_nat (k + 1)) w.
Proof. reflexivity. Qed.
Lemma sj_two_step cv k x : bytes_ok cv -> (k < 32)%nat -> regs 16 4 x ->
  sj_view (sj_reg (S k)) (prun (sj_exec sj_g cv) (sj_two k) x) = sj_step cv (sj_view (sj_reg k) x) k.
Proof.
  intros Hc Hk Hx. rewrite sj_step_out, sj_reg_dec by exact Hk.
  destruct Hx as [Lx Hx]. do 4 (destruct x as [|? x]; [discriminate Lx|]). destruct x; [|discriminate Lx].
  apply sj_pair_step.
  - intros x Hi. apply sj_g_G; [exact Hc|]. unfold words_ok in Hx. rewrite Forall_forall in Hx. now apply Hx.
  - apply Nat.mod_upper_bound. discriminate.
Qed.
Lemma sj_two_regs cv k x : (k < 32)%nat -> regs 16 4 x -> regs 16 4 (prun (sj_exec sj_g cv) (sj_two k) x).
Proof.
  intros Hk Hx. assert (F : forallb sj_fine (sj_two k) = true).
  { assert (C : forallb (fun k => forallb sj_fine (sj_two k)) (seq 0 32) = true) by (vm_compute; reflexivity).
    rewrite forallb_forall in C. apply C, in_seq. lia. }
  revert x Hx. generalize (sj_two k) as l, F. clear. induction l as [|st l IH]; intros F x Hx; [exact Hx|].
  cbn [forallb] in F. apply andb_true_iff in F. destruct F as [F1 F2]. unfold prun. cbn [fold_left]. apply (IH F2).
  now apply (sj_exec_pbij cv st F1).
Qed.
Lemma prun_flat {I J A} (f : I -> A -> A) (h : J -> list I) l : forall x, prun f (flat_map h l) x = fold_left (fun x j => prun f (h j) x) l x.
Proof. induction l as [|j l IH]; intros x; [reflexivity|]. cbn [flat_map fold_left]. rewrite prun_app. apply IH. Qed.
Lemma fold_rel {A B} (R : nat -> A -> B -> Prop) (f : A -> nat -> A) (g : B -> nat -> B) n : forall i x v,
  (forall t y u, (i <= t < i + n)%nat -> R t y u -> R (S t) (f y t) (g u t)) -> R i x v ->
  R (i + n)%nat (fold_left f (seq i n) x) (fold_left g (seq i n) v).
Proof.
  induction n as [|n IH]; intros i x v Hs H0; cbn [seq fold_left]; [now rewrite Nat.add_0_r|].
  replace (i + S n)%nat with (S i + n)%nat by lia. apply IH; [intros; apply Hs; [lia|assumption]|]. apply Hs; [lia|exact H0].
Qed.
Lemma sj_run cv x : bytes_ok cv -> regs 16 4 x -> prun (sj_exec sj_g cv) sj_enc x = sj_words cv x /\ length (prun (sj_exec sj_g cv) sj_enc x) = 4%nat.
Proof.
  intros Hc Hx. rewrite sj_enc_twos, prun_flat. unfold sj_words.
  assert (V : forall y, regs 16 4 y -> sj_view 0 y = y).
  { intros y [L _]. do 4 (destruct y as [|? y]; [discriminate L|]). destruct y; [reflexivity|discriminate L]. }
  assert (R : sj_R (0 + 32) (fold_left (fun x j => prun (sj_exec sj_g cv) (sj_two j) x) (seq 0 32) x) (fold_left (sj_step cv) (seq 0 32) x)).
  { apply (fold_rel sj_R).
    - intros t y u Ht [Hy ->]. split; [apply sj_two_regs; [lia|exact Hy]|]. symmetry. apply sj_two_step; [exact Hc|lia|exact Hy].
    - split; [exact Hx|]. symmetry. exact (V x Hx). }
  destruct R as [R1 R2]. split; [|exact (proj1 R1)]. rewrite R2. symmetry. exact (V _ R1).
Qed.
Lemma sj_load_words pt : blk 8 pt -> sj_load pt = be_words 2 4 (rev pt) /\ regs 16 4 (sj_load pt).
Proof.
  intros [L B]. assert (E : sj_load pt = be_words 2 4 (rev pt)).
  { unfold sj_load. rewrite !load16l_val by exact B. do 8 (destruct pt as [|? pt]; [discriminate L|]). destruct pt; [|discriminate L]. reflexivity. }
  split; [exact E|]. rewrite E. split; [apply length_be_words|]. apply be_words_inw; [apply bytes_rev, B|reflexivity].
Qed.
Lemma sj_store_string x : length x = 4%nat -> sj_store x = rev (be_string 2 x).
Proof.
  intros L. do 4 (destruct x as [|? x]; [discriminate L|]). destruct x; [|discriminate L].
  unfold sj_store, be_string. cbn [nth flat_map]. rewrite !store16l_bytes, app_nil_r, !rev_app_distr, <- !app_assoc. unfold be_bytes. now rewrite !rev_involutive.
Qed.
Lemma skipjack_keys key : (length key <= 10)%nat -> skipjack_setup key = rev (zero_pad 10 key).
Proof.
  intros L. unfold skipjack_setup. rewrite <- (map_nth_seq (rev (zero_pad 10 key)) 10 0) by (now rewrite rev_length, length_zero_pad).
  apply map_ext_in. intros i Hi. apply in_seq in Hi. rewrite rev_nth by (rewrite length_zero_pad; lia). rewrite length_zero_pad by exact L.
  unfold zero_pad. rewrite nth_zeros. f_equal.
Qed.
Lemma skipjack_create_inv key s : skipjack_create 0 key = Ok s -> s = skipjack_setup key.
Proof.
  intros Es. unfold skipjack_create in Es. apply assert_inv in Es. destruct Es as [_ Es]. apply assert_inv in Es. destruct Es as [_ Es]. apply Ok_inj in Es. now symmetry.
Qed.
Lemma skipjack_published : is_cipher skipjack_desc (up_to 10) skipjack_cipher.
Proof.
  apply (is_cipher_default _ _ _ skipjack_default); [intros key Hk; exact Hk|].
  intros key s Hb Hk Es pt Hp. apply skipjack_create_inv in Es. subst s. cbn [skipjack_desc bc_enc bc_bs] in *. rewrite skipjack_keys by apply Hk.
  unfold skipjack_encrypt, skipjack_cipher. destruct (sj_load_words pt Hp) as [E1 E2].
  destruct (sj_run (rev (zero_pad 10 key)) (sj_load pt)) as [E3 E4]; [apply bytes_rev, bytes_zero_pad, Hb|exact E2|].
  rewrite sj_store_string by exact E4. rewrite E3, E1. reflexivity.
Qed.
