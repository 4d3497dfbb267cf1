(** SHA-1 and MD5 of the library are those of FIPS 180-4 and RFC 1321. *)
From Coq Require Import NArith Arith List Bool Lia.
From Verif Require Import Lib.Word Lib.Res Lib.Bytes Lib.WordSpec Lib.MemLemmas Lib.Lists Lib.WordsP Model.LoadStore Model.HashApi Model.Md Model.Sha1 Model.Md5
  Spec.Words Spec.Modes Spec.Hash Spec.Sha2 Spec.Sha1 Spec.Md5 Proof.LoadStoreP Proof.MdP Proof.ChachaP Proof.Sha2P.
Import ListNotations.
Local Open Scope N_scope.

(** a loop of the model beside a fold of the specification *)
Lemma pfor_fold {A B} (R : nat -> A -> B -> Prop) n i f g x v :
  (forall t y u, (i <= t < i + n)%nat -> R t y u -> R (S t) (f t y) (g u t)) -> R i x v ->
  R (i + n)%nat (pfor n i f x) (fold_left g (seq i n) v).
Proof.
  revert i x v. induction n as [|n IH]; intros i x v Hs H0; cbn [pfor seq fold_left]; [now rewrite Nat.add_0_r|].
  replace (i + S n)%nat with (S i + n)%nat by lia. apply IH; [intros; apply Hs; [lia|assumption]|]. apply Hs; [lia|exact H0].
Qed.
Lemma mfor_fold {A B} (R : nat -> A -> B -> Prop) n i f g x v :
  (forall t y u, (i <= t < i + n)%nat -> R t y u -> exists z, f t y = Ok z /\ R (S t) z (g u t)) -> R i x v ->
  exists z, mfor n i f x = Ok z /\ R (i + n)%nat z (fold_left g (seq i n) v).
Proof.
  revert i x v. induction n as [|n IH]; intros i x v Hs H0; cbn [mfor seq fold_left]; [exists x; now rewrite Nat.add_0_r|].
  destruct (Hs i x v ltac:(lia) H0) as (y & E & Hy). rewrite E. cbn [bind].
  destruct (IH (S i) y (g v i)) as (z & Ez & Hz); [intros; apply Hs; [lia|assumption]|exact Hy|].
  exists z. split; [exact Ez|]. now replace (i + S n)%nat with (S i + n)%nat by lia.
Qed.

Lemma add_words_ok w l : words_ok w (map (fun q => plus_w w (fst q) (snd q)) l).
Proof. apply Forall_forall. intros x Hx. apply in_map_iff in Hx. destruct Hx as (q & <- & _). rewrite <- plus_w_wadd. apply inw_wadd. Qed.

(** * SHA-1 *)
Ltac explode5 x H := do 5 (destruct x as [|? x]; [discriminate H|]); destruct x; [|discriminate H].
Definition turn5 (j : nat) (x : list N) : list N := map (fun k => nth ((j + k) mod 5)%nat x 0) (seq 0 5).
Definition words5 (h : list N) : Prop := length h = 5%nat /\ words_ok 32 h.

Lemma schedule1_eq n ws : (16 <= length ws)%nat -> words_ok 32 ws ->
  pfor n (length ws) (fun i w => let at_ k := nth (i - k)%nat w 0 in
                         w ++ [rol 32 (N.lxor (N.lxor (N.lxor (at_ 3%nat) (at_ 8%nat)) (at_ 14%nat)) (at_ 16%nat)) 1]) ws
  = sha1_schedule n ws.
Proof.
  revert ws. induction n as [|n IH]; intros ws Hl Hw; [reflexivity|]. cbn [pfor sha1_schedule].
  set (v := rol 32 _ 1). assert (E : v = rotl 32 (N.lxor (xor3 (nth (length ws - 3) ws 0) (nth (length ws - 8) ws 0) (nth (length ws - 14) ws 0)) (nth (length ws - 16) ws 0)) 1).
  { unfold v, xor3. rewrite rol_rotl by (discriminate || (repeat apply inw_lxor; now apply words_nth)). now rewrite !N.lxor_assoc. }
  assert (B : inw 32 v) by (apply inw_rol; repeat apply inw_lxor; now apply words_nth).
  rewrite <- E. rewrite <- IH.
  - now replace (length (ws ++ [v])) with (S (length ws)) by (rewrite app_length; cbn; lia).
  - rewrite app_length. lia.
  - apply Forall_app. split; [exact Hw|]. now constructor.
Qed.
Lemma length_schedule1 n ws : length (sha1_schedule n ws) = (length ws + n)%nat.
Proof. revert ws. induction n as [|n IH]; intros ws; cbn [sha1_schedule]; [lia|]. rewrite IH, app_length. cbn [length]. lia. Qed.

Lemma k1 t g : (t < 80)%nat -> g = (t / 20)%nat -> snd (s1_g g) = sha1_k t.
Proof.
  intros Ht ->.
  assert (H : forallb (fun t => snd (s1_g (t / 20)) =? sha1_k t) (seq 0 80) = true) by (vm_compute; reflexivity).
  rewrite forallb_forall in H. apply N.eqb_eq, H, in_seq. lia.
Qed.
Lemma f1_eq t x y z : (t < 80)%nat -> inw 32 x -> inw 32 y -> inw 32 z -> fst (s1_g (t / 20)) x y z = sha1_f t x y z.
Proof.
  intros Ht Hx Hy Hz. unfold sha1_f.
  destruct (Nat.ltb_spec t 20). { rewrite Nat.div_small by assumption. now apply ch_eq. }
  destruct (Nat.ltb_spec t 40). { replace (t / 20)%nat with 1%nat by (apply (Nat.div_unique t 20 1 (t - 20)); lia). unfold xor3. cbn [s1_g fst]. unfold s1_f1. apply N.lxor_assoc. }
  destruct (Nat.ltb_spec t 60). { replace (t / 20)%nat with 2%nat by (apply (Nat.div_unique t 20 2 (t - 40)); lia). apply maj_eq. }
  replace (t / 20)%nat with 3%nat by (apply (Nat.div_unique t 20 3 (t - 60)); lia). unfold xor3. cbn [s1_g fst]. unfold s1_f1. apply N.lxor_assoc.
Qed.
Lemma round1_ok g j w x : words5 x -> words5 (s1_round g j w x).
Proof.
  intros [L O]. unfold s1_round. destruct (s1_g g) as [f c]. split; [now rewrite !length_upd|].
  apply words_upd; [apply words_upd; [exact O|apply inw_wadd]|apply inw_rol; now apply words_nth].
Qed.
Lemma sum5 e r f w c : wadd 32 e (wadd 32 (wadd 32 (wadd 32 r f) w) c) = wadd 32 (wadd 32 (wadd 32 (wadd 32 r f) e) c) w.
Proof. rewrite (wadd_comm 32 e), !wadd_assoc. do 2 f_equal. now rewrite <- !wadd_assoc, (wadd_comm 32 (wadd 32 w c) e), (wadd_comm 32 w c), wadd_assoc. Qed.
Lemma round1_turn t j w x : (t < 80)%nat -> (j < 5)%nat -> words5 x ->
  turn5 ((j + 4) mod 5) (s1_round (t / 20) j w x) = sha1_step t w (turn5 j x).
Proof.
  intros Ht Hj [Hl Hx]. explode5 x Hl. unfold words_ok in Hx. rewrite !Forall_cons_iff in Hx.
  destruct Hx as (X0 & X1 & X2 & X3 & X4 & _).
  unfold sha1_step, turn5. cbn [seq map]. unfold s1_round.
  rewrite <- (k1 t (t / 20)) by (assumption || reflexivity).
  do 5 (destruct j as [|j]; [
      cbn [Nat.add]; cbv [Nat.modulo Nat.divmod Nat.sub]; cbn [fst snd nth];
      rewrite <- (f1_eq t) by assumption; destruct (s1_g (t / 20)) as [F c]; cbn [fst snd upd nth];
      rewrite <- !rol_rotl by (discriminate || assumption); rewrite <- !plus_w_wadd, sum5; reflexivity|]). lia.
Qed.
Lemma step1_turn t w x : (t < 80)%nat -> words5 x ->
  turn5 (s1_first (S t)) (s1_round (t / 20) (s1_first t) w x) = sha1_step t w (turn5 (s1_first t) x).
Proof.
  intros Ht Hx. rewrite <- round1_turn; [|exact Ht|unfold s1_first; apply Nat.mod_upper_bound; lia|exact Hx].
  f_equal. unfold s1_first. assert (M := Nat.mod_upper_bound t 5 ltac:(lia)).
  replace (S t) with (t + 1)%nat by lia. rewrite <- (Nat.add_mod_idemp_l t 1 5) by lia.
  destruct (t mod 5)%nat as [|[|[|[|[|u]]]]]; try reflexivity; lia.
Qed.
Lemma process1_eq h m : words5 h -> blk 64 m -> s1_process h m = Ok (sha1_compress h m) /\ words5 (sha1_compress h m).
Proof.
  intros [Lh Wh] [Lm Bm]. unfold s1_process, sha1_compress, s1_w. cbv zeta.
  assert (E0 : map (fun i => load32b m (4 * i)) (seq 0 16) = be_words 4 16 m).
  { transitivity (map (fun i => nth i (be_words 4 16 m) 0) (seq 0 16)); [|apply map_nth_seq; symmetry; apply length_be_words].
    apply map_ext_in. intros i Hi. apply in_seq in Hi. apply nth_load32b; [exact Bm|lia|lia]. }
  rewrite E0. pose proof (schedule1_eq 64 (be_words 4 16 m)) as ES. rewrite length_be_words in ES. cbv zeta in ES.
  rewrite ES by (try apply be_words_inw; (lia || assumption || reflexivity)). clear ES.
  set (W := sha1_schedule 64 (be_words 4 16 m)).
  pose proof (pfor_fold (fun t x v => words5 x /\ turn5 (s1_first t) x = v) 80 0 (fun i x => s1_round (i / 20) (s1_first i) (nth i W 0) x)
    (fun v t => sha1_step t (nth t W 0) v) h h) as P. cbv beta in P. destruct P as [[L O] T].
  - intros t y u Ht [Hy Hu]. split; [now apply round1_ok|]. rewrite <- Hu. apply step1_turn; [lia|exact Hy].
  - split; [now split|]. explode5 h Lh. reflexivity.
  - rewrite <- T. set (x := pfor 80 0 _ h) in *. replace (turn5 (s1_first (0 + 80)) x) with x by (clearbody x; explode5 x L; reflexivity).
    split.
    + apply f_equal. apply map_ext. intros q. apply plus_w_wadd.
    + split; [rewrite map_length, combine_length, L, Lh; reflexivity|apply add_words_ok].
Qed.
Lemma sha1_computes n : (n <= 20)%nat -> computes hash_sha1 0 [] n 20 (fun len => N.of_nat len < 2 ^ 61) sha1.
Proof.
  intros Hn. eapply computes_weaken; [apply (rmd_computes (fun _ => sha1_md) sha1_start 8 1 be_bytes sha1_compress words5 (be_string 4) sha1_h0 0 0)|..];
    try md_side; try exact Hn.
  - intros x. apply blk_be_bytes.
  - intros l Hl Wl. cbn [mp_len sha1_md]. rewrite len_be by exact Wl. now rewrite Hl.
  - split; [reflexivity|]. repeat (constructor; [reflexivity|]). constructor.
  - intros h b Hh Hb. now apply process1_eq.
  - intros h i k [Hh _] Hk. cbn [mp_out sha1_md]. rewrite store32b_array_eq, stores32b_be; [reflexivity|]. rewrite Hh. exact Hk.
  - reflexivity.
  - intros x Hx. apply (len_bits 1 (2 ^ 61)); [reflexivity|exact Hx].
  - intros m k _. reflexivity.
Qed.

(** * MD5 *)
Ltac explode4 x H := do 4 (destruct x as [|? x]; [discriminate H|]); destruct x; [|discriminate H].
Definition turn4 (j : nat) (x : list N) : list N := map (fun k => nth ((j + k) mod 4)%nat x 0) (seq 0 4).
Definition words4 (h : list N) : Prop := length h = 4%nat /\ words_ok 32 h.
Lemma not_eq x : inw 32 x -> wnot 32 x = not_w 32 x.
Proof.
  intros Hx. unfold not_w. rewrite <- N.pred_sub, <- N.ones_equiv. change (wnot 32 x) with (N.lnot x 32).
  destruct (N.eq_dec x 0) as [->|Nz]; [reflexivity|]. rewrite N.lnot_sub_low by (apply N.log2_lt_pow2; [lia|exact Hx]). reflexivity.
Qed.
Lemma md5_k_t : md5_k = md5_t.
Proof. vm_compute. reflexivity. Qed.
Lemma md5_tables i : (i < 64)%nat -> nth i md5_rot 0 = md5_s i /\ snd (m5_g (i / 16) i) = md5_x i /\ (md5_x i < 16)%nat /\ md5_s i < 32.
Proof.
  intros Hi.
  assert (H : forallb (fun i => (nth i md5_rot 0 =? md5_s i) && (snd (m5_g (i / 16) i) =? md5_x i)%nat && (md5_x i <? 16)%nat && (md5_s i <? 32)) (seq 0 64) = true)
    by (vm_compute; reflexivity).
  rewrite forallb_forall in H. specialize (H i ltac:(apply in_seq; lia)). rewrite !andb_true_iff in H. destruct H as [[[H1 H2] H3] H4].
  apply N.eqb_eq in H1. apply Nat.eqb_eq in H2. apply Nat.ltb_lt in H3. apply N.ltb_lt in H4. auto.
Qed.
Lemma bit_not32 z i : inw 32 z -> N.testbit (not_w 32 z) i = (i <? 32) && negb (N.testbit z i).
Proof.
  intros Hz. rewrite <- not_eq by exact Hz. change (wnot 32 z) with (N.lnot z 32). destruct (N.ltb_spec i 32) as [L|L].
  - now rewrite N.lnot_spec_low.
  - rewrite N.lnot_spec_high by exact L. now apply (inw_high 32).
Qed.
Lemma f5_eq g i x y z : inw 32 x -> inw 32 y -> inw 32 z -> fst (m5_g g i) x y z = md5_f g x y z.
Proof.
  intros Hx Hy Hz. destruct g as [|[|[|g]]]; cbn [m5_g md5_f fst].
  - unfold m5_f0. apply N.bits_inj. intros j. rewrite N.lor_spec, !N.lxor_spec, !N.land_spec, N.lxor_spec, bit_not32 by exact Hx.
    destruct (N.ltb_spec j 32).
    + now destruct (N.testbit x j), (N.testbit y j), (N.testbit z j).
    + rewrite (inw_high 32 x j), (inw_high 32 y j), (inw_high 32 z j) by assumption. reflexivity.
  - unfold m5_f1. apply N.bits_inj. intros j. rewrite N.lor_spec, !N.lxor_spec, !N.land_spec, N.lxor_spec, bit_not32 by exact Hz.
    destruct (N.ltb_spec j 32).
    + now destruct (N.testbit x j), (N.testbit y j), (N.testbit z j).
    + rewrite (inw_high 32 x j), (inw_high 32 y j), (inw_high 32 z j) by assumption. reflexivity.
  - unfold m5_f2, xor3. apply N.lxor_assoc.
  - unfold m5_f3. now rewrite not_eq.
Qed.
Lemma sum4 a f k m : wadd 32 (wadd 32 (wadd 32 a f) k) m = wadd 32 (wadd 32 (wadd 32 a f) m) k.
Proof. now rewrite wadd_assoc, (wadd_comm 32 k m), <- wadd_assoc. Qed.
Lemma rolv_rotl x n : n < 32 -> inw 32 x -> rolv 32 x n = rotl 32 x n.
Proof. intros Hn Hx. unfold rolv. rewrite N.mod_small by exact Hn. apply rol_rotl; [exact Hx|lia]. Qed.
Lemma round5_eq i j m x : (i < 64)%nat -> length m = 16%nat -> words4 x -> (j < 4)%nat ->
  exists y, m5_round i j m x = Ok y /\ words4 y /\ turn4 ((j + 3) mod 4) y = md5_step i m (turn4 j x).
Proof.
  intros Hi Lm [Hl Hx] Hj. destruct (md5_tables i Hi) as (T1 & T2 & T3 & T4). unfold m5_round.
  pose proof (f5_eq (i / 16) i) as F. destruct (m5_g (i / 16) i) as [f n]. cbn [fst snd] in *. subst n.
  rewrite (get_ok md5_k i 0), (get_ok m (md5_x i) 0), (get_ok md5_rot i 0) by (rewrite ?Lm; exact Hi || exact T3). cbn [bind].
  rewrite md5_k_t, T1. eexists. split; [reflexivity|]. split.
  - split; [now rewrite length_upd|]. apply words_upd; [exact Hx|apply inw_wadd].
  - explode4 x Hl. unfold words_ok in Hx. rewrite !Forall_cons_iff in Hx. destruct Hx as (X0 & X1 & X2 & X3 & _).
    unfold md5_step, turn4. cbn [seq map].
    do 4 (destruct j as [|j]; [
      cbn [Nat.add]; cbv [Nat.modulo Nat.divmod Nat.sub]; cbn [fst snd nth upd];
      rewrite F by assumption; rewrite rolv_rotl by (apply inw_wadd || exact T4); rewrite <- !plus_w_wadd, sum4; reflexivity|]). lia.
Qed.
Lemma process5_eq h m : words4 h -> blk 64 m -> m5_process h m = Ok (md5_compress h m) /\ words4 (md5_compress h m).
Proof.
  intros [Lh Wh] [Lm Bm]. unfold m5_process, md5_compress. cbv zeta.
  assert (E0 : map (fun i => load32l m (4 * i)) (seq 0 16) = le_words 4 16 m).
  { transitivity (map (fun i => nth i (le_words 4 16 m) 0) (seq 0 16)); [|apply map_nth_seq; symmetry; apply length_le_words].
    apply map_ext_in. intros i Hi. apply in_seq in Hi. apply nth_load32l; [exact Bm|lia|lia]. }
  rewrite E0. set (X := le_words 4 16 m).
  destruct (mfor_fold (fun t x v => words4 x /\ turn4 (m5_first t) x = v) 64 0 (fun i x => m5_round i (m5_first i) X x)
    (fun v t => md5_step t X v) h h) as (x & E & [L O] & T).
  - intros t y u Ht [Hy Hu].
    destruct (round5_eq t (m5_first t) X y) as (z & Ez & Wz & Tz); [lia|apply length_le_words|exact Hy|unfold m5_first; apply Nat.mod_upper_bound; lia|].
    exists z. split; [exact Ez|]. split; [exact Wz|]. rewrite <- Hu, <- Tz. f_equal.
    unfold m5_first. assert (M := Nat.mod_upper_bound t 4 ltac:(lia)).
    replace (S t) with (t + 1)%nat by lia. rewrite <- (Nat.add_mod_idemp_l t 1 4) by lia.
    destruct (t mod 4)%nat as [|[|[|[|u']]]]; try reflexivity; lia.
  - split; [now split|]. explode4 h Lh. reflexivity.
  - rewrite E. cbn [bind]. rewrite <- T. replace (turn4 (m5_first (0 + 64)) x) with x by (clear -L; explode4 x L; reflexivity). split.
    + apply f_equal. apply map_ext. intros q. apply plus_w_wadd.
    + split; [rewrite map_length, combine_length, L, Lh; reflexivity|apply add_words_ok].
Qed.
Lemma md5_computes r n : (n <= 16)%nat -> computes hash_md5 r [] n 16 (fun len => N.of_nat len < 2 ^ 61) md5.
Proof.
  intros Hn. eapply computes_weaken; [apply (rmd_computes (fun _ => md5_md) md5_start 8 1 le_bytes md5_compress words4 (le_string 4) md5_h0 r 0)|..];
    try md_side; try exact Hn.
  - intros x. apply blk_le_bytes.
  - intros l Hl Wl. cbn [mp_len md5_md]. rewrite len_le by exact Wl. now rewrite Hl.
  - split; [reflexivity|]. repeat (constructor; [reflexivity|]). constructor.
  - intros h b Hh Hb. now apply process5_eq.
  - intros h i k [Hh _] Hk. cbn [mp_out md5_md]. rewrite store32l_array_eq, stores32l_le; [reflexivity|]. rewrite Hh. exact Hk.
  - reflexivity.
  - intros x Hx. apply (len_bits 1 (2 ^ 61)); [reflexivity|exact Hx].
  - intros m k _. reflexivity.
Qed.
