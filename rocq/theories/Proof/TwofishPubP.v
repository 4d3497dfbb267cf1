(** Twofish is the cipher of its authors. *)
From Coq Require Import NArith Arith List Bool Lia.
From Verif Require Import Lib.Word Lib.Res Lib.Bytes Lib.Bits Lib.Bij Lib.Lists Lib.Feistel Lib.BlockLemmas Lib.Lin Lib.GfP Lib.WordSpec Lib.WordsP Lib.XorBytes
  Spec.Words Spec.Block Spec.Arx Spec.Gf Spec.Affine Spec.Pub5 Spec.Rounds Model.LoadStore Model.BlockApi Model.Table Model.Twofish Model.Ciphers
  Proof.LoadStoreP Proof.Sha1P Proof.ArxP Proof.PubLib Proof.TableP Proof.TwofishP Proof.RekeyP Proof.CiphersP Proof.ColumnsP Proof.SerpentPubP Proof.SeedPubP Proof.SkipjackPubP Proof.KhazadPubP.
Import ListNotations.
Local Open Scope N_scope.

(** ** Tables *)
Lemma tf_q_check : is_table twf_q0 tf_q0 && is_table twf_q1 tf_q1 = true.
Proof. vm_compute. reflexivity. Qed.
Lemma tf_q_bytes : forallb (fun x => x <? 256) (twf_q0 ++ twf_q1) = true.
Proof. vm_compute. reflexivity. Qed.
Lemma twf_q_lt x : tab8 twf_q0 x < 256 /\ tab8 twf_q1 x < 256.
Proof.
  pose proof tf_q_bytes as H. rewrite forallb_app, andb_true_iff, !forallb_forall in H. destruct H as [H0 H1].
  assert (G : forall l n, (forall x, In x l -> (x <? 256) = true) -> nth n l 0 < 256).
  { intros l n Hl. destruct (Nat.ltb_spec n (length l)) as [L|L]; [apply N.ltb_lt, Hl, nth_In, L|rewrite nth_overflow by exact L; reflexivity]. }
  split; apply G; assumption.
Qed.
Lemma twf_q0_pub b : b < 256 -> tab8 twf_q0 b = tf_q0 b.
Proof.
  intros Hb. pose proof tf_q_check as H. apply andb_true_iff in H. rewrite (tab8_fun _ _ b (proj1 H)), byte_mod, N.mod_small by exact Hb. exact eq_refl.
Qed.
Lemma twf_q1_pub b : b < 256 -> tab8 twf_q1 b = tf_q1 b.
Proof.
  intros Hb. pose proof tf_q_check as H. apply andb_true_iff in H. rewrite (tab8_fun _ _ b (proj2 H)), byte_mod, N.mod_small by exact Hb. exact eq_refl.
Qed.

(** column [j] of a matrix times a byte *)
Definition gcol (p : N) (m : list (list N)) (j : nat) (b : N) : list N := map (fun row => gf_mul p (nth j row 0) b) m.
Definition lcol (p : N) (m : list (list N)) (j : nat) (b : N) : N := le_val (gcol p m j b).
Lemma gcol_regs p m j b : poly8 p -> b < 256 -> regs 8 (length m) (gcol p m j b).
Proof.
  intros P Hb. split; [apply map_length|]. apply Forall_forall. intros y Hy. apply in_map_iff in Hy. destruct Hy as (r & <- & _). now apply gf_mul_bound.
Qed.
Lemma le_val_vxor n a b : regs 8 n a -> regs 8 n b -> le_val (vxor a b) = N.lxor (le_val a) (le_val b).
Proof.
  intros [La Ba] [Lb Bb]. assert (Ba' : bytes_ok a) by exact Ba. assert (Bb' : bytes_ok b) by exact Bb.
  rewrite <- (le_bytes_val a Ba'), <- (le_bytes_val b Bb') at 1. rewrite La, Lb, <- le_bytes_lxor. rewrite le_val_bytes. apply N.mod_small.
  assert (I : forall l, bytes_ok l -> length l = n -> inw (8 * N.of_nat n) (le_val l)) by (intros l Bl Ll; apply (le_val_inw n); [exact Bl|lia|reflexivity]).
  pose proof (inw_lxor _ _ _ (I a Ba' La) (I b Bb' Lb)) as J. unfold inw in J. rewrite N.pow_mul_r in J. exact J.
Qed.
Lemma poly_169 : poly8 0x169. Proof. split; [discriminate|reflexivity]. Qed.
Lemma poly_14D : poly8 0x14D. Proof. split; [discriminate|reflexivity]. Qed.
Lemma twf_mds_check : is_table twf_mds0 (lcol 0x169 tf_MDS 0) && is_table twf_mds1 (lcol 0x169 tf_MDS 1) && is_table twf_mds2 (lcol 0x169 tf_MDS 2) && is_table twf_mds3 (lcol 0x169 tf_MDS 3) = true.
Proof. vm_compute. reflexivity. Qed.
Lemma twf_rs_check : is_table twf_rs0 (lcol 0x14D tf_RS 0) && is_table twf_rs1 (lcol 0x14D tf_RS 1) && is_table twf_rs2 (lcol 0x14D tf_RS 2) && is_table twf_rs3 (lcol 0x14D tf_RS 3) &&
  is_table twf_rs4 (lcol 0x14D tf_RS 4) && is_table twf_rs5 (lcol 0x14D tf_RS 5) && is_table twf_rs6 (lcol 0x14D tf_RS 6) && is_table twf_rs7 (lcol 0x14D tf_RS 7) = true.
Proof. vm_compute. reflexivity. Qed.
Definition lt4 (t : N * N * N * N) : list N := let '(a, b, c, d) := t in [a; b; c; d].
Definition b4 (t : N * N * N * N) : Prop := let '(a, b, c, d) := t in a < 256 /\ b < 256 /\ c < 256 /\ d < 256.
Lemma tab8_col t p m j b : is_table t (lcol p m j) = true -> b < 256 -> tab8 t b = le_val (gcol p m j b).
Proof. intros H Hb. rewrite (tab8_fun _ _ b H), byte_mod, N.mod_small by exact Hb. exact eq_refl. Qed.
Lemma gf_mat_cols4 p (a0 a1 a2 a3 b0 b1 b2 b3 c0 c1 c2 c3 d0 d1 d2 d3 a b c d : N) :
  let m := [[a0; a1; a2; a3]; [b0; b1; b2; b3]; [c0; c1; c2; c3]; [d0; d1; d2; d3]] in
  gf_mat p m [a; b; c; d] = vxor (vxor (vxor (gcol p m 0 a) (gcol p m 1 b)) (gcol p m 2 c)) (gcol p m 3 d).
Proof. unfold gf_mat, gf_row, gcol. generalize (gf_mul p) as f. intros f. cbn [map combine fold_left fst snd nth vxor]. now rewrite !N.lxor_0_l. Qed.
Lemma twf_mds_pub t : b4 t -> twf_mds t = le_val (gf_mat 0x169 tf_MDS (lt4 t)).
Proof.
  destruct t as [[[a b] c] d]. intros (Ha & Hb & Hc & Hd). unfold twf_mds, lt4.
  pose proof twf_mds_check as H. apply andb_true_iff in H. destruct H as [H E3]. apply andb_true_iff in H. destruct H as [H E2]. apply andb_true_iff in H. destruct H as [E0 E1].
  rewrite (tab8_col _ _ _ _ a E0 Ha), (tab8_col _ _ _ _ b E1 Hb), (tab8_col _ _ _ _ c E2 Hc), (tab8_col _ _ _ _ d E3 Hd). clear E0 E1 E2 E3.
  assert (R : forall j x, x < 256 -> regs 8 4 (gcol 0x169 tf_MDS j x)) by (intros j x Hx; exact (gcol_regs _ tf_MDS j x poly_169 Hx)).
  rewrite <- !(le_val_vxor 4) by (repeat apply regs_vxor; now apply R). unfold tf_MDS. rewrite gf_mat_cols4. exact eq_refl.
Qed.
Lemma gf_mat_cols8 p (a0 a1 a2 a3 a4 a5 a6 a7 b0 b1 b2 b3 b4 b5 b6 b7 c0 c1 c2 c3 c4 c5 c6 c7 d0 d1 d2 d3 d4 d5 d6 d7 a b c d e f g h : N) :
  let m := [[a0; a1; a2; a3; a4; a5; a6; a7]; [b0; b1; b2; b3; b4; b5; b6; b7]; [c0; c1; c2; c3; c4; c5; c6; c7]; [d0; d1; d2; d3; d4; d5; d6; d7]] in
  gf_mat p m [a; b; c; d; e; f; g; h] = vxor (vxor (vxor (vxor (vxor (vxor (vxor (gcol p m 0 a) (gcol p m 1 b)) (gcol p m 2 c)) (gcol p m 3 d)) (gcol p m 4 e)) (gcol p m 5 f)) (gcol p m 6 g)) (gcol p m 7 h).
Proof. unfold gf_mat, gf_row, gcol. generalize (gf_mul p) as mu. intros mu. cbn [map combine fold_left fst snd nth vxor]. now rewrite !N.lxor_0_l. Qed.
Lemma b_lt k o : bytes_ok k -> b_ k o < 256.
Proof. intros H. exact (words_nth 8 k o H). Qed.
Lemma twf_rs_pub k o : bytes_ok k -> (o + 8 <= length k)%nat -> twf_rs k o = le_bytes 4 (le_val (gf_mat 0x14D tf_RS (slice o 8 k))).
Proof.
  intros Hk Ho. unfold twf_rs. rewrite store32l_bytes. f_equal. rewrite <- bs_slice by exact Ho. unfold bs_. cbn [seq map]. rewrite Nat.add_0_r.
  pose proof twf_rs_check as H. apply andb_true_iff in H. destruct H as [H E7]. apply andb_true_iff in H. destruct H as [H E6]. apply andb_true_iff in H. destruct H as [H E5].
  apply andb_true_iff in H. destruct H as [H E4]. apply andb_true_iff in H. destruct H as [H E3]. apply andb_true_iff in H. destruct H as [H E2]. apply andb_true_iff in H. destruct H as [E0 E1].
  unfold b_. set (a := nth o k 0). set (b := nth (o + 1) k 0). set (c := nth (o + 2) k 0). set (d := nth (o + 3) k 0). set (e := nth (o + 4) k 0). set (f := nth (o + 5) k 0). set (g := nth (o + 6) k 0). set (h := nth (o + 7) k 0).
  assert (B : forall i, nth i k 0 < 256) by (intros i; exact (b_lt k i Hk)).
  rewrite (tab8_col _ _ _ _ a E0 (B _)), (tab8_col _ _ _ _ b E1 (B _)), (tab8_col _ _ _ _ c E2 (B _)), (tab8_col _ _ _ _ d E3 (B _)), (tab8_col _ _ _ _ e E4 (B _)), (tab8_col _ _ _ _ f E5 (B _)), (tab8_col _ _ _ _ g E6 (B _)), (tab8_col _ _ _ _ h E7 (B _)).
  assert (R : forall j x, x < 256 -> regs 8 4 (gcol 0x14D tf_RS j x)) by (intros j x Hx; exact (gcol_regs _ tf_RS j x poly_14D Hx)).
  rewrite <- !(le_val_vxor 4) by (repeat apply regs_vxor; apply R, B). unfold tf_RS. rewrite gf_mat_cols8. exact eq_refl.
Qed.

(** ** The function h *)
Definition twf_hx (t : N * N * N * N) (len : nat) (k : list N) (at_ : nat -> nat) : N * N * N * N :=
  let t := if Nat.leb 4 len then twf_st twf_q1 twf_q0 twf_q0 twf_q1 k (at_ 4%nat) t else t in
  let t := if Nat.leb 3 len then twf_st twf_q1 twf_q1 twf_q0 twf_q0 k (at_ 3%nat) t else t in
  let t := if Nat.leb 2 len then twf_st twf_q0 twf_q1 twf_q0 twf_q1 k (at_ 2%nat) t else t in
  twf_fin k (at_ 1%nat) t.
Lemma twf_h_hx v len k at_ : twf_h v len k at_ = twf_hx (v, v, v, v) len k at_.
Proof. reflexivity. Qed.
Lemma twf_lanes a b c d len k at_ : twf_hx (a, b, c, d) len k at_ =
  (fst (fst (fst (twf_h a len k at_))), snd (fst (fst (twf_h b len k at_))), snd (fst (twf_h c len k at_)), snd (twf_h d len k at_)).
Proof.
  unfold twf_hx, twf_h, twf_fin, twf_st. generalize (tab8 twf_q0) as q0, (tab8 twf_q1) as q1. intros q0 q1.
  destruct (4 <=? len)%nat, (3 <=? len)%nat, (2 <=? len)%nat; reflexivity.
Qed.
Definition key4 (k : list N) (o : nat) : list N := [b_ k o; b_ k (o + 1); b_ k (o + 2); b_ k (o + 3)].
Lemma twf_st_b4 (p0 p1 p2 p3 : list N) k o t : bytes_ok k -> (forall x, tab8 p0 x < 256 /\ tab8 p1 x < 256 /\ tab8 p2 x < 256 /\ tab8 p3 x < 256) -> b4 (twf_st p0 p1 p2 p3 k o t).
Proof.
  destruct t as [[[a b] c] d]. intros Hk Hp. unfold twf_st, b4.
  exact (conj (lxor_byte _ _ (proj1 (Hp a)) (b_lt k _ Hk)) (conj (lxor_byte _ _ (proj1 (proj2 (Hp b))) (b_lt k _ Hk))
    (conj (lxor_byte _ _ (proj1 (proj2 (proj2 (Hp c)))) (b_lt k _ Hk)) (lxor_byte _ _ (proj2 (proj2 (proj2 (Hp d)))) (b_lt k _ Hk))))).
Qed.
Lemma tf_each4 (f0 f1 f2 f3 : N -> N) a b c d : tf_each [f0; f1; f2; f3] [a; b; c; d] = [f0 a; f1 b; f2 c; f3 d].
Proof. reflexivity. Qed.
Lemma xor_list4 a b c d e f g h : xor_list [a; b; c; d] [e; f; g; h] = [N.lxor a e; N.lxor b f; N.lxor c g; N.lxor d h].
Proof. reflexivity. Qed.
Lemma twf_st_pub (p0 p1 p2 p3 : list N) (f0 f1 f2 f3 : N -> N) k o t : b4 t ->
  (forall b, b < 256 -> tab8 p0 b = f0 b) -> (forall b, b < 256 -> tab8 p1 b = f1 b) -> (forall b, b < 256 -> tab8 p2 b = f2 b) -> (forall b, b < 256 -> tab8 p3 b = f3 b) ->
  lt4 (twf_st p0 p1 p2 p3 k o t) = xor_list (tf_each [f0; f1; f2; f3] (lt4 t)) (key4 k o).
Proof.
  destruct t as [[[a b] c] d]. intros (Ha & Hb & Hc & Hd) E0 E1 E2 E3. unfold twf_st, lt4, key4. rewrite tf_each4, xor_list4.
  now rewrite (E0 a Ha), (E1 b Hb), (E2 c Hc), (E3 d Hd).
Qed.
Lemma twf_hx_pub X t L k at_ : le_bytes 4 X = lt4 t -> b4 t -> bytes_ok k -> (2 <= length L <= 4)%nat ->
  (forall i, (i < length L)%nat -> le_bytes 4 (nth i L 0) = key4 k (at_ (S i))) ->
  twf_mds (twf_hx t (length L) k at_) = tf_h X L.
Proof.
  intros EX Bt Hk HL HK. pose proof (fun x => proj1 (twf_q_lt x)) as Q0. pose proof (fun x => proj2 (twf_q_lt x)) as Q1.
  set (s4 := twf_st twf_q1 twf_q0 twf_q0 twf_q1 k (at_ 4%nat)). set (s3 := twf_st twf_q1 twf_q1 twf_q0 twf_q0 k (at_ 3%nat)).
  set (s2 := twf_st twf_q0 twf_q1 twf_q0 twf_q1 k (at_ 2%nat)). set (s1 := twf_st twf_q0 twf_q0 twf_q1 twf_q1 k (at_ 1%nat)).
  assert (B4 : forall t, b4 (s4 t)) by (intros u; apply twf_st_b4; [exact Hk|intros x; exact (conj (Q1 x) (conj (Q0 x) (conj (Q0 x) (Q1 x))))]).
  assert (B3 : forall t, b4 (s3 t)) by (intros u; apply twf_st_b4; [exact Hk|intros x; exact (conj (Q1 x) (conj (Q1 x) (conj (Q0 x) (Q0 x))))]).
  assert (B2 : forall t, b4 (s2 t)) by (intros u; apply twf_st_b4; [exact Hk|intros x; exact (conj (Q0 x) (conj (Q1 x) (conj (Q0 x) (Q1 x))))]).
  assert (B1 : forall t, b4 (s1 t)) by (intros u; apply twf_st_b4; [exact Hk|intros x; exact (conj (Q0 x) (conj (Q0 x) (conj (Q1 x) (Q1 x))))]).
  pose (st := fun y i => xor_list (tf_each (tf_stage i) y) (le_bytes 4 (nth i L 0))).
  assert (S4 : (3 < length L)%nat -> forall u, b4 u -> st (lt4 u) 3%nat = lt4 (s4 u)).
  { intros Hl u Hu. unfold st, s4. rewrite (HK 3%nat Hl). symmetry. exact (twf_st_pub _ _ _ _ tf_q1 tf_q0 tf_q0 tf_q1 k _ u Hu twf_q1_pub twf_q0_pub twf_q0_pub twf_q1_pub). }
  assert (S3 : (2 < length L)%nat -> forall u, b4 u -> st (lt4 u) 2%nat = lt4 (s3 u)).
  { intros Hl u Hu. unfold st, s3. rewrite (HK 2%nat Hl). symmetry. exact (twf_st_pub _ _ _ _ tf_q1 tf_q1 tf_q0 tf_q0 k _ u Hu twf_q1_pub twf_q1_pub twf_q0_pub twf_q0_pub). }
  assert (S2 : (1 < length L)%nat -> forall u, b4 u -> st (lt4 u) 1%nat = lt4 (s2 u)).
  { intros Hl u Hu. unfold st, s2. rewrite (HK 1%nat Hl). symmetry. exact (twf_st_pub _ _ _ _ tf_q0 tf_q1 tf_q0 tf_q1 k _ u Hu twf_q0_pub twf_q1_pub twf_q0_pub twf_q1_pub). }
  assert (S1 : forall u, b4 u -> st (lt4 u) 0%nat = lt4 (s1 u)).
  { intros u Hu. unfold st, s1. rewrite (HK 0%nat) by lia. symmetry. exact (twf_st_pub _ _ _ _ tf_q0 tf_q0 tf_q1 tf_q1 k _ u Hu twf_q0_pub twf_q0_pub twf_q1_pub twf_q1_pub). }
  assert (FIN : forall u, b4 u -> twf_mds (let '(a, b, c, d) := u in (tab8 twf_q1 a, tab8 twf_q0 b, tab8 twf_q1 c, tab8 twf_q0 d)) = le_val (gf_mat 0x169 tf_MDS (tf_each tf_last (lt4 u)))).
  { intros [[[a b] c] d] (Ha & Hb & Hc & Hd). rewrite twf_mds_pub by exact (conj (Q1 a) (conj (Q0 b) (conj (Q1 c) (Q0 d)))). unfold lt4, tf_last. rewrite tf_each4.
    now rewrite (twf_q1_pub a Ha), (twf_q0_pub b Hb), (twf_q1_pub c Hc), (twf_q0_pub d Hd). }
  unfold twf_hx, twf_fin. fold s4 s3 s2 s1. unfold tf_h. rewrite EX. cbv zeta. fold st. rewrite FIN by apply B1. do 3 f_equal.
  assert (C : length L = 2%nat \/ length L = 3%nat \/ length L = 4%nat) by lia.
  destruct C as [C|[C|C]]; rewrite C in *.
  - change (rev (seq 0 2)) with [1; 0]%nat. change (4 <=? 2)%nat with false. change (3 <=? 2)%nat with false. change (2 <=? 2)%nat with true. cbn [fold_left].
    rewrite (S2 ltac:(lia) _ Bt), S1 by apply B2. reflexivity.
  - change (rev (seq 0 3)) with [2; 1; 0]%nat. change (4 <=? 3)%nat with false. change (3 <=? 3)%nat with true. change (2 <=? 3)%nat with true. cbn [fold_left].
    rewrite (S3 ltac:(lia) _ Bt), (S2 ltac:(lia) _ (B3 _)), S1 by apply B2. reflexivity.
  - change (rev (seq 0 4)) with [3; 2; 1; 0]%nat. change (4 <=? 4)%nat with true. change (3 <=? 4)%nat with true. change (2 <=? 4)%nat with true. cbn [fold_left].
    rewrite (S4 ltac:(lia) _ Bt), (S3 ltac:(lia) _ (B4 _)), (S2 ltac:(lia) _ (B3 _)), S1 by apply B2. reflexivity.
Qed.

(** ** Keys *)
Lemma key4_slice k o : (o + 4 <= length k)%nat -> key4 k o = slice o 4 k.
Proof. intros H. rewrite <- bs_slice by exact H. unfold key4, bs_, b_. cbn [seq map]. now rewrite Nat.add_0_r. Qed.
Lemma le_slice4 k o : bytes_ok k -> (o + 4 <= length k)%nat -> le_bytes 4 (le_val (slice o 4 k)) = slice o 4 k.
Proof.
  intros B H. assert (L : length (slice o 4 k) = 4%nat) by now apply length_slice. rewrite <- L at 1. apply le_bytes_val. now apply bytes_slice.
Qed.
Lemma tf_M_word Z odd i len : bytes_ok Z -> length Z = (8 * len)%nat -> (i < len)%nat -> (odd <= 1)%nat ->
  le_bytes 4 (nth i (tf_M Z odd) 0) = key4 Z (4 * (2 * i + odd)).
Proof.
  intros B L Hi Ho. unfold tf_M. rewrite L, (Nat.mul_comm 8 len), Nat.div_mul by discriminate. rewrite Lists.nth_map_seq by exact Hi. cbn [plus].
  rewrite le_slice4 by (auto; lia). symmetry. apply key4_slice. lia.
Qed.
Lemma tf_M_len Z odd len : length Z = (8 * len)%nat -> length (tf_M Z odd) = len.
Proof. intros L. unfold tf_M. now rewrite map_length, seq_length, L, (Nat.mul_comm 8 len), Nat.div_mul by discriminate. Qed.
Lemma tf_S_len Z len : length Z = (8 * len)%nat -> length (tf_S Z) = len.
Proof. intros L. unfold tf_S. now rewrite rev_length, map_length, seq_length, L, (Nat.mul_comm 8 len), Nat.div_mul by discriminate. Qed.
Lemma twf_rs_len k o : length (twf_rs k o) = 4%nat.
Proof. unfold twf_rs. rewrite store32l_bytes. apply length_le_bytes. Qed.
Lemma twf_rs_bytes k o : bytes_ok (twf_rs k o).
Proof. unfold twf_rs. rewrite store32l_bytes. apply bytes_le_bytes. Qed.
Lemma twf_s_facts Z l : length (flat_map (fun y => twf_rs Z (8 * y)) l) = (4 * length l)%nat /\ bytes_ok (flat_map (fun y => twf_rs Z (8 * y)) l).
Proof.
  induction l as [|x l [L W]]; [split; [reflexivity|constructor]|]. cbn [flat_map length]. rewrite app_length, twf_rs_len, L. split; [lia|].
  apply Forall_app. split; [exact (twf_rs_bytes Z _)|exact W].
Qed.
Lemma tf_S_word Z len i : bytes_ok Z -> length Z = (8 * len)%nat -> (i < len)%nat ->
  le_bytes 4 (nth i (tf_S Z) 0) = key4 (flat_map (fun y => twf_rs Z (8 * y)) (seq 0 len)) (4 * (len - S i)).
Proof.
  intros B L Hi. destruct (twf_s_facts Z (seq 0 len)) as [Ls _]. rewrite seq_length in Ls. rewrite key4_slice by lia.
  rewrite (slice_flat_map (fun y => twf_rs Z (8 * y)) 4 len (fun y => twf_rs_len Z (8 * y)) 0 (len - S i)) by lia. cbn [plus].
  rewrite twf_rs_pub by (auto; lia). unfold tf_S. rewrite L, (Nat.mul_comm 8 len), Nat.div_mul by discriminate.
  rewrite rev_nth by (rewrite map_length, seq_length; exact Hi). rewrite map_length, seq_length, Lists.nth_map_seq by lia. reflexivity.
Qed.
Definition rho_ok (v : N) : bool := if list_eq_dec N.eq_dec (le_bytes 4 (v * tf_rho)) [v; v; v; v] then true else false.
Lemma rho_check : forallb rho_ok bytesN = true.
Proof. vm_compute. reflexivity. Qed.
Lemma le_rho v : v < 256 -> le_bytes 4 (v * tf_rho) = [v; v; v; v].
Proof. intros H. pose proof (bytes_check _ v rho_check H) as E. unfold rho_ok in E. now destruct (list_eq_dec _ _ _). Qed.
Lemma tf_mds_ok : words_ok 32 twf_mds0 /\ words_ok 32 twf_mds1 /\ words_ok 32 twf_mds2 /\ words_ok 32 twf_mds3.
Proof. repeat split; apply words_okb; vm_compute; reflexivity. Qed.
Lemma twf_mds_inw t : inw 32 (twf_mds t).
Proof.
  destruct t as [[[a b] c] d]. unfold twf_mds. destruct tf_mds_ok as (W0 & W1 & W2 & W3). repeat apply inw_lxor; apply tab8_inw; assumption.
Qed.
Lemma twf_sub_pub Z len x : bytes_ok Z -> length Z = (8 * len)%nat -> (2 <= len <= 4)%nat -> (x < 128)%nat ->
  twf_sub len Z x = [tf_K Z (2 * x); tf_K Z (2 * x + 1)].
Proof.
  intros B L Hl Hx. unfold twf_sub. rewrite !byte_mod, !N.mod_small by lia.
  pose proof (tf_M_len Z 0 len L) as L0. pose proof (tf_M_len Z 1 len L) as L1.
  assert (E0 : twf_mds (twf_h (N.of_nat (2 * x)) len Z (fun n => 4 * (2 * (n - 1)))%nat) = tf_h (2 * N.of_nat x * tf_rho) (tf_M Z 0)).
  { rewrite twf_h_hx. rewrite <- L0 at 1. replace (2 * N.of_nat x) with (N.of_nat (2 * x)) by lia. apply twf_hx_pub.
    - apply le_rho. lia.
    - cbv beta iota delta [b4]. lia.
    - exact B.
    - lia.
    - intros i Hi. rewrite L0 in Hi. rewrite (tf_M_word Z 0 i len) by (auto; lia). f_equal. lia. }
  assert (E1 : twf_mds (twf_h (N.of_nat (2 * x + 1)) len Z (fun n => 4 * (2 * (n - 1) + 1))%nat) = tf_h ((2 * N.of_nat x + 1) * tf_rho) (tf_M Z 1)).
  { rewrite twf_h_hx. rewrite <- L1 at 1. replace (2 * N.of_nat x + 1) with (N.of_nat (2 * x + 1)) by lia. apply twf_hx_pub.
    - apply le_rho. lia.
    - cbv beta iota delta [b4]. lia.
    - exact B.
    - lia.
    - intros i Hi. rewrite L1 in Hi. rewrite (tf_M_word Z 1 i len) by (auto; lia). f_equal. lia. }
  pose proof (twf_mds_inw (twf_h (N.of_nat (2 * x + 1)) len Z (fun n => 4 * (2 * (n - 1) + 1))%nat)) as I1.
  rewrite E1 in I1. rewrite E0, E1. unfold tf_K.
  replace (2 * x / 2)%nat with x by (rewrite Nat.mul_comm, Nat.div_mul by discriminate; reflexivity).
  replace ((2 * x + 1) / 2)%nat with x by (apply (Nat.div_unique _ 2 x 1); lia).
  rewrite (proj2 (Nat.even_spec (2 * x))) by (exists x; reflexivity).
  replace (Nat.even (2 * x + 1)) with false by (rewrite Nat.even_add, Nat.even_mul; reflexivity).
  generalize dependent (tf_h ((2 * N.of_nat x + 1) * tf_rho) (tf_M Z 1)). generalize (tf_h (2 * N.of_nat x * tf_rho) (tf_M Z 0)). clear. intros A b _ I1.
  rewrite (rol_rotl 32 b 8) by (auto; lia). rewrite (rol_rotl 32 _ 9) by (apply inw_wadd || lia). rewrite !wadd_mod, wshl_mul, N.add_mod_idemp_r by discriminate.
  change (2 ^ 1) with 2. now rewrite (N.mul_comm _ 2).
Qed.
Lemma twf_keys_nth Z len n i : bytes_ok Z -> length Z = (8 * len)%nat -> (2 <= len <= 4)%nat -> (n <= 128)%nat -> (i < 2 * n)%nat ->
  nth i (flat_map (twf_sub len Z) (seq 0 n)) 0 = tf_K Z i.
Proof.
  intros B L Hl Hn Hi.
  assert (G : forall m a, (a + m <= 128)%nat -> flat_map (twf_sub len Z) (seq a m) = map (tf_K Z) (seq (2 * a) (2 * m))).
  { induction m as [|m IH]; intros a Ha; [reflexivity|]. cbn [seq flat_map]. rewrite IH by lia. rewrite twf_sub_pub by (auto; lia).
    replace (2 * S m)%nat with (S (S (2 * m))) by lia. cbn [seq map app]. replace (2 * a + 1)%nat with (S (2 * a)) by lia. replace (2 * S a)%nat with (S (S (2 * a))) by lia. reflexivity. }
  rewrite G by lia. rewrite Lists.nth_map_seq by lia. reflexivity.
Qed.

(** ** The two tables of g *)
Lemma tab8_boxes {A} (f : A -> N) (box : nat -> A) x : tab8 (map f (map box (seq 0 256))) x = f (box (N.to_nat (byte x))).
Proof. unfold tab8. rewrite map_map. pose proof (byte_lt x). rewrite Lists.nth_map_seq by lia. reflexivity. Qed.
Lemma le_bytes_shr x : le_bytes 4 x = [byte x; byte (wshr x 8); byte (wshr x 16); byte (wshr x 24)].
Proof. rewrite <- store32l_bytes. reflexivity. Qed.
Lemma le_bytes_rot8 x : inw 32 x -> le_bytes 4 (rotl 32 x 8) = [byte (wshr x 24); byte x; byte (wshr x 8); byte (wshr x 16)].
Proof.
  intros Hx. pose proof (le_bytes_shr x) as E. set (a := byte x) in *. set (b := byte (wshr x 8)) in *. set (c := byte (wshr x 16)) in *. set (d := byte (wshr x 24)) in *.
  assert (Ha : a < 256) by apply byte_lt. assert (Hb : b < 256) by apply byte_lt. assert (Hc : c < 256) by apply byte_lt. assert (Hd : d < 256) by apply byte_lt.
  assert (V : x = le_val [a; b; c; d]).
  { rewrite <- E, le_val_bytes. symmetry. apply N.mod_small. exact Hx. }
  clearbody a b c d. clear E. assert (B : bytes_ok [d; a; b; c]) by (repeat constructor; assumption).
  rewrite <- (le_bytes_val _ B). cbn [length]. f_equal. rewrite V. cbn [le_val]. unfold rotl.
  change (2 ^ 8) with 256. change (2 ^ 32) with 4294967296. change (2 ^ (32 - 8)) with 16777216.
  rewrite <- (N.mod_unique ((a + 256 * (b + 256 * (c + 256 * (d + 256 * 0)))) * 256) 4294967296 d (256 * (a + 256 * (b + 256 * c)))) by lia.
  rewrite <- (N.div_unique (a + 256 * (b + 256 * (c + 256 * (d + 256 * 0)))) 16777216 d (a + 256 * (b + 256 * c))) by lia. lia.
Qed.
Section G.
  Variables (Z : list N) (len : nat) (r : N) (s : twofish).
  Hypothesis BZ : bytes_ok Z.
  Hypothesis LZ : length Z = (8 * len)%nat.
  Hypothesis Hl : (2 <= len <= 4)%nat.
  Let sk := flat_map (fun y => twf_rs Z (8 * y)) (seq 0 len).
  Let box x := twf_h (N.of_nat x) len sk (fun n => 4 * (len - n))%nat.
  Hypothesis S0 : twf_s0 s = map (fun t => tab8 twf_mds0 (fst (fst (fst t)))) (map box (seq 0 256)).
  Hypothesis S1 : twf_s1 s = map (fun t => tab8 twf_mds1 (snd (fst (fst t)))) (map box (seq 0 256)).
  Hypothesis S2 : twf_s2 s = map (fun t => tab8 twf_mds2 (snd (fst t))) (map box (seq 0 256)).
  Hypothesis S3 : twf_s3 s = map (fun t => tab8 twf_mds3 (snd t)) (map box (seq 0 256)).
  Lemma twf_g_pub a b c d X : le_bytes 4 X = [byte a; byte b; byte c; byte d] ->
    N.lxor (N.lxor (N.lxor (tab8 (twf_s0 s) a) (tab8 (twf_s1 s) b)) (tab8 (twf_s2 s) c)) (tab8 (twf_s3 s) d) = tf_h X (tf_S Z).
  Proof.
    intros E. rewrite S0, S1, S2, S3, !tab8_boxes. unfold box. rewrite !N2Nat.id.
    pose proof (tf_S_len Z len LZ) as LS.
    rewrite <- (twf_hx_pub X (byte a, byte b, byte c, byte d) (tf_S Z) sk (fun n => 4 * (len - n))%nat).
    - rewrite LS, twf_lanes. exact eq_refl.
    - exact E.
    - exact (conj (byte_lt a) (conj (byte_lt b) (conj (byte_lt c) (byte_lt d)))).
    - exact (proj2 (twf_s_facts Z (seq 0 len))).
    - lia.
    - intros i Hi. rewrite LS in Hi. exact (tf_S_word Z len i BZ LZ Hi).
  Qed.
  Lemma twf_g0_pub x : twf_g0 s x = tf_h x (tf_S Z).
  Proof. unfold twf_g0. apply twf_g_pub. apply le_bytes_shr. Qed.
  Lemma twf_g1_pub x : inw 32 x -> twf_g1 s x = tf_h (rotl 32 x 8) (tf_S Z).
  Proof. intros H. unfold twf_g1. apply twf_g_pub. now apply le_bytes_rot8. Qed.

  (** ** Rounds *)
  Variable m : nat.
  Hypothesis Hm : (2 * m + 4 <= 128)%nat.
  Hypothesis SK : twf_k s = flat_map (twf_sub len Z) (seq 0 (2 * m + 4)).
  Lemma tf_K_nth i : (i < 4 * m + 8)%nat -> get (twf_k s) i = Ok (tf_K Z i).
  Proof.
    intros H. rewrite SK. rewrite (get_ok _ _ 0) by (rewrite (proj1 (twf_keys_ok _ _ _)), seq_length; lia).
    now rewrite (twf_keys_nth Z len (2 * m + 4) i BZ LZ Hl) by lia.
  Qed.
  Lemma tf_K_inw i : (i < 4 * m + 8)%nat -> inw 32 (tf_K Z i).
  Proof.
    intros H. rewrite <- (twf_keys_nth Z len (2 * m + 4) i BZ LZ Hl) by lia. apply words_nth. apply twf_keys_ok.
  Qed.
  Lemma tf_h_inw X : inw 32 (tf_h X (tf_S Z)).
  Proof. rewrite <- twf_g0_pub. unfold twf_g0. destruct tf_mds_ok as (W0 & W1 & W2 & W3). rewrite S0, S1, S2, S3, !tab8_boxes. repeat apply inw_lxor; apply tab8_inw; assumption. Qed.
  Let g x := tf_h x (tf_S Z).
  Lemma tf_round_inw x t : (t < 2 * m)%nat -> @w4 32 x -> @w4 32 (tf_round g (tf_K Z) x t).
  Proof.
    intros Ht. destruct x as [[[a b] c] d]. intros (Ha & Hb & Hc & Hd). unfold tf_round.
    assert (M : forall y, inw 32 (y mod 2 ^ 32)) by (intros y; unfold inw; apply N.mod_lt; discriminate).
    split; [|split; [|split; assumption]].
    - rewrite <- ror_rotr by first [lia | apply inw_lxor; [exact Hc|apply M]]. apply inw_ror, inw_lxor; [exact Hc|apply M].
    - rewrite <- rol_rotl by (auto; lia). apply inw_lxor; [now apply inw_rol|apply M].
  Qed.
  Lemma twf_two_rounds x i : (i < m)%nat -> @w4 32 x -> twf_enc_round s (8 + 4 * i) x = Ok (fold_left (tf_round g (tf_K Z)) (seq (2 * i) 2) x).
  Proof.
    intros Hi. destruct x as [[[a b] c] d]. intros (Ha & Hb & Hc & Hd). unfold twf_enc_round. rewrite !tf_K_nth by lia. cbn [bind seq fold_left].
    assert (K0 := tf_K_inw (8 + 4 * i) ltac:(lia)). assert (K1 := tf_K_inw (8 + 4 * i + 1) ltac:(lia)).
    assert (K2 := tf_K_inw (8 + 4 * i + 2) ltac:(lia)). assert (K3 := tf_K_inw (8 + 4 * i + 3) ltac:(lia)).
    unfold tf_round at 2.
    replace (2 * (2 * i) + 8)%nat with (8 + 4 * i)%nat by lia. replace (2 * (2 * i) + 9)%nat with (8 + 4 * i + 1)%nat by lia.
    unfold tf_round. replace (2 * S (2 * i) + 8)%nat with (8 + 4 * i + 2)%nat by lia. replace (2 * S (2 * i) + 9)%nat with (8 + 4 * i + 3)%nat by lia.
    generalize dependent (tf_K Z (8 + 4 * i)). generalize dependent (tf_K Z (8 + 4 * i + 1)). generalize dependent (tf_K Z (8 + 4 * i + 2)). generalize dependent (tf_K Z (8 + 4 * i + 3)).
    intros k3 K3 k2 K2 k1 K1 k0 K0.
    assert (A0 : forall u v k, wadd 32 (wadd 32 u v) k = (u + v + k) mod 2 ^ 32) by (intros u v k; rewrite !wadd_mod, N.add_mod_idemp_l by discriminate; reflexivity).
    assert (A1 : forall u v k, wadd 32 (wadd 32 v (wadd 32 u v)) k = (u + 2 * v + k) mod 2 ^ 32).
    { intros u v k. rewrite !wadd_mod, N.add_mod_idemp_r, N.add_mod_idemp_l by discriminate. f_equal. lia. }
    rewrite !A1, !A0, !twf_g0_pub, (twf_g1_pub b Hb). fold (g a) (g (rotl 32 b 8)).
    set (T0 := g a). set (T1 := g (rotl 32 b 8)).
    assert (M : forall y, inw 32 (y mod 2 ^ 32)) by (intros y; unfold inw; apply N.mod_lt; discriminate).
    rewrite (rol_rotl 32 d 1) by (auto; lia). rewrite (ror_rotr 32 (N.lxor c _) 1) by first [lia | apply inw_lxor; [exact Hc|apply M]].
    set (c' := rotr 32 _ 1). set (d' := N.lxor (rotl 32 d 1) _).
    assert (Hd' : inw 32 d') by (unfold d'; rewrite <- rol_rotl by (auto; lia); apply inw_lxor; [now apply inw_rol|apply M]).
    rewrite (twf_g1_pub d' Hd'). fold (g c') (g (rotl 32 d' 8)). 
    rewrite (rol_rotl 32 b 1) by (auto; lia). rewrite (ror_rotr 32 (N.lxor a _) 1) by first [lia | apply inw_lxor; [exact Ha|apply M]]. reflexivity.
  Qed.
  Lemma twf_enc_pub pt : twf_r s = 2 * N.of_nat m -> blk 16 pt -> twofish_encrypt s pt = Ok (twofish_full_any (2 * m) Z pt).
  Proof.
    intros Er Hp. unfold twofish_encrypt. rewrite Er. replace (N.to_nat (2 * N.of_nat m / 2)) with m by (rewrite N.mul_comm, N.div_mul by discriminate; now rewrite Nat2N.id). rewrite ld4_le32 by exact Hp.
    unfold twf_white at 1. rewrite !tf_K_nth by lia. cbn [bind]. change (0 + 1)%nat with 1%nat. change (0 + 2)%nat with 2%nat. change (0 + 3)%nat with 3%nat. unfold twofish_full_any. change (fun x => tf_h x (tf_S Z)) with g. cbv zeta. unfold word.
    set (x0 := (_, _, _, _)).
    assert (I : @w4 32 x0).
    { unfold x0. assert (J : forall i, (i < 4)%nat -> inw 32 (N.lxor (nth i (le_words 4 4 pt) 0) (tf_K Z i))).
      { intros i Hi. apply inw_lxor; [apply (le_words_word 4); [apply Hp|reflexivity]|apply tf_K_inw; lia]. }
      exact (conj (J 0%nat ltac:(lia)) (conj (J 1%nat ltac:(lia)) (conj (J 2%nat ltac:(lia)) (J 3%nat ltac:(lia))))). }
    destruct (mfor_fold (fun _ y u => y = u /\ @w4 32 y) m 0 (fun i x => twf_enc_round s (8 + 4 * i) x)
      (fun x j => fold_left (tf_round g (tf_K Z)) (seq (2 * j) 2) x) x0 x0) as (z & Ez & Ez' & _).
    - intros t y u Ht [<- W]. rewrite twf_two_rounds by (auto; lia). eexists. split; [reflexivity|]. split; [reflexivity|]. cbn [seq fold_left]. apply tf_round_inw; [lia|]. apply tf_round_inw; [lia|exact W].
    - now split.
    - rewrite Ez. cbn [bind]. rewrite <- (fold_groups (tf_round g (tf_K Z)) 2 m 0 x0) in Ez'. change (2 * 0)%nat with 0%nat in Ez'. rewrite <- Ez'.
      destruct z as [[[a b] c] d]. unfold twf_swap, twf_white. rewrite !tf_K_nth by lia. cbn [bind plus]. now rewrite st4_le32.
  Qed.
End G.

Lemma twofish_create_gen r key s : twofish_create r key = Ok s -> s = twf_setup (twofish_rounds r) key.
Proof.
  intros H. unfold twofish_create in H. apply assert_inv in H. destruct H as [_ H]. cbv zeta in H. apply fits_inv in H. destruct H as [_ H]. now apply Ok_inj in H.
Qed.
Lemma twofish_any_enc m key pt : (2 * m + 4 <= 128)%nat -> bytes_ok key -> twofish_lengths key -> blk 16 pt ->
  twofish_encrypt (twf_setup (2 * N.of_nat m) key) pt = Ok (twofish_any (2 * m) key pt).
Proof.
  intros Hm Hb Hk Hp. unfold twofish_any, twofish_lengths in *.
  assert (El : (2 <= twf_len key <= 4)%nat /\ tf_size (length key) = (8 * twf_len key)%nat).
  { unfold twf_len, tf_size. set (n := length key) in *. clearbody n. pose proof (Nat.div_mod (n + 7) 8 ltac:(lia)) as D. pose proof (Nat.mod_upper_bound (n + 7) 8 ltac:(lia)) as U.
    destruct (Nat.leb_spec n 16); [|destruct (Nat.leb_spec n 24)]; lia. }
  destruct El as [El Ez]. assert (Ln : (length key <= 8 * twf_len key)%nat) by (rewrite <- Ez; unfold tf_size; destruct (Nat.leb_spec (length key) 16); [|destruct (Nat.leb_spec (length key) 24)]; lia).
  assert (EK : twf_k (twf_setup (2 * N.of_nat m) key) = flat_map (twf_sub (twf_len key) (twf_key key)) (seq 0 (2 * m + 4))).
  { change (twf_k (twf_setup (2 * N.of_nat m) key)) with (flat_map (twf_sub (twf_len key) (twf_key key)) (seq 0 (N.to_nat (2 * N.of_nat m) + 4))). replace (N.to_nat (2 * N.of_nat m)) with (2 * m)%nat by lia. reflexivity. }
  rewrite Ez. change (zero_pad (8 * twf_len key) key) with (twf_key key).
  refine (twf_enc_pub (twf_key key) (twf_len key) (twf_setup (2 * N.of_nat m) key) _ _ El eq_refl eq_refl eq_refl eq_refl m Hm EK pt eq_refl Hp).
  - apply bytes_zero_pad, Hb.
  - now apply length_zero_pad.
Qed.
Lemma twofish_any_16 key pt : twofish_any 16 key pt = twofish_cipher key pt.
Proof.
  unfold twofish_any, twofish_cipher, twofish_full_any, twofish_full. generalize (zero_pad (tf_size (length key)) key). intros k.
  generalize tf_h, tf_S, tf_K. intros h S K. generalize (tf_round (fun x => h x (S k)) (K k)). intros f. cbv zeta.
  generalize (fold_left f (seq 0 16)). intros F. reflexivity.
Qed.
Lemma twofish_published : is_cipher twofish_desc twofish_lengths twofish_cipher.
Proof.
  apply (is_cipher_default _ _ _ twofish_default); [intros key Hk; change (bc_maxkey twofish_desc) with 32%nat; unfold twofish_lengths in Hk; lia|].
  intros key s Hb Hk Es pt Hp. apply twofish_create_gen in Es. change (twofish_rounds 0) with (2 * N.of_nat 8) in Es.
  change (bc_enc twofish_desc) with twofish_encrypt. change (bc_bs twofish_desc) with 16%nat in Hp.
  rewrite Es. rewrite (twofish_any_enc 8) by (assumption || lia). replace (2 * 8)%nat with 16%nat by reflexivity. rewrite twofish_any_16. reflexivity.
Qed.
Definition differs (c : bcipher) (E : list N -> list N -> list N) (key pt : list N) : bool :=
  match bc_create c 0 key with
  | Ok s => match bc_enc c s pt with Ok x => if list_eq_dec N.eq_dec x (E key pt) then false else true | Err _ => false end
  | Err _ => false end.
Lemma differs_ex c E key pt : differs c E key pt = true -> exists s, bc_create c 0 key = Ok s /\ bc_enc c s pt <> Ok (E key pt).
Proof.
  unfold differs. destruct (bc_create c 0 key) as [s|e]; [|discriminate]. intros H. exists s. split; [reflexivity|].
  destruct (bc_enc c s pt) as [x|e]; [|discriminate H]. destruct (list_eq_dec _ _ _) as [D|D]; [discriminate H|]. intros F. apply Ok_inj in F. exact (D F).
Qed.
Lemma tf_short_check : differs twofish_desc twofish_cipher (repeat 0 8) (repeat 0 16) = true.
Proof. vm_compute. reflexivity. Qed.
Lemma twofish_short : exists key s pt, (0 < length key <= 8)%nat /\ bytes_ok key /\ bc_create twofish_desc 0 key = Ok s /\
  blk 16 pt /\ bc_enc twofish_desc s pt <> Ok (twofish_cipher key pt).
Proof.
  destruct (differs_ex _ _ _ _ tf_short_check) as (s & E & D). exists (repeat 0 8), s, (repeat 0 16).
  split; [rewrite repeat_length; lia|]. split; [apply bytes_repeat0|]. split; [exact E|]. split; [apply blk_zero|exact D].
Qed.
